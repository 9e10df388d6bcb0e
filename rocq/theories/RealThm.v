(** * realpath: proofs. *)
From Verif Require Export RealSpec RelThm WalkThm.

(** ** more fuel changes nothing *)
Lemma loop_mono (f g : str -> str -> seen_dict -> res (str * bool * seen_dict)) s :
  (forall a b d r, f a b d = Ok r -> g a b d = Ok r) ->
  forall comps path seen r, real_loop f s path comps seen = Ok r -> real_loop g s path comps seen = Ok r.
Proof.
  intros H. induction comps as [|w rest IH]; intros path seen r; cbn [real_loop]; [auto|].
  destruct (str_eqb w [] || str_eqb w dot); [apply IH|]. destruct (str_eqb w dotdot).
  - destruct (nonempty path); [|apply IH]. destruct (splitpath (f_cfg s) path) as [a b]. destruct (str_eqb b dotdot); apply IH.
  - destruct (islink s (join2 (f_cfg s) path w)) as [l|e]; cbn [rbind]; [|auto]. destruct l; cbn [negb]; [|apply IH].
    destruct (assoc _ seen) as [[v|]|]; [apply IH|auto|]. destruct (readlink s _) as [t|e]; cbn [rbind]; [|auto].
    destruct (f path t _) as [[[v ok] d]|e] eqn:E; cbn [rbind]; [|discriminate]. rewrite (H _ _ _ _ E). cbn [rbind]. destruct ok; cbn [negb]; [apply IH|auto].
Qed.
Lemma joinreal_mono n s : forall path p seen r, joinrealpath n s path p seen = Ok r -> joinrealpath (S n) s path p seen = Ok r.
Proof.
  induction n as [|n IH]; intros path p seen r; [discriminate|]. intros E.
  cbn [joinrealpath] in E. change (joinrealpath (S (S n)) s path p seen) with (let (path, rest) := if path_isabs (f_cfg s) p then ([c_sep (f_cfg s)], tl p) else (path, p) in
      real_loop (joinrealpath (S n) s) s path (split_on (c_sep (f_cfg s)) rest) seen).
  destruct (path_isabs (f_cfg s) p); apply (loop_mono (joinrealpath n s)); assumption.
Qed.
Lemma realpath_mono n m s p q : n <= m -> realpath_n n s p = Ok q -> realpath_n m s p = Ok q.
Proof.
  unfold realpath_n. destruct (c_win (f_cfg s)); [auto|]. intros H. destruct (joinrealpath n s [] p []) as [r|e] eqn:E; [|discriminate].
  assert (K : joinrealpath m s [] p [] = Ok r) by (induction H; [exact E|apply joinreal_mono; assumption]). rewrite K. auto.
Qed.

Section R.
Variable s : fs.
Hypothesis HG : Ginv s.
Hypothesis HL : honest_links s.
Hypothesis HD : honest_dirs s.
Hypothesis HN : null_free s.
Hypothesis HO : open_dirs s.
Notation sp := (sepc s).
Notation c := (f_cfg s).

Definition lk (pos : list str) (w : str) : option str :=
  match at_names s (rev (w :: pos)) with
  | Some l => if is_link s l then match o_body (ob s l) with BFile (Some t) => Some t | _ => None end else None
  | None => None
  end.
Lemma lk_some pos w t : lk pos w = Some t <-> link_at s pos w t.
Proof.
  unfold lk, link_at. destruct (at_names s (rev (w :: pos))) as [l|].
  2:{ split; [discriminate|intros (l & E & _); discriminate]. }
  split.
  - destruct (is_link s l) eqn:E; [|discriminate]. destruct (o_body (ob s l)) as [|[d|]] eqn:Eb; try discriminate. intros [= ->]. exists l. auto.
  - intros (l' & [= <-] & E & Eb). rewrite E, Eb. reflexivity.
Qed.
Lemma lk_none pos w : lk pos w = None <-> no_link_at s pos w.
Proof.
  unfold lk, no_link_at. destruct (at_names s (rev (w :: pos))) as [l|] eqn:Ea; [|split; [discriminate|reflexivity]].
  cbn [rev] in Ea. destruct (tree_at_last s w _ _ _ Ea) as [d Hd].
  split.
  - intros H l' [= <-]. destruct (is_link s l) eqn:E; [|reflexivity]. destruct (HL d w l Hd E) as [t Et]. rewrite Et in H. discriminate.
  - intros H. rewrite (H l eq_refl). reflexivity.
Qed.

(** ** an evaluator *)
Definition base (pos : list str) (t : str) : list str := if is_abs sp t then [] else pos.
Section Evl.
Variable rec : list str -> list str -> option (list str).
Fixpoint evl (pos comps : list str) : option (list str) :=
  match comps with
  | [] => Some pos
  | w :: rest =>
      if str_eqb w [] || str_eqb w dot then evl pos rest
      else if str_eqb w dotdot then evl (tl pos) rest
      else match lk pos w with
           | None => evl (w :: pos) rest
           | Some t => match rec (base pos t) (split_on sp t) with
                       | Some m => evl m rest
                       | None => None
                       end
           end
  end.
End Evl.
Fixpoint ev (n : nat) : list str -> list str -> option (list str) :=
  match n with O => evl (fun _ _ => None) | S k => evl (ev k) end.
Lemma evl_mono (f g : list str -> list str -> option (list str)) :
  (forall a b r, f a b = Some r -> g a b = Some r) ->
  forall comps pos r, evl f pos comps = Some r -> evl g pos comps = Some r.
Proof.
  intros H. induction comps as [|w rest IH]; intros pos r; cbn [evl]; [auto|].
  destruct (str_eqb w [] || str_eqb w dot); [apply IH|]. destruct (str_eqb w dotdot); [apply IH|].
  destruct (lk pos w) as [t|]; [|apply IH]. destruct (f (base pos t) (split_on sp t)) as [m|] eqn:E; [|discriminate].
  rewrite (H _ _ _ E). apply IH.
Qed.
Lemma ev_S n : forall pos comps r, ev n pos comps = Some r -> ev (S n) pos comps = Some r.
Proof.
  induction n as [|n IH]; intros pos comps r; cbn [ev].
  - apply evl_mono. discriminate.
  - apply evl_mono. exact IH.
Qed.
Lemma ev_le n m pos comps r : n <= m -> ev n pos comps = Some r -> ev m pos comps = Some r.
Proof. induction 1; [auto|]. intros E. apply ev_S, IHle, E. Qed.
Lemma ev_det n m pos comps r r' : ev n pos comps = Some r -> ev m pos comps = Some r' -> r = r'.
Proof. intros A B. apply (ev_le n (n + m)) in A; [|lia]. apply (ev_le m (n + m)) in B; [|lia]. congruence. Qed.
Lemma ev_none_le n m pos comps : n <= m -> ev m pos comps = None -> ev n pos comps = None.
Proof. intros H E. destruct (ev n pos comps) as [r|] eqn:Q; [|reflexivity]. rewrite (ev_le n m _ _ r H Q) in E. discriminate. Qed.
(** the least depth *)
Lemma ev_least n pos comps r : ev n pos comps = Some r -> exists m, m <= n /\ ev m pos comps = Some r /\ forall k, m = S k -> ev k pos comps = None.
Proof.
  induction n as [|n IH]; intros E.
  - exists 0. split; [lia|]. split; [exact E|]. discriminate.
  - destruct (ev n pos comps) as [r'|] eqn:Q.
    + assert (r' = r) by (apply (ev_det n (S n) pos comps); assumption). subst r'. destruct (IH eq_refl) as (m & H1 & H2 & H3). exists m. split; [lia|auto].
    + exists (S n). split; [lia|]. split; [exact E|]. intros k [= <-]. exact Q.
Qed.

Lemma dots w : str_eqb w [] || str_eqb w dot = true <-> w = [] \/ w = L ".".
Proof. rewrite orb_true_iff, !str_eqb_eq. reflexivity. Qed.
Lemma ordinary_iff w : ~ In sp w -> str_eqb w [] || str_eqb w dot = false -> str_eqb w dotdot = false -> ordinary sp w.
Proof.
  intros H1 H2 H3. apply orb_false_iff in H2. destruct H2 as [H2 H4]. repeat split; try exact H1; intros E; subst w.
  - discriminate.
  - discriminate.
  - discriminate.
Qed.
Lemma ev_real n : forall pos comps r, (forall w, In w comps -> ~ In sp w) -> ev n pos comps = Some r -> real s pos comps r.
Proof.
  induction n as [|n IHn]; intros pos comps; revert pos; induction comps as [|w rest IH]; intros pos r Hc; cbn [ev evl].
  1,3: intros [= <-]; constructor.
  all: destruct (str_eqb w [] || str_eqb w dot) eqn:E1; [intros E; apply real_stay; [apply dots, E1|apply IH; [intros v Hv; apply Hc; right; exact Hv|exact E]]|].
  all: destruct (str_eqb w dotdot) eqn:E2; [apply str_eqb_eq in E2; subst w; intros E; apply real_up, IH; [intros v Hv; apply Hc; right; exact Hv|exact E]|].
  all: assert (Ho := ordinary_iff w (Hc w (or_introl eq_refl)) E1 E2).
  all: destruct (lk pos w) as [t|] eqn:El; [|intros E; apply real_name; [exact Ho|apply lk_none, El|apply IH; [intros v Hv; apply Hc; right; exact Hv|exact E]]].
  - discriminate.
  - destruct (ev n (base pos t) (split_on sp t)) as [m|] eqn:Em; [|discriminate]. intros E. apply (real_link s pos w rest t m r Ho).
    + apply lk_some, El.
    + apply IHn in Em; [exact Em|]. intros v Hv. apply (split_on_clean sp t v Hv).
    + apply IH; [intros v Hv; apply Hc; right; exact Hv|exact E].
Qed.
Lemma ordinary_tests w : ordinary sp w -> str_eqb w [] || str_eqb w dot = false /\ str_eqb w dotdot = false.
Proof.
  intros (A & B & D & _). split.
  - apply orb_false_iff. split; apply not_true_is_false; intros E; apply str_eqb_eq in E; contradiction.
  - apply not_true_is_false; intros E; apply str_eqb_eq in E; contradiction.
Qed.
Lemma evl_cons_mono n m pos comps r : n <= m -> ev n pos comps = Some r -> evl (match m with O => fun _ _ => None | S k => ev k end) pos comps = Some r.
Proof. intros H E. apply (ev_le n m _ _ _ H) in E. destruct m; exact E. Qed.
Lemma real_ev pos comps r : real s pos comps r -> exists n, ev n pos comps = Some r.
Proof.
  induction 1 as [pos|pos w rest r Hw _ [n IH]|pos rest r _ [n IH]|pos w rest r Ho Hl _ [n IH]|pos w rest t m r Ho Hl _ [n1 IH1] _ [n2 IH2]].
  - exists 0. reflexivity.
  - exists n. apply dots in Hw. destruct n; cbn [ev evl]; rewrite Hw; exact IH.
  - exists n. destruct n; cbn [ev evl]; exact IH.
  - exists n. destruct (ordinary_tests w Ho) as [E1 E2]. apply lk_none in Hl. destruct n; cbn [ev evl]; rewrite E1, E2, Hl; exact IH.
  - exists (S (n1 + n2)). destruct (ordinary_tests w Ho) as [E1 E2]. apply lk_some in Hl. cbn [ev evl]. rewrite E1, E2, Hl.
    fold (base pos t) in IH1. rewrite (ev_le n1 (n1 + n2) _ _ m) by (try lia; exact IH1).
    apply (evl_cons_mono n2 (S (n1 + n2))) in IH2; [exact IH2|lia].
Qed.

(** ** positions without links *)
Definition LF (pos : list str) : Prop := Forall (ordinary sp) (rev pos) /\ forall pre n l rest, ~ meets_link s (rev pos) pre n l rest.
Lemma LF_nil : LF [].
Proof. split; [constructor|]. intros pre n l rest (E & _). destruct pre; discriminate. Qed.
Lemma LF_tl pos : LF pos -> LF (tl pos).
Proof.
  destruct pos as [|w pos]; [auto|]. cbn [tl]. intros [H1 H2]. cbn [rev] in *. split; [apply Forall_app in H1; apply H1|].
  apply (linkfree_prefix s (rev pos) [w] H2).
Qed.
Lemma LF_cons pos w : LF pos -> ordinary sp w -> lk pos w = None -> LF (w :: pos).
Proof.
  intros [H1 H2] Ho Hl. split; [cbn [rev]; apply Forall_app; auto|]. intros pre n l rest (E & A & B). cbn [rev] in E.
  destruct (exists_last (l := n :: rest)) as (r' & y & Er); [discriminate|]. rewrite Er, app_assoc in E. apply app_inj_tail in E. destruct E as [E ->].
  destruct r' as [|m r'].
  - cbn [app] in Er. injection Er as -> ->. rewrite app_nil_r in E. subst pre. apply lk_none in Hl. specialize (Hl l). cbn [rev] in Hl. rewrite (Hl A) in B. discriminate.
  - cbn [app] in Er. injection Er as -> Er. apply (H2 pre m l r'). split; [exact E|]. split; assumption.
Qed.
Lemma LF_resolve pos d : LF pos -> resolve s (abs_path sp (rev pos)) true = Ok d -> is_dirobj s d = true -> at_names s (rev pos) = Some d.
Proof.
  intros [H1 H2] E Hd. assert (Hg := Ginv_good s HG). unfold resolve in E. apply (resolve_ok s Hg) in E. destruct E as (rr & Er & Hc & K).
  apply (resolve_path_ok s Hg) in Er. destruct Er as (_ & _ & names & rr' & Hn & En & Hr & Eq).
  assert (names = rev pos). { rewrite (anp_abs_path s (rev pos) Hg H1) in En. symmetry in En. apply (abs_path_inj c) in En; [exact En|exact (linux_like_posix _ (gd_lin _ Hg))|exact Hn|exact H1]. }
  subst names. assert (rr' = rev pos) by (apply (resolved_det s Hg (rev pos)); [exact Hr|apply linkfree_resolved, H2]). subst rr'.
  assert (rr = rev pos). { apply (abs_path_clean_inj c (gd_lin _ Hg)) in Eq; [exact Eq|exact Hc|]. apply Forall_clean, H1. }
  subst rr. destruct K as [[K ->]|(_ & K & _)]; [|exact K]. rewrite (not_dirobj_null s HG) in Hd. discriminate.
Qed.
Lemma LF_parent pos w o : LF pos -> ordinary sp w -> at_names s (rev (w :: pos)) = Some o ->
  exists d, resolve s (abs_path sp (rev pos)) true = Ok d /\ has_bit (o_mode (ob s d)) PERM_READ = true /\ entry s d w = Some o.
Proof.
  intros [H1 H2] Ho E. assert (Hg := Ginv_good s HG). cbn [rev] in E. destruct (prefix_dirs s (rev pos) w [] o E) as (d & Ed & Hd).
  exists d. split; [|split; [apply HO, Hd|]].
  - assert (Hnn : ~ is_null s (rev pos)). { intros K. apply HN in K. congruence. }
    unfold resolve. apply (resolve_ok s Hg). exists (rev pos). split; [apply (linkfree_resolve_path s HG _ (rev pos) d (le_n _) Ed H2)|]. split; [apply Forall_clean, H1|].
    right. split; [exact Hnn|]. split; [exact Ed|].
    assert (Dp : forall pre n rest o', rev pos = pre ++ n :: rest -> at_names s pre = Some o' -> is_dirobj s o' = true).
    { intros pre n rest o' Er Eo. rewrite Er in Ed. destruct (prefix_dirs s pre n rest d Ed) as (d' & E1 & E2). rewrite Eo in E1. injection E1 as ->. exact E2. }
    split.
    + intros pre n rest o' Er Eo. rewrite HD. apply (Dp pre n rest o' Er Eo).
    + right. right. intros pre rest o' Er _ Eo. apply HO. destruct rest as [|n rest]; [|apply (Dp pre n rest o' Er Eo)].
      rewrite app_nil_r in Er. subst pre. change (at_names s (rev pos) = Some o') in Eo. rewrite Ed in Eo. injection Eo as <-. exact Hd.
  - unfold at_names in E. rewrite tree_at_app in E. unfold at_names in Ed. rewrite Ed in E. cbn [tree_at] in E. destruct (entry s d w); [exact E|discriminate].
Qed.
Lemma islink_at pos w : LF pos -> ordinary sp w ->
  islink s (abs_path sp (rev (w :: pos))) = Ok (match lk pos w with Some _ => true | None => false end).
Proof.
  intros Hf Ho. assert (Hw : Forall (ordinary sp) (rev pos ++ [w])) by (apply Forall_app; split; [apply Hf|auto]).
  destruct (type_total s (abs_path sp (rev (w :: pos))) S_IFLNK false HG HL HD) as [b Eb]. change (islink s (abs_path sp (rev (w :: pos))) = Ok b) in Eb. rewrite Eb. f_equal.
  cbn [rev] in Eb. destruct b.
  - apply (islink_iff s _ _ HG Hw) in Eb. destruct Eb as (d & o & Ed & _ & Ee & El). assert (Hd := entry_dirobj s d w o Ee).
    assert (A := LF_resolve pos d Hf Ed Hd). destruct (HL d w o Ee El) as [t Et].
    assert (K : lk pos w = Some t). { apply lk_some. exists o. split; [|auto]. cbn [rev]. unfold at_names in *. rewrite tree_at_app, A. cbn [tree_at]. rewrite Ee. reflexivity. }
    rewrite K. reflexivity.
  - destruct (lk pos w) as [t|] eqn:El; [|reflexivity]. apply lk_some in El. destruct El as (o & Eo & Hl & _).
    destruct (LF_parent pos w o Hf Ho Eo) as (d & A & B & D).
    assert (K : islink s (abs_path sp (rev pos ++ [w])) = Ok true) by (apply (islink_iff s _ _ HG Hw); exists d, o; auto). congruence.
Qed.
Lemma readlink_at pos w t : LF pos -> ordinary sp w -> lk pos w = Some t -> readlink s (abs_path sp (rev (w :: pos))) = Ok t.
Proof.
  intros Hf Ho El. apply lk_some in El. destruct El as (o & Eo & Hl & Eb). assert (Hw : Forall (ordinary sp) (rev pos ++ [w])) by (apply Forall_app; split; [apply Hf|auto]).
  destruct (LF_parent pos w o Hf Ho Eo) as (d & A & B & D). unfold readlink. cbn [rev].
  assert (Q : lresolve s (abs_path sp (rev pos ++ [w])) = Ok o).
  { apply (lresolve_snoc s (Ginv_good s HG) _ _ _ _ Hw). exists d. split; [exact A|]. split; [apply (entry_dirobj s d w o D)|auto]. }
  rewrite Q. cbn [rbind]. unfold is_link, S_ISLNK in Hl. rewrite Hl. cbn [negb].
  assert (Es : ends_with_path_separator c (abs_path sp (rev pos ++ [w])) = false) by (apply (ends_sep_clean c (gi_lin _ HG)); apply Forall_clean, Hw).
  rewrite Es. unfold text_contents. rewrite Eb. reflexivity.
Qed.

(** ** the strings *)
Notation at_ pos := (abs_path sp (rev pos)).
Lemma lin : linux_like c. Proof. exact (gi_lin _ HG). Qed.
Lemma join_at pos w : Forall (ordinary sp) (rev (w :: pos)) -> join2 c (at_ pos) w = at_ (w :: pos).
Proof.
  cbn [rev]. intros H. unfold join2. rewrite (joinpaths_two c (linux_like_posix _ lin) (linux_like_abs _ lin)).
  apply Forall_app in H. destruct H as [H1 H2]. inversion H2 as [|? ? Ho _]; subst.
  destruct (ordinary_head c w Ho) as (x & r & E & Hx). rewrite E at 1. cbn [is_abs]. replace (Ascii.eqb x sp) with false by (symmetry; apply Ascii.eqb_neq; exact Hx).
  destruct (rev pos) as [|n l] eqn:El.
  - cbn [abs_path join_with app nonempty andb]. unfold ends_with_char. cbn. rewrite Ascii.eqb_refl. reflexivity.
  - assert (En : ends_with_char sp (abs_path sp (n :: l)) = false).
    { assert (Q := ends_sep_clean c lin (n :: l) (Forall_clean _ _ H1)). unfold ends_with_path_separator in Q. rewrite (ll_alt _ lin) in Q.
      change (sep c) with sp in Q. cbn [nonempty] in Q. unfold abs_path in *. destruct (join_with [sp] (n :: l)) as [|a s0] eqn:Ej.
      - exfalso. inversion H1 as [|? ? Hn _]; subst. destruct Hn as (Hn & _). destruct n; [congruence|]. destruct l; discriminate.
      - rewrite orb_false_r in Q. cbn [andb negb nonempty] in Q. destruct (str_eqb (sp :: a :: s0) [sp]) eqn:Es; [apply str_eqb_eq in Es; discriminate|exact Q]. }
    rewrite En. unfold abs_path. cbn [nonempty andb negb]. rewrite join_with_app by discriminate. reflexivity.
Qed.
Lemma split_at w pos : Forall (ordinary sp) (rev (w :: pos)) -> splitpath c (at_ (w :: pos)) = (at_ pos, w).
Proof. intros H. apply (splitpath_abs_path c (linux_like_posix _ lin) _ _ H). Qed.
Lemma at_inj a b : Forall (ordinary sp) (rev a) -> Forall (ordinary sp) (rev b) -> at_ a = at_ b -> a = b.
Proof.
  intros Ha Hb E. apply (abs_path_inj c (linux_like_posix _ lin) _ _ Ha Hb) in E. rewrite <- (rev_involutive a), E. apply rev_involutive.
Qed.
Lemma join_abs a b : is_abs sp a = true -> is_abs sp (join2 c a b) = true.
Proof.
  intros H. unfold join2. rewrite (joinpaths_two c (linux_like_posix _ lin) (linux_like_abs _ lin)). destruct (is_abs sp b) eqn:E; [exact E|].
  destruct a as [|x a]; [discriminate|]. destruct (_ && _); exact H.
Qed.

(** ** at most so many links *)
Definition links (I : list (list str)) : Prop :=
  NoDup I /\ forall x, In x I -> exists w pos t, x = w :: pos /\ LF pos /\ ordinary sp w /\ lk pos w = Some t.
Definition all_entries (n : nat) : list (oid * str) := flat_map (fun d => map (fun e => (d, fst e)) (ents s d)) (seq 0 n).
Lemma all_entries_length n : length (all_entries n) = count_entries s n.
Proof.
  induction n as [|n IH]; [reflexivity|]. cbn [count_entries]. rewrite <- IH. unfold all_entries. rewrite seq_S, flat_map_app, app_length. cbn [flat_map]. rewrite app_nil_r, map_length. reflexivity.
Qed.
Lemma links_bound I : links I -> length I <= count_entries s (f_next s).
Proof.
  intros [Hn H]. rewrite <- all_entries_length.
  set (f := fun x : list str => match at_names s (rev (tl x)) with Some d => (d, hd [] x) | None => (0, []) end).
  assert (Hf : forall x, In x I -> exists w pos d, x = w :: pos /\ at_names s (rev pos) = Some d /\ (exists o, entry s d w = Some o) /\ f x = (d, w)).
  { intros x Hx. destruct (H x Hx) as (w & pos & t & -> & Hl & Ho & El). apply lk_some in El. destruct El as (o & Eo & _). cbn [rev] in Eo.
    destruct (prefix_dirs s (rev pos) w [] o Eo) as (d & Ed & Hd). exists w, pos, d. split; [reflexivity|]. split; [exact Ed|].
    split; [|unfold f; cbn [tl hd]; rewrite Ed; reflexivity]. exists o. unfold at_names in *. rewrite tree_at_app, Ed in Eo. cbn [tree_at] in Eo. destruct (entry s d w); [exact Eo|discriminate]. }
  rewrite <- (map_length f). apply NoDup_incl_length.
  - clear H. induction Hn as [|x I Hx _ IH]; [constructor|]. cbn [map]. constructor; [|apply IH; intros y Hy; apply Hf; right; exact Hy].
    intros Hi. apply in_map_iff in Hi. destruct Hi as (y & E & Hy).
    destruct (Hf x (or_introl eq_refl)) as (w & pos & d & -> & Ed & (o & Eo) & E1). destruct (Hf y (or_intror Hy)) as (w' & pos' & d' & -> & Ed' & (o' & Eo') & E2).
    rewrite E1, E2 in E. injection E as -> ->. apply Hx. assert (Ep : rev pos = rev pos') by (apply (dir_one_path s HG _ _ d); [apply (entry_dirobj s d w o Eo)|assumption|assumption]).
    apply (f_equal (@rev str)) in Ep. rewrite !rev_involutive in Ep. subst pos'. exact Hy.
  - intros q Hq. apply in_map_iff in Hq. destruct Hq as (x & <- & Hx). destruct (Hf x Hx) as (w & pos & d & -> & Ed & (o & Eo) & ->).
    unfold all_entries. apply in_flat_map. exists d. split; [apply in_seq; destruct (entry_lt s d w o HG Eo); lia|]. apply in_map_iff. exists (w, o). split; [reflexivity|apply entry_In, Eo].
Qed.

(** ** the walk *)
Definition found (v : str) (pos : list str) (comps : list str) : Prop := exists pos' k, v = at_ pos' /\ LF pos' /\ ev k pos comps = Some pos'.
Record dict_ok (I : list (list str)) (seen : seen_dict) : Prop := {
  dk_pend : forall w pos, LF pos -> ordinary sp w -> assoc (at_ (w :: pos)) seen = Some None -> In (w :: pos) I;
  dk_in : forall x, In x I -> assoc (at_ x) seen <> None;
  dk_done : forall w pos v, LF pos -> ordinary sp w -> assoc (at_ (w :: pos)) seen = Some (Some v) ->
     exists t, lk pos w = Some t /\ found v (base pos t) (split_on sp t);
}.
Definition fresh_depth (I : list (list str)) (n : nat) : Prop :=
  forall k, n = S k -> forall w pos t, In (w :: pos) I -> lk pos w = Some t -> ev k (base pos t) (split_on sp t) = None.
Definition outcome (I : list (list str)) (pos comps : list str) (r : res (str * bool * seen_dict)) : Prop :=
  exists v ok seen', r = Ok (v, ok, seen') /\ is_abs sp v = true /\
    (ok = true -> dict_ok I seen' /\ found v pos comps) /\
    (forall n q, ev n pos comps = Some q -> fresh_depth I n -> ok = true).

Lemma LF_ord pos w : LF pos -> ordinary sp w -> Forall (ordinary sp) (rev (w :: pos)).
Proof. intros [H _] Ho. cbn [rev]. apply Forall_app. auto. Qed.
Lemma ev_step n pos w rest : ordinary sp w -> lk pos w = None -> ev n pos (w :: rest) = ev n (w :: pos) rest.
Proof. intros Ho E. destruct (ordinary_tests w Ho) as [E1 E2]. destruct n; cbn [ev evl]; rewrite E1, E2, E; reflexivity. Qed.
Lemma ev_skip n pos w rest : str_eqb w [] || str_eqb w dot = true -> ev n pos (w :: rest) = ev n pos rest.
Proof. intros E. destruct n; cbn [ev evl]; rewrite E; reflexivity. Qed.
Lemma ev_up n pos rest : ev n pos (dotdot :: rest) = ev n (tl pos) rest.
Proof. destruct n; reflexivity. Qed.
Lemma ev_link k pos w t m rest : ordinary sp w -> lk pos w = Some t -> ev k (base pos t) (split_on sp t) = Some m ->
  ev (S k) pos (w :: rest) = ev (S k) m rest.
Proof. intros Ho E Em. destruct (ordinary_tests w Ho) as [E1 E2]. cbn [ev evl]. rewrite E1, E2, E, Em. reflexivity. Qed.
Lemma ev_link_inv n pos w t rest r : ordinary sp w -> lk pos w = Some t -> ev n pos (w :: rest) = Some r ->
  exists k m, n = S k /\ ev k (base pos t) (split_on sp t) = Some m /\ ev n m rest = Some r.
Proof.
  intros Ho E. destruct (ordinary_tests w Ho) as [E1 E2]. destruct n as [|k]; cbn [ev evl]; rewrite E1, E2, E; [discriminate|].
  destruct (ev k (base pos t) (split_on sp t)) as [m|] eqn:Em; [|discriminate]. intros H. exists k, m. auto.
Qed.
Lemma found_link v v' pos w t rest m : ordinary sp w -> lk pos w = Some t -> (exists k, ev k (base pos t) (split_on sp t) = Some m) ->
  found v' m rest -> v = v' -> found v pos (w :: rest).
Proof.
  intros Ho E [k Ek] (pos' & k' & -> & Hf & E') ->. exists pos', (S (k + k')). split; [reflexivity|]. split; [exact Hf|].
  rewrite (ev_link (k + k') pos w t m rest Ho E) by (apply (ev_le k); [lia|exact Ek]). apply (ev_le k'); [lia|exact E'].
Qed.

Lemma loop_outcome rec I : links I ->
  (forall J pos t seen, links J -> length J = S (length I) -> LF pos -> dict_ok J seen -> outcome J (base pos t) (split_on sp t) (rec (at_ pos) t seen)) ->
  forall comps pos seen, (forall w, In w comps -> ~ In sp w) -> LF pos -> dict_ok I seen -> outcome I pos comps (real_loop rec s (at_ pos) comps seen).
Proof.
  intros HI Hrec. induction comps as [|w rest IH]; intros pos seen Hc Hf Hd; cbn [real_loop].
  - exists (at_ pos), true, seen. split; [reflexivity|]. split; [apply Ascii.eqb_refl|]. split; [|reflexivity].
    intros _. split; [exact Hd|]. exists pos, 0. auto.
  - assert (Hc' : forall v, In v rest -> ~ In sp v) by (intros v Hv; apply Hc; right; exact Hv).
    destruct (str_eqb w [] || str_eqb w dot) eqn:E1.
    { destruct (IH pos seen Hc' Hf Hd) as (v & ok & seen' & Er & Ha & H1 & H2). exists v, ok, seen'. split; [exact Er|]. split; [exact Ha|]. split.
      - intros Eo. destruct (H1 Eo) as [H3 (pos' & k & E3 & E4 & E5)]. split; [exact H3|]. exists pos', k. rewrite (ev_skip k pos w rest E1). auto.
      - intros n q. rewrite (ev_skip n pos w rest E1). apply H2. }
    destruct (str_eqb w dotdot) eqn:E2.
    { apply str_eqb_eq in E2. subst w. assert (Q : outcome I pos (dotdot :: rest) (real_loop rec s (at_ (tl pos)) rest seen)).
      { destruct (IH (tl pos) seen Hc' (LF_tl pos Hf) Hd) as (v & ok & seen' & Er & Ha & H1 & H2). exists v, ok, seen'. split; [exact Er|]. split; [exact Ha|]. split.
        - intros Eo. destruct (H1 Eo) as [H3 (pos' & k & E3 & E4 & E5)]. split; [exact H3|]. exists pos', k. rewrite ev_up. auto.
        - intros n q. rewrite ev_up. apply H2. }
      change (nonempty (at_ pos)) with true. cbv iota. destruct pos as [|x pos].
      - change (at_ []) with [sp]. rewrite (splitpath_root c (linux_like_posix _ lin)). exact Q.
      - rewrite (split_at x pos (proj1 Hf)).
        destruct Hf as [Ho _]. cbn [rev] in Ho. apply Forall_app in Ho. destruct Ho as [_ Ho]. inversion Ho as [|? ? Hx _]; subst. destruct (ordinary_tests x Hx) as [_ ->]. exact Q. }
    assert (Ho := ordinary_iff w (Hc w (or_introl eq_refl)) E1 E2). rewrite (join_at pos w (LF_ord pos w Hf Ho)), (islink_at pos w Hf Ho).
    destruct (lk pos w) as [t|] eqn:El; cbn [rbind negb].
    2:{ destruct (IH (w :: pos) seen Hc' (LF_cons pos w Hf Ho El) Hd) as (v & ok & seen' & Er & Ha & H1 & H2). exists v, ok, seen'. split; [exact Er|]. split; [exact Ha|]. split.
      - intros Eo. destruct (H1 Eo) as [H3 (pos' & k & E3 & E4 & E5)]. split; [exact H3|]. exists pos', k. rewrite ev_step by assumption. auto.
      - intros n q. rewrite ev_step by assumption. apply H2. }
    destruct (assoc (at_ (w :: pos)) seen) as [[v|]|] eqn:Ea.
    + destruct (dk_done _ _ Hd w pos v Hf Ho Ea) as (t' & Et & (m & k & -> & Hm & Ek)). rewrite El in Et. injection Et as <-.
      destruct (IH m seen Hc' Hm Hd) as (v & ok & seen' & Er & Ha & H1 & H2). exists v, ok, seen'. split; [exact Er|]. split; [exact Ha|]. split.
      * intros Eo. destruct (H1 Eo) as [H3 H4]. split; [exact H3|]. apply (found_link v v pos w t rest m Ho El); [exists k; exact Ek|exact H4|reflexivity].
      * intros n q Eq Hfr. destruct (ev_link_inv n pos w t rest q Ho El Eq) as (k' & m' & -> & Em & Eq').
        assert (m' = m) by (apply (ev_det k' k (base pos t) (split_on sp t)); assumption). subst m'. apply (H2 _ _ Eq' Hfr).
    + exists (join2 c (at_ (w :: pos)) (join_with [sp] rest)), false, seen. split; [reflexivity|]. split; [apply join_abs, Ascii.eqb_refl|]. split; [discriminate|].
      intros n q Eq Hfr. destruct (ev_link_inv n pos w t rest q Ho El Eq) as (k' & m' & -> & Em & Eq').
      rewrite (Hfr k' eq_refl w pos t (dk_pend _ _ Hd w pos Hf Ho Ea) El) in Em. discriminate.
    + rewrite (readlink_at pos w t Hf Ho El). cbn [rbind].
      set (J := (w :: pos) :: I). set (seen1 := set_assoc (at_ (w :: pos)) None seen).
      assert (HJ : links J).
      { split; [constructor; [|apply HI]|]. - intros Hi. apply (dk_in _ _ Hd _ Hi Ea). - intros x [<-|Hx]; [exists w, pos, t; auto|apply HI, Hx]. }
      assert (HdJ : dict_ok J seen1).
      { split.
        - intros w' pos' Hf' Ho' E. destruct (list_eq_dec (list_eq_dec ascii_dec) (w' :: pos') (w :: pos)) as [->|Hne]; [left; reflexivity|]. right.
          unfold seen1 in E. rewrite assoc_set_other in E; [apply (dk_pend _ _ Hd _ _ Hf' Ho' E)|]. intros K. apply Hne. symmetry. apply at_inj; [apply LF_ord; assumption|apply LF_ord; assumption|]. congruence.
        - intros x Hx. unfold seen1. destruct (list_eq_dec ascii_dec (at_ x) (at_ (w :: pos))) as [->|Hne]; [rewrite assoc_set_same; discriminate|].
          rewrite assoc_set_other by congruence. destruct Hx as [<-|Hx]; [congruence|apply (dk_in _ _ Hd x Hx)].
        - intros w' pos' v Hf' Ho' E. unfold seen1 in E. destruct (list_eq_dec ascii_dec (at_ (w' :: pos')) (at_ (w :: pos))) as [Eq|Hne].
          + rewrite Eq, assoc_set_same in E. discriminate.
          + rewrite assoc_set_other in E by congruence. apply (dk_done _ _ Hd w' pos' v Hf' Ho' E). }
      destruct (Hrec J pos t seen1 HJ eq_refl Hf HdJ) as (v & ok & seen' & Er & Ha & H1 & H2). rewrite Er. cbn [rbind].
      assert (Hin : forall n q, ev n pos (w :: rest) = Some q -> fresh_depth I n -> ok = true).
      { intros n q Eq Hfr. destruct (ev_link_inv n pos w t rest q Ho El Eq) as (k & m & -> & Em & _).
        destruct (ev_least k _ _ m Em) as (k0 & Hk & Em0 & Hleast). apply (H2 k0 m Em0). intros k1 E w' pos' t' [Hi|Hi] El'.
        - injection Hi as <- <-. rewrite El in El'. injection El' as <-. apply (Hleast k1 E).
        - apply (ev_none_le k1 k); [lia|]. apply (Hfr k eq_refl w' pos' t' Hi El'). }
      destruct ok; cbn [negb].
      * destruct (H1 eq_refl) as [H3 (m & k & -> & Hm & Ek)].
        assert (Hd2 : dict_ok I (set_assoc (at_ (w :: pos)) (Some (at_ m)) seen')).
        { split.
          - intros w' pos' Hf' Ho' E. destruct (list_eq_dec ascii_dec (at_ (w' :: pos')) (at_ (w :: pos))) as [Eq|Hne].
            + rewrite Eq, assoc_set_same in E. discriminate.
            + rewrite assoc_set_other in E by congruence. destruct (dk_pend _ _ H3 w' pos' Hf' Ho' E) as [K|K]; [|exact K]. rewrite K in Hne. congruence.
          - intros x Hx. destruct (list_eq_dec ascii_dec (at_ x) (at_ (w :: pos))) as [->|Hne]; [rewrite assoc_set_same; discriminate|].
            rewrite assoc_set_other by congruence. apply (dk_in _ _ H3 x). right. exact Hx.
          - intros w' pos' v Hf' Ho' E. destruct (list_eq_dec ascii_dec (at_ (w' :: pos')) (at_ (w :: pos))) as [Eq|Hne].
            + rewrite Eq, assoc_set_same in E. injection E as <-. apply at_inj in Eq; [|apply LF_ord; assumption|apply LF_ord; assumption]. injection Eq as -> ->.
              exists t. split; [exact El|]. exists m, k. auto.
            + rewrite assoc_set_other in E by congruence. apply (dk_done _ _ H3 w' pos' v Hf' Ho' E). }
        destruct (IH m _ Hc' Hm Hd2) as (v & ok & seen2 & Er2 & Ha2 & G1 & G2). exists v, ok, seen2. split; [exact Er2|]. split; [exact Ha2|]. split.
        -- intros Eo. destruct (G1 Eo) as [G3 G4]. split; [exact G3|]. apply (found_link v v pos w t rest m Ho El); [exists k; exact Ek|exact G4|reflexivity].
        -- intros n q Eq Hfr. destruct (ev_link_inv n pos w t rest q Ho El Eq) as (k' & m' & -> & Em & Eq').
           assert (m' = m) by (apply (ev_det k' k (base pos t) (split_on sp t)); assumption). subst m'. apply (G2 _ _ Eq' Hfr).
      * exists (join2 c v (join_with [sp] rest)), false, seen'. split; [reflexivity|]. split; [apply join_abs, Ha|]. split; [discriminate|exact Hin].
Qed.
Lemma outcome_skip I pos w comps r : str_eqb w [] || str_eqb w dot = true -> outcome I pos comps r -> outcome I pos (w :: comps) r.
Proof.
  intros E1 (v & ok & seen' & Er & Ha & H1 & H2). exists v, ok, seen'. split; [exact Er|]. split; [exact Ha|]. split.
  - intros Eo. destruct (H1 Eo) as [H3 (pos' & k & E3 & E4 & E5)]. split; [exact H3|]. exists pos', k. rewrite (ev_skip k pos w comps E1). auto.
  - intros n q. rewrite (ev_skip n pos w comps E1). apply H2.
Qed.
Lemma real_outcome fuel : forall I pos t seen, links I -> count_entries s (f_next s) + 1 <= fuel + length I -> LF pos -> dict_ok I seen ->
  outcome I (base pos t) (split_on sp t) (joinrealpath fuel s (at_ pos) t seen).
Proof.
  induction fuel as [|fuel IH]; intros I pos t seen HI Hb Hf Hd.
  - exfalso. pose proof (links_bound I HI). lia.
  - cbn [joinrealpath]. rewrite (path_isabs_posix c t (linux_like_posix _ lin)). change (c_sep c) with sp. unfold base. destruct (is_abs sp t) eqn:Ea.
    + destruct t as [|x t]; [discriminate|]. cbn [is_abs] in Ea. apply Ascii.eqb_eq in Ea. subst x. cbn [tl]. change [sp] with (at_ []).
      assert (Q := loop_outcome (joinrealpath fuel s) I HI ltac:(intros J pos' t' seen' HJ EJ Hf' Hd'; apply IH; [exact HJ|lia|exact Hf'|exact Hd']) (split_on sp t) [] seen ltac:(intros w Hw; apply (split_on_clean sp t w Hw)) LF_nil Hd).
      change (sp :: t) with ([] ++ sp :: t). rewrite split_on_app_sep by (intros []). apply outcome_skip; [reflexivity|exact Q].
    + apply (loop_outcome (joinrealpath fuel s) I HI); [| |exact Hf|exact Hd].
      * intros J pos' t' seen' HJ EJ Hf' Hd'. apply IH; [exact HJ|lia|exact Hf'|exact Hd'].
      * intros w Hw. apply (split_on_clean sp t w Hw).
Qed.

(** ** realpath *)
Lemma realpath_eq fuel p : is_abs sp p = true -> count_entries s (f_next s) + 1 <= fuel ->
  exists v ok, realpath_n fuel s p = Ok (path_abspath c (f_cwd s) v) /\ is_abs sp v = true /\
    (ok = true -> found v [] (split_on sp p)) /\ (forall n q, ev n [] (split_on sp p) = Some q -> ok = true).
Proof.
  intros Ha Hb. unfold realpath_n. rewrite (pl_win _ (linux_like_posix _ lin)).
  assert (Q : outcome [] (base [] p) (split_on sp p) (joinrealpath fuel s (at_ []) p [])).
  { apply real_outcome.
    - split; [constructor|intros x []].
    - cbn [length]. lia.
    - apply LF_nil.
    - split; [discriminate|intros x []|discriminate]. }
  assert (E : joinrealpath fuel s (at_ []) p [] = joinrealpath fuel s [] p []).
  { destruct fuel; [reflexivity|]. cbn [joinrealpath]. rewrite (path_isabs_posix c p (linux_like_posix _ lin)). change (c_sep c) with sp. rewrite Ha. reflexivity. }
  rewrite E in Q. destruct Q as (v & ok & seen' & Er & Hv & H1 & H2). exists v, ok. rewrite Er. cbn [rbind fst]. split; [reflexivity|]. split; [exact Hv|].
  unfold base in *. rewrite Ha in *. split; [apply H1|]. intros n q Eq. apply (H2 n q Eq). intros k _ w pos t [].
Qed.
Lemma real_LF pos comps r : LF pos -> real s pos comps r -> LF r.
Proof.
  intros Hf H. revert Hf. induction H as [pos|pos w rest r Hw _ IH|pos rest r _ IH|pos w rest r Ho Hl _ IH|pos w rest t m r Ho Hl _ IH1 _ IH2]; intros Hf.
  - exact Hf.
  - apply IH, Hf.
  - apply IH, LF_tl, Hf.
  - apply IH, LF_cons; [exact Hf|exact Ho|apply lk_none, Hl].
  - apply IH2, IH1. destruct (is_abs sp t); [apply LF_nil|exact Hf].
Qed.
Lemma abspath_at pos : Forall (ordinary sp) (rev pos) -> path_abspath c (f_cwd s) (at_ pos) = at_ pos.
Proof.
  intros H. unfold path_abspath. rewrite (path_isabs_posix c _ (linux_like_posix _ lin)). change (c_sep c) with sp.
  assert (E : is_abs sp (at_ pos) = true) by apply Ascii.eqb_refl. rewrite E. cbn [negb]. rewrite (pl_win _ (linux_like_posix _ lin)). cbn [andb].
  apply (normpath_fix c (linux_like_posix _ lin)), (abs_path_canonical c), H.
Qed.

(** ** the same object *)
Definition keep (w : str) : bool := negb (str_eqb w [] || str_eqb w dot).
Lemma real_filter comps : forall pos r, real s pos (filter keep comps) r -> real s pos comps r.
Proof.
  induction comps as [|w rest IH]; intros pos r; cbn [filter]; [auto|]. unfold keep at 1. destruct (str_eqb w [] || str_eqb w dot) eqn:E; cbn [negb].
  - intros H. apply real_stay; [apply dots, E|apply IH, H].
  - intros H. inversion H as [|? ? ? ? Hw H1|? ? ? H1|? ? ? ? Ho Hl H1|? ? ? t m ? Ho Hl H1 H2]; subst.
    + apply dots in Hw. congruence.
    + apply real_up, IH, H1.
    + apply real_name; [exact Ho|exact Hl|apply IH, H1].
    + apply (real_link s pos w rest t m r Ho Hl H1). apply IH, H2.
Qed.
Lemma real_app a : forall b pos r, real s pos (a ++ b) r -> exists m, real s pos a m /\ real s m b r.
Proof.
  induction a as [|w a IH]; intros b pos r H; cbn [app] in H; [exists pos; split; [constructor|exact H]|].
  inversion H as [|? ? ? ? Hw H1|? ? ? H1|? ? ? ? Ho Hl H1|? ? ? t m ? Ho Hl H1 H2]; subst.
  - destruct (IH _ _ _ H1) as (m & A & B). exists m. split; [apply real_stay; assumption|exact B].
  - destruct (IH _ _ _ H1) as (m & A & B). exists m. split; [apply real_up; assumption|exact B].
  - destruct (IH _ _ _ H1) as (m & A & B). exists m. split; [apply real_name; assumption|exact B].
  - destruct (IH _ _ _ H2) as (m' & A & B). exists m'. split; [apply (real_link s pos w a t m m' Ho Hl H1 A)|exact B].
Qed.
Lemma real_cat a : forall b pos m r, real s pos a m -> real s m b r -> real s pos (a ++ b) r.
Proof.
  intros b pos m r H. induction H as [pos|pos w rest m Hw _ IH|pos rest m _ IH|pos w rest m Ho Hl _ IH|pos w rest t m' m Ho Hl H1 _ _ IH2]; intros Hb; cbn [app].
  - exact Hb.
  - apply real_stay; auto.
  - apply real_up; auto.
  - apply real_name; auto.
  - apply (real_link s pos w _ t m' r Ho Hl H1). auto.
Qed.
Lemma LF_real pos : LF pos -> real s [] (rev pos) pos.
Proof.
  induction pos as [|w pos IH]; intros Hf; [constructor|]. cbn [rev]. apply (real_cat _ _ _ pos); [apply IH, (LF_tl _ Hf)|].
  destruct Hf as [H1 H2]. cbn [rev] in H1. apply Forall_app in H1. destruct H1 as [_ H1]. inversion H1 as [|? ? Ho _]; subst.
  apply real_name; [exact Ho| |constructor]. intros l El. destruct (is_link s l) eqn:E; [|reflexivity]. exfalso. apply (H2 (rev pos) w l []). split; [reflexivity|]. split; assumption.
Qed.
Lemma real_det pos comps r r' : real s pos comps r -> real s pos comps r' -> r = r'.
Proof. intros A B. destruct (real_ev _ _ _ A) as [n A']. destruct (real_ev _ _ _ B) as [m B']. apply (ev_det n m pos comps); assumption. Qed.
Lemma collapse_upless b ws : ~ In dotdot ws -> collapse b ws = filter keep ws.
Proof.
  intros H. unfold collapse. assert (G : forall acc, fold_left (collapse_step b) ws acc = rev (filter keep ws) ++ acc).
  { induction ws as [|w ws IH]; intros acc; [reflexivity|]. cbn [fold_left filter]. rewrite IH by (intros K; apply H; right; exact K).
    unfold collapse_step, keep. destruct (str_eqb w [] || str_eqb w dot); cbn [negb]; [reflexivity|].
    destruct (str_eqb w dotdot) eqn:E; [apply str_eqb_eq in E; exfalso; apply H; left; exact E|]. cbn [rev]. rewrite <- app_assoc. reflexivity. }
  rewrite G, app_nil_r. apply rev_involutive.
Qed.
Lemma norm_components q : ~ In dotdot (split_on sp q) ->
  path_components c (normpath c q) = filter keep (split_on sp q) \/ (path_components c (normpath c q) = [dot] /\ filter keep (split_on sp q) = []).
Proof.
  intros H. pose proof (linux_like_posix _ lin) as Hp. destruct (normpath_shape c Hp q) as (ups & names & Hu & Hn & Ha & Ec & En).
  change (c_sep c) with sp in *. rewrite (collapse_upless _ _ H) in Ec.
  assert (ups = []). { destruct ups as [|u ups]; [reflexivity|]. exfalso. apply H. inversion Hu; subst. change (L "..") with dotdot in Ec.
    assert (K : In dotdot (filter keep (split_on sp q))) by (rewrite Ec; left; reflexivity). apply filter_In in K. apply K. }
  subst ups. cbn [app] in *. rewrite Ec. rewrite En. destruct (is_abs sp q).
  - left. change (sp :: join_with [sp] names) with (abs_path sp names). apply (path_components_clean c lin), Forall_clean, Hn.
  - destruct names as [|w l].
    + right. split; [|reflexivity]. assert (Ed : Ascii.eqb "."%char sp = false) by (apply (dot_neq_sp c Hp)). unfold path_components, sep. simpl. change dotc with "."%char. rewrite Ed. cbn [andb]. rewrite (splitdrive_posix c Hp). simpl. change dotc with "."%char. rewrite Ed. reflexivity.
    + left. assert (Hne : forall v, In v (w :: l) -> v <> [] /\ ~ In sp v). { intros v Hv. rewrite Forall_forall in Hn. destruct (Hn v Hv) as (A & _ & _ & B). auto. }
      assert (Hw := Hne w (or_introl eq_refl)). unfold path_components. change (sep c) with sp.
      destruct (str_eqb (join_with [sp] (w :: l)) [] || str_eqb (join_with [sp] (w :: l)) [sp]) eqn:E1.
      { exfalso. destruct w as [|x w]; [apply (proj1 Hw); reflexivity|]. apply orb_true_iff in E1. destruct E1 as [E1|E1]; apply str_eqb_eq in E1; destruct l; cbn in E1; try discriminate.
        - injection E1 as -> _. apply (proj2 Hw). left. reflexivity.
        - injection E1 as -> E1. destruct w; discriminate. }
      rewrite (splitdrive_posix c Hp), split_join; [|discriminate|intros v Hv; apply Hne, Hv]. destruct w as [|x w]; [exfalso; apply (proj1 Hw); reflexivity|]. reflexivity.
Qed.
Lemma real_norm pos q rest r : ~ In dotdot (split_on sp q) -> real s pos (path_components c (normpath c q) ++ rest) r -> real s pos (split_on sp q ++ rest) r.
Proof.
  intros H K. apply real_app in K. destruct K as (m & A & B). apply (real_cat _ _ _ m); [|exact B]. apply real_filter. destruct (norm_components q H) as [E|[E1 E2]].
  - rewrite <- E. exact A.
  - rewrite E2. rewrite E1 in A. inversion A as [|? ? ? ? Hw H1|? ? ? H1|? ? ? ? Ho Hl H1|? ? ? t m' ? Ho Hl H1 H2]; subst; [exact H1| |].
    + destruct Ho as (_ & Ho & _). exfalso. apply Ho. reflexivity.
    + destruct Ho as (_ & Ho & _). exfalso. apply Ho. reflexivity.
Qed.
Definition texts_upless : Prop := forall l t, is_link s l = true -> o_body (ob s l) = BFile (Some t) -> upless sp t.
Lemma resolves_real k names r : texts_upless -> resolves s k names r -> Forall (ordinary sp) r -> real s [] names (rev r).
Proof.
  intros HT H. induction H as [names Hl|k names pre n l rest t r (-> & Hat & Hl) Hb _ IH]; intros Hr.
  - pose proof (LF_real (rev names)) as K. rewrite rev_involutive in K. apply K. split; rewrite rev_involutive; assumption.
  - specialize (IH Hr). assert (Hpn := at_names_ordinary s HG _ _ _ Hat). apply Forall_app in Hpn. destruct Hpn as [Hpre Hn]. inversion Hn as [|? ? Hn' _]; subst.
    assert (Hf : LF (rev pre)).
    { split; rewrite rev_involutive; [exact Hpre|]. intros pre' n' l' rest' (-> & A & B).
      rewrite <- !app_assoc in Hat. cbn [app] in Hat. change (n' :: rest' ++ [n]) with ([n'] ++ rest' ++ [n]) in Hat. rewrite app_assoc in Hat. destruct rest' as [|m rest'].
      - cbn [app] in Hat. destruct (prefix_dirs s (pre' ++ [n']) n [] l Hat) as (d & E1 & E2). rewrite A in E1. injection E1 as <-. rewrite (gd_dnl _ (Ginv_good s HG) l' E2) in B. discriminate.
      - cbn [app] in Hat. destruct (prefix_dirs s (pre' ++ [n']) m (rest' ++ [n]) l Hat) as (d & E1 & E2). rewrite A in E1. injection E1 as <-. rewrite (gd_dnl _ (Ginv_good s HG) l' E2) in B. discriminate. }
    assert (Hup := HT l t Hl Hb). assert (Hla : link_at s (rev pre) n t) by (exists l; cbn [rev]; rewrite rev_involutive; auto).
    unfold link_target in IH. destruct (is_abs (c_sep c) t) eqn:Ea.
    + apply (real_norm [] t rest) in IH; [|exact Hup]. apply real_app in IH. destruct IH as (m & A & B).
      apply (real_cat _ _ _ (rev pre)); [pose proof (LF_real (rev pre) Hf) as K; rewrite rev_involutive in K; exact K|].
      apply (real_link s _ n rest t m _ Hn' Hla); [|exact B]. change (c_sep c) with sp in Ea. rewrite Ea. exact A.
    + change (c_sep c) with sp in *. assert (Es : split_on sp (join_with [sp] (pre ++ [t])) = pre ++ split_on sp t).
      { clear -Hpre. induction pre as [|w pre IHp]; [reflexivity|]. inversion Hpre as [|? ? Hw Hp]; subst. cbn [app].
        destruct (pre ++ [t]) as [|x y] eqn:E; [destruct pre; discriminate|]. change (join_with [sp] (w :: x :: y)) with (w ++ sp :: join_with [sp] (x :: y)).
        rewrite split_on_app_sep by apply Hw. rewrite <- IHp by exact Hp. reflexivity. }
      apply real_norm in IH; [|rewrite Es; intros K; apply in_app_or in K; destruct K as [K|K]; [rewrite Forall_forall in Hpre; apply Hpre in K; destruct K as (_ & _ & K & _); apply K; reflexivity|apply Hup, K]].
      rewrite Es in IH. rewrite <- app_assoc in IH. apply real_app in IH. destruct IH as (m0 & A0 & IH).
      pose proof (LF_real (rev pre) Hf) as K. rewrite rev_involutive in K. assert (m0 = rev pre) by (apply (real_det [] pre); assumption). subst m0.
      apply real_app in IH. destruct IH as (m & A & B). apply (real_cat _ _ _ (rev pre)); [exact K|]. apply (real_link s _ n rest t m _ Hn' Hla); [|exact B]. rewrite Ea. exact A.
Qed.
Lemma walk_upless ws : ~ In dotdot ws -> forall st, fold_left step_pos ws st = rev (filter keep ws) ++ st.
Proof.
  intros H. induction ws as [|w ws IH]; intros st; [reflexivity|]. cbn [fold_left filter]. rewrite IH by (intros K; apply H; right; exact K).
  unfold step_pos, keep. destruct (str_eqb w [] || str_eqb w dot) eqn:E; cbn [negb].
  - apply dots in E. destruct E as [->| ->]; reflexivity.
  - apply orb_false_iff in E. destruct E as [E1 E2]. cbn [rev]. rewrite <- app_assoc. f_equal. cbn [app]. change dot with (L ".") in E2. rewrite E1, E2.
    destruct (str_eqb w dotdot) eqn:E3; [apply str_eqb_eq in E3; exfalso; apply H; left; exact E3|]. change dotdot with (L "..") in E3. rewrite E3. reflexivity.
Qed.
Lemma resolve_real p check o : texts_upless -> is_abs sp p = true -> upless sp p -> resolve s p check = Ok o -> o <> devnull_oid ->
  exists names, real_path s p names /\ at_names s names = Some o /\ resolve s (abs_path sp names) check = Ok o.
Proof.
  intros HT Ha Hup E Hno. assert (Hg := Ginv_good s HG). unfold resolve in E. apply (resolve_ok s Hg) in E. destruct E as (rr & Er & Hc & K).
  destruct K as [[_ K]|(Hnn & Eat & Hse & Hmr)]; [contradiction|]. exists rr.
  assert (Hro := at_names_ordinary s HG _ _ _ Eat).
  apply (resolve_path_ok s Hg) in Er. destruct Er as (Hp & _ & names & rr' & Hn & En & Hr & Eq).
  assert (rr' = rr).
  { apply (abs_path_clean_inj c lin) in Eq; [symmetry; exact Eq|exact Hc|]. apply (resolved_clean s Hg names); [apply Forall_clean, Hn|exact Hr]. }
  subst rr'. destruct Hr as [[Hnu ->]|(_ & k & _ & Hr)]; [contradiction|].
  assert (Hlf := resolves_nolink s k names rr Hr). split; [|split; [exact Eat|]].
  - unfold real_path. apply real_filter. apply (resolves_real k _ _ HT); [|exact Hro].
    replace (filter keep (split_on sp p)) with names; [exact Hr|].
    pose proof (anp_names_of s p names Hg Hp Hn En) as W. unfold names_of in W. unfold walk_pos in W. rewrite Ha in W. rewrite (walk_upless _ Hup), app_nil_r in W.
    apply (f_equal (@rev str)) in W. rewrite !rev_involutive in W. symmetry. exact W.
  - unfold resolve. apply (resolve_ok s Hg). exists rr. split; [apply (linkfree_resolve_path s HG _ rr o (le_n _) Eat Hlf)|]. split; [exact Hc|]. right. auto.
Qed.
End R.
