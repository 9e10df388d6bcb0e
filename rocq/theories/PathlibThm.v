(** * Path.resolve: proofs. *)
From Verif Require Export PathlibModel PathlibSpec RealThm HistThm.
From Coq Require Import List Bool ZArith Lia Ascii.
Import ListNotations.

(** ** more fuel changes nothing *)
Definition settled_p {A} (r : pres A) : Prop := r <> PErr RecErr.
Lemma ploop_mono (f g : str -> str -> seen_dict -> pres (str * seen_dict)) s strict :
  (forall a b d, f a b d <> PErr RecErr -> g a b d = f a b d) ->
  forall comps path seen, plib_loop f s strict path comps seen <> PErr RecErr ->
    plib_loop g s strict path comps seen = plib_loop f s strict path comps seen.
Proof.
  intros H. induction comps as [|w rest IH]; intros path seen; cbn [plib_loop]; [auto|].
  destruct (str_eqb w [] || str_eqb w dot); [apply IH|]. destruct (str_eqb w dotdot); [apply IH|].
  destruct (assoc _ seen) as [[v|]|]; [apply IH|auto|]. destruct (readlink s _) as [t|e].
  - intros K. assert (Q : f path t (set_assoc (path ++ c_sep (f_cfg s) :: w) None seen) <> PErr RecErr).
    { intros E. rewrite E in K. apply K. reflexivity. }
    rewrite (H _ _ _ Q). destruct (f path t _) as [[v d]| |e]; [apply IH, K|reflexivity|reflexivity].
  - destruct e as [e| | | | | | | | | |]; auto. destruct (negb (is_einval e) && strict); [auto|apply IH].
Qed.
Lemma prec_mono n s strict : forall path p seen, plib_rec n s strict path p seen <> PErr RecErr ->
  plib_rec (S n) s strict path p seen = plib_rec n s strict path p seen.
Proof.
  induction n as [|n IH]; intros path p seen K; [exfalso; apply K; reflexivity|].
  change (plib_rec (S (S n)) s strict path p seen) with
    (plib_loop (plib_rec (S n) s strict) s strict (if starts_with [c_sep (f_cfg s)] p then [] else path) (split_on (c_sep (f_cfg s)) p) seen).
  apply (ploop_mono (plib_rec n s strict)); [apply IH|exact K].
Qed.
Lemma prec_le n m s strict path p seen : n <= m -> plib_rec n s strict path p seen <> PErr RecErr ->
  plib_rec m s strict path p seen = plib_rec n s strict path p seen.
Proof. induction 1 as [|m Hm IH]; intros K; [reflexivity|]. rewrite prec_mono; [apply IH, K|rewrite IH; exact K]. Qed.

Section P.
Variable s : fs.
Hypothesis HG : Ginv s.
Hypothesis HL : honest_links s.
Hypothesis HD : honest_dirs s.
Hypothesis HN : null_free s.
Hypothesis HO : open_dirs s.
Variable strict : bool.
Notation sp := (sepc s).
Notation c := (f_cfg s).
Notation lk := (lk s).
Notation LF := (LF s).
Notation base := (base s).
Notation at_ pos := (abs_path sp (rev pos)).
Let Hg : good s := Ginv_good s HG.

(** ** the evaluator *)
Definition there (pos : list str) (w : str) : bool :=
  match at_names s (rev (w :: pos)) with Some _ => true | None => false end.
Section Evl.
Variable rec : list str -> list str -> option (list str).
Fixpoint xvl (pos comps : list str) : option (list str) :=
  match comps with
  | [] => Some pos
  | w :: rest =>
      if str_eqb w [] || str_eqb w dot then xvl pos rest
      else if str_eqb w dotdot then xvl (tl pos) rest
      else match lk pos w with
           | None => if strict && negb (there pos w) then None else xvl (w :: pos) rest
           | Some t => match rec (base pos t) (split_on sp t) with
                       | Some m => xvl m rest
                       | None => None
                       end
           end
  end.
End Evl.
Fixpoint xv (n : nat) : list str -> list str -> option (list str) :=
  match n with O => xvl (fun _ _ => None) | S k => xvl (xv k) end.
Lemma xvl_mono (f g : list str -> list str -> option (list str)) :
  (forall a b r, f a b = Some r -> g a b = Some r) ->
  forall comps pos r, xvl f pos comps = Some r -> xvl g pos comps = Some r.
Proof.
  intros H. induction comps as [|w rest IH]; intros pos r; cbn [xvl]; [auto|].
  destruct (str_eqb w [] || str_eqb w dot); [apply IH|]. destruct (str_eqb w dotdot); [apply IH|].
  destruct (lk pos w) as [t|]; [|destruct (strict && _); [auto|apply IH]]. destruct (f (base pos t) (split_on sp t)) as [m|] eqn:E; [|discriminate].
  rewrite (H _ _ _ E). apply IH.
Qed.
Lemma xv_S n : forall pos comps r, xv n pos comps = Some r -> xv (S n) pos comps = Some r.
Proof. induction n as [|n IH]; intros pos comps r; cbn [xv]; apply xvl_mono; [discriminate|exact IH]. Qed.
Lemma xv_le n m pos comps r : n <= m -> xv n pos comps = Some r -> xv m pos comps = Some r.
Proof. induction 1; [auto|]. intros E. apply xv_S, IHle, E. Qed.
Lemma xv_det n m pos comps r r' : xv n pos comps = Some r -> xv m pos comps = Some r' -> r = r'.
Proof. intros A B. apply (xv_le n (n + m)) in A; [|lia]. apply (xv_le m (n + m)) in B; [|lia]. congruence. Qed.
Lemma xv_none_le n m pos comps : n <= m -> xv m pos comps = None -> xv n pos comps = None.
Proof. intros H E. destruct (xv n pos comps) as [r|] eqn:Q; [|reflexivity]. rewrite (xv_le n m _ _ r H Q) in E. discriminate. Qed.
Lemma xv_least n pos comps r : xv n pos comps = Some r -> exists m, m <= n /\ xv m pos comps = Some r /\ forall k, m = S k -> xv k pos comps = None.
Proof.
  induction n as [|n IH]; intros E.
  - exists 0. split; [lia|]. split; [exact E|]. discriminate.
  - destruct (xv n pos comps) as [r'|] eqn:Q.
    + assert (r' = r) by (apply (xv_det n (S n) pos comps); assumption). subst r'. destruct (IH eq_refl) as (m & H1 & H2 & H3). exists m. split; [lia|auto].
    + exists (S n). split; [lia|]. split; [exact E|]. intros k [= <-]. exact Q.
Qed.
Lemma there_iff pos w : there pos w = true <-> exists o, at_names s (rev (w :: pos)) = Some o.
Proof. unfold there. destruct (at_names s (rev (w :: pos))) as [o|]; split; intros H; [exists o; reflexivity|reflexivity|discriminate|destruct H; discriminate]. Qed.
Lemma strict_there pos w : strict && negb (there pos w) = false <-> (strict = true -> exists o, at_names s (rev (w :: pos)) = Some o).
Proof. rewrite <- there_iff. destruct strict, (there pos w); cbn; split; intros H; try intros K; try reflexivity; try discriminate; specialize (H eq_refl); discriminate. Qed.
Lemma xv_realx n : forall pos comps r, (forall w, In w comps -> ~ In sp w) -> xv n pos comps = Some r -> realx s strict pos comps r.
Proof.
  induction n as [|n IHn]; intros pos comps; revert pos; induction comps as [|w rest IH]; intros pos r Hc; cbn [xv xvl].
  1,3: intros [= <-]; constructor.
  all: destruct (str_eqb w [] || str_eqb w dot) eqn:E1; [intros E; apply rx_stay; [apply dots, E1|apply IH; [intros v Hv; apply Hc; right; exact Hv|exact E]]|].
  all: destruct (str_eqb w dotdot) eqn:E2; [apply str_eqb_eq in E2; subst w; intros E; apply rx_up, IH; [intros v Hv; apply Hc; right; exact Hv|exact E]|].
  all: assert (Ho := ordinary_iff s w (Hc w (or_introl eq_refl)) E1 E2).
  all: destruct (lk pos w) as [t|] eqn:El; [|destruct (strict && negb (there pos w)) eqn:Et; [discriminate|]; intros E; apply rx_name; [exact Ho|apply lk_none; [exact HL|exact El]|apply strict_there, Et|apply IH; [intros v Hv; apply Hc; right; exact Hv|exact E]]].
  - discriminate.
  - destruct (xv n (base pos t) (split_on sp t)) as [m|] eqn:Em; [|discriminate]. intros E. apply (rx_link s strict pos w rest t m r Ho).
    + apply lk_some, El.
    + apply IHn in Em; [exact Em|]. intros v Hv. apply (split_on_clean sp t v Hv).
    + apply IH; [intros v Hv; apply Hc; right; exact Hv|exact E].
Qed.
Lemma xvl_cons_mono n m pos comps r : n <= m -> xv n pos comps = Some r -> xvl (match m with O => fun _ _ => None | S k => xv k end) pos comps = Some r.
Proof. intros H E. apply (xv_le n m _ _ _ H) in E. destruct m; exact E. Qed.
Lemma realx_xv pos comps r : realx s strict pos comps r -> exists n, xv n pos comps = Some r.
Proof.
  induction 1 as [pos|pos w rest r Hw _ [n IH]|pos rest r _ [n IH]|pos w rest r Ho Hl Ht _ [n IH]|pos w rest t m r Ho Hl _ [n1 IH1] _ [n2 IH2]].
  - exists 0. reflexivity.
  - exists n. apply dots in Hw. destruct n; cbn [xv xvl]; rewrite Hw; exact IH.
  - exists n. destruct n; cbn [xv xvl]; exact IH.
  - exists n. destruct (ordinary_tests s w Ho) as [E1 E2]. apply lk_none in Hl; [|exact HL]. apply strict_there in Ht. destruct n; cbn [xv xvl]; rewrite E1, E2, Hl, Ht; exact IH.
  - exists (S (n1 + n2)). destruct (ordinary_tests s w Ho) as [E1 E2]. apply lk_some in Hl. cbn [xv xvl]. rewrite E1, E2, Hl.
    fold (base pos t) in IH1. rewrite (xv_le n1 (n1 + n2) _ _ m) by (try lia; exact IH1).
    apply (xvl_cons_mono n2 (S (n1 + n2))) in IH2; [exact IH2|lia].
Qed.
Lemma realx_det pos comps r r' : realx s strict pos comps r -> realx s strict pos comps r' -> r = r'.
Proof. intros A B. destruct (realx_xv _ _ _ A) as [n A']. destruct (realx_xv _ _ _ B) as [m B']. apply (xv_det n m pos comps); assumption. Qed.
Lemma xv_step n pos w rest : ordinary sp w -> lk pos w = None -> strict && negb (there pos w) = false -> xv n pos (w :: rest) = xv n (w :: pos) rest.
Proof. intros Ho E Et. destruct (ordinary_tests s w Ho) as [E1 E2]. destruct n; cbn [xv xvl]; rewrite E1, E2, E, Et; reflexivity. Qed.
Lemma xv_gone n pos w rest : ordinary sp w -> lk pos w = None -> strict && negb (there pos w) = true -> xv n pos (w :: rest) = None.
Proof. intros Ho E Et. destruct (ordinary_tests s w Ho) as [E1 E2]. destruct n; cbn [xv xvl]; rewrite E1, E2, E, Et; reflexivity. Qed.
Lemma xv_skip n pos w rest : str_eqb w [] || str_eqb w dot = true -> xv n pos (w :: rest) = xv n pos rest.
Proof. intros E. destruct n; cbn [xv xvl]; rewrite E; reflexivity. Qed.
Lemma xv_up n pos rest : xv n pos (dotdot :: rest) = xv n (tl pos) rest.
Proof. destruct n; reflexivity. Qed.
Lemma xv_link k pos w t m rest : ordinary sp w -> lk pos w = Some t -> xv k (base pos t) (split_on sp t) = Some m ->
  xv (S k) pos (w :: rest) = xv (S k) m rest.
Proof. intros Ho E Em. destruct (ordinary_tests s w Ho) as [E1 E2]. cbn [xv xvl]. rewrite E1, E2, E, Em. reflexivity. Qed.
Lemma xv_link_inv n pos w t rest r : ordinary sp w -> lk pos w = Some t -> xv n pos (w :: rest) = Some r ->
  exists k m, n = S k /\ xv k (base pos t) (split_on sp t) = Some m /\ xv n m rest = Some r.
Proof.
  intros Ho E. destruct (ordinary_tests s w Ho) as [E1 E2]. destruct n as [|k]; cbn [xv xvl]; rewrite E1, E2, E; [discriminate|].
  destruct (xv k (base pos t) (split_on sp t)) as [m|] eqn:Em; [|discriminate]. intros H. exists k, m. auto.
Qed.

(** ** a second slash in front *)
Lemma rfind_front q : is_abs sp q = true ->
  rfind_pre [sp; dotc; dotc] (sp :: q) = match rfind_pre [sp; dotc; dotc] q with Some x => Some (sp :: x) | None => None end.
Proof.
  intros H. destruct q as [|y q]; [discriminate|]. cbn [is_abs] in H. apply Ascii.eqb_eq in H. subst y.
  change (rfind_pre [sp; dotc; dotc] (sp :: sp :: q)) with
    (match rfind_pre [sp; dotc; dotc] (sp :: q) with Some x => Some (sp :: x) | None => if starts_with [sp; dotc; dotc] (sp :: sp :: q) then Some [] else None end).
  destruct (rfind_pre [sp; dotc; dotc] (sp :: q)); [reflexivity|]. cbn [starts_with]. rewrite Ascii.eqb_refl. cbn [andb].
  assert (E : Ascii.eqb dotc sp = false) by (apply Ascii.eqb_neq; intros E; apply (ll_sep _ (gd_lin _ Hg)); symmetry; exact E).
  rewrite ?E. rewrite Ascii.eqb_sym in E. rewrite ?E. reflexivity.
Qed.
Lemma anp_front q : q = [] \/ is_abs sp q = true -> anp s (sp :: q) = anp s q.
Proof.
  intros [->|Ha].
  - rewrite (anp_nil s Hg). apply (anp_abs_path s [] Hg). constructor.
  - assert (Hq : q <> []) by (intros ->; discriminate). destruct (anp_names s q Hg) as (ns & Hn & E).
    pose proof (anp_names_of s q ns Hg Hq Hn E) as K. rewrite E. apply (names_of_anp s (sp :: q) ns Hg); [discriminate|].
    unfold names_of in *. rewrite <- K. unfold walk_pos. cbn [is_abs]. rewrite Ascii.eqb_refl, Ha.
    change (sp :: q) with ([] ++ sp :: q). rewrite split_on_app_sep by (intros []). reflexivity.
Qed.
Lemma valid_S ex n p : valid_rel ex (S n) s p = (if c_win c then Ok true else match rfind_pre [sp; dotc; dotc] p with
  | None => Ok true | Some pre => let* b := ex (anp s pre) in if b then valid_rel ex n s pre else Ok false end).
Proof. reflexivity. Qed.
Lemma valid_front : forall n q, is_abs sp q = true -> length q <= n -> valid_rel (exists_top s) (S n) s (sp :: q) = valid_rel (exists_top s) n s q.
Proof.
  induction n as [|n IH]; intros q Ha Hn; [destruct q; [discriminate|cbn in Hn; lia]|].
  assert (Hw := Ginv_win s HG). rewrite (valid_S _ (S n) (sp :: q)), (valid_S _ n q), Hw, (rfind_front q Ha).
  destruct (rfind_pre [sp; dotc; dotc] q) as [x|] eqn:E; [|reflexivity].
  assert (Hx : x = [] \/ is_abs sp x = true). { apply rfind_pre_spec in E. destruct E as [t ->]. destruct x as [|y x]; [left; reflexivity|right; exact Ha]. }
  pose proof (rfind_shorter _ _ _ E) as Hl. rewrite (anp_front x Hx).
  destruct (exists_top s (anp s x)) as [[|]|e]; cbn [rbind]; [|reflexivity|reflexivity].
  destruct Hx as [->|Hx]; [|apply (IH x Hx); lia].
  rewrite !rfind_none_valid; [reflexivity| |]; cbn; [reflexivity|]. rewrite Ascii.eqb_refl. reflexivity.
Qed.
Lemma rp_front q : is_abs sp q = true -> resolve_path s (sp :: q) = resolve_path s q.
Proof.
  intros Ha. assert (Hq : q <> []) by (intros ->; discriminate). unfold resolve_path, resolve_path_. cbn [str_eqb].
  destruct (str_eqb q []) eqn:Eq; [apply str_eqb_eq in Eq; contradiction|]. cbn [length]. rewrite (valid_front _ q Ha) by lia.
  rewrite !(original_path_cs s _ (ll_cs _ (gd_lin _ Hg))), (anp_front q (or_intror Ha)). reflexivity.
Qed.
Lemma resolve_front q ck : is_abs sp q = true -> resolve s (sp :: q) ck = resolve s q ck.
Proof. intros Ha. unfold resolve, resolve_. change (resolve_path_ (exists_top s) s) with (resolve_path s). rewrite (rp_front q Ha). reflexivity. Qed.

Lemma ends_front q : q <> [] -> ends_with_char sp (sp :: q) = ends_with_char sp q.
Proof.
  intros Hq. destruct (exists_last Hq) as (u & y & ->). apply eq_iff_eq_true. rewrite !ends_with_char_spec. split; intros (v & E).
  - rewrite app_comm_cons in E. apply app_inj_tail in E. destruct E as [_ ->]. exists u. reflexivity.
  - apply app_inj_tail in E. destruct E as [_ ->]. exists (sp :: u). reflexivity.
Qed.
Lemma ends_sep_front q : is_abs sp q = true -> q <> [sp] -> ends_with_path_separator c q = false -> ends_with_path_separator c (sp :: q) = false.
Proof.
  intros Ha Hq. unfold ends_with_path_separator. rewrite (ll_alt _ (gd_lin _ Hg)). change (sep c) with sp. rewrite ends_front by (intros ->; discriminate).
  destruct q as [|x q]; [discriminate|]. cbn [nonempty andb negb]. rewrite !orb_false_r. replace (str_eqb (x :: q) [sp]) with false by (symmetry; apply not_true_is_false; intros K; apply str_eqb_eq in K; contradiction).
  cbn [negb andb]. intros ->. apply andb_false_r.
Qed.
Lemma at_snoc pos w : pos <> [] -> at_ (w :: pos) = at_ pos ++ sp :: w.
Proof.
  intros H. cbn [rev]. unfold abs_path. rewrite join_with_app; [reflexivity| |discriminate]. intros K. apply H. apply (f_equal (@rev str)) in K. rewrite rev_involutive in K. exact K.
Qed.
Lemma lin : linux_like c. Proof. exact (gd_lin _ Hg). Qed.
Lemma split_front names n : Forall (ordinary sp) (names ++ [n]) ->
  splitpath c (sp :: abs_path sp (names ++ [n])) = ((match names with [] => [sp] | _ => sp :: abs_path sp names end), n).
Proof.
  intros Hn. assert (Hp := linux_like_posix _ lin). unfold splitpath. rewrite (normcase_id c Hp), (no_drive_letter c Hp). change (sep c) with sp. unfold abs_path.
  change (sp :: sp :: join_with [sp] (names ++ [n])) with ([] ++ sp :: [] ++ sp :: join_with [sp] (names ++ [n])).
  rewrite !split_on_app_sep by (intros []). rewrite split_join.
  2:{ destruct names; discriminate. } 2:{ intros w Hw. rewrite Forall_forall in Hn. apply (Hn w Hw). }
  rewrite !app_comm_cons, last_last, removelast_last. cbv beta iota. cbn [existsb str_eqb negb orb].
  destruct names as [|a names]; [reflexivity|]. assert (Hne : a :: names <> []) by discriminate. apply Forall_app in Hn. destruct Hn as [Hn _].
  replace (existsb (fun w => negb (str_eqb w [])) (a :: names)) with true.
  2:{ inversion Hn as [|? ? (A & _) _]; subst. cbn [existsb]. apply str_eqb_neq in A. rewrite A. reflexivity. }
  destruct (exists_last Hne) as (l' & y & E). rewrite E in *. clear E Hne.
  assert (Hy : y <> []) by (apply Forall_app in Hn; destruct Hn as [_ Hn]; inversion Hn as [|? ? (A & _) _]; subst; exact A).
  assert (Es : strip_trailing_empty ([] :: [] :: l' ++ [y]) = [] :: [] :: l' ++ [y]).
  { unfold strip_trailing_empty. rewrite !app_comm_cons. destruct y as [|x y]; [contradiction|]. rewrite (rev_unit ([] :: [] :: l') (x :: y)). cbn [drop_empty]. rewrite <- rev_unit, rev_involutive. reflexivity. }
  rewrite Es. destruct (l' ++ [y]) as [|b l] eqn:E; [destruct l'; discriminate|]. reflexivity.
Qed.
Lemma lresolve_front names n : Forall (ordinary sp) (names ++ [n]) -> lresolve s (sp :: abs_path sp (names ++ [n])) = lresolve s (abs_path sp (names ++ [n])).
Proof.
  intros Hn. assert (Hp := linux_like_posix _ lin). assert (Hcs := ll_cs _ lin). assert (Hq : abs_path sp (names ++ [n]) <> [sp]).
  { assert (Ho : ordinary sp n) by (apply Forall_app in Hn; destruct Hn as [_ Hn]; inversion Hn; assumption). unfold abs_path. intros [= K]. destruct names as [|a names].
    - destruct Ho as (A & _). apply A. exact K.
    - cbn [app] in K. inversion Hn as [|? ? (A & _) _]; subst. destruct a; [apply A; reflexivity|]. destruct (names ++ [n]); discriminate. }
  assert (Ha : is_abs sp (abs_path sp (names ++ [n])) = true) by apply Ascii.eqb_refl.
  assert (He := ends_sep_clean c lin _ (Forall_clean _ _ Hn)).
  unfold lresolve, lresolve_. cbn [str_eqb].
  replace (str_eqb (abs_path sp (names ++ [n])) []) with false by reflexivity.
  replace (str_eqb (abs_path sp (names ++ [n])) [c_sep c]) with false by (symmetry; apply str_eqb_neq, Hq).
  change (str_eqb (sp :: abs_path sp (names ++ [n])) [c_sep c]) with (Ascii.eqb sp (c_sep c) && str_eqb (abs_path sp (names ++ [n])) []).
  rewrite andb_false_r. unfold path_without_trailing_separators. rewrite (strip_seps_clean s Hg _ _ (Forall_clean _ _ Hn)).
  assert (Es : strip_seps c (length (sp :: abs_path sp (names ++ [n]))) (sp :: abs_path sp (names ++ [n])) = sp :: abs_path sp (names ++ [n])).
  { cbn [length strip_seps]. rewrite (ends_sep_front _ Ha Hq He). reflexivity. }
  rewrite Es, (abs_path_not_dot s Hg).
  replace (str_eqb (sp :: abs_path sp (names ++ [n])) dot) with false by (symmetry; apply (andb_false_r (Ascii.eqb sp dotc))).
  rewrite !(original_path_cs s _ Hcs), (splitpath_abs_path _ Hp _ _ Hn), (split_front _ _ Hn). cbv beta iota zeta.
  assert (Er : resolve_ (exists_top s) s (match names with [] => [sp] | _ => sp :: abs_path sp names end) true = resolve_ (exists_top s) s (abs_path sp names) true).
  { destruct names as [|a names]; [reflexivity|]. apply (resolve_front (abs_path sp (a :: names)) true). apply Ascii.eqb_refl. }
  replace (str_eqb (match names with [] => [sp] | _ => sp :: abs_path sp names end) []) with false by (destruct names; reflexivity).
  change (str_eqb (abs_path sp names) []) with false. cbv iota. rewrite Er. reflexivity.
Qed.
Lemma readlink_front names n : Forall (ordinary sp) (names ++ [n]) -> readlink s (sp :: abs_path sp (names ++ [n])) = readlink s (abs_path sp (names ++ [n])).
Proof.
  intros Hn. assert (He := ends_sep_clean c lin _ (Forall_clean _ _ Hn)). unfold readlink. rewrite (lresolve_front _ _ Hn), He.
  rewrite ends_sep_front; [reflexivity|apply Ascii.eqb_refl| |exact He].
  assert (Ho : ordinary sp n) by (apply Forall_app in Hn; destruct Hn as [_ Hn]; inversion Hn; assumption). unfold abs_path. intros [= K]. destruct names as [|a names].
  - destruct Ho as (A & _). apply A. exact K.
  - cbn [app] in K. inversion Hn as [|? ? (A & _) _]; subst. destruct a; [apply A; reflexivity|]. destruct (names ++ [n]); discriminate.
Qed.

(** ** the strings *)
Definition rep (b : bool) (pos : list str) : str := (if b then [sp] else []) ++ match pos with [] => [] | _ => at_ pos end.
Lemma rep_cons b w pos : rep b pos ++ sp :: w = rep b (w :: pos).
Proof. unfold rep. rewrite <- app_assoc. f_equal. destruct pos as [|x pos]; [reflexivity|]. rewrite (at_snoc (x :: pos) w) by discriminate. reflexivity. Qed.
Lemma rpart_snoc (x : ascii) q w : ~ In x w -> rpartition_head x (q ++ x :: w) = q.
Proof.
  intros Hw. assert (E0 : rfind_pre [x] w = None).
  { induction w as [|y w IH]; [reflexivity|]. cbn [rfind_pre]. rewrite IH by (intros K; apply Hw; right; exact K). cbn [starts_with].
    replace (Ascii.eqb x y) with false; [reflexivity|]. symmetry. apply Ascii.eqb_neq. intros ->. apply Hw. left. reflexivity. }
  unfold rpartition_head. assert (E : rfind_pre [x] (q ++ x :: w) = Some q); [|rewrite E; reflexivity].
  induction q as [|y q IH]; cbn [app rfind_pre].
  - rewrite E0. cbn [starts_with]. rewrite Ascii.eqb_refl. reflexivity.
  - rewrite IH. reflexivity.
Qed.
Lemma rep_up b w pos : ~ In sp w -> rpartition_head sp (rep b (w :: pos)) = rep b pos.
Proof. intros H. rewrite <- rep_cons. apply rpart_snoc, H. Qed.
Lemma rep_root b : rpartition_head sp (rep b []) = rep false [].
Proof. destruct b; cbn; [|reflexivity]. unfold rpartition_head. cbn. rewrite Ascii.eqb_refl. reflexivity. Qed.
Lemma rep_inj b w pos b' w' pos' : Forall (ordinary sp) (rev (w :: pos)) -> Forall (ordinary sp) (rev (w' :: pos')) ->
  rep b (w :: pos) = rep b' (w' :: pos') -> b = b' /\ w = w' /\ pos = pos'.
Proof.
  intros H1 H2 E. assert (K : forall p q, Forall (ordinary sp) (rev q) -> q <> [] -> sp :: at_ p <> at_ q).
  { intros p q Hq Hn E'. unfold abs_path in E'. injection E' as E'. destruct (rev q) as [|a l] eqn:Er.
    - apply Hn. apply (f_equal (@rev str)) in Er. rewrite rev_involutive in Er. exact Er.
    - inversion Hq as [|? ? (A & _ & _ & B) _]; subst. destruct a as [|y a]; [apply A; reflexivity|]. apply B. left. destruct l; cbn in E'; congruence. }
  unfold rep in E. destruct b, b'; cbn [app] in E.
  - injection E as E. split; [reflexivity|]. assert (Q : w :: pos = w' :: pos') by (apply (at_inj s HG); [exact H1|exact H2|unfold abs_path; cbn [rev]; rewrite E; reflexivity]). injection Q as -> ->. auto.
  - exfalso. apply (K (w :: pos) (w' :: pos') H2 ltac:(discriminate) E).
  - exfalso. apply (K (w' :: pos') (w :: pos) H1 ltac:(discriminate)). symmetry. exact E.
  - split; [reflexivity|]. assert (Q : w :: pos = w' :: pos') by (apply (at_inj s HG); [exact H1|exact H2|exact E]). injection Q as -> ->. auto.
Qed.
Lemma readlink_rep b w pos : Forall (ordinary sp) (rev (w :: pos)) -> readlink s (rep b (w :: pos)) = readlink s (at_ (w :: pos)).
Proof. intros H. destruct b; [apply (readlink_front (rev pos) w H)|reflexivity]. Qed.

(** ** readlink of what is no link *)
Lemma not_einval_path p : resolve_path s p <> os_err EINVAL.
Proof.
  unfold resolve_path, resolve_path_. destruct (str_eqb p []); [discriminate|].
  destruct (valid_rel (exists_top s) (length p) s p) as [v|e] eqn:Ev; cbn [rbind].
  2:{ intros [= ->]. assert (Q : forall n q, valid_rel (exists_top s) n s q <> os_err EINVAL).
      { induction n as [|n IH]; intros q; [cbn [valid_rel]|rewrite valid_S]; rewrite (Ginv_win s HG).
        - destruct (rfind_pre _ q); discriminate.
        - destruct (rfind_pre _ q) as [x|]; [|discriminate]. destruct (exists_total s HG HL HD (anp s x) false) as [b Eb].
          assert (Et : exists b', exists_top s (anp s x) = Ok b').
          { destruct (anp_names s x Hg) as (ns & Hn & ->). rewrite (exists_top_eq s Hg ns Hn). destruct (exists_total s HG HL HD (abs_path sp ns) false) as [b' Eb']. exists b'. exact Eb'. }
          destruct Et as [b' ->]. cbn [rbind]. destruct b'; [apply IH|discriminate]. }
      apply (Q _ _ Ev). }
  destruct v; cbn [negb]; [|discriminate]. destruct (is_root_path _ _); [discriminate|]. destruct (str_eqb _ _); [discriminate|].
  assert (Q : forall n comps, resolve_components n s comps <> os_err EINVAL).
  { induction n as [|n IH]; intros comps; cbn [resolve_components]; destruct (walk_comps s root_oid [] comps); try discriminate.
    unfold follow_link. destruct (text_contents s link) as [t|e] eqn:Et; cbn [rbind]; [apply IH|].
    rewrite (lookup_ok_text s link e Et). discriminate. }
  destruct (resolve_components max_links s _) as [l|e] eqn:E; cbn [rbind]; [discriminate|]. intros [= ->]. apply (Q _ _ E).
Qed.

Lemma not_einval_resolve p ck : resolve s p ck <> os_err EINVAL.
Proof.
  unfold resolve, resolve_. pose proof (not_einval_path p) as Q. unfold resolve_path in Q. destruct (resolve_path_ (exists_top s) s p) as [rp|e]; cbn [rbind]; [|intros [= ->]; apply Q; reflexivity].
  unfold get_norm. destruct (str_eqb rp _); [discriminate|]. destruct (str_eqb rp _); [discriminate|].
  generalize (path_components c (original_path s rp)) as comps. generalize root_oid as d. intros d comps. revert d. induction comps as [|n comps IH]; intros d; cbn [norm_walk]; [discriminate|].
  destruct (S_ISLNK (o_mode (ob s d))).
  - destruct (text_contents s d) as [t|e] eqn:Et; cbn [rbind]; [discriminate|]. rewrite (lookup_ok_text s d e Et). discriminate.
  - cbn [rbind]. rewrite (Ginv_win s HG). destruct (negb (S_ISDIR _)); [discriminate|]. rewrite (get_entry_cs s d n (ll_cs _ lin)).
    destruct (is_dirobj s d); [|discriminate]. destruct (entry s d n); [|discriminate]. destruct (_ && _ && _); [discriminate|apply IH].
Qed.
Lemma not_einval_lresolve p : lresolve s p <> os_err EINVAL.
Proof.
  unfold lresolve, lresolve_. destruct (str_eqb p []); [discriminate|]. destruct (str_eqb p _); [discriminate|]. cbv zeta. destruct (splitpath c _) as [h n].
  set (h' := if str_eqb h [] then f_cwd s else h). pose proof (not_einval_resolve h' true) as Q. unfold resolve in Q.
  destruct (resolve_ (exists_top s) s h' true) as [d|e]; cbn [rbind]; [|intros [= ->]; apply Q; reflexivity]. rewrite (Ginv_win s HG).
  destruct (is_dirobj s d) eqn:Ed; cbn [negb]; [|discriminate]. destruct (negb (has_bit _ _)); [discriminate|]. destruct (str_eqb n []); [discriminate|].
  rewrite (get_entry_cs s d n (ll_cs _ lin)), Ed. destruct (entry s d n); discriminate.
Qed.
Lemma readlink_none b pos w : LF pos -> ordinary sp w -> lk pos w = None ->
  exists e, readlink s (rep b (w :: pos)) = Err (OSErr e) /\ negb (is_einval e) = negb (there pos w).
Proof.
  intros Hf Ho El. assert (Hw := LF_ord s pos w Hf Ho). rewrite (readlink_rep b w pos Hw). unfold there. destruct (at_names s (rev (w :: pos))) as [o|] eqn:Ea.
  - exists EINVAL. split; [|reflexivity]. destruct (LF_parent s HG HD HN HO pos w o Hf Ho Ea) as (d & A & B & D). cbn [rev] in *.
    assert (Q : lresolve s (abs_path sp (rev pos ++ [w])) = Ok o).
    { apply (lresolve_snoc s Hg _ _ _ _ Hw). exists d. split; [exact A|]. split; [apply (entry_dirobj s d w o D)|auto]. }
    unfold readlink. rewrite Q. cbn [rbind]. apply (lk_none s HL) in El. specialize (El o Ea). unfold is_link, S_ISLNK in El. rewrite El. reflexivity.
  - cbn [rev] in *. destruct (lresolve s (abs_path sp (rev pos ++ [w]))) as [o|e] eqn:Q.
    { exfalso. apply (lresolve_snoc s Hg _ _ _ _ Hw) in Q. destruct Q as (d & A & B & _ & D).
      pose proof (LF_resolve s HG pos d Hf A B) as K. unfold at_names in *. rewrite tree_at_app, K in Ea. cbn [tree_at] in Ea. rewrite D in Ea. discriminate. }
    destruct (lookup_ok_lresolve s HG _ _ Q) as [[e' ->]| ->]; [|exfalso; apply (nr_lresolve s HG HL HD _ Q)].
    exists e'. unfold readlink. rewrite Q. split; [reflexivity|]. destruct e'; try reflexivity. exfalso. apply (not_einval_lresolve _ Q).
Qed.

(** ** the walk *)
Definition foundx (v : str) (pos comps : list str) : Prop := exists b pos' k, v = rep b pos' /\ LF pos' /\ xv k pos comps = Some pos'.
Record dictx (I : list (bool * list str)) (seen : seen_dict) : Prop := {
  dx_pend : forall b w pos, LF pos -> ordinary sp w -> assoc (rep b (w :: pos)) seen = Some None -> In (b, w :: pos) I;
  dx_in : forall b x, In (b, x) I -> assoc (rep b x) seen <> None;
  dx_done : forall b w pos v, LF pos -> ordinary sp w -> assoc (rep b (w :: pos)) seen = Some (Some v) ->
     exists t, lk pos w = Some t /\ foundx v (base pos t) (split_on sp t);
}.
Definition fresh_x (I : list (bool * list str)) (n : nat) : Prop :=
  forall k, n = S k -> forall b w pos t, In (b, w :: pos) I -> lk pos w = Some t -> xv k (base pos t) (split_on sp t) = None.
Definition outx (I : list (bool * list str)) (pos comps : list str) (r : pres (str * seen_dict)) : Prop :=
  match r with
  | POk (v, seen') => dictx I seen' /\ foundx v pos comps
  | PRuntime => forall n q, xv n pos comps = Some q -> fresh_x I n -> False
  | PErr e => strict = true /\ (exists e', e = OSErr e') /\ forall n, xv n pos comps = None
  end.
Definition linksx (I : list (bool * list str)) : Prop :=
  NoDup I /\ forall b x, In (b, x) I -> exists w pos t, x = w :: pos /\ LF pos /\ ordinary sp w /\ lk pos w = Some t.
Lemma linksx_bound I : linksx I -> length I <= 2 * count_entries s (f_next s).
Proof.
  intros [Hn H]. assert (K : forall v, length (filter (fun y => Bool.eqb (fst y) v) I) <= count_entries s (f_next s)).
  { intros v. rewrite <- (map_length snd). apply (links_bound s HG). split.
    - clear H. induction Hn as [|[b x] I Hx _ IH]; [constructor|]. cbn [filter fst]. destruct (Bool.eqb b v) eqn:E; [|exact IH]. cbn [map snd]. constructor; [|exact IH].
      intros Hi. apply in_map_iff in Hi. destruct Hi as ([b' x'] & Ex & Hi). cbn [snd] in Ex. subst x'. apply filter_In in Hi. destruct Hi as [Hi Eb]. cbn [fst] in Eb. apply Bool.eqb_prop in E, Eb. subst b b'. contradiction.
    - intros x Hx. apply in_map_iff in Hx. destruct Hx as ([b x'] & Ex & Hi). cbn [snd] in Ex. subst x'. apply filter_In in Hi. apply (H b x), Hi. }
  assert (E : length I = length (filter (fun y => Bool.eqb (fst y) true) I) + length (filter (fun y => Bool.eqb (fst y) false) I)).
  { clear. induction I as [|[b x] I IH]; [reflexivity|]. cbn [length filter fst]. destruct b; cbn [Bool.eqb length]; lia. }
  pose proof (K true). pose proof (K false). lia.
Qed.
Lemma outx_ext I pos comps pos' comps' r : (forall n, xv n pos comps = xv n pos' comps') -> outx I pos' comps' r -> outx I pos comps r.
Proof.
  intros H. unfold outx. destruct r as [[v d]| |e].
  - intros [A (b & p & k & E & F & G)]. split; [exact A|]. exists b, p, k. rewrite H. auto.
  - intros A n q. rewrite H. apply A.
  - intros (A & B & D). split; [exact A|]. split; [exact B|]. intros n. rewrite H. apply D.
Qed.
Lemma foundx_link v pos w t rest m : ordinary sp w -> lk pos w = Some t -> (exists k, xv k (base pos t) (split_on sp t) = Some m) ->
  foundx v m rest -> foundx v pos (w :: rest).
Proof.
  intros Ho E [k Ek] (b & pos' & k' & -> & Hf & E'). exists b, pos', (S (k + k')). split; [reflexivity|]. split; [exact Hf|].
  rewrite (xv_link (k + k') pos w t m rest Ho E) by (apply (xv_le k); [lia|exact Ek]). apply (xv_le k'); [lia|exact E'].
Qed.
Lemma outx_link I pos w t rest m k r : ordinary sp w -> lk pos w = Some t -> xv k (base pos t) (split_on sp t) = Some m ->
  outx I m rest r -> outx I pos (w :: rest) r.
Proof.
  intros Ho El Ek. assert (K : forall n q, xv n pos (w :: rest) = Some q -> xv n m rest = Some q).
  { intros n q Eq. destruct (xv_link_inv n pos w t rest q Ho El Eq) as (k' & m' & -> & Em & Eq').
    assert (m' = m) by (apply (xv_det k' k (base pos t) (split_on sp t)); assumption). subst m'. exact Eq'. }
  unfold outx. destruct r as [[v d]| |e].
  - intros [A B]. split; [exact A|]. apply (foundx_link v pos w t rest m Ho El); [exists k; exact Ek|exact B].
  - intros A n q Eq. apply (A n q), K, Eq.
  - intros (A & B & D). split; [exact A|]. split; [exact B|]. intros n. destruct (xv n pos (w :: rest)) as [q|] eqn:Eq; [|reflexivity]. rewrite <- (D n). symmetry. apply K, Eq.
Qed.
Lemma rep_ord b w pos b' x : Forall (ordinary sp) (rev (w :: pos)) -> Forall (ordinary sp) (rev x) -> x <> [] -> rep b (w :: pos) = rep b' x -> (b, w :: pos) = (b', x).
Proof. intros H1 H2 Hx E. destruct x as [|w' pos']; [contradiction|]. destruct (rep_inj b w pos b' w' pos' H1 H2 E) as (-> & -> & ->). reflexivity. Qed.

Lemma loopx rec I : linksx I ->
  (forall J b pos t seen, linksx J -> length J = S (length I) -> LF pos -> dictx J seen -> outx J (base pos t) (split_on sp t) (rec (rep b pos) t seen)) ->
  forall comps b pos seen, (forall w, In w comps -> ~ In sp w) -> LF pos -> dictx I seen -> outx I pos comps (plib_loop rec s strict (rep b pos) comps seen).
Proof.
  intros HI Hrec. induction comps as [|w rest IH]; intros b pos seen Hc Hf Hd; cbn [plib_loop].
  - split; [exact Hd|]. exists b, pos, 0. auto.
  - assert (Hc' : forall v, In v rest -> ~ In sp v) by (intros v Hv; apply Hc; right; exact Hv). change (c_sep c) with sp.
    destruct (str_eqb w [] || str_eqb w dot) eqn:E1; [apply (outx_ext I pos (w :: rest) pos rest); [intros n; apply xv_skip, E1|apply IH; assumption]|].
    destruct (str_eqb w dotdot) eqn:E2.
    { apply str_eqb_eq in E2. subst w. apply (outx_ext I pos _ (tl pos) rest); [intros n; apply xv_up|].
      destruct pos as [|x pos]; [rewrite rep_root; apply IH; assumption|]. rewrite rep_up; [apply IH; [exact Hc'|apply (LF_tl _ _ Hf)|exact Hd]|].
      destruct Hf as [Ho _]. cbn [rev] in Ho. apply Forall_app in Ho. destruct Ho as [_ Ho]. inversion Ho as [|? ? (_ & _ & _ & Hx) _]; subst. exact Hx. }
    assert (Ho := ordinary_iff s w (Hc w (or_introl eq_refl)) E1 E2). assert (Hw := LF_ord s pos w Hf Ho). rewrite rep_cons.
    destruct (assoc (rep b (w :: pos)) seen) as [[v|]|] eqn:Ea.
    + destruct (dx_done _ _ Hd b w pos v Hf Ho Ea) as (t & Et & (b' & m & k & -> & Hm & Ek)).
      apply (outx_link I pos w t rest m k); [exact Ho|exact Et|exact Ek|apply IH; assumption].
    + intros n q Eq Hfr. assert (Hi := dx_pend _ _ Hd b w pos Hf Ho Ea). destruct HI as [_ HI]. destruct (HI _ _ Hi) as (w' & pos' & t & [= <- <-] & _ & _ & El).
      destruct (xv_link_inv n pos w t rest q Ho El Eq) as (k' & m' & -> & Em & Eq'). rewrite (Hfr k' eq_refl b w pos t Hi El) in Em. discriminate.
    + destruct (lk pos w) as [t|] eqn:El.
      2:{ destruct (readlink_none b pos w Hf Ho El) as (e & -> & Ee). rewrite Ee, andb_comm. destruct (strict && negb (there pos w)) eqn:Et.
          - split; [apply andb_true_iff in Et; apply Et|]. split; [exists e; reflexivity|]. intros n. apply (xv_gone n pos w rest Ho El Et).
          - apply (outx_ext I pos _ (w :: pos) rest); [intros n; apply (xv_step n pos w rest Ho El Et)|]. apply IH; [exact Hc'|apply (LF_cons s HL pos w Hf Ho El)|exact Hd]. }
      rewrite (readlink_rep b w pos Hw), (readlink_at s HG HD HN HO pos w t Hf Ho El).
      set (J := (b, w :: pos) :: I). set (seen1 := set_assoc (rep b (w :: pos)) None seen).
      assert (HJ : linksx J).
      { split; [constructor; [|apply HI]|]. - intros Hi. apply (dx_in _ _ Hd _ _ Hi Ea). - intros b' x [[= <- <-]|Hx]; [exists w, pos, t; auto|apply (proj2 HI b' x Hx)]. }
      assert (Hx_ord : forall b' x, In (b', x) J -> Forall (ordinary sp) (rev x) /\ x <> []).
      { intros b' x Hx. destruct (proj2 HJ b' x Hx) as (w' & pos' & t' & -> & F & O & _). split; [apply LF_ord; assumption|discriminate]. }
      assert (HdJ : dictx J seen1).
      { split.
        - intros b' w' pos' Hf' Ho' E. destruct (list_eq_dec ascii_dec (rep b (w :: pos)) (rep b' (w' :: pos'))) as [Eq|Hne].
          + left. apply rep_ord; [exact Hw|apply LF_ord; assumption|discriminate|exact Eq].
          + right. unfold seen1 in E. rewrite assoc_set_other in E by congruence. apply (dx_pend _ _ Hd _ _ _ Hf' Ho' E).
        - intros b' x Hx. unfold seen1. destruct (list_eq_dec ascii_dec (rep b' x) (rep b (w :: pos))) as [->|Hne]; [rewrite assoc_set_same; discriminate|].
          rewrite assoc_set_other by congruence. destruct Hx as [[= <- <-]|Hx]; [congruence|apply (dx_in _ _ Hd b' x Hx)].
        - intros b' w' pos' v Hf' Ho' E. unfold seen1 in E. destruct (list_eq_dec ascii_dec (rep b' (w' :: pos')) (rep b (w :: pos))) as [Eq|Hne].
          + rewrite Eq, assoc_set_same in E. discriminate.
          + rewrite assoc_set_other in E by congruence. apply (dx_done _ _ Hd b' w' pos' v Hf' Ho' E). }
      pose proof (Hrec J b pos t seen1 HJ eq_refl Hf HdJ) as Q. unfold outx in Q. destruct (rec (rep b pos) t seen1) as [[v seen']| |e].
      * destruct Q as [H3 (b1 & m & k & -> & Hm & Ek)].
        assert (Hd2 : dictx I (set_assoc (rep b (w :: pos)) (Some (rep b1 m)) seen')).
        { split.
          - intros b' w' pos' Hf' Ho' E. destruct (list_eq_dec ascii_dec (rep b' (w' :: pos')) (rep b (w :: pos))) as [Eq|Hne].
            + rewrite Eq, assoc_set_same in E. discriminate.
            + rewrite assoc_set_other in E by congruence. destruct (dx_pend _ _ H3 b' w' pos' Hf' Ho' E) as [K|K]; [|exact K]. injection K as -> -> ->. congruence.
          - intros b' x Hx. destruct (list_eq_dec ascii_dec (rep b' x) (rep b (w :: pos))) as [->|Hne]; [rewrite assoc_set_same; discriminate|].
            rewrite assoc_set_other by congruence. apply (dx_in _ _ H3 b' x). right. exact Hx.
          - intros b' w' pos' v Hf' Ho' E. destruct (list_eq_dec ascii_dec (rep b' (w' :: pos')) (rep b (w :: pos))) as [Eq|Hne].
            + rewrite Eq, assoc_set_same in E. injection E as <-. apply rep_inj in Eq; [|apply LF_ord; assumption|apply LF_ord; assumption]. destruct Eq as (-> & -> & ->).
              exists t. split; [exact El|]. exists b1, m, k. auto.
            + rewrite assoc_set_other in E by congruence. apply (dx_done _ _ H3 b' w' pos' v Hf' Ho' E). }
        apply (outx_link I pos w t rest m k); [exact Ho|exact El|exact Ek|apply IH; assumption].
      * intros n q Eq Hfr. destruct (xv_link_inv n pos w t rest q Ho El Eq) as (k & m & -> & Em & _).
        destruct (xv_least k _ _ m Em) as (k0 & Hk & Em0 & Hleast). apply (Q k0 m Em0). intros k1 E b' w' pos' t' [Hi|Hi] El'.
        -- injection Hi as <- <- <-. rewrite El in El'. injection El' as <-. apply (Hleast k1 E).
        -- apply (xv_none_le k1 k); [lia|]. apply (Hfr k eq_refl b' w' pos' t' Hi El').
      * destruct Q as (A & B & D). split; [exact A|]. split; [exact B|]. intros n. destruct (xv n pos (w :: rest)) as [q|] eqn:Eq; [|reflexivity].
        destruct (xv_link_inv n pos w t rest q Ho El Eq) as (k & m & -> & Em & _). rewrite D in Em. discriminate.
Qed.
Lemma starts_abs t : starts_with [sp] t = is_abs sp t.
Proof. destruct t as [|x t]; [reflexivity|]. cbn [starts_with is_abs]. rewrite Ascii.eqb_sym. destruct (Ascii.eqb x sp); reflexivity. Qed.
Lemma recx fuel : forall I b pos t seen, linksx I -> 2 * count_entries s (f_next s) + 1 <= fuel + length I -> LF pos -> dictx I seen ->
  outx I (base pos t) (split_on sp t) (plib_rec fuel s strict (rep b pos) t seen).
Proof.
  induction fuel as [|fuel IH]; intros I b pos t seen HI Hb Hf Hd.
  - exfalso. pose proof (linksx_bound I HI). lia.
  - cbn [plib_rec]. change (c_sep c) with sp. rewrite starts_abs. unfold base, RealThm.base.
    assert (K : forall b' pos', LF pos' -> outx I pos' (split_on sp t) (plib_loop (plib_rec fuel s strict) s strict (rep b' pos') (split_on sp t) seen)).
    { intros b' pos' Hf'. apply (loopx (plib_rec fuel s strict) I HI); [| |exact Hf'|exact Hd].
      - intros J b1 p1 t1 seen1 HJ EJ Hf1 Hd1. apply IH; [exact HJ|lia|exact Hf1|exact Hd1].
      - intros w Hw. apply (split_on_clean sp t w Hw). }
    destruct (is_abs sp t); [apply (K false []), LF_nil|apply K, Hf].
Qed.

(** ** resolve *)
Lemma anp_rep b pos : LF pos -> anp s (if nonempty (rep b pos) then rep b pos else [sp]) = at_ pos.
Proof.
  intros [H _]. assert (E0 : anp s [sp] = [sp]) by (apply (anp_abs_path s [] Hg); constructor). destruct pos as [|w pos].
  - destruct b; cbn [rep app nonempty]; exact E0.
  - assert (Ha : is_abs sp (at_ (w :: pos)) = true) by apply Ascii.eqb_refl. assert (E : anp s (at_ (w :: pos)) = at_ (w :: pos)) by (apply (anp_abs_path s _ Hg H)).
    destruct b; [|exact E]. cbn [rep app nonempty]. rewrite anp_front by (right; exact Ha). exact E.
Qed.
Lemma resolvex fuel p b pos : LF pos -> (is_abs sp p = false -> f_cwd s = rep b pos) -> 2 * count_entries s (f_next s) < fuel ->
  match plib_resolve fuel s p strict with
  | POk q => exists pos', q = at_ pos' /\ LF pos' /\ realx s strict (base pos p) (split_on sp p) pos'
  | PRuntime => forall q, ~ realx s strict (base pos p) (split_on sp p) q
  | PErr e => strict = true /\ (exists e', e = OSErr e') /\ forall q, ~ realx s strict (base pos p) (split_on sp p) q
  end.
Proof.
  intros Hf Hcwd Hb. unfold plib_resolve. change (c_sep c) with sp. rewrite starts_abs.
  assert (Q : outx [] (base pos p) (split_on sp p) (plib_rec fuel s strict (if is_abs sp p then [] else f_cwd s) p [])).
  { assert (K : forall b' pos', LF pos' -> outx [] (base pos' p) (split_on sp p) (plib_rec fuel s strict (rep b' pos') p [])).
    { intros b' pos' Hf'. apply recx; [| |exact Hf'|].
      - split; [constructor|intros b1 x []].
      - cbn [length]. lia.
      - split; [discriminate|intros b1 x []|discriminate]. }
    destruct (is_abs sp p) eqn:Ea; [|rewrite (Hcwd eq_refl); apply K, Hf].
    pose proof (K false [] (LF_nil s)) as K'. unfold base, RealThm.base in *. rewrite Ea in *. exact K'. }
  destruct (plib_rec fuel s strict _ p []) as [[v d]| |e]; cbn [outx] in Q.
  - destruct Q as [_ (b' & pos' & k & -> & Hf' & Ek)]. exists pos'. split; [apply anp_rep, Hf'|]. split; [exact Hf'|]. apply (xv_realx k); [|exact Ek]. intros w Hw. apply (split_on_clean sp p w Hw).
  - intros q Hq. apply realx_xv in Hq. destruct Hq as [n En]. apply (Q n q En). intros k _ b' w pos' t [].
  - destruct Q as (A & B & D). split; [exact A|]. split; [exact B|]. intros q Hq. apply realx_xv in Hq. destruct Hq as [n En]. rewrite D in En. discriminate.
Qed.
End P.
