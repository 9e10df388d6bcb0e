(** * Lemmas on the lexical functions of a Windows filesystem *)
From Verif Require Export WinSpec PathProofs PathProofs2.

(** A Windows configuration: separator and alternative separator are different
    and neither is a dot or a colon. *)
Record win_like (c : cfg) : Prop := {
  wl_win : c_win c = true;
  wl_dot : c_sep c <> dotc;
  wl_colon : c_sep c <> colon;
  wl_alt : match c_alt c with Some a => a <> c_sep c /\ a <> colon /\ a <> dotc | None => True end
}.
Lemma windows_cfg_like : win_like windows_cfg.
Proof. constructor; try reflexivity; try discriminate. repeat split; discriminate. Qed.

Lemma find_char_app x a b : ~ In x a -> find_char x (a ++ x :: b) = Some (length a).
Proof.
  induction a as [|y a IH]; intros H; cbn [app find_char length].
  - rewrite Ascii.eqb_refl. reflexivity.
  - destruct (Ascii.eqb_spec y x) as [->|Hn]; [destruct H; left; reflexivity|]. rewrite IH; [reflexivity|]. intros K. apply H. right. exact K.
Qed.
Lemma find_char_notin x a : ~ In x a -> find_char x a = None.
Proof.
  induction a as [|y a IH]; intros H; [reflexivity|]. cbn [find_char].
  destruct (Ascii.eqb_spec y x) as [->|Hn]; [destruct H; left; reflexivity|]. rewrite IH; [reflexivity|]. intros K. apply H. right. exact K.
Qed.

Section W.
Variable c : cfg.
Hypothesis Hw : win_like c.
Notation sp := (c_sep c).

Definition pc : cfg := mkcfg false false true sp None.
Lemma pc_like : posix_like pc.
Proof. constructor; [reflexivity..|]. apply (wl_dot c Hw). Qed.

(** ** normcase *)
Definition normal (p : str) : Prop := forall a, c_alt c = Some a -> ~ In a p.
Lemma normcase_normal p : normal (normcase c p).
Proof.
  intros a Ha. unfold normcase, normalize_path_sep. rewrite Ha. pose proof (wl_alt c Hw) as K. rewrite Ha in K. unfold replace_char, sep.
  intros H. apply in_map_iff in H. destruct H as (y & Hy & _). destruct (Ascii.eqb_spec y a); [destruct K as [K _]; congruence|congruence].
Qed.
Lemma normal_normcase p : normal p -> normcase c p = p.
Proof.
  intros H. unfold normcase, normalize_path_sep. destruct (c_alt c) as [a|] eqn:Ea; [|reflexivity]. specialize (H a Ea).
  unfold replace_char. induction p as [|y p IH]; [reflexivity|]. cbn [map]. destruct (Ascii.eqb_spec y a) as [->|Hn]; [destruct H; left; reflexivity|].
  rewrite IH; [reflexivity|]. intros K. apply H. right. exact K.
Qed.
Lemma normal_app p q : normal (p ++ q) <-> normal p /\ normal q.
Proof.
  split.
  - intros H. split; intros a Ha K; apply (H a Ha), in_or_app; [left|right]; exact K.
  - intros [H1 H2] a Ha K. apply in_app_or in K. destruct K; [apply (H1 a Ha)|apply (H2 a Ha)]; assumption.
Qed.
Lemma normal_sep : normal [sp].
Proof. intros a Ha [K|[]]. pose proof (wl_alt c Hw) as W. rewrite Ha in W. destruct W as [W _]. congruence. Qed.
Lemma normal_dot : normal dot.
Proof. intros a Ha [K|[]]. pose proof (wl_alt c Hw) as W. rewrite Ha in W. destruct W as (_ & _ & W). congruence. Qed.

(** ** Drives *)
Lemma win_drive_concat p d r : win_drive sp p d r -> d ++ r = p.
Proof. intros []; reflexivity. Qed.
Lemma colon_sep : Ascii.eqb colon sp = false.
Proof. destruct (Ascii.eqb_spec colon sp) as [E|]; [destruct (wl_colon c Hw); symmetry; exact E|reflexivity]. Qed.
Lemma colon_sep2 : Ascii.eqb sp colon = false.
Proof. destruct (Ascii.eqb_spec sp colon) as [E|]; [destruct (wl_colon c Hw); exact E|reflexivity]. Qed.

Lemma splitdrive_normal p d r : normal p -> win_drive sp p d r -> splitdrive c p = (d, r).
Proof.
  intros Hn H. unfold splitdrive. rewrite (wl_win c Hw), (normal_normcase p Hn). unfold sep. destruct H as [x r|server share r H1 H2 H3 H4|p H1 H2].
  - cbn [length Nat.leb firstn skipn str_eqb]. change (Ascii.eqb ":" sp) with (Ascii.eqb colon sp). rewrite colon_sep.
    change (Ascii.eqb ":" colon) with true. cbn [andb]. rewrite !andb_false_r. reflexivity.
  - replace ((sp :: sp :: server ++ sp :: share) ++ r) with (sp :: sp :: server ++ sp :: share ++ r) by (cbn [app]; rewrite <- app_assoc; reflexivity).
    assert (E : str_eqb (firstn 1 (server ++ sp :: share ++ r)) [sp] = false).
    { destruct server as [|y t]; [congruence|]. cbn [app firstn str_eqb]. destruct (Ascii.eqb_spec y sp) as [->|]; [destruct H2; left; reflexivity|reflexivity]. }
    change (skipn 2 (sp :: sp :: server ++ sp :: share ++ r)) with (server ++ sp :: share ++ r).
    change (firstn 2 (sp :: sp :: server ++ sp :: share ++ r)) with [sp; sp].
    rewrite str_eqb_refl, E. change (2 <=? length (sp :: sp :: server ++ sp :: share ++ r)) with true. cbn [andb negb].
    rewrite (find_char_app sp server (share ++ r) H2).
    assert (Es : skipn (S (2 + length server)) (sp :: sp :: server ++ sp :: share ++ r) = share ++ r).
    { change (skipn (S (2 + length server)) (sp :: sp :: server ++ sp :: share ++ r)) with (skipn (1 + length server) (server ++ sp :: share ++ r)).
      replace (1 + length server) with (length (server ++ [sp])) by (rewrite app_length; cbn; lia).
      change (sp :: share ++ r) with ([sp] ++ share ++ r). rewrite app_assoc. apply firstn_skipn_exact. reflexivity. }
    cbv zeta. rewrite Es.
    destruct H4 as [-> |[Hs Hr]].
    + rewrite app_nil_r, (find_char_notin sp share H3). reflexivity.
    + destruct r as [|z r]; [discriminate|]. cbn [is_abs] in Hr. apply Ascii.eqb_eq in Hr. subst z.
      rewrite (find_char_app sp share r H3). destruct (length share) as [|k] eqn:El; [destruct share; [congruence|discriminate]|].
      rewrite <- El.
      assert (F : length (sp :: sp :: server ++ sp :: share) = S (2 + length server) + length share).
      { cbn [length]. rewrite app_length. cbn [length]. lia. }
      assert (G : sp :: sp :: server ++ sp :: share ++ sp :: r = (sp :: sp :: server ++ sp :: share) ++ sp :: r).
      { cbn [app]. rewrite <- app_assoc. reflexivity. }
      rewrite G. destruct (firstn_skipn_exact (sp :: sp :: server ++ sp :: share) (sp :: r) _ F) as [K1 K2]. rewrite K1, K2. reflexivity.
  - destruct p as [|x [|y q]]; [reflexivity..|]. cbn [nth_error] in H1.
    change (2 <=? length (x :: y :: q)) with true. change (firstn 2 (x :: y :: q)) with [x; y].
    change (skipn 2 (x :: y :: q)) with q. change (firstn 1 (skipn 1 (x :: y :: q))) with [y].
    assert (Hc : str_eqb [y] [colon] = false).
    { cbn [str_eqb]. destruct (Ascii.eqb_spec y colon) as [->|]; [destruct H1; reflexivity|reflexivity]. }
    rewrite Hc. cbn [str_eqb]. destruct (Ascii.eqb_spec x sp) as [->|]; [|reflexivity]. cbn [andb].
    destruct (Ascii.eqb_spec y sp) as [->|]; [|reflexivity]. cbn [andb].
    destruct (negb (str_eqb (firstn 1 q) [sp])) eqn:E3; [|reflexivity].
    destruct (find_char sp q) as [i|] eqn:Ei; [|reflexivity].
    destruct (find_char_spec _ _ _ Ei) as (Hi & Hni & (r & Er)).
    assert (Hs1 : skipn (S (2 + i)) (sp :: sp :: q) = r).
    { change (skipn (S (2 + i)) (sp :: sp :: q)) with (skipn (S i) q). rewrite skipn_S_tl, Er. reflexivity. }
    cbv zeta. rewrite Hs1. destruct r as [|z r]; [|destruct (Ascii.eqb_spec z sp) as [->|Hz]].
    + exfalso. apply (H2 (firstn i q) []). split; [|split; [|split; [exact Hni|reflexivity]]].
      * rewrite <- Er, firstn_skipn. reflexivity.
      * intros K. destruct i; [|destruct q; [cbn in Hi; lia|discriminate K]]. cbn in Er. rewrite Er in E3. cbn in E3. rewrite Ascii.eqb_refl in E3. discriminate.
    + cbn [find_char]. rewrite Ascii.eqb_refl. reflexivity.
    + exfalso. apply (H2 (firstn i q) (z :: r)). split; [|split; [|split; [exact Hni|]]].
      * rewrite <- Er, firstn_skipn. reflexivity.
      * intros K. destruct i; [|destruct q; [cbn in Hi; lia|discriminate K]]. cbn in Er. rewrite Er in E3. cbn in E3. rewrite Ascii.eqb_refl in E3. discriminate.
      * cbn [is_abs]. destruct (Ascii.eqb_spec z sp); [contradiction|reflexivity].
Qed.
Lemma win_drive_total p : exists d r, win_drive sp p d r.
Proof.
  destruct p as [|x [|y q]].
  - exists [], []. apply wd_none; [discriminate|]. intros s t (K & _). discriminate.
  - exists [], [x]. apply wd_none; [discriminate|]. intros s t (K & _). discriminate.
  - destruct (Ascii.eqb_spec y colon) as [->|Hy]; [exists [x; colon], q; apply wd_letter|].
    assert (Hu : (exists s t, unc_start sp (x :: y :: q) s t) \/ forall s t, ~ unc_start sp (x :: y :: q) s t).
    { destruct (Ascii.eqb_spec x sp) as [->|Hx]; [|right; intros s t (K & _); injection K; congruence].
      destruct (Ascii.eqb_spec y sp) as [->|Hy2]; [|right; intros s t (K & _); injection K; congruence].
      destruct (find_char sp q) as [i|] eqn:Ei.
      - destruct (find_char_spec _ _ _ Ei) as (Hi & Hni & (r & Er)).
        assert (Eq : q = firstn i q ++ sp :: r) by (rewrite <- Er, firstn_skipn; reflexivity).
        assert (Hone : forall s t, q = s ++ sp :: t -> ~ In sp s -> s = firstn i q /\ t = r).
        { intros s t K Hs. rewrite K in Ei. rewrite (find_char_app sp s t Hs) in Ei. injection Ei as <-.
          rewrite K in Er. rewrite K. destruct (firstn_skipn_exact s (sp :: t) (length s) eq_refl) as [F1 F2]. rewrite F1. rewrite F2 in Er. injection Er as ->. auto. }
        destruct (firstn i q) as [|s0 sr] eqn:Es.
        + right. intros s t (K & Hs & Hi2 & _). injection K as K. destruct (Hone s t K Hi2) as [E _]. contradiction.
        + destruct (is_abs sp r) eqn:Ea.
          * right. intros s t (K & Hs & Hi2 & Ht). injection K as K. destruct (Hone s t K Hi2) as [_ E]. subst t. congruence.
          * left. exists (s0 :: sr), r. split; [rewrite Eq; reflexivity|]. split; [discriminate|]. split; [exact Hni|exact Ea].
      - right. intros s t (K & _). injection K as K. apply (find_char_none _ _ Ei). rewrite K. apply in_or_app. right. left. reflexivity. }
    destruct Hu as [(s & t & K & Hs & Hi & Ht)|Hu].
    + rewrite K. destruct (find_char sp t) as [j|] eqn:Ej.
      * destruct (find_char_spec _ _ _ Ej) as (Hj & Hnj & (r & Er)).
        exists (sp :: sp :: s ++ sp :: firstn j t), (skipn j t).
        replace (sp :: sp :: s ++ sp :: t) with ((sp :: sp :: s ++ sp :: firstn j t) ++ skipn j t).
        -- apply wd_unc; [exact Hs|exact Hi|exact Hnj|]. right. split.
           ++ destruct j; [|destruct t; [cbn in Hj; lia|discriminate]]. cbn in Er. rewrite Er in Ht. cbn in Ht. rewrite Ascii.eqb_refl in Ht. discriminate.
           ++ rewrite Er. cbn. apply Ascii.eqb_refl.
        -- cbn [app]. rewrite <- app_assoc. cbn [app]. rewrite firstn_skipn. reflexivity.
      * exists (sp :: sp :: s ++ sp :: t), []. replace (sp :: sp :: s ++ sp :: t) with ((sp :: sp :: s ++ sp :: t) ++ []) at 1 by apply app_nil_r.
        apply wd_unc; [exact Hs|exact Hi|apply find_char_none, Ej|left; reflexivity].
    + exists [], (x :: y :: q). apply wd_none; [cbn; intros [= K]; apply Hy; exact K|exact Hu].
Qed.
Lemma splitdrive_win p : win_drive sp (normcase c p) (fst (splitdrive c (normcase c p))) (snd (splitdrive c (normcase c p))).
Proof.
  destruct (win_drive_total (normcase c p)) as (d & r & H). rewrite (splitdrive_normal _ d r (normcase_normal p) H). exact H.
Qed.
Lemma win_drive_unique p d r d' r' : normal p -> win_drive sp p d r -> win_drive sp p d' r' -> d = d' /\ r = r'.
Proof. intros Hn H1 H2. pose proof (splitdrive_normal p d r Hn H1) as E. rewrite (splitdrive_normal p d' r' Hn H2) in E. injection E as <- <-. auto. Qed.

(** ** normpath *)
Definition nrest (r : str) : str :=
  let x := join_with [sp] (collapse (is_abs sp r) (split_on sp r)) in if is_abs sp r then sp :: x else x.
Lemma normpath_eq p d r : win_drive sp (normcase c p) d r ->
  normpath c p = match d ++ nrest r with [] => dot | q => q end.
Proof.
  intros H. unfold normpath. rewrite (splitdrive_normal _ d r (normcase_normal p) H). unfold sep.
  replace (starts_with [sp] r) with (is_abs sp r); [reflexivity|]. symmetry. apply (starts_with_1 pc).
Qed.
Lemma join_nonempty l : (forall w, In w l -> w <> []) -> l <> [] -> join_with [sp] l <> [].
Proof.
  intros H Hl. destruct l as [|w [|x l]]; [congruence| |].
  - cbn. apply H. left. reflexivity.
  - change (join_with [sp] (w :: x :: l)) with (w ++ sp :: join_with [sp] (x :: l)). destruct w; [destruct (H [] (or_introl eq_refl)); reflexivity|discriminate].
Qed.
Lemma nrest_cases r : (nrest r = [] /\ normpath pc r = dot /\ is_abs sp r = false) \/
  (nrest r <> [] /\ normpath pc r = nrest r /\ nrest r <> dot).
Proof.
  destruct (normpath_shape pc pc_like r) as (ups & names & Hu & Hn & Ha & Ec & En). cbn [c_sep pc] in *. unfold nrest. rewrite Ec, En.
  destruct (is_abs sp r) eqn:E.
  - right. split; [discriminate|]. split; [reflexivity|]. intros K. injection K as K _. apply (wl_dot c Hw). exact K.
  - assert (Hcl : forall w, In w (ups ++ names) -> w <> []) by (intros w Hin; apply (upnames_clean pc pc_like ups names Hu Hn w Hin)).
    destruct (ups ++ names) as [|w l] eqn:El; [left; auto|]. right.
    split; [apply join_nonempty; [exact Hcl|discriminate]|]. split; [reflexivity|].
    intros K. assert (Hw1 : In w (ups ++ names)) by (rewrite El; left; reflexivity).
    assert (Hwd : w <> dot).
    { apply in_app_or in Hw1. destruct Hw1 as [Hin|Hin]; [rewrite Forall_forall in Hu; rewrite (Hu w Hin); discriminate|].
      rewrite Forall_forall in Hn. destruct (Hn w Hin) as (_ & Hd & _). exact Hd. }
    destruct l as [|x l]; [apply Hwd; exact K|].
    change (join_with [sp] (w :: x :: l)) with (w ++ sp :: join_with [sp] (x :: l)) in K.
    destruct w as [|a w]; [apply (Hcl []); [left; reflexivity|reflexivity]|]. injection K as _ K. destruct w; discriminate.
Qed.
(** every character of the result comes from the path, or is a separator *)
Lemma collapse_in isabs l : forall acc w, In w (fold_left (collapse_step isabs) l acc) -> In w acc \/ In w l.
Proof.
  induction l as [|x l IH]; intros acc w H; cbn [fold_left] in H; [left; exact H|]. apply IH in H. destruct H as [H|H]; [|right; right; exact H].
  unfold collapse_step in H. destruct (_ || _); [left; exact H|]. destruct (str_eqb x dotdot).
  - destruct acc as [|top rest].
    + destruct isabs; [contradiction|]. destruct H as [->|[]]. right. left. reflexivity.
    + destruct (negb _); [left; right; exact H|]. destruct isabs; [left; exact H|]. destruct H as [->|H]; [right; left; reflexivity|left; exact H].
  - destruct H as [->|H]; [right; left; reflexivity|left; exact H].
Qed.
Lemma join_chars x l : In x (join_with [sp] l) -> x = sp \/ exists w, In w l /\ In x w.
Proof.
  induction l as [|w l IH]; [contradiction|]. destruct l as [|y l].
  - cbn. intros H. right. exists w. auto.
  - change (join_with [sp] (w :: y :: l)) with (w ++ sp :: join_with [sp] (y :: l)). intros H. apply in_app_or in H. destruct H as [H|[H|H]].
    + right. exists w. split; [left; reflexivity|exact H].
    + left. symmetry. exact H.
    + destruct (IH H) as [K|(v & K1 & K2)]; [left; exact K|right; exists v; split; [right; exact K1|exact K2]].
Qed.
Lemma split_chars x p : forall w, In w (split_on sp p) -> In x w -> In x p.
Proof.
  induction p as [|y p IH]; intros w H Hx; cbn [split_on] in H; [destruct H as [<-|[]]; exact Hx|].
  destruct (Ascii.eqb y sp).
  - destruct H as [<-|H]; [contradiction|]. right. apply (IH w H Hx).
  - destruct (split_on sp p) as [|v l] eqn:E.
    + destruct H as [<-|[]]. destruct Hx as [->|[]]. left. reflexivity.
    + destruct H as [<-|H]; [destruct Hx as [->|Hx]; [left; reflexivity|right; apply (IH v); [left; reflexivity|exact Hx]]|].
      right. apply (IH w); [right; exact H|exact Hx].
Qed.
Lemma nrest_chars r x : In x (nrest r) -> x = sp \/ In x r.
Proof.
  unfold nrest. intros H.
  assert (K : In x (join_with [sp] (collapse (is_abs sp r) (split_on sp r))) -> x = sp \/ In x r).
  { intros K. apply join_chars in K. destruct K as [K|(w & K1 & K2)]; [left; exact K|right]. unfold collapse in K1. apply in_rev in K1.
    apply collapse_in in K1. destruct K1 as [[]|K1]. apply (split_chars x r w K1 K2). }
  destruct (is_abs sp r); [destruct H as [H|H]; [left; symmetry; exact H|apply K, H]|apply K, H].
Qed.
Lemma canonical_heads p : canonical sp p -> forall a b t, p = a :: b :: t -> ~ (a = sp /\ b = sp).
Proof.
  intros H a b t E [-> ->]. destruct H as [| |names Hn Hf|ups names Hne Hu Hf].
  - discriminate.
  - discriminate E.
  - injection E as E. destruct names as [|w l]; [congruence|]. inversion_clear Hf.
    destruct (ordinary_head pc w) as (y & q & -> & Hy); [assumption|]. cbn [c_sep pc] in Hy. destruct l; cbn in E; injection E as E; congruence.
  - destruct (ups ++ names) as [|w l] eqn:El; [congruence|].
    assert (Hin : In w (ups ++ names)) by (rewrite El; left; reflexivity).
    destruct (upnames_clean pc pc_like ups names Hu Hf w Hin) as [Hw1 Hw2]. destruct w as [|y w]; [congruence|].
    assert (y = sp) by (destruct l; cbn in E; injection E as E _; exact E). subst y. apply Hw2. left. reflexivity.
Qed.
Lemma nrest_abs r : is_abs sp (nrest r) = is_abs sp r.
Proof.
  destruct (nrest_cases r) as [(-> & _ & ->)|(_ & <- & _)]; [reflexivity|]. apply (normpath_is_abs pc pc_like).
Qed.
Lemma nrest_walk st r : walk_pos sp st (nrest r) = walk_pos sp st r.
Proof.
  destruct (nrest_cases r) as [(E & En & _)|(_ & <- & _)]; [|apply (normpath_walk pc pc_like)].
  pose proof (normpath_walk pc pc_like st r) as K. cbn [c_sep pc] in K. rewrite <- K, E, En. symmetry. apply (walk_dot pc pc_like).
Qed.
Lemma nrest_nil : nrest [] = []. Proof. reflexivity. Qed.
Lemma nrest_idem r : nrest (nrest r) = nrest r.
Proof.
  destruct (nrest_cases r) as [(-> & _ & _)|(H1 & H2 & H3)]; [reflexivity|].
  destruct (nrest_cases (nrest r)) as [(K1 & K2 & _)|(K1 & K2 & K3)].
  - rewrite <- H2 in K2. rewrite (normpath_idem pc pc_like) in K2. congruence.
  - rewrite <- K2. rewrite <- H2. apply (normpath_idem pc pc_like).
Qed.

Definition wrest (d r : str) : str := match d ++ nrest r with [] => dot | _ => nrest r end.
Lemma normpath_wrest p d r : win_drive sp (normcase c p) d r -> normpath c p = d ++ wrest d r.
Proof.
  intros H. rewrite (normpath_eq p d r H). unfold wrest. destruct d as [|x d]; cbn [app]; [|reflexivity]. destruct (nrest r); reflexivity.
Qed.
Lemma wrest_form d r : win_rest sp d (wrest d r).
Proof.
  unfold wrest, win_rest. destruct d as [|x d]; cbn [app].
  - destruct (nrest_cases r) as [(-> & _ & _)|(H1 & H2 & H3)]; [apply can_dot|].
    destruct (nrest r) as [|y t] eqn:E; [congruence|]. rewrite <- H2. apply (normpath_canonical pc pc_like).
  - destruct (nrest_cases r) as [(-> & _ & _)|(H1 & H2 & H3)]; [left; reflexivity|right]. split; [|exact H3].
    rewrite <- H2. apply (normpath_canonical pc pc_like).
Qed.
Lemma wrest_abs d r : is_abs sp (wrest d r) = is_abs sp r.
Proof.
  unfold wrest. destruct (d ++ nrest r) as [|x l] eqn:E; [|apply nrest_abs].
  apply app_eq_nil in E. destruct E as [_ E]. rewrite <- (nrest_abs r), E. apply (is_abs_dot pc pc_like).
Qed.
Lemma wrest_walk st d r : walk_pos sp st (wrest d r) = walk_pos sp st r.
Proof.
  unfold wrest. destruct (d ++ nrest r) as [|x l] eqn:E; [|apply nrest_walk].
  apply app_eq_nil in E. destruct E as [_ E]. rewrite <- (nrest_walk st r), E. apply (walk_dot pc pc_like).
Qed.
Lemma wrest_chars d r x : In x (wrest d r) -> x = sp \/ x = dotc \/ In x r.
Proof.
  unfold wrest. destruct (d ++ nrest r); [intros [<-|[]]; auto|]. intros H. apply nrest_chars in H. tauto.
Qed.
Lemma wrest_normal d r : normal r -> normal (wrest d r).
Proof.
  intros H a Ha K. apply wrest_chars in K. pose proof (wl_alt c Hw) as W. rewrite Ha in W. destruct W as (W1 & W2 & W3).
  destruct K as [K|[K|K]]; [congruence|congruence|apply (H a Ha K)].
Qed.
Lemma wrest_drive p d r : win_drive sp p d r -> ~ In colon r -> win_drive sp (d ++ wrest d r) d (wrest d r).
Proof.
  intros H Hcol. destruct H as [x r|server share r H1 H2 H3 H4|r H1 H2].
  - apply wd_letter.
  - apply wd_unc; [exact H1|exact H2|exact H3|]. destruct H4 as [-> |[H4 H5]].
    + left. unfold wrest. rewrite nrest_nil. reflexivity.
    + right. split; [exact H4|]. rewrite wrest_abs. exact H5.
  - cbn [app]. apply wd_none.
    + intros K. apply nth_error_In in K. apply wrest_chars in K. destruct K as [K|[K|K]]; [|discriminate|exact (Hcol K)].
      apply (wl_colon c Hw). symmetry. exact K.
    + intros server t (K & _). refine (canonical_heads _ (wrest_form [] r) _ _ _ K _). auto.
Qed.
(** all about normpath *)
Lemma normpath_win p d r : win_drive sp (normcase c p) d r -> ~ In colon r ->
  exists r', normpath c p = d ++ r' /\ win_drive sp (normpath c p) d r' /\ splitdrive c (normpath c p) = (d, r') /\
    win_rest sp d r' /\ is_abs sp r' = is_abs sp r /\ (forall pos, walk_pos sp pos r' = walk_pos sp pos r) /\
    normal (normpath c p) /\ normpath c (normpath c p) = normpath c p.
Proof.
  intros H Hcol. assert (Hn := normcase_normal p). assert (Hdr := win_drive_concat _ _ _ H).
  assert (Hnn : normal (d ++ wrest d r)).
  { apply normal_app. rewrite <- Hdr in Hn. apply normal_app in Hn. destruct Hn. split; [assumption|apply wrest_normal; assumption]. }
  exists (wrest d r). rewrite (normpath_wrest p d r H). assert (Hd := wrest_drive _ d r H Hcol).
  split; [reflexivity|]. split; [exact Hd|]. split; [apply splitdrive_normal; assumption|]. split; [apply wrest_form|]. split; [apply wrest_abs|].
  split; [intros pos; apply wrest_walk|]. split; [exact Hnn|].
  assert (Hd2 : win_drive sp (normcase c (d ++ wrest d r)) d (wrest d r)) by (rewrite (normal_normcase _ Hnn); exact Hd).
  rewrite (normpath_wrest _ d (wrest d r) Hd2). f_equal. unfold wrest at 1.
  unfold wrest. destruct (d ++ nrest r) as [|x l] eqn:E.
  - apply app_eq_nil in E. destruct E as [-> _]. cbn [app]. destruct (nrest_cases dot) as [(-> & _)|(K1 & K2 & K3)]; [reflexivity|].
    exfalso. apply K3. rewrite <- K2. apply (normpath_fix pc pc_like). apply can_dot.
  - rewrite nrest_idem. rewrite E. reflexivity.
Qed.

(** ** join *)
Notation fold := (negb (c_cs c)).
Lemma in_seps_first r : normal r -> opt_in_seps c (first_char r) = is_abs sp r.
Proof.
  intros Hn. destruct r as [|x r]; [reflexivity|]. cbn. unfold sep. destruct (Ascii.eqb x sp); [reflexivity|]. cbn.
  destruct (c_alt c) as [a|] eqn:Ea; [|reflexivity]. destruct (Ascii.eqb_spec x a) as [->|]; [|reflexivity]. destruct (Hn a Ea). left. reflexivity.
Qed.
Lemma last_in r x : last_char r = Some x -> In x r.
Proof. unfold last_char. intros H. apply in_rev. destruct (rev r); [discriminate|]. injection H as ->. left. reflexivity. Qed.
Lemma in_seps_last r : normal r -> opt_in_seps c (last_char r) = ends_with_char sp r.
Proof.
  intros Hn. unfold ends_with_char. destruct (last_char r) as [x|] eqn:El; [|reflexivity]. cbn. unfold sep. destruct (Ascii.eqb x sp); [reflexivity|]. cbn.
  destruct (c_alt c) as [a|] eqn:Ea; [|reflexivity]. destruct (Ascii.eqb_spec x a) as [->|]; [|reflexivity]. destruct (Hn a Ea). apply last_in, El.
Qed.
Lemma join_step_win d r q dq rq : normal q -> normal r -> win_drive sp q dq rq -> join_drive_step c (d, r) q = win_join sp fold (d, r) (dq, rq).
Proof.
  intros Hq Hr H. unfold join_drive_step, win_join. rewrite (splitdrive_normal q dq rq Hq H).
  assert (Hn : normal dq /\ normal rq) by (apply normal_app; rewrite (win_drive_concat q dq rq H); exact Hq). destruct Hn as [Hdq Hrq].
  rewrite (in_seps_first rq Hrq), (in_seps_last r Hr).
  assert (E1 : nonempty rq && is_abs sp rq = is_abs sp rq) by (destruct rq; reflexivity). rewrite E1.
  assert (Ew : (if nonempty r && negb (ends_with_char sp r) then r ++ [sep c] else r) = with_sep sp r).
  { unfold with_sep. destruct r; [reflexivity|]. destruct (ends_with_char sp (a :: r)); reflexivity. }
  rewrite Ew. destruct (is_abs sp rq).
  - destruct dq; cbn [nonempty orb]; [destruct d; reflexivity|reflexivity].
  - destruct dq as [|x dq]; cbn [nonempty andb]; [reflexivity|]. unfold same_drive.
    destruct (str_eqb_spec (x :: dq) d) as [->|Hne]; cbn [negb andb].
    + rewrite str_eqb_refl. destruct fold; reflexivity.
    + destruct (c_cs c); cbn [orb negb]; [reflexivity|]. destruct (str_eqb _ _); reflexivity.
Qed.
Lemma win_join_normal d r dq rq : normal d -> normal r -> normal dq -> normal rq ->
  normal (fst (win_join sp fold (d, r) (dq, rq))) /\ normal (snd (win_join sp fold (d, r) (dq, rq))).
Proof.
  intros H1 H2 H3 H4. assert (Hs : normal (with_sep sp r ++ rq)).
  { apply normal_app. split; [|exact H4]. unfold with_sep. destruct r; [exact H2|]. destruct (ends_with_char _ _); [exact H2|].
    apply normal_app. split; [exact H2|apply normal_sep]. }
  unfold win_join. destruct (is_abs sp rq); [destruct dq; split; assumption|]. destruct dq; [split; assumption|]. destruct (same_drive _ _ _); split; assumption.
Qed.
Lemma join_fold_win ps : Forall normal ps -> forall qs d r, Forall2 (fun p x => win_drive sp p (fst x) (snd x)) ps qs -> normal d -> normal r ->
  fold_left (join_drive_step c) ps (d, r) = fold_left (win_join sp fold) qs (d, r) /\
  normal (fst (fold_left (win_join sp fold) qs (d, r))) /\ normal (snd (fold_left (win_join sp fold) qs (d, r))).
Proof.
  induction ps as [|q ps IH]; intros Hn qs d r H Hd Hr; inversion H as [|q' [dq rq] ps' qs' Hq Hqs]; subst; cbn [fold_left]; [auto|].
  inversion_clear Hn as [|? ? Hn1 Hn2]. cbn [fst snd] in Hq. rewrite (join_step_win d r q dq rq Hn1 Hr Hq).
  assert (K : normal dq /\ normal rq) by (apply normal_app; rewrite (win_drive_concat q dq rq Hq); exact Hn1). destruct K as [Hdq Hrq].
  destruct (win_join_normal d r dq rq Hd Hr Hdq Hrq) as [K1 K2]. destruct (win_join sp fold (d, r) (dq, rq)) as [d1 r1].
  apply (IH Hn2 qs' d1 r1 Hqs K1 K2).
Qed.
Lemma join_with_drive_win p ps dp rp qs : Forall normal (p :: ps) -> win_drive sp p dp rp ->
  Forall2 (fun p x => win_drive sp p (fst x) (snd x)) ps qs ->
  join_with_drive c p ps = win_path sp (fold_left (win_join sp fold) qs (dp, rp)).
Proof.
  intros Hn Hp Hq. inversion_clear Hn as [|? ? Hn1 Hn2]. unfold join_with_drive. rewrite (splitdrive_normal p dp rp Hn1 Hp).
  assert (K : normal dp /\ normal rp) by (apply normal_app; rewrite (win_drive_concat p dp rp Hp); exact Hn1). destruct K as [Hd Hr].
  destruct (join_fold_win ps Hn2 qs dp rp Hq Hd Hr) as (E & K1 & K2). rewrite E. destruct (fold_left _ qs (dp, rp)) as [d r]. cbn [fst snd] in *.
  rewrite (in_seps_first r K2). unfold win_path, ends_with_char. destruct d as [|x d]; [rewrite !andb_false_r; reflexivity|].
  destruct r as [|y r]; [reflexivity|]. cbn [nonempty andb]. rewrite andb_true_r.
  destruct (is_abs sp (y :: r)); cbn [negb andb orb]; [reflexivity|].
  change ":"%char with colon. destruct (last_char (x :: d)) as [z|]; [destruct (Ascii.eqb z colon); reflexivity|reflexivity].
Qed.

(** alternative separators *)
Lemma normcase_app p q : normcase c (p ++ q) = normcase c p ++ normcase c q.
Proof. unfold normcase, normalize_path_sep. destruct (c_alt c); [apply map_app|reflexivity]. Qed.
Lemma normcase_length' p : length (normcase c p) = length p.
Proof. apply normcase_length. Qed.
Lemma normcase_idem p : normcase c (normcase c p) = normcase c p.
Proof. apply normal_normcase, normcase_normal. Qed.
Lemma normcase_sep : normcase c [sp] = [sp].
Proof. apply normal_normcase, normal_sep. Qed.
Lemma splitdrive_normcase p : splitdrive c (normcase c p) = (fst (splitdrive c p), normcase c (snd (splitdrive c p))) /\ normal (fst (splitdrive c p)).
Proof.
  destruct (2 <=? length p) eqn:E.
  - assert (K : splitdrive c p = splitdrive c (normcase c p)).
    { unfold splitdrive. rewrite (wl_win c Hw), normcase_idem, normcase_length', E. reflexivity. }
    rewrite K. pose proof (splitdrive_win p) as H. pose proof (win_drive_concat _ _ _ H) as Hc. assert (Hn := normcase_normal p). rewrite <- Hc in Hn.
    apply normal_app in Hn. destruct Hn as [H1 H2]. split; [|exact H1]. rewrite (normal_normcase _ H2). apply surjective_pairing.
  - unfold splitdrive. rewrite (wl_win c Hw), normcase_length', E. split; [reflexivity|]. intros a _ [].
Qed.
Lemma in_seps_map x : opt_in_seps c (option_map (fun y => match c_alt c with Some a => if Ascii.eqb y a then sp else y | None => y end) x) = opt_in_seps c x.
Proof.
  destruct x as [x|]; [|reflexivity]. cbn. unfold sep. destruct (c_alt c) as [a|]; [|reflexivity].
  destruct (Ascii.eqb_spec x a) as [->|Hn]; [rewrite Ascii.eqb_refl, orb_true_r; reflexivity|].
  destruct (Ascii.eqb_spec x a); [contradiction|reflexivity].
Qed.
Lemma first_normcase r : opt_in_seps c (first_char (normcase c r)) = opt_in_seps c (first_char r).
Proof.
  rewrite <- (in_seps_map (first_char r)). f_equal. unfold normcase, normalize_path_sep, replace_char. destruct r as [|x r]; [destruct (c_alt c); reflexivity|].
  destruct (c_alt c); reflexivity.
Qed.
Lemma last_normcase r : opt_in_seps c (last_char (normcase c r)) = opt_in_seps c (last_char r).
Proof.
  rewrite <- (in_seps_map (last_char r)). f_equal. unfold last_char, normcase, normalize_path_sep, replace_char. destruct (c_alt c).
  - rewrite <- map_rev. destruct (rev r); reflexivity.
  - destruct (rev r); reflexivity.
Qed.
Lemma nonempty_normcase r : nonempty (normcase c r) = nonempty r.
Proof. unfold normcase, normalize_path_sep, replace_char. destruct (c_alt c); [destruct r|]; reflexivity. Qed.
Lemma join_step_normcase d r q : normal d ->
  join_drive_step c (d, normcase c r) (normcase c q) = (fst (join_drive_step c (d, r) q), normcase c (snd (join_drive_step c (d, r) q))) /\
  normal (fst (join_drive_step c (d, r) q)).
Proof.
  intros Hd. unfold join_drive_step. destruct (splitdrive_normcase q) as [E Hn]. rewrite E. destruct (splitdrive c q) as [dq rq]. cbn [fst snd] in *.
  rewrite !nonempty_normcase, first_normcase, last_normcase. destruct (nonempty rq && _).
  - cbn [fst snd]. split; [reflexivity|]. destruct (_ || _); assumption.
  - destruct (nonempty dq && _ && _); [split; [reflexivity|exact Hn]|]. cbn [fst snd]. split.
    + f_equal. rewrite normcase_app. f_equal. destruct (nonempty r && _); [|reflexivity]. rewrite normcase_app. f_equal. symmetry. apply normcase_sep.
    + destruct (nonempty dq && _); assumption.
Qed.
Lemma join_fold_normcase ps : forall d r, normal d ->
  fold_left (join_drive_step c) (map (normcase c) ps) (d, normcase c r) =
    (fst (fold_left (join_drive_step c) ps (d, r)), normcase c (snd (fold_left (join_drive_step c) ps (d, r)))) /\
  normal (fst (fold_left (join_drive_step c) ps (d, r))).
Proof.
  induction ps as [|q ps IH]; intros d r Hd; cbn [map fold_left]; [auto|].
  destruct (join_step_normcase d r q Hd) as [E Hn]. rewrite E. destruct (join_drive_step c (d, r) q) as [d1 r1]. cbn [fst snd] in *. apply IH, Hn.
Qed.
Lemma join_normcase p ps : normcase c (join_with_drive c p ps) = join_with_drive c (normcase c p) (map (normcase c) ps).
Proof.
  unfold join_with_drive. destruct (splitdrive_normcase p) as [E Hn]. rewrite E. destruct (splitdrive c p) as [d r]. cbn [fst snd] in *.
  destruct (join_fold_normcase ps d r Hn) as [E2 Hn2]. rewrite E2. destruct (fold_left _ ps (d, r)) as [d1 r1]. cbn [fst snd] in *.
  rewrite nonempty_normcase, first_normcase. destruct (nonempty r1 && _ && _ && _).
  - unfold sep. rewrite !normcase_app, normcase_sep, (normal_normcase d1 Hn2). reflexivity.
  - rewrite normcase_app, (normal_normcase d1 Hn2). reflexivity.
Qed.
Lemma normpath_normcase p : normpath c (normcase c p) = normpath c p.
Proof. unfold normpath. rewrite normcase_idem. reflexivity. Qed.

(** a path with drive and root wins *)
Lemma join_abs_wins p ps q qs dq rq : normal q -> win_drive sp q dq rq -> dq <> [] -> is_abs sp rq = true ->
  joinpaths c (p :: ps ++ q :: qs) = joinpaths c (q :: qs).
Proof.
  intros Hq H Hne Ha.
  assert (E : joinpaths c (p :: ps ++ q :: qs) = Some (join_with_drive c p (ps ++ q :: qs))).
  { cbn [joinpaths]. rewrite (wl_win c Hw). destruct (ps ++ q :: qs) eqn:El; [destruct ps; discriminate|reflexivity]. }
  rewrite E. unfold join_with_drive. rewrite fold_left_app. cbn [fold_left]. destruct (fold_left _ ps _) as [d r].
  assert (K : join_drive_step c (d, r) q = (dq, rq)).
  { unfold join_drive_step. rewrite (splitdrive_normal q dq rq Hq H).
    assert (Hrq : normal rq) by (apply (normal_app dq rq); rewrite (win_drive_concat q dq rq H); exact Hq).
    rewrite (in_seps_first rq Hrq), Ha. destruct rq; [discriminate|]. destruct dq; [congruence|]. reflexivity. }
  rewrite K. destruct qs as [|q2 qs].
  - cbn [fold_left joinpaths]. assert (Hrq : normal rq) by (apply (normal_app dq rq); rewrite (win_drive_concat q dq rq H); exact Hq).
    rewrite (in_seps_first rq Hrq), Ha, andb_false_r. cbn [andb]. rewrite (win_drive_concat q dq rq H). reflexivity.
  - cbn [joinpaths]. rewrite (wl_win c Hw). unfold join_with_drive. rewrite (splitdrive_normal q dq rq Hq H). reflexivity.
Qed.

(** ** abspath *)
Lemma starts_seps p : starts_with_sep c p = opt_in_seps c (first_char p).
Proof.
  unfold starts_with_sep, sep. destruct p as [|x p]; [destruct (c_alt c); reflexivity|]. cbn. unfold sep.
  rewrite andb_true_r. rewrite (Ascii.eqb_sym sp x). destruct (c_alt c) as [a|]; [|reflexivity]. rewrite andb_true_r, (Ascii.eqb_sym a x). reflexivity.
Qed.
Lemma starts_sep_win p : starts_with_sep c p = is_abs sp (normcase c p).
Proof. rewrite starts_seps, <- first_normcase. apply in_seps_first, normcase_normal. Qed.
Lemma isabs_win p d r : win_drive sp (normcase c p) d r -> path_isabs c p = is_abs sp r.
Proof.
  intros H. unfold path_isabs. rewrite (wl_win c Hw), starts_seps. destruct (splitdrive_normcase p) as [E _].
  rewrite (splitdrive_normal _ d r (normcase_normal p) H) in E. injection E as _ E. rewrite <- first_normcase, <- E.
  apply in_seps_first. assert (Hn := normcase_normal p). rewrite <- (win_drive_concat _ _ _ H) in Hn. apply normal_app in Hn. apply Hn.
Qed.
Lemma pc_abs : posix_abs pc.
Proof. constructor; [apply pc_like|]. left. reflexivity. Qed.
Lemma with_sep_walk pos a b : a <> [] -> is_abs sp b = false -> walk_pos sp pos (with_sep sp a ++ b) = walk_pos sp (walk_pos sp pos a) b.
Proof.
  intros Ha Hb. pose proof (walk_join pc pc_abs pos a b Ha Hb) as K. cbn [c_sep pc] in K. rewrite <- K. f_equal. unfold with_sep.
  destruct a as [|x a]; [congruence|]. cbn [nonempty andb]. destruct (ends_with_char sp (x :: a)); [reflexivity|]. cbn [negb]. rewrite <- app_assoc. reflexivity.
Qed.
Lemma with_sep_abs a b : is_abs sp a = true -> is_abs sp (with_sep sp a ++ b) = true.
Proof. destruct a as [|x a]; [discriminate|]. unfold with_sep. destruct (ends_with_char _ _); intros H; exact H. Qed.
Lemma with_sep_colon a b : ~ In colon a -> ~ In colon b -> ~ In colon (with_sep sp a ++ b).
Proof.
  intros Ha Hb K. apply in_app_or in K. destruct K as [K|K]; [|exact (Hb K)]. unfold with_sep in K. destruct a as [|x a]; [contradiction|].
  destruct (ends_with_char _ _); [exact (Ha K)|]. apply in_app_or in K. destruct K as [K|[K|[]]]; [exact (Ha K)|]. apply (wl_colon c Hw). exact K.
Qed.
Lemma redrive p d r R : win_drive sp p d r -> is_abs sp r = true -> is_abs sp R = true ->
  (d = [] -> forall b t, R = sp :: b :: t -> b <> sp /\ b <> colon) -> win_drive sp (d ++ R) d R.
Proof.
  intros H Hr HR Hd. destruct H as [x r|server share r H1 H2 H3 H4|r H1 H2].
  - apply wd_letter.
  - apply wd_unc; [assumption..|]. right. split; [|exact HR]. destruct H4 as [->|[H4 _]]; [discriminate|exact H4].
  - cbn [app]. specialize (Hd eq_refl). destruct R as [|x R]; [discriminate|]. cbn in HR. apply Ascii.eqb_eq in HR. subst x.
    apply wd_none.
    + destruct R as [|b R]; [discriminate|]. cbn. intros [= K]. destruct (Hd b R eq_refl) as [_ K2]. apply K2. exact K.
    + intros server t (K & _). injection K as K. destruct (Hd sp (server ++ sp :: t)) as [K2 _]; [rewrite K; reflexivity|]. apply K2. reflexivity.
Qed.
Lemma with_sep_second rc r : canonical sp rc -> is_abs sp rc = true -> is_abs sp r = false -> ~ In colon rc -> ~ In colon r ->
  forall b t, with_sep sp rc ++ r = sp :: b :: t -> b <> sp /\ b <> colon.
Proof.
  intros Hcan Ha Hr H1 H2 b t E.
  assert (Hcol : ~ In colon (with_sep sp rc ++ r)) by (apply with_sep_colon; assumption).
  split; [|intros ->; apply Hcol; rewrite E; right; left; reflexivity].
  destruct rc as [|x [|y rc]]; [discriminate| |].
  - cbn in Ha. apply Ascii.eqb_eq in Ha. subst x. unfold with_sep, ends_with_char in E. cbn in E. rewrite Ascii.eqb_refl in E. cbn in E.
    injection E as E. rewrite E in Hr. cbn in Hr. intros ->. rewrite Ascii.eqb_refl in Hr. discriminate.
  - assert (x = sp /\ y = b) as [-> ->].
    { unfold with_sep in E. destruct (ends_with_char _ _); cbn in E; injection E as E1 E2; auto. }
    intros ->. refine (canonical_heads _ Hcan _ _ _ eq_refl _). auto.
Qed.
Lemma win_path_abs d r : is_abs sp r = true -> win_path sp (d, r) = d ++ r.
Proof. intros H. unfold win_path. destruct d; [reflexivity|]. destruct r; [reflexivity|]. rewrite H. reflexivity. Qed.
Lemma join2_win a p d r da ra : normal a -> win_drive sp a da ra -> win_drive sp (normcase c p) d r ->
  normpath c (join2 c a p) = normpath c (win_path sp (win_join sp fold (da, ra) (d, r))).
Proof.
  intros Hn Ha Hp. unfold join2. cbn [joinpaths]. rewrite (wl_win c Hw). rewrite <- normpath_normcase, join_normcase. rewrite (normal_normcase a Hn). cbn [map].
  f_equal. rewrite (join_with_drive_win a [normcase c p] da ra [(d, r)]); [reflexivity| |exact Ha|].
  - repeat constructor; [exact Hn|apply normcase_normal].
  - repeat constructor. exact Hp.
Qed.
Lemma canonical_of_rest d r : win_rest sp d r -> is_abs sp r = true -> canonical sp r.
Proof. unfold win_rest. destruct d; [auto|]. intros [->|[H _]] Ha; [discriminate|exact H]. Qed.
Lemma abspath_win cwd dc rc p d r : normal cwd -> win_drive sp cwd dc rc -> canonical sp rc -> is_abs sp rc = true -> ~ In colon rc ->
  win_drive sp (normcase c p) d r -> ~ In colon r ->
  (is_abs sp r = true -> d = [] -> length dc <= 2) ->
  (is_abs sp r = false -> d = [] \/ ((exists x, d = [x; colon]) /\ same_drive fold d dc = true)) ->
  exists r', path_abspath c cwd p = (match d with [] => dc | _ => d end) ++ r' /\
    splitdrive c (path_abspath c cwd p) = (match d with [] => dc | _ => d end, r') /\ is_abs sp r' = true /\ canonical sp r' /\
    (forall pos, walk_pos sp pos r' = walk_pos sp (walk_pos sp [] rc) r).
Proof.
  intros Hn Hcwd Hcan Hrc Hcc Hp Hcol Habs Hrel. unfold path_abspath. rewrite (isabs_win p d r Hp).
  set (D := match d with [] => dc | _ => d end).
  assert (Hfin : forall x R, normpath c x = normpath c (D ++ R) -> normal (D ++ R) -> win_drive sp (D ++ R) D R -> ~ In colon R -> is_abs sp R = true ->
    (forall pos, walk_pos sp pos R = walk_pos sp (walk_pos sp [] rc) r) ->
    exists r', normpath c x = D ++ r' /\ splitdrive c (normpath c x) = (D, r') /\ is_abs sp r' = true /\ canonical sp r' /\
      (forall pos, walk_pos sp pos r' = walk_pos sp (walk_pos sp [] rc) r)).
  { intros x R Ex HN HD HC HA HWk. rewrite Ex. destruct (normpath_win (D ++ R) D R) as (r' & K1 & K2 & K3 & K4 & K5 & K6 & _).
    - rewrite (normal_normcase _ HN). exact HD.
    - exact HC.
    - exists r'. split; [exact K1|]. split; [exact K3|]. rewrite K5. split; [exact HA|]. split; [apply (canonical_of_rest D r' K4); rewrite K5; exact HA|].
      intros pos. rewrite K6. apply HWk. }
  assert (Hnr : normal d /\ normal r) by (apply normal_app; rewrite (win_drive_concat _ _ _ Hp); apply normcase_normal). destruct Hnr as [Hnd Hnr].
  assert (Hnc : normal dc /\ normal rc) by (apply normal_app; rewrite (win_drive_concat _ _ _ Hcwd); exact Hn). destruct Hnc as [Hndc Hnrc].
  assert (Hne : rc <> []) by (intros ->; discriminate).
  destruct (is_abs sp r) eqn:Ea; cbn [negb].
  - assert (Hself : forall a da ra, normal a -> win_drive sp a da ra -> d <> [] -> normpath c (join2 c a p) = normpath c p).
    { intros a da ra Hna Hda Hdn. rewrite (join2_win a p d r da ra Hna Hda Hp). unfold win_join. rewrite Ea. destruct d as [|z d]; [congruence|].
      rewrite (win_path_abs _ _ Ea), (win_drive_concat _ _ _ Hp). apply normpath_normcase. }
    assert (Hwk : forall pos, walk_pos sp pos r = walk_pos sp (walk_pos sp [] rc) r) by (intros pos; unfold walk_pos; rewrite Ea; reflexivity).
    rewrite (wl_win c Hw), starts_sep_win. cbn [andb].
    destruct d as [|z d'] eqn:Ed.
    + unfold D in *. specialize (Habs eq_refl eq_refl). cbn [app]. rewrite <- (win_drive_concat _ _ _ Hp). cbn [app]. rewrite Ea. unfold starts_with_drive_letter. rewrite (wl_win c Hw), andb_true_r.
      inversion Hcwd as [x r0 E1 E2 E3|server share r0 H1 H2 H3 H4 E1 E2|p0 H1 H2 E1 E2].
      * subst. cbn [length Nat.leb firstn skipn str_eqb]. rewrite Ascii.eqb_refl. cbn [andb].
        apply (Hfin _ r); [|apply normal_app; split; assumption|apply wd_letter|exact Hcol|exact Ea|exact Hwk].
        change ":"%char with colon. rewrite (join2_win [x; colon] p [] r [x; colon] [] Hndc (wd_letter sp x []) Hp). unfold win_join. rewrite Ea. rewrite (win_path_abs _ _ Ea). reflexivity.
      * exfalso. rewrite <- E2 in Habs. cbn in Habs. rewrite app_length in Habs. cbn in Habs. destruct server; [congruence|cbn in Habs; lia].
      * subst. assert (El : (2 <=? length rc) && str_eqb (firstn 1 (skipn 1 rc)) [colon] = false).
        { destruct rc as [|x [|y rc]]; [reflexivity..|]. cbn. destruct (Ascii.eqb_spec y colon) as [->|]; [destruct H1; reflexivity|reflexivity]. }
        rewrite El. apply (Hfin _ r); [|exact Hnr| |exact Hcol|exact Ea|exact Hwk].
        -- rewrite <- normpath_normcase. f_equal. symmetry. apply (win_drive_concat _ _ _ Hp).
        -- pose proof (win_drive_concat _ _ _ Hp) as Ec. cbn [app] in Ec. rewrite <- Ec in Hp. exact Hp.
    + assert (Hgoal : exists r', normpath c p = D ++ r' /\ splitdrive c (normpath c p) = (D, r') /\ is_abs sp r' = true /\ canonical sp r' /\
        (forall pos, walk_pos sp pos r' = walk_pos sp (walk_pos sp [] rc) r)).
      { apply (Hfin _ r); [|apply normal_app; split; assumption| |exact Hcol|exact Ea|exact Hwk].
        - rewrite <- normpath_normcase. f_equal. symmetry. apply (win_drive_concat _ _ _ Hp).
        - pose proof (win_drive_concat _ _ _ Hp) as Ec. rewrite <- Ec in Hp. exact Hp. }
      destruct (is_abs sp (normcase c p)); [|exact Hgoal]. destruct (starts_with_drive_letter c cwd) eqn:El; [|exact Hgoal].
      destruct (win_drive_total (firstn 2 cwd)) as (da & ra & Hda).
      rewrite (Hself (firstn 2 cwd) da ra); [exact Hgoal| |exact Hda|discriminate].
      rewrite <- (firstn_skipn 2 cwd) in Hn. apply normal_app in Hn. apply Hn.
  - set (R := with_sep sp rc ++ r).
    assert (HR : is_abs sp R = true) by (apply with_sep_abs, Hrc).
    assert (HnR : normal (with_sep sp rc)).
    { unfold with_sep. destruct rc; [exact Hnrc|]. destruct (ends_with_char _ _); [exact Hnrc|]. apply normal_app. split; [exact Hnrc|apply normal_sep]. }
    apply (Hfin _ R); [| | |apply with_sep_colon; assumption|exact HR|].
    + rewrite (join2_win cwd p d r dc rc Hn Hcwd Hp). unfold win_join. rewrite Ea. unfold D. destruct d as [|z d]; [rewrite (win_path_abs _ _ HR); reflexivity|].
      destruct (Hrel eq_refl) as [K|[_ K]]; [discriminate|]. rewrite K. rewrite (win_path_abs _ _ HR). reflexivity.
    + apply normal_app. split; [unfold D; destruct d; assumption|]. apply normal_app. split; assumption.
    + unfold D. destruct (Hrel eq_refl) as [->|[[x ->] _]]; [|apply wd_letter].
      apply (redrive cwd dc rc R Hcwd Hrc HR). intros _. apply with_sep_second; assumption.
    + intros pos. unfold R. rewrite (with_sep_walk pos rc r Hne Ea). unfold walk_pos at 2. rewrite Hrc. unfold walk_pos at 3. rewrite Hrc. reflexivity.
Qed.
End W.
