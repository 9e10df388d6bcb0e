(** * Proofs about split, join, splitdrive and splitroot (C04-C07). *)
From Verif Require Export PathProofs.


Lemma all_sep_repeat x n : all_sep x (repeat x n).
Proof. unfold all_sep. induction n; simpl; constructor; auto. Qed.

Lemma all_sep_eq_repeat x s : all_sep x s -> s = repeat x (length s).
Proof. induction 1 as [|y s -> _ IH]; simpl; congruence. Qed.

Lemma drop_empty_spec l :
  exists k, l = repeat [] k ++ drop_empty l /\ (match drop_empty l with [] :: _ => False | _ => True end).
Proof.
  induction l as [|w l IH]; [exists 0; split; [reflexivity|exact I]|].
  destruct w as [|x w].
  - destruct IH as (k & E & H). exists (S k). simpl. split; [f_equal; exact E|exact H].
  - exists 0; split; [reflexivity|exact I].
Qed.

Lemma rev_repeat {A} (x : A) n : rev (repeat x n) = repeat x n.
Proof.
  induction n as [|n IH]; [reflexivity|]. simpl. rewrite IH.
  clear IH; induction n; [reflexivity|]. simpl. rewrite IHn. reflexivity.
Qed.

Lemma strip_trailing_spec l :
  exists k, l = strip_trailing_empty l ++ repeat [] k /\
    (strip_trailing_empty l = [] \/ exists l' w, strip_trailing_empty l = l' ++ [w] /\ w <> []).
Proof.
  unfold strip_trailing_empty. destruct (drop_empty_spec (rev l)) as (k & E & H).
  exists k. split.
  - rewrite <- (rev_repeat [] k), <- rev_app_distr, <- E, rev_involutive. reflexivity.
  - destruct (drop_empty (rev l)) as [|w r]; [left; reflexivity|].
    right. exists (rev r), w. split; [reflexivity|]. destruct w; [destruct H|discriminate].
Qed.

Lemma join_repeat_nil sp n : join_with [sp] (repeat [] (S n)) = repeat sp n.
Proof.
  induction n as [|n IH]; [reflexivity|].
  change (repeat [] (S (S n))) with (@nil ascii :: repeat (@nil ascii) (S n)).
  cbn [join_with]. change (repeat (@nil ascii) (S n)) with (@nil ascii :: repeat (@nil ascii) n) at 1.
  cbn [app]. rewrite IH. reflexivity.
Qed.

Section SJ.
Variable c : cfg.
Hypothesis Hc : posix_like c.
Notation sp := (c_sep c).

Lemma no_drive_letter p : starts_with_drive_letter c p = false.
Proof. unfold starts_with_drive_letter. rewrite (pl_win _ Hc). apply andb_false_r. Qed.

Lemma splitpath_spec p : split_spec sp p (splitpath c p).
Proof.
  unfold splitpath. rewrite (normcase_id c Hc), no_drive_letter. unfold sep.
  pose proof (join_split sp p) as Hj.
  pose proof (split_on_clean sp p) as Hcl.
  destruct (exists_last (split_on_nonempty sp p)) as (rest & base & E).
  rewrite E in *. rewrite removelast_last, last_last.
  assert (Hb : ~ In sp base) by (apply Hcl, in_or_app; right; left; reflexivity).
  destruct rest as [|r0 rest].
  - simpl in Hj. subst base. apply sp_plain. exact Hb.
  - assert (Hne : r0 :: rest <> []) by discriminate. revert Hne Hj Hcl. clear E.
    cbv beta iota. generalize (r0 :: rest). intros rs Hne Hj Hcl.
    rewrite join_with_app in Hj by (assumption || discriminate). cbn [join_with] in Hj.
    destruct (strip_trailing_spec rs) as (k & Ers & Hst).
    destruct (existsb (fun w => negb (str_eqb w [])) rs) eqn:Eex.
    + destruct Hst as [Hst|(l' & w & Hst & Hw)].
      { exfalso. rewrite Hst in Ers. cbn [app] in Ers. apply existsb_exists in Eex.
        destruct Eex as (x & Hx1 & Hx2). rewrite Ers in Hx1. apply repeat_spec in Hx1. subst x. discriminate. }
      assert (Hjr : exists seps, all_sep sp seps /\ join_with [sp] rs = join_with [sp] (strip_trailing_empty rs) ++ seps).
      { assert (Ejr : join_with [sp] rs = join_with [sp] (strip_trailing_empty rs ++ repeat [] k))
          by (rewrite <- Ers; reflexivity).
        rewrite Ejr. destruct k as [|k].
        - exists []. split; [constructor|]. cbn [repeat]. rewrite !app_nil_r. reflexivity.
        - exists (sp :: repeat sp k). split; [apply (all_sep_repeat sp (S k))|].
          rewrite join_with_app; [|rewrite Hst; destruct l'; discriminate|discriminate].
          rewrite join_repeat_nil. reflexivity. }
      destruct Hjr as (seps & Hseps & Hjr).
      assert (Hh : split_spec sp p (join_with [sp] (strip_trailing_empty rs), base)).
      { assert (Hwcl : ~ In sp w).
        { apply Hcl. rewrite Ers, Hst. rewrite <- !app_assoc. apply in_or_app; right; left; reflexivity. }
        assert (Hend : exists u, join_with [sp] (strip_trailing_empty rs) = u ++ w).
        { rewrite Hst. destruct l' as [|a l']; [exists []; reflexivity|].
          rewrite join_with_app by discriminate. cbn [join_with].
          exists (join_with [sp] (a :: l') ++ [sp]). rewrite <- app_assoc. reflexivity. }
        destruct Hend as (u & Hu).
        apply sp_dir with (seps := seps ++ [sp]).
        - rewrite Hu. destruct u; [cbn; assumption|discriminate].
        - rewrite Hu. destruct (exists_last Hw) as (w' & y & ->).
          destruct (ends_with_char sp (u ++ w' ++ [y])) eqn:Ee; [|reflexivity].
          apply ends_with_char_spec in Ee. destruct Ee as (t & Et).
          rewrite app_assoc in Et. apply app_inj_tail in Et. destruct Et as [_ Et].
          exfalso; apply Hwcl. subst y. apply in_or_app; right; left; reflexivity.
        - destruct seps; discriminate.
        - apply Forall_app; split; [exact Hseps|constructor; [reflexivity|constructor]].
        - exact Hb.
        - rewrite <- Hj, Hjr. rewrite <- !app_assoc. reflexivity. }
      destruct (strip_trailing_empty rs) as [|w0 [|w1 l]] eqn:Estr; [exact Hh| |exact Hh].
      cbn [join_with] in Hh. exact Hh.
    + apply sp_root with (seps := join_with [sp] rs ++ [sp]).
      * destruct (join_with [sp] rs); discriminate.
      * assert (Hall : rs = repeat [] (length rs)).
        { clear - Eex. induction rs as [|x rs IH]; [reflexivity|]. cbn [existsb] in Eex.
          apply orb_false_iff in Eex. destruct Eex as [E1 E2].
          apply negb_false_iff, str_eqb_eq in E1. subst x. cbn [length repeat]. f_equal. apply IH, E2. }
        apply Forall_app; split; [|constructor; [reflexivity|constructor]].
        rewrite Hall. destruct (length rs); [constructor|]. rewrite join_repeat_nil. apply all_sep_repeat.
      * exact Hb.
      * rewrite <- Hj. rewrite <- app_assoc. reflexivity.
Qed.

(** the specification determines the result *)
Lemma all_sep_app_inj u v s t :
  all_sep sp s -> all_sep sp t -> ~ In sp u -> ~ In sp v -> s ++ u = t ++ v -> s = t /\ u = v.
Proof.
  intros Hs Ht Hu Hv. revert t Ht. induction Hs as [|x s -> Hs IH]; intros t Ht E.
  - destruct t as [|y t]; [split; [reflexivity|exact E]|].
    exfalso; apply Hu. simpl in E. rewrite E. inversion Ht; subst. left; reflexivity.
  - destruct t as [|y t].
    + exfalso; apply Hv. simpl in E. rewrite <- E. left; reflexivity.
    + simpl in E. injection E as E1 E2. inversion Ht; subst.
      destruct (IH t) as [-> ->]; auto.
Qed.

Lemma split_no_sep p h t : splitpath c p = (h, t) -> ~ In sp t.
Proof. intros E. pose proof (splitpath_spec p) as H. rewrite E in H. inversion H; subst; assumption. Qed.

(** ** join *)
Hypothesis Ha : posix_abs c.

Lemma join_step_eq a b : join_step c a b =
  if is_abs sp b then b
  else if nonempty a && negb (ends_with_char sp a) then a ++ sp :: b else a ++ b.
Proof.
  unfold join_step. rewrite (starts_with_root_abs c Hc) by assumption.
  destruct (is_abs sp b); [reflexivity|]. unfold sep.
  destruct (nonempty a && negb (ends_with_char sp a)); [|reflexivity].
  rewrite <- app_assoc. reflexivity.
Qed.

Lemma joinpaths_fold p ps : joinpaths c (p :: ps) = Some (fold_left (join_step c) ps p).
Proof.
  assert (H0 : join_step c [] p = p).
  { rewrite join_step_eq. destruct (is_abs sp p); reflexivity. }
  unfold joinpaths. destruct ps as [|q ps]; [reflexivity|].
  rewrite (pl_win _ Hc). cbn [fold_left]. rewrite H0. reflexivity.
Qed.

Lemma joinpaths_two a b : joinpaths c [a; b] = Some (
  if is_abs sp b then b
  else if nonempty a && negb (ends_with_char sp a) then a ++ sp :: b else a ++ b).
Proof. rewrite joinpaths_fold. cbn [fold_left]. rewrite join_step_eq. reflexivity. Qed.

Lemma joinpaths_assoc p ps qs :
  exists r, joinpaths c (p :: ps) = Some r /\ joinpaths c (p :: ps ++ qs) = joinpaths c (r :: qs).
Proof.
  eexists. split; [apply joinpaths_fold|]. rewrite !joinpaths_fold, fold_left_app. reflexivity.
Qed.

Lemma joinpaths_abs_wins p ps q qs : is_abs sp q = true ->
  joinpaths c (p :: ps ++ q :: qs) = joinpaths c (q :: qs).
Proof.
  intros Hq. rewrite !joinpaths_fold, fold_left_app. cbn [fold_left].
  rewrite join_step_eq, Hq. reflexivity.
Qed.

(** ** split then join *)
Lemma fold_step_seps seps st : all_sep sp seps -> seps <> [] ->
  fold_left step_pos (split_on sp seps) st = st.
Proof.
  intros H Hne. induction H as [|x s -> Hs IH]; [congruence|].
  simpl. rewrite Ascii.eqb_refl. cbn [fold_left]. change (step_pos st []) with st.
  destruct s; [reflexivity|]. apply IH. discriminate.
Qed.

Lemma walk_fold st p : walk_pos sp st p = fold_left step_pos (split_on sp p) (if is_abs sp p then [] else st).
Proof. reflexivity. Qed.

Lemma fold_app_seps a seps t st : all_sep sp seps -> seps <> [] ->
  fold_left step_pos (split_on sp (a ++ seps ++ t)) st =
  fold_left step_pos (split_on sp t) (fold_left step_pos (split_on sp a) st).
Proof.
  intros H. revert a st; induction H as [|x s -> Hs IH]; intros a st Hne; [congruence|].
  cbn [app]. rewrite split_on_app_mid, fold_left_app.
  destruct s as [|y s]; [reflexivity|].
  change ((y :: s) ++ t) with ([] ++ (y :: s) ++ t). rewrite IH by discriminate. reflexivity.
Qed.

Lemma split_join_norm p h t : splitpath c p = (h, t) ->
  exists q, joinpaths c [h; t] = Some q /\ normpath c q = normpath c p.
Proof.
  intros E. pose proof (splitpath_spec p) as H. rewrite E in H.
  eexists; split; [apply joinpaths_two|].
  assert (Hcan : forall q, is_abs sp q = is_abs sp p -> (forall st, walk_pos sp st q = walk_pos sp st p) ->
                           normpath c q = normpath c p).
  { intros q Hab Hw. apply (canonical_unique c Hc); try apply normpath_canonical; try assumption.
    - rewrite !normpath_is_abs by assumption. exact Hab.
    - intros st. rewrite !normpath_walk by assumption. apply Hw. }
  assert (Htab : forall t, ~ In sp t -> is_abs sp t = false).
  { intros [|x u] Hu; [reflexivity|]. simpl. apply Ascii.eqb_neq. intros ->; apply Hu; left; reflexivity. }
  inversion H as [Hn|seps t' Hne Hs Hn Ep|h' seps t' Hh He Hne Hs Hn Ep]; subst.
  - rewrite (Htab _ Hn). reflexivity.
  - rewrite (Htab _ Hn). cbn [nonempty].
    replace (ends_with_char sp [sp]) with true by (symmetry; apply ends_with_char_spec; exists []; reflexivity).
    cbn [negb andb app]. apply Hcan.
    + simpl. rewrite Ascii.eqb_refl. destruct seps as [|x s]; [congruence|]. inversion Hs; subst. simpl. symmetry; apply Ascii.eqb_refl.
    + intros st. rewrite !walk_fold.
      assert (Habs : is_abs sp (sp :: t) = true) by (simpl; apply Ascii.eqb_refl).
      assert (Habs2 : is_abs sp (seps ++ t) = true).
      { destruct seps as [|x s]; [congruence|]. inversion Hs; subst. simpl. apply Ascii.eqb_refl. }
      rewrite Habs, Habs2.
      change (seps ++ t) with ([] ++ seps ++ t). rewrite fold_app_seps by assumption.
      change (sp :: t) with ([] ++ [sp] ++ t). rewrite fold_app_seps; [reflexivity|repeat constructor|discriminate].
  - rewrite (Htab _ Hn), He. destruct h as [|x h]; [congruence|]. cbn [nonempty negb andb].
    apply Hcan.
    + reflexivity.
    + intros st. rewrite !walk_fold.
      change (is_abs sp ((x :: h) ++ sp :: t)) with (is_abs sp (x :: h)).
      change (is_abs sp ((x :: h) ++ seps ++ t)) with (is_abs sp (x :: h)).
      rewrite fold_app_seps by assumption.
      change ((x :: h) ++ sp :: t) with ((x :: h) ++ [sp] ++ t).
      rewrite fold_app_seps; [reflexivity|repeat constructor|discriminate].
Qed.

(** split of a canonical absolute path *)
Lemma splitpath_abs_path names n : Forall (ordinary sp) (names ++ [n]) ->
  splitpath c (abs_path sp (names ++ [n])) = (abs_path sp names, n).
Proof.
  intros Hn.
  pose proof (splitpath_spec (abs_path sp (names ++ [n]))) as H.
  destruct (splitpath c (abs_path sp (names ++ [n]))) as [h t] eqn:E.
  assert (Hnn : Forall (ordinary sp) names) by (apply Forall_app in Hn; apply Hn).
  assert (Hn1 : ordinary sp n) by (apply Forall_app in Hn; destruct Hn as [_ Hn]; inversion Hn; assumption).
  destruct Hn1 as (Hn1 & Hn2 & Hn3 & Hn4).
  (* the path as  head ++ [sep] ++ n *)
  assert (Hp : (names = [] /\ abs_path sp (names ++ [n]) = [] ++ [sp] ++ n) \/
               (names <> [] /\ abs_path sp (names ++ [n]) = abs_path sp names ++ [sp] ++ n)).
  { destruct names as [|a names]; [left; split; reflexivity|right; split; [discriminate|]].
    unfold abs_path. rewrite join_with_app by discriminate. reflexivity. }
  assert (Hlast : names <> [] -> ends_with_char sp (abs_path sp names) = false).
  { intros Hne. destruct (exists_last Hne) as (l' & w & ->).
    apply Forall_app in Hnn; destruct Hnn as [_ Hnn]. inversion Hnn as [|? ? (W1 & _ & _ & W4) _]; subst.
    destruct (ends_with_char sp (abs_path sp (l' ++ [w]))) eqn:Ee; [|reflexivity].
    apply ends_with_char_spec in Ee. destruct Ee as (u & Eu).
    destruct (exists_last W1) as (w' & y & ->).
    assert (Ez : exists z, abs_path sp (l' ++ [w' ++ [y]]) = z ++ [y]).
    { unfold abs_path. destruct l' as [|b l'].
      - exists (sp :: w'). reflexivity.
      - rewrite join_with_app by discriminate. cbn [join_with].
        exists (sp :: join_with [sp] (b :: l') ++ sp :: w'). cbn [app]. rewrite <- app_assoc. reflexivity. }
    destruct Ez as (z & Ez). rewrite Ez in Eu. apply app_inj_tail in Eu. destruct Eu as [_ ->].
    exfalso; apply W4, in_or_app; right; left; reflexivity. }
  assert (Huniq : forall a b : str, forall s1 s2 t1 t2, ends_with_char sp a = false -> ends_with_char sp b = false ->
     all_sep sp s1 -> all_sep sp s2 -> ~ In sp t1 -> ~ In sp t2 -> s1 <> [] -> s2 <> [] ->
     a ++ s1 ++ t1 = b ++ s2 ++ t2 -> a = b /\ t1 = t2).
  { intros a b s1 s2 t1 t2 Ea Eb S1 S2 T1 T2 N1 N2 Eq.
    (* reverse both sides *)
    apply (f_equal (@rev _)) in Eq. rewrite !rev_app_distr in Eq. rewrite <- !app_assoc in Eq.
    assert (Hr : forall u v x y : str, ~ In sp u -> ~ In sp v -> u ++ sp :: x = v ++ sp :: y -> u = v /\ x = y).
    { induction u as [|c1 u IHu]; intros v x y U V Q.
      - destruct v as [|c2 v]; [injection Q; auto|]. simpl in Q. injection Q as Q1 Q2. subst c2. exfalso; apply V; left; reflexivity.
      - destruct v as [|c2 v]; simpl in Q; injection Q as Q1 Q2; subst.
        + exfalso; apply U; left; reflexivity.
        + destruct (IHu v x y) as [-> ->]; auto.
          * intros I; apply U; right; exact I.
          * intros I; apply V; right; exact I. }
    assert (Hsr : forall s, all_sep sp s -> s <> [] -> exists s', all_sep sp s' /\ rev s = sp :: s').
    { intros s Hs Nes. destruct (exists_last Nes) as (s' & y & ->).
      apply Forall_app in Hs; destruct Hs as [Hs1 Hs2]. inversion Hs2; subst.
      exists (rev s'). split; [apply Forall_rev, Hs1|]. rewrite rev_app_distr. reflexivity. }
    destruct (Hsr s1 S1 N1) as (s1' & S1' & E1). destruct (Hsr s2 S2 N2) as (s2' & S2' & E2).
    rewrite E1, E2 in Eq. cbn [app] in Eq.
    apply Hr in Eq; [|rewrite <- in_rev; assumption|rewrite <- in_rev; assumption].
    destruct Eq as [Et Eq].
    apply (f_equal (@rev _)) in Et. rewrite !rev_involutive in Et.
    split; [|exact Et].
    assert (Hx : forall s1 s2 a b, all_sep sp s1 -> all_sep sp s2 ->
       ends_with_char sp a = false -> ends_with_char sp b = false -> s1 ++ rev a = s2 ++ rev b -> a = b).
    { clear. intros s1 s2 a b H1 H2 Ea Eb. revert s2 H2. 
      assert (Hhd : forall a x r, ends_with_char sp a = false -> rev a = x :: r -> x <> sp).
      { intros a0 x r E0 Er ->. unfold ends_with_char, last_char in E0. rewrite Er, Ascii.eqb_refl in E0. discriminate. }
      induction H1 as [|x s -> Hs IH]; intros s2 H2 Eq.
      - destruct s2 as [|y s2].
        + cbn [app] in Eq. apply (f_equal (@rev _)) in Eq. rewrite !rev_involutive in Eq. exact Eq.
        + cbn [app] in Eq. inversion H2; subst. exfalso. eapply Hhd; [exact Ea|exact Eq|reflexivity].
      - destruct s2 as [|y s2].
        + cbn [app] in Eq. symmetry in Eq. exfalso. eapply Hhd; [exact Eb|exact Eq|reflexivity].
        + cbn [app] in Eq. injection Eq as _ Eq. inversion H2; subst. apply (IH s2); assumption. }
    apply (Hx s1' s2' a b); assumption. }
  inversion H as [Hx|seps t' Hne Hs Ht Ep|h' seps t' Hh He Hne Hs Ht Ep]; subst h t; try subst h' t'.
  - exfalso; apply Hx. left; reflexivity.
  - destruct Hp as [[-> Hp]|[Hnz Hp]].
    + rewrite Hp in Ep. change (seps ++ t') with ([] ++ seps ++ t') in Ep.
      apply Huniq in Ep; auto; [|repeat constructor|discriminate].
      destruct Ep as [_ <-]. reflexivity.
    + rewrite Hp in Ep. change (seps ++ t') with ([] ++ seps ++ t') in Ep.
      apply Huniq in Ep; auto; [|repeat constructor|discriminate].
      destruct Ep as [Ep _]. discriminate.
  - destruct Hp as [[-> Hp]|[Hnz Hp]].
    + rewrite Hp in Ep.
      apply Huniq in Ep; auto; [|repeat constructor|discriminate].
      destruct Ep as [Ep _]. congruence.
    + rewrite Hp in Ep.
      apply Huniq in Ep; auto; [|repeat constructor|discriminate].
      destruct Ep as [Ep1 Ep2]. rewrite Ep1, Ep2. reflexivity.
Qed.

Lemma splitpath_root : splitpath c [sp] = ([sp], []).
Proof.
  pose proof (splitpath_spec [sp]) as H. destruct (splitpath c [sp]) as [h t].
  inversion H as [Hx|seps t' Hne Hs Ht Ep|h' seps t' Hh He Hne Hs Ht Ep]; subst.
  - exfalso; apply Hx; left; reflexivity.
  - destruct seps as [|x s]; [congruence|]. injection Ep as E1 E2. symmetry in E2. apply app_eq_nil in E2.
    destruct E2; subst. reflexivity.
  - destruct h as [|x h]; [congruence|]. injection Ep as E1 E2. subst x.
    destruct seps; [congruence|]. destruct h; discriminate.
Qed.

End SJ.

(** ** splitdrive, any configuration *)
Lemma find_char_spec x s i : find_char x s = Some i ->
  i < length s /\ ~ In x (firstn i s) /\ exists r, skipn i s = x :: r.
Proof.
  revert i; induction s as [|y s IH]; simpl; intros i; [discriminate|].
  destruct (Ascii.eqb_spec y x) as [->|Hn].
  - intros H; injection H as <-. repeat split; [lia|simpl; tauto|exists s; reflexivity].
  - destruct (find_char x s) as [n|]; [|discriminate]. intros H; injection H as <-.
    destruct (IH n eq_refl) as (H1 & H2 & H3). repeat split; [lia| |exact H3].
    cbn [firstn]. simpl. intros [H|H]; [congruence|tauto].
Qed.

Lemma find_char_none x s : find_char x s = None -> ~ In x s.
Proof.
  induction s as [|y s IH]; simpl; [tauto|].
  destruct (Ascii.eqb_spec y x) as [->|Hn]; [discriminate|].
  destruct (find_char x s); [discriminate|]. intros _ [H|H]; [congruence|apply IH; [reflexivity|exact H]].
Qed.

Lemma skipn_S_tl {A} i (q : list A) : skipn (S i) q = tl (skipn i q).
Proof. revert q; induction i as [|i IH]; intros [|x q]; try reflexivity. cbn [skipn] in *. apply IH. Qed.

Lemma firstn_skipn_exact {A} (a b : list A) k : length a = k -> firstn k (a ++ b) = a /\ skipn k (a ++ b) = b.
Proof.
  intros <-. split.
  - rewrite firstn_app, Nat.sub_diag, firstn_all, app_nil_r. reflexivity.
  - rewrite skipn_app, Nat.sub_diag, skipn_all. reflexivity.
Qed.

Lemma splitdrive_spec c p :
  drive_spec (c_sep c) (if c_win c && (2 <=? length p) then normcase c p else p)
    (fst (splitdrive c p)) (snd (splitdrive c p)).
Proof.
  unfold splitdrive. destruct (c_win c); cbn [andb]; [|apply dr_none].
  destruct (2 <=? length p); [|apply dr_none].
  generalize (normcase c p); clear p; intros p. unfold sep.
  destruct (str_eqb_spec (firstn 2 p) [c_sep c; c_sep c]) as [E2|E2];
    [destruct (str_eqb_spec (firstn 1 (skipn 2 p)) [c_sep c]) as [E3|E3]|]; cbn [andb negb].
  - destruct (str_eqb_spec (firstn 1 (skipn 1 p)) [colon]) as [E4|E4]; [|apply dr_none].
    destruct p as [|x [|y p]]; try discriminate. simpl in *. injection E4 as ->. apply dr_letter; reflexivity.
  - destruct p as [|x [|y q]]; try discriminate. injection E2 as -> ->.
    cbn [skipn] in *. destruct (find_char (c_sep c) q) as [i|] eqn:Ei; [|apply dr_none].
    destruct (find_char_spec _ _ _ Ei) as (Hi & Hni & (r & Er)).
    assert (Eq : q = firstn i q ++ c_sep c :: r) by (rewrite <- Er; symmetry; apply firstn_skipn).
    assert (Hs1 : skipn (2 + i) (c_sep c :: q) = r).
    { change (skipn (2 + i) (c_sep c :: q)) with (skipn (S i) q).
      rewrite skipn_S_tl, Er. reflexivity. }
    rewrite Hs1.
    assert (Hserv : firstn i q <> []).
    { destruct i as [|i]; [|destruct q; [simpl in Hi; lia|discriminate]].
      exfalso. cbn [skipn] in Er. rewrite Er in E3. simpl in E3. congruence. }
    destruct (find_char (c_sep c) r) as [[|j]|] eqn:Ej.
    + apply dr_none.
    + destruct (find_char_spec _ _ _ Ej) as (Hj & Hnj & (r2 & Er2)).
      assert (Eall : c_sep c :: c_sep c :: q =
              (c_sep c :: c_sep c :: firstn i q ++ c_sep c :: firstn (S j) r) ++ skipn (S j) r).
      { cbn [app]. rewrite <- app_assoc. cbn [app]. rewrite firstn_skipn, <- Eq. reflexivity. }
      assert (Elen : length (c_sep c :: c_sep c :: firstn i q ++ c_sep c :: firstn (S j) r) = S (2 + i) + S j).
      { cbn [length]. rewrite app_length, firstn_length. cbn [length]. rewrite firstn_length. lia. }
      destruct (firstn_skipn_exact _ _ _ Elen : firstn _ (_ ++ skipn (S j) r) = _ /\ _) as [F1 F2].
      rewrite <- Eall in F1, F2. cbn [fst snd]. rewrite F1, F2.
      apply dr_unc.
      * exact Hserv.
      * exact Hni.
      * exact Hnj.
      * right. split; [destruct r; [simpl in Hj; lia|discriminate]|]. exists r2; exact Er2.
      * rewrite firstn_skipn, <- Eq. reflexivity.
    + cbn [fst snd]. rewrite Eq at 2. apply dr_unc.
      * exact Hserv.
      * exact Hni.
      * apply find_char_none, Ej.
      * left; reflexivity.
      * rewrite app_nil_r, <- Eq. reflexivity.
  - destruct (str_eqb_spec (firstn 1 (skipn 1 p)) [colon]) as [E4|E4]; [|apply dr_none].
    destruct p as [|x [|y p]]; try discriminate. simpl in *. injection E4 as ->. apply dr_letter; reflexivity.
Qed.

Lemma splitdrive_concat c p :
  fst (splitdrive c p) ++ snd (splitdrive c p) =
  if c_win c && (2 <=? length p) then normcase c p else p.
Proof.
  destruct (splitdrive_spec c p) as [|x rest E|server share rest _ _ _ _ E].
  - reflexivity.
  - rewrite E. reflexivity.
  - rewrite E. cbn [app]. rewrite <- app_assoc. reflexivity.
Qed.

(** ** pathlib splitroot *)
Lemma lstrip_spec x p : exists seps, all_sep x seps /\ p = seps ++ lstrip x p /\
   (match lstrip x p with y :: _ => y <> x | [] => True end).
Proof.
  induction p as [|y p IH]; simpl; [exists []; repeat split; constructor|].
  destruct (Ascii.eqb_spec y x) as [->|Hn].
  - destruct IH as (s & H1 & H2 & H3). exists (x :: s). repeat split; [constructor; auto|simpl; congruence|exact H3].
  - exists []; repeat split; [constructor|exact Hn].
Qed.

Lemma splitroot_posix_spec c p :
  exists seps rel, p = seps ++ rel /\ all_sep (c_sep c) seps /\
    (match rel with y :: _ => y <> c_sep c | [] => True end) /\
    splitroot_posix c p =
      ([], match length seps with 0 => [] | 2 => [c_sep c; c_sep c] | _ => [c_sep c] end, rel).
Proof.
  unfold splitroot_posix, sep. destruct p as [|x p]; simpl.
  - exists [], []. repeat split; constructor.
  - destruct (Ascii.eqb_spec x (c_sep c)) as [->|Hn].
    + destruct (lstrip_spec (c_sep c) p) as (s & H1 & H2 & H3).
      exists (c_sep c :: s), (lstrip (c_sep c) p).
      assert (Hl : length p = length s + length (lstrip (c_sep c) p))
        by (rewrite H2 at 1; rewrite app_length; reflexivity).
      repeat split; [simpl; congruence|constructor; auto|exact H3|].
      replace (match length (lstrip (c_sep c) p) with 0 => S (length p) | S l => length p - l end)
        with (S (length s)) by (destruct (length (lstrip (c_sep c) p)); lia).
      simpl length. destruct s as [|a [|b s]]; reflexivity.
    + exists [], (x :: p). repeat split; [constructor|exact Hn].
Qed.

(** ** Assembled statements *)
Lemma normpath_complete c : posix_like c -> forall p q,
  is_abs (c_sep c) p = is_abs (c_sep c) q ->
  (forall pos, walk_pos (c_sep c) pos p = walk_pos (c_sep c) pos q) ->
  normpath c p = normpath c q.
Proof.
  intros Hc p q Ha Hw. apply (canonical_unique c); try apply normpath_canonical; try assumption.
  - rewrite !(normpath_is_abs c Hc). exact Ha.
  - intros st. rewrite !(normpath_walk c Hc). apply Hw.
Qed.

Lemma absnormpath_all c : posix_abs c -> forall cwd p, is_abs (c_sep c) cwd = true ->
  is_abs (c_sep c) (absnormpath c cwd p) = true /\
  canonical (c_sep c) (absnormpath c cwd p) /\
  absnormpath c cwd (absnormpath c cwd p) = absnormpath c cwd p /\
  (p <> [] -> forall pos,
     walk_pos (c_sep c) pos (absnormpath c cwd p) =
     walk_pos (c_sep c) (walk_pos (c_sep c) [] cwd) p).
Proof.
  intros Ha cwd p Hcwd. pose proof (pa_pl _ Ha) as Hc.
  destruct (absnormpath_names c Hc cwd p Ha Hcwd) as (n & Hn & E).
  repeat split.
  - rewrite E. simpl. apply Ascii.eqb_refl.
  - rewrite E. apply abs_path_canonical; assumption.
  - apply absnormpath_idem; assumption.
  - intros Hp pos. rewrite absnormpath_walk by assumption. destruct p; [congruence|reflexivity].
Qed.

Lemma path_isabs_posix c p : posix_like c -> path_isabs c p = is_abs (c_sep c) p.
Proof.
  intros Hc. unfold path_isabs. rewrite (pl_win _ Hc). unfold starts_with_sep, sep.
  rewrite (pl_alt _ Hc), orb_false_r. apply starts_with_1; assumption.
Qed.

Lemma walk_join c : posix_abs c -> forall pos a b, a <> [] -> is_abs (c_sep c) b = false ->
  walk_pos (c_sep c) pos (if nonempty a && negb (ends_with_char (c_sep c) a) then a ++ c_sep c :: b else a ++ b)
  = walk_pos (c_sep c) (walk_pos (c_sep c) pos a) b.
Proof.
  intros Ha pos a b Hne Hb.
  assert (Hab : forall x, is_abs (c_sep c) (a ++ x) = is_abs (c_sep c) a) by (intros x; destruct a; [congruence|reflexivity]).
  unfold walk_pos. rewrite Hb.
  destruct (ends_with_char (c_sep c) a) eqn:Ee.
  - rewrite andb_false_r. rewrite Hab.
    apply ends_with_char_spec in Ee. destruct Ee as [t ->].
    rewrite <- app_assoc. cbn [app]. rewrite !split_on_app_mid, !fold_left_app.
    cbn [split_on fold_left]. reflexivity.
  - replace (nonempty a && negb false) with true by (destruct a; [congruence|reflexivity]).
    rewrite Hab, split_on_app_mid, fold_left_app. reflexivity.
Qed.

Lemma abspath_all c : posix_abs c -> forall cwd p, is_abs (c_sep c) cwd = true ->
  is_abs (c_sep c) (path_abspath c cwd p) = true /\
  canonical (c_sep c) (path_abspath c cwd p) /\
  (forall pos,
     walk_pos (c_sep c) pos (path_abspath c cwd p) =
     walk_pos (c_sep c) (walk_pos (c_sep c) [] cwd) p).
Proof.
  intros Ha cwd p Hcwd. pose proof (pa_pl _ Ha) as Hc.
  unfold path_abspath. rewrite (path_isabs_posix c p Hc), (pl_win _ Hc). cbn [andb].
  assert (E : is_abs (c_sep c) (if negb (is_abs (c_sep c) p) then join2 c cwd p else p) = true /\
    forall pos, walk_pos (c_sep c) pos (if negb (is_abs (c_sep c) p) then join2 c cwd p else p)
                = walk_pos (c_sep c) (walk_pos (c_sep c) [] cwd) p).
  { destruct (is_abs (c_sep c) p) eqn:Ep; cbn [negb].
    - split; [exact Ep|]. intros pos. rewrite !walk_fold, Ep. reflexivity.
    - unfold join2. rewrite (joinpaths_two c Hc Ha), Ep.
      assert (Hne : cwd <> []) by (intros ->; discriminate).
      split.
      + destruct cwd; [congruence|]. destruct (nonempty _ && _); exact Hcwd.
      + intros pos. rewrite (walk_join c Ha pos cwd p Hne Ep).
        rewrite (walk_fold c [] cwd), (walk_fold c pos cwd), Hcwd. reflexivity. }
  destruct E as [E1 E2]. repeat split.
  - rewrite (normpath_is_abs c Hc). exact E1.
  - apply normpath_canonical, Hc.
  - intros pos. rewrite (normpath_walk c Hc). apply E2.
Qed.

Lemma split_all c : posix_abs c -> forall p,
  split_spec (c_sep c) p (splitpath c p) /\
  ~ In (c_sep c) (snd (splitpath c p)) /\
  exists q, joinpaths c [fst (splitpath c p); snd (splitpath c p)] = Some q /\
            normpath c q = normpath c p.
Proof.
  intros Ha p. pose proof (pa_pl _ Ha) as Hc.
  destruct (splitpath c p) as [h t] eqn:E. repeat split.
  - rewrite <- E. apply splitpath_spec, Hc.
  - apply (split_no_sep c Hc p h t E).
  - apply (split_join_norm c Hc Ha p h t E).
Qed.

Lemma join_split_abs c : posix_abs c -> forall names n,
  Forall (ordinary (c_sep c)) (names ++ [n]) ->
  joinpaths c [abs_path (c_sep c) names; n] = Some (abs_path (c_sep c) (names ++ [n])) /\
  splitpath c (abs_path (c_sep c) (names ++ [n])) = (abs_path (c_sep c) names, n).
Proof.
  intros Ha names n H. pose proof (pa_pl _ Ha) as Hc. split; [|apply splitpath_abs_path; assumption].
  rewrite (joinpaths_two c Hc Ha). apply Forall_app in H. destruct H as [Hn H1].
  inversion H1 as [|? ? Ho _]; subst. destruct (ordinary_head c _ Ho) as (x & r & -> & Hx).
  cbn [is_abs]. destruct (Ascii.eqb_spec x (c_sep c)); [congruence|].
  destruct names as [|m names].
  - unfold abs_path. cbn [join_with app nonempty]. cbn [ends_with_char last_char rev app].
    unfold ends_with_char, last_char. simpl. rewrite Ascii.eqb_refl. reflexivity.
  - f_equal.
    assert (Ee : ends_with_char (c_sep c) (abs_path (c_sep c) (m :: names)) = false).
    { destruct (ends_with_char _ _) eqn:Ee; [|reflexivity]. exfalso.
      apply ends_with_char_spec in Ee. destruct Ee as [t Et].
      destruct (exists_last (l := m :: names)) as (l & w & El); [discriminate|].
      rewrite El in Hn. apply Forall_app in Hn. destruct Hn as [_ Hw]. inversion Hw as [|? ? How _]; subst.
      destruct How as (H1' & _ & _ & H4).
      destruct (exists_last H1') as (w0 & y & ->).
      assert (E2 : exists u, abs_path (c_sep c) (l ++ [w0 ++ [y]]) = u ++ [y]).
      { unfold abs_path. destruct l as [|v l]; [exists (c_sep c :: w0); reflexivity|].
        rewrite join_with_app by discriminate. cbn [join_with].
        exists (c_sep c :: join_with [c_sep c] (v :: l) ++ c_sep c :: w0).
        cbn [app]. f_equal. rewrite <- app_assoc. reflexivity. }
      destruct E2 as [u Eu]. rewrite El, Eu in Et. apply app_inj_tail in Et. destruct Et as [_ ->].
      apply H4, in_or_app; right; left; reflexivity. }
    rewrite Ee. unfold abs_path at 1 2. cbn [nonempty andb negb].
    unfold abs_path. rewrite join_with_app by discriminate. reflexivity.
Qed.

Lemma join_two c : posix_abs c -> forall p q,
  joinpaths c [p; q] = Some
    (if is_abs (c_sep c) q then q
     else match p with
          | [] => q
          | _ => if ends_with_char (c_sep c) p then p ++ q else p ++ c_sep c :: q
          end).
Proof.
  intros Ha p q. rewrite (joinpaths_two c (pa_pl _ Ha) Ha). destruct (is_abs (c_sep c) q); [reflexivity|].
  destruct p; [reflexivity|]. cbn [nonempty andb]. destruct (ends_with_char _ _); reflexivity.
Qed.

Lemma normcase_length c p : length (normcase c p) = length p.
Proof. unfold normcase, normalize_path_sep. destruct (c_alt c); [apply map_length|reflexivity]. Qed.

Lemma splitdrive_all c p :
  let p' := if c_win c && (2 <=? length p) then normcase c p else p in
  fst (splitdrive c p) ++ snd (splitdrive c p) = p' /\
  drive_spec (c_sep c) p' (fst (splitdrive c p)) (snd (splitdrive c p)) /\
  length p' = length p /\
  (c_alt c = None -> p' = p) /\
  (c_win c = false -> splitdrive c p = ([], p)).
Proof.
  intros p'. repeat split.
  - apply splitdrive_concat.
  - apply splitdrive_spec.
  - unfold p'. destruct (_ && _); [apply normcase_length|reflexivity].
  - intros E. unfold p'. destruct (_ && _); [|reflexivity]. unfold normcase, normalize_path_sep. rewrite E. reflexivity.
  - intros E. unfold splitdrive. rewrite E. reflexivity.
Qed.

Lemma splitroot_all c : c_win c = false -> forall p,
  exists seps rel, p = seps ++ rel /\ all_sep (c_sep c) seps /\
    (match rel with y :: _ => y <> c_sep c | [] => True end) /\
    splitroot c p =
      ([], match length seps with 0 => [] | 2 => [c_sep c; c_sep c] | _ => [c_sep c] end, rel).
Proof. intros E p. unfold splitroot. rewrite E. apply splitroot_posix_spec. Qed.

Lemma components_unique c : posix_like c -> forall p,
  canonical (c_sep c) p -> is_abs (c_sep c) p = true ->
  exists names, Forall (ordinary (c_sep c)) names /\ p = abs_path (c_sep c) names /\
    forall names', Forall (ordinary (c_sep c)) names' -> p = abs_path (c_sep c) names' -> names' = names.
Proof.
  intros Hc p H1 H2. destruct (canonical_abs_inv c Hc p H1 H2) as (n & Hn & ->).
  exists n. repeat split; [assumption|]. intros n' Hn' E. apply (abs_path_inj c Hc) in E; auto.
Qed.
