(** * Proofs about the lexical path functions (C01-C08). *)
From Verif Require Export PathModel PathSpec.

(** A configuration without drives and alternative separator, with a
    separator that is not the dot: [os = LINUX] or [MACOS], or
    [FakeFilesystem(path_separator='!')] on a Linux host. *)
Record posix_like (c : cfg) : Prop := {
  pl_win : c_win c = false;
  pl_alt : c_alt c = None;
  pl_sep : c_sep c <> dotc
}.

(** ... and a separator whose recognition does not depend on case. *)
Record posix_abs (c : cfg) : Prop := {
  pa_pl : posix_like c;
  pa_cs : c_cs c = true \/ c_sep c = slash
}.

Lemma posix_cfg_like : posix_like posix_cfg.
Proof. constructor; try reflexivity. intros H; discriminate H. Qed.
Lemma posix_cfg_abs : posix_abs posix_cfg.
Proof. constructor; [apply posix_cfg_like|left; reflexivity]. Qed.
Lemma macos_cfg_abs : posix_abs macos_cfg.
Proof. constructor; [constructor; try reflexivity; intros H; discriminate H|right; reflexivity]. Qed.

Lemma dot_L : dot = L ".". Proof. reflexivity. Qed.
Lemma dotdot_L : dotdot = L "..". Proof. reflexivity. Qed.

Section Lex.
Variable c : cfg.
Hypothesis Hc : posix_like c.
Notation sp := (c_sep c).

Lemma normcase_id p : normcase c p = p.
Proof. unfold normcase, normalize_path_sep. rewrite (pl_alt _ Hc). reflexivity. Qed.

Lemma splitdrive_posix p : splitdrive c p = ([], p).
Proof. unfold splitdrive. rewrite (pl_win _ Hc). reflexivity. Qed.

Lemma starts_with_1 p : starts_with [sp] p = is_abs sp p.
Proof. destruct p as [|x p]; simpl; [reflexivity|]. rewrite andb_true_r. rewrite Ascii.eqb_sym. reflexivity. Qed.

Lemma is_abs_inv p : is_abs sp p = true -> exists t, p = sp :: t.
Proof. destruct p as [|x p]; simpl; [discriminate|]. intros H; apply Ascii.eqb_eq in H; subst; exists p; reflexivity. Qed.

Lemma dot_neq_sp : Ascii.eqb "."%char sp = false.
Proof. apply Ascii.eqb_neq. pose proof (pl_sep _ Hc) as H. unfold dotc in H. congruence. Qed.

Lemma is_abs_dot : is_abs sp (L ".") = false.
Proof. exact dot_neq_sp. Qed.

Lemma walk_dot st : walk_pos sp st (L ".") = st.
Proof. unfold walk_pos. rewrite is_abs_dot. simpl. rewrite dot_neq_sp. reflexivity. Qed.

(** ** the collapse loop *)

(** Reversed collapsed list: names on top of a run of "..". *)
Definition good_acc (isabs : bool) (acc : list str) : Prop :=
  exists names ups, acc = names ++ ups /\ Forall (ordinary sp) names /\
    Forall (fun w => w = dotdot) ups /\ (isabs = true -> ups = []).

Lemma ordinary_not_dotdot w : ordinary sp w -> str_eqb w dotdot = false.
Proof. intros (_ & _ & H & _). apply str_eqb_neq. exact H. Qed.

Lemma collapse_step_good isabs acc w :
  ~ In sp w -> good_acc isabs acc -> good_acc isabs (collapse_step isabs acc w).
Proof.
  intros Hw (names & ups & -> & Hn & Hu & Ha).
  unfold collapse_step.
  destruct (str_eqb_spec w []) as [->|Hne]; [exists names, ups; tauto|].
  destruct (str_eqb_spec w dot) as [->|Hnd]; [exists names, ups; tauto|].
  cbn [orb].
  destruct (str_eqb_spec w dotdot) as [->|Hndd].
  - destruct names as [|n names]; cbn [app].
    + destruct ups as [|u ups].
      * destruct isabs; [exists [], []; auto|].
        exists [], [dotdot]; repeat split; auto; discriminate.
      * inversion Hu as [|? ? Hu1 Hu2]; subst. rewrite str_eqb_refl; cbn [negb].
        destruct isabs; [specialize (Ha eq_refl); discriminate|].
        exists [], (dotdot :: dotdot :: ups); repeat split; auto; discriminate.
    + inversion Hn as [|? ? Hn1 Hn2]; subst.
      rewrite (ordinary_not_dotdot _ Hn1). cbn [negb]. exists names, ups; auto.
  - exists (w :: names), ups; repeat split; auto. constructor; [|assumption].
    repeat split; assumption.
Qed.

Lemma collapse_fold_good isabs ws acc :
  (forall w, In w ws -> ~ In sp w) -> good_acc isabs acc ->
  good_acc isabs (fold_left (collapse_step isabs) ws acc).
Proof.
  revert acc; induction ws as [|w ws IH]; intros acc Hw Hg; [exact Hg|].
  cbn [fold_left]. apply IH; [intros v Hv; apply Hw; right; exact Hv|].
  apply collapse_step_good; [apply Hw; left; reflexivity|exact Hg].
Qed.

Definition den (st : list str) (l : list str) : list str := fold_left step_pos l st.

Lemma den_snoc st l w : den st (l ++ [w]) = step_pos (den st l) w.
Proof. unfold den. rewrite fold_left_app. reflexivity. Qed.

Lemma step_ordinary st w : ordinary sp w -> step_pos st w = w :: st.
Proof.
  intros (H1 & H2 & H3 & _). unfold step_pos.
  apply str_eqb_neq in H1, H2, H3. rewrite H1, H2, H3. reflexivity.
Qed.

Lemma step_dotdot st : step_pos st dotdot = tl st.
Proof. reflexivity. Qed.

Lemma collapse_step_den isabs st acc w :
  good_acc isabs acc -> (isabs = true -> st = []) ->
  den st (rev (collapse_step isabs acc w)) = step_pos (den st (rev acc)) w.
Proof.
  intros (names & ups & -> & Hn & Hu & Ha) Hst.
  unfold collapse_step.
  destruct (str_eqb_spec w []) as [->|Hne]; [reflexivity|].
  destruct (str_eqb_spec w dot) as [->|Hnd]; [reflexivity|].
  cbn [orb].
  destruct (str_eqb_spec w dotdot) as [->|Hndd].
  - destruct names as [|n names]; cbn [app].
    + destruct ups as [|u ups].
      * destruct isabs; [rewrite (Hst eq_refl); reflexivity|reflexivity].
      * inversion Hu as [|? ? Hu1 Hu2]; subst. rewrite str_eqb_refl; cbn [negb].
        destruct isabs; [specialize (Ha eq_refl); discriminate|].
        cbn [rev]. rewrite den_snoc. reflexivity.
    + inversion Hn as [|? ? Hn1 Hn2]; subst.
      rewrite (ordinary_not_dotdot _ Hn1). cbn [negb]. cbn [rev].
      rewrite den_snoc, (step_ordinary _ _ Hn1). reflexivity.
  - cbn [rev]. rewrite den_snoc. reflexivity.
Qed.

Lemma collapse_fold_den isabs st ws acc :
  (forall w, In w ws -> ~ In sp w) -> good_acc isabs acc -> (isabs = true -> st = []) ->
  den st (rev (fold_left (collapse_step isabs) ws acc)) = fold_left step_pos ws (den st (rev acc)).
Proof.
  intros Hw Hg Hst. revert acc Hg; induction ws as [|w ws IH]; intros acc Hg; [reflexivity|].
  cbn [fold_left]. rewrite IH.
  - rewrite collapse_step_den by assumption. reflexivity.
  - intros v Hv; apply Hw; right; exact Hv.
  - apply collapse_step_good; [apply Hw; left; reflexivity|exact Hg].
Qed.

Lemma good_nil b : good_acc b [].
Proof. exists [], []; repeat split; auto. Qed.

(** The result of normpath, structurally. *)
Lemma normpath_shape p :
  exists ups names,
    Forall (fun w => w = L "..") ups /\ Forall (ordinary sp) names /\
    (is_abs sp p = true -> ups = []) /\
    collapse (is_abs sp p) (split_on sp p) = ups ++ names /\
    normpath c p =
      (if is_abs sp p then sp :: join_with [sp] (ups ++ names)
       else match ups ++ names with [] => dot | l => join_with [sp] l end).
Proof.
  pose proof (collapse_fold_good (is_abs sp p) (split_on sp p) [] (split_on_clean sp p) (good_nil _))
    as (names & ups & Hacc & Hn & Hu & Ha).
  exists (rev ups), (rev names).
  assert (Hcol : collapse (is_abs sp p) (split_on sp p) = rev ups ++ rev names).
  { unfold collapse. rewrite Hacc, rev_app_distr. reflexivity. }
  repeat split.
  - apply Forall_rev. exact Hu.
  - apply Forall_rev. exact Hn.
  - intros H. rewrite (Ha H). reflexivity.
  - exact Hcol.
  - unfold normpath. rewrite normcase_id, splitdrive_posix. unfold sep.
    rewrite starts_with_1. rewrite Hcol. cbn [app].
    destruct (is_abs sp p) eqn:Eabs; [reflexivity|].
    destruct (rev ups ++ rev names) as [|w l] eqn:E; [reflexivity|].
    destruct (join_with [sp] (w :: l)) as [|x r] eqn:Ej; [|reflexivity].
    exfalso.
    assert (Hin : In w (rev ups ++ rev names)) by (rewrite E; left; reflexivity).
    assert (Hwne : w <> []).
    { apply in_app_or in Hin; destruct Hin as [Hin|Hin].
      - rewrite <- in_rev in Hin. rewrite Forall_forall in Hu. rewrite (Hu _ Hin). discriminate.
      - rewrite <- in_rev in Hin. rewrite Forall_forall in Hn. apply (Hn _ Hin). }
    destruct l as [|w2 l]; cbn [join_with] in Ej; [congruence|].
    destruct w; [congruence|discriminate].
Qed.

Lemma normpath_canonical p : canonical sp (normpath c p).
Proof.
  destruct (normpath_shape p) as (ups & names & Hu & Hn & Ha & _ & ->).
  destruct (is_abs sp p).
  - rewrite (Ha eq_refl). cbn [app]. destruct names as [|n names]; [apply can_root|].
    apply can_abs; [discriminate|assumption].
  - destruct (ups ++ names) as [|w l] eqn:E; [apply can_dot|].
    rewrite <- E. apply can_rel; [rewrite E; discriminate|assumption|assumption].
Qed.

Lemma ordinary_head w : ordinary sp w -> exists x r, w = x :: r /\ x <> sp.
Proof.
  intros (H1 & _ & _ & H4). destruct w as [|x r]; [congruence|].
  exists x, r; split; [reflexivity|]. intros ->; apply H4; left; reflexivity.
Qed.

Lemma is_abs_join w l : w <> [] -> ~ In sp w -> is_abs sp (join_with [sp] (w :: l)) = false.
Proof.
  intros H1 H2. destruct w as [|x w]; [congruence|].
  destruct l as [|w2 l]; simpl; apply Ascii.eqb_neq; intros ->; apply H2; left; reflexivity.
Qed.

Lemma dotdot_clean : ~ In sp dotdot.
Proof. pose proof (pl_sep _ Hc) as H. simpl. intros [H1|[H1|[]]]; congruence. Qed.
Lemma dot_clean : ~ In sp dot.
Proof. pose proof (pl_sep _ Hc) as H. simpl. intros [H1|[]]; congruence. Qed.

Lemma up_clean w : w = L ".." -> w <> [] /\ ~ In sp w.
Proof. intros ->. split; [discriminate|exact dotdot_clean]. Qed.

Lemma upnames_clean ups names :
  Forall (fun w => w = L "..") ups -> Forall (ordinary sp) names ->
  forall w, In w (ups ++ names) -> w <> [] /\ ~ In sp w.
Proof.
  intros Hu Hn w Hin. rewrite Forall_forall in Hu, Hn.
  apply in_app_or in Hin; destruct Hin as [Hin|Hin].
  - apply up_clean, Hu, Hin.
  - destruct (Hn _ Hin) as (H1 & _ & _ & H4); split; assumption.
Qed.

Lemma normpath_is_abs p : is_abs sp (normpath c p) = is_abs sp p.
Proof.
  destruct (normpath_shape p) as (ups & names & Hu & Hn & Ha & _ & ->).
  destruct (is_abs sp p) eqn:E; [simpl; apply Ascii.eqb_refl|].
  destruct (ups ++ names) as [|w l] eqn:El.
  - simpl. apply Ascii.eqb_neq. pose proof (pl_sep _ Hc). congruence.
  - destruct (upnames_clean _ _ Hu Hn w) as [H1 H2]; [rewrite El; left; reflexivity|].
    apply is_abs_join; assumption.
Qed.

(** ** meaning *)
Lemma walk_abs_path st l :
  (forall w, In w l -> w <> [] /\ ~ In sp w) ->
  walk_pos sp st (sp :: join_with [sp] l) = den [] l.
Proof.
  intros Hl. unfold walk_pos. cbn [is_abs]. rewrite Ascii.eqb_refl.
  cbn [split_on]. rewrite Ascii.eqb_refl. cbn [fold_left].
  destruct l as [|w l]; [reflexivity|].
  rewrite split_join; [reflexivity|discriminate|]. intros v Hv; apply Hl, Hv.
Qed.

Lemma walk_rel_path st w l :
  (forall v, In v (w :: l) -> v <> [] /\ ~ In sp v) ->
  walk_pos sp st (join_with [sp] (w :: l)) = den st (w :: l).
Proof.
  intros Hl. unfold walk_pos.
  destruct (Hl w (or_introl eq_refl)) as [H1 H2].
  rewrite is_abs_join by assumption.
  rewrite split_join; [reflexivity|discriminate|]. intros v Hv; apply Hl, Hv.
Qed.

Lemma normpath_walk st p : walk_pos sp st (normpath c p) = walk_pos sp st p.
Proof.
  destruct (normpath_shape p) as (ups & names & Hu & Hn & Ha & Hcol & ->).
  pose proof (upnames_clean _ _ Hu Hn) as Hcl.
  set (st0 := if is_abs sp p then [] else st).
  assert (Hden : den st0 (ups ++ names) = walk_pos sp st p).
  { rewrite <- Hcol. unfold collapse.
    rewrite collapse_fold_den with (st := st0).
    - reflexivity.
    - apply split_on_clean.
    - apply good_nil.
    - intros H. unfold st0. rewrite H. reflexivity. }
  rewrite <- Hden. unfold st0. destruct (is_abs sp p) eqn:E.
  - apply walk_abs_path, Hcl.
  - destruct (ups ++ names) as [|w l] eqn:El.
    + apply walk_dot.
    + apply walk_rel_path, Hcl.
Qed.

(** ** canonical paths are fixed points *)
Lemma den_ordinary st l : Forall (ordinary sp) l -> den st l = rev l ++ st.
Proof.
  revert st; induction l as [|w l IH]; intros st H; [reflexivity|].
  inversion H as [|? ? H1 H2]; subst. unfold den in *. cbn [fold_left].
  rewrite (step_ordinary _ _ H1), IH by assumption. cbn [rev]. rewrite <- app_assoc. reflexivity.
Qed.

Lemma den_ups st ups : Forall (fun w => w = L "..") ups -> den st ups = skipn (length ups) st.
Proof.
  revert st; induction ups as [|w l IH]; intros st H; [reflexivity|].
  inversion H as [|? ? H1 H2]; subst. unfold den in *. cbn [fold_left length].
  rewrite IH by assumption. change (step_pos st (L "..")) with (tl st). destruct st; [|reflexivity].
  simpl. destruct (length l); reflexivity.
Qed.

Lemma den_app st a b : den st (a ++ b) = den (den st a) b.
Proof. unfold den. apply fold_left_app. Qed.

(** two canonical paths with the same meaning are equal *)
Inductive cshape : str -> bool -> list str -> list str -> Prop :=
| cs_abs names : Forall (ordinary sp) names -> cshape (abs_path sp names) true [] names
| cs_rel ups names : ups ++ names <> [] -> Forall (fun w => w = L "..") ups ->
    Forall (ordinary sp) names -> cshape (join_with [sp] (ups ++ names)) false ups names
| cs_dot : cshape (L ".") false [] [].

Lemma canonical_shape p : canonical sp p ->
  exists ups names, cshape p (is_abs sp p) ups names.
Proof.
  intros H; destruct H as [| |names Hne Hn|ups names Hne Hu Hn].
  - exists [], []. simpl. rewrite Ascii.eqb_refl. apply (cs_abs []). constructor.
  - exists [], []. rewrite is_abs_dot. apply cs_dot.
  - exists [], names. simpl. rewrite Ascii.eqb_refl. apply cs_abs; assumption.
  - exists ups, names.
    pose proof (upnames_clean _ _ Hu Hn) as Hcl.
    destruct (ups ++ names) as [|w l] eqn:E; [congruence|].
    destruct (Hcl w (or_introl eq_refl)) as [H1 H2].
    rewrite is_abs_join by assumption. rewrite <- E. apply cs_rel; [rewrite E; assumption|assumption|assumption].
Qed.

Lemma cshape_walk p ab ups names st : cshape p ab ups names ->
  walk_pos sp st p = rev names ++ (if ab then [] else skipn (length ups) st).
Proof.
  intros H; destruct H as [names Hn|ups names Hne Hu Hn|].
  - unfold abs_path. rewrite walk_abs_path.
    + rewrite den_ordinary by assumption. reflexivity.
    + intros w Hw. apply (upnames_clean [] names); [constructor|assumption|exact Hw].
  - pose proof (upnames_clean _ _ Hu Hn) as Hcl.
    destruct (ups ++ names) as [|w l] eqn:E; [congruence|].
    rewrite walk_rel_path by assumption. rewrite <- E. rewrite den_app, (den_ups _ _ Hu), (den_ordinary _ _ Hn). reflexivity.
  - apply walk_dot.
Qed.

Lemma repeat_tail_unique (n1 n2 : list str) k1 k2 :
  Forall (ordinary sp) n1 -> Forall (ordinary sp) n2 ->
  n1 ++ repeat [] k1 = n2 ++ repeat [] k2 -> n1 = n2 /\ k1 = k2.
Proof.
  revert n2; induction n1 as [|a n1 IH]; intros n2 H1 H2 E.
  - destruct n2 as [|b n2].
    + split; [reflexivity|]. apply (f_equal (@length _)) in E. simpl in E. rewrite !repeat_length in E. exact E.
    + destruct k1; simpl in E; [discriminate|]. injection E as E1 E2.
      inversion H2 as [|? ? H3 _]; subst. destruct H3 as [H3 _]; congruence.
  - destruct n2 as [|b n2].
    + destruct k2; simpl in E; [discriminate|]. injection E as E1 E2.
      inversion H1 as [|? ? H3 _]; subst. destruct H3 as [H3 _]; congruence.
    + simpl in E. injection E as E1 E2. subst b.
      inversion H1; inversion H2; subst. destruct (IH n2) as [-> ->]; auto.
Qed.

Lemma skipn_repeat {A} (x : A) k n : skipn k (repeat x n) = repeat x (n - k).
Proof. revert n; induction k as [|k IH]; intros n; [rewrite Nat.sub_0_r; reflexivity|]. destruct n; [reflexivity|]. simpl. apply IH. Qed.

Lemma ups_unique u1 u2 :
  Forall (fun w => w = L "..") u1 -> Forall (fun w => w = L "..") u2 -> length u1 = length u2 -> u1 = u2.
Proof.
  revert u2; induction u1 as [|a u1 IH]; intros [|b u2] H1 H2 E; simpl in E; try discriminate; [reflexivity|].
  inversion H1; inversion H2; subst. f_equal. apply IH; auto.
Qed.

Lemma canonical_unique p q :
  canonical sp p -> canonical sp q -> is_abs sp p = is_abs sp q ->
  (forall st, walk_pos sp st p = walk_pos sp st q) -> p = q.
Proof.
  intros Hp Hq Hab Hw.
  destruct (canonical_shape p Hp) as (u1 & n1 & S1).
  destruct (canonical_shape q Hq) as (u2 & n2 & S2).
  pose (N := length u1 + length u2 + 1).
  specialize (Hw (repeat [] N)).
  rewrite (cshape_walk _ _ _ _ _ S1), (cshape_walk _ _ _ _ _ S2) in Hw.
  rewrite <- Hab in *.
  assert (HF1 : Forall (ordinary sp) n1 /\ Forall (fun w => w = L "..") u1).
  { inversion S1; subst; repeat split; auto. }
  assert (HF2 : Forall (ordinary sp) n2 /\ Forall (fun w => w = L "..") u2).
  { inversion S2; subst; repeat split; auto. }
  destruct HF1 as [HN1 HU1], HF2 as [HN2 HU2].
  rewrite !skipn_repeat in Hw.
  destruct (is_abs sp p).
  - rewrite !app_nil_r in Hw. apply (f_equal (@rev _)) in Hw. rewrite !rev_involutive in Hw. subst n2.
    inversion S1; inversion S2; subst; reflexivity.
  - apply repeat_tail_unique in Hw; [|apply Forall_rev; assumption|apply Forall_rev; assumption].
    destruct Hw as [E1 E2]. apply (f_equal (@rev _)) in E1. rewrite !rev_involutive in E1. subst n2.
    assert (El : length u1 = length u2) by (unfold N in E2; lia).
    assert (u1 = u2) by (apply ups_unique; assumption). subst u2.
    inversion S1; inversion S2; subst; try reflexivity; exfalso; cbn [app] in *; congruence.
Qed.

Lemma normpath_fix p : canonical sp p -> normpath c p = p.
Proof.
  intros H. apply canonical_unique; [apply normpath_canonical|exact H|apply normpath_is_abs|].
  intros st; apply normpath_walk.
Qed.

Lemma normpath_idem p : normpath c (normpath c p) = normpath c p.
Proof. apply normpath_fix, normpath_canonical. Qed.

(** Canonical absolute paths are exactly the [abs_path names]. *)
Lemma canonical_abs_inv p : canonical sp p -> is_abs sp p = true ->
  exists names, Forall (ordinary sp) names /\ p = abs_path sp names.
Proof.
  intros H Ha. destruct (canonical_shape p H) as (u & n & Hs). rewrite Ha in Hs.
  inversion Hs; subst. exists n; split; [assumption|reflexivity].
Qed.

Lemma abs_path_canonical names : Forall (ordinary sp) names -> canonical sp (abs_path sp names).
Proof. intros H. destruct names as [|n names]; [apply can_root|apply can_abs; [discriminate|assumption]]. Qed.

Lemma abs_path_inj n1 n2 : Forall (ordinary sp) n1 -> Forall (ordinary sp) n2 ->
  abs_path sp n1 = abs_path sp n2 -> n1 = n2.
Proof.
  intros H1 H2 E. pose proof (cshape_walk _ _ _ _ [] (cs_abs n1 H1)) as E1.
  pose proof (cshape_walk _ _ _ _ [] (cs_abs n2 H2)) as E2. rewrite E in E1. rewrite E1 in E2.
  rewrite !app_nil_r in E2. apply (f_equal (@rev _)) in E2. rewrite !rev_involutive in E2. exact E2.
Qed.

(** ** path components *)
Lemma path_components_abs names : Forall (ordinary sp) names ->
  path_components c (abs_path sp names) = names.
Proof.
  intros H. unfold path_components, abs_path, sep.
  destruct names as [|n names].
  - cbn [join_with]. rewrite (str_eqb_refl [sp]), orb_true_r. reflexivity.
  - assert (Hn : n <> [] /\ ~ In sp n) by (inversion H as [|? ? (Ha & _ & _ & Hb)]; auto).
    destruct n as [|x n]; [destruct Hn; congruence|].
    assert (Hx : exists y r, join_with [sp] ((x :: n) :: names) = y :: r /\ y <> sp).
    { destruct names; simpl; eexists _, _; (split; [reflexivity|]); intros ->; apply (proj2 Hn); left; reflexivity. }
    destruct Hx as (y & r & Ej & Hy).
    rewrite splitdrive_posix.
    replace (str_eqb (sp :: join_with [sp] ((x :: n) :: names)) [sp]) with false
      by (symmetry; apply str_eqb_neq; rewrite Ej; discriminate).
    replace (str_eqb (sp :: join_with [sp] ((x :: n) :: names)) []) with false by reflexivity.
    cbn [orb]. cbn [split_on]. rewrite Ascii.eqb_refl.
    rewrite split_join; [reflexivity|discriminate|].
    intros w Hw. rewrite Forall_forall in H. apply (H _ Hw).
Qed.

Lemma starts_with_root_abs p : posix_abs c -> starts_with_root_path c p = is_abs sp p.
Proof.
  intros Ha. unfold starts_with_root_path, normalize_path_sep. rewrite (pl_alt _ Hc).
  unfold root_name, sep. rewrite starts_with_1.
  unfold starts_with_drive_letter. rewrite (pl_win _ Hc). rewrite andb_false_r, orb_false_r.
  destruct (pa_cs _ Ha) as [E|E].
  - rewrite E. cbn [negb andb]. apply orb_false_r.
  - rewrite E. destruct (c_cs c); cbn [negb andb]; [apply orb_false_r|].
    destruct p as [|x p]; [reflexivity|]. cbn [is_abs lower map starts_with].
    rewrite andb_true_r.
    assert (Hl : Ascii.eqb (lower_char slash) (lower_char x) = Ascii.eqb x slash).
    { destruct x as [[] [] [] [] [] [] [] []]; reflexivity. }
    rewrite Hl. apply orb_diag.
Qed.

Lemma components_to_path_abs names : posix_abs c -> Forall (ordinary sp) names ->
  components_to_path c names = abs_path sp names.
Proof.
  intros Ha H. unfold components_to_path. rewrite starts_with_root_abs by assumption.
  unfold sep. destruct names as [|n names]; [reflexivity|].
  inversion H as [|? ? (H1 & _ & _ & H4) _]; subst.
  rewrite is_abs_join by assumption. reflexivity.
Qed.

(** ** absnormpath *)
Lemma abs_not_dot q : is_abs sp q = true -> str_eqb q dot = false.
Proof.
  intros H. apply str_eqb_neq. intros ->. simpl in H. apply Ascii.eqb_eq in H.
  pose proof (pl_sep _ Hc). congruence.
Qed.

Definition absnorm_arg (cwd p : str) : str :=
  match p with
  | [] => [sp]
  | _ => if str_eqb p dot then cwd
         else if is_abs sp p then p
         else (if str_eqb cwd [sp] then [] else cwd) ++ sp :: p
  end.

Lemma absnormpath_eq cwd p : posix_abs c -> is_abs sp cwd = true ->
  absnormpath c cwd p = normpath c (absnorm_arg cwd p).
Proof.
  intros Ha Hcwd. unfold absnormpath. rewrite normcase_id. unfold sep, root_name, sep.
  unfold absnorm_arg.
  destruct p as [|x p].
  - replace (str_eqb [sp] dot) with false
      by (symmetry; apply abs_not_dot; simpl; apply Ascii.eqb_refl).
    rewrite starts_with_root_abs by assumption.
    replace (is_abs sp [sp]) with true by (simpl; rewrite Ascii.eqb_refl; reflexivity).
    cbn [negb]. replace (str_eqb [sp] dot) with false
      by (symmetry; apply abs_not_dot; simpl; apply Ascii.eqb_refl). reflexivity.
  - destruct (str_eqb (x :: p) dot) eqn:Ed.
    + rewrite (abs_not_dot cwd Hcwd). reflexivity.
    + rewrite starts_with_root_abs by assumption.
      destruct (is_abs sp (x :: p)) eqn:Ex; cbn [negb].
      * rewrite Ed. reflexivity.
      * change (join_with [sp] [if str_eqb cwd [sp] then [] else cwd; x :: p])
          with ((if str_eqb cwd [sp] then [] else cwd) ++ [sp] ++ (x :: p)).
        cbn [app].
        assert (Hab : is_abs sp ((if str_eqb cwd [sp] then [] else cwd) ++ sp :: x :: p) = true).
        { destruct (str_eqb cwd [sp]); simpl; [apply Ascii.eqb_refl|].
          destruct cwd; [discriminate|exact Hcwd]. }
        rewrite (abs_not_dot _ Hab). reflexivity.
Qed.

Lemma absnorm_arg_abs cwd p : is_abs sp cwd = true -> is_abs sp (absnorm_arg cwd p) = true.
Proof.
  intros H. unfold absnorm_arg. destruct p as [|x p]; [simpl; apply Ascii.eqb_refl|].
  destruct (str_eqb (x :: p) dot); [exact H|].
  destruct (is_abs sp (x :: p)) eqn:E; [exact E|].
  destruct (str_eqb cwd [sp]); simpl; [apply Ascii.eqb_refl|].
  destruct cwd; [discriminate|exact H].
Qed.

Lemma absnormpath_names cwd p : posix_abs c -> is_abs sp cwd = true ->
  exists names, Forall (ordinary sp) names /\ absnormpath c cwd p = abs_path sp names.
Proof.
  intros Ha H. rewrite absnormpath_eq by assumption.
  apply canonical_abs_inv; [apply normpath_canonical|].
  rewrite normpath_is_abs. apply absnorm_arg_abs, H.
Qed.

Lemma walk_app_sep st a p : is_abs sp p = false -> is_abs sp a = true ->
  walk_pos sp st (a ++ sp :: p) = walk_pos sp (walk_pos sp st a) p.
Proof.
  intros Hp Ha. unfold walk_pos at 1.
  replace (is_abs sp (a ++ sp :: p)) with true
    by (destruct a; [discriminate|symmetry; exact Ha]).
  rewrite split_on_app_mid, fold_left_app. unfold walk_pos. rewrite Hp, Ha. reflexivity.
Qed.

Lemma walk_cwd_root st p : is_abs sp p = false ->
  walk_pos sp st (sp :: p) = walk_pos sp [] p.
Proof.
  intros Hp. unfold walk_pos. cbn [is_abs split_on]. rewrite Ascii.eqb_refl, Hp. reflexivity.
Qed.

(** absnormpath p denotes p walked from the cwd; the empty path is the root. *)
Lemma absnormpath_walk cwd p st : posix_abs c -> is_abs sp cwd = true ->
  walk_pos sp st (absnormpath c cwd p) =
  match p with [] => [] | _ => walk_pos sp (walk_pos sp [] cwd) p end.
Proof.
  intros Ha H. rewrite absnormpath_eq by assumption. rewrite normpath_walk.
  unfold absnorm_arg. destruct p as [|x p].
  - unfold walk_pos. simpl. rewrite Ascii.eqb_refl. reflexivity.
  - destruct (str_eqb_spec (x :: p) dot) as [E|E].
    + rewrite E. rewrite walk_dot. unfold walk_pos. rewrite H. reflexivity.
    + destruct (is_abs sp (x :: p)) eqn:Ex.
      * unfold walk_pos. rewrite Ex. reflexivity.
      * destruct (str_eqb_spec cwd [sp]) as [E2|E2].
        -- subst cwd. cbn [app]. rewrite walk_cwd_root by assumption.
           unfold walk_pos at 3. simpl. rewrite Ascii.eqb_refl. reflexivity.
        -- rewrite walk_app_sep by assumption. unfold walk_pos at 2. rewrite H.
           unfold walk_pos at 3. rewrite H. reflexivity.
Qed.

Lemma absnormpath_fix cwd p : posix_abs c -> is_abs sp cwd = true ->
  canonical sp p -> is_abs sp p = true -> absnormpath c cwd p = p.
Proof.
  intros Ha H Hp Hab. rewrite absnormpath_eq by assumption. unfold absnorm_arg.
  destruct p as [|x p]; [discriminate|].
  rewrite (abs_not_dot _ Hab), Hab. apply normpath_fix, Hp.
Qed.

Lemma absnormpath_abs_path cwd names : posix_abs c -> is_abs sp cwd = true ->
  Forall (ordinary sp) names -> absnormpath c cwd (abs_path sp names) = abs_path sp names.
Proof.
  intros Ha H Hn. apply absnormpath_fix; [assumption|assumption|apply abs_path_canonical, Hn|].
  simpl; apply Ascii.eqb_refl.
Qed.

Lemma absnormpath_idem cwd p : posix_abs c -> is_abs sp cwd = true ->
  absnormpath c cwd (absnormpath c cwd p) = absnormpath c cwd p.
Proof.
  intros Ha H. destruct (absnormpath_names cwd p Ha H) as (n & Hn & ->).
  apply absnormpath_abs_path; assumption.
Qed.

End Lex.
