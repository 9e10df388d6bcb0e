(** * Relative lookups are lookups of the joined path (C30). *)
From Verif Require Import Str PathModel PathSpec PathProofs PathProofs2 FsModel FsSpec OpsModel IoModel SysModel Wp GraphInv ResProofs ResProofs2 ResThm ResThm2 OpsThm.

Lemma rfind_nil sp : rfind_pre [sp; dotc; dotc] [] = None.
Proof. reflexivity. Qed.
Lemma rfind_join sp P q : sp <> dotc -> rfind_pre [sp; dotc; dotc] (P ++ sp :: q) =
  match rfind_pre [sp; dotc; dotc] q with
  | Some x => Some (P ++ sp :: x)
  | None => if starts_with (L "..") q then Some P else rfind_pre [sp; dotc; dotc] P
  end.
Proof.
  intros Hd. induction P as [|x P IH].
  - cbn [app rfind_pre]. destruct (rfind_pre [sp; dotc; dotc] q) as [y|]; [reflexivity|].
    assert (E : starts_with [sp; dotc; dotc] (sp :: q) = starts_with (L "..") q).
    { cbn [starts_with]. rewrite Ascii.eqb_refl. reflexivity. }
    rewrite E. destruct (starts_with (L "..") q); reflexivity.
  - cbn [app rfind_pre]. rewrite IH. destruct (rfind_pre [sp; dotc; dotc] q) as [y|]; [reflexivity|].
    destruct (starts_with (L "..") q); [reflexivity|]. destruct (rfind_pre [sp; dotc; dotc] P) as [y|]; [reflexivity|].
    assert (E : starts_with [sp; dotc; dotc] (x :: P ++ sp :: q) = starts_with [sp; dotc; dotc] (x :: P)).
    { assert (K : Ascii.eqb dotc sp = false) by (apply Ascii.eqb_neq; congruence).
      cbn [starts_with]. destruct (Ascii.eqb sp x); [|reflexivity].
      destruct P as [|y P]; cbn [starts_with app]; [rewrite K; reflexivity|]. destruct (Ascii.eqb dotc y); [|reflexivity].
      destruct P as [|z P]; cbn [starts_with app]; [rewrite K|]; reflexivity. }
    rewrite E. reflexivity.
Qed.
Lemma rfind_shorter sp p pre : rfind_pre [sp; dotc; dotc] p = Some pre -> length pre < length p.
Proof. intros H. apply rfind_pre_spec in H. destruct H as [t ->]. rewrite !app_length. cbn. lia. Qed.
Lemma valid_fuel ex s : forall f1 f2 p, length p <= f1 -> length p <= f2 -> valid_rel ex f1 s p = valid_rel ex f2 s p.
Proof.
  induction f1 as [|f1 IH]; intros f2 p H1 H2.
  - destruct p; [|cbn in H1; lia]. destruct f2; cbn; destruct (c_win (f_cfg s)); reflexivity.
  - destruct f2 as [|f2]; [destruct p; [|cbn in H2; lia]; cbn; destruct (c_win (f_cfg s)); reflexivity|].
    cbn [valid_rel]. destruct (c_win (f_cfg s)); [reflexivity|]. destruct (rfind_pre _ p) as [pre|] eqn:E; [|reflexivity].
    pose proof (rfind_shorter _ _ _ E). destruct (ex (anp s pre)) as [[|]|]; cbn; try reflexivity. apply IH; lia.
Qed.
(** the path joined to the current directory *)
Definition cwd_join (s : fs) (q : str) : str :=
  (if str_eqb (f_cwd s) [sepc s] then [] else f_cwd s) ++ sepc s :: q.
Section Rel.
Variable s : fs.
Hypothesis HG : Ginv s.
Variable names : list str.
Variable d : oid.
Hypothesis Hcwd : f_cwd s = abs_path (sepc s) names.
Hypothesis Hat : at_names s names = Some d.
Hypothesis Hlf : forall pre n l rest, ~ meets_link s names pre n l rest.
Notation sp := (sepc s).
Let P := if str_eqb (f_cwd s) [sp] then [] else f_cwd s.

Lemma rel_ordinary : Forall (ordinary sp) names.
Proof. apply (at_names_ordinary s HG names root_oid d Hat). Qed.
Lemma rel_P : (names = [] /\ P = []) \/ (names <> [] /\ P = abs_path sp names).
Proof.
  unfold P. rewrite Hcwd. pose proof rel_ordinary as Ho. clear Hat Hlf P Hcwd. destruct names as [|n ns]; [left|right].
  - cbn. rewrite Ascii.eqb_refl. auto.
  - split; [discriminate|]. destruct (str_eqb_spec (abs_path sp (n :: ns)) [sp]) as [K|]; [|reflexivity]. exfalso.
    unfold abs_path in K. injection K as K. inversion_clear Ho as [|? ? H1 H2]. destruct H1 as (H1 & _).
    destruct ns; cbn in K; [contradiction|]. destruct n; [contradiction|discriminate].
Qed.
Lemma rel_walkP q : is_abs sp q = false -> walk_pos sp (walk_pos sp [] (f_cwd s)) (P ++ sp :: q) = walk_pos sp (walk_pos sp [] (f_cwd s)) q.
Proof.
  intros Hq. unfold walk_pos. rewrite Hq. assert (Ha : is_abs sp (P ++ sp :: q) = true).
  { destruct rel_P as [[_ ->]|[_ ->]]; cbn; apply Ascii.eqb_refl. }
  rewrite Ha, split_on_app_mid, fold_left_app. f_equal. rewrite Hcwd. assert (Ha2 : is_abs sp (abs_path sp names) = true) by (cbn; apply Ascii.eqb_refl).
  rewrite Ha2. destruct rel_P as [[-> ->]|[_ ->]]; [|reflexivity]. cbn. rewrite Ascii.eqb_refl. reflexivity.
Qed.
Lemma rel_anp q : q <> [] -> is_abs sp q = false -> anp s (P ++ sp :: q) = anp s q.
Proof.
  intros Hq Hr. pose proof (Ginv_good s HG) as Hg. destruct (anp_names s q Hg) as (ns & Hn & E).
  pose proof (anp_names_of s q ns Hg Hq Hn E) as K.
  assert (K2 : names_of s (P ++ sp :: q) ns) by (unfold names_of; rewrite rel_walkP by exact Hr; exact K).
  assert (Hne : P ++ sp :: q <> []) by (destruct P; discriminate). destruct (names_of_anp s (P ++ sp :: q) ns Hg Hne K2) as [_ E2]. rewrite E2, E. reflexivity.
Qed.
Lemma rel_exists : exists_top s (anp s P) = Ok true.
Proof.
  pose proof (Ginv_good s HG) as Hg.
  assert (E : anp s P = abs_path sp names).
  { destruct rel_P as [[-> ->]|[_ ->]]; [apply anp_nil, Hg|apply anp_abs_path; [exact Hg|apply rel_ordinary]]. }
  rewrite E, (exists_top_eq s Hg names rel_ordinary). apply (exists_names s Hg); [apply rel_ordinary|]. right.
  exists names, d. split; [apply (linkfree_resolve_path s HG (length names) names d (le_n _) Hat Hlf)|]. split; [|exact Hat].
  eapply Forall_impl; [|apply rel_ordinary]. intros w (H1 & _ & _ & H2). split; assumption.
Qed.
Lemma rel_validP fuel : length P <= fuel -> valid_rel (exists_top s) fuel s P = Ok true.
Proof.
  pose proof (Ginv_good s HG) as Hg. intros Hf. rewrite (valid_fuel _ s fuel (length P) P Hf (le_n _)).
  destruct rel_P as [[_ ->]|[_ ->]]; [apply rfind_none_valid; reflexivity|].
  pose proof (linkfree_resolve_path s HG (length names) names d (le_n _) Hat Hlf) as K. apply (resolve_path_ok s Hg) in K. apply K.
Qed.
Lemma rel_valid : forall n q f1 f2, length q <= n -> is_abs sp q = false -> length q <= f1 -> length (P ++ sp :: q) <= f2 ->
  valid_rel (exists_top s) f2 s (P ++ sp :: q) = valid_rel (exists_top s) f1 s q.
Proof.
  pose proof (Ginv_good s HG) as Hg. induction n as [|n IH]; intros q f1 f2 Hn Hq H1 H2.
  - destruct q; [|cbn in Hn; lia]. rewrite (rfind_none_valid _ f1 s []) by reflexivity.
    destruct f2 as [|f2]; [rewrite app_length in H2; cbn in H2; lia|]. cbn [valid_rel]. rewrite (Ginv_win s HG), rfind_join by apply (ll_sep _ (gd_lin _ Hg)).
    cbn [rfind_pre]. cbn [starts_with L String.list_ascii_of_string]. destruct (rfind_pre [sp; dotc; dotc] P) as [x|] eqn:E; [|reflexivity].
    assert (K : valid_rel (exists_top s) (S f2) s P = Ok true) by (apply rel_validP; rewrite app_length in H2; cbn in H2; lia).
    cbn [valid_rel] in K. rewrite (Ginv_win s HG), E in K. exact K.
  - destruct f2 as [|f2]; [rewrite app_length in H2; cbn in H2; lia|].
    destruct (rfind_pre [sp; dotc; dotc] q) as [x|] eqn:E.
    + pose proof (rfind_shorter _ _ _ E) as Hx. destruct f1 as [|f1]; [lia|]. cbn [valid_rel].
      rewrite (Ginv_win s HG), rfind_join by apply (ll_sep _ (gd_lin _ Hg)). rewrite E.
      assert (Hxa : x <> [] /\ is_abs sp x = false).
      { apply rfind_pre_spec in E. destruct E as [t ->]. destruct x as [|y x]; cbn in Hq; [rewrite Ascii.eqb_refl in Hq; discriminate|]. split; [discriminate|exact Hq]. }
      rewrite rel_anp by apply Hxa. destruct (exists_top s (anp s x)) as [[|]|]; cbn [rbind]; try reflexivity.
      apply IH; [lia|apply Hxa|lia|]. rewrite !app_length in *. cbn in *. lia.
    + rewrite (rfind_none_valid _ f1 s q) by exact E. cbn [valid_rel].
      rewrite (Ginv_win s HG), rfind_join by apply (ll_sep _ (gd_lin _ Hg)). rewrite E.
      assert (K : forall f, length P <= f -> valid_rel (exists_top s) f s P = Ok true) by apply rel_validP.
      rewrite app_length in H2; cbn in H2.
      destruct (starts_with (L "..") q); [rewrite rel_exists; cbn [rbind]; apply K; lia|].
      specialize (K (S f2) ltac:(lia)). cbn [valid_rel] in K. rewrite (Ginv_win s HG) in K. exact K.
Qed.
Lemma rel_resolve_path q : q <> [] -> is_abs sp q = false -> resolve_path s q = resolve_path s (cwd_join s q).
Proof.
  intros Hq Hr. unfold resolve_path, resolve_path_, cwd_join. fold P.
  assert (E1 : str_eqb q [] = false) by (destruct (str_eqb_spec q []); [contradiction|reflexivity]).
  assert (E2 : str_eqb (P ++ sp :: q) [] = false) by (destruct P; reflexivity).
  rewrite E1, E2, (rel_valid (length q) q (length q) _ (le_n _) Hr (le_n _) (le_n _)).
  pose proof (ll_cs _ (gi_lin s HG)) as Hcs. rewrite !original_path_cs by exact Hcs. rewrite rel_anp by assumption. reflexivity.
Qed.
End Rel.
