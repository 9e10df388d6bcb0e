(** * Lemmas for C77: directories that are read when they are first looked at *)
From Verif Require Export AddRealDir LazyModel.
From Verif Require Import TreeThm PropTree PropOps RealpathModel RelThm PropReal.
From Verif Require Limits Gen.

(** ** Paths *)
Lemma join_ends P : P <> [] -> Forall (ordinary slash) P -> exists q x, abs_path slash P = q ++ [x] /\ x <> slash.
Proof.
  intros Hn F. destruct (ends_sep_join slash P Hn) as [E1 E2].
  { intros w Hw. rewrite Forall_forall in F. destruct (F w Hw) as (A & _ & _ & B). auto. }
  unfold abs_path. destruct (exists_last (l := join_with [slash] P)) as (q & x & E).
  { intros K. rewrite K in E1. discriminate. }
  exists (slash :: q), x. rewrite E. split; [reflexivity|]. intros ->.
  assert (K : ends_with_char slash (join_with [slash] P) = true) by (apply ends_with_char_spec; exists q; exact E). congruence.
Qed.
Lemma host_join_abs P n : Forall (ordinary slash) P -> host_join (abs_path slash P) n = abs_path slash (P ++ [n]).
Proof.
  intros F. unfold host_join. destruct P as [|m P]; [reflexivity|].
  assert (K : ends_with_char slash (abs_path slash (m :: P)) = false).
  { destruct (join_ends (m :: P)) as (q & x & E & Hx); [discriminate|exact F|]. apply not_true_is_false. intros K. apply ends_with_char_spec in K.
    destruct K as [y K]. rewrite E in K. apply app_inj_tail in K. destruct K as [_ K]. contradiction. }
  rewrite K. unfold abs_path. rewrite join_with_app by discriminate. reflexivity.
Qed.
Lemma split_abs P n : Forall (ordinary slash) (P ++ [n]) -> split_on slash (abs_path slash (P ++ [n])) = [] :: P ++ [n].
Proof.
  intros F. unfold abs_path. change (slash :: ?x) with ([] ++ slash :: x). rewrite split_on_app_mid, split_join.
  - reflexivity.
  - destruct P; discriminate.
  - intros w Hw. rewrite Forall_forall in F. apply (F w Hw).
Qed.
Lemma host_dirname_abs P n : Forall (ordinary slash) (P ++ [n]) -> host_dirname (abs_path slash (P ++ [n])) = abs_path slash P.
Proof.
  intros F. unfold host_dirname. rewrite (split_abs P n F).
  assert (E : match [] :: P ++ [n] with [_] => [] | _ => join_with [slash] (removelast ([] :: P ++ [n])) ++ [slash] end =
              match P with [] => [slash] | _ => abs_path slash P ++ [slash] end).
  { change ([] :: P ++ [n]) with (([] :: P) ++ [n]). rewrite removelast_last. destruct P; reflexivity. }
  rewrite E. clear E. apply Forall_app in F. destruct F as [F _]. destruct P as [|m P]; [reflexivity|].
  destruct (join_ends (m :: P)) as (q & x & E & Hx); [discriminate|exact F|]. rewrite E.
  assert (K : forallb (Ascii.eqb slash) ((q ++ [x]) ++ [slash]) = false).
  { apply not_true_is_false. intros K. rewrite forallb_forall in K. apply Hx. symmetry. apply Ascii.eqb_eq, K. rewrite !in_app_iff. left. right. left. reflexivity. }
  rewrite K. unfold rstrip. rewrite !rev_app_distr. cbn [rev app lstrip]. rewrite Ascii.eqb_refl.
  destruct (Ascii.eqb_spec x slash) as [->|_]; [contradiction|]. cbn [rev]. rewrite rev_involutive. reflexivity.
Qed.

(** ** Calls on a path in a directory that is there *)
Section Here.
Variables (s : fs) (P : list str) (d : oid) (n : str).
Hypothesis H : Ginv s.
Hypothesis W : within_limits s.
Hypothesis Hs : sepc s = slash.
Hypothesis Hat : at_names s P = Some d.
Hypothesis Hd : is_dirobj s d = true.
Hypothesis Fo : Forall (ordinary slash) (P ++ [n]).
Notation p := (abs_path slash (P ++ [n])).

Lemma here_links : forall a m l y, ~ meets_link s P a m l y.
Proof.
  intros a m l y (E & K1 & K2). destruct (at_prefix_dirs s P d H Hat Hd (a ++ [m]) y) as (x & Kx & Dx); [rewrite E, <- app_assoc; reflexivity|].
  rewrite (dirobj_nolink s l H) in K2; congruence.
Qed.
Lemma here_parents s1 : parents s s1 P -> s1 = s.
Proof.
  intros [->|(a & m & rest & d' & E & Hdd & DM & Ka)]; [reflexivity|exfalso]. specialize (Ka here_links).
  destruct (dm_top _ _ _ _ _ DM m rest eq_refl) as [Hw _].
  pose proof Hat as K. rewrite E in K. unfold at_names in K, Ka. rewrite tree_at_app, Ka in K. cbn in K. rewrite Hw in K. discriminate.
Qed.
Lemma here_P : Forall (ordinary (sepc s)) P.
Proof. rewrite Hs. apply Forall_app in Fo. apply Fo. Qed.
Lemma here_resolve c x : resolve s (abs_path slash P) c = Ok x -> is_dirobj s x = true -> x = d.
Proof.
  intros E Hx. rewrite <- Hs in E. unfold resolve in E. apply (resolve_ok s (Ginv_good s H)) in E.
  destruct E as (rr & E & Hc & [[_ ->]|(_ & Kx & _)]).
  { rewrite (gi_null s H) in Hx. discriminate. }
  apply (rp_names s H P rr here_P Hc) in E. destruct E as [_ E].
  rewrite (resolved_det s (Ginv_good s H) _ _ _ (linkfree_resolved s P here_links) E) in Hat. congruence.
Qed.
Lemma here_names : names_of s p (P ++ [n]).
Proof.
  assert (F : Forall (ordinary (sepc s)) (P ++ [n])) by (rewrite Hs; exact Fo).
  apply anp_names_of; [apply Ginv_good, H|discriminate|exact F|]. rewrite <- Hs. apply anp_abs_path; [apply Ginv_good, H|exact F].
Qed.

Lemma here_file s' st data ro x : add_real_file p st data ro s = (Ok x, s') ->
  Ginv s' /\ within_limits s' /\ x = f_next s /\ one_more s s' d n x /\ f_next s' = S (f_next s) /\ leaf_is ro s' x (RFile st data).
Proof.
  intros E. pose proof (wp_elim _ _ _ _ _ (wp_add_real_file s p st data ro H W Hs) E) as K. cbv beta in K.
  destruct K as (H' & W' & [(e & s1 & K & _)|(s1 & pre & m & dd & x' & RF & K)]); [discriminate|].
  destruct RF as [H1 X Ec Nm Pa Hr Hdm Ex OM Nx Mo Bo Sz [I1 I2] (T1 & T2 & T3) Nl _ _ _].
  assert (x' = x) by (destruct K as [[K _]|[K _]]; [discriminate|congruence]). clear K. subst x'.
  assert (En := names_same s _ _ _ Nm here_names). apply app_inj_tail in En. destruct En as [-> ->].
  rewrite (here_parents s1 Pa) in *. rewrite Hs in Hr.
  assert (dd = d) by (apply (here_resolve _ _ Hr), (om_isdir _ _ _ _ _ OM)). subst dd. subst x.
  repeat (split; [assumption || reflexivity|]). cbn. repeat split; assumption.
Qed.

Lemma here_link s' text x : entry s d n = None -> add_real_symlink p text s = (Ok x, s') ->
  Ginv s' /\ within_limits s' /\ x = f_next s /\ one_more s s' d n x /\ f_next s' = S (f_next s) /\ forall ro, leaf_is ro s' x (RLink text).
Proof.
  intros Hno E.
  assert (H' : Ginv s') by (pose proof (create_symlink_pres p text true s H) as K; unfold add_real_symlink in E; rewrite E in K; exact K).
  assert (W' : within_limits s').
  { pose proof (Gen.gn_create_symlink _ _ _ (Gen.fp_core _ _ _ _ Limits.rl_prims) p text true s W) as K.
    unfold add_real_symlink in E. rewrite E in K. exact K. }
  split; [exact H'|]. split; [exact W'|].
  assert (Fos : Forall (ordinary (sepc s)) (P ++ [n])) by (rewrite Hs; exact Fo).
  assert (Hg := Ginv_good s H).
  assert (Hlf : forall a m l y, ~ meets_link s (P ++ [n]) a m l y).
  { intros a m l y (Ea & K1 & K2). destruct (list_eq_dec (list_eq_dec ascii_dec) y []) as [->|Hy].
    - apply app_inj_tail in Ea. destruct Ea as [<- <-]. rewrite (at_names_snoc s P n d Hat), Hno in K1. discriminate.
    - destruct (exists_last Hy) as (y' & w & ->). change (a ++ m :: y' ++ [w]) with (a ++ (m :: y') ++ [w]) in Ea.
      rewrite (app_assoc a) in Ea. apply app_inj_tail in Ea. destruct Ea as [Ea _].
      apply (here_links a m l y'). split; [exact Ea|split; assumption]. }
  assert (Go : forall q, names_of s q (P ++ [n]) ->
    create_file_internally q (N.lor S_IFLNK PERM_DEF) (Some (make_string_path (f_cfg s) text)) None true false s = (Ok x, s') ->
    x = f_next s /\ one_more s s' d n x /\ f_next s' = S (f_next s) /\ forall ro, leaf_is ro s' x (RLink text)).
  { intros q Nq Eq. pose proof (wp_elim _ _ _ _ _ (wp_make s q _ _ _ _ H W Hs) Eq) as K. cbv beta in K.
    destruct K as [(e & s1 & K & _)|(o' & K & M & _)]; [discriminate|]. injection K as <-.
    destruct M as (s1 & pre & m & dd & Nm & Pa & Hr & OM & BN & Mo & Bo & _ & Nl & _ & H1 & X).
    assert (En := names_same s _ _ _ Nm Nq). apply app_inj_tail in En. destruct En as [-> ->].
    rewrite (here_parents s1 Pa) in *. rewrite Hs in Hr.
    assert (dd = d) by (apply (here_resolve _ _ Hr), (om_isdir _ _ _ _ _ OM)). subst dd.
    destruct (bn_new _ _ _ _ BN) as [Ex Nx]. split; [exact Ex|]. split; [exact OM|]. split; [exact Nx|]. intros r0. cbn. cbv iota in Mo. split; [exact Mo|]. split; [|exact Nl].
    rewrite Bo. rewrite make_string_path_slash by exact Hs. reflexivity. }
  revert E. unfold add_real_symlink, create_symlink. unfold bind at 1. unfold gets at 1. cbv zeta.
  rewrite (normcase_id _ (linux_like_posix _ (gi_lin s H))). rewrite (make_string_path_slash _ p) by exact Hs.
  rewrite (Ginv_win s H), (Ginv_mac s H).
  pose proof (ends_sep_clean _ (gi_lin s H) (P ++ [n]) (Forall_clean _ _ Fos)) as Ke. rewrite Hs in Ke. rewrite Ke. clear Ke.
  unfold bind at 1. unfold ret at 1.
  unfold bind at 1. unfold lift at 1. destruct (islink s p) as [[|]|e]; [| |discriminate].
  - unfold bind at 1. unfold ret at 1. intros E. apply (Go p here_names E).
  - unfold bind at 1. unfold lift at 1. destruct (resolve_path s p) as [q|e] eqn:Eq; [|discriminate].
    intros E. apply (Go q); [|exact E]. pose proof Eq as Eq'. unfold resolve_path in Eq'. apply (resolve_path_ok s Hg) in Eq'.
    destruct Eq' as (_ & _ & names & rr & Fn & Ea & Rs & ->).
    assert (names = P ++ [n]) by (apply (names_same s p); [apply anp_names_of; try assumption; discriminate|exact here_names]). subst names.
    rewrite <- (resolved_det s Hg _ _ _ (linkfree_resolved s _ Hlf) Rs). apply anp_names_of; [exact Hg|discriminate|exact Fos|].
    apply anp_abs_path; [exact Hg|exact Fos].
Qed.
End Here.

(** the attributes of a directory made from a real one *)
Definition dir_is (s : fs) (x : oid) (st : rstat) : Prop :=
  is_dirobj s x = true /\ o_mode (ob s x) = N.lor S_IFDIR (r_mode st) /\ o_uid (ob s x) = r_uid st /\ o_gid (ob s x) = r_gid st /\
  o_atime (ob s x) = r_atime st /\ o_mtime (ob s x) = r_mtime st /\ o_ctime (ob s x) = r_ctime st.

Lemma lbind_ok {A B} (m : LM A) (k : A -> LM B) w a w' : m w = (Ok a, w') -> lbind m k w = k a w'.
Proof. unfold lbind. intros ->. reflexivity. Qed.
Lemma lbind_inv {A B} (m : LM A) (k : A -> LM B) w b w' : lbind m k w = (Ok b, w') -> exists a w1, m w = (Ok a, w1) /\ k a w1 = (Ok b, w').
Proof. unfold lbind. destruct (m w) as [[a|e] w1]; [eauto|discriminate]. Qed.
Lemma up_inv {A} (m : M A) w a w' : up m w = (Ok a, w') -> exists s', m (l_fs w) = (Ok a, s') /\ w' = mklfs s' (l_unread w).
Proof. unfold up. destruct (m (l_fs w)) as [r s']. intros [= -> <-]. eauto. Qed.

Lemma dir_here s u P d n p st es ro x w' : Ginv s -> within_limits s -> sepc s = slash -> at_names s P = Some d ->
  exists_ s (host_dirname p) false = Ok true -> names_of s (host_dirname p) P -> host_basename p = n -> ordinary slash n ->
  (forall b m l y, ~ meets_link s P b m l y) ->
  add_lazy p st es ro (mklfs s u) = (Ok x, w') ->
  exists s', w' = mklfs s' (upd u x (Some (ro, es))) /\ Ginv s' /\ within_limits s' /\ is_dirobj s d = true /\
    x = f_next s /\ one_more s s' d n x /\ f_next s' = S (f_next s) /\ dir_is s' x st /\ ents s' x = [] /\ f_mounts s' = f_mounts s.
Proof.
  intros H W Hs Hat Hex Nm Bn On Hlf E. assert (Hg := Ginv_good s H).
  assert (Hne : host_dirname p <> []) by (intros K; rewrite K in Hex; discriminate).
  destruct (names_of_anp s _ P Hg Hne Nm) as [Fo Ea].
  unfold add_lazy in E. cbv zeta in E. set (pp := host_dirname p) in *.
  apply lbind_inv in E. destruct E as (e & w1 & E1 & E). apply up_inv in E1. destruct E1 as (s1 & E1 & ->). cbn [l_fs l_unread] in *.
  unfold lift in E1. rewrite Hex in E1. injection E1 as <- <-.
  apply lbind_inv in E. destruct E as (d' & w1 & E1 & E). apply up_inv in E1. destruct E1 as (s1 & E1 & ->). cbn [l_fs l_unread] in *.
  unfold lift in E1. destruct (get_object s pp true) as [d''|e] eqn:Eg; [|discriminate]. injection E1 as -> <-.
  apply lbind_inv in E. destruct E as (o & w1 & E1 & E). apply up_inv in E1. destruct E1 as (s1 & E1 & ->). cbn [l_fs l_unread] in *.
  unfold new_dir in E1. change (alloc (host_basename p) (N.lor S_IFDIR (r_mode st)) (BDir []) s) with (Ok (f_next s), snd (alloc (host_basename p) (N.lor S_IFDIR (r_mode st)) (BDir []) s)) in E1.
  injection E1 as <- <-. rewrite Bn in E. set (mode := N.lor S_IFDIR (r_mode st)) in *. set (s2 := snd (alloc n mode (BDir []) s)) in *.
  assert (Hm : has_bit mode S_IFDIR = true) by apply lor_ifdir.
  assert (Onn : ordinary (sepc s) n) by (rewrite Hs; exact On).
  assert (H2 : Ginv s2) by (apply Ginv_alloc; auto).
  assert (A2 : addable s2 (f_next s)) by (apply addable_alloc; auto).
  assert (Hnew : ob s2 (f_next s) = fresh_obj s n mode (BDir [])) by (unfold s2; rewrite ob_alloc, Nat.eqb_refl; reflexivity).
  apply lbind_inv in E. destruct E as ([] & w1 & E1 & E). apply up_inv in E1. destruct E1 as (s3 & E1 & ->). cbn [l_fs l_unread] in *.
  (* the parent *)
  assert (Hdl : d' <> f_next s).
  { intros ->. unfold get_object in Eg. rewrite (original_path_cs s _ (Ginv_cs s H)), Ea in Eg. unfold get_norm in Eg.
    destruct (str_eqb _ _); [injection Eg as Eg; pose proof (gi_next s H); unfold root_oid in Eg; lia|].
    destruct (str_eqb _ _); [injection Eg as Eg; pose proof (gi_next s H); unfold devnull_oid in Eg; lia|].
    rewrite (original_path_cs s _ (Ginv_cs s H)), (path_components_clean _ (gi_lin s H) _ (Forall_clean _ _ Fo)) in Eg.
    apply (norm_walk_ok s Hg) in Eg.
    - destruct Eg as [Eg _]. apply (at_names_lt s P _ H) in Eg. lia.
    - intros pre rest y Ep Ky. apply not_true_is_false. intros K. destruct (names_cases pre) as [->|(a & m & ->)].
      + cbn in Ky. injection Ky as <-. pose proof (gi_root s H) as K1. rewrite (dirobj_nolink s root_oid H K1) in K. discriminate.
      + apply (Hlf a m y rest). split; [rewrite Ep, <- app_assoc; reflexivity|]. split; [exact Ky|exact K]. }
  pose proof (wp_elim _ _ _ _ _ (wp_add_addable s2 d' (f_next s) H2 A2 Hdl) E1) as [H3 _].
  assert (Wl2 : within_limits s2) by exact W.
  pose proof (wp_elim _ _ _ _ _ (wp_add_entry_empty s2 d' (f_next s) H2 Wl2 Hdl ltac:(intros _; rewrite Hnew; reflexivity) (ad_ents _ _ A2)) E1) as K. cbv beta in K.
  destruct K as [(K & _)|(Hdd & He & HL & _)]; [contradiction|]. rewrite Hnew in He, HL. change (o_name (fresh_obj s n mode (BDir []))) with n in He, HL.
  assert (Ha : added s2 s3 d' (f_next s)) by (exists s3; rewrite Hnew; split; [exact HL|apply only_mounts_refl]).
  destruct (alloc_one_more s s3 d' n mode (BDir []) H (or_introl eq_refl) Hdl Hdd He Ha) as (OM & Hnx & i & Hi).
  assert (d' = d).
  { pose proof (om_isdir _ _ _ _ _ OM) as Kd. unfold get_object in Eg. rewrite (original_path_cs s _ (Ginv_cs s H)), Ea in Eg. unfold get_norm in Eg.
    destruct (str_eqb_spec (abs_path (sepc s) P) [c_sep (f_cfg s)]) as [K|_].
    { injection Eg as <-. change [c_sep (f_cfg s)] with (abs_path (sepc s) []) in K. apply (abs_path_clean_inj (f_cfg s) (gi_lin s H)) in K; [|apply Forall_clean, Fo|constructor].
      rewrite K in Hat. cbn in Hat. congruence. }
    destruct (str_eqb _ _); [injection Eg as <-; rewrite (gi_null s H) in Kd; discriminate|].
    rewrite (original_path_cs s _ (Ginv_cs s H)), (path_components_clean _ (gi_lin s H) _ (Forall_clean _ _ Fo)) in Eg.
    apply (norm_walk_ok s Hg) in Eg.
    - destruct Eg as [Eg _]. unfold at_names in Hat. congruence.
    - intros pre rest y Ep Ky. apply not_true_is_false. intros K. destruct (names_cases pre) as [->|(a & m & ->)].
      + cbn in Ky. injection Ky as <-. pose proof (gi_root s H) as K1. rewrite (dirobj_nolink s root_oid H K1) in K. discriminate.
      + apply (Hlf a m y rest). split; [rewrite Ep, <- app_assoc; reflexivity|]. split; [exact Ky|exact K]. }
  subst d'.
  apply lbind_inv in E. destruct E as ([] & w1 & E2 & E). apply up_inv in E2. destruct E2 as (s4 & E2 & ->). cbn [l_fs l_unread] in *.
  unfold mod_obj, modify in E2. injection E2 as E2.
  unfold lbind, set_unread, lret in E. cbn [l_fs l_unread] in E. injection E as <- <-.
  set (f := fun y => wo_gid (wo_uid (wo_ctime (wo_mtime (wo_atime y (r_atime st)) (r_mtime st)) (r_ctime st)) (r_uid st)) (r_gid st)) in *.
  assert (Ob : ob s4 (f_next s) = f (ob s3 (f_next s))) by (rewrite <- E2, ob_mod_same; reflexivity).
  exists s4. split; [reflexivity|]. split.
  { rewrite <- E2. apply (gsame_Ginv s3); [|exact H3]. apply gsame_mod; [|intros K; exfalso; revert K; unfold root_oid; pose proof (gi_next s H); lia].
    unfold f. constructor; rewrite Hi; cbn; auto. }
  split; [intros k m z; rewrite <- E2; cbn; rewrite (ln_rest _ _ _ _ _ HL); apply W|].
  split; [exact (om_isdir _ _ _ _ _ OM)|]. split; [reflexivity|]. split.
  { rewrite <- E2. replace (mod_ob s3 (f_next s) f) with (mod_ob (set_mounts s3 (f_mounts s3)) (f_next s) f) by reflexivity.
    apply one_more_mod; [exact OM|exact Hdl]. }
  split; [rewrite <- E2; exact Hnx|]. split; [|split; [unfold ents; rewrite Ob, Hi; reflexivity|rewrite <- E2; cbn; rewrite (ln_rest _ _ _ _ _ HL); reflexivity]].
  unfold dir_is, is_dirobj. rewrite Ob, Hi. repeat split; reflexivity.
Qed.

(** ** Paths after one more entry, of any kind *)
Lemma one_more_any s s' d n pre : Ginv s -> one_more s s' d n (f_next s) -> at_names s pre = Some d -> ents s' (f_next s) = [] ->
  (forall q x, at_names s q = Some x -> at_names s' q = Some x) /\
  at_names s' (pre ++ [n]) = Some (f_next s) /\
  forall q x, at_names s' q = Some x -> at_names s q = Some x \/ (q = pre ++ [n] /\ x = f_next s).
Proof.
  intros H OM Hat Hf. assert (X := one_more_new_ext s s' d n H OM).
  assert (Fw : forall q x, at_names s q = Some x -> at_names s' q = Some x).
  { intros q. induction q as [|m q IH] using rev_ind; intros x K; [exact K|].
    apply at_names_snoc_inv in K. destruct K as (e & K1 & K2). rewrite (at_names_snoc s' q m e (IH e K1)). apply (ex_ent _ _ X _ _ _ K2). }
  assert (En : entry s' d n = Some (f_next s)).
  { unfold entry, ents. rewrite (om_dir _ _ _ _ _ OM). cbn. rewrite assoc_app. pose proof (om_was _ _ _ _ _ OM) as K. unfold entry in K. rewrite K. cbn. rewrite str_eqb_refl. reflexivity. }
  split; [exact Fw|]. split; [rewrite (at_names_snoc s' pre n d (Fw pre d Hat)); exact En|].
  intros q. induction q as [|m q IH] using rev_ind; intros x K; [left; exact K|].
  apply at_names_snoc_inv in K. destruct K as (e & K1 & K2). destruct (IH e K1) as [K3|[_ ->]].
  - destruct (Nat.eq_dec e d) as [->|Ne].
    + pose proof K2 as K4. unfold entry, ents in K4. rewrite (om_dir _ _ _ _ _ OM) in K4. cbn in K4. rewrite assoc_app in K4.
      destruct (assoc m (ents s d)) as [y|] eqn:Ea.
      * left. rewrite (at_names_snoc s q m d K3). unfold entry. congruence.
      * cbn in K4. destruct (str_eqb m n) eqn:Em; [|discriminate]. injection K4 as <-. apply str_eqb_eq in Em. subst m.
        right. split; [|reflexivity]. f_equal. apply (dir_one_path s H q pre d); [apply (om_isdir _ _ _ _ _ OM)|exact K3|exact Hat].
    + left. rewrite (at_names_snoc s q m e K3). assert (e < f_next s) by apply (at_names_lt s q e H K3).
      unfold entry, ents in *. rewrite (om_other _ _ _ _ _ OM e Ne) in K2 by lia. exact K2.
  - exfalso. unfold entry in K2. rewrite Hf in K2. discriminate.
Qed.
Lemma nodir_ents s x : is_dirobj s x = false -> ents s x = [].
Proof. unfold is_dirobj, ents. destruct (o_body (ob s x)); [discriminate|reflexivity]. Qed.

(** ** The mapped tree *)
(** [x] is a copy of the real object [l]: a file or link as for add_real_file
    and add_real_symlink, or a directory with the mode, owner and times of the
    real one *)
Definition node_is (ro : bool) (s : fs) (x : oid) (l : rtree) : Prop :=
  match l with RDir st _ => dir_is s x st | _ => leaf_is ro s x l end.

Section Tree.
Variables (T : list str) (o : oid) (t : rtree) (ro : bool).
Hypothesis Wt : real_tree t.
Hypothesis FT : Forall (ordinary slash) T.
Hypothesis Hdr : forall n rest, T = n :: rest -> is_drive_name n = false.
Hypothesis HT : T <> [].

(** the names expected in the directory [x] for the real entries [es]; [part]
    is the directory being read and the names it has so far *)
Definition expected (part : option (oid * list str)) (x : oid) (es : list (str * rtree)) : list str :=
  match part with Some (y, l) => if Nat.eqb x y then l else map fst es | None => map fst es end.

Record mapped (s : fs) (u : oid -> option (bool * list (str * rtree))) (part : option (oid * list str)) : Prop := {
  mp_inv : Ginv s;
  mp_lim : within_limits s;
  mp_sep : sepc s = slash;
  mp_top : at_names s T = Some o;
  mp_node : forall q x, at_names s (T ++ q) = Some x -> exists l, at_tree t q = Some l /\ node_is ro s x l;
  mp_load : forall q x st es, at_names s (T ++ q) = Some x -> at_tree t q = Some (RDir st es) ->
    (u x = Some (ro, es) /\ ents s x = []) \/ (u x = None /\ map fst (ents s x) = expected part x es)
}.

(** [s'] is [s] with more entries in directories at or below [T] *)
Record deeper (s s' : fs) : Prop := {
  de_next : f_next s <= f_next s';
  de_obj : forall x, x < f_next s -> ob s' x = ob s x \/
    (is_dirobj s x = true /\ is_dirobj s' x = true /\ but_entries (ob s' x) (ob s x) /\ exists q, at_names s (T ++ q) = Some x);
  de_fw : forall q x, at_names s q = Some x -> at_names s' q = Some x;
  de_bw : forall q x, at_names s' q = Some x -> at_names s q = Some x \/ (f_next s <= x /\ exists r, r <> [] /\ q = T ++ r);
  de_rest : s' = set_mounts (set_ino (set_next (set_heap s (f_heap s')) (f_next s')) (f_ino s')) (f_mounts s')
}.
Lemma deeper_refl s : deeper s s.
Proof. constructor; auto. destruct s; reflexivity. Qed.
Lemma deeper_trans a b c : Ginv a -> Ginv b -> deeper a b -> deeper b c -> deeper a c.
Proof.
  intros Ha Hb [N1 O1 F1 B1 R1] [N2 O2 F2 B2 R2]. constructor.
  - lia.
  - intros x Hx. destruct (O2 x ltac:(lia)) as [E|(D1 & D2 & BE & q & Hq)].
    + unfold is_dirobj in *. rewrite E. apply O1, Hx.
    + right. assert (Kq : at_names a (T ++ q) = Some x) by (destruct (B1 _ _ Hq) as [K|[K _]]; [exact K|lia]).
      destruct (O1 x Hx) as [E|(E1 & E2 & BE' & _)].
      * split; [unfold is_dirobj in *; rewrite <- E; exact D1|]. split; [exact D2|]. split; [rewrite <- E; exact BE|eauto].
      * split; [exact E1|]. split; [exact D2|]. split; [intros e k; rewrite (BE e k); apply BE'|eauto].
  - auto.
  - intros q x K. destruct (B2 q x K) as [K1|[K1 K2]]; [|right; split; [lia|exact K2]]. apply B1, K1.
  - rewrite R2. rewrite R1 at 1. reflexivity.
Qed.

Lemma in_tree_ordinary q : (exists l, at_tree t q = Some l) -> Forall (ordinary slash) (T ++ q).
Proof. intros [l E]. apply Forall_app. split; [exact FT|]. apply (AddRealDir.rel_ordinary t q l Wt E). Qed.

Lemma node_same s s' x l : ob s' x = ob s x -> node_is ro s x l -> node_is ro s' x l.
Proof. intros E. unfold node_is, dir_is, is_dirobj, leaf_is. rewrite E. auto. Qed.
Lemma node_entries s s' x l : is_dirobj s x = true -> is_dirobj s' x = true -> but_entries (ob s' x) (ob s x) -> node_is ro s x l -> node_is ro s' x l.
Proof.
  intros D D' B. unfold node_is. destruct l as [st data|text|st es].
  - intros K. rewrite (leaf_is_body _ _ _ _ K) in D. discriminate.
  - intros K. rewrite (leaf_is_body _ _ _ _ K) in D. discriminate.
  - unfold dir_is. specialize (B [] 0%Z). assert (Em := f_equal o_mode B). assert (Eu := f_equal o_uid B). assert (Eg := f_equal o_gid B).
    assert (E1 := f_equal o_atime B). assert (E2 := f_equal o_mtime B). assert (E3 := f_equal o_ctime B). cbn in *. rewrite Em, Eu, Eg, E1, E2, E3. intuition.
Qed.

Lemma grow s u names q0 x0 st0 es0 n l s' u' : mapped s u (Some (x0, names)) -> at_names s (T ++ q0) = Some x0 ->
  at_tree t q0 = Some (RDir st0 es0) -> at_tree t (q0 ++ [n]) = Some l -> u x0 = None -> map fst (ents s x0) = names ->
  Ginv s' -> within_limits s' -> one_more s s' x0 n (f_next s) -> f_next s' = S (f_next s) -> ents s' (f_next s) = [] ->
  node_is ro s' (f_next s) l ->
  (forall x, x < f_next s -> u' x = u x) ->
  (match l with RDir st es => u' (f_next s) = Some (ro, es) | _ => True end) ->
  mapped s' u' (Some (x0, names ++ [n])) /\ deeper s s' /\ u' x0 = None /\ map fst (ents s' x0) = names ++ [n].
Proof.
  intros M H0 E0 El Ux0 Nx0 H' W' OM Nx Emp Nd Hu Hun. assert (H := mp_inv _ _ _ M).
  destruct (one_more_any s s' x0 n (T ++ q0) H OM H0 Emp) as (Fw & New & Bw).
  assert (L0 := at_names_lt s _ x0 H H0).
  assert (D0 : is_dirobj s' x0 = true) by (unfold is_dirobj; rewrite (om_dir _ _ _ _ _ OM); reflexivity).
  assert (B0 : but_entries (ob s' x0) (ob s x0)) by (rewrite (om_dir _ _ _ _ _ OM); intros e k; reflexivity).
  assert (N0 : map fst (ents s' x0) = names ++ [n]).
  { unfold ents at 1. rewrite (om_dir _ _ _ _ _ OM). cbn. rewrite map_app, Nx0. reflexivity. }
  split; [|split; [|split; [rewrite (Hu x0 L0); exact Ux0|exact N0]]].
  - constructor.
    + exact H'.
    + exact W'.
    + rewrite (om_rest _ _ _ _ _ OM). exact (mp_sep _ _ _ M).
    + apply Fw, (mp_top _ _ _ M).
    + intros q x K. destruct (Bw _ _ K) as [K1|[E ->]].
      * destruct (mp_node _ _ _ M q x K1) as (l' & E1 & E2). exists l'. split; [exact E1|].
        destruct (Nat.eq_dec x x0) as [->|Ne]; [apply (node_entries s s' x0 l' (om_isdir _ _ _ _ _ OM) D0 B0 E2)|].
        apply (node_same s s' x l'); [|exact E2]. apply (om_other _ _ _ _ _ OM _ Ne). pose proof (at_names_lt s _ x H K1). lia.
      * rewrite <- app_assoc in E. apply app_inv_head in E. subst q. exists l. auto.
    + intros q x st es K Eq. destruct (Bw _ _ K) as [K1|[E ->]].
      * assert (Lx := at_names_lt s _ x H K1). rewrite (Hu x Lx). destruct (Nat.eq_dec x x0) as [->|Ne].
        -- right. split; [exact Ux0|]. rewrite N0. unfold expected. rewrite Nat.eqb_refl. reflexivity.
        -- assert (Eo : ob s' x = ob s x) by (apply (om_other _ _ _ _ _ OM _ Ne); lia).
           unfold ents, expected. rewrite Eo. pose proof (mp_load _ _ _ M q x st es K1 Eq) as K2. unfold expected in K2.
           destruct (Nat.eqb_spec x x0) as [|_]; [contradiction|]. exact K2.
      * rewrite <- app_assoc in E. apply app_inv_head in E. subst q. left. rewrite El in Eq. injection Eq as ->. split; [exact Hun|exact Emp].
  - constructor.
    + lia.
    + intros x Hx. destruct (Nat.eq_dec x x0) as [->|Ne]; [right|left; apply (om_other _ _ _ _ _ OM _ Ne); lia].
      split; [apply (om_isdir _ _ _ _ _ OM)|]. split; [exact D0|]. split; [exact B0|eauto].
    + exact Fw.
    + intros q x K. destruct (Bw q x K) as [K1|[-> ->]]; [left; exact K1|right]. split; [lia|]. exists (q0 ++ [n]). split; [destruct q0; discriminate|]. rewrite app_assoc. reflexivity.
    + apply (om_rest _ _ _ _ _ OM).
Qed.

Lemma load_ok q0 x0 st0 es0 : at_tree t q0 = Some (RDir st0 es0) -> forall es2 es1 s u s' u', es0 = es1 ++ es2 ->
  mapped s u (Some (x0, map fst es1)) -> at_names s (T ++ q0) = Some x0 -> u x0 = None -> map fst (ents s x0) = map fst es1 ->
  load (abs_path slash (T ++ q0)) ro es2 (mklfs s u) = (Ok tt, mklfs s' u') ->
  mapped s' u' (Some (x0, map fst es0)) /\ deeper s s' /\ (u' x0 = None /\ map fst (ents s' x0) = map fst es0) /\ (forall y, y < f_next s -> u' y = u y).
Proof.
  intros E0 es2. induction es2 as [|[n l] es2 IH]; intros es1 s u s' u' E M H0 U0 N0 K.
  - cbn in K. injection K as <- <-. rewrite app_nil_r in E. subst es1. auto using deeper_refl.
  - assert (E' : es0 = (es1 ++ [(n, l)]) ++ es2) by (rewrite <- app_assoc; exact E).
    destruct (Wt q0 st0 es0 E0) as [Nd Fn].
    assert (Hin : In (n, l) es0) by (rewrite E; apply in_app_iff; right; left; reflexivity).
    assert (El : at_tree t (q0 ++ [n]) = Some l) by (rewrite at_tree_app, E0; cbn; rewrite (assoc_NoDup n l es0 Nd Hin); reflexivity).
    assert (Hno : ~ In n (map fst es1)).
    { rewrite E, map_app in Nd. cbn [map fst] in Nd. intros Ki. apply NoDup_remove_2 in Nd. apply Nd, in_app_iff. left. exact Ki. }
    assert (Fo : Forall (ordinary slash) ((T ++ q0) ++ [n])) by (rewrite <- app_assoc; apply in_tree_ordinary; eauto).
    assert (H := mp_inv _ _ _ M). assert (W := mp_lim _ _ _ M). assert (Hs := mp_sep _ _ _ M).
    destruct (mp_node _ _ _ M q0 x0 H0) as (l0 & El0 & Nd0). rewrite E0 in El0. injection El0 as <-. assert (Hd : is_dirobj s x0 = true) by apply Nd0.
    assert (Hne : entry s x0 n = None).
    { unfold entry. destruct (assoc n (ents s x0)) as [y|] eqn:Ea; [|reflexivity]. exfalso. apply Hno. rewrite <- N0. change n with (fst (n, y)). apply in_map, assoc_In, Ea. }
    cbn [load] in K. assert (Fq : Forall (ordinary slash) (T ++ q0)) by (apply Forall_app in Fo; apply Fo). rewrite (host_join_abs _ n Fq) in K.
    assert (Next : forall x s2 u2, Ginv s2 -> within_limits s2 -> x = f_next s -> one_more s s2 x0 n x -> f_next s2 = S (f_next s) -> ents s2 (f_next s) = [] ->
      node_is ro s2 (f_next s) l -> (forall y, y < f_next s -> u2 y = u y) -> (match l with RDir st es => u2 (f_next s) = Some (ro, es) | _ => True end) ->
      load (abs_path slash (T ++ q0)) ro es2 (mklfs s2 u2) = (Ok tt, mklfs s' u') ->
      mapped s' u' (Some (x0, map fst es0)) /\ deeper s s' /\ (u' x0 = None /\ map fst (ents s' x0) = map fst es0) /\ (forall y, y < f_next s -> u' y = u y)).
    { intros x s2 u2 G1 G2 -> G3 G4 G5 G6 G7 G8 K2.
      destruct (grow s u (map fst es1) q0 x0 st0 es0 n l s2 u2 M H0 E0 El U0 N0 G1 G2 G3 G4 G5 G6 G7 G8) as (M2 & D2 & U2 & N2).
      assert (Em : map fst es1 ++ [n] = map fst (es1 ++ [(n, l)])) by (rewrite map_app; reflexivity). rewrite Em in M2, N2.
      destruct (IH (es1 ++ [(n, l)]) s2 u2 s' u' E' M2 (de_fw _ _ D2 _ _ H0) U2 N2 K2) as (A1 & A2 & A3 & A4).
      split; [exact A1|]. split; [apply (deeper_trans s s2 s' H G1 D2 A2)|]. split; [exact A3|]. intros y Hy. rewrite (A4 y) by lia. apply G7, Hy. }
    apply lbind_inv in K. destruct K as (x & w1 & K1 & K). destruct l as [st data|text|st es].
    + apply up_inv in K1. destruct K1 as (s2 & K1 & ->). cbn [l_fs l_unread] in *.
      destruct (here_file s (T ++ q0) x0 n H W Hs H0 Hd Fo s2 st data ro x K1) as (G1 & G2 & G3 & G4 & G5 & G6).
      apply (Next x s2 u G1 G2 G3 G4 G5); auto.
      * rewrite <- G3. apply nodir_ents. apply (leaf_is_body _ _ _ _ G6).
      * rewrite <- G3. exact G6.
    + apply up_inv in K1. destruct K1 as (s2 & K1 & ->). cbn [l_fs l_unread] in *.
      destruct (here_link s (T ++ q0) x0 n H W Hs H0 Hd Fo s2 text x Hne K1) as (G1 & G2 & G3 & G4 & G5 & G6).
      apply (Next x s2 u G1 G2 G3 G4 G5); auto.
      * rewrite <- G3. apply nodir_ents. apply (leaf_is_body _ _ _ _ (G6 ro)).
      * rewrite <- G3. apply G6.
    + assert (Hlf := here_links s (T ++ q0) x0 H H0 Hd).
      assert (Hex : exists_ s (host_dirname (abs_path slash ((T ++ q0) ++ [n]))) false = Ok true).
      { rewrite (host_dirname_abs _ _ Fo), <- Hs. rewrite <- Hs in Fq. apply (exists_of_rp s H (T ++ q0) (T ++ q0) x0 Fq (Forall_clean _ _ Fq)); [|exact H0].
        apply (linkfree_resolve_path s H (length (T ++ q0)) _ x0 (le_n _) H0 Hlf). }
      assert (Hnm : names_of s (host_dirname (abs_path slash ((T ++ q0) ++ [n]))) (T ++ q0)).
      { rewrite (host_dirname_abs _ _ Fo), <- Hs. rewrite <- Hs in Fq. apply anp_names_of; [apply Ginv_good, H|discriminate|exact Fq|]. apply anp_abs_path; [apply Ginv_good, H|exact Fq]. }
      destruct (dir_here s u (T ++ q0) x0 n _ st es ro x w1 H W Hs H0 Hex Hnm (basename_abs _ _ Fo) (Forall_inv (proj2 (proj1 (Forall_app _ _ _) Fo))) Hlf K1)
        as (s2 & -> & G1 & G2 & _ & G3 & G4 & G5 & G6 & G7 & _).
      apply (Next x s2 _ G1 G2 G3 G4 G5) in K; [exact K| | | |].
      * rewrite <- G3. exact G7.
      * rewrite <- G3. exact G6.
      * intros y Hy. unfold upd. destruct (Nat.eqb_spec y x) as [|_]; [lia|reflexivity].
      * unfold upd. rewrite G3, Nat.eqb_refl. reflexivity.
Qed.

Lemma contents_ok s u q x st es l w' : mapped s u None -> at_names s (T ++ q) = Some x -> at_tree t q = Some (RDir st es) ->
  contents x (mklfs s u) = (Ok l, w') ->
  exists s' u', w' = mklfs s' u' /\ mapped s' u' None /\ deeper s s' /\ (u' x = None /\ forall y, y < f_next s -> u y = None -> u' y = None) /\ l = ents s' x /\ map fst l = map fst es.
Proof.
  intros M Hx Et K. unfold contents in K. unfold lbind at 1, unread at 1 in K. cbn [l_unread] in K.
  destruct (mp_load _ _ _ M q x st es Hx Et) as [[U E]|[U E]]; rewrite U in K.
  - unfold lbind at 1, set_unread at 1 in K. cbn [l_fs l_unread] in K. set (u1 := upd u x None) in *.
    destruct (mp_node _ _ _ M q x Hx) as (l0 & El0 & Nd0). rewrite Et in El0. injection El0 as <-. assert (Hd : is_dirobj s x = true) by apply Nd0.
    apply lbind_inv in K. destruct K as (base & w1 & K1 & K). apply up_inv in K1. destruct K1 as (s1 & K1 & ->). cbn [l_fs l_unread] in *.
    assert (Hdr' : forall n rest, T ++ q = n :: rest -> is_drive_name n = false).
    { intros n rest En. destruct T as [|m T']; [contradiction|]. injection En as -> _. apply (Hdr n T' eq_refl). }
    destruct (dir_path_s s (mp_inv _ _ _ M) (T ++ q) x Hx Hd Hdr') as [Ep _]. unfold lift in K1. rewrite Ep, (mp_sep _ _ _ M) in K1. injection K1 as <- <-.
    apply lbind_inv in K. destruct K as ([] & w1 & K1 & K). destruct w1 as [s2 u2].
    assert (M1 : mapped s u1 (Some (x, map fst (@nil (str * rtree))))).
    { destruct M as [A1 A2 A3 A4 A5 A6]. constructor; try assumption. intros q' y st' es' Hy Ey. unfold u1, upd, expected. destruct (Nat.eqb_spec y x) as [->|Ne].
      - right. split; [reflexivity|]. rewrite E. reflexivity.
      - apply (A6 q' y st' es' Hy Ey). }
    assert (U1 : u1 x = None) by (unfold u1, upd; rewrite Nat.eqb_refl; reflexivity).
    destruct (load_ok q x st es Et es [] s u1 s2 u2 eq_refl M1 Hx U1) as (M2 & D2 & [U2 N2] & Mo); [rewrite E; reflexivity|exact K1|].
    unfold up, gets in K. cbn in K. injection K as <- <-. exists s2, u2. split; [reflexivity|]. split; [|split; [exact D2|]; split; [|auto]; split; [exact U2|]; intros y Hy Ky; rewrite (Mo y Hy); unfold u1, upd; destruct (Nat.eqb y x); [reflexivity|exact Ky]].
    destruct M2 as [A1 A2 A3 A4 A5 A6]. constructor; try assumption. intros q' y st' es' Hy Ey. specialize (A6 q' y st' es' Hy Ey).
    unfold expected in *. destruct (Nat.eqb_spec y x) as [->|Ne]; [|exact A6]. right. split; [exact U2|].
    assert (q' = q) as ->.
    { apply (app_inv_head T). apply (dir_one_path s2 A1 _ _ x); [|exact Hy|apply (de_fw _ _ D2), Hx].
      destruct (de_obj _ _ D2 x (at_names_lt s _ x (mp_inv _ _ _ M) Hx)) as [Eo|(_ & Kd & _)]; [unfold is_dirobj in *; rewrite Eo; exact Hd|exact Kd]. }
    rewrite Et in Ey. injection Ey as <- <-. exact N2.
  - unfold up, gets in K. cbn in K. injection K as <- <-. exists s, u. split; [reflexivity|]. split; [exact M|]. split; [apply deeper_refl|]. split; [auto|]. split; [reflexivity|exact E].
Qed.

Lemma content_ok s u q x l n r w' : mapped s u None -> at_names s (T ++ q) = Some x -> at_tree t q = Some l ->
  lazy_content x n (mklfs s u) = (Ok r, w') ->
  exists s' u', w' = mklfs s' u' /\ mapped s' u' None /\ deeper s s' /\
    (forall y, y < f_next s -> u y = None -> u' y = None) /\ (is_dirobj s' x = true -> u' x = None) /\ r = entry s' x n /\
    match at_tree t (q ++ [n]) with
    | Some l' => exists y, r = Some y /\ at_names s' (T ++ q ++ [n]) = Some y
    | None => r = None
    end.
Proof.
  intros M Hx Et K. destruct (mp_node _ _ _ M q x Hx) as (l0 & El0 & Nd0). rewrite Et in El0. injection El0 as <-.
  unfold lazy_content in K. apply lbind_inv in K. destruct K as (b & w1 & K1 & K). unfold up, gets in K1. cbn in K1. injection K1 as <- <-.
  rewrite at_tree_app, Et. destruct l as [st data|text|st es].
  - rewrite (leaf_is_body _ _ _ _ Nd0) in K. cbn in K. injection K as <- <-. exists s, u. cbn. split; [reflexivity|]. split; [exact M|]. split; [apply deeper_refl|]. split; [auto|].
    split; [rewrite (leaf_is_body _ _ _ _ Nd0); discriminate|]. split; [|reflexivity]. unfold entry. rewrite (nodir_ents s x (leaf_is_body _ _ _ _ Nd0)). reflexivity.
  - rewrite (leaf_is_body _ _ _ _ Nd0) in K. cbn in K. injection K as <- <-. exists s, u. cbn. split; [reflexivity|]. split; [exact M|]. split; [apply deeper_refl|]. split; [auto|].
    split; [rewrite (leaf_is_body _ _ _ _ Nd0); discriminate|]. split; [|reflexivity]. unfold entry. rewrite (nodir_ents s x (leaf_is_body _ _ _ _ Nd0)). reflexivity.
  - destruct Nd0 as [Hd _]. rewrite Hd in K. cbn [negb] in K. apply lbind_inv in K. destruct K as (es' & w1 & K1 & K).
    destruct (contents_ok s u q x st es es' w1 M Hx Et K1) as (s' & u' & -> & M' & D' & [U' Mo] & -> & N').
    assert (Hx' := de_fw _ _ D' _ _ Hx). assert (A : r = entry s' x n /\ w' = mklfs s' u').
    { unfold entry. destruct (assoc n (ents s' x)) as [y|] eqn:Ea; [cbn in K; injection K as <- <-; auto|].
      unfold up, lbind, gets in K. cbn in K. rewrite (Ginv_cs s' (mp_inv _ _ _ M')) in K. cbn in K. injection K as <- <-. auto. }
    destruct A as [-> ->]. exists s', u'. split; [reflexivity|]. split; [exact M'|]. split; [exact D'|]. split; [exact Mo|]. split; [auto|]. split; [reflexivity|]. cbn [at_tree].
    rewrite app_assoc, (at_names_snoc s' _ n x Hx'). unfold entry.
    destruct (assoc n es) as [l'|] eqn:Ea.
    + destruct (assoc n (ents s' x)) as [y|] eqn:Ey; [eauto|exfalso].
      assert (In n (map fst (ents s' x))) by (rewrite N'; change n with (fst (n, l')); apply in_map, assoc_In, Ea).
      apply assoc_None in Ey. contradiction.
    + destruct (assoc n (ents s' x)) as [y|] eqn:Ey; [exfalso|reflexivity].
      assert (In n (map fst es)) by (rewrite <- N'; change n with (fst (n, y)); apply in_map, assoc_In, Ey).
      apply assoc_None in Ea. contradiction.
Qed.

(** the directories on the way have been read *)
Fixpoint read_path (s : fs) (u : oid -> option (bool * list (str * rtree))) (x : oid) (q : list str) : Prop :=
  match q with
  | [] => True
  | n :: q' => (is_dirobj s x = true -> u x = None) /\ match entry s x n with Some y => read_path s u y q' | None => True end
  end.
Lemma read_look s u q : c_cs (f_cfg s) = true -> forall x, read_path s u x q -> look x q (mklfs s u) = (Ok (tree_at s x q), mklfs s u).
Proof.
  intros Hcs. induction q as [|n q IH]; intros x K; [reflexivity|]. destruct K as [K1 K2]. cbn [look tree_at].
  assert (E : lazy_content x n (mklfs s u) = (Ok (entry s x n), mklfs s u)).
  { unfold lazy_content. unfold lbind at 1. unfold up at 1, gets at 1. cbn [l_fs l_unread]. destruct (is_dirobj s x) eqn:Hd; cbn [negb].
    - unfold contents. unfold lbind at 1 2. unfold unread at 1. cbn [l_unread]. rewrite (K1 eq_refl). unfold up at 1, gets at 1. cbn [l_fs l_unread].
      unfold entry. destruct (assoc n (ents s x)); [reflexivity|]. unfold lbind, up, gets. cbn. rewrite Hcs. reflexivity.
    - unfold entry. rewrite (nodir_ents s x Hd). reflexivity. }
  rewrite (lbind_ok _ _ _ _ _ E). destruct (entry s x n) as [y|]; [apply IH, K2|reflexivity].
Qed.

Lemma look_ok q2 : forall s u q x l r w', mapped s u None -> at_names s (T ++ q) = Some x -> at_tree t q = Some l ->
  look x q2 (mklfs s u) = (Ok r, w') ->
  exists s' u', w' = mklfs s' u' /\ mapped s' u' None /\ deeper s s' /\
    ((forall y, y < f_next s -> u y = None -> u' y = None) /\ read_path s' u' x q2 /\ r = tree_at s' x q2) /\
    match at_tree t (q ++ q2) with
    | Some l' => exists y, r = Some y /\ at_names s' (T ++ q ++ q2) = Some y
    | None => r = None
    end.
Proof.
  induction q2 as [|n q2 IH]; intros s u q x l r w' M Hx Et K.
  - cbn in K. injection K as <- <-. exists s, u. rewrite !app_nil_r, Et. split; [reflexivity|]. split; [exact M|]. split; [apply deeper_refl|]. cbn. eauto 7.
  - cbn [look] in K. apply lbind_inv in K. destruct K as (a & w1 & K1 & K).
    destruct (content_ok s u q x l n a w1 M Hx Et K1) as (s1 & u1 & -> & M1 & D1 & Mo & Ux & Ea & A).
    assert (Lx := at_names_lt s _ x (mp_inv _ _ _ M) Hx). assert (Hx1 := de_fw _ _ D1 _ _ Hx).
    replace (q ++ n :: q2) with ((q ++ [n]) ++ q2) by (rewrite <- app_assoc; reflexivity).
    destruct (at_tree t (q ++ [n])) as [l'|] eqn:El.
    + destruct A as (y & -> & Hy). destruct (IH s1 u1 (q ++ [n]) y l' r w' M1 Hy El K) as (s' & u' & -> & M' & D' & (Mo' & Rp & Er) & A').
      assert (Hx' := de_fw _ _ D' _ _ Hx1). assert (Hy' := de_fw _ _ D' _ _ Hy). rewrite app_assoc, (at_names_snoc s' _ n x Hx') in Hy'.
      assert (Lx1 := at_names_lt s1 _ x (mp_inv _ _ _ M1) Hx1).
      exists s', u'. split; [reflexivity|]. split; [exact M'|]. split; [apply (deeper_trans s s1 s' (mp_inv _ _ _ M) (mp_inv _ _ _ M1) D1 D')|]. split; [|exact A'].
      split; [intros z Hz Kz; apply Mo'; [pose proof (de_next _ _ D1); lia|apply Mo; assumption]|].
      cbn [read_path tree_at]. rewrite Hy'. split; [|exact Er]. split; [|exact Rp]. intros _. apply Mo'; [exact Lx1|]. apply Ux.
      symmetry in Ea. apply (entry_dirobj s1 x n y Ea).
    + rewrite A in K, Ea. clear A. cbn in K. injection K as <- <-. exists s1, u1. split; [reflexivity|]. split; [exact M1|]. split; [exact D1|].
      rewrite at_tree_app, El. split; [|reflexivity]. cbn [read_path tree_at]. rewrite <- Ea. auto.
Qed.
End Tree.
