(** * Lemmas about add_real_file *)
From Verif Require Export AddRealModel FsSpec OpsThm6 PropMake.
From Verif Require Import PropTree PropOps.
From Verif Require Limits.

Lemma basename_abs names n : Forall (ordinary slash) (names ++ [n]) -> host_basename (abs_path slash (names ++ [n])) = n.
Proof.
  intros H. unfold host_basename, abs_path. change (slash :: ?x) with ([] ++ slash :: x).
  rewrite split_on_app_mid, split_join.
  - rewrite app_assoc. apply last_last.
  - destruct names; discriminate.
  - intros w Hw. rewrite Forall_forall in H. apply (H w Hw).
Qed.

(** what make a new file known by the real one *)
Record real_made (s s1 s' : fs) (p : str) (pre : list str) (n : str) (d : oid) (mode : N) : Prop := {
  rm_inv : Ginv s1;
  rm_names : names_of s p (pre ++ [n]);
  rm_ord : Forall (ordinary slash) (pre ++ [n]);
  rm_par : parents s s1 pre;
  rm_ext : ext s s1;
  rm_mounts : f_mounts s1 = f_mounts s;
  rm_cfg : f_cfg s1 = f_cfg s;
  rm_dir : resolve s1 (abs_path (sepc s) pre) true = Ok d;
  rm_dirm : is_dirm s1 d = true;
  rm_more : one_more s1 s' d n (f_next s1);
  rm_new : brand_new s1 s' d (f_next s1);
  rm_mode : o_mode (ob s' (f_next s1)) = mode;
  rm_body : o_body (ob s' (f_next s1)) = BFile None;
  rm_nlink : o_nlink (ob s' (f_next s1)) = 1%Z;
  rm_name : o_name (ob s' (f_next s1)) = n;
  rm_parent : o_parent (ob s' (f_next s1)) = Some d;
  rm_mounts' : f_mounts s' = f_mounts s1;
  rm_null : abs_path (sepc s1) (pre ++ [n]) <> devnull_name s1
}.

Lemma wp_create_real s p : Ginv s -> within_limits s -> sepc s = slash ->
  wp (create_real_entry p) s (fun r s' => Ginv s' /\ within_limits s' /\
    ((exists e s1, r = Err e /\ (unseen s s1 \/ exists pre, parents s s1 pre) /\ unseen s1 s') \/
     (exists s1 pre n d, r = Ok (f_next s1) /\ real_made s s1 s' p pre n d (N.lor S_IFREG PERM_DEF_FILE)))).
Proof.
  intros H W Hsl. pose proof (Ginv_good s H) as Hg.
  assert (Hm : make_string_path (f_cfg s) p = p) by (apply make_string_path_slash; exact Hsl).
  assert (Hself : forall (e : exn), Ginv s /\ within_limits s /\ ((exists e0 s1, @Err oid e = Err e0 /\ (unseen s s1 \/ exists pre, parents s s1 pre) /\ unseen s1 s) \/
     (exists s1 pre n d, @Err oid e = Ok (f_next s1) /\ real_made s s1 s p pre n d (N.lor S_IFREG PERM_DEF_FILE)))).
  { intros e. split; [exact H|]. split; [exact W|]. left. exists e, s. split; [reflexivity|]. split; [left|]; apply unseen_refl. }
  unfold create_real_entry. wstep. rewrite Hm.
  destruct (anp_names s p Hg) as (names & Hn & En). rewrite En.
  wstep. destruct (exists_ s (abs_path (sepc s) names) true) as [[|]|e] eqn:Ee; [wstep; apply Hself| |apply Hself].
  destruct (names_cases names) as [->|(pre & n & ->)]; [rewrite (exists_root s true H) in Ee; discriminate|].
  destruct (ordinary_last _ _ _ Hn) as [Hpre Hno].
  wstep. rewrite (splitpath_abs_path _ (linux_like_posix _ (gi_lin s H)) _ _ Hn). cbn [fst snd].
  wstep. change (str_eqb (abs_path (sepc s) pre) []) with false. cbv iota.
  apply wp_bind. unfold auto_mount_drive, auto_mount. wstep. rewrite (Ginv_win s H). wstep. cbv beta iota.
  assert (Hnm : names_of s p (pre ++ [n])) by (apply anp_cons_names_of; [exact Hg|destruct pre; discriminate|exact Hn|exact En]).
  assert (Hbn : host_basename (abs_path (sepc s) (pre ++ [n])) = n) by (rewrite Hsl in *; apply basename_abs; exact Hn).
  assert (Fin : forall s1, Ginv s1 -> within_limits s1 -> f_cfg s1 = f_cfg s -> devnull_name s1 = devnull_name s -> f_mounts s1 = f_mounts s -> parents s s1 pre -> ext s s1 ->
    wp (o <- new_file (host_basename (abs_path (sepc s) (pre ++ [n]))) (N.lor S_IFREG PERM_DEF_FILE) ;; add_object (abs_path (sepc s) pre) o ;;; ret o) s1 (fun r s' => Ginv s' /\ within_limits s' /\
    ((exists e s1, r = Err e /\ (unseen s s1 \/ exists pre, parents s s1 pre) /\ unseen s1 s') \/
     (exists s1 pre n d, r = Ok (f_next s1) /\ real_made s s1 s' p pre n d (N.lor S_IFREG PERM_DEF_FILE))))).
  { intros s1 H1 W1 Ec Edn Em P X. rewrite Hbn. unfold new_file. apply wp_bind, wp_alloc. cbv beta iota. apply wp_bind.
    eapply wp_conseq; [apply (wp_new_add s1 _ n _ (BFile None) H1 W1); [rewrite Ec; exact Hno|right; reflexivity|discriminate]|].
    intros r s3 [H3 [(Hun & _ & e & ->)|(-> & d & Hp & Hdm & OM & BN & Hmo & Hbo & Hsz & Hnl & Hna & Hpa & Hms)]]; cbv beta iota.
    { split; [exact H3|]. split.
      - intros k m t. rewrite (un_state _ _ Hun). cbn. apply W1.
      - left. exists e, s1. split; [reflexivity|]. split; [right; eauto|exact Hun]. }
    wstep. split; [exact H3|]. split; [intros k m t; rewrite Hms; apply W1|]. right. exists s1, pre, n, d. split; [reflexivity|].
    constructor; try assumption.
    - rewrite <- Hsl. exact Hn.
    - destruct Hp as [[K _]|K]; [discriminate|exact K].
    - rewrite Ec, Edn. intros K. apply (exists_true_null s _ K); [discriminate|exact Ee]. }
  wstep. destruct (exists_ s (abs_path (sepc s) pre) false) as [pe|e]; [|apply Hself]. apply wp_bind.
  destruct pe; cbn [negb].
  - wstep. cbv beta iota. rewrite (original_path_cs s _ (Ginv_cs s H)).
    apply (Fin s H W eq_refl eq_refl eq_refl); [left; reflexivity|constructor; auto].
  - apply wp_bind. eapply wp_conseq; [apply (wp_parents s pre H W Hsl Hpre)|]. cbv beta.
    intros r1 s1 (H1 & W1 & M1 & C1 & U1 & D1 & [(e & -> & K)|((o1 & ->) & P & X)]); cbv beta iota.
    + split; [exact H1|]. split; [exact W1|]. left. exists e, s1. split; [reflexivity|]. split; [left; exact K|apply unseen_refl].
    + wstep. cbv beta iota. apply (Fin s1 H1 W1 C1 D1 M1 P X).
Qed.

(** the file as add_real_file leaves it *)
Record real_file (s s1 s' : fs) (p : str) (pre : list str) (n : str) (d o : oid) (st : rstat) (data : str) (ro : bool) : Prop := {
  ra_inv1 : Ginv s1;
  ra_ext : ext s s1;
  ra_cfg : f_cfg s1 = f_cfg s;
  ra_names : names_of s p (pre ++ [n]);
  ra_par : parents s s1 pre;
  ra_dir : resolve s1 (abs_path (sepc s) pre) true = Ok d;
  ra_dirm : is_dirm s1 d = true;
  ra_new : o = f_next s1;
  ra_more : one_more s1 s' d n o;
  ra_next : f_next s' = S (f_next s1);
  ra_mode : o_mode (ob s' o) = if ro then N.land (r_mode st) 261924 else r_mode st;
  ra_body : o_body (ob s' o) = BFile (Some data);
  ra_size : o_size (ob s' o) = r_size st;
  ra_ids : o_uid (ob s' o) = r_uid st /\ o_gid (ob s' o) = r_gid st;
  ra_times : o_atime (ob s' o) = r_atime st /\ o_mtime (ob s' o) = r_mtime st /\ o_ctime (ob s' o) = r_ctime st;
  ra_nlink : o_nlink (ob s' o) = 1%Z;
  ra_dev : o_dev (ob s' o) = o_dev (ob s1 d);
  ra_still : still_there s s';
  ra_leads : is_link s' o = false -> ~ null_clash s1 d n -> resolve s' (abs_path (sepc s) (pre ++ [n])) false = Ok o
}.

Lemma wp_add_real_file s p st data ro : Ginv s -> within_limits s -> sepc s = slash ->
  wp (add_real_file p st data ro) s (fun r s' => Ginv s' /\ within_limits s' /\
    ((exists e s1, r = Err e /\ (unseen s s1 \/ exists pre, parents s s1 pre) /\ unseen s1 s') \/
     (exists s1 pre n d o, real_file s s1 s' p pre n d o st data ro /\
        ((r = os_err ENOSPC /\ no_space s1 d (r_size st) /\ f_mounts s' = f_mounts s) \/
         (r = Ok o /\ f_mounts s' = add_used (f_mounts s) (o_dev (ob s1 d)) (r_size st)))))).
Proof.
  intros H W Hsl. unfold add_real_file. apply wp_bind. eapply wp_conseq; [apply (wp_create_real s p H W Hsl)|]. cbv beta.
  intros r s2 (H2 & W2 & [(e & s1 & -> & K)|(s1 & pre & n & d & -> & M)]); cbv beta iota.
  { split; [exact H2|]. split; [exact W2|]. left. exists e, s1. auto. }
  destruct M as [H1 Hnm Hno P X Em Ec Hr Hdm OM BN Hmo Hbo Hnl Hna Hpa Hms Hnu]. set (o := f_next s1) in *.
  apply wp_bind. unfold mod_obj. wstep. cbv beta iota. set (s3 := mod_ob s2 o (from_real st data ro)).
  assert (Ob : ob s3 o = from_real st data ro (ob s2 o)) by (unfold s3; rewrite ob_mod_same; reflexivity).
  assert (G3 : gsame s2 s3).
  { apply gsame_mod; [|intros K; exfalso; revert K; unfold o, root_oid; pose proof (gi_next s1 H1); lia].
    unfold from_real. constructor; cbn; rewrite ?Hbo; auto; cbn; auto. }
  assert (H3 : Ginv s3) by (apply (gsame_Ginv s2 s3 G3 H2)).
  assert (Hd : d <> o).
  { intros ->. pose proof (om_isdir _ _ _ _ _ OM) as K. rewrite (gi_new s1 H1) in K by apply le_n. discriminate. }
  assert (RF : forall ms, real_file s s1 (set_mounts s3 ms) p pre n d o st data ro).
  { intros ms. assert (OM' : one_more s1 (set_mounts s3 ms) d n o).
    { destruct OM as [A1 A2 A3 A4 A5]. constructor; try assumption.
      - change (ob (set_mounts s3 ms) d) with (ob s3 d). unfold s3. rewrite ob_mod. destruct (Nat.eqb_spec d o); [contradiction|]. exact A3.
      - intros x Hx Hy. change (ob (set_mounts s3 ms) x) with (ob s3 x). unfold s3. rewrite ob_mod. destruct (Nat.eqb_spec x o); [contradiction|]. apply A4; assumption.
      - unfold s3, mod_ob. cbn. rewrite A5. reflexivity. }
    assert (Hm3 : Ginv (set_mounts s3 ms)).
    { apply (gsame_Ginv s3); [|exact H3]. constructor; auto. }
    constructor; try assumption; change (ob (set_mounts s3 ms) o) with (ob s3 o); rewrite ?Ob; try reflexivity.
    - cbn. destruct (bn_new _ _ _ _ BN) as [_ K]. exact K.
    - split; reflexivity.
    - repeat split; reflexivity.
    - cbn. exact Hnl.
    - cbn. apply (bn_dev _ _ _ _ BN).
    - apply (still_trans s s1); [apply ext_still; assumption|]. apply (one_more_still s1 _ d n o H1 Hm3); [|exact OM'].
      apply (one_more_new_ext s1 _ d n H1 OM').
    - intros Hlk Hnc. rewrite <- Ec. rewrite <- Ec in Hr. apply (lookup_new s1 _ d pre n o H1 Hm3 (one_more_new_ext s1 _ d n H1 OM') OM' Hd); try assumption.
      rewrite Ec, Hsl. exact Hno. }
  assert (Esz : st_size s3 o = r_size st) by (unfold st_size; rewrite (Ginv_win _ H3), Ob; reflexivity).
  assert (Edv : o_dev (ob s3 o) = o_dev (ob s1 d)) by (rewrite Ob; cbn; apply (bn_dev _ _ _ _ BN)).
  assert (Ems : f_mounts s3 = f_mounts s) by (change (f_mounts s3) with (f_mounts s2); congruence).
  wstep. rewrite Esz. wstep. rewrite Edv. apply wp_bind. unfold wp, change_disk_usage. rewrite Ems.
  assert (Eself : s3 = set_mounts s3 (f_mounts s3)) by reflexivity.
  destruct (mount_for_dev (f_mounts s) (o_dev (ob s1 d))) as [m|] eqn:Emd.
  - assert (Good : (forall t, m_total m = Some t -> (r_size st <= t - m_used m)%Z) ->
      Ginv (set_mounts s3 (add_used (f_mounts s) (o_dev (ob s1 d)) (r_size st))) /\
      within_limits (set_mounts s3 (add_used (f_mounts s) (o_dev (ob s1 d)) (r_size st))) /\
      exists s4 pre0 n0 d0 o0, real_file s s4 (set_mounts s3 (add_used (f_mounts s) (o_dev (ob s1 d)) (r_size st))) p pre0 n0 d0 o0 st data ro /\
        ((@Ok oid o = os_err ENOSPC /\ no_space s4 d0 (r_size st) /\ f_mounts (set_mounts s3 (add_used (f_mounts s) (o_dev (ob s1 d)) (r_size st))) = f_mounts s) \/
         (@Ok oid o = Ok o0 /\ f_mounts (set_mounts s3 (add_used (f_mounts s) (o_dev (ob s1 d)) (r_size st))) = add_used (f_mounts s) (o_dev (ob s4 d0)) (r_size st)))).
    { intros Hroom. split; [apply (gsame_Ginv s3); [constructor; auto|exact H3]|]. split.
      - intros k m' t Hin Ht. cbn in Hin. destruct (Limits.add_used_in _ _ _ _ _ Hin) as [K|(m0 & K1 & K2 & ->)]; [apply (W k m' t K Ht)|].
        assert (m0 = m) by congruence. subst m0. cbn in *. specialize (Hroom t Ht). lia.
      - exists s1, pre, n, d, o. split; [apply RF|]. right. split; reflexivity. }
    destruct (m_total m) as [t|] eqn:Et.
    + destruct (t - m_used m <? r_size st)%Z eqn:El; cbn [fst snd].
      * split; [exact H3|]. split; [intros k m' t' Hin; change (In (k, m') (f_mounts s3)) in Hin; rewrite Ems in Hin; apply (W k m' t' Hin)|]. right. exists s1, pre, n, d, o. split; [rewrite Eself; apply RF|]. left. split; [reflexivity|]. split; [|exact Ems].
        right. exists m, t. rewrite Em. split; [exact Emd|]. split; [exact Et|lia].
      * destruct Good as (K1 & K2 & K3); [intros t' [= <-]; lia|]. split; [exact K1|]. split; [exact K2|]. right. exact K3.
    + destruct Good as (K1 & K2 & K3); [discriminate|]. split; [exact K1|]. split; [exact K2|]. right. exact K3.
  - cbn [fst snd]. split; [exact H3|]. split; [intros k m' t' Hin; change (In (k, m') (f_mounts s3)) in Hin; rewrite Ems in Hin; apply (W k m' t' Hin)|]. right. exists s1, pre, n, d, o. split; [rewrite Eself; apply RF|]. right.
    split; [reflexivity|]. etransitivity; [exact Ems|]. symmetry. apply add_used_none, Emd.
Qed.
