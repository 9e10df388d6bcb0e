(** * Property C53, continued: calls that raise change nothing *)
From Verif Require Import PropIo PropIo2 PropFd PropTree PropOps PropHist OpenThm IoSess FdThm ResThm OpsThm6 Frame.
From Verif Require Import OpsThm SysModel.

(** calls on one object, the umask and the current directory *)
Definition attribute_call (o : op) : bool :=
  match o with
  | Chmod _ _ _ | LChmod _ _ | Utime _ _ _ _ | Chown _ _ _ _ | Umask _ | Chdir _ | SetXattr _ _ _ _ _ | RemoveXattr _ _ _
  | Truncate _ _ | Ftruncate _ _ => true
  | _ => false
  end.
Definition strict {A} (m : M A) : Prop := forall s e s', m s = (Err e, s') -> s' = s.
Lemma st_gets {A B} (f : fs -> A) (k : A -> M B) : (forall x, strict (k x)) -> strict (x <- gets f ;; k x).
Proof. intros H s e s'. unfold bind, gets. apply H. Qed.
Lemma st_lift {A B} (f : fs -> res A) (k : A -> M B) : (forall x, strict (k x)) -> strict (x <- lift f ;; k x).
Proof. intros H s e s' E. unfold bind, lift in E. destruct (f s) as [a|e']; [apply (H a _ _ _ E)|injection E as _ <-; reflexivity]. Qed.
Lemma st_modify f : strict (modify f).
Proof. intros s e s' E. discriminate E. Qed.
Lemma st_mod o f : strict (mod_obj o f).
Proof. intros s e s' E. discriminate E. Qed.
Lemma st_ret {A} (x : A) : strict (ret x).
Proof. intros s e s' E. discriminate E. Qed.
Lemma st_raise {A} (x : exn) : strict (@raise A x).
Proof. intros s e s' E. injection E as _ <-. reflexivity. Qed.
Lemma st_raise_os {A} (x : errno) : strict (@raise_os A x).
Proof. apply st_raise. Qed.
Lemma st_change {A} z d (k : M A) : (forall s, exists a s', k s = (Ok a, s')) -> strict (change_disk_usage z d ;;; k).
Proof.
  intros Hk s e s' E. unfold bind, change_disk_usage in E.
  destruct (mount_for_dev _ _) as [m|]; [destruct (m_total m) as [t|]; [destruct (_ <? _)%Z; [injection E as _ <-; reflexivity|]|]|];
    (match type of E with k ?x = _ => destruct (Hk x) as (a & s1 & K); rewrite K in E; discriminate end).
Qed.
Ltac st := repeat
  lazymatch goal with
  | |- strict (bind (gets _) _) => apply st_gets; intros
  | |- strict (bind (lift _) _) => apply st_lift; intros
  | |- strict (mod_obj _ _) => apply st_mod
  | |- strict (modify _) => apply st_modify
  | |- strict (ret _) => apply st_ret
  | |- strict (raise_os _) => apply st_raise_os
  | |- strict (raise _) => apply st_raise
  | |- strict (if ?b then _ else _) => destruct b
  | |- strict (match ?x with _ => _ end) => destruct x
  | |- strict (let _ := _ in _) => cbv zeta
  end.
Lemma st_set_size o n : strict (set_size o n).
Proof. unfold set_size. st. apply st_change. intros s. unfold mod_obj, modify. eauto. Qed.
Lemma st_out {A} (f : A -> out) (m : M A) : strict m -> strict (outm f m).
Proof. intros H s e s'. unfold outm, bind, ret. destruct (m s) as [[a|e1] s1] eqn:E; intros K; [discriminate|]. injection K as -> <-. apply (H _ _ _ E). Qed.
Lemma st_chmod a m f : strict (chmod a m f).
Proof. unfold chmod. st. Qed.
Theorem C53_failed_attribute_calls : forall s o e s', attribute_call o = true -> step o s = (Err e, s') -> s' = s.
Proof.
  intros s o e s' Ho. revert s e s'. change (strict (step o)). destruct o; try discriminate Ho; cbn [step]; apply st_out.
  - apply st_chmod.
  - unfold lchmod. st. apply st_chmod.
  - unfold utime. st.
  - unfold chown. st.
  - unfold umask. st. intros s e s' E. discriminate E.
  - intros s e s' E. apply (C53_failed_chdir s a e s' E).
  - unfold setxattr. st.
  - unfold removexattr. st.
  - unfold os_truncate. st. apply st_set_size.
  - unfold os_ftruncate. st. apply st_set_size.
Qed.
Print Assumptions C53_failed_attribute_calls.

Theorem C53_failed_link : forall c s, linux_like c -> reachable c s -> forall old new e s',
  os_link old new s = (Err e, s') -> resolve s old true <> Ok devnull_oid ->
  s' = s \/ exists o n, resolve s old true = Ok o /\ is_dirobj s o = false /\ s' = mod_ob s o (fun x => wo_name x n).
Proof.
  intros c s Hl Hr old new e s' E Hn. destruct (reachable_GP c s Hl Hr) as [H _]. unfold os_link, bind in E.
  destruct (create_link old new true false s) as [r s1] eqn:E1. destruct r as [o|e1]; [discriminate|]. injection E as -> <-.
  destruct (wp_elim _ _ _ _ _ (wp_create_link s old new true H) E1) as [(e2 & _ & [K|(o & n & K1 & K2 & [K3|K3])])|(o & K & _)]; [left; exact K| |subst o; contradiction|discriminate].
  right. exists o, n. auto.
Qed.
Print Assumptions C53_failed_link.

(** finding 85: the failed call leaves the file with the name of the link *)
Definition c53_link_ops : list op := [CreateFile (L "/f") 33188 (Some (L "hi")) None true true; Mkdir (L "/d") 365; SetUid 1].
Definition c53_link_state : fs := run (init posix_cfg None 18 0 0 0) c53_link_ops.
Theorem C53_link_name_refuted : exists s, reachable posix_cfg s /\ exists o, resolve s (L "/f") true = Ok o /\
  fst (os_link (L "/f") (L "/d/g") s) = os_err EACCES /\ o_name (ob s o) = L "f" /\ o_name (ob (snd (os_link (L "/f") (L "/d/g") s)) o) = L "g".
Proof.
  exists c53_link_state. split; [exists None, 18%N, 0%Z, 0%Z, 0%Z, c53_link_ops; reflexivity|]. exists 2.
  split; [vm_compute; reflexivity|]. split; [vm_compute; reflexivity|]. split; vm_compute; reflexivity.
Qed.

(** opening an existing file *)
Theorem C53_failed_open : forall c s hs p m b cf o e s',
  linux_like c -> c_sep c = slash -> session natural_fds c s hs -> unlimited s -> not_devnull s p -> In m binary_modes ->
  exists_ s p false = Ok true -> resolve s p false = Ok o -> is_dirm s o = is_dirobj s o ->
  step (Open (PStr p) m b cf) s = (Err e, s') -> s' = s.
Proof.
  intros c s hs p m b cf o e s' Hl Hs HS HU Hn Hm E Er Hd H. destruct (binary_mode_spec m Hm) as (om & M1 & M2 & M3 & M4 & M5 & M6 & M7 & M8).
  destruct (session_Ginv _ _ _ _ Hl HS) as [HG Hc].
  assert (HF : Finv s) by (apply (si_f _ hs), (session_Sinv natural_fds c); auto).
  rewrite (open_eq _ _ _ _ _ _ M1 M2 (proj1 Hn)) in H. rewrite E in H. destruct (resolve_path s p) as [rp|e1] eqn:Erp; [|injection H as _ <-; reflexivity].
  rewrite (proj2 (get_norm_resolve _ _ _ _ _ HG Erp) Er) in H. rewrite outm_eq in H. destruct (is_dirobj s o) eqn:Ed.
  - destruct (wp_open_dir s p rp om b false false o Hd Ed) as (K1 & e2 & K2 & _). rewrite K1, K2 in H. injection H as _ <-. reflexivity.
  - assert (No : o <> devnull_oid). { intros ->. apply (proj2 Hn). exact Er. }
    pose proof (wp_open_found s p rp om b false false o HF Hd Ed No) as K. unfold wp in K. injection H as H1 <-.
    destruct (om_must_not_exist om); [apply K|]. destruct K as [(_ & K & _)|[(_ & K & _)|(w & K & _)]]; [exact K| |rewrite K in H1; discriminate].
    exfalso. apply K. apply (unlimited_roomy s); [exact HU|apply totals_refl].
Qed.
Print Assumptions C53_failed_open.

(** ** The hypotheses are met *)
Example C53_case2 :
  fst (step (Chmod (PStr (L "/x")) 0 true) io_state) = os_err ENOENT /\ fst (step (Truncate (PStr (L "/f")) (-1)) io_state) = os_err ENOSPC /\
  fst (step (SetXattr (PStr (L "/f")) (L "k") (L "v") 2 true) io_state) = os_err EEXIST /\
  fst (os_link (L "/f") (L "/l") io_state) = os_err EEXIST /\
  fst (step (Open (PStr (L "/f")) (L "xb") 0 true) io_state) = os_err EEXIST /\ In (L "xb") binary_modes /\
  exists_ io_state (L "/f") false = Ok true /\ resolve io_state (L "/f") false = Ok 2 /\ is_dirm io_state 2 = is_dirobj io_state 2.
Proof.
  do 5 (split; [vm_compute; reflexivity|]). split; [repeat (first [left; reflexivity|right])|]. split; [vm_compute; reflexivity|]. split; vm_compute; reflexivity.
Qed.

(** * Property C72: os.mknod *)
Definition only_file (s s' : fs) (d : oid) (n : str) (mode : N) : Prop :=
  exists o, one_more s s' d n o /\ brand_new s s' d o /\ o_mode (ob s' o) = N.ldiff mode (f_umask s) /\
    ss_size (stat_of s' o) = 0%Z /\ ss_nlink (stat_of s' o) = 1%Z /\ f_mounts s' = f_mounts s /\
    (forall x m, ~ (x = d /\ m = n) -> entry s' x m = entry s x m) /\ still_there s s'.
Lemma mknod_spec s p mode dev : Ginv s -> within_limits s ->
  wp (mknod p mode dev) s (fun r s' =>
    (unseen s s' /\ f_mounts s' = f_mounts s /\ exists e, r = Err e) \/
    (r = Ok tt /\ dev = 0%Z /\ (has_bit mode S_IFREG = true \/ is_root s = true) /\ exists_ s p true = Ok false /\
     exists d, (fst (splitpath (f_cfg s) p) = [] /\ d = root_oid \/ resolve s (fst (splitpath (f_cfg s) p)) true = Ok d) /\
       only_file s s' d (snd (splitpath (f_cfg s) p)) mode)).
Proof.
  intros H W.
  assert (Hself : forall e : exn, unseen s s /\ f_mounts s = f_mounts s /\ exists e0, @Err unit e = Err e0).
  { intros e. split; [apply unseen_refl|]. split; [reflexivity|eauto]. }
  unfold mknod. wstep. rewrite (Ginv_win s H). wstep.
  destruct (negb (Z.eqb dev 0) || _) eqn:E0; [wstep; left; apply Hself|]. cbv zeta. destruct (str_eqb (snd _) []) eqn:E1.
  { wstep. destruct (exists_ s _ true) as [[|]|e]; try (wstep; left; apply Hself). left; apply Hself. }
  destruct (str_eqb (snd _) dot || _) eqn:E2; [wstep; left; apply Hself|].
  wstep. destruct (exists_ s p true) as [[|]|e] eqn:Ee; [wstep; left; apply Hself| |left; apply Hself].
  wstep. unfold new_file. apply wp_bind, wp_alloc. cbv beta iota.
  assert (Hno : ordinary (sepc s) (snd (splitpath (f_cfg s) p))).
  { apply orb_false_iff in E2. destruct E2 as [E2 E3]. split; [|split; [|split]].
    - intros K. rewrite K in E1. discriminate.
    - intros K. rewrite K in E2. rewrite str_eqb_refl in E2. discriminate.
    - intros K. rewrite K in E3. rewrite str_eqb_refl in E3. discriminate.
    - apply (split_all _ (linux_like_abs _ (gi_lin s H))). }
  eapply wp_conseq; [apply (wp_new_add s _ _ _ (BFile None) H W Hno); [right; reflexivity|discriminate]|].
  intros r s3 [H3 [(Hun & -> & e & ->)|(-> & d & Hp & Hdm & OM & BN & Hmo & Hbo & Hsz & Hnl & Hna & Hpa & Hms)]]; cbv beta iota.
  { left. split; [exact Hun|]. split; [reflexivity|eauto]. }
  right. split; [reflexivity|]. apply orb_false_iff in E0. destruct E0 as [E0 E3].
  split; [destruct (Z.eqb_spec dev 0); [assumption|discriminate]|].
  split; [destruct (has_bit mode S_IFREG); [left; reflexivity|right; destruct (is_root s); [reflexivity|discriminate E3]]|].
  split; [reflexivity|]. exists d. split; [exact Hp|]. exists (f_next s). split; [exact OM|]. split; [exact BN|]. split; [exact Hmo|].
  split; [cbn [stat_of ss_size]; unfold st_size; rewrite (Ginv_win _ H3); exact Hsz|]. split; [exact Hnl|]. split; [exact Hms|]. split.
  - apply (one_more_entry s s3 d _ (f_next s) H OM). unfold ents. rewrite Hbo.
    pose proof (gi_new s H (f_next s) (le_n _)) as K. unfold is_dirobj in K. destruct (o_body (ob s (f_next s))); [discriminate|reflexivity].
  - apply (one_more_still s s3 d (snd (splitpath (f_cfg s) p)) (f_next s) H H3); [|exact OM]. apply (one_more_new_ext s s3 d _ H OM).
Qed.
Theorem C53_failed_mknod : forall c s, linux_like c -> reachable c s -> within_limits s -> forall p mode dev e s',
  mknod p mode dev s = (Err e, s') -> unseen s s' /\ f_mounts s' = f_mounts s.
Proof.
  intros c s Hl Hr HL p mode dev e s' E. destruct (reachable_GP c s Hl Hr) as [H _].
  destruct (wp_elim _ _ _ _ _ (mknod_spec s p mode dev H HL) E) as [(K1 & K2 & _)|(K & _)]; [auto|discriminate].
Qed.
Print Assumptions C53_failed_mknod.
Theorem C72_mknod_partial : forall c s, linux_like c -> reachable c s -> within_limits s -> forall pre n mode dev r s',
  Forall (ordinary (sepc s)) (pre ++ [n]) -> mknod (abs_path (sepc s) (pre ++ [n])) mode dev s = (r, s') ->
  (unseen s s' /\ f_mounts s' = f_mounts s /\ exists e, r = Err e) \/
  (r = Ok tt /\ dev = 0%Z /\ (has_bit mode S_IFREG = true \/ is_root s = true) /\
   exists_ s (abs_path (sepc s) (pre ++ [n])) true = Ok false /\
   exists d, resolve s (abs_path (sepc s) pre) true = Ok d /\ only_file s s' d n mode).
Proof.
  intros c s Hl Hr HL pre n mode dev r s' Hn E. destruct (reachable_GP c s Hl Hr) as [H _].
  pose proof (wp_elim _ _ _ _ _ (mknod_spec s _ mode dev H HL) E) as K. cbv beta in K.
  destruct K as [K|(-> & K1 & K2 & K3 & d & K4 & K5)]; [left; exact K|right].
  assert (Sp : splitpath (f_cfg s) (abs_path (sepc s) (pre ++ [n])) = (abs_path (sepc s) pre, n)) by (apply (splitpath_abs_path (f_cfg s) (linux_like_posix _ (gi_lin s H))); exact Hn).
  rewrite Sp in K4, K5. cbn [fst snd] in K4, K5. do 4 (split; [first [reflexivity|assumption]|]). exists d. split; [|exact K5].
  destruct K4 as [[K4 _]|K4]; [destruct pre; discriminate|exact K4].
Qed.
Print Assumptions C72_mknod_partial.
(** a name without a directory is made in the root directory, whatever the
    current directory *)
Definition c72_ops : list op := [Mkdir (L "/d") 511; Chdir (PStr (L "/d"))].
Definition c72_state : fs := run (init posix_cfg None 18 0 0 0) c72_ops.
Theorem C72_relative_refuted : exists s, reachable posix_cfg s /\ f_cwd s = L "/d" /\ fst (mknod (L "n") 33188 0 s) = Ok tt /\
  listdir (snd (mknod (L "n") 33188 0 s)) (PStr (L "/d")) = Ok [] /\ listdir (snd (mknod (L "n") 33188 0 s)) (PStr (L "/")) = Ok [L "d"; L "n"].
Proof.
  exists c72_state. split; [exists None, 18%N, 0%Z, 0%Z, 0%Z, c72_ops; reflexivity|]. split; [vm_compute; reflexivity|].
  split; [vm_compute; reflexivity|]. split; vm_compute; reflexivity.
Qed.
(** the new file is empty, but it cannot be read *)
Theorem C72_read_refuted : exists s w s1, reachable posix_cfg s /\ fst (step (Open (PStr (L "/n")) (L "rb") 0 true) s) = Ok (RHandle w) /\
  s1 = snd (step (Open (PStr (L "/n")) (L "rb") 0 true) s) /\ fst (step (HRead w (-1)) s1) = Err LargeFile /\
  s = run (init posix_cfg None 18 0 0 0) [Mknod (L "/n") 33188 0].
Proof.
  exists (run (init posix_cfg None 18 0 0 0) [Mknod (L "/n") 33188 0]), 3. eexists.
  split; [exists None, 18%N, 0%Z, 0%Z, 0%Z, [Mknod (L "/n") 33188 0]; reflexivity|]. split; [vm_compute; reflexivity|]. split; [reflexivity|]. split; vm_compute; reflexivity.
Qed.
Example C72_case : fst (mknod (L "/d/e/n") 33188 0 tree_state) = Ok tt /\ within_limits tree_state /\
  listdir (snd (mknod (L "/d/e/n") 33188 0 tree_state)) (PStr (L "/d/e")) = Ok [L "n"] /\
  fst (mknod (L "/d/f") 33188 0 tree_state) = os_err EEXIST /\ fst (mknod (L "/d/n") 33188 1 tree_state) = os_err EPERM.
Proof. split; [vm_compute; reflexivity|]. split; [exact tree_state_limits|]. split; [vm_compute; reflexivity|]. split; vm_compute; reflexivity. Qed.
