(** * Invariants of every call, from the primitives.

    A relation between states that is kept by the few primitive updates
    ([fs_prims]) is kept by every call of the API ([gen_step]). *)
From Coq Require Import RelationClasses Morphisms.
From Verif Require Import Str PathModel FsModel FsSpec OpsModel IoModel SysModel Wp Frame IoFrame.

Definition env_only (s s' : fs) : Prop :=
  s' = set_now (set_gid (set_uid (set_umask (set_cwd s (f_cwd s')) (f_umask s')) (f_uid s')) (f_gid s')) (f_now s').
Definition owner_only (f : fobj -> fobj) : Prop := forall x, f x = wo_gid (wo_uid x (o_uid (f x))) (o_gid (f x)).

(** a new mount point is registered under a new device number *)
Definition register (s : fs) (p : str) (t : option Z) : fs :=
  set_mounts (set_dev s (S (f_dev s))) (f_mounts s ++ [(anp s p, mkmount (S (f_dev s)) t 0)]).
Lemma register_from (R : fs -> fs -> Prop) (HR : PreOrder R) (okt : option Z -> Prop) : okt None ->
  (forall p d t, okt t -> keeps R (modify (fun s => set_mounts s (f_mounts s ++ [(p, mkmount d t 0)])))) ->
  keeps R (modify (fun s => set_dev s (S (f_dev s)))) ->
  forall s p t, okt t \/ (t = None /\ c_win (f_cfg s) = true) -> assoc (anp s p) (f_mounts s) = None -> R s (register s p t).
Proof.
  intros H0 H1 H2 s p t Ht _. transitivity (set_dev s (S (f_dev s))); [exact (H2 s)|].
  refine (H1 (anp s p) (S (f_dev s)) t _ (set_dev s (S (f_dev s)))). destruct Ht as [Ht|[-> _]]; assumption.
Qed.

(** for [fp_dev]: any device number *)
Ltac any_dev := let s := fresh in let d := fresh in intros s; generalize (f_dev s); intros d; revert s;
  match goal with |- forall s, ?R s (snd (?m s)) => change (keeps R m) end.
(** [okt]: the sizes allowed for new mount points; [tr]: truncations, and [lg]: files created with a size but no contents, are covered *)
Record fs_core (R : fs -> fs -> Prop) (okt : option Z -> Prop) (tr lg : Prop) : Prop := {
  fp_new_file : forall n m, keeps R (new_file n m);
  fp_new_dir : forall n m, keeps R (new_dir n m);
  fp_add_entry : forall d o, keeps R (add_entry d o);
  fp_remove_entry : forall d n r, keeps R (remove_entry d n r);
  fp_set_size : tr -> forall o n, keeps R (set_size o n);
  fp_set_initial : forall o c, keeps R (set_initial_contents o c);
  fp_set_large : lg -> forall o n, keeps R (set_large_file_size o n);
  fp_name : forall o n, keeps R (mod_obj o (fun x => wo_name x n));
  fp_mode : forall o m, keeps R (mod_obj o (fun x => wo_mode x (N.lor S_IFDIR m)));
  fp_register : forall s p t, okt t \/ (t = None /\ c_win (f_cfg s) = true) -> assoc (anp s p) (f_mounts s) = None ->
    R s (register s p t);
  fp_inono : keeps R (modify (fun s => set_ino s (S (f_ino s))));
  fp_ino : forall i, keeps R (mod_obj root_oid (fun x => wo_ino x (Some i)));
  fp_dev : forall o s, R s (snd (mod_obj o (fun x => wo_dev x (Some (f_dev s))) s));
  fp_chmod : forall o c m t, keeps R (mod_obj o (fun x => wo_ctime (wo_mode x (chmod_mode c (o_mode x) m)) t));
  fp_times : forall o f, times_only f -> keeps R (mod_obj o f);
  fp_env : forall s s', env_only s s' -> R s s';
  fp_handles : forall s s', handles_only s s' -> R s s'
}.

(** ... and those only used by chown, setxattr and removexattr *)
Record fs_prims (R : fs -> fs -> Prop) (okt : option Z -> Prop) (tr lg : Prop) : Prop := {
  fp_core : fs_core R okt tr lg;
  fp_owner : forall o f, owner_only f -> keeps R (mod_obj o f);
  fp_setx : forall o k v, keeps R (mod_obj o (fun x => wo_xattr x (set_assoc k v (o_xattr x))));
  fp_delx : forall o k, keeps R (mod_obj o (fun x => wo_xattr x (del_assoc k (o_xattr x))))
}.
Section Gen.
Context {R : fs -> fs -> Prop} {HR : PreOrder R}.
Variable okt : option Z -> Prop.
Variable tr lg : Prop.
Hypothesis P : fs_core R okt tr lg.
Ltac gn_prim := first
  [apply (fp_new_file _ _ _ _ P)|apply (fp_new_dir _ _ _ _ P)|apply (fp_name _ _ _ _ P)|apply (fp_mode _ _ _ _ P)|apply (fp_inono _ _ _ _ P)
  |apply (fp_ino _ _ _ _ P)|apply (fp_chmod _ _ _ _ P)].
Ltac gn := kr; try gn_prim.
Lemma gn_add_object p o : keeps R (add_object p o).
Proof. unfold add_object. gn. apply (fp_add_entry _ _ _ _ P). Qed.
Lemma gn_remove_object p : keeps R (remove_object p).
Proof. unfold remove_object. gn. apply (fp_remove_entry _ _ _ _ P). Qed.
Lemma gn_create_dirs comps : forall cur new, keeps R (create_dirs cur new comps).
Proof. induction comps as [|c l IH]; intros cur new; cbn [create_dirs]; gn; try apply IH. apply (fp_add_entry _ _ _ _ P). Qed.
Lemma gn_set_modes m new : keeps R (set_modes (N.lor S_IFDIR m) new).
Proof. induction new as [|o l IH]; cbn [set_modes]; gn. apply IH. Qed.
Section Cd.
Variable cd : str -> N -> M oid.
Hypothesis Hcd : forall p m, keeps R (cd p m).
Lemma gn_mounted p (t : str) : keeps R (isroot <- gets (fun s => str_eqb p (o_name (ob s root_oid))) ;;
  rd <- (if isroot : bool then
           modify (fun s => set_ino s (S (f_ino s))) ;;;
           i <- gets f_ino ;;
           mod_obj root_oid (fun x => wo_ino x (Some i)) ;;; ret root_oid
         else cd p PERM_DEF) ;;
  dev2 <- gets f_dev ;;
  mod_obj rd (fun x => wo_dev x (Some dev2)) ;;;
  ret t).
Proof.
  apply kr_bind; [gn|]. intros b. apply kr_bind; [gn; apply Hcd|]. intros o s. unfold bind, gets, ret. cbn [snd].
  apply (fp_dev _ _ _ _ P o s).
Qed.
Lemma gn_add_mount_at p t s : okt t \/ (t = None /\ c_win (f_cfg s) = true) -> R s (snd (add_mount_point_ cd p t s)).
Proof.
  intros Ht. unfold add_mount_point_. unfold bind at 1. unfold gets at 1. unfold bind at 1. unfold gets at 1.
  destruct (assoc (anp s p) (f_mounts s)) as [m|] eqn:E; [reflexivity|].
  unfold bind at 1. unfold modify at 1. unfold bind at 1. unfold gets at 1. unfold bind at 1. unfold modify at 1.
  etransitivity; [exact (fp_register _ _ _ _ P s p t Ht E)|]. exact (gn_mounted (anp s p) (anp s p) (register s p t)).
Qed.
Lemma gn_add_mount_ p t : okt t -> keeps R (add_mount_point_ cd p t).
Proof. intros Ht s. apply gn_add_mount_at. left. exact Ht. Qed.
Lemma gn_mount_path_ p : keeps R (mount_point_for_path_ cd p).
Proof.
  unfold mount_point_for_path_. gn. intros s. unfold auto_mount_force, bind at 1, gets at 1.
  destruct (c_win (f_cfg s)) eqn:Ew; [|reflexivity]. destruct (nonempty _); [|reflexivity].
  match goal with |- R _ (snd (bind ?m _ _)) => pose proof (gn_add_mount_at (fst (splitdrive (f_cfg s) x)) None s (or_intror (conj eq_refl Ew))) as K end.
  unfold bind. destruct (add_mount_point_ cd _ None s) as [[q|e] s1]; exact K.
Qed.
Lemma gn_auto_mount p : keeps R (auto_mount cd p).
Proof. unfold auto_mount. gn. apply gn_mount_path_. Qed.
End Cd.
Lemma gn_create_dir_n n : forall p m, keeps R (create_dir_n n p m).
Proof.
  induction n as [|n IH]; intros p m; cbn [create_dir_n]; [gn|]. unfold create_dir_body. gn.
  - apply gn_auto_mount, IH.
  - apply gn_create_dirs.
  - apply gn_set_modes.
Qed.
Lemma gn_create_dir p m : keeps R (create_dir p m).
Proof. apply gn_create_dir_n. Qed.
Lemma gn_mount_path p : keeps R (mount_point_for_path p).
Proof. apply gn_mount_path_, gn_create_dir. Qed.
Lemma gn_add_mount p t : okt t -> keeps R (add_mount_point p t).
Proof. apply gn_add_mount_, gn_create_dir. Qed.
Lemma gn_get_usage p : keeps R (get_disk_usage p).
Proof. unfold get_disk_usage. gn. apply gn_mount_path. Qed.
Lemma gn_fill o c z : (z <> None -> lg) -> keeps R (fill_file o c z).
Proof. intros Hz. unfold fill_file. gn; first [apply (fp_set_large _ _ _ _ P), Hz; discriminate|apply (fp_set_initial _ _ _ _ P)]. Qed.
Lemma gn_create_int p m c z md um : (z <> None -> lg) -> keeps R (create_file_internally p m c z md um).
Proof.
  intros Hz.  unfold create_file_internally, auto_mount_drive. gn;
    first [apply gn_auto_mount, gn_create_dir|apply gn_create_dir|apply gn_add_object|apply gn_fill, Hz|apply gn_remove_object].
Qed.
Lemma gn_create_file p m c z md um : (z <> None -> lg) -> keeps R (create_file p m c z md um).
Proof. apply gn_create_int. Qed.
Lemma gn_create_symlink p t md : keeps R (create_symlink p t md).
Proof. unfold create_symlink. gn; first [apply gn_remove_object|apply gn_create_int; intros N; contradiction N; reflexivity]. Qed.
Lemma gn_create_link a b f md : keeps R (create_link a b f md).
Proof. unfold create_link. gn; first [apply gn_create_dir|apply gn_add_object]. Qed.
Lemma gn_makedir p m : keeps R (makedir p m).
Proof. unfold makedir. gn; first [apply gn_remove_object|apply gn_add_object]. Qed.
Lemma gn_makedirs p m e : keeps R (makedirs p m e).
Proof. unfold makedirs. gn; first [apply gn_remove_object|apply gn_create_dir]. Qed.
Lemma gn_mknod p m d : keeps R (mknod p m d).
Proof. unfold mknod. gn. apply gn_add_object. Qed.
Lemma gn_broken p : keeps R (handle_broken_link p).
Proof. unfold handle_broken_link. gn. Qed.
Lemma gn_remove p : keeps R (remove p).
Proof. unfold remove. gn; first [apply gn_broken|apply gn_remove_object]. Qed.
Lemma gn_rmdir p a : keeps R (rmdir p a).
Proof. unfold rmdir. gn. apply gn_remove_object. Qed.
Lemma gn_removedirs_loop n : forall h t, keeps R (removedirs_loop n h t).
Proof. induction n as [|n IH]; intros h t; cbn [removedirs_loop]; gn; first [apply gn_rmdir|apply IH]. Qed.
Lemma gn_removedirs p : keeps R (removedirs p).
Proof. unfold removedirs. gn; first [apply gn_rmdir|apply gn_removedirs_loop]. Qed.
Lemma gn_rename a b f : keeps R (rename a b f).
Proof.
  unfold rename, posix_dir_link_errors, rename_to_existing, rename_error_for_dir_or_link, rename_same_object, rename_move. gn;
    first [apply gn_broken|apply gn_remove_object|apply (fp_remove_entry _ _ _ _ P)|apply (fp_add_entry _ _ _ _ P)].
Qed.
Lemma gn_chmod a m f : keeps R (chmod a m f).
Proof. unfold chmod. gn. Qed.
Lemma gn_lchmod a m : keeps R (lchmod a m).
Proof. unfold lchmod. gn. apply gn_chmod. Qed.
Lemma gn_utime a t n f : keeps R (utime a t n f).
Proof. unfold utime. destruct t, n; gn; apply (fp_times _ _ _ _ P); let y := fresh in intros y; destruct y; reflexivity. Qed.
Lemma gn_chown (PA : fs_prims R okt tr lg) a u g f : keeps R (chown a u g f).
Proof. unfold chown. gn. apply (fp_owner _ _ _ _ PA). let y := fresh in intros y; destruct (Z.eqb u (-1)), (Z.eqb g (-1)); destruct y; reflexivity. Qed.
Lemma gn_setxattr (PA : fs_prims R okt tr lg) a k v fl f : keeps R (setxattr a k v fl f).
Proof. unfold setxattr. gn. apply (fp_setx _ _ _ _ PA). Qed.
Lemma gn_removexattr (PA : fs_prims R okt tr lg) a k f : keeps R (removexattr a k f).
Proof. unfold removexattr. gn. apply (fp_delx _ _ _ _ PA). Qed.
Lemma gn_truncate a n : tr -> keeps R (os_truncate a n).
Proof. intros Ht. unfold os_truncate. gn. apply (fp_set_size _ _ _ _ P Ht). Qed.
Lemma gn_ftruncate a n : tr -> keeps R (os_ftruncate a n).
Proof. intros Ht. unfold os_ftruncate. gn. apply (fp_set_size _ _ _ _ P Ht). Qed.
Lemma gn_set_contents o c : keeps R (set_contents o c).
Proof. unfold set_contents. gn. apply (fp_set_initial _ _ _ _ P). Qed.
Lemma gn_fs_set_contents p c : keeps R (fs_set_contents p c).
Proof. unfold fs_set_contents. gn. apply gn_set_contents. Qed.

Lemma gn_outm {A} (f : A -> out) m : keeps R m -> keeps R (outm f m).
Proof. intros H. unfold outm. gn. exact H. Qed.
Lemma gn_env f : (forall s, env_only s (f s)) -> keeps R (modify f).
Proof. intros H s. apply (fp_env _ _ _ _ P), H. Qed.
Definition trunc_call (o : op) : bool := match o with Truncate _ _ | Ftruncate _ _ | HTruncate _ _ => true | _ => false end.
Lemma gen_io o : (trunc_call o = true -> tr) -> io_call o = true -> keeps R (step o).
Proof.
  intros Ht. destruct (trunc_call o) eqn:E.
  - apply ir_step.
    + apply (fp_handles _ _ _ _ P).
    + apply (fp_times _ _ _ _ P).
    + apply (fp_set_size _ _ _ _ P (Ht eq_refl)).
    + apply gn_set_contents.
    + apply gn_remove_object.
    + intros. apply gn_create_int. intros N; contradiction N; reflexivity.
    + apply gn_chmod.
  - intros Hio. apply ir_step_notrunc; auto.
    + apply (fp_handles _ _ _ _ P).
    + apply (fp_times _ _ _ _ P).
    + apply gn_set_contents.
    + apply gn_remove_object.
    + intros. apply gn_create_int. intros N; contradiction N; reflexivity.
    + apply gn_chmod.
    + intros w n ->. discriminate E.
Qed.
Definition large_call (o : op) : bool := match o with CreateFile _ _ _ (Some _) _ _ => true | _ => false end.
Definition attr_call (o : op) : bool :=
  match o with Chown _ _ _ _ | SetXattr _ _ _ _ _ | RemoveXattr _ _ _ => true | _ => false end.
Theorem gen_core_step o : (trunc_call o = true -> tr) -> (large_call o = true -> lg) -> (forall p t, o = AddMount p t -> okt t) -> (forall t p, o <> SetDiskUsage t p) -> attr_call o = false -> keeps R (step o).
Proof.
  intros Ht Hlg Hm Hd Ha. destruct (io_call o) eqn:Eio; [apply gen_io; assumption|]. destruct o; try discriminate Eio; try discriminate Ha; cbn [step]; apply gn_outm.
  - apply gn_create_file. intros Hz. apply Hlg. destruct sz; [reflexivity|contradiction Hz; reflexivity].
  - apply gn_create_dir.
  - apply gn_create_symlink.
  - apply gn_create_link.
  - unfold os_symlink. gn. apply gn_create_symlink.
  - unfold os_link. gn. apply gn_create_link.
  - apply gn_makedir.
  - apply gn_makedirs.
  - apply gn_mknod.
  - apply gn_remove.
  - apply gn_rmdir.
  - apply gn_removedirs.
  - apply gn_remove_object.
  - apply gn_rename.
  - apply gn_chmod.
  - apply gn_lchmod.
  - apply gn_utime.
  - unfold umask. gn. apply gn_env. intros s; destruct s; reflexivity.
  - unfold chdir. gn. apply gn_env. intros s; destruct s; reflexivity.
  - apply gn_truncate, Ht, eq_refl.
  - apply gn_ftruncate, Ht, eq_refl.
  - apply gn_add_mount, (Hm p total eq_refl).
  - exfalso. eapply Hd. reflexivity.
  - apply gn_get_usage.
  - apply gn_fs_set_contents.
  - apply gn_env. intros s; destruct s; reflexivity.
  - apply gn_env. intros s; destruct s; reflexivity.
  - apply gn_env. intros s; destruct s; reflexivity.
Qed.
Theorem gen_step (PA : fs_prims R okt tr lg) o : (trunc_call o = true -> tr) -> (large_call o = true -> lg) -> (forall p t, o = AddMount p t -> okt t) -> (forall t p, o <> SetDiskUsage t p) -> keeps R (step o).
Proof.
  intros Ht Hlg Hm Hd. destruct (attr_call o) eqn:Ha; [|apply gen_core_step; assumption].
  destruct o; try discriminate Ha; cbn [step]; apply gn_outm; [apply gn_chown, PA|apply gn_setxattr, PA|apply gn_removexattr, PA].
Qed.
Lemma gen_set_usage : (forall k m, keeps R (modify (fun s => set_mounts s (set_assoc k m (f_mounts s))))) ->
  forall t p, keeps R (set_disk_usage t p).
Proof. intros H t p. unfold set_disk_usage. gn; [apply gn_mount_path|apply H]. Qed.
End Gen.

(** an invariant kept by all primitives holds in every reachable state *)
Definition kept_by (I : fs -> Prop) (s s' : fs) : Prop := I s -> I s'.
Global Instance kept_pre I : PreOrder (kept_by I).
Proof. split; [intros s H; exact H|]. intros a b c H K L. exact (K (H L)). Qed.
Lemma gen_reachable (I : fs -> Prop) : fs_prims (kept_by I) (fun _ => True) True True ->
  (forall k m, keeps (kept_by I) (modify (fun s => set_mounts s (set_assoc k m (f_mounts s))))) ->
  forall c, (forall total um uid gid now, I (init c total um uid gid now)) -> forall s, reachable c s -> I s.
Proof.
  intros P H c H0 s (total & um & uid & gid & now & ops & ->). generalize (H0 total um uid gid now). generalize (init c total um uid gid now).
  induction ops as [|o ops IH]; intros s Hs; [exact Hs|]. cbn [run]. apply IH.
  assert (K : keeps (kept_by I) (step o)); [|exact (K s Hs)].
  destruct o; try (apply (gen_step _ _ _ (fp_core _ _ _ _ P) P); [intros; exact Logic.I|intros; exact Logic.I|intros; exact Logic.I|discriminate]).
  cbn [step]. apply gn_outm. apply (gen_set_usage _ _ _ (fp_core _ _ _ _ P) H).
Qed.
