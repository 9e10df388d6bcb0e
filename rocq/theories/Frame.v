(** * What an operation leaves alone: a generic rule set for relations between
    the states before and after, and the parts of the state that filesystem
    operations never touch. *)
From Verif Require Export GraphIo.
From Coq Require Export Classes.RelationClasses.

Section Rules.
Context {R : fs -> fs -> Prop} {HR : PreOrder R}.
Lemma kr_ret {A} (a : A) : keeps R (ret a). Proof. intros s; apply reflexivity. Qed.
Lemma kr_raise {A} e : keeps R (@raise A e). Proof. intros s; apply reflexivity. Qed.
Lemma kr_raise_os {A} e : keeps R (@raise_os A e). Proof. intros s; apply reflexivity. Qed.
Lemma kr_gets {A} (f : fs -> A) : keeps R (gets f). Proof. intros s; apply reflexivity. Qed.
Lemma kr_lift {A} (f : fs -> res A) : keeps R (lift f). Proof. intros s; apply reflexivity. Qed.
Lemma kr_bind {A B} (m : M A) (k : A -> M B) : keeps R m -> (forall a, keeps R (k a)) -> keeps R (bind m k).
Proof.
  intros Hm Hk s. specialize (Hm s). unfold bind. destruct (m s) as [[a|e] s1]; cbn [snd] in *; [|exact Hm].
  etransitivity; [exact Hm|apply Hk].
Qed.
Lemma kr_catch {A} (m : M A) h : keeps R m -> (forall e, keeps R (h e)) -> keeps R (catch m h).
Proof.
  intros Hm Hk s. specialize (Hm s). unfold catch. destruct (m s) as [[a|e] s1]; cbn [snd] in *; [exact Hm|].
  etransitivity; [exact Hm|apply Hk].
Qed.
Lemma kr_when b m : keeps R m -> keeps R (when b m).
Proof. intros H. destruct b; [exact H|apply kr_ret]. Qed.
Lemma kr_pure {A} (m : M A) : pure m -> keeps R m.
Proof. intros H s. rewrite (H s). apply reflexivity. Qed.
End Rules.

Ltac kr1 :=
  lazymatch goal with
  | |- keeps _ (ret _) => apply kr_ret
  | |- keeps _ (raise _) => apply kr_raise
  | |- keeps _ (raise_os _) => apply kr_raise_os
  | |- keeps _ (gets _) => apply kr_gets
  | |- keeps _ (lift _) => apply kr_lift
  | |- keeps _ (bind _ _) => apply kr_bind; [|let x := fresh "x" in intros x; cbv beta]
  | |- keeps _ (catch _ _) => apply kr_catch; [|let e := fresh "e" in intros e; cbv beta]
  | |- keeps _ (when _ _) => apply kr_when
  | |- keeps _ (if ?b then _ else _) => destruct b
  | |- keeps _ (match ?x with _ => _ end) => destruct x
  end.
Ltac kr := repeat (kr1; cbv zeta).

(** Only objects, mount points and the counters changed. *)
Definition only_objects (s s' : fs) : Prop :=
  s' = set_dev (set_mounts (set_ino (set_next (set_heap s (f_heap s')) (f_next s')) (f_ino s')) (f_mounts s')) (f_dev s').
Global Instance only_objects_pre : PreOrder only_objects.
Proof.
  split.
  - intros s. destruct s; reflexivity.
  - intros a b c H K. unfold only_objects in *. rewrite K, H. reflexivity.
Qed.

Lemma oo_mod_obj o f : keeps only_objects (mod_obj o f).
Proof. intros s. destruct s; reflexivity. Qed.
Lemma oo_alloc n m b : keeps only_objects (alloc n m b).
Proof. intros s. destruct s; reflexivity. Qed.
Lemma oo_cdu z d : keeps only_objects (change_disk_usage z d).
Proof.
  intros s. unfold change_disk_usage. destruct (mount_for_dev _ _) as [m|]; [|apply reflexivity].
  destruct (m_total m); [destruct (_ <? _)%Z|]; cbn [snd]; destruct s; reflexivity.
Qed.
Lemma oo_modify f : (forall s, only_objects s (f s)) -> keeps only_objects (modify f).
Proof. intros H s. apply H. Qed.
Ltac oo_prim := first [apply oo_mod_obj|apply oo_alloc|apply oo_cdu|apply oo_modify; intros s; destruct s; reflexivity].
Ltac oo := kr; try oo_prim.

Lemma oo_set_size o n : keeps only_objects (set_size o n).
Proof. unfold set_size. oo. Qed.
Lemma oo_set_initial o c : keeps only_objects (set_initial_contents o c).
Proof. unfold set_initial_contents. oo. apply oo_set_size. Qed.
Lemma oo_set_large o n : keeps only_objects (set_large_file_size o n).
Proof. unfold set_large_file_size. oo. apply oo_set_size. Qed.
Lemma oo_link d o : keeps only_objects (link_obj d o).
Proof. unfold link_obj. oo. Qed.
Lemma oo_add_entry d o : keeps only_objects (add_entry d o).
Proof. unfold add_entry. oo. apply oo_link. Qed.
Lemma oo_rm_loop rm : (forall n, keeps only_objects (rm n)) -> forall k e, keeps only_objects (rm_loop rm k e).
Proof. intros H. induction k as [|k IH]; intros e; cbn [rm_loop]; oo; [apply H|apply IH]. Qed.
Lemma oo_unlink d e n : keeps only_objects (unlink_obj d e n).
Proof. unfold unlink_obj. oo. Qed.
Lemma oo_remove_entry_n fuel : forall d n r, keeps only_objects (remove_entry_n fuel d n r).
Proof. induction fuel as [|f IH]; intros d n r; cbn [remove_entry_n]; oo; try apply oo_unlink. apply oo_rm_loop. intros m; apply IH. Qed.
Lemma oo_remove_entry d n r : keeps only_objects (remove_entry d n r).
Proof. intros s. apply (oo_remove_entry_n (S (f_next s)) d n r s). Qed.
Lemma oo_add_object p o : keeps only_objects (add_object p o).
Proof. unfold add_object. oo. apply oo_add_entry. Qed.
Lemma oo_remove_object p : keeps only_objects (remove_object p).
Proof. unfold remove_object. oo. apply oo_remove_entry. Qed.
Lemma oo_create_dirs comps : forall cur new, keeps only_objects (create_dirs cur new comps).
Proof. induction comps as [|c l IH]; intros cur new; cbn [create_dirs]; oo; try apply IH. apply oo_add_entry. Qed.
Lemma oo_set_modes m new : keeps only_objects (set_modes m new).
Proof. induction new as [|o l IH]; cbn [set_modes]; oo. apply IH. Qed.
Section Cd.
Variable cd : str -> N -> M oid.
Hypothesis Hcd : forall p m, keeps only_objects (cd p m).
Lemma oo_add_mount_ p t : keeps only_objects (add_mount_point_ cd p t).
Proof. unfold add_mount_point_. oo. apply Hcd. Qed.
Lemma oo_mount_path_ p : keeps only_objects (mount_point_for_path_ cd p).
Proof. unfold mount_point_for_path_, auto_mount_force. oo. apply oo_add_mount_. Qed.
Lemma oo_auto_mount p : keeps only_objects (auto_mount cd p).
Proof. unfold auto_mount. oo. apply oo_mount_path_. Qed.
End Cd.
Lemma oo_create_dir_n n : forall p m, keeps only_objects (create_dir_n n p m).
Proof.
  induction n as [|n IH]; intros p m; cbn [create_dir_n]; [oo|]. unfold create_dir_body. oo.
  - apply oo_auto_mount, IH.
  - apply oo_create_dirs.
  - apply oo_set_modes.
Qed.
Lemma oo_create_dir p m : keeps only_objects (create_dir p m).
Proof. apply oo_create_dir_n. Qed.
Lemma oo_mount_path p : keeps only_objects (mount_point_for_path p).
Proof. apply oo_mount_path_, oo_create_dir. Qed.
Lemma oo_add_mount p t : keeps only_objects (add_mount_point p t).
Proof. apply oo_add_mount_, oo_create_dir. Qed.
Lemma oo_get_usage p : keeps only_objects (get_disk_usage p).
Proof. unfold get_disk_usage. oo. apply oo_mount_path. Qed.
Lemma oo_set_usage t p : keeps only_objects (set_disk_usage t p).
Proof. unfold set_disk_usage. oo. apply oo_mount_path. Qed.
Lemma oo_fill o c z : keeps only_objects (fill_file o c z).
Proof. unfold fill_file. oo; first [apply oo_set_large|apply oo_set_initial]. Qed.
Lemma oo_create_int p m c z md um : keeps only_objects (create_file_internally p m c z md um).
Proof.
  unfold create_file_internally, auto_mount_drive, new_file. oo;
    first [apply oo_auto_mount, oo_create_dir|apply oo_create_dir|apply oo_add_object|apply oo_fill|apply oo_remove_object].
Qed.
Lemma oo_create_file p m c z md um : keeps only_objects (create_file p m c z md um).
Proof. apply oo_create_int. Qed.
Lemma oo_create_symlink p t md : keeps only_objects (create_symlink p t md).
Proof. unfold create_symlink. oo; first [apply oo_remove_object|apply oo_create_int]. Qed.
Lemma oo_create_link a b f md : keeps only_objects (create_link a b f md).
Proof. unfold create_link. oo; first [apply oo_create_dir|apply oo_add_object]. Qed.
Lemma oo_makedir p m : keeps only_objects (makedir p m).
Proof. unfold makedir, new_dir. oo; first [apply oo_remove_object|apply oo_add_object]. Qed.
Lemma oo_makedirs p m e : keeps only_objects (makedirs p m e).
Proof. unfold makedirs. oo; first [apply oo_remove_object|apply oo_create_dir]. Qed.
Lemma oo_mknod p m d : keeps only_objects (mknod p m d).
Proof. unfold mknod, new_file. oo. apply oo_add_object. Qed.
Lemma oo_broken p : keeps only_objects (handle_broken_link p).
Proof. unfold handle_broken_link. oo. Qed.
Lemma oo_remove p : keeps only_objects (remove p).
Proof. unfold remove. oo; first [apply oo_broken|apply oo_remove_object]. Qed.
Lemma oo_rmdir p a : keeps only_objects (rmdir p a).
Proof. unfold rmdir. oo. apply oo_remove_object. Qed.
Lemma oo_removedirs_loop n : forall h t, keeps only_objects (removedirs_loop n h t).
Proof. induction n as [|n IH]; intros h t; cbn [removedirs_loop]; oo; first [apply oo_rmdir|apply IH]. Qed.
Lemma oo_removedirs p : keeps only_objects (removedirs p).
Proof. unfold removedirs. oo; first [apply oo_rmdir|apply oo_removedirs_loop]. Qed.
Lemma oo_rename a b f : keeps only_objects (rename a b f).
Proof.
  unfold rename, posix_dir_link_errors, rename_to_existing, rename_error_for_dir_or_link, rename_same_object, rename_move. oo;
    first [apply oo_broken|apply oo_remove_object|apply oo_remove_entry|apply oo_add_entry].
Qed.
Lemma oo_chmod a m f : keeps only_objects (chmod a m f).
Proof. unfold chmod. oo. Qed.
Lemma oo_lchmod a m : keeps only_objects (lchmod a m).
Proof. unfold lchmod. oo. apply oo_chmod. Qed.
Lemma oo_utime a t n f : keeps only_objects (utime a t n f).
Proof. unfold utime. destruct t, n; oo. Qed.
Lemma oo_chown a u g f : keeps only_objects (chown a u g f).
Proof. unfold chown. oo. Qed.
Lemma oo_setxattr a k v fl f : keeps only_objects (setxattr a k v fl f).
Proof. unfold setxattr. oo. Qed.
Lemma oo_removexattr a k f : keeps only_objects (removexattr a k f).
Proof. unfold removexattr. oo. Qed.
Lemma oo_truncate a n : keeps only_objects (os_truncate a n).
Proof. unfold os_truncate. oo. apply oo_set_size. Qed.
Lemma oo_ftruncate a n : keeps only_objects (os_ftruncate a n).
Proof. unfold os_ftruncate. oo. apply oo_set_size. Qed.
Lemma oo_set_contents o c : keeps only_objects (set_contents o c).
Proof. unfold set_contents. oo. apply oo_set_initial. Qed.
Lemma oo_fs_set_contents p c : keeps only_objects (fs_set_contents p c).
Proof. unfold fs_set_contents. oo. apply oo_set_contents. Qed.
Lemma oo_outm {A} (f : A -> out) m : keeps only_objects m -> keeps only_objects (outm f m).
Proof. intros H. unfold outm. oo. exact H. Qed.

(** the calls that only concern objects *)
Definition fs_call (o : op) : bool :=
  match o with
  | Umask _ | Chdir _ | SetUid _ | SetGid _ | Tick _ => false
  | Open _ _ _ _ | OsOpen _ _ _ _ | OsClose _ | OsRead _ _ | OsWrite _ _ | OsPipe
  | HRead _ _ | HWrite _ _ | HSeek _ _ _ | HTell _ | HTruncate _ _ | HFlush _ | HClose _ => false
  | _ => true
  end.
Lemma fs_call_only_objects o : fs_call o = true -> keeps only_objects (step o).
Proof.
  intros H. destruct o; try discriminate; cbn [step]; apply oo_outm.
  - apply oo_create_file.
  - apply oo_create_dir.
  - apply oo_create_symlink.
  - apply oo_create_link.
  - unfold os_symlink. oo. apply oo_create_symlink.
  - unfold os_link. oo. apply oo_create_link.
  - apply oo_makedir.
  - apply oo_makedirs.
  - apply oo_mknod.
  - apply oo_remove.
  - apply oo_rmdir.
  - apply oo_removedirs.
  - apply oo_remove_object.
  - apply oo_rename.
  - apply oo_chmod.
  - apply oo_lchmod.
  - apply oo_utime.
  - apply oo_chown.
  - apply oo_setxattr.
  - apply oo_removexattr.
  - apply oo_truncate.
  - apply oo_ftruncate.
  - apply oo_add_mount.
  - apply oo_set_usage.
  - apply oo_get_usage.
  - apply oo_fs_set_contents.
Qed.

(** ** Inode numbers once given stay, unless the root is mounted again *)
Definition ino_stays (s s' : fs) : Prop := forall x i, o_ino (ob s x) = Some i -> o_ino (ob s' x) = Some i.
Global Instance ino_stays_pre : PreOrder ino_stays.
Proof. split; [intros s x i; auto|]. intros a b c H K x i E. apply K, H, E. Qed.
Lemma is_mod_obj o f : (forall x i, o_ino x = Some i -> o_ino (f x) = Some i) -> keeps ino_stays (mod_obj o f).
Proof.
  intros H s x i E. unfold mod_obj, modify. cbn [snd]. unfold mod_ob, ob, upd in *. cbn.
  destruct (Nat.eqb_spec x o) as [->|]; [apply H, E|exact E].
Qed.
Lemma is_same f : (forall s, f_heap (f s) = f_heap s) -> keeps ino_stays (modify f).
Proof. intros H s x i E. unfold modify, ob in *. cbn. rewrite H. exact E. Qed.
Lemma is_cdu z d : keeps ino_stays (change_disk_usage z d).
Proof.
  intros s x i E. unfold change_disk_usage. destruct (mount_for_dev _ _) as [m|]; [|exact E].
  destruct (m_total m); [destruct (_ <? _)%Z|]; exact E.
Qed.
Ltac isk := kr; try first [apply is_cdu|apply is_mod_obj; let y := fresh in let j := fresh in let Ey := fresh in intros y j Ey; try (destruct (o_body y)); exact Ey|apply is_same; reflexivity].
Lemma is_link_obj d o : keeps ino_stays (link_obj d o).
Proof.
  unfold link_obj. intros s. change (wp (link_obj d o) s (fun _ s' => ino_stays s s')). unfold link_obj. wstep.
  apply wp_bind. unfold mod_obj at 1. wstep. cbv beta iota. apply wp_bind. unfold mod_obj at 1. wstep. cbv beta iota.
  match goal with |- wp _ ?t _ => set (s2 := t) end.
  assert (H2 : ino_stays s s2).
  { intros x i E. unfold s2, mod_ob, ob, upd in *. cbn. destruct (Nat.eqb_spec x o) as [->|]; cbn.
    - destruct (Nat.eqb_spec o d) as [->|]; [|exact E]. destruct (o_body (f_heap s d)); exact E.
    - destruct (Nat.eqb_spec x d) as [->|]; [|exact E]. destruct (o_body (f_heap s d)); exact E. }
  clearbody s2. wstep. apply wp_bind. eapply wp_conseq with (Q := fun _ s3 => ino_stays s2 s3).
  - destruct (o_ino (ob s2 o)) as [j|] eqn:Ej; [apply wp_ret; intros x i E; exact E|].
    unfold mod_obj. wstep. wstep. unfold wp, modify. cbn [snd fst]. intros x i E. unfold mod_ob, ob, upd in *. cbn.
    destruct (Nat.eqb_spec x o) as [->|]; [congruence|exact E].
  - intros r s3 H3. destruct r; [|intros x i E; apply H3, H2, E]. cbv beta iota.
    eapply wp_conseq; [apply (wp_keeps ino_stays); isk|]. intros r s' K x i E. cbv beta in K. eauto.
Qed.
Lemma is_add_entry d o : keeps ino_stays (add_entry d o).
Proof. unfold add_entry. isk. apply is_link_obj. Qed.
Lemma is_rm_loop rm : (forall n, keeps ino_stays (rm n)) -> forall k e, keeps ino_stays (rm_loop rm k e).
Proof. intros H. induction k as [|k IH]; intros e; cbn [rm_loop]; isk; [apply H|apply IH]. Qed.
Lemma is_remove_entry_n fuel : forall d n r, keeps ino_stays (remove_entry_n fuel d n r).
Proof. induction fuel as [|f IH]; intros d n r; cbn [remove_entry_n]; unfold unlink_obj; isk. apply is_rm_loop. intros m; apply IH. Qed.
Lemma is_remove_entry d n r : keeps ino_stays (remove_entry d n r).
Proof. intros s. apply (is_remove_entry_n (S (f_next s)) d n r s). Qed.
Lemma is_remove_object p : keeps ino_stays (remove_object p).
Proof. unfold remove_object. isk. apply is_remove_entry. Qed.
Lemma is_rename a b f : keeps ino_stays (rename a b f).
Proof.
  unfold rename, handle_broken_link, posix_dir_link_errors, rename_to_existing, rename_error_for_dir_or_link, rename_same_object, rename_move. isk;
    first [apply is_remove_object|apply is_remove_entry|apply is_add_entry].
Qed.
