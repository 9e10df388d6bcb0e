(** * Attributes, open files and histories: the graph invariant of every reachable state. *)
From Verif Require Export GraphRename.

(** ** Mode bits *)
Lemma land_mask_keep (old m P F : N) : N.land P F = 0%N ->
  N.land (N.lor (N.ldiff old P) (N.land m P)) F = N.land old F.
Proof.
  intros H. apply N.bits_inj. intros k. assert (K := f_equal (fun x => N.testbit x k) H). cbv beta in K.
  rewrite N.land_spec, N.bits_0 in K.
  rewrite !N.land_spec, N.lor_spec, N.ldiff_spec, N.land_spec.
  destruct (N.testbit P k), (N.testbit F k), (N.testbit old k), (N.testbit m k); cbn in *; congruence.
Qed.
Lemma land_or_keep (old w F : N) : N.land w F = 0%N -> N.land (N.lor old w) F = N.land old F.
Proof. intros H. rewrite N.land_lor_distr_l, H, N.lor_0_r. reflexivity. Qed.
Lemma land_and_keep (old w F : N) : N.land w F = F -> N.land (N.land old w) F = N.land old F.
Proof. intros H. rewrite <- N.land_assoc, H. reflexivity. Qed.
(** chmod keeps the type bits *)
Lemma chmod_mode_type c old m : S_IFMT (chmod_mode c old m) = S_IFMT old.
Proof.
  unfold chmod_mode, S_IFMT. destruct (c_win c).
  - destruct (has_bit m PERM_WRITE); [apply land_or_keep|apply land_and_keep]; reflexivity.
  - apply land_mask_keep. reflexivity.
Qed.
Lemma has_bit_ifmt m m' : S_IFMT m' = S_IFMT m -> has_bit m' S_IFDIR = has_bit m S_IFDIR.
Proof.
  unfold has_bit, S_IFMT. intros E.
  assert (K : forall x, N.land x S_IFDIR = N.land (N.land x S_IFMT_mask) S_IFDIR).
  { intros x. rewrite <- N.land_assoc. reflexivity. }
  rewrite (K m'), (K m), E. reflexivity.
Qed.

(** ** Changes outside the graph *)
Lemma gsame_Ginv_k {A} (m : M A) : keeps gsame m -> preserves Ginv m.
Proof. apply pres_keeps. apply gsame_Ginv. Qed.

Lemma keeps_ret {A} (a : A) : keeps gsame (ret a). Proof. intros s. apply gsame_refl. Qed.
Lemma keeps_raise {A} e : keeps gsame (@raise A e). Proof. intros s. apply gsame_refl. Qed.
Lemma keeps_raise_os {A} e : keeps gsame (@raise_os A e). Proof. intros s. apply gsame_refl. Qed.
Lemma keeps_gets {A} (f : fs -> A) : keeps gsame (gets f). Proof. intros s. apply gsame_refl. Qed.
Lemma keeps_lift {A} (f : fs -> res A) : keeps gsame (lift f). Proof. intros s. apply gsame_refl. Qed.
Lemma keeps_bind {A B} (m : M A) (k : A -> M B) : keeps gsame m -> (forall a, keeps gsame (k a)) -> keeps gsame (bind m k).
Proof.
  intros Hm Hk s. specialize (Hm s). unfold bind. destruct (m s) as [[a|e] s1]; cbn [snd] in *; [|exact Hm].
  eapply gsame_trans; [exact Hm|apply Hk].
Qed.
Lemma keeps_catch {A} (m : M A) h : keeps gsame m -> (forall e, keeps gsame (h e)) -> keeps gsame (catch m h).
Proof.
  intros Hm Hk s. specialize (Hm s). unfold catch. destruct (m s) as [[a|e] s1]; cbn [snd] in *; [exact Hm|].
  eapply gsame_trans; [exact Hm|apply Hk].
Qed.
Lemma keeps_when b m : keeps gsame m -> keeps gsame (when b m).
Proof. intros H. destruct b; [exact H|apply keeps_ret]. Qed.
Ltac keeps1 :=
  lazymatch goal with
  | |- keeps gsame (ret _) => apply keeps_ret
  | |- keeps gsame (raise _) => apply keeps_raise
  | |- keeps gsame (raise_os _) => apply keeps_raise_os
  | |- keeps gsame (gets _) => apply keeps_gets
  | |- keeps gsame (lift _) => apply keeps_lift
  | |- keeps gsame (bind _ _) => apply keeps_bind; [|let x := fresh "x" in intros x; cbv beta]
  | |- keeps gsame (catch _ _) => apply keeps_catch; [|let e := fresh "e" in intros e; cbv beta]
  | |- keeps gsame (when _ _) => apply keeps_when
  | |- keeps gsame (if ?b then _ else _) => destruct b
  | |- keeps gsame (match ?x with _ => _ end) => destruct x
  end.
Ltac keepsg := repeat (keeps1; cbv zeta).

(** an update that leaves name, parent, inode, link count, body and type bits alone *)
Lemma keeps_mod_obj o f :
  (forall x, o_name (f x) = o_name x /\ o_parent (f x) = o_parent x /\ o_ino (f x) = o_ino x /\
     o_nlink (f x) = o_nlink x /\ o_body (f x) = o_body x /\ S_IFMT (o_mode (f x)) = S_IFMT (o_mode x)) ->
  keeps gsame (mod_obj o f).
Proof.
  intros H s. destruct (H (ob s o)) as (H1 & H2 & H3 & H4 & H5 & H6). unfold mod_obj, modify. cbn [snd].
  apply gsame_mod.
  - constructor; rewrite ?H5; auto; destruct (o_body (ob s o)); auto. rewrite (has_bit_ifmt _ _ H6). auto.
  - intros _. unfold S_ISDIR. rewrite H6. auto.
Qed.

Lemma chmod_keeps a m f : keeps gsame (chmod a m f).
Proof. unfold chmod. keepsg. apply keeps_mod_obj. intros y. cbn. rewrite chmod_mode_type. auto 10. Qed.
Lemma lchmod_keeps a m : keeps gsame (lchmod a m).
Proof. unfold lchmod. keepsg. apply chmod_keeps. Qed.
Lemma utime_keeps a t n f : keeps gsame (utime a t n f).
Proof.
  unfold utime. destruct t as [l|], n as [k|]; keepsg;
    apply keeps_mod_obj; intros y; cbn; auto 10.
Qed.
Lemma chown_keeps a u g f : keeps gsame (chown a u g f).
Proof.
  unfold chown. keepsg. apply keeps_mod_obj. intros y.
  destruct (Z.eqb u (-1)), (Z.eqb g (-1)); cbn; auto 10.
Qed.
Lemma umask_keeps m : keeps gsame (umask m).
Proof. unfold umask. keepsg. intros s. constructor; auto. Qed.
Lemma setxattr_keeps a k v fl f : keeps gsame (setxattr a k v fl f).
Proof. unfold setxattr. keepsg. apply keeps_mod_obj. intros y; cbn; auto 10. Qed.
Lemma removexattr_keeps a k f : keeps gsame (removexattr a k f).
Proof. unfold removexattr. keepsg. apply keeps_mod_obj. intros y; cbn; auto 10. Qed.
Lemma os_truncate_keeps a n : keeps gsame (os_truncate a n).
Proof. unfold os_truncate. keepsg. apply set_size_keeps. Qed.
Lemma os_ftruncate_keeps a n : keeps gsame (os_ftruncate a n).
Proof. unfold os_ftruncate. keepsg. apply set_size_keeps. Qed.

Lemma set_contents_keeps o c : keeps gsame (set_contents o c).
Proof.
  intros s. change (wp (set_contents o c) s (fun _ s' => gsame s s')). unfold set_contents. wstep.
  destruct (is_dirobj s o) eqn:Ed; [wstep; apply gsame_refl|]. apply wp_set_initial, Ed.
Qed.
Lemma fs_set_contents_keeps p c : keeps gsame (fs_set_contents p c).
Proof. unfold fs_set_contents. keepsg. apply set_contents_keeps. Qed.

(** ** Open files *)
Lemma keeps_modify_nograph f :
  (forall s, f_cfg (f s) = f_cfg s /\ f_cwd (f s) = f_cwd s /\ f_next (f s) = f_next s /\ f_ino (f s) = f_ino s /\
     f_heap (f s) = f_heap s) -> keeps gsame (modify f).
Proof.
  intros H s. destruct (H s) as (H1 & H2 & H3 & H4 & H5). unfold modify. cbn [snd].
  constructor; auto; intros; unfold ents, is_dirobj, is_dirm, ob in *; rewrite H5; auto.
Qed.
Lemma wmod_keeps w f : keeps gsame (wmod w f).
Proof. apply keeps_modify_nograph. intros s. repeat split. Qed.
Lemma wget_keeps w : keeps gsame (wget w).
Proof. apply keeps_gets. Qed.
Lemma alloc_wrap_keeps x : keeps gsame (alloc_wrap x).
Proof. intros s. constructor; auto. Qed.
Lemma add_open_file_keeps w : keeps gsame (add_open_file w).
Proof. intros s. unfold add_open_file. destruct (f_free s); constructor; auto. Qed.
Lemma close_open_file_keeps fd : keeps gsame (close_open_file fd).
Proof. apply keeps_modify_nograph. intros s. repeat split. Qed.
Lemma check_open_keeps w : keeps gsame (check_open w).
Proof. unfold check_open. keepsg. Qed.
Ltac keepsw := keepsg; try first [apply wmod_keeps|apply wget_keeps|apply check_open_keeps|apply set_contents_keeps
  |apply alloc_wrap_keeps|apply add_open_file_keeps|apply close_open_file_keeps|apply set_size_keeps].
Lemma add_wrap_keeps x : keeps gsame (add_wrap x).
Proof. unfold add_wrap. keepsw. Qed.
Lemma bseek_keeps w o h : keeps gsame (bseek w o h).
Proof. unfold bseek. keepsw. Qed.
Lemma bwrite_keeps w d : keeps gsame (bwrite w d).
Proof. unfold bwrite. keepsw. Qed.
Lemma btrunc_keeps w : keeps gsame (btrunc_here w).
Proof. unfold btrunc_here. keepsw. Qed.
Lemma set_stream_keeps w c : keeps gsame (set_stream_contents w c).
Proof. unfold set_stream_contents. keepsw. Qed.
Lemma sync_io_keeps w : keeps gsame (sync_io w).
Proof. unfold sync_io. keepsw. apply set_stream_keeps. Qed.
Lemma for_each_keeps l f : (forall x, keeps gsame (f x)) -> keeps gsame (for_each l f).
Proof. intros H. induction l as [|x l IH]; cbn [for_each]; keepsg; auto. Qed.
Lemma flush_related_keeps w : keeps gsame (flush_related w).
Proof. unfold flush_related. keepsw. apply for_each_keeps, sync_io_keeps. Qed.
Lemma mod_time_keeps o (f : fobj -> fobj) : (forall x, o_name (f x) = o_name x /\ o_parent (f x) = o_parent x /\ o_ino (f x) = o_ino x /\
     o_nlink (f x) = o_nlink x /\ o_body (f x) = o_body x /\ o_mode (f x) = o_mode x) -> keeps gsame (mod_obj o f).
Proof. intros H. apply keeps_mod_obj. intros x. destruct (H x) as (? & ? & ? & ? & ? & ->). auto 10. Qed.
Lemma flush_keeps w : keeps gsame (flush w).
Proof.
  unfold flush, update_flush_pos. keepsw; try apply sync_io_keeps; try apply set_stream_keeps; try apply flush_related_keeps.
  apply mod_time_keeps. intros y; cbn; auto 10.
Qed.
Lemma try_flush_keeps w n : keeps gsame (try_flush w n).
Proof. unfold try_flush. keepsw; first [apply flush_keeps|apply bseek_keeps|apply btrunc_keeps]. Qed.
Lemma io_enter_keeps w : keeps gsame (io_enter w).
Proof. unfold io_enter. keepsw. Qed.
Lemma io_raise_keeps {A} w : keeps gsame (@io_raise A w).
Proof. unfold io_raise. keepsw. Qed.
Ltac keepsf := keepsw; try first [apply flush_keeps|apply bseek_keeps|apply btrunc_keeps|apply io_enter_keeps|apply io_raise_keeps
  |apply try_flush_keeps|apply bwrite_keeps|apply sync_io_keeps|(apply mod_time_keeps; intros ?; cbn; auto 10; fail)].
Lemma file_write_keeps w d : keeps gsame (file_write w d).
Proof. unfold file_write. keepsf. Qed.
Lemma file_read_keeps w n : keeps gsame (file_read w n).
Proof. unfold file_read. keepsf. Qed.
Lemma file_seek_keeps w o h : keeps gsame (file_seek w o h).
Proof. unfold file_seek. keepsf. Qed.
Lemma file_tell_keeps w : keeps gsame (file_tell w).
Proof. unfold file_tell. keepsf. Qed.
Lemma adapt_related_keeps w z : keeps gsame (adapt_related w z).
Proof. unfold adapt_related. keepsf. apply for_each_keeps. intros v. apply wmod_keeps. Qed.
Lemma file_truncate_keeps w n : keeps gsame (file_truncate w n).
Proof. unfold file_truncate. keepsf. all: apply adapt_related_keeps. Qed.
Lemma flush_wrapper_keeps w : keeps gsame (flush_wrapper w).
Proof. unfold flush_wrapper. keepsf. Qed.

Lemma close_file_pres w : preserves Ginv (close_file w).
Proof.
  unfold close_file. pres; try apply remove_object_pres; apply gsame_Ginv_k; keepsf.
  apply keeps_modify_nograph. intros s. destruct (py_index _ _) as [[l|]|]; repeat split.
Qed.
Lemma close_wrapper_pres w : preserves Ginv (close_wrapper w).
Proof.
  unfold close_wrapper. pres; try apply close_file_pres; apply gsame_Ginv_k; keepsf.
  apply keeps_modify_nograph. intros s. repeat split.
Qed.

Lemma init_file_object_pres fo a b om : preserves Ginv (init_file_object fo a b om).
Proof.
  unfold init_file_object. pres; try apply create_file_internally_pres; apply gsame_Ginv_k; keepsf.
Qed.
Lemma handle_file_arg_pres a d : preserves Ginv (handle_file_arg a d).
Proof. unfold handle_file_arg. pres; apply gsame_Ginv_k; keepsf. Qed.
Lemma open_call_pres a om b c r d : preserves Ginv (open_call a om b c r d).
Proof.
  unfold open_call. pres; try apply handle_file_arg_pres; try apply init_file_object_pres; apply gsame_Ginv_k; keepsf;
    try apply add_wrap_keeps.
  - apply mod_time_keeps. intros y. destruct (c_win _); cbn; auto 10.
  - apply keeps_modify_nograph. intros s. destruct (py_index _ _) as [[l|]|]; repeat split.
Qed.
Lemma open_pres a m b c : preserves Ginv (open_ a m b c).
Proof. unfold open_. pres. apply open_call_pres. Qed.
Lemma os_open_pres p fl m u : preserves Ginv (os_open p fl m u).
Proof.
  unfold os_open. cbv zeta.
  pres; try apply open_call_pres; apply gsame_Ginv_k; keepsf; try apply add_wrap_keeps; apply chmod_keeps.
Qed.
Lemma os_close_pres fd : preserves Ginv (os_close fd).
Proof. unfold os_close. pres. apply close_wrapper_pres. Qed.
Lemma os_read_keeps fd n : keeps gsame (os_read fd n).
Proof. unfold os_read. keepsf. apply file_read_keeps. Qed.
Lemma os_write_keeps fd n : keeps gsame (os_write fd n).
Proof. unfold os_write, update_flush_pos. keepsf. apply file_write_keeps. Qed.
Lemma os_pipe_keeps : keeps gsame os_pipe.
Proof. unfold os_pipe. keepsf; apply add_wrap_keeps. Qed.

(** ** chdir *)
Lemma Ginv_set_cwd s p : Ginv s -> is_abs (sepc s) p = true -> Ginv (set_cwd s p).
Proof.
  intros H Hp. pose proof (gi_acyc s H) as Ha. destruct H as [a1 a2 a3 a4 a5 a6 a7 a8 a9 a10 a11 a12 a13 a14 a15 a16 a17 a18 a19].
  constructor; try assumption.
  intros a names Hn. apply (Ha a names). rewrite <- (tree_at_ents s (set_cwd s p)); [exact Hn|reflexivity].
Qed.
Lemma abs_path_is_abs sp names : is_abs sp (abs_path sp names) = true.
Proof. unfold abs_path, is_abs. apply Ascii.eqb_refl. Qed.
Lemma resolve_path_arg_abs s a r : Ginv s -> resolve_path_arg s a = Ok r -> exists names, r = abs_path (sepc s) names.
Proof.
  intros H. pose proof (Ginv_good s H) as Hg. destruct a as [p|fd]; cbn [resolve_path_arg].
  - intros E. apply (resolve_path_ok s Hg) in E. destruct E as (_ & _ & names & rr & _ & _ & _ & ->). exists rr. reflexivity.
  - destruct (fd_object s fd) as [o|e]; cbn [rbind]; [|discriminate]. unfold obj_path.
    destruct (chain_names _ _ _); [|discriminate]. intros E. injection E as <-.
    match goal with |- context [anp s ?q] => destruct (anp_names s q Hg) as (names & _ & ->) end. exists names. reflexivity.
Qed.
Lemma chdir_pres a : preserves Ginv (chdir a).
Proof.
  intros s H. change (wp (chdir a) s (fun _ s' => Ginv s')). unfold chdir. wstep. apply wp_bind, wp_catch. wstep.
  destruct (resolve_path_arg s a) as [p|e] eqn:E.
  - destruct (resolve_path_arg_abs s a p H E) as (names & ->).
    wstep. destruct (confirmdir _ _); [|exact H]. wstep. destruct (resolve _ _ _); [|exact H].
    wstep. destruct (_ && _); wstep; [exact H|]. apply Ginv_set_cwd; [exact H|apply abs_path_is_abs].
  - destruct e as [e| | | | | | | | | |]; try (wstep; exact H). destruct e; try (wstep; exact H). destruct (c_mac _); wstep; exact H.
Qed.

(** ** Histories *)
Lemma outm_pres {A} (P : fs -> Prop) (f : A -> out) (m : M A) : preserves P m -> preserves P (outm f m).
Proof. intros H. unfold outm. pres. exact H. Qed.

Lemma step_pres o : preserves Ginv (step o).
Proof.
  destruct o; cbn [step]; apply outm_pres.
  - apply create_file_pres.
  - apply create_dir_pres.
  - apply create_symlink_pres.
  - apply create_link_pres.
  - apply os_symlink_pres.
  - apply os_link_pres.
  - apply makedir_pres.
  - apply makedirs_pres.
  - apply mknod_pres.
  - apply remove_pres.
  - apply rmdir_pres.
  - apply removedirs_pres.
  - apply remove_object_pres.
  - apply rename_pres.
  - apply gsame_Ginv_k, chmod_keeps.
  - apply gsame_Ginv_k, lchmod_keeps.
  - apply gsame_Ginv_k, utime_keeps.
  - apply gsame_Ginv_k, chown_keeps.
  - apply gsame_Ginv_k, umask_keeps.
  - apply chdir_pres.
  - apply gsame_Ginv_k, setxattr_keeps.
  - apply gsame_Ginv_k, removexattr_keeps.
  - apply gsame_Ginv_k, os_truncate_keeps.
  - apply gsame_Ginv_k, os_ftruncate_keeps.
  - apply add_mount_point_pres.
  - apply set_disk_usage_pres.
  - apply get_disk_usage_pres.
  - apply gsame_Ginv_k, fs_set_contents_keeps.
  - apply open_pres.
  - apply os_open_pres.
  - apply os_close_pres.
  - apply gsame_Ginv_k, os_read_keeps.
  - apply gsame_Ginv_k, os_write_keeps.
  - apply gsame_Ginv_k, os_pipe_keeps.
  - apply gsame_Ginv_k, file_read_keeps.
  - apply gsame_Ginv_k, file_write_keeps.
  - apply gsame_Ginv_k, file_seek_keeps.
  - apply gsame_Ginv_k, file_tell_keeps.
  - apply gsame_Ginv_k, file_truncate_keeps.
  - apply gsame_Ginv_k, flush_wrapper_keeps.
  - apply close_wrapper_pres.
  - apply gsame_Ginv_k, keeps_modify_nograph; intros s; repeat split.
  - apply gsame_Ginv_k, keeps_modify_nograph; intros s; repeat split.
  - apply gsame_Ginv_k, keeps_modify_nograph; intros s; repeat split.
Qed.

Lemma run_pres (P : fs -> Prop) : (forall o, preserves P (step o)) -> forall ops s, P s -> P (run s ops).
Proof. intros H ops. induction ops as [|o ops IH]; intros s Hs; cbn [run]; [exact Hs|]. apply IH, H, Hs. Qed.

Lemma Ginv_init c total um uid gid now : linux_like c -> Ginv (init c total um uid gid now).
Proof.
  intros Hl. assert (E : forall o, ents (init c total um uid gid now) o = []).
  { intros [|[|o]]; reflexivity. }
  assert (D : forall o, is_dirobj (init c total um uid gid now) o = true -> o = root_oid).
  { intros [|[|o]] K; try reflexivity; discriminate. }
  constructor; try (rewrite E); try reflexivity.
  - exact Hl.
  - cbn. apply Ascii.eqb_refl.
  - intros o Ho. apply D in Ho. subst o. reflexivity.
  - intros [|[|o]] Ho; cbn in Ho; try lia. reflexivity.
  - intros d n o. rewrite E. intros [].
  - intros d. rewrite E. constructor.
  - intros d n o. rewrite E. intros [].
  - intros [|[|o]] Ho; cbn in Ho; try lia; reflexivity.
  - intros a [|n names]; [reflexivity|]. cbn [tree_at]. unfold entry. rewrite E. discriminate.
  - intros [|[|o]] i Ho; cbn in *; try lia; intros K; try discriminate. injection K as <-. lia.
  - intros [|[|a]] [|[|b]] i Ha Hb; cbn in *; try lia; try discriminate; reflexivity.
  - discriminate.
  - intros d n o. rewrite E. intros [].
Qed.

Theorem reachable_Ginv c s : linux_like c -> reachable c s -> Ginv s.
Proof.
  intros Hl (total & um & uid & gid & now & ops & ->). apply (run_pres Ginv step_pres), Ginv_init, Hl.
Qed.

(** The configuration of a reachable state *)
Lemma Ginv_reach_good c s : linux_like c -> reachable c s -> good s.
Proof. intros Hl H. apply Ginv_good, (reachable_Ginv c s Hl H). Qed.
