(** * The same for calls on open files: a rule set generic in the relation. *)
From Verif Require Export Frame.

(** only the tables of open files and wrappers changed *)
Definition handles_only (s s' : fs) : Prop :=
  s' = set_wnext (set_wraps (set_free (set_open s (f_open s')) (f_free s')) (f_wraps s')) (f_wnext s').
Definition times_only (f : fobj -> fobj) : Prop := forall x,
  f x = wo_ctime (wo_mtime (wo_atime x (o_atime (f x))) (o_mtime (f x))) (o_ctime (f x)).

Section IoRules.
Context {R : fs -> fs -> Prop} {HR : PreOrder R}.
Hypothesis Hh : forall s s', handles_only s s' -> R s s'.
Hypothesis Ht : forall o f, times_only f -> keeps R (mod_obj o f).
Hypothesis Hsz : forall o n, keeps R (set_size o n).
Hypothesis Hsc : forall o c, keeps R (set_contents o c).
Hypothesis Hrm : forall p, keeps R (remove_object p).
Hypothesis Hcf : forall p c md um, keeps R (create_file_internally p (N.lor S_IFREG PERM_DEF_FILE) c None md um).
Hypothesis Hch : forall a m f, keeps R (chmod a m f).

Lemma ir_modify f : (forall s, handles_only s (f s)) -> keeps R (modify f).
Proof. intros H s. apply Hh, H. Qed.
Lemma ir_wmod w f : keeps R (wmod w f).
Proof. apply ir_modify. intros s. destruct s; reflexivity. Qed.
Lemma ir_alloc_wrap x : keeps R (alloc_wrap x).
Proof. intros s. apply Hh. destruct s; reflexivity. Qed.
Lemma ir_add_open w : keeps R (add_open_file w).
Proof. intros s. apply Hh. unfold add_open_file. destruct (f_free s); destruct s; reflexivity. Qed.
Lemma ir_close_open fd : keeps R (close_open_file fd).
Proof. apply ir_modify. intros s. destruct s; reflexivity. Qed.
Ltac ir := unfold wget in *; kr; try first [apply ir_wmod|apply ir_alloc_wrap|apply ir_add_open|apply ir_close_open|apply Hsz|apply Hsc].
Lemma ir_check w : keeps R (check_open w).
Proof. unfold check_open. ir. Qed.
Lemma ir_add_wrap x : keeps R (add_wrap x).
Proof. unfold add_wrap. ir. Qed.
Lemma ir_bseek w o h : keeps R (bseek w o h).
Proof. unfold bseek. ir. Qed.
Lemma ir_bwrite w d : keeps R (bwrite w d).
Proof. apply ir_wmod. Qed.
Lemma ir_btrunc w : keeps R (btrunc_here w).
Proof. apply ir_wmod. Qed.
Lemma ir_stream w c : keeps R (set_stream_contents w c).
Proof. unfold set_stream_contents. ir. Qed.
Lemma ir_sync w : keeps R (sync_io w).
Proof. unfold sync_io. ir. apply ir_stream. Qed.
Lemma ir_for_each l f : (forall x, keeps R (f x)) -> keeps R (for_each l f).
Proof. intros H. induction l as [|x l IH]; cbn [for_each]; ir; auto. Qed.
Lemma ir_flush_related w : keeps R (flush_related w).
Proof. unfold flush_related. ir. apply ir_for_each, ir_sync. Qed.
Lemma ir_flush w : keeps R (flush w).
Proof.
  unfold flush, update_flush_pos. ir; try first [apply ir_check|apply ir_sync|apply ir_stream|apply ir_flush_related].
  apply Ht. intros y. destruct y; reflexivity.
Qed.
Lemma ir_try_flush w n : keeps R (try_flush w n).
Proof. unfold try_flush. ir; first [apply ir_flush|apply ir_bseek|apply ir_btrunc]. Qed.
Lemma ir_io_enter w : keeps R (io_enter w).
Proof. unfold io_enter. ir. apply ir_check. Qed.
Lemma ir_io_raise {A} w : keeps R (@io_raise A w).
Proof. unfold io_raise. ir. Qed.
Lemma ir_file_write w d : keeps R (file_write w d).
Proof.
  unfold file_write. ir; first [apply ir_io_enter|apply ir_io_raise|apply ir_bwrite|apply ir_bseek|apply ir_btrunc|apply ir_try_flush].
Qed.
Lemma ir_file_read w n : keeps R (file_read w n).
Proof.
  unfold file_read. ir; try first [apply ir_io_enter|apply ir_io_raise|apply ir_sync|apply ir_flush|apply ir_bseek].
  apply Ht. intros y. destruct y; reflexivity.
Qed.
Lemma ir_file_seek w o h : keeps R (file_seek w o h).
Proof. unfold file_seek. ir; first [apply ir_check|apply ir_bseek|apply ir_flush]. Qed.
Lemma ir_file_tell w : keeps R (file_tell w).
Proof. unfold file_tell. ir; first [apply ir_check|apply ir_bseek|apply ir_flush]. Qed.
Lemma ir_adapt w z : keeps R (adapt_related w z).
Proof. unfold adapt_related. ir. apply ir_for_each. intros v. apply ir_wmod. Qed.
Lemma ir_file_truncate w n : keeps R (file_truncate w n).
Proof.
  unfold file_truncate. ir; first [apply ir_io_enter|apply ir_io_raise|apply ir_bwrite|apply ir_bseek|apply ir_flush|apply ir_adapt].
Qed.
Lemma ir_flush_wrapper w : keeps R (flush_wrapper w).
Proof. unfold flush_wrapper. ir; apply ir_flush. Qed.
Lemma ir_close_file w : keeps R (close_file w).
Proof.
  unfold close_file. ir; try first [apply ir_flush|apply Hrm].
  - apply Ht. intros y. destruct y; reflexivity.
  - apply ir_modify. intros s. destruct (py_index _ _) as [[l|]|]; destruct s; reflexivity.
Qed.
Lemma ir_close w : keeps R (close_wrapper w).
Proof.
  unfold close_wrapper. ir; try apply ir_close_file.
  apply ir_modify. intros s. destruct s; reflexivity.
Qed.
Lemma ir_init_file fo a b om : keeps R (init_file_object fo a b om).
Proof. unfold init_file_object. ir. apply Hcf. Qed.
Lemma ir_file_arg a d : keeps R (handle_file_arg a d).
Proof. unfold handle_file_arg. ir. Qed.
Lemma ir_open_call a om b c r d : keeps R (open_call a om b c r d).
Proof.
  unfold open_call. ir; try first [apply ir_file_arg|apply ir_add_wrap|apply ir_init_file].
  - apply Ht. intros y. destruct (c_win _); destruct y; reflexivity.
  - apply ir_modify. intros s. destruct (py_index _ _) as [[l|]|]; destruct s; reflexivity.
Qed.
Lemma ir_open a m b c : keeps R (open_ a m b c).
Proof. unfold open_. ir. apply ir_open_call. Qed.
Lemma ir_os_open p fl m u : keeps R (os_open p fl m u).
Proof. unfold os_open. cbv zeta. ir; first [apply ir_add_wrap|apply ir_open_call|apply Hch]. Qed.
Lemma ir_os_close fd : keeps R (os_close fd).
Proof. unfold os_close. ir. apply ir_close. Qed.
Lemma ir_os_read fd n : keeps R (os_read fd n).
Proof. unfold os_read. ir. apply ir_file_read. Qed.
Lemma ir_os_write fd n : keeps R (os_write fd n).
Proof. unfold os_write, update_flush_pos. ir; first [apply ir_sync|apply ir_file_write|apply ir_flush]. Qed.
Lemma ir_os_pipe : keeps R os_pipe.
Proof. unfold os_pipe. ir; apply ir_add_wrap. Qed.
Lemma ir_outm {A} (f : A -> out) m : keeps R m -> keeps R (outm f m).
Proof. intros H. unfold outm. kr. exact H. Qed.
(** the calls on open files *)
Definition io_call (o : op) : bool :=
  match o with
  | Open _ _ _ _ | OsOpen _ _ _ _ | OsClose _ | OsRead _ _ | OsWrite _ _ | OsPipe
  | HRead _ _ | HWrite _ _ | HSeek _ _ _ | HTell _ | HTruncate _ _ | HFlush _ | HClose _ => true
  | _ => false
  end.
Lemma ir_step o : io_call o = true -> keeps R (step o).
Proof.
  intros H. destruct o; try discriminate; cbn [step]; apply ir_outm.
  - apply ir_open.
  - apply ir_os_open.
  - apply ir_os_close.
  - apply ir_os_read.
  - apply ir_os_write.
  - apply ir_os_pipe.
  - apply ir_file_read.
  - apply ir_file_write.
  - apply ir_file_seek.
  - apply ir_file_tell.
  - apply ir_file_truncate.
  - apply ir_flush_wrapper.
  - apply ir_close.
Qed.
Lemma ir_step_notrunc o : io_call o = true -> (forall w n, o <> HTruncate w n) -> keeps R (step o).
Proof.
  intros H Hnt. destruct o; try discriminate; cbn [step]; apply ir_outm.
  - apply ir_open.
  - apply ir_os_open.
  - apply ir_os_close.
  - apply ir_os_read.
  - apply ir_os_write.
  - apply ir_os_pipe.
  - apply ir_file_read.
  - apply ir_file_write.
  - apply ir_file_seek.
  - apply ir_file_tell.
  - exfalso. exact (Hnt _ _ eq_refl).
  - apply ir_flush_wrapper.
  - apply ir_close.
Qed.
End IoRules.

(** ** Configuration, current directory, umask, user and clock *)
Definition same_env (s s' : fs) : Prop :=
  f_cfg s' = f_cfg s /\ f_cwd s' = f_cwd s /\ f_umask s' = f_umask s /\ f_rumask s' = f_rumask s /\
  f_uid s' = f_uid s /\ f_gid s' = f_gid s /\ f_now s' = f_now s.
Global Instance same_env_pre : PreOrder same_env.
Proof.
  split; [intros s; unfold same_env; auto 10|]. intros a b c (H1 & H2 & H3 & H4 & H5 & H6 & H7) (K1 & K2 & K3 & K4 & K5 & K6 & K7).
  unfold same_env. repeat split; congruence.
Qed.
Lemma oo_env s s' : only_objects s s' -> same_env s s'.
Proof. intros H. rewrite H. unfold same_env. auto 10. Qed.
Lemma oo_env_k {A} (m : M A) : keeps only_objects m -> keeps same_env m.
Proof. intros H s. apply oo_env, H. Qed.
Lemma handles_env s s' : handles_only s s' -> same_env s s'.
Proof. intros H. rewrite H. unfold same_env. auto 10. Qed.
Lemma io_call_env o : io_call o = true -> keeps same_env (step o).
Proof.
  apply ir_step.
  - exact handles_env.
  - intros x f _. apply oo_env_k, oo_mod_obj.
  - intros x n. apply oo_env_k, oo_set_size.
  - intros x n. apply oo_env_k, oo_set_contents.
  - intros p. apply oo_env_k, oo_remove_object.
  - intros. apply oo_env_k, oo_create_int.
  - intros. apply oo_env_k, oo_chmod.
Qed.
(** the five calls that are about the environment *)
Definition env_call (o : op) : bool :=
  match o with Umask _ | Chdir _ | SetUid _ | SetGid _ | Tick _ => true | _ => false end.
Lemma call_env o : env_call o = false -> keeps same_env (step o).
Proof.
  intros H. destruct (io_call o) eqn:Eio; [apply io_call_env, Eio|].
  apply oo_env_k, fs_call_only_objects. destruct o; try reflexivity; discriminate.
Qed.
Lemma call_cfg o s : f_cfg (snd (step o s)) = f_cfg s.
Proof.
  destruct (env_call o) eqn:E; [|apply (call_env o E)].
  destruct o; try discriminate; cbn [step]; unfold outm; try reflexivity.
  unfold bind at 1. assert (K : f_cfg (snd (chdir a s)) = f_cfg s).
  { change (wp (chdir a) s (fun _ s' => f_cfg s' = f_cfg s)). unfold chdir. wstep. apply wp_bind, wp_catch.
    wstep. destruct (resolve_path_arg s a) as [p|e]; cbv beta iota.
    - wstep. destruct (confirmdir s p); [|reflexivity]. wstep. destruct (resolve s p true); [|reflexivity].
      wstep. destruct (_ && _); [reflexivity|]. unfold wp, modify. reflexivity.
    - destruct e as [e| | | | | | | | | |]; try reflexivity. destruct e; try reflexivity. destruct (c_mac _); reflexivity. }
  destruct (chdir a s) as [[]]; exact K.
Qed.
Lemma reachable_cfg c s : reachable c s -> f_cfg s = c.
Proof.
  intros (total & um & uid & gid & now & ops & ->).
  assert (K : forall ops s, f_cfg (run s ops) = f_cfg s).
  { induction ops0 as [|o l IH]; intros s; [reflexivity|]. cbn [run]. rewrite IH. apply call_cfg. }
  rewrite K. reflexivity.
Qed.
