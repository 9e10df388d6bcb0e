(** * Properties C65 and C66: how calls fail.

    [proper_history u c s] (HonestSpec.v): [s] is the state after any calls on a
    fresh filesystem of configuration [c], where no new file is given the type
    bits of a directory or of a link and no new directory other bits than
    permissions; [u]: no disk has a size limit. *)
From Verif Require Import SysModel FsSpec HonestSpec ErrThm ResThm PropTree PropOps PropIo2.

(** ** C65 *)

(** A call that names files by their paths, with arguments of the form its
    documentation asks for.  Calls on descriptors and on open files are not
    among them: they raise ValueError and io.UnsupportedOperation as well. *)
Definition by_path (a : parg) : Prop := exists p, a = PStr p.
Definition path_call (o : op) : Prop :=
  match o with
  | CreateFile _ _ _ _ _ _ | CreateDir _ _ | CreateSymlink _ _ _ | CreateLink _ _ _ _
  | Symlink _ _ | Link _ _ | Mkdir _ _ | Makedirs _ _ _ | Mknod _ _ _
  | Remove _ | Rmdir _ | Removedirs _ | RemoveObject _ | Rename _ _ _
  | LChmod _ _ | AddMount _ _ | SetContents _ _ => True
  | Chmod a _ _ | Chown a _ _ _ | Chdir a | SetXattr a _ _ _ _ | RemoveXattr a _ _ | Truncate a _ => by_path a
  (* times or ns, not both, two values *)
  | Utime a t n _ => by_path a /\ (t = None \/ n = None) /\
      (forall l, t = Some l -> length l = 2) /\ (forall l, n = Some l -> length l = 2)
  | Open a m _ _ => by_path a /\ In m binary_modes
  (* O_EXCL alone is a NotImplementedError, fake_filesystem.py 3647 *)
  | OsOpen _ fl _ _ => has_bit fl O_EXCL = true -> has_bit fl O_CREAT = true \/ has_bit fl O_TMPFILE = true
  | _ => False
  end.
(** The three calls with other errors, and where they do not have them. *)
Definition harmless (s : fs) (o : op) : Prop :=
  match o with
  (* nothing is there under the new name *)
  | Rename _ new _ => new <> [] /\ ~ lexists s new
  (* not a directory *)
  | Truncate (PStr p) _ => forall d, resolve s p true = Ok d -> is_dirobj s d = false
  (* no file that was created by its size only stands in the way *)
  | Makedirs p _ _ => forall pre n post f, names_of s p (pre ++ n :: post) -> at_names s pre = Some f -> is_large s f = false
  | _ => True
  end.

Theorem C65_calls_raise_only_OSError : forall c s o e, linux_like c -> proper_history True c s ->
  proper_call True o -> path_call o -> harmless s o ->
  fst (step o s) = Err e -> exists en, e = OSErr en.
Proof.
  intros c s o e Hl Hp Hc Hpath Hh He.
  assert (HI : II true s).
  { split; [apply (reachable_GP c s Hl), (proper_reachable True c s Hp)|]. intros _. apply (proper_H True c s Hp). }
  assert (K : okerr true e); [|destruct K as [K|[[=] _]]; exact K]. revert e He.
  change (errs (okerr true) (step o) s).
  destruct o; cbn [path_call proper_call harmless step] in *; try contradiction; apply outm_errs.
  - apply es_create_int; [exact HI|]. intros _. left. intros um0. destruct um; [apply file_mode_ldiff, Hc|exact Hc].
  - apply es_create_dir, HI.
  - apply es_symlink, HI.
  - apply es_create_link, HI.
  - apply es_bind; [apply es_symlink, HI|]. intros. apply es_end.
  - apply es_bind; [apply es_create_link, HI|]. intros. apply es_end.
  - apply es_makedir; [exact HI|intros _; exact Hc].
  - eapply es_weaken; [|apply (es_makedirs true); [exact HI|intros _; exact Hc]].
    intros e [K|(_ & pre & n & post & f & Hn & Ha & Hf)]; [exact K|]. rewrite (Hh pre n post f Hn Ha) in Hf. discriminate.
  - apply es_mknod; [exact HI|intros _; exact Hc].
  - apply es_remove, HI.
  - apply es_rmdir, HI.
  - apply es_removedirs, HI.
  - apply es_remove_object', HI.
  - eapply es_weaken; [|apply (es_rename true), HI]. intros e [K|[_ Hx]]; [exact K|]. destruct Hh as [Hne Hno]. destruct Hno.
    assert (Hg := Ginv_good s (proj1 (proj1 HI))). destruct (anp_names s new Hg) as (ns & Hns & Ea). exists ns.
    split; [apply (anp_names_of s new ns Hg Hne Hns Ea)|]. rewrite <- Ea. exact Hx.
  - apply es_chmod; [exact HI|]. intros _. destruct Hpath as [q ->]. exact Logic.I.
  - apply es_lchmod, HI.
  - apply es_utime; [exact HI|]. intros _. destruct Hpath as [[q ->] Ht]. split; [exact Logic.I|exact Ht].
  - apply es_chown; [exact HI|]. intros _. destruct Hpath as [q ->]. exact Logic.I.
  - apply es_chdir; [exact HI|]. intros _. destruct Hpath as [q ->]. exact Logic.I.
  - apply es_setxattr; [exact HI|]. intros _. destruct Hpath as [q ->]. exact Logic.I.
  - apply es_rmxattr; [exact HI|]. intros _. destruct Hpath as [q ->]. exact Logic.I.
  - destruct Hpath as [q ->]. eapply es_weaken; [|apply (es_truncate true); [exact HI|intros _; exact Logic.I]].
    intros e [K|(_ & d & Hr & Hd)]; [exact K|]. cbn [resolve_arg] in Hr. rewrite (Hh d Hr) in Hd. discriminate.
  - apply es_add_mount; [exact HI|]. intros _. apply Hc, Logic.I.
  - apply es_fs_set, HI.
  - destruct Hpath as [[q ->] Hm]. apply es_open; [exact HI|]. intros _. split; [exact Logic.I|].
    destruct (binary_mode_spec _ Hm) as (om & Ho & Hb & _). split; [exists om; exact Ho|exact Hb].
  - apply es_os_open; [exact HI|]. intros _. exact Hpath.
Qed.
Print Assumptions C65_calls_raise_only_OSError.

(** without the three conditions, what else there can be: a TypeError of
    makedirs, an AttributeError of truncate, and a KeyError or AttributeError
    of rename *)
Theorem C65_all_errors : forall c s o e, linux_like c -> proper_history True c s ->
  proper_call True o -> path_call o -> fst (step o s) = Err e ->
  (exists en, e = OSErr en) \/
  match o with
  | Rename _ new _ => e = KeyErr \/ e = AttrErr
  | Truncate _ _ => e = AttrErr
  | Makedirs _ _ _ => e = TypeErr
  | _ => False
  end.
Proof.
  intros c s o e Hl Hp Hc Hpath He.
  assert (HI : II true s).
  { split; [apply (reachable_GP c s Hl), (proper_reachable True c s Hp)|]. intros _. apply (proper_H True c s Hp). }
  destruct o;
    try (left; refine (C65_calls_raise_only_OSError c s _ e Hl Hp Hc Hpath _ He); exact Logic.I); cbn [step path_call] in *.
  - apply (outm_errs (fun _ => RUnit) _ _ s (es_makedirs true p mode exist_ok s HI (fun _ => Hc))) in He.
    destruct He as [[K|[[=] _]]|[K _]]; [left; exact K|right; exact K].
  - apply (outm_errs (fun _ => RUnit) _ _ s (es_rename true old new force s HI)) in He.
    destruct He as [[K|[[=] _]]|[K _]]; [left; exact K|right; exact K].
  - destruct Hpath as [q ->]. apply (outm_errs (fun _ => RUnit) _ _ s (es_truncate true (PStr q) n s HI (fun _ => Logic.I))) in He.
    destruct He as [[K|[[=] _]]|[K _]]; [left; exact K|right; exact K].
Qed.
Print Assumptions C65_all_errors.

(** and all three are real.
    (finding 63) renaming a file to another name of the same directory: the
    new name /a/l/x is checked with the link text d taken from the current
    directory, where /d/x is another file; then /a/l/x is removed, which is the
    file to be renamed: KeyError, and it is lost. *)
Definition c65_ops := [Mkdir (L "/a") 511; Mkdir (L "/a/d") 511; Mkdir (L "/d") 511;
  CreateFile (L "/a/d/x") 33206 (Some (L "mine")) None true true; CreateFile (L "/d/x") 33206 None None true true;
  Symlink (L "d") (L "/a/l")].
Definition c65_state := run (init posix_cfg None 18 0 0 0) c65_ops.
Lemma c65_history : proper_history True posix_cfg c65_state.
Proof.
  exists None, 18%N, 0%Z, 0%Z, 0%Z, c65_ops. split; [reflexivity|]. split; [|reflexivity].
  repeat constructor; vm_compute; try reflexivity; intros K; discriminate K.
Qed.
Theorem C65_rename_refuted :
  exists_ c65_state (L "/a/d/x") true = Ok true /\
  fst (step (Rename (L "/a/d/x") (L "/a/l/x") false) c65_state) = Err KeyErr /\
  exists_ (snd (step (Rename (L "/a/d/x") (L "/a/l/x") false) c65_state)) (L "/a/d/x") true = Ok false /\
  exists_ (snd (step (Rename (L "/a/d/x") (L "/a/l/x") false) c65_state)) (L "/a/l/x") true = Ok false.
Proof. split; [vm_compute; reflexivity|]. split; [vm_compute; reflexivity|]. split; vm_compute; reflexivity. Qed.
(** (finding 64) truncate of a directory *)
Theorem C65_truncate_refuted : fst (step (Truncate (PStr (L "/a")) 0) c65_state) = Err AttrErr.
Proof. vm_compute; reflexivity. Qed.
(** (finding 74) makedirs below a file that was created by its size *)
Definition c65_large := run (init posix_cfg None 18 0 0 0) [CreateFile (L "/big") 33206 None (Some 1000%Z) true true].
Theorem C65_makedirs_refuted : proper_history True posix_cfg c65_large /\
  fst (step (Makedirs (L "/big/a") 511 true) c65_large) = Err TypeErr /\
  (* while the same below a file with contents is an OSError *)
  fst (step (Makedirs (L "/d/x/a") 511 true) c65_state) = Err (OSErr ENOTDIR).
Proof.
  split; [|split; vm_compute; reflexivity].
  exists None, 18%N, 0%Z, 0%Z, 0%Z, [CreateFile (L "/big") 33206 None (Some 1000%Z) true true]. split; [reflexivity|]. split; [|reflexivity].
  repeat constructor; vm_compute; try reflexivity; intros K; discriminate K.
Qed.
Print Assumptions C65_rename_refuted.
Print Assumptions C65_truncate_refuted.
Print Assumptions C65_makedirs_refuted.

(** ** C66 *)

(** no call of the fake recurses without end, in any state that any calls
    (proper or not, with descriptors, handles, size limits) can lead to *)
Theorem C66_no_endless_recursion : forall c s o, linux_like c -> reachable c s -> fst (step o s) <> Err RecErr.
Proof.
  intros c s o Hl Hr He. assert (HG := reachable_GP c s Hl Hr).
  assert (HI : II false s) by (split; [exact HG|discriminate]).
  assert (K : okerr false RecErr); [|destruct K as [[x K]|[_ K]]; [discriminate|apply K; reflexivity]].
  revert He. generalize RecErr as e. change (errs (okerr false) (step o) s).
  assert (HF : forall A (m : M A), errs fin_err m s -> errs (okerr false) m s).
  { intros A m Hm. eapply es_weaken; [|exact Hm]. intros e He. right. split; [reflexivity|exact He]. }
  destruct o; cbn [step]; apply outm_errs; try (apply nr_ok; first [apply nr_write|apply nr_read|apply nr_seek|apply nr_tell|apply nr_trunc|apply nr_osread|apply nr_oswrite|apply nr_pipe|apply nr_flushw|apply es_ftruncate]).
  - apply es_create_int; [exact HI|discriminate].
  - apply es_create_dir, HI.
  - apply es_symlink, HI.
  - apply es_create_link, HI.
  - apply es_bind; [apply es_symlink, HI|]. intros. apply es_end.
  - apply es_bind; [apply es_create_link, HI|]. intros. apply es_end.
  - apply es_makedir; [exact HI|discriminate].
  - eapply es_weaken; [|apply (es_makedirs false); [exact HI|discriminate]]. intros e [K|[-> _]]; [exact K|right; split; [reflexivity|discriminate]].
  - apply es_mknod; [exact HI|discriminate].
  - apply es_remove, HI.
  - apply es_rmdir, HI.
  - apply es_removedirs, HI.
  - apply es_remove_object', HI.
  - eapply es_weaken; [|apply (es_rename false), HI]. intros e [K|[[-> | ->] _]]; [exact K|right; split; [reflexivity|discriminate]..].
  - apply es_chmod; [exact HI|discriminate].
  - apply es_lchmod, HI.
  - apply es_utime; [exact HI|discriminate].
  - apply es_chown; [exact HI|discriminate].
  - apply nr_ok. unfold umask. nr.
  - apply es_chdir; [exact HI|discriminate].
  - apply es_setxattr; [exact HI|discriminate].
  - apply es_rmxattr; [exact HI|discriminate].
  - eapply es_weaken; [|apply (es_truncate false); [exact HI|discriminate]]. intros e [K|[-> _]]; [exact K|right; split; [reflexivity|discriminate]].
  - apply es_add_mount; [exact HI|discriminate].
  - apply HF, es_set_usage, HG.
  - apply HF, es_get_usage, HG.
  - apply es_fs_set, HI.
  - apply es_open; [exact HI|discriminate].
  - apply es_os_open; [exact HI|discriminate].
  - apply es_os_close, HG.
  - apply es_close_wrapper, HG.
  - apply nr_ok. nr.
  - apply nr_ok. nr.
  - apply nr_ok. nr.
Qed.
Print Assumptions C66_no_endless_recursion.

(** ** Cases *)
Example C65_case : linux_like posix_cfg /\ proper_history True posix_cfg c65_state /\
  (* the conditions of C65 are met, and the calls fail *)
  path_call (Rename (L "/a/d") (L "/a/d/q") false) /\ harmless c65_state (Rename (L "/a/d") (L "/a/d/q") false) /\
  fst (step (Rename (L "/a/d") (L "/a/d/q") false) c65_state) = Err (OSErr EINVAL) /\
  fst (step (Rmdir (L "/a")) c65_state) = Err (OSErr ENOTEMPTY) /\
  fst (step (Open (PStr (L "/a/l")) (L "wb") (-1) true) c65_state) = Err (OSErr EISDIR) /\
  (* a loop of links does not recurse without end *)
  fst (step (Chmod (PStr (L "/o/x")) 511 true) (run c65_state [Symlink (L "/p") (L "/o"); Symlink (L "/o") (L "/p")])) = Err (OSErr ELOOP).
Proof.
  split; [exact posix_cfg_linux|]. split; [exact c65_history|]. split; [exact Logic.I|]. split.
  - cbn [harmless]. split; [discriminate|]. intros (ns & Hn & He).
    assert (Hg : good c65_state) by (apply Ginv_good, (reachable_GP posix_cfg c65_state posix_cfg_linux), (proper_reachable True), c65_history).
    destruct (names_of_anp c65_state (L "/a/d/q") ns Hg ltac:(discriminate) Hn) as [_ Ea]. rewrite <- Ea in He.
    revert He. vm_compute. intros K. discriminate K.
  - repeat split; vm_compute; reflexivity.
Qed.

