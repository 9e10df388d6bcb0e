(** * Specification vocabulary for case-insensitive filesystems (C52). *)
From Verif Require Export FsSpec.

(** A case-insensitive POSIX-like configuration ([fs.os = OSType.MACOS], or
    [fs.is_case_sensitive = False] on Linux). *)
Record ci_like (c : cfg) : Prop := {
  ci_win : c_win c = false;
  ci_cs  : c_cs c = false;
  ci_alt : c_alt c = None;
  ci_sep : c_sep c = slash
}.

(** Two names, or lists of names, that differ in the case of letters only. *)
Definition same_letters (a b : str) : Prop := lower a = lower b.
Definition spelling (real names : list str) : Prop := Forall2 same_letters real names.

(** No directory holds two names that differ in case only. *)
Definition one_spelling (s : fs) : Prop :=
  forall d, NoDup (map (fun e => lower (fst e)) (ents s d)).

(** The absolute path of [names] is, up to case, that of the null device. *)
Definition null_spelled (s : fs) (names : list str) : Prop :=
  names <> [] /\ same_letters (abs_path slash names) (devnull_name s).

(** No spelling of the path of [names] meets a symbolic link. *)
Definition no_link_spelled (s : fs) (names : list str) : Prop :=
  forall pre rest real o, names = pre ++ rest -> spelling real pre ->
    at_names s real = Some o -> is_link s o = false.

(** The state is sane: an absolute current directory, no directory object with
    the mode bits of a link, and a root that is a directory. *)
Record sane (s : fs) : Prop := {
  sn_cwd : is_abs slash (f_cwd s) = true;
  sn_dnl : forall o, is_dirobj s o = true -> is_link s o = false;
  sn_root : is_dirobj s root_oid = true
}.

(** The same filesystem with every name and link text in lower case, looked at
    as a case-sensitive one. *)
Definition fold_body (mode : N) (b : body) : body :=
  match b with
  | BDir es => BDir (map (fun e => (lower (fst e), snd e)) es)
  | BFile (Some t) => if S_ISLNK mode then BFile (Some (lower t)) else b
  | BFile None => b
  end.
Definition fold_obj (x : fobj) : fobj :=
  mkobj (lower (o_name x)) (o_mode x) (o_ino x) (o_dev x) (o_nlink x) (o_uid x) (o_gid x) (o_size x)
    (fold_body (o_mode x) (o_body x)) (o_epoch x) (o_parent x) (o_atime x) (o_mtime x) (o_ctime x) (o_xattr x).
Definition folded (s : fs) : fs :=
  mkfs posix_cfg (fun o => fold_obj (f_heap s o)) (f_next s) (lower (f_cwd s)) (f_umask s) (f_rumask s)
    (f_open s) (f_free s) (f_wraps s) (f_wnext s) (f_ino s) (f_dev s) (f_mounts s) (f_uid s) (f_gid s) (f_now s).
