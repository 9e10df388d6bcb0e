(** * State of the fake filesystem and its read-only functions.

    Models /repo/pyfakefs/fake_filesystem.py: FakeFile (238-520), FakeDirectory
    (614-776), FakeFilesystem state (855-910) and the lookup functions
    1161-1216, 1335-1362, 1437-1476, 1752-2096, 2909-2996, 3070-3087.

    Elsewhere: FakeFileFromRealFile (AddRealModel.v),
    FakeDirectoryFromRealDirectory (LazyModel.v), dir_fd (DirFdModel.v),
    encodings (TextModel.v).  Not modelled: [bytes] / [os.PathLike] paths,
    user side effects, warnings. *)
From Verif Require Export PathModel.

(** ** Exceptions *)
Inductive errno :=
| ENOENT | EEXIST | ENOTDIR | EISDIR | EACCES | EPERM | EINVAL | ELOOP
| ENOTEMPTY | EBUSY | EXDEV | ENOSPC | EBADF | ENODATA.

Inductive exn :=
| OSErr (e : errno)
| KeyErr | AttrErr | TypeErr | ValueErr | AssertErr | NotImpl | IndexErr
| Unsupported           (* io.UnsupportedOperation *)
| LargeFile             (* FakeLargeFileIoException *)
| RecErr.               (* fuel exhausted: excluded by the theorems *)

Inductive res (A : Type) := Ok (a : A) | Err (e : exn).
Arguments Ok {A} a.
Arguments Err {A} e.

Definition rbind {A B} (m : res A) (k : A -> res B) : res B :=
  match m with Ok a => k a | Err e => Err e end.
Notation "'let*' x := m 'in' k" := (rbind m (fun x => k))
  (at level 200, x pattern, m at level 100, k at level 200).
Definition os_err {A} (e : errno) : res A := Err (OSErr e).
Definition is_os_err (e : exn) : bool := match e with OSErr _ => true | _ => false end.

(** ** Mode bits (stat module; 123-128) *)
Definition S_IFMT_mask : N := 61440.   (* 0o170000 *)
Definition S_IFDIR : N := 16384.       (* 0o040000 *)
Definition S_IFREG : N := 32768.       (* 0o100000 *)
Definition S_IFLNK : N := 40960.       (* 0o120000 *)
Definition PERM_READ : N := 256.
Definition PERM_WRITE : N := 128.
Definition PERM_EXE : N := 64.
Definition PERM_DEF : N := 511.
Definition PERM_DEF_FILE : N := 438.
Definition PERM_ALL : N := 4095.
Definition S_IFMT (m : N) : N := N.land m S_IFMT_mask.
Definition S_ISLNK (m : N) : bool := N.eqb (S_IFMT m) S_IFLNK.
Definition S_ISDIR (m : N) : bool := N.eqb (S_IFMT m) S_IFDIR.
Definition S_ISREG (m : N) : bool := N.eqb (S_IFMT m) S_IFREG.
(** truth value of [mode & bit] *)
Definition has_bit (m b : N) : bool := negb (N.eqb (N.land m b) 0).

(** ** Objects: FakeFile (265-304) and FakeDirectory (614-630) *)
Definition oid := nat.

(** [_byte_contents]: a dict of children for a FakeDirectory, bytes for a
    FakeFile, or [None] (a FakeFile without contents: a "large file", or one
    just created). *)
Inductive body :=
| BDir (entries : list (str * oid))
| BFile (data : option str).

(** FakeFile attributes and its FakeStatResult (helpers.py 71-93).  Times are
    integers (nanoseconds); floating point rounding is not modelled. *)
Record fobj := mkobj {
  o_name   : str;
  o_mode   : N;
  o_ino    : option nat;
  o_dev    : option nat;
  o_nlink  : Z;
  o_uid    : Z;
  o_gid    : Z;
  o_size   : Z;
  o_body   : body;
  o_epoch  : nat;
  o_parent : option oid;
  o_atime  : Z;
  o_mtime  : Z;
  o_ctime  : Z;
  o_xattr  : list (str * str)
}.

(** ** Open file wrappers *)
Definition wid := nat.
Inductive wkind := WStd | WDirW | WPipe | WFile.

(** FakeFileWrapper (4642-4691, binary mode), StandardStreamWrapper (5073),
    FakeDirWrapper (5096) and FakePipeWrapper (5120).  [w_buf]/[w_pos] are the
    value and the position of [self._io], an [io.BytesIO]. *)
Record wrapper := mkwrap {
  w_kind    : wkind;
  w_obj     : oid;
  w_append  : bool;
  w_read    : bool;
  w_update  : bool;
  w_closefd : bool;
  w_raw     : bool;
  w_del     : bool;
  w_bufsize : Z;
  w_epoch   : nat;
  w_changed : bool;
  w_buf     : str;
  w_pos     : nat;
  w_rseek   : Z;
  w_rwhence : nat;
  w_fpos    : nat;
  w_fd      : Z
}.

(** mount_points values, 1045-1047 *)
Record mount := mkmount { m_idev : nat; m_total : option Z; m_used : Z }.

(** FakeFilesystem attributes, 871-910, plus the module globals USER_ID /
    GROUP_ID (157-208), the process umask read by FakeOsModule._umask, and the
    clock read by [time.time()].  Objects and wrappers live in heaps indexed by
    natural numbers; [f_next], [f_wnext] are the next free indices.  Python
    object identity is equality of indices. *)
Record fs := mkfs {
  f_cfg    : cfg;
  f_heap   : oid -> fobj;
  f_next   : nat;
  f_cwd    : str;
  f_umask  : N;
  f_rumask : N;
  f_open   : list (option (list wid));
  f_free   : list Z;
  f_wraps  : wid -> wrapper;
  f_wnext  : nat;
  f_ino    : nat;
  f_dev    : nat;
  f_mounts : list (str * mount);
  f_uid    : Z;
  f_gid    : Z;
  f_now    : Z
}.

(** Record updates *)
Definition set_heap s h := mkfs (f_cfg s) h (f_next s) (f_cwd s) (f_umask s) (f_rumask s) (f_open s) (f_free s) (f_wraps s) (f_wnext s) (f_ino s) (f_dev s) (f_mounts s) (f_uid s) (f_gid s) (f_now s).
Definition set_next s n := mkfs (f_cfg s) (f_heap s) n (f_cwd s) (f_umask s) (f_rumask s) (f_open s) (f_free s) (f_wraps s) (f_wnext s) (f_ino s) (f_dev s) (f_mounts s) (f_uid s) (f_gid s) (f_now s).
Definition set_cwd s x := mkfs (f_cfg s) (f_heap s) (f_next s) x (f_umask s) (f_rumask s) (f_open s) (f_free s) (f_wraps s) (f_wnext s) (f_ino s) (f_dev s) (f_mounts s) (f_uid s) (f_gid s) (f_now s).
Definition set_umask s x := mkfs (f_cfg s) (f_heap s) (f_next s) (f_cwd s) x (f_rumask s) (f_open s) (f_free s) (f_wraps s) (f_wnext s) (f_ino s) (f_dev s) (f_mounts s) (f_uid s) (f_gid s) (f_now s).
Definition set_open s x := mkfs (f_cfg s) (f_heap s) (f_next s) (f_cwd s) (f_umask s) (f_rumask s) x (f_free s) (f_wraps s) (f_wnext s) (f_ino s) (f_dev s) (f_mounts s) (f_uid s) (f_gid s) (f_now s).
Definition set_free s x := mkfs (f_cfg s) (f_heap s) (f_next s) (f_cwd s) (f_umask s) (f_rumask s) (f_open s) x (f_wraps s) (f_wnext s) (f_ino s) (f_dev s) (f_mounts s) (f_uid s) (f_gid s) (f_now s).
Definition set_wraps s x := mkfs (f_cfg s) (f_heap s) (f_next s) (f_cwd s) (f_umask s) (f_rumask s) (f_open s) (f_free s) x (f_wnext s) (f_ino s) (f_dev s) (f_mounts s) (f_uid s) (f_gid s) (f_now s).
Definition set_wnext s x := mkfs (f_cfg s) (f_heap s) (f_next s) (f_cwd s) (f_umask s) (f_rumask s) (f_open s) (f_free s) (f_wraps s) x (f_ino s) (f_dev s) (f_mounts s) (f_uid s) (f_gid s) (f_now s).
Definition set_ino s x := mkfs (f_cfg s) (f_heap s) (f_next s) (f_cwd s) (f_umask s) (f_rumask s) (f_open s) (f_free s) (f_wraps s) (f_wnext s) x (f_dev s) (f_mounts s) (f_uid s) (f_gid s) (f_now s).
Definition set_dev s x := mkfs (f_cfg s) (f_heap s) (f_next s) (f_cwd s) (f_umask s) (f_rumask s) (f_open s) (f_free s) (f_wraps s) (f_wnext s) (f_ino s) x (f_mounts s) (f_uid s) (f_gid s) (f_now s).
Definition set_mounts s x := mkfs (f_cfg s) (f_heap s) (f_next s) (f_cwd s) (f_umask s) (f_rumask s) (f_open s) (f_free s) (f_wraps s) (f_wnext s) (f_ino s) (f_dev s) x (f_uid s) (f_gid s) (f_now s).
Definition set_uid s x := mkfs (f_cfg s) (f_heap s) (f_next s) (f_cwd s) (f_umask s) (f_rumask s) (f_open s) (f_free s) (f_wraps s) (f_wnext s) (f_ino s) (f_dev s) (f_mounts s) x (f_gid s) (f_now s).
Definition set_gid s x := mkfs (f_cfg s) (f_heap s) (f_next s) (f_cwd s) (f_umask s) (f_rumask s) (f_open s) (f_free s) (f_wraps s) (f_wnext s) (f_ino s) (f_dev s) (f_mounts s) (f_uid s) x (f_now s).
Definition set_now s x := mkfs (f_cfg s) (f_heap s) (f_next s) (f_cwd s) (f_umask s) (f_rumask s) (f_open s) (f_free s) (f_wraps s) (f_wnext s) (f_ino s) (f_dev s) (f_mounts s) (f_uid s) (f_gid s) x.

Definition wo_name o x := mkobj x (o_mode o) (o_ino o) (o_dev o) (o_nlink o) (o_uid o) (o_gid o) (o_size o) (o_body o) (o_epoch o) (o_parent o) (o_atime o) (o_mtime o) (o_ctime o) (o_xattr o).
Definition wo_mode o x := mkobj (o_name o) x (o_ino o) (o_dev o) (o_nlink o) (o_uid o) (o_gid o) (o_size o) (o_body o) (o_epoch o) (o_parent o) (o_atime o) (o_mtime o) (o_ctime o) (o_xattr o).
Definition wo_ino o x := mkobj (o_name o) (o_mode o) x (o_dev o) (o_nlink o) (o_uid o) (o_gid o) (o_size o) (o_body o) (o_epoch o) (o_parent o) (o_atime o) (o_mtime o) (o_ctime o) (o_xattr o).
Definition wo_dev o x := mkobj (o_name o) (o_mode o) (o_ino o) x (o_nlink o) (o_uid o) (o_gid o) (o_size o) (o_body o) (o_epoch o) (o_parent o) (o_atime o) (o_mtime o) (o_ctime o) (o_xattr o).
Definition wo_nlink o x := mkobj (o_name o) (o_mode o) (o_ino o) (o_dev o) x (o_uid o) (o_gid o) (o_size o) (o_body o) (o_epoch o) (o_parent o) (o_atime o) (o_mtime o) (o_ctime o) (o_xattr o).
Definition wo_uid o x := mkobj (o_name o) (o_mode o) (o_ino o) (o_dev o) (o_nlink o) x (o_gid o) (o_size o) (o_body o) (o_epoch o) (o_parent o) (o_atime o) (o_mtime o) (o_ctime o) (o_xattr o).
Definition wo_gid o x := mkobj (o_name o) (o_mode o) (o_ino o) (o_dev o) (o_nlink o) (o_uid o) x (o_size o) (o_body o) (o_epoch o) (o_parent o) (o_atime o) (o_mtime o) (o_ctime o) (o_xattr o).
Definition wo_size o x := mkobj (o_name o) (o_mode o) (o_ino o) (o_dev o) (o_nlink o) (o_uid o) (o_gid o) x (o_body o) (o_epoch o) (o_parent o) (o_atime o) (o_mtime o) (o_ctime o) (o_xattr o).
Definition wo_body o x := mkobj (o_name o) (o_mode o) (o_ino o) (o_dev o) (o_nlink o) (o_uid o) (o_gid o) (o_size o) x (o_epoch o) (o_parent o) (o_atime o) (o_mtime o) (o_ctime o) (o_xattr o).
Definition wo_epoch o x := mkobj (o_name o) (o_mode o) (o_ino o) (o_dev o) (o_nlink o) (o_uid o) (o_gid o) (o_size o) (o_body o) x (o_parent o) (o_atime o) (o_mtime o) (o_ctime o) (o_xattr o).
Definition wo_parent o x := mkobj (o_name o) (o_mode o) (o_ino o) (o_dev o) (o_nlink o) (o_uid o) (o_gid o) (o_size o) (o_body o) (o_epoch o) x (o_atime o) (o_mtime o) (o_ctime o) (o_xattr o).
Definition wo_atime o x := mkobj (o_name o) (o_mode o) (o_ino o) (o_dev o) (o_nlink o) (o_uid o) (o_gid o) (o_size o) (o_body o) (o_epoch o) (o_parent o) x (o_mtime o) (o_ctime o) (o_xattr o).
Definition wo_mtime o x := mkobj (o_name o) (o_mode o) (o_ino o) (o_dev o) (o_nlink o) (o_uid o) (o_gid o) (o_size o) (o_body o) (o_epoch o) (o_parent o) (o_atime o) x (o_ctime o) (o_xattr o).
Definition wo_ctime o x := mkobj (o_name o) (o_mode o) (o_ino o) (o_dev o) (o_nlink o) (o_uid o) (o_gid o) (o_size o) (o_body o) (o_epoch o) (o_parent o) (o_atime o) (o_mtime o) x (o_xattr o).
Definition wo_xattr o x := mkobj (o_name o) (o_mode o) (o_ino o) (o_dev o) (o_nlink o) (o_uid o) (o_gid o) (o_size o) (o_body o) (o_epoch o) (o_parent o) (o_atime o) (o_mtime o) (o_ctime o) x.

(** Heap access *)
Definition ob (s : fs) (o : oid) : fobj := f_heap s o.
Definition upd {A} (h : nat -> A) (k : nat) (v : A) : nat -> A :=
  fun x => if Nat.eqb x k then v else h x.
Definition mod_ob (s : fs) (o : oid) (f : fobj -> fobj) : fs :=
  set_heap s (upd (f_heap s) o (f (f_heap s o))).
Definition wr (s : fs) (w : wid) : wrapper := f_wraps s w.

(** self.root and self.dev_null *)
Definition root_oid : oid := 0.
Definition devnull_oid : oid := 1.

(** self.dev_null.name: initially the name given by FakeNullFile.__init__
    (555-558); hard linking the object changes it (2740). *)
Definition devnull_init_name (c : cfg) : str := if c_win c then L "nul" else L "/dev/null".
Definition devnull_name (s : fs) : str := o_name (ob s devnull_oid).

(** is_root(), 206-208 *)
Definition is_root (s : fs) : bool := Z.eqb (f_uid s) 0.

(** [isinstance(obj, FakeDirectory)] and [obj.contents] of a directory *)
Definition is_dirobj (s : fs) (o : oid) : bool :=
  match o_body (ob s o) with BDir _ => true | BFile _ => false end.
Definition ents (s : fs) (o : oid) : list (str * oid) :=
  match o_body (ob s o) with BDir es => es | BFile _ => [] end.

(** FakeStatResult.st_size, helpers.py 193-201 *)
Definition st_size (s : fs) (o : oid) : Z :=
  if c_win (f_cfg s) && N.eqb (N.land (o_mode (ob s o)) S_IFLNK) S_IFLNK then 0%Z
  else o_size (ob s o).

(** FakeFile.size (438-442) and FakeDirectory.size (741-745) *)
Fixpoint obj_size (fuel : nat) (s : fs) (o : oid) : Z :=
  match o_body (ob s o) with
  | BFile _ => st_size s o
  | BDir es =>
      match fuel with
      | O => 0%Z
      | S n => fold_left (fun acc e => (acc + obj_size n s (snd e))%Z) es 0%Z
      end
  end.

(** [obj.contents] of a FakeFile used as a link or file text, 307-314: [None]
    has no string methods, a dict neither. *)
Definition text_contents (s : fs) (o : oid) : res str :=
  match o_body (ob s o) with
  | BFile (Some b) => Ok b
  | _ => Err AttrErr
  end.

(** ** Case handling *)
Fixpoint find_lower (nm : str) (es : list (str * oid)) : option (str * oid) :=
  match es with
  | [] => None
  | (k, o) :: es' => if str_eqb (lower k) (lower nm) then Some (k, o) else find_lower nm es'
  end.

(** _directory_content, 1752-1764 *)
Definition directory_content (s : fs) (d : oid) (comp : str) : option (str * oid) :=
  match o_body (ob s d) with
  | BFile _ => None
  | BDir es =>
      match assoc comp es with
      | Some o => Some (comp, o)
      | None => if negb (c_cs (f_cfg s)) then find_lower comp es else None
      end
  end.

(** FakeDirectory._normalized_entryname, 692-698 *)
Definition normalized_entryname (s : fs) (d : oid) (nm : str) : str :=
  if negb (c_cs (f_cfg s)) then
    match find_lower nm (ents s d) with Some (k, _) => k | None => nm end
  else nm.

(** FakeDirectory.get_entry, 678-690 *)
Definition get_entry (s : fs) (d : oid) (nm : str) : res oid :=
  match o_body (ob s d) with
  | BFile _ => Err AttrErr
  | BDir es => match assoc (normalized_entryname s d nm) es with
               | Some o => Ok o
               | None => Err KeyErr
               end
  end.

(** The loop of _original_path, 1465-1475: the normalized components found. *)
Fixpoint orig_walk (s : fs) (cur : oid) (comps : list str) : list str :=
  match comps with
  | [] => []
  | comp :: rest =>
      if is_dirobj s cur then
        match directory_content s cur comp with
        | None => []
        | Some (nm, o) => nm :: orig_walk s o rest
        end
      else []
  end.

(** _original_path, 1437-1476 *)
Definition original_path (s : fs) (p : str) : str :=
  if c_cs (f_cfg s) || str_eqb p [] then p
  else
    let comps := path_components (f_cfg s) p in
    let norm := orig_walk s root_oid comps in
    let norm := norm ++ skipn (length norm) comps in
    let q := join_with [c_sep (f_cfg s)] norm in
    if starts_with_sep (f_cfg s) p && negb (starts_with_sep (f_cfg s) q)
    then c_sep (f_cfg s) :: q else q.

(** absnormpath in the current directory *)
Definition anp (s : fs) (p : str) : str := absnormpath (f_cfg s) (f_cwd s) p.

(** ** obj.path, 444-465 *)
(** names from the root down to [o]; [None] if the parent chain is longer than
    the number of objects (impossible in reachable states) *)
Fixpoint chain_names (fuel : nat) (s : fs) (o : oid) : option (list str) :=
  match fuel with
  | O => None
  | S n =>
      match o_parent (ob s o) with
      | None => Some [o_name (ob s o)]
      | Some d => match chain_names n s d with
                  | Some l => Some (l ++ [o_name (ob s o)])
                  | None => None
                  end
      end
  end.

Definition is_drive_name (w : str) : bool :=
  match w with [_; b] => Ascii.eqb b colon | _ => false end.

Definition obj_path (s : fs) (o : oid) : res str :=
  let sp := c_sep (f_cfg s) in
  match chain_names (S (f_next s)) s o with
  | None => Err RecErr
  | Some names =>
      let dir_path :=
        match names with
        | n0 :: rest =>
            if str_eqb n0 [sp] then
              match rest with
              | w :: _ => if is_drive_name w then join_with [sp] rest
                          else sp :: join_with [sp] rest
              | [] => [sp]
              end
            else join_with [sp] names
        | [] => []
        end in
      Ok (anp s dir_path)
  end.

(** ** Resolution *)

(** What happens walking real components from [cur] (the inner part of the
    loop of _resolve_components, 1874-1903): either all is consumed, or a
    symbolic link is met. *)
Inductive wres :=
| WDone (resolved : list str)
| WLink (resolved : list str) (link : oid) (rest : list str).

Fixpoint walk_comps (s : fs) (cur : oid) (resolved comps : list str) : wres :=
  match comps with
  | [] => WDone resolved
  | comp :: rest =>
      let resolved' := resolved ++ [comp] in
      match directory_content s cur comp with
      | None => WDone (resolved' ++ rest)
      | Some (_, o) =>
          if S_ISLNK (o_mode (ob s o)) then WLink resolved' o rest
          else walk_comps s o resolved' rest
      end
  end.

(** [link_path.startswith('\\\\?\\')] prefix removal of _follow_link, 1942-1944 *)
Definition strip_unc_prefix (c : cfg) (p : str) : str :=
  if c_win c && starts_with ext_prefix p then skipn 4 p else p.

(** _follow_link, 1919-1961 *)
Definition follow_link (s : fs) (resolved : list str) (link : oid) : res str :=
  let c := f_cfg s in
  let* contents := text_contents s link in
  let link_path := strip_unc_prefix c contents in
  let link_path :=
    if negb (starts_with_root_path c link_path)
    then join_with [c_sep c] (removelast resolved ++ [link_path])
    else link_path in
  Ok (normpath c link_path).

(** _MAX_LINK_DEPTH, 150-155 (Linux): the test [link_depth > 40] lets 41 links
    be followed. *)
Definition max_links : nat := 41.

(** _resolve_components, 1870-1906.  [budget] is the number of links that may
    still be followed. *)
Fixpoint resolve_components (budget : nat) (s : fs) (comps : list str) : res (list str) :=
  match walk_comps s root_oid [] comps with
  | WDone r => Ok r
  | WLink r link rest =>
      match budget with
      | O => os_err ELOOP
      | S n =>
          let* lp := follow_link s r link in
          resolve_components n s (path_components (f_cfg s) lp ++ rest)
      end
  end.

(** The functions from here to [exists_n] are mutually recursive in the code:
    exists -> resolve_path -> _valid_relative_path -> exists.  They are
    written with the recursive call to [self.exists] as the parameter [ex]. *)
Section Rec.
Variable ex : str -> res bool.

(** _valid_relative_path, 1908-1917; the loop shortens the path each time *)
Fixpoint valid_rel (fuel : nat) (s : fs) (p : str) : res bool :=
  if c_win (f_cfg s) then Ok true else
  match rfind_pre [c_sep (f_cfg s); dotc; dotc] p with
  | None => Ok true
  | Some pre =>
      match fuel with
      | O => Err RecErr
      | S n =>
          let* b := ex (anp s pre) in
          if b then valid_rel n s pre else Ok false
      end
  end.

(** resolve_path for a string, 1804-1860 (a descriptor is handled by
    [resolve_path_arg] below) *)
Definition resolve_path_ (s : fs) (p : str) : res str :=
  if str_eqb p [] then os_err ENOENT else
  let* v := valid_rel (length p) s p in
  if negb v then os_err ENOENT else
  let p := anp s (original_path s p) in
  if is_root_path (f_cfg s) p then Ok p
  else if str_eqb p (devnull_name s) then Ok p
  else
    let* comps := resolve_components max_links s (path_components (f_cfg s) p) in
    Ok (components_to_path (f_cfg s) comps).

(** The loop of get_object_from_normpath, 1986-2000.  [rl] resolves the
    contents of a link ([self.resolve(target_object.contents)]). *)
Fixpoint norm_walk (rl : str -> res oid) (s : fs) (check : bool) (target : oid)
    (comps : list str) : res oid :=
  match comps with
  | [] => Ok target
  | comp :: rest =>
      let* target :=
        if S_ISLNK (o_mode (ob s target))
        then let* t := text_contents s target in rl t
        else Ok target in
      if negb (S_ISDIR (o_mode (ob s target)))
      then os_err (if c_win (f_cfg s) then ENOENT else ENOTDIR)
      else
        match get_entry s target comp with
        | Err KeyErr => os_err ENOENT
        | Err e => Err e
        | Ok o =>
            if negb (is_root s) && check && negb (has_bit (o_mode (ob s o)) PERM_READ)
            then os_err EACCES
            else norm_walk rl s check o rest
        end
  end.

(** get_object_from_normpath, 1963-2002 *)
Definition get_norm (rl : str -> res oid) (s : fs) (p : str) (check : bool) : res oid :=
  if str_eqb p [c_sep (f_cfg s)] then Ok root_oid
  else if str_eqb p (devnull_name s) then Ok devnull_oid
  else norm_walk rl s check root_oid (path_components (f_cfg s) (original_path s p)).

(** resolve(path, follow_symlinks=True), 2023-2051.  After resolve_path no
    component is a link, so the recursive call inside
    get_object_from_normpath is not reached (lemma [resolve_no_link] for
    case-sensitive configurations). *)
Definition resolve_ (s : fs) (p : str) (check : bool) : res oid :=
  let* rp := resolve_path_ s p in
  get_norm (fun _ => Err RecErr) s rp check.

(** lresolve, 2053-2096 *)
Definition lresolve_ (s : fs) (p : str) : res oid :=
  let c := f_cfg s in
  if str_eqb p [] then os_err ENOENT
  else if str_eqb p [c_sep c] then Ok root_oid
  else
    let p := path_without_trailing_separators c p in
    let p := if str_eqb p dot then f_cwd s else p in
    let p := original_path s p in
    let (parent, child) := splitpath c p in
    let parent := if str_eqb parent [] then f_cwd s else parent in
    let* parent_obj := resolve_ s parent true in
    if negb (is_dirobj s parent_obj)
    then os_err (if c_win c then ENOENT else ENOTDIR)
    else if negb (has_bit (o_mode (ob s parent_obj)) PERM_READ) then os_err EACCES
    else if str_eqb child [] then Ok parent_obj
    else match get_entry s parent_obj child with
         | Err KeyErr => os_err ENOENT
         | r => r
         end.

Definition resolve_any (s : fs) (p : str) (follow check : bool) : res oid :=
  if follow then resolve_ s p check else lresolve_ s p.

(** raise_for_filepath_ending_with_separator, 1190-1215 *)
Definition raise_for_sep_ (s : fs) (p : str) (obj : oid) (follow macos_handling : bool) : res unit :=
  let c := f_cfg s in
  if ends_with_path_separator c p then
    let check obj :=
      let m := o_mode (ob s obj) in
      let is_error :=
        if c_win c then S_ISREG m
        else if c_mac c && macos_handling then negb (S_ISLNK m)
        else negb (S_ISDIR m) in
      if is_error then os_err (if c_win c then EINVAL else ENOTDIR) else Ok tt in
    if S_ISLNK (o_mode (ob s obj)) then
      match resolve_ s p true with
      | Ok l => check (if negb follow || c_win c || c_mac c then l else obj)
      | Err (OSErr e) =>
          if c_mac c && (match e with ENOENT => false | _ => true end) then Ok tt
          else if c_win c then os_err EINVAL
          else os_err e
      | Err e => Err e
      end
    else check obj
  else Ok tt.

(** _is_of_type, 2909-2935 *)
Definition is_of_type_ (s : fs) (p : str) (flag : N) (follow : bool) : res bool :=
  match (let* obj := resolve_any s p follow true in
         let* _ := raise_for_sep_ s p obj true (negb follow) in
         Ok (N.eqb (S_IFMT (o_mode (ob s obj))) flag)) with
  | Ok b => Ok b
  | Err (OSErr _) => Ok false
  | Err e => Err e
  end.

(** The last loop of exists, 1796-1802 *)
Fixpoint exists_walk (s : fs) (cur : oid) (comps : list str) : bool :=
  match comps with
  | [] => true
  | comp :: rest =>
      match directory_content s cur comp with
      | None => false
      | Some (_, o) => exists_walk s o rest
      end
  end.

(** exists, 1766-1802, Python >= 3.8 *)
Definition exists_body (s : fs) (p : str) (check_link : bool) : res bool :=
  let c := f_cfg s in
  let* l := if check_link then is_of_type_ s p S_IFLNK false else Ok false in
  if l then Ok true
  else if str_eqb p [] then Ok false
  else if str_eqb p (devnull_name s) then Ok true
  else
    match (let* b :=
             (* is_filepath_ending_with_separator, 1747-1750 *)
             if ends_with_path_separator c p
             then is_of_type_ s (path_without_trailing_separators c p) S_IFREG true
             else Ok false in
           if b then Ok None else
           let* rp := resolve_path_ s p in Ok (Some rp)) with
    | Err (OSErr _) => Ok false
    | Err e => Err e
    | Ok None => Ok false
    | Ok (Some rp) =>
        if str_eqb rp [c_sep c] then Ok true
        else Ok (exists_walk s root_oid (path_components c rp))
    end.
End Rec.

(** Tie the knot: the recursion happens on shorter and shorter paths. *)
Fixpoint exists_n (fuel : nat) (s : fs) (p : str) : res bool :=
  match fuel with
  | O => Err RecErr
  | S n => exists_body (exists_n n s) s p false
  end.

(** self.exists(p) as called from _valid_relative_path *)
Definition exists_top (s : fs) (p : str) : res bool := exists_n (S (length p)) s p.

(** The public functions *)
Definition resolve_path (s : fs) (p : str) := resolve_path_ (exists_top s) s p.
Definition resolve (s : fs) (p : str) (check : bool) := resolve_ (exists_top s) s p check.
Definition lresolve (s : fs) (p : str) := lresolve_ (exists_top s) s p.
Definition resolve_follow (s : fs) (p : str) (follow check : bool) := resolve_any (exists_top s) s p follow check.
Definition raise_for_sep (s : fs) p obj follow mac := raise_for_sep_ (exists_top s) s p obj follow mac.
Definition is_of_type (s : fs) p flag follow := is_of_type_ (exists_top s) s p flag follow.
Definition exists_ (s : fs) (p : str) (check_link : bool) := exists_body (exists_top s) s p check_link.
Definition islink (s : fs) (p : str) := is_of_type s p S_IFLNK false.
Definition isdir (s : fs) (p : str) (follow : bool) := is_of_type s p S_IFDIR follow.
Definition isfile (s : fs) (p : str) (follow : bool) := is_of_type s p S_IFREG follow.

(** get_object, 2004-2021 *)
Definition get_object (s : fs) (p : str) (check : bool) : res oid :=
  get_norm (fun t => resolve s t true) s (anp s (original_path s p)) check.

(** confirmdir, 2979-2996 *)
Definition confirmdir (s : fs) (p : str) : res oid :=
  let* d := resolve s p true in
  if negb (has_bit (o_mode (ob s d)) S_IFDIR) then os_err ENOTDIR else Ok d.

(** ** Descriptors *)

(** Python list indexing with a possibly negative integer *)
Definition py_index {A} (l : list A) (i : Z) : option A :=
  if (i <? 0)%Z then
    if (Z.of_nat (length l) + i <? 0)%Z then None
    else nth_error l (Z.to_nat (Z.of_nat (length l) + i))
  else nth_error l (Z.to_nat i).

(** get_open_file, 1335-1353 *)
Definition get_open_file (s : fs) (fd : Z) : res wid :=
  if (Z.of_nat (length (f_open s)) <=? fd)%Z then os_err EBADF
  else match py_index (f_open s) fd with
       | None => Err IndexErr
       | Some None => os_err EBADF
       | Some (Some []) => Err IndexErr
       | Some (Some (w :: _)) => Ok w
       end.

(** get_open_file(fd).get_object(), used as a FakeFile: the standard streams
    (5081) and pipes (5139) have no FakeFile attributes *)
Definition fd_object (s : fs) (fd : Z) : res oid :=
  let* w := get_open_file s fd in
  match w_kind (wr s w) with
  | WFile | WDirW => Ok (w_obj (wr s w))
  | WStd | WPipe => Err AttrErr
  end.

(** has_open_file, 1355-1365 *)
Definition has_open_file (s : fs) (o : oid) : bool :=
  existsb (fun slot => match slot with
                       | Some (w :: _) =>
                           match w_kind (wr s w) with
                           | WFile | WDirW => Nat.eqb (w_obj (wr s w)) o
                           | _ => false
                           end
                       | _ => false
                       end) (f_open s).

(** A path argument: a string or an open descriptor ([allow_fd=True]) *)
Inductive parg := PStr (p : str) | PFd (fd : Z).

(** resolve(path, follow_symlinks, allow_fd=True, check), 2023-2051 *)
Definition resolve_arg (s : fs) (a : parg) (follow check : bool) : res oid :=
  match a with
  | PStr p => resolve_follow s p follow check
  | PFd fd => fd_object s fd
  end.

(** resolve_path(path, allow_fd=True), 1841-1842 *)
Definition resolve_path_arg (s : fs) (a : parg) : res str :=
  match a with
  | PStr p => resolve_path s p
  | PFd fd => let* o := fd_object s fd in obj_path s o
  end.

(** FakeFilesystem.stat, 1161-1188: the object whose stat_result is copied *)
Definition stat_obj (s : fs) (a : parg) (follow : bool) : res oid :=
  let* o := resolve_arg s a follow false in
  let* _ :=
    if negb (is_root s) then
      match o_parent (ob s o) with
      | Some d => let* pp := obj_path s d in let* _ := get_object s pp true in Ok tt
      | None => Ok tt
      end
    else Ok tt in
  let* _ := match a with
            | PStr p => raise_for_sep s p o follow false
            | PFd _ => Ok tt
            end in
  Ok o.

(** The fields of a stat result. *)
Record stat_result := mkstat {
  ss_mode : N; ss_ino : option nat; ss_dev : option nat; ss_nlink : Z;
  ss_uid : Z; ss_gid : Z; ss_size : Z; ss_atime : Z; ss_mtime : Z; ss_ctime : Z
}.
Definition stat_of (s : fs) (o : oid) : stat_result :=
  let x := ob s o in
  mkstat (o_mode x) (o_ino x) (o_dev x) (o_nlink x) (o_uid x) (o_gid x)
         (st_size s o) (o_atime x) (o_mtime x) (o_ctime x).
Definition stat (s : fs) (a : parg) (follow : bool) : res stat_result :=
  let* o := stat_obj s a follow in Ok (stat_of s o).

(** FakeOsModule.fstat, 3771-3785 *)
Definition fstat (s : fs) (fd : Z) : res stat_result :=
  let* o := fd_object s fd in Ok (stat_of s o).

(** listdir, 3070-3087 *)
Definition listdir (s : fs) (a : parg) : res (list str) :=
  let* p := resolve_path_arg s a in
  let* d := confirmdir s p in
  match o_body (ob s d) with
  | BDir es => Ok (map fst es)
  | BFile _ => Err AttrErr
  end.

(** _is_circular_link, 2764-2769 *)
Definition is_circular_link (s : fs) (o : oid) : res bool :=
  let* t := text_contents s o in
  match resolve_path s t with
  | Ok _ => Ok false
  | Err (OSErr ELOOP) => Ok true
  | Err (OSErr _) => Ok false
  | Err e => Err e
  end.

(** readlink, 2771-2806 *)
Definition readlink (s : fs) (p : str) : res str :=
  let c := f_cfg s in
  let* o := lresolve s p in
  if negb (N.eqb (S_IFMT (o_mode (ob s o))) S_IFLNK) then os_err EINVAL
  else
    if ends_with_path_separator c p then
      let* e1 := if c_win c then Ok false else exists_ s p false in
      if negb (c_win c) && e1 then os_err EINVAL else
      let* lp := obj_path s o in
      let* e2 := exists_ s lp false in
      if negb e2 then
        if c_win c then os_err EINVAL
        else
          let* circ := is_circular_link s o in
          if circ then (if c_mac c then Ok lp else os_err ELOOP)
          else os_err ENOENT
      else text_contents s o
    else text_contents s o.

(** FakePathModule.samefile, 3400-3414 *)
Definition opt_nat_eqb (a b : option nat) : bool :=
  match a, b with
  | Some x, Some y => Nat.eqb x y
  | None, None => true
  | _, _ => false
  end.
Definition samefile (s : fs) (p q : str) : res bool :=
  let* a := stat s (PStr p) true in
  let* b := stat s (PStr q) true in
  Ok (opt_nat_eqb (ss_ino a) (ss_ino b) && opt_nat_eqb (ss_dev a) (ss_dev b)).

(** FakeOsModule.access, 4285-4309 (W_OK = 2) *)
Definition access (s : fs) (a : parg) (mode : N) (follow : bool) : res bool :=
  match stat s a follow with
  | Err (OSErr ENOENT) => Ok false
  | Err e => Err e
  | Ok st =>
      let mode := if is_root s then N.ldiff mode 2 else mode in
      Ok (N.eqb (N.land mode (N.land (N.shiftr (ss_mode st) 6) 7)) mode)
  end.

(** FakePathModule.getsize, 3216-3231 / getmtime etc. are stat fields. *)
