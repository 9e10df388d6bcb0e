(** * FakePathModule: relpath, realpath, ismount, getsize.

    Models /repo/pyfakefs/fake_filesystem.py 3216-3231, 3369-3398, 3416-3463 and
    3478-3509.  The real [os.path] of the host (3173, [self._os_path]) is
    posixpath; [relpath] calls it with the fake [os] module in place of [os]
    (3184), so the current directory is that of the fake filesystem. *)
From Verif Require Export OpsModel.

(** ** relpath *)

(** posixpath.relpath (the Python library): [[x for x in abspath(p).split('/')
    if x]].  Simplification: posixpath.normpath keeps two leading slashes, which
    makes no difference here because empty components are dropped. *)
Definition host_isabs (p : str) : bool := match p with x :: _ => Ascii.eqb x slash | [] => false end.
Definition host_components (cwd p : str) : list str :=
  filter nonempty (split_on slash (normpath posix_cfg (if host_isabs p then p else join2 posix_cfg cwd p))).

(** [len(commonprefix([a, b]))] *)
Fixpoint common_length (a b : list str) : nat :=
  match a, b with
  | x :: a', y :: b' => if str_eqb x y then S (common_length a' b') else 0
  | _, _ => 0
  end.
Definition host_relpath (cwd p start : str) : str :=
  let start_list := host_components cwd start in
  let path_list := host_components cwd p in
  let i := common_length start_list path_list in
  match repeat dotdot (length start_list - i) ++ skipn i path_list with
  | [] => dot
  | w :: rest => match joinpaths posix_cfg (w :: rest) with Some r => r | None => [] end
  end.

(** FakePathModule.relpath, 3369-3388; ValueError for an empty path *)
Definition relpath (c : cfg) (cwd p : str) (start : option str) : res str :=
  if negb (nonempty p) then Err ValueErr else
  let start := match start with Some q => q | None => cwd end in
  let to_host q :=
    replace_char (c_sep c) slash
      (match c_alt c with Some a => replace_char a slash q | None => q end) in
  Ok (replace_char slash (c_sep c) (host_relpath cwd (to_host p) (to_host start))).

(** ** realpath *)

(** The dict [seen]: link paths that are being resolved ([None]) or resolved *)
Definition seen_dict := list (str * option str).

(** The loop of _joinrealpath, 3429-3463; [rec] is the recursive call.  The
    components are those that the repeated [partition] yields, and an empty one
    at the end if the path ends with a separator, which the loop skips. *)
Section Loop.
Variable rec : str -> str -> seen_dict -> res (str * bool * seen_dict).
Variable s : fs.
Fixpoint real_loop (path : str) (comps : list str) (seen : seen_dict) : res (str * bool * seen_dict) :=
  match comps with
  | [] => Ok (path, true, seen)
  | name :: comps' =>
      let c := f_cfg s in
      let rest := join_with [c_sep c] comps' in
      if str_eqb name [] || str_eqb name dot then real_loop path comps' seen
      else if str_eqb name dotdot then
        if nonempty path then
          let (path', name') := splitpath c path in
          if str_eqb name' dotdot
          then real_loop (join2 c (join2 c path' dotdot) dotdot) comps' seen
          else real_loop path' comps' seen
        else real_loop dotdot comps' seen
      else
        let newpath := join2 c path name in
        let* l := islink s newpath in
        if negb l then real_loop newpath comps' seen
        else
          match assoc newpath seen with
          | Some (Some path') => real_loop path' comps' seen
          | Some None => Ok (join2 c newpath rest, false, seen)
          | None =>
              let* t := readlink s newpath in
              let* r := rec path t (set_assoc newpath None seen) in
              let '(path', ok, seen') := r in
              if negb ok then Ok (join2 c path' rest, false, seen')
              else real_loop path' comps' (set_assoc newpath (Some path') seen')
          end
  end.
End Loop.

(** _joinrealpath, 3416-3463.  [fuel] bounds the depth of the recursion, which
    Python does not (but for its recursion limit); [RecErr] when it is used up. *)
Fixpoint joinrealpath (fuel : nat) (s : fs) (path rest : str) (seen : seen_dict) : res (str * bool * seen_dict) :=
  match fuel with
  | O => Err RecErr
  | S n =>
      let (path, rest) := if path_isabs (f_cfg s) rest then ([c_sep (f_cfg s)], tl rest) else (path, rest) in
      real_loop (joinrealpath n s) s path (split_on (c_sep (f_cfg s)) rest) seen
  end.

(** realpath, 3390-3398 *)
Definition realpath_n (fuel : nat) (s : fs) (p : str) : res str :=
  let c := f_cfg s in
  if c_win c then Ok (path_abspath c (f_cwd s) p)
  else
    let* r := joinrealpath fuel s [] p [] in
    Ok (path_abspath c (f_cwd s) (fst (fst r))).

(** The number of directory entries: links are nested at most as deep (theorem
    C56_realpath_partial). *)
Fixpoint count_entries (s : fs) (n : nat) : nat :=
  match n with O => 0 | S k => count_entries s k + length (ents s k) end.

(** ** ismount, getsize *)

(** [p.rstrip(sep)] *)
Definition rstrip (x : ascii) (p : str) : str := rev (lstrip x (rev p)).

(** ismount, 3478-3509 *)
Definition ismount (s : fs) (p : str) : bool :=
  let c := f_cfg s in
  if negb (nonempty p) then false else
  let np := anp s p in
  let in_seps q := str_eqb q [c_sep c] || match c_alt c with Some a => str_eqb q [a] | None => false end in
  let by_mounts := existsb (fun km => str_eqb (rstrip (c_sep c) np) (rstrip (c_sep c) (fst km))) (f_mounts s) in
  if c_win c then
    let (drive, rest) := splitdrive c np in
    if nonempty drive && opt_in_seps c (first_char drive)
    then negb (nonempty rest) || in_seps rest
    else in_seps rest || by_mounts
  else by_mounts.

(** getsize, 3216-3231 *)
Definition getsize (s : fs) (p : str) : res Z :=
  let c := f_cfg s in
  let* o := resolve s p true in
  if ends_with_path_separator c p && negb (N.eqb (S_IFMT (o_mode (ob s o))) S_IFDIR)
  then os_err (if c_win c then EINVAL else ENOTDIR)
  else Ok (st_size s o).

(** [fs.get_object(p).size]: get_object 2004-2021, FakeFile.size 438-442,
    FakeDirectory.size 741-745 *)
Definition object_size (s : fs) (p : str) : res Z :=
  let* o := get_object s p true in Ok (obj_size (S (f_next s)) s o).
