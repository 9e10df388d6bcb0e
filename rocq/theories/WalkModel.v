(** * os.scandir and os.walk: pyfakefs/fake_scandir.py.

    Both are generators in the code.  Here they return the list of all that
    they yield while the filesystem does not change in between; nothing of
    the state is modified by them. *)
From Verif Require Export SysModel.
From Coq Require Import List Bool ZArith Ascii.
Import ListNotations.

(** self.filesystem.joinpaths(a, b) (fake_filesystem.py 1624-1652) *)
Definition joinp (s : fs) (a b : str) : str :=
  match joinpaths (f_cfg s) [a; b] with Some p => p | None => [] end.

(** ** DirEntry, fake_scandir.py 31-114 *)
Record dirent := mkent {
  de_name : str; de_path : str; de_abspath : str; de_isdir : bool; de_islink : bool }.

(** is_dir(follow_symlinks), 57-69 *)
Definition de_is_dir (e : dirent) (follow : bool) : bool :=
  de_isdir e && (follow || negb (de_islink e)).
(** is_file(follow_symlinks), 71-83 *)
Definition de_is_file (e : dirent) (follow : bool) : bool :=
  negb (de_isdir e) && (follow || negb (de_islink e)).
(** is_symlink, 85-87 *)
Definition de_is_symlink (e : dirent) : bool := de_islink e.

(** stat(follow_symlinks), 89-110.  The code caches the result in the entry;
    this is the result of the first call. *)
Definition de_stat (s : fs) (e : dirent) (follow : bool) : res stat_result :=
  let* o := if follow then resolve s (de_abspath e) true else lresolve s (de_abspath e) in
  let st := stat_of s o in
  Ok (if c_win (f_cfg s)
      then mkstat (ss_mode st) (ss_ino st) (ss_dev st) 0 (ss_uid st) (ss_gid st)
                  (ss_size st) (ss_atime st) (ss_mtime st) (ss_ctime st)
      else st).
(** inode, 51-55 *)
Definition de_inode (s : fs) (e : dirent) : res (option nat) :=
  let* o := lresolve s (de_abspath e) in Ok (o_ino (ob s o)).

(** ScanDirIter.__next__, 142-152, for one entry *)
Definition scan_entry (s : fs) (path abspath name : str) : res dirent :=
  let ap := joinp s abspath name in
  let* d := isdir s ap true in
  let* l := islink s ap in
  Ok (mkent name (joinp s path name) ap d l).

(** [mapm f l]: [f] on every element, in order *)
Fixpoint mapm {A B} (f : A -> res B) (l : list A) : res (list B) :=
  match l with
  | [] => Ok []
  | x :: r => let* y := f x in let* ys := mapm f r in Ok (y :: ys)
  end.

(** scandir, 165-180 with ScanDirIter.__init__, 121-137 (Python >= 3.7) *)
Definition scandir (s : fs) (a : parg) : res (list dirent) :=
  let* pa :=
    match a with
    | PStr p => Ok (p, anp s p)
    | PFd fd =>
        if c_win (f_cfg s) then Err NotImpl else
        let* o := fd_object s fd in
        let* q := obj_path s o in Ok ([], anp s q)
    end in
  let* d := confirmdir s (snd pa) in
  match o_body (ob s d) with
  | BDir es => mapm (scan_entry s (fst pa) (snd pa)) (map fst es)
  | BFile _ => Err AttrErr
  end.

(** ** walk *)

(** _classify_directory_contents, 183-207 (listdir called with a string) *)
Fixpoint classify_names (s : fs) (root : str) (names : list str) : res (list str * list str) :=
  match names with
  | [] => Ok ([], [])
  | n :: r =>
      let* d := isdir s (joinp s root n) true in
      let* df := classify_names s root r in
      Ok (if d then (n :: fst df, snd df) else (fst df, n :: snd df))
  end.
Definition classify (s : fs) (root : str) : res (list str * list str) :=
  let* names := listdir s (PStr root) in classify_names s root names.

(** What a walk does, seen from outside: yield a tuple, or call [onerror]. *)
Inductive wevent :=
| WYield (root : str) (dirs files : list str)
| WError (root : str) (e : exn).

(** The loop over the directories of one level, 244-249, with the recursive
    call [rec]. *)
Section Loop.
Variable rec : str -> res (list wevent).
Fixpoint walk_each (s : fs) (follow : bool) (top : str) (dirs : list str) : res (list wevent) :=
  match dirs with
  | [] => Ok []
  | n :: r =>
      let path := joinp s top n in
      let* skip := if follow then Ok false else islink s path in
      let* here := if skip then Ok [] else rec path in
      let* later := walk_each s follow top r in
      Ok (here ++ later)
  end.
End Loop.

(** do_walk, 229-250.  [edit root dirs files] is what the caller leaves in the
    list of directories between two steps of a top-down walk (the list is
    shared, so that removing names prunes the walk); bottom-up the list has
    been used before the caller sees it.  [fuel] bounds the depth. *)
Fixpoint do_walk (fuel : nat) (s : fs) (topdown follow : bool)
    (edit : str -> list str -> list str -> list str) (top_most : bool) (top : str)
    : res (list wevent) :=
  match fuel with
  | O => Err RecErr
  | S n =>
      let* skip := if top_most || follow then Ok false else islink s top in
      if skip then Ok [] else
      match classify s top with
      | Err (OSErr e) => Ok [WError top (OSErr e)]
      | Err e => Err e
      | Ok (dirs, files) =>
          let* below := walk_each (do_walk n s topdown follow edit false) s follow top
                          (if topdown then edit top dirs files else dirs) in
          Ok (if topdown then WYield top dirs files :: below
              else below ++ [WYield top dirs files])
      end
  end.

(** walk, 210-252.  The recursion of the code is not bounded; C46 proves that
    the depth given here is never used up. *)
Definition walk_fuel (s : fs) : nat := 43 * S (f_next s).
Definition walk (s : fs) (top : str) (topdown follow : bool)
    (edit : str -> list str -> list str -> list str) : res (list wevent) :=
  do_walk (walk_fuel s) s topdown follow edit true top.
