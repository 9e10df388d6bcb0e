(** * Model of lazily added real directories (fake_filesystem.py,
    add_real_directory 2469-2531 with lazy_read=True, the default, and
    FakeDirectoryFromRealDirectory 775-838)

    The state is a filesystem together with the directories whose contents have
    not been read yet, each with what os.listdir and os.stat say about the real
    directory behind it; that does not change while the fake filesystem is used.

    Not modelled: calls of [OpsModel] that look into a directory that has not
    been read (there, as everywhere, the code reads the directory at that
    moment: the getter [contents] below is the only way to its entries);
    mapping a directory into another one that has not been read; the property
    [size] of a directory (834-838). *)
From Verif Require Export AddRealModel.
From Verif Require Import RealpathModel.

Record lfs := mklfs { l_fs : fs; l_unread : oid -> option (bool * list (str * rtree)) }.
Definition LM (A : Type) := lfs -> res A * lfs.
Definition lret {A} (a : A) : LM A := fun s => (Ok a, s).
Definition lbind {A B} (m : LM A) (k : A -> LM B) : LM B :=
  fun s => match m s with (Ok a, s') => k a s' | (Err e, s') => (Err e, s') end.
Notation "x <~ m ;; k" := (lbind m (fun x => k)) (at level 100, m at next level, right associativity).
Notation "m ;~ k" := (lbind m (fun _ => k)) (at level 100, right associativity).
(** a call that leaves the unread directories alone *)
Definition up {A} (m : M A) : LM A :=
  fun s => let '(r, s') := m (l_fs s) in (r, mklfs s' (l_unread s)).
Definition unread (o : oid) : LM (option (bool * list (str * rtree))) := fun s => (Ok (l_unread s o), s).
Definition set_unread (o : oid) (v : option (bool * list (str * rtree))) : LM unit :=
  fun s => (Ok tt, mklfs (l_fs s) (upd (l_unread s) o v)).

(** os.path.split(p)[0] on the host (posixpath): what stands before the last
    slash and, unless these are all slashes, without slashes at its end *)
Definition host_dirname (p : str) : str :=
  let h := join_with [slash] (removelast (split_on slash p)) in
  let h := match split_on slash p with [_] => [] | _ => h ++ [slash] end in
  if forallb (Ascii.eqb slash) h then h else rstrip slash h.

(** add_real_directory(source, read_only, target_path=p), 2498-2510, and
    FakeDirectoryFromRealDirectory.__init__, 781-806: owner and times are those
    of the real directory.  (The code sets them before the directory is entered
    into its parent; add_entry looks at none of them.) *)
Definition add_lazy (p : str) (st : rstat) (es : list (str * rtree)) (read_only : bool) : LM oid :=
  let parent_path := host_dirname p in
  e <~ up (lift (fun s => exists_ s parent_path false)) ;;
  d <~ (if e : bool then up (lift (fun s => get_object s parent_path true)) else up (create_dir parent_path PERM_DEF)) ;;
  o <~ up (new_dir (host_basename p) (r_mode st)) ;;
  up (add_entry d o) ;~
  up (mod_obj o (fun x => wo_gid (wo_uid (wo_ctime (wo_mtime (wo_atime x (r_atime st)) (r_mtime st)) (r_ctime st)) (r_uid st)) (r_gid st))) ;~
  set_unread o (Some (read_only, es)) ;~
  lret o.

(** the loop of [contents], 816-829 *)
Fixpoint load (base : str) (read_only : bool) (es : list (str * rtree)) : LM unit :=
  match es with
  | [] => lret tt
  | (n, t) :: r =>
      let target := host_join base n in
      (match t with
       | RLink text => up (add_real_symlink target text)
       | RDir st es' => add_lazy target st es' read_only
       | RFile st data => up (add_real_file target st data read_only)
       end) ;~
      load base read_only r
  end.

(** the property [contents] of a directory: 808-830 of a
    FakeDirectoryFromRealDirectory, 634-637 of any other *)
Definition contents (d : oid) : LM (list (str * oid)) :=
  u <~ unread d ;;
  match u with
  | None => up (gets (fun s => ents s d))
  | Some (ro, es) =>
      set_unread d None ;~
      base <~ up (lift (fun s => obj_path s d)) ;;
      load base ro es ;~
      up (gets (fun s => ents s d))
  end.

(** _directory_content, 1752-1764 *)
Definition lazy_content (d : oid) (n : str) : LM (option oid) :=
  isd <~ up (gets (fun s => is_dirobj s d)) ;;
  if negb isd then lret None else
  es <~ contents d ;;
  match assoc n es with
  | Some o => lret (Some o)
  | None =>
      cs <~ up (gets (fun s => c_cs (f_cfg s))) ;;
      if cs : bool then lret None else
      lret (match filter (fun e => str_eqb (lower (fst e)) (lower n)) es with [] => None | (_, o) :: _ => Some o end)
  end.

(** the walk of every lookup (e.g. 1801-1811), one component after the other *)
Fixpoint look (d : oid) (q : list str) : LM (option oid) :=
  match q with
  | [] => lret (Some d)
  | n :: q' =>
      o <~ lazy_content d n ;;
      match o with None => lret None | Some o => look o q' end
  end.

(** the names in a directory, as os.listdir gives them (3081-3110) *)
Definition list_names (d : oid) : LM (list str) := es <~ contents d ;; lret (map fst es).
