(** * Model of the calls that map real files into the fake filesystem
    (fake_filesystem.py, FakeFileFromRealFile 574-611, add_real_file 2397-2436,
    add_real_symlink 2438-2467, add_real_directory 2469-2531 with
    lazy_read=False).

    The real filesystem is an argument: what os.stat, os.readlink, os.listdir
    and reading return.  It does not change while the fake one is used.
    lazy_read=True (FakeDirectoryFromRealDirectory) is in LazyModel.v.
    Not modelled: the access
    time of a real file being copied again each time the fake one is read (602),
    real files that are neither regular files, links nor directories. *)
From Verif Require Export SysModel.

(** What os.stat says about a real file (times in nanoseconds). *)
Record rstat := mkrstat { r_mode : N; r_uid : Z; r_gid : Z; r_size : Z; r_atime : Z; r_mtime : Z; r_ctime : Z }.

(** os.path.basename on the host (posixpath): what follows the last slash *)
Definition host_basename (p : str) : str := last (split_on slash p) [].

(** create_file_internally(target, read_from_real_fs=True), 2560-2618 and 2633:
    as [create_file_internally] with missing directories made, but the object is
    a FakeFileFromRealFile (580-593), called by the last part of the path as the
    host splits it, without contents *)
Definition create_real_entry (p : str) : M oid :=
  fp <- gets (fun s => anp s (make_string_path (f_cfg s) p)) ;;
  e <- lift (fun s => exists_ s fp true) ;;
  if e : bool then raise_os EEXIST else
  sp <- gets (fun s => splitpath (f_cfg s) fp) ;;
  pd <- gets (fun s => if str_eqb (fst sp) [] then f_cwd s else fst sp) ;;
  auto_mount_drive pd ;;;
  pe <- lift (fun s => exists_ s pd false) ;;
  pd' <- (if negb pe then create_dir pd PERM_DEF ;;; ret pd
          else gets (fun s => original_path s pd)) ;;
  o <- new_file (host_basename fp) (N.lor S_IFREG PERM_DEF_FILE) ;;
  add_object pd' o ;;;
  ret o.

(** set_from_stat_result, helpers.py 125-136, the mask of 2432, and the contents:
    the bytes are read from the real file when they are first asked for
    (595-603); here they are there at once (see [rf_*] below for the one call
    that can tell the difference) *)
Definition from_real (st : rstat) (data : str) (read_only : bool) (x : fobj) : fobj :=
  let x := wo_mode x (if read_only then N.land (r_mode st) 261924 else r_mode st) in
  let x := wo_gid (wo_uid x (r_uid st)) (r_gid st) in
  let x := wo_ctime (wo_mtime (wo_atime x (r_atime st)) (r_mtime st)) (r_ctime st) in
  wo_body (wo_size x (r_size st)) (BFile (Some data)).

(** add_real_file, 2397-2436 *)
Definition add_real_file (p : str) (st : rstat) (data : str) (read_only : bool) : M oid :=
  o <- create_real_entry p ;;
  mod_obj o (from_real st data read_only) ;;;
  sz <- gets (fun s => st_size s o) ;;
  dev <- gets (fun s => o_dev (ob s o)) ;;
  change_disk_usage sz dev ;;;
  ret o.

(** add_real_symlink, 2438-2467; [text] is os.readlink(source_path) *)
Definition add_real_symlink (p text : str) : M oid := create_symlink p text true.

(** A real directory tree. *)
Inductive rtree :=
| RFile (st : rstat) (data : str)
| RLink (text : str)
| RDir (st : rstat) (es : list (str * rtree)).

(** os.walk(source_path), top down, without following links: for every directory
    its path relative to the source and its entries *)
Fixpoint real_walk (rel : list str) (t : rtree) : list (list str * list (str * rtree)) :=
  match t with
  | RDir _ es =>
      (rel, es) :: (fix go (es : list (str * rtree)) :=
                      match es with
                      | [] => []
                      | (n, t') :: r => real_walk (rel ++ [n]) t' ++ go r
                      end) es
  | _ => []
  end.

(** os.path.join on the host, for a second part that is not absolute *)
Definition host_join (a b : str) : str :=
  if ends_with_char slash a then a ++ b else a ++ slash :: b.
(** os.path.relpath(base, source_path) *)
Definition host_rel (rel : list str) : str := match rel with [] => L "." | _ => join_with [slash] rel end.

Fixpoint each {A} (f : A -> M unit) (l : list A) : M unit :=
  match l with [] => ret tt | x :: r => f x ;;; each f r end.

(** the body of the loop, 2513-2530: first the links of a directory, then its
    files *)
Definition add_real_links (new_base : str) (es : list (str * rtree)) : M unit :=
  each (fun e => match snd e with
                 | RLink text => add_real_symlink (host_join new_base (fst e)) text ;;; ret tt
                 | _ => ret tt
                 end) es.
Definition add_real_files (new_base : str) (read_only : bool) (es : list (str * rtree)) : M unit :=
  each (fun e => match snd e with
                 | RFile st data => add_real_file (host_join new_base (fst e)) st data read_only ;;; ret tt
                 | _ => ret tt
                 end) es.

(** add_real_directory(source, read_only, lazy_read=False, target_path=p),
    2498-2501 and 2511-2531 *)
Definition add_real_directory (p : str) (t : rtree) (read_only : bool) : M oid :=
  o <- create_dir p PERM_DEF ;;
  each (fun b =>
          path <- lift (fun s => obj_path s o) ;;
          let new_base := host_join path (host_rel (fst b)) in
          add_real_links new_base (snd b) ;;; add_real_files new_base read_only (snd b))
       (real_walk [] t) ;;;
  ret o.

(** ** One FakeFileFromRealFile object, with its contents read late *)
Record rfile := mkrfile { rf_real : str; rf_bytes : option str; rf_read : bool; rf_size : Z }.
(** a fresh one, 590-593 and 2430 *)
Definition rf_new (data : str) : rfile := mkrfile data None false (Z.of_nat (length data)).
(** byte_contents, 595-603 *)
Definition rf_contents (f : rfile) : option str * rfile :=
  if rf_read f then (rf_bytes f, f)
  else (Some (rf_real f), mkrfile (rf_real f) (Some (rf_real f)) true (rf_size f)).
(** the size setter, 471-494, which looks at _byte_contents; os.truncate (4253-4268)
    does nothing else *)
Definition rf_set_size (f : rfile) (n : Z) : rfile :=
  match rf_bytes f with
  | Some (c :: d) => mkrfile (rf_real f) (Some (resize (c :: d) (rf_size f) n)) (rf_read f) n
  | _ => mkrfile (rf_real f) (rf_bytes f) (rf_read f) n
  end.
