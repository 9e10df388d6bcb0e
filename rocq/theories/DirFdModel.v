(** * The dir_fd arguments of the os functions

    Models fake_filesystem.py: FakeOsModule._path_with_dir_fd (4235-4251) and
    its uses in open, readlink, stat, lstat, remove, unlink, rename, replace,
    rmdir, mkdir, access, chmod, utime, chown, mknod, symlink and link
    (3614-4475).

    os.supports_dir_fd is the set of the host, a Linux system (CPython Lib/os.py
    99-118): it has neither os.lstat nor os.remove. *)
From Verif Require Export SysModel.

(** the functions named in the calls of _path_with_dir_fd *)
Inductive dir_fct :=
| FctOpen | FctReadlink | FctStat | FctLstat | FctRemove | FctUnlink | FctRename | FctRmdir
| FctMkdir | FctAccess | FctChmod | FctUtime | FctChown | FctMknod | FctSymlink | FctLink.
Definition supports_dir_fd (f : dir_fct) : bool :=
  match f with FctLstat | FctRemove => false | _ => true end.

(** _path_with_dir_fd, 4235-4251.  get_object().path of a standard stream or a
    pipe is an AttributeError (5081, 5139). *)
Definition path_with_dir_fd (s : fs) (f : dir_fct) (dir_fd : option Z) (a : parg) : res parg :=
  match dir_fd with
  | None => Ok a
  | Some fd =>
      if negb (supports_dir_fd f) then Err NotImpl else
      match a with
      | PFd _ => Err ValueErr
      | PStr p =>
          if path_isabs (f_cfg s) p then Ok a else
          let* w := get_open_file s fd in
          let* d := match w_kind (wr s w) with
                    | WDirW | WFile => obj_path s (w_obj (wr s w))
                    | _ => Err AttrErr
                    end in
          match joinpaths (f_cfg s) [d; p] with
          | Some q => Ok (PStr q)
          | None => Err IndexErr
          end
      end
  end.
Definition arg_at (f : dir_fct) (fd : option Z) (a : parg) : M parg := lift (fun s => path_with_dir_fd s f fd a).
(** the same for a path that is not a descriptor *)
Definition str_at (f : dir_fct) (fd : option Z) (p : str) : M str :=
  a <- arg_at f fd (PStr p) ;;
  match a with PStr q => ret q | PFd _ => raise ValueErr end.

(** The calls.  (os.replace, 4123-4148, is rename with force; it passes
    self.rename too.) *)
Inductive at_call :=
| AtOpen (p : str) (flags : N) (mode : option N) (uuid : str)
| AtReadlink (p : str)
| AtStat (a : parg) (follow : bool)
| AtLstat (a : parg)
| AtRemove (p : str)
| AtUnlink (p : str)
| AtRename (src dst : str) (force : bool)
| AtRmdir (p : str)
| AtMkdir (p : str) (mode : N)
| AtAccess (a : parg) (mode : N) (follow : bool)
| AtChmod (a : parg) (mode : N) (follow : bool)
| AtUtime (a : parg) (times ns : option (list Z)) (follow : bool)
| AtChown (a : parg) (uid gid : Z) (follow : bool)
| AtMknod (p : str) (mode : N) (device : Z)
| AtSymlink (src dst : str)
| AtLink (src dst : str).

Inductive answer := AOut (o : out) | AStat (st : stat_result) | AText (t : str) | ABool (b : bool).
Definition aout (m : M out) : M answer := x <- m ;; ret (AOut x).

(** the checks of mknod before the path is looked at, 4411-4421 *)
Definition mknod_checks (mode : N) (device : Z) : M unit :=
  c <- gets f_cfg ;;
  if c_win c then raise TypeErr else
  root <- gets is_root ;;
  if negb (Z.eqb device 0) || (negb (has_bit mode S_IFREG) && negb root) then raise_os EPERM else ret tt.

(** the call with dir_fd=fd, or src_dir_fd=fd and dst_dir_fd=fd2 *)
Definition call_at (fd fd2 : option Z) (c : at_call) : M answer :=
  match c with
  | AtOpen p fl m u => q <- str_at FctOpen fd p ;; aout (step (OsOpen q fl m u))
  | AtReadlink p => q <- str_at FctReadlink fd p ;; t <- lift (fun s => readlink s q) ;; ret (AText t)
  | AtStat a follow => b <- arg_at FctStat fd a ;; st <- lift (fun s => stat s b follow) ;; ret (AStat st)
  | AtLstat a => b <- arg_at FctLstat fd a ;; st <- lift (fun s => stat s b false) ;; ret (AStat st)
  | AtRemove p => q <- str_at FctRemove fd p ;; aout (step (Remove q))
  | AtUnlink p => q <- str_at FctUnlink fd p ;; aout (step (Remove q))
  | AtRename a b force => qa <- str_at FctRename fd a ;; qb <- str_at FctRename fd2 b ;; aout (step (Rename qa qb force))
  | AtRmdir p => q <- str_at FctRmdir fd p ;; aout (step (Rmdir q))
  | AtMkdir p m => q <- str_at FctMkdir fd p ;; aout (step (Mkdir q m))
  | AtAccess a m follow => b <- arg_at FctAccess fd a ;; r <- lift (fun s => access s b m follow) ;; ret (ABool r)
  | AtChmod a m follow => b <- arg_at FctChmod fd a ;; aout (step (Chmod b m follow))
  | AtUtime a t n follow => b <- arg_at FctUtime fd a ;; aout (step (Utime b t n follow))
  | AtChown a u g follow => b <- arg_at FctChown fd a ;; aout (step (Chown b u g follow))
  | AtMknod p m d => mknod_checks m d ;;; q <- str_at FctMknod fd p ;; aout (step (Mknod q m d))
  | AtSymlink src dst => q <- str_at FctSymlink fd src ;; aout (step (Symlink q dst))
  | AtLink src dst => qa <- str_at FctLink fd src ;; qb <- str_at FctLink fd2 dst ;; aout (step (Link qa qb))
  end.
