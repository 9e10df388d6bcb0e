(** * shutil.rmtree on the fake filesystem

    shutil is not replaced (fake_filesystem_shutil.py 62-64 forwards to the
    standard module); its rmtree runs on the fake os module.  This is CPython
    Lib/shutil.py, rmtree and _rmtree_safe_fd (3.11), which is used where
    _use_fd_functions is true, as on Linux.  The calls of os are those of
    SysModel.v, WalkModel.v and DirFdModel.v, i.e. fake_filesystem.py
    (FakeOsModule.open 3614, close 3688, fstat 3771, lstat 4044, unlink 4078, rmdir
    4150) and fake_scandir.py (scandir 165, DirEntry 31-114).

    Simplifications: [ign] is the ignore_errors argument, and there is no other
    [onerror]; "except Exception" after lstat and open (the only two) catches
    what the model has as results.  The OSError without a number that is raised
    for a symbolic link is written EINVAL.  Python's recursion limit is the
    [fuel]. *)
From Verif Require Export DirFdModel WalkModel.

(** O_RDONLY | O_NONBLOCK *)
Definition rm_flags : N := 2048.
(** [onerror]: nothing, or raise again *)
Definition on_error (ign : bool) (e : exn) : M unit := if ign then ret tt else raise e.
(** try: m  except OSError: onerror *)
Definition guarded (ign : bool) (m : M unit) : M unit :=
  catch m (fun e => match e with OSErr _ => on_error ign e | _ => raise e end).
(** try: m  finally: f.  Both raise: the exception of [f]. *)
Definition finally_ (m f : M unit) : M unit :=
  fun s => let (r, s1) := m s in
           match f s1 with
           | (Ok tt, s2) => (r, s2)
           | (Err e, s2) => (Err e, s2)
           end.
(** os.path.samestat *)
Definition same_opt (a b : option nat) : bool :=
  match a, b with
  | Some x, Some y => Nat.eqb x y
  | None, None => true
  | _, _ => false
  end.
Definition samestat (a b : stat_result) : bool := same_opt (ss_ino a) (ss_ino b) && same_opt (ss_dev a) (ss_dev b).
(** the number of a descriptor that was opened *)
Definition opened_fd (m : M answer) : M Z :=
  a <- m ;; match a with AOut (RInt n) => ret n | _ => raise AssertErr end.
Definition unit_of (m : M answer) : M unit := m ;;; ret tt.
(** os.close *)
Definition rm_close (fd : Z) : M unit := step (OsClose fd) ;;; ret tt.

(** The body of "try: ... finally: close" after a directory was opened: the
    subtree of the descriptor is removed, it is closed, the directory removed.
    [orig] is the stat result from before it was opened. *)
Definition rm_opened (ign : bool) (orig : stat_result) (fd : Z) (sub rm : M unit) : M unit :=
  fun s =>
    match fstat s fd with
    | Err e => finally_ (raise e) (guarded ign (rm_close fd)) s
    | Ok st =>
        if samestat orig st then
          match sub s with
          | (Err e, s1) => finally_ (raise e) (guarded ign (rm_close fd)) s1
          | (Ok tt, s1) => (guarded ign (rm_close fd) ;;; guarded ign rm) s1
          end
        else finally_ (on_error ign (OSErr EINVAL)) (guarded ign (rm_close fd)) s
    end.

(** The loop of _rmtree_safe_fd over the entries; [rec] is the recursive call *)
Section Each.
Variable rec : Z -> M unit.
Fixpoint rm_each (ign : bool) (topfd : Z) (es : list dirent) : M unit :=
  match es with
  | [] => ret tt
  | e :: r =>
      (fun s =>
         let n := de_name e in
         let unlink_ := guarded ign (unit_of (call_at (Some topfd) None (AtUnlink n))) in
         if de_is_dir e false then
           match de_stat s e false with
           | Err (OSErr x) => on_error ign (OSErr x) s
           | Err x => (Err x, s)
           | Ok st =>
               if S_ISDIR (ss_mode st) then
                 match opened_fd (call_at (Some topfd) None (AtOpen n rm_flags None [])) s with
                 | (Err (OSErr x), s1) => on_error ign (OSErr x) s1
                 | (Err x, s1) => (Err x, s1)
                 | (Ok fd, s1) =>
                     rm_opened ign st fd (rec fd) (unit_of (call_at (Some topfd) None (AtRmdir n))) s1
                 end
               else unlink_ s
           end
         else unlink_ s) ;;;
      rm_each ign topfd r
  end.
End Each.
(** _rmtree_safe_fd *)
Fixpoint rm_fd (fuel : nat) (ign : bool) (topfd : Z) : M unit :=
  match fuel with
  | O => raise RecErr
  | S k => fun s =>
      match scandir s (PFd topfd) with
      | Err (OSErr x) => on_error ign (OSErr x) s
      | Err x => (Err x, s)
      | Ok es => rm_each (rm_fd k ign) ign topfd es s
      end
  end.
(** rmtree *)
Definition rmtree (fuel : nat) (ign : bool) (p : str) : M unit :=
  fun s =>
    match stat s (PStr p) false with
    | Err x => on_error ign x s
    | Ok st =>
        match opened_fd (call_at None None (AtOpen p rm_flags None [])) s with
        | (Err x, s1) => on_error ign x s1
        | (Ok fd, s1) =>
            rm_opened ign st fd (rm_fd fuel ign fd) (unit_of (call_at None None (AtRmdir p))) s1
        end
    end.
