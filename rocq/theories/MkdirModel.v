(** * pathlib's Path.mkdir (CPython 3.8) on the fake accessor
    (fake_pathlib.py 86-137: [mkdir] is FakeFilesystem.makedir, [stat] is
    FakeFilesystem.stat). *)
From Verif Require Export PathlibModel FsExtraModel PathSpec FsSpec.

(** Path.is_dir (CPython 3.8): False for the errors in _IGNORED_ERROS *)
Definition plib_is_dir (s : fs) (p : str) : res bool :=
  match stat s (PStr p) true with
  | Ok st => Ok (S_ISDIR (ss_mode st))
  | Err (OSErr e) => if ignored_errno e then Ok false else Err (OSErr e)
  | Err e => Err e
  end.

(** [except OSError: if not exist_ok or not self.is_dir(): raise] *)
Definition mkdir_there (p : str) (exist_ok : bool) (e : exn) : M unit :=
  if exist_ok
  then d <- lift (fun s => plib_is_dir s p) ;; (if d : bool then ret tt else raise e)
  else raise e.

(** self.mkdir(mode, parents=False, exist_ok=exist_ok) *)
Definition plib_mkdir1 (p : str) (mode : N) (exist_ok : bool) : M unit :=
  catch (makedir p mode) (fun e =>
    match e with
    | OSErr ENOENT => raise e
    | OSErr _ => mkdir_there p exist_ok e
    | _ => raise e
    end).

(** Path.mkdir(mode, parents, exist_ok) of CPython 3.8 for the absolute POSIX
    path "/n1/.../nk", given as [[nk; ...; n1]]; the parent drops the last name
    and the root is its own parent:
<<
        try:
            self._accessor.mkdir(self, mode)
        except FileNotFoundError:
            if not parents or self.parent == self:
                raise
            self.parent.mkdir(parents=True, exist_ok=True)
            self.mkdir(mode, parents=False, exist_ok=exist_ok)
        except OSError:
            if not exist_ok or not self.is_dir():
                raise
>> *)
Fixpoint plib_mkdir_rev (sp : ascii) (rn : list str) (mode : N) (parents exist_ok : bool) : M unit :=
  let p := abs_path sp (rev rn) in
  catch (makedir p mode) (fun e =>
    match e with
    | OSErr ENOENT =>
        if parents then
          match rn with
          | [] => raise e
          | _ :: up => plib_mkdir_rev sp up 511 true true ;;; plib_mkdir1 p mode exist_ok
          end
        else raise e
    | OSErr _ => mkdir_there p exist_ok e
    | _ => raise e
    end).
Definition plib_mkdir (names : list str) (mode : N) (parents exist_ok : bool) : M unit :=
  fun s => plib_mkdir_rev (sepc s) (rev names) mode parents exist_ok s.
