(** * FakePath: resolve, read_bytes, write_bytes, touch.

    Models /repo/pyfakefs/fake_pathlib.py 240-285 (_resolve_posix), 309-313 and
    480-508 (Path.resolve), 523-531, 542-553 and 620-642.  A path object is represented by its string
    [str(path)], which the Python library computes (PurePath; not modelled).
    The Windows flavour (287-307) is not modelled. *)
From Verif Require Export RealpathModel SysModel.

(** The outcome of a call that may also raise RuntimeError (line 269) *)
Inductive pres (A : Type) :=
| POk (a : A)
| PRuntime
| PErr (e : exn).
Arguments POk {A} a.
Arguments PRuntime {A}.
Arguments PErr {A} e.

(** [path.rpartition(sep)[0]] *)
Definition rpartition_head (x : ascii) (p : str) : str :=
  match rfind_pre [x] p with Some pre => pre | None => [] end.

Definition is_einval (e : errno) : bool := match e with EINVAL => true | _ => false end.

(** The loop of _resolve, 248-282; [rec] is the recursive call.  [seen] is
    shared by all calls and passed along. *)
Section Loop.
Variable rec : str -> str -> seen_dict -> pres (str * seen_dict).
Variable s : fs.
Variable strict : bool.
Fixpoint plib_loop (path : str) (comps : list str) (seen : seen_dict) : pres (str * seen_dict) :=
  match comps with
  | [] => POk (path, seen)
  | name :: comps' =>
      let sp := c_sep (f_cfg s) in
      if str_eqb name [] || str_eqb name dot then plib_loop path comps' seen
      else if str_eqb name dotdot then plib_loop (rpartition_head sp path) comps' seen
      else
        let newpath := path ++ sp :: name in
        match assoc newpath seen with
        | Some (Some path') => plib_loop path' comps' seen
        | Some None => PRuntime
        | None =>
            match readlink s newpath with
            | Err (OSErr e) =>
                if negb (is_einval e) && strict then PErr (OSErr e)
                else plib_loop newpath comps' seen
            | Err e => PErr e
            | Ok target =>
                match rec path target (set_assoc newpath None seen) with
                | POk (path', seen') => plib_loop path' comps' (set_assoc newpath (Some path') seen')
                | PRuntime => PRuntime
                | PErr e => PErr e
                end
            end
        end
  end.
End Loop.

(** _resolve, 244-282.  [fuel] bounds the depth of the recursion, which Python
    does not (but for its recursion limit); [RecErr] when it is used up. *)
Fixpoint plib_rec (fuel : nat) (s : fs) (strict : bool) (path rest : str) (seen : seen_dict) : pres (str * seen_dict) :=
  match fuel with
  | O => PErr RecErr
  | S n =>
      let sp := c_sep (f_cfg s) in
      plib_loop (plib_rec n s strict) s strict (if starts_with [sp] rest then [] else path) (split_on sp rest) seen
  end.

(** Path.resolve, 284-285 and 500-508, on a filesystem that is not Windows *)
Definition plib_resolve (fuel : nat) (s : fs) (p : str) (strict : bool) : pres str :=
  let sp := c_sep (f_cfg s) in
  match plib_rec fuel s strict (if starts_with [sp] p then [] else f_cwd s) p [] with
  | POk (q, _) => POk (anp s (if nonempty q then q else [sp]))
  | PRuntime => PRuntime
  | PErr e => PErr e
  end.

(** ** read_bytes, write_bytes, touch *)

(** [with f: body] for a file object [f]: __exit__ closes it
    (fake_filesystem.py 4693-4699, 5131-5137), also when the body raised; an
    error of close takes the place of that of the body. *)
Definition with_file {A} (w : wid) (body : M A) : M A :=
  fun s =>
    let (r, s1) := body s in
    let (c, s2) := close_wrapper w s1 in
    (match c with Ok _ => r | Err e => Err e end, s2).

(** Path.read_bytes, 523-531 *)
Definition plib_read_bytes (p : str) : M str :=
  w <- open_ (PStr p) (L "rb") (-1) true ;;
  with_file w (file_read w (-1)).

(** Path.write_bytes, 542-553; the data is a bytes object, for which the type
    check (551) passes *)
Definition plib_write_bytes (p data : str) : M Z :=
  w <- open_ (PStr p) (L "wb") (-1) true ;;
  with_file w (file_write w data).

(** Path.exists of the Python library (3.8): False for the errors in
    _IGNORED_ERROS, other errors are raised *)
Definition ignored_errno (e : errno) : bool :=
  match e with ENOENT | ENOTDIR | EBADF | ELOOP => true | _ => false end.
Definition plib_exists (s : fs) (p : str) : res bool :=
  match stat s (PStr p) true with
  | Ok _ => Ok true
  | Err (OSErr e) => if ignored_errno e then Ok false else Err (OSErr e)
  | Err e => Err e
  end.

(** Path.touch, 620-642.  Simplification: the file is opened in binary instead of
    text mode, which makes no difference as nothing is written. *)
Definition plib_touch (p : str) (mode : N) (exist_ok : bool) : M unit :=
  e <- lift (fun s => plib_exists s p) ;;
  if e : bool then
    if exist_ok then utime (PStr p) None None true else raise_os EEXIST
  else
    w <- open_ (PStr p) (L "wb") (-1) true ;;
    close_wrapper w ;;;
    chmod (PStr p) mode true.
