(** * os.walk and os.scandir as iterators: pyfakefs/fake_scandir.py

    [WalkModel] gives the list of everything a walk or a scan yields while the
    filesystem does not change.  Here they are iterators, and the caller may make
    any calls between two steps. *)
From Verif Require Export WalkModel.
From Coq Require Import List Bool ZArith Ascii.
Import ListNotations.
Open Scope nat_scope.

(** ** walk, 210-252

    The state of the nested generators: the innermost one first.
    [GEnter tm top]: do_walk(top, top_most=tm) was called and has not begun;
    [GLoop top dirs files i]: it is in the loop over the directories (244-249),
    the next one has the index [i]. *)
Inductive gframe :=
| GEnter (top_most : bool) (top : str)
| GLoop (top : str) (dirs files : list str) (i : nat).
Definition gen := list gframe.

(** One step of do_walk, 229-250: [None] if the generator runs on.  A call of
    [onerror] (235-237) is an event like a yield: the caller's code runs. *)
Definition gstep (s : fs) (topdown follow : bool) (g : gen) : res (option wevent * gen) :=
  match g with
  | [] => Ok (None, [])
  | GEnter tm top :: k =>
      let* skip := if tm || follow then Ok false else islink s top in
      if skip then Ok (None, k) else
      match classify s top with
      | Err (OSErr e) => Ok (Some (WError top (OSErr e)), k)
      | Err e => Err e
      | Ok (dirs, files) =>
          Ok (if topdown then Some (WYield top dirs files) else None, GLoop top dirs files 0 :: k)
      end
  | GLoop top dirs files i :: k =>
      match nth_error dirs i with
      | None => Ok (if topdown then None else Some (WYield top dirs files), k)
      | Some n =>
          let path := joinp s top n in
          let* skip := if follow then Ok false else islink s path in
          Ok (None, if skip then GLoop top dirs files (S i) :: k
                    else GEnter false path :: GLoop top dirs files (S i) :: k)
      end
  end.

(** what the caller leaves in the list of directories that was just yielded
    (top-down, the list is shared with the generator).  Simplification: only the
    list yielded last is changed, and before the next step. *)
Definition leave (topdown : bool) (ev : wevent) (dirs' : list str) (g : gen) : gen :=
  match ev, g with
  | WYield _ _ _, GLoop top _ files O :: k => if topdown then GLoop top dirs' files 0 :: k else g
  | _, _ => g
  end.

(** ** ScanDirIter, 117-152

    [contents_iter] iterates over the dict of the directory (138-139).
    CPython Objects/dictobject.c, dictiter_iternextkey: if the number of
    entries is not what it was when the iterator was made, RuntimeError is
    raised, now and by every later call; after the end it is StopIteration for
    ever.  Simplification: what it does if there are as many entries as before,
    but others, is not modelled ([SOther]); that the last entry was removed and
    made again is not noticed. *)
Record scan_it := mkit {
  it_path : str; it_abs : str; it_dir : oid; it_names : list str; it_pos : nat; it_broken : bool; it_done : bool }.
Inductive scan_answer := SEntry (e : dirent) | SStop | SChanged | SOther | SExn (e : exn).

(** __init__, 121-139 (Python >= 3.7) *)
Definition scan_open (s : fs) (a : parg) : res scan_it :=
  let* pa :=
    match a with
    | PStr p => Ok (p, anp s p)
    | PFd fd =>
        if c_win (f_cfg s) then Err NotImpl else
        let* o := fd_object s fd in
        let* q := obj_path s o in Ok ([], anp s q)
    end in
  let* d := confirmdir s (snd pa) in
  match o_body (ob s d) with
  | BDir es => Ok (mkit (fst pa) (snd pa) d (map fst es) 0 false false)
  | BFile _ => Err AttrErr
  end.
Fixpoint names_eqb (a b : list str) : bool :=
  match a, b with
  | [], [] => true
  | x :: a', y :: b' => str_eqb x y && names_eqb a' b'
  | _, _ => false
  end.
(** __next__, 144-153 *)
Definition scan_next (s : fs) (it : scan_it) : scan_answer * scan_it :=
  let now := map fst (ents s (it_dir it)) in
  if it_done it then (SStop, it)
  else if it_broken it || negb (length now =? length (it_names it)) then
    (SChanged, mkit (it_path it) (it_abs it) (it_dir it) (it_names it) (it_pos it) true false)
  else if negb (names_eqb now (it_names it)) then (SOther, it)
  else match nth_error now (it_pos it) with
       | None => (SStop, mkit (it_path it) (it_abs it) (it_dir it) (it_names it) (it_pos it) false true)
       | Some n =>
           (match scan_entry s (it_path it) (it_abs it) n with Ok e => SEntry e | Err e => SExn e end,
            mkit (it_path it) (it_abs it) (it_dir it) (it_names it) (S (it_pos it)) false false)
       end.
