(** * Independent specification of Windows paths.

    Nothing here refers to the model of pyfakefs. *)
From Verif Require Export PathSpec.

Section Spec.
Variable sp : ascii.   (* the separator *)

(** [\\server\t] *)
Definition unc_start (p server t : str) : Prop :=
  p = sp :: sp :: server ++ sp :: t /\ server <> [] /\ ~ In sp server /\ is_abs sp t = false.

(** [win_drive p d r]: the path [p] (with the separator [sp] only) is the drive
    [d], which is [x:], [\\server\share] or nothing, and the rest [r]. *)
Inductive win_drive : str -> str -> str -> Prop :=
| wd_letter x r : win_drive (x :: ":"%char :: r) [x; ":"%char] r
| wd_unc server share r :
    server <> [] -> ~ In sp server -> ~ In sp share ->
    (r = [] \/ (share <> [] /\ is_abs sp r = true)) ->
    win_drive ((sp :: sp :: server ++ sp :: share) ++ r) (sp :: sp :: server ++ sp :: share) r
| wd_none p :
    nth_error p 1 <> Some ":"%char -> (forall server t, ~ unc_start p server t) ->
    win_drive p [] p.

(** The normalized form of what follows the drive [d]: a canonical path, but
    nothing instead of [.] if there is a drive. *)
Definition win_rest (d r : str) : Prop :=
  match d with
  | [] => canonical sp r
  | _ => r = [] \/ (canonical sp r /\ r <> L ".")
  end.

(** Two drives are the same; [fold]: compare without case. *)
Definition same_drive (fold : bool) (d e : str) : bool :=
  if fold then str_eqb (lower d) (lower e) else str_eqb d e.

(** A separator after [p] unless [p] is empty or has one. *)
Definition with_sep (p : str) : str :=
  match p with [] => [] | _ => if ends_with_char sp p then p else p ++ [sp] end.

(** What joining the paths [p] and [q], given as drives and rests, gives: an absolute [q] replaces [p] but for the
    drive, if [q] has none; a [q] on another drive replaces [p]; otherwise [rq]
    is appended. *)
Definition win_join (fold : bool) (p q : str * str) : str * str :=
  let (dp, rp) := p in let (dq, rq) := q in
  if is_abs sp rq then (match dq with [] => dp | _ => dq end, rq)
  else match dq with
       | [] => (dp, with_sep rp ++ rq)
       | _ => if same_drive fold dq dp then (dq, with_sep rp ++ rq) else (dq, rq)
       end.
(** The drive and the rest as one path: a drive that does not end with a colon
    (a network drive) needs a separator before a name. *)
Definition win_path (dr : str * str) : str :=
  let (d, r) := dr in
  match d, r with
  | _ :: _, _ :: _ => if is_abs sp r || ends_with_char ":"%char d then d ++ r else d ++ sp :: r
  | _, _ => d ++ r
  end.
(** ** The parts pathlib takes a path apart into *)
(** An ASCII letter *)
Definition letter (x : ascii) : Prop :=
  65 <= nat_of_ascii x <= 90 \/ 97 <= nat_of_ascii x <= 122.
(** The root is one separator if there are any at the front of [r]; all of them
    are dropped. *)
Definition root_and_rest (r root rel : str) : Prop :=
  exists seps, r = seps ++ rel /\ all_sep sp seps /\ is_abs sp rel = false /\
               root = match seps with [] => [] | _ => [sp] end.
(** [pl_split p d root rel]: drive, root and the rest of [p]; a network drive
    always has a root. *)
Inductive pl_split : str -> str -> str -> str -> Prop :=
| pl_unc server share r :
    server <> [] -> ~ In sp server -> ~ In sp share ->
    (r = [] \/ (share <> [] /\ is_abs sp r = true)) ->
    pl_split ((sp :: sp :: server ++ sp :: share) ++ r) (sp :: sp :: server ++ sp :: share) [sp] (tl r)
| pl_letter x r root rel : letter x -> root_and_rest r root rel ->
    pl_split (x :: ":"%char :: r) [x; ":"%char] root rel
| pl_none p root rel :
    (forall x r, p = x :: ":"%char :: r -> ~ letter x) -> (forall server t, ~ unc_start p server t) ->
    root_and_rest p root rel -> pl_split p [] root rel.
End Spec.
