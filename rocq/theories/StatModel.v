(** * helpers.py: FakeStatResult, the result of os.stat.

    Python floats are IEEE 754 binary64 numbers with round-to-nearest-even
    (CPython on every supported platform).  A float is represented by its exact
    value, a rational number; [rnd] is the rounding of the exact result of an
    operation.  Infinities (overflow), NaN and the sign of zero are not
    modelled. *)
From Coq Require Import ZArith QArith Qabs List Bool.
From Verif Require Import FsModel.
Import ListNotations.
Open Scope Z_scope.

(** ** binary64 *)

(** The greatest [k] with [2^k <= n/d], for positive [n] and [d] *)
Definition qlog2 (n d : Z) : Z :=
  if d <=? n then Z.log2 (n / d) else - Z.log2_up (- ((- d) / n)).
(** The integer nearest to [n/d], the even one of two *)
Definition near (n d : Z) : Z :=
  let m := n / d in
  match Z.compare (2 * (n mod d)) d with
  | Lt => m
  | Gt => m + 1
  | Eq => if Z.even m then m else m + 1
  end.
(** 53 significant bits, exponents from -1074 *)
Definition rnd_pos (n d : Z) : Q :=
  let e := Z.max (-1074) (qlog2 n d - 52) in
  if e <? 0 then Qmake (near (n * 2 ^ (- e)) d) (Z.to_pos (2 ^ (- e)))
  else inject_Z (near n (d * 2 ^ e) * 2 ^ e).
Definition rnd (q : Q) : Q :=
  match Qnum q with
  | Z0 => 0%Q
  | Zpos n => rnd_pos (Zpos n) (Zpos (Qden q))
  | Zneg n => Qopp (rnd_pos (Zpos n) (Zpos (Qden q)))
  end.
(** int(x): towards zero *)
Definition trunc (q : Q) : Z := Z.quot (Qnum q) (Zpos (Qden q)).

(** ** Times *)

(** A Python number given as a time: an int, or a float with its exact value *)
Inductive pynum := PInt (z : Z) | PFloat (q : Q).
(** The float an operand of a float operation is converted to *)
Definition to_float (v : pynum) : Q := match v with PInt z => rnd (inject_Z z) | PFloat q => q end.

(** [int(val * 1e9)]: the setters st_ctime, st_atime, st_mtime, 177-190, and
    __init__, 90-93 *)
Definition ns_of (v : pynum) : Z := trunc (rnd (to_float v * inject_Z 1000000000)).
(** [ns / 1e9]: the getters st_ctime, st_atime, st_mtime, 158-175 *)
Definition seconds (ns : Z) : Q := rnd (rnd (inject_Z ns) / inject_Z 1000000000).
(** A value read from a stat result *)
Inductive pyval := VInt (z : Z) | VFloat (q : Q).

(** ** The stat result *)
Record stat := mkst {
  t_float : option bool;      (* _use_float *)
  t_mode : N; t_ino : Z; t_dev : Z; t_nlink : Z; t_uid : Z; t_gid : Z; t_size : Z;
  t_win : bool;               (* is_windows *)
  t_atime : Z; t_mtime : Z; t_ctime : Z   (* _st_atime_ns, ... *)
}.

(** use_float, 97-101; [cls] is the class attribute _stat_float_times *)
Definition use_float (cls : bool) (t : stat) : bool := match t_float t with None => cls | Some b => b end.
(** copy, 123-129: what os.stat returns *)
Definition copy (cls : bool) (t : stat) : stat :=
  mkst (Some (use_float cls t)) (t_mode t) (t_ino t) (t_dev t) (t_nlink t) (t_uid t) (t_gid t) (t_size t) (t_win t) (t_atime t) (t_mtime t) (t_ctime t).
(** stat_float_times(newvalue), 143-156: the new class attribute and the answer *)
Definition stat_float_times (cls : bool) (nv : option bool) : bool := match nv with None => cls | Some b => b end.

Inductive which := Atime | Mtime | Ctime.
Definition time_ns (t : stat) (w : which) : Z := match w with Atime => t_atime t | Mtime => t_mtime t | Ctime => t_ctime t end.
Definition set_ns (t : stat) (w : which) (z : Z) : stat :=
  mkst (t_float t) (t_mode t) (t_ino t) (t_dev t) (t_nlink t) (t_uid t) (t_gid t) (t_size t) (t_win t)
    (match w with Atime => z | _ => t_atime t end) (match w with Mtime => z | _ => t_mtime t end) (match w with Ctime => z | _ => t_ctime t end).
(** st_atime, st_mtime, st_ctime, 158-175 *)
Definition get_time (cls : bool) (t : stat) (w : which) : pyval :=
  let q := seconds (time_ns t w) in if use_float cls t then VFloat q else VInt (trunc q).
(** their setters, 177-190 *)
Definition set_time (t : stat) (w : which) (v : pynum) : stat := set_ns t w (ns_of v).

(** st_size, 192-196 *)
Definition get_size (t : stat) : Z :=
  if N.eqb (N.land (t_mode t) S_IFLNK) S_IFLNK && t_win t then 0 else t_size t.

(** FILE_ATTRIBUTE_DIRECTORY, _DEVICE, _NORMAL, _REPARSE_POINT (module stat) *)
Definition A_DIRECTORY : N := 16.
Definition A_DEVICE : N := 64.
Definition A_NORMAL : N := 128.
Definition A_REPARSE : N := 1024.
Definition S_IFCHR : N := 8192.   (* 0o020000 *)
Definition S_IFBLK : N := 24576.  (* 0o060000 *)
Definition IO_REPARSE_TAG_SYMLINK : N := 2684354572.  (* 0xA000000C *)
Definition any_bit (a b : N) : bool := negb (N.eqb (N.land a b) 0).
Definition flag (b : bool) (f : N) : N := if b then f else 0%N.
(** st_file_attributes, 202-217; None is AttributeError *)
Definition file_attributes (t : stat) : option N :=
  if negb (t_win t) then None else
  Some (N.lor (flag (any_bit (t_mode t) S_IFDIR) A_DIRECTORY)
       (N.lor (flag (any_bit (t_mode t) S_IFREG) A_NORMAL)
       (N.lor (flag (any_bit (t_mode t) (N.lor S_IFCHR S_IFBLK)) A_DEVICE)
              (flag (any_bit (t_mode t) S_IFLNK) A_REPARSE)))).
(** st_reparse_tag, 219-226 (Python 3.8 and later) *)
Definition reparse_tag (t : stat) : option N :=
  if negb (t_win t) then None else
  Some (if any_bit (t_mode t) S_IFLNK then IO_REPARSE_TAG_SYMLINK else 0%N).

(** __getitem__, 228-255; None is ValueError.  [int()] of a time that is
    an int already is that int. *)
Definition int_of (v : pyval) : Z := match v with VInt z => z | VFloat q => trunc q end.
Definition getitem (cls : bool) (t : stat) (i : Z) : option Z :=
  if i =? 0 then Some (Z.of_N (t_mode t)) else
  if i =? 1 then Some (t_ino t) else
  if i =? 2 then Some (t_dev t) else
  if i =? 3 then Some (t_nlink t) else
  if i =? 4 then Some (t_uid t) else
  if i =? 5 then Some (t_gid t) else
  if i =? 6 then Some (get_size t) else
  if i =? 7 then Some (int_of (get_time cls t Atime)) else
  if i =? 8 then Some (int_of (get_time cls t Mtime)) else
  if i =? 9 then Some (int_of (get_time cls t Ctime)) else None.

(** __eq__, 106-119 *)
Definition stat_eq (a b : stat) : bool :=
  (t_atime a =? t_atime b) && (t_ctime a =? t_ctime b) && (t_mtime a =? t_mtime b) &&
  (get_size a =? get_size b) && (t_gid a =? t_gid b) && (t_uid a =? t_uid b) &&
  (t_nlink a =? t_nlink b) && (t_dev a =? t_dev b) && (t_ino a =? t_ino b) && N.eqb (t_mode a) (t_mode b).
