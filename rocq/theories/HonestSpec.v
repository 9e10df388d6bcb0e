(** * Calls with modes of the right type.

    [proper_call u o]: permission bits only for new directories, no directory
    or link type bits for new files; and, if [u], no limit for the size of a
    disk. *)
From Verif Require Export SysModel.

(** A mode for a new file: neither the bit of directories nor those of links. *)
Definition file_mode (m : N) : Prop := has_bit m S_IFDIR = false /\ N.land m S_IFLNK <> S_IFLNK.

Definition proper_call (u : Prop) (o : op) : Prop :=
  match o with
  | CreateFile _ mode _ _ _ _ => file_mode mode
  | CreateDir _ perm => (perm < 4096)%N
  | Mkdir _ mode | Makedirs _ mode _ => (mode < 4096)%N
  | Mknod _ mode _ => file_mode mode
  | AddMount _ t => u -> t = None
  | SetDiskUsage _ _ => ~ u
  | _ => True
  end.
(** A history of such calls. *)
Definition proper_history (u : Prop) (c : cfg) (s : fs) : Prop :=
  exists total um uid gid now ops, (u -> total = None) /\ Forall (proper_call u) ops /\
    s = run (init c total um uid gid now) ops.
