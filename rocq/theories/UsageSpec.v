(** * C35: what the used space of a mount point should be. *)
From Verif Require Import Str PathModel FsModel OpsModel IoModel SysModel.
Open Scope Z_scope.

Fixpoint sumz (n : nat) (f : nat -> Z) : Z := match n with O => 0 | S k => sumz k f + f k end.
(** What the object [o] takes on the device [d]: the size of a file (or link)
    that has at least one name; directories take nothing. *)
Definition weight (s : fs) (d : nat) (o : oid) : Z :=
  if is_dirobj s o then 0
  else if (0 <? o_nlink (ob s o)) && opt_nat_eqb (Some d) (o_dev (ob s o)) then o_size (ob s o) else 0.
(** The objects are [0 .. f_next s - 1]: the sum of the sizes of the distinct files of the device [d]. *)
Definition file_sizes (s : fs) (d : nat) : Z := sumz (f_next s) (weight s d).

(** Every file with a name is still on the device it was on. *)
Definition devs_kept (s s' : fs) : Prop :=
  forall x, (x < f_next s)%nat -> is_dirobj s x = false -> 0 < o_nlink (ob s x) -> o_dev (ob s' x) = o_dev (ob s x).
(** No file with a name is on the device. *)
Definition dev_empty (s : fs) (d : nat) : Prop :=
  forall o, (o < f_next s)%nat -> is_dirobj s o = false -> 0 < o_nlink (ob s o) -> o_dev (ob s o) <> Some d.
(** Every file was stored at most once during the call, and only if it has a
    name.  ([o_epoch] counts how often the size or the contents of the file
    have been set; replacing contents that are not empty counts twice, because
    the code first sets the size to 0.) *)
Definition once (s s' : fs) : Prop := forall o, (o < f_next s)%nat ->
  o_epoch (ob s' o) = o_epoch (ob s o) \/ (o_epoch (ob s' o) = S (o_epoch (ob s o)) /\ 0 < o_nlink (ob s o)).

(** The calls for which the accounting is right (the others: findings 1, 5, 39, 40, 52). *)
Definition tidy (op : op) (s : fs) : Prop :=
  let r := fst (step op s) in let s' := snd (step op s) in
  match op with
  | Link _ _ | Rename _ _ _ => r <> os_err ENOSPC /\ devs_kept s s'
  | CreateLink _ _ _ missing => missing = false /\ r <> os_err ENOSPC /\ devs_kept s s'
  | AddMount _ _ => forall k, r = Ok k -> dev_empty s' (f_dev s')
  | Truncate _ _ | Ftruncate _ _ | SetContents _ _
  | Open _ _ _ _ | OsOpen _ _ _ _ | OsClose _ | OsRead _ _ | OsWrite _ _ | OsPipe
  | HRead _ _ | HWrite _ _ | HSeek _ _ _ | HTell _ | HTruncate _ _ | HFlush _ | HClose _ => once s s'
  | _ => True
  end.
Fixpoint all_tidy (s : fs) (ops : list op) : Prop :=
  match ops with [] => True | o :: l => tidy o s /\ all_tidy (snd (step o s)) l end.
