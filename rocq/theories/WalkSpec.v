(** * Vocabulary for walks (C46, C47). *)
From Verif Require Export WalkModel FsSpec.
From Coq Require Import List Bool ZArith Ascii.
Import ListNotations.

(** os.path.join(p, *b) *)
Definition path_in (s : fs) (p : str) (b : list str) : str :=
  match joinpaths (f_cfg s) (p :: b) with Some q => q | None => [] end.
(** os.path.isdir *)
Definition isdirb (s : fs) (q : str) : bool := match isdir s q true with Ok b => b | Err _ => false end.
(** os.path.islink *)
Definition islinkb (s : fs) (q : str) : bool := match islink s q with Ok b => b | Err _ => false end.
(** the names in the directory found along [b] from [d] *)
Definition names_at (s : fs) (d : oid) (b : list str) : list str :=
  match tree_at s d b with Some x => map fst (ents s x) | None => [] end.
(** what a walk from [p] yields at [b]: the path, the names that are
    directories (or links to such), the other names *)
Definition yields (s : fs) (p : str) (d : oid) (b : list str) : wevent :=
  WYield (path_in s p b)
    (filter (fun n => isdirb s (path_in s p (b ++ [n]))) (names_at s d b))
    (filter (fun n => negb (isdirb s (path_in s p (b ++ [n])))) (names_at s d b)).
(** the names [b] lead from [d] to a directory *)
Definition sub_dir (s : fs) (d : oid) (b : list str) : Prop :=
  exists x, tree_at s d b = Some x /\ is_dirobj s x = true.
(** all names along [b] were kept by the caller *)
Definition kept_path (s : fs) (keep : str -> str -> bool) (p : str) (b : list str) : Prop :=
  forall a n r, b = a ++ n :: r -> keep (path_in s p a) n = true.
(** all directories below [d], and [d], have the owner's read bit *)
Definition readable_below (s : fs) (d : oid) : Prop :=
  forall b x, tree_at s d b = Some x -> is_dirobj s x = true -> has_bit (o_mode (ob s x)) PERM_READ = true.
(** nothing in the tree below [d], the directory called [names], is spelled
    like the null device *)
Definition no_null_below (s : fs) (names : list str) (d : oid) : Prop :=
  forall b x, tree_at s d b = Some x -> ~ is_null s (names ++ b).
