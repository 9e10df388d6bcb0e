(** * Independent specification of lexical paths.

    Nothing here refers to the model of pyfakefs; it says what POSIX path
    strings mean. *)
From Verif Require Export Str.

Section Spec.
Variable sp : ascii.   (* the separator *)

(** A path is absolute when it starts with the separator. *)
Definition is_abs (p : str) : bool := match p with x :: _ => Ascii.eqb x sp | [] => false end.

(** A usable file name: not empty, not [.] or [..], without the separator. *)
Definition ordinary (w : str) : Prop :=
  w <> [] /\ w <> L "." /\ w <> L ".." /\ ~ In sp w.

(** A position is a stack of names, innermost first; the root is [[]]. *)
Definition step_pos (pos : list str) (w : str) : list str :=
  if str_eqb w [] || str_eqb w (L ".") then pos
  else if str_eqb w (L "..") then tl pos
  else w :: pos.

(** The position a path denotes, starting from [pos]. *)
Definition walk_pos (pos : list str) (p : str) : list str :=
  fold_left step_pos (split_on sp p) (if is_abs p then [] else pos).

(** The canonical paths: [/], [.], [/a/b/c], or [../../a/b]. *)
Inductive canonical : str -> Prop :=
| can_root : canonical [sp]
| can_dot : canonical (L ".")
| can_abs names : names <> [] -> Forall ordinary names ->
    canonical (sp :: join_with [sp] names)
| can_rel ups names : ups ++ names <> [] ->
    Forall (fun w => w = L "..") ups -> Forall ordinary names ->
    canonical (join_with [sp] (ups ++ names)).

(** A run of separators. *)
Definition all_sep (s : str) : Prop := Forall (fun y => y = sp) s.

(** What [os.path.split] returns: nothing before a plain name, the root when
    only separators precede the name, else the text before the last run of
    separators. *)
Inductive split_spec (p : str) : str * str -> Prop :=
| sp_plain : ~ In sp p -> split_spec p ([], p)
| sp_root seps t : seps <> [] -> all_sep seps -> ~ In sp t -> p = seps ++ t ->
    split_spec p ([sp], t)
| sp_dir h seps t : h <> [] -> ends_with_char sp h = false -> seps <> [] -> all_sep seps ->
    ~ In sp t -> p = h ++ seps ++ t -> split_spec p (h, t).

(** What a drive may look like: nothing, [x:], or [//server/share]. *)
Inductive drive_spec (p : str) : str -> str -> Prop :=
| dr_none : drive_spec p [] p
| dr_letter x rest : p = x :: ":"%char :: rest -> drive_spec p [x; ":"%char] rest
| dr_unc server share rest :
    server <> [] -> ~ In sp server -> ~ In sp share ->
    (rest = [] \/ (share <> [] /\ exists r, rest = sp :: r)) ->
    p = sp :: sp :: server ++ sp :: share ++ rest ->
    drive_spec p (sp :: sp :: server ++ sp :: share) rest.

(** The absolute path with the given names. *)
Definition abs_path (names : list str) : str := sp :: join_with [sp] names.
End Spec.
