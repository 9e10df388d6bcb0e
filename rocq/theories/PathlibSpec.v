(** * What Path.resolve should return. *)
From Verif Require Export RealSpec.

(** [realx s strict pos comps r]: going through the components [comps] from
    [pos], following every link on the way (".." is the parent of the directory
    one has arrived at), one gets to [r]; if [strict], everything met on the way
    exists. *)
Inductive realx (s : fs) (strict : bool) : list str -> list str -> list str -> Prop :=
| rx_end pos : realx s strict pos [] pos
| rx_stay pos w rest r : w = [] \/ w = L "." -> realx s strict pos rest r -> realx s strict pos (w :: rest) r
| rx_up pos rest r : realx s strict (tl pos) rest r -> realx s strict pos (L ".." :: rest) r
| rx_name pos w rest r : ordinary (sepc s) w -> no_link_at s pos w ->
    (strict = true -> exists o, at_names s (rev (w :: pos)) = Some o) ->
    realx s strict (w :: pos) rest r -> realx s strict pos (w :: rest) r
| rx_link pos w rest t m r : ordinary (sepc s) w -> link_at s pos w t ->
    realx s strict (if is_abs (sepc s) t then [] else pos) (split_on (sepc s) t) m ->
    realx s strict m rest r -> realx s strict pos (w :: rest) r.

(** from a directory [from] (the names from the root on) *)
Definition leads_from (s : fs) (strict : bool) (from : list str) (p : str) (names : list str) : Prop :=
  realx s strict (if is_abs (sepc s) p then [] else rev from) (split_on (sepc s) p) (rev names).
