(** * What os.path.realpath should return.

    A position is a stack of names, innermost first ([[]] is the root), as in
    PathSpec.v; [at_names] and [is_link] (FsSpec.v) look at the raw tree. *)
From Verif Require Export FsSpec.

(** The name [w] in the directory at [pos] is a symbolic link with text [t]. *)
Definition link_at (s : fs) (pos : list str) (w t : str) : Prop :=
  exists l, at_names s (rev (w :: pos)) = Some l /\ is_link s l = true /\ o_body (ob s l) = BFile (Some t).
Definition no_link_at (s : fs) (pos : list str) (w : str) : Prop :=
  forall l, at_names s (rev (w :: pos)) = Some l -> is_link s l = false.

(** [real s pos comps r]: going through the components [comps] from [pos],
    following every link on the way as the POSIX system calls do (".." is the
    parent of the directory one has arrived at), one gets to [r].  What does not
    exist counts as a plain name. *)
Inductive real (s : fs) : list str -> list str -> list str -> Prop :=
| real_end pos : real s pos [] pos
| real_stay pos w rest r : w = [] \/ w = L "." -> real s pos rest r -> real s pos (w :: rest) r
| real_up pos rest r : real s (tl pos) rest r -> real s pos (L ".." :: rest) r
| real_name pos w rest r : ordinary (sepc s) w -> no_link_at s pos w ->
    real s (w :: pos) rest r -> real s pos (w :: rest) r
| real_link pos w rest t m r : ordinary (sepc s) w -> link_at s pos w t ->
    real s (if is_abs (sepc s) t then [] else pos) (split_on (sepc s) t) m ->
    real s m rest r -> real s pos (w :: rest) r.

(** the same for an absolute path; [names] from the root on *)
Definition real_path (s : fs) (p : str) (names : list str) : Prop :=
  real s [] (split_on (sepc s) p) (rev names).

(** All directories have the read bit (lookups of links need it, even for root,
    fake_filesystem.py 2083). *)
Definition open_dirs (s : fs) : Prop :=
  forall o, is_dirobj s o = true -> has_bit (o_mode (ob s o)) PERM_READ = true.

(** No component of the path is "..". *)
Definition upless (sp : ascii) (p : str) : Prop := ~ In (L "..") (split_on sp p).
