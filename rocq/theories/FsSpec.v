(** * Small specification vocabulary for filesystem states.

    Only the raw contents of the state are used here (the entries of directory
    objects, mode bits, link texts), none of the lookup code of the model. *)
From Verif Require Export FsModel PathSpec.

(** The configurations for which the tree theorems are stated: a case
    sensitive, non Windows, non macOS filesystem without alternative separator
    (what [fs.os = OSType.LINUX] gives), with any separator but ['.']. *)
Record linux_like (c : cfg) : Prop := {
  ll_win : c_win c = false;
  ll_mac : c_mac c = false;
  ll_cs  : c_cs c = true;
  ll_alt : c_alt c = None;
  ll_sep : c_sep c <> dotc
}.

Notation sepc s := (c_sep (f_cfg s)).

(** The object that directory [d] holds under the name [n]. *)
Definition entry (s : fs) (d : oid) (n : str) : option oid := assoc n (ents s d).

(** The object found by walking a list of names from [d]. *)
Fixpoint tree_at (s : fs) (d : oid) (names : list str) : option oid :=
  match names with
  | [] => Some d
  | n :: rest => match entry s d n with
                 | Some o => tree_at s o rest
                 | None => None
                 end
  end.
(** ... from the root *)
Definition at_names (s : fs) (names : list str) : option oid := tree_at s root_oid names.

(** mode bits say: symbolic link / directory / regular file *)
Definition is_link (s : fs) (o : oid) : bool := S_ISLNK (o_mode (ob s o)).
Definition is_dirm (s : fs) (o : oid) : bool := S_ISDIR (o_mode (ob s o)).
Definition is_regm (s : fs) (o : oid) : bool := S_ISREG (o_mode (ob s o)).

(** A name that can stand between separators. *)
Definition clean (sp : ascii) (w : str) : Prop := w <> [] /\ ~ In sp w.

(** [names] meets a symbolic link [l] called [n] in directory [pre], with
    [rest] still to come. *)
Definition meets_link (s : fs) (names pre : list str) (n : str) (l : oid) (rest : list str) : Prop :=
  names = pre ++ n :: rest /\ at_names s (pre ++ [n]) = Some l /\ is_link s l = true.

(** The names a link text stands for, in the directory [pre]: an absolute text
    is taken from the root, a relative one from the directory of the link. *)
Definition link_target (c : cfg) (pre : list str) (t : str) : list str :=
  path_components c (normpath c (if is_abs (c_sep c) t then t else join_with [c_sep c] (pre ++ [t]))).

(** [resolves s k names r]: following the first link exactly [k] times, names
    become [r], which meets no link. *)
Inductive resolves (s : fs) : nat -> list str -> list str -> Prop :=
| res_done names :
    (forall pre n l rest, ~ meets_link s names pre n l rest) -> resolves s 0 names names
| res_link k names pre n l rest t r :
    meets_link s names pre n l rest ->
    o_body (ob s l) = BFile (Some t) ->
    resolves s k (link_target (f_cfg s) pre t ++ rest) r ->
    resolves s (S k) names r.

(** States in which lookups are well behaved: a Linux configuration, an
    absolute current directory, no directory object with the mode
    bits of a link, and a root that is a directory. *)
Record good (s : fs) : Prop := {
  gd_lin : linux_like (f_cfg s);
  gd_cwd : is_abs (sepc s) (f_cwd s) = true;
  gd_dnl : forall o, is_dirobj s o = true -> is_link s o = false;
  gd_root : is_dirobj s root_oid = true
}.

(** The path of [names] is the name of the null device. *)
Definition is_null (s : fs) (names : list str) : Prop :=
  names <> [] /\ abs_path (sepc s) names = devnull_name s.

(** Where the absolute path of [names] leads: the null device is not looked
    at, otherwise at most 41 links are followed. *)
Definition resolved (s : fs) (names r : list str) : Prop :=
  (is_null s names /\ r = names) \/
  (~ is_null s names /\ exists k, k <= 41 /\ resolves s k names r).

(** The object called by link free [names]. *)
Definition denotes (s : fs) (names : list str) (o : oid) : Prop :=
  (is_null s names /\ o = devnull_oid) \/ (~ is_null s names /\ at_names s names = Some o).

(** Every object passed on the way along [names] has directory mode bits. *)
Definition searchable (s : fs) (d : oid) (names : list str) : Prop :=
  forall pre n rest o, names = pre ++ n :: rest -> tree_at s d pre = Some o -> is_dirm s o = true.
(** Every object reached along [names] has the owner's read bit. *)
Definition readable (s : fs) (d : oid) (names : list str) : Prop :=
  forall pre rest o, names = pre ++ rest -> pre <> [] -> tree_at s d pre = Some o ->
    has_bit (o_mode (ob s o)) PERM_READ = true.
Definition may_read (s : fs) (check : bool) (d : oid) (names : list str) : Prop :=
  is_root s = true \/ check = false \/ readable s d names.

(** Directory mode bits are exactly on the directory objects. *)
Definition honest_dirs (s : fs) : Prop := forall o, is_dirm s o = is_dirobj s o.
(** The links in directories have a text. *)
Definition honest_links (s : fs) : Prop :=
  forall d n o, entry s d n = Some o -> is_link s o = true -> exists t, o_body (ob s o) = BFile (Some t).

(** [ext a b]: [b] has every directory entry of [a], and the objects in the
    tree of [a] have the same mode bits and file data in [b].  (Adding entries
    goes from [a] to [b], removing them from [b] to [a].) *)
Record ext (a b : fs) : Prop := {
  ex_cfg  : f_cfg a = f_cfg b;
  ex_cwd  : f_cwd a = f_cwd b;
  ex_uid  : f_uid a = f_uid b;
  ex_null : devnull_name a = devnull_name b;
  ex_ent  : forall d n o, entry a d n = Some o -> entry b d n = Some o;
  ex_mode : forall names o, at_names a names = Some o -> o_mode (ob b o) = o_mode (ob a o);
  ex_file : forall names o data, at_names a names = Some o ->
              o_body (ob a o) = BFile data -> o_body (ob b o) = BFile data
}.

(** [a] contains [b], directly or not (or is [b]). *)
Definition reach (s : fs) (a b : oid) : Prop := exists names, tree_at s a names = Some b.

(** How many entries of a directory are the object [o]. *)
Definition cnt (o : oid) (es : list (str * oid)) : nat :=
  length (filter (fun e => Nat.eqb (snd e) o) es).
Fixpoint sumn (f : nat -> nat) (n : nat) : nat :=
  match n with O => 0 | S k => sumn f k + f k end.
(** The number of names of [o]: directory entries referring to it, over all
    directory objects. *)
Definition refs (s : fs) (o : oid) : nat := sumn (fun d => cnt o (ents s d)) (f_next s).

(** Objects keep their kind, mode bits, owner, size, times and extended
    attributes, and files keep their contents: only names, links and the
    entries of directories may differ. *)
Record same_data (s s' : fs) : Prop := {
  sd_mode : forall o, o_mode (ob s' o) = o_mode (ob s o);
  sd_uid : forall o, o_uid (ob s' o) = o_uid (ob s o);
  sd_gid : forall o, o_gid (ob s' o) = o_gid (ob s o);
  sd_size : forall o, o_size (ob s' o) = o_size (ob s o);
  sd_atime : forall o, o_atime (ob s' o) = o_atime (ob s o);
  sd_mtime : forall o, o_mtime (ob s' o) = o_mtime (ob s o);
  sd_ctime : forall o, o_ctime (ob s' o) = o_ctime (ob s o);
  sd_xattr : forall o, o_xattr (ob s' o) = o_xattr (ob s o);
  sd_dir : forall o, is_dirobj s' o = is_dirobj s o;
  sd_file : forall o data, o_body (ob s o) = BFile data -> o_body (ob s' o) = BFile data
}.

(** [s'] is [s] after the entry [n0] of [od], the object [o], became the entry
    [nn] of [nd]: the old entry is gone, the new one is there, and all other
    entries are as before, but those inside an object that was replaced. *)
Record moved (s s' : fs) (od : oid) (n0 : str) (nd : oid) (nn : str) (o : oid) : Prop := {
  mv_was : entry s od n0 = Some o;
  mv_new : entry s' nd nn = Some o;
  mv_old : ~ (od = nd /\ n0 = nn) -> entry s' od n0 = None;
  mv_frame : forall d n, ~ (d = od /\ n = n0) -> ~ (d = nd /\ n = nn) ->
    (od = nd /\ n0 = nn) \/ (forall x, entry s nd nn = Some x -> ~ reach s x d) ->
    entry s' d n = entry s d n;
  mv_none : forall d n x, entry s' d n = Some x -> (d = nd /\ n = nn) \/ entry s d n = Some x;
  mv_data : same_data s s'
}.

(** Names that do not start with two dots. *)
Definition plain (sp : ascii) (names : list str) : Prop :=
  Forall (ordinary sp) names /\ Forall (fun w => starts_with (L "..") w = false) names.

(** [r] is a value, an OSError or an AttributeError (raised when a link without
    text is met).  In particular the fuel of the model is not used up, which is
    how an endless loop or recursion would show. *)
Definition answers {A} (r : res A) : Prop :=
  (exists x, r = Ok x) \/ (exists e, r = Err (OSErr e)) \/ r = Err AttrErr.
Definition answers_bool (r : res bool) : Prop := (exists b, r = Ok b) \/ r = Err AttrErr.

(** [s'] is [s] with one more name: directory [d] got the entry [n], the object
    [o], at the end of its list, and one more link.  No other object than [d]
    and [o] changed in any way, nor did the current directory, the open files,
    the umask or the user.  (Disk usage and the counters for new objects and
    inode numbers may have changed.) *)
Record one_more (s s' : fs) (d : oid) (n : str) (o : oid) : Prop := {
  om_isdir : is_dirobj s d = true;
  om_was : entry s d n = None;
  om_dir : ob s' d = wo_nlink (wo_body (ob s d) (BDir (ents s d ++ [(n, o)]))) (o_nlink (ob s d) + 1);
  om_other : forall x, x <> d -> x <> o -> ob s' x = ob s x;
  om_rest : s' = set_mounts (set_ino (set_next (set_heap s (f_heap s')) (f_next s')) (f_ino s')) (f_mounts s')
}.

(** [s'] is [s] with one name less: directory [d] lost its entry [n], the
    object [o]; [d] and [o] have one link less and nothing else of them
    changed; all other objects and the rest of the state (but for the disk
    usage) are the same. *)
Record one_less (s s' : fs) (d : oid) (n : str) (o : oid) : Prop := {
  ol_was : entry s d n = Some o;
  ol_dir : ob s' d = wo_nlink (wo_body (ob s d) (BDir (del_assoc n (ents s d)))) (o_nlink (ob s d) - 1);
  ol_obj : ob s' o = wo_nlink (ob s o) (o_nlink (ob s o) - 1);
  ol_other : forall x, x <> d -> x <> o -> ob s' x = ob s x;
  ol_rest : s' = set_mounts (set_heap s (f_heap s')) (f_mounts s')
}.

(** Nothing that can be seen changed: the two states differ at most in objects
    numbered beyond those of [s], which no directory entry refers to, and in
    the counters for new objects and inode numbers. *)
Record unseen (s s' : fs) : Prop := {
  un_old : forall x, x < f_next s -> ob s' x = ob s x;
  un_new : f_next s <= f_next s';
  un_state : s' = set_ino (set_next (set_heap s (f_heap s')) (f_next s')) (f_ino s')
}.

(** The mount point (device) on which the object [o] lives has [m]. *)
Definition on_device (s : fs) (o : oid) (m : mount) : Prop :=
  exists k, In (k, m) (f_mounts s) /\ o_dev (ob s o) = Some (m_idev m).

(** The names a path stands for, from the current directory. *)
Definition names_of (s : fs) (p : str) (names : list str) : Prop :=
  walk_pos (sepc s) (walk_pos (sepc s) [] (f_cwd s)) p = rev names.

(** The path [p] stands for the name [n] in the directory [d], which is where
    the names [pre] before it lead. *)
Definition place (s : fs) (p : str) (pre : list str) (n : str) (d : oid) : Prop :=
  names_of s p (pre ++ [n]) /\ resolve s (abs_path (sepc s) pre) true = Ok d.

(** No mount point uses more than its size. *)
Definition within_limits (s : fs) : Prop :=
  forall k m t, In (k, m) (f_mounts s) -> m_total m = Some t -> (m_used m <= t)%Z.

(** [o] is a new object in directory [d], made by the current user, now:
    one name, an unused inode number, the device of its directory. *)
Record brand_new (s s' : fs) (d o : oid) : Prop := {
  bn_new : o = f_next s /\ f_next s' = S (f_next s);
  bn_uid : o_uid (ob s' o) = f_uid s;
  bn_gid : o_gid (ob s' o) = f_gid s;
  bn_dev : o_dev (ob s' o) = o_dev (ob s d);
  bn_times : o_atime (ob s' o) = f_now s /\ o_mtime (ob s' o) = f_now s /\ o_ctime (ob s' o) = f_now s;
  bn_xattr : o_xattr (ob s' o) = [];
  bn_ino : exists i, o_ino (ob s' o) = Some i /\ forall x, x < f_next s -> o_ino (ob s x) <> Some i
}.

(** The name [n] in [d] would be spelled like the null device (a file there can
    not be reached through a link to [d], see C10). *)
Definition null_clash (s : fs) (d : oid) (n : str) : Prop :=
  exists rr, at_names s rr = Some d /\ is_null s (rr ++ [n]).

(** Nothing in the tree is spelled like the null device. *)
Definition null_free (s : fs) : Prop := forall names, is_null s names -> at_names s names = None.
(** The path [p] is not the null device. *)
Definition not_null_path (s : fs) (p : str) : Prop := forall names, names_of s p names -> ~ is_null s names.

(** [s'] is [s] after the entry [n] of [d], the object [x], was taken away with
    everything below it: the entry is gone, the directories below [x] are empty,
    all other directories have the entries they had; apart from entries and
    link counts no object changed, and the link count of a file is the number
    of names it still has. *)
Record tree_removed (s s' : fs) (d : oid) (n : str) (x : oid) : Prop := {
  tr_was : entry s d n = Some x;
  tr_dir : ents s' d = del_assoc n (ents s d);
  tr_below : forall y, reach s x y -> ents s' y = [];
  tr_frame : forall y, y <> d -> ~ reach s x y -> ents s' y = ents s y;
  tr_same : forall y, ob s' y = wo_nlink (wo_body (ob s y) (o_body (ob s' y))) (o_nlink (ob s' y));
  tr_file : forall y, is_dirobj s y = false -> o_body (ob s' y) = o_body (ob s y);
  tr_nlink : forall y, y < f_next s -> is_dirobj s y = false ->
    o_nlink (ob s y) = Z.of_nat (refs s y) /\ o_nlink (ob s' y) = Z.of_nat (refs s' y);
  tr_rest : s' = set_mounts (set_heap s (f_heap s')) (f_mounts s')
}.

(** [s'] is [s] with a chain of new directories in [d]: [d] got the entry
    [n], a new directory, which holds the next of the [names], and so on; the
    last one is empty.  No other object changed. *)
Record dirs_made (s s' : fs) (d : oid) (names : list str) (mode : N) : Prop := {
  dm_next : f_next s' = f_next s + length names;
  dm_top : forall n rest, names = n :: rest -> entry s d n = None /\
    ob s' d = wo_nlink (wo_body (ob s d) (BDir (ents s d ++ [(n, f_next s)]))) (o_nlink (ob s d) + 1);
  dm_old : forall x, x < f_next s -> x <> d -> ob s' x = ob s x;
  dm_new : forall i n, nth_error names i = Some n ->
    o_body (ob s' (f_next s + i)) = BDir (match nth_error names (S i) with Some m => [(m, f_next s + S i)] | None => [] end) /\
    o_name (ob s' (f_next s + i)) = n /\ o_mode (ob s' (f_next s + i)) = mode /\
    o_uid (ob s' (f_next s + i)) = f_uid s /\ o_gid (ob s' (f_next s + i)) = f_gid s /\
    o_dev (ob s' (f_next s + i)) = o_dev (ob s d);
  dm_rest : s' = set_ino (set_next (set_heap s (f_heap s')) (f_next s')) (f_ino s')
}.

(** Every path that led to an object still leads to it, and the object has the
    mode bits and (if a file) the contents it had.  (The null device object is
    not part of the tree.) *)
Definition still_there (s s' : fs) : Prop :=
  forall q check x, resolve s q check = Ok x -> x <> devnull_oid ->
    resolve s' q check = Ok x /\ o_mode (ob s' x) = o_mode (ob s x) /\
    (forall data, o_body (ob s x) = BFile data -> o_body (ob s' x) = BFile data).

(** The path [p] exists: os.path.lexists of the names it stands for. *)
Definition lexists (s : fs) (p : str) : Prop :=
  exists names, names_of s p names /\ exists_ s (abs_path (sepc s) names) true = Ok true.

(** [s'] is [s] with the object [o] replaced by [f o]; all else is the same. *)
Record touched (s s' : fs) (o : oid) (f : fobj -> fobj) : Prop := {
  to_obj : ob s' o = f (ob s o);
  to_other : forall x, x <> o -> ob s' x = ob s x;
  to_rest : s' = set_heap s (f_heap s')
}.
