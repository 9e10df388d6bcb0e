(** * Properties C59-C61: lookups raise only OSError; the question functions
    tell which calls work; mode bits tell what an object is.

    [proper_history u c s] (HonestSpec.v): [s] is the state after any calls on a
    fresh filesystem of configuration [c], where no new file is given the type
    bits of a directory or of a link and no new directory other bits than
    permissions; [u]: no disk has a size limit. *)
From Verif Require Import SysModel FsSpec HonestSpec HistThm PropTree PropOps PropWalk PropReal.

(** ** C61 *)

(** the mode says directory exactly for directories (objects that can have
    entries); chmod, chown, open, rename and all other calls keep it so *)
Theorem C61_mode_tells_directories : forall u c s, proper_history u c s ->
  forall o, is_dirm s o = is_dirobj s o /\ has_bit (o_mode (ob s o)) S_IFDIR = is_dirobj s o.
Proof. intros u c s H o. split; [apply (proper_honest_dirs u c s H)|apply (proper_bits u c s H)]. Qed.
Print Assumptions C61_mode_tells_directories.

(** without size limits, everything in a directory whose mode says link is a
    link with a text *)
Theorem C61_links_have_texts : forall c s, proper_history True c s ->
  forall d n o, entry s d n = Some o -> is_link s o = true -> exists t, o_body (ob s o) = BFile (Some t).
Proof. intros c s H. exact (proper_honest_links c s H). Qed.
Print Assumptions C61_links_have_texts.

(** with a size limit: a link that does not fit on the disk, in a directory the
    user cannot look into (finding 44), stays as a link without text *)
Definition c61_ops := [Mkdir (L "/d") 511; Chmod (PStr (L "/d")) 438 true; SetUid 1000; Symlink (L "/a/long/target") (L "/d/l")].
Definition c61_state := run (init posix_cfg (Some 10%Z) 18 0 0 0) c61_ops.
Theorem C61_full_disk_refuted : proper_history False posix_cfg c61_state /\
  (exists d o, at_names c61_state [L "d"] = Some d /\ entry c61_state d (L "l") = Some o /\ is_link c61_state o = true /\ o_body (ob c61_state o) = BFile None) /\
  stat c61_state (PStr (L "/d/l")) true = Err AttrErr.
Proof.
  split; [|split].
  - exists (Some 10%Z), 18%N, 0%Z, 0%Z, 0%Z, c61_ops. split; [intros []|]. split; [repeat constructor|reflexivity].
  - exists 2, 3. repeat split; vm_compute; reflexivity.
  - vm_compute; reflexivity.
Qed.
Print Assumptions C61_full_disk_refuted.

Lemma tree_proper : proper_history True posix_cfg tree_state.
Proof.
  exists None, 18%N, 0%Z, 0%Z, 0%Z, tree_ops. split; [reflexivity|]. split; [|reflexivity].
  repeat constructor; vm_compute; try reflexivity; intros K; discriminate K.
Qed.
Lemma c56_proper : proper_history True posix_cfg c56_state.
Proof.
  exists None, 18%N, 0%Z, 0%Z, 0%Z, c56_ops. split; [reflexivity|]. split; [|reflexivity].
  repeat constructor; vm_compute; try reflexivity; intros K; discriminate K.
Qed.
Example C61_case : proper_history True posix_cfg tree_state /\ proper_history True posix_cfg c56_state /\
  (exists l, entry tree_state 2 (L "l") = Some l /\ is_link tree_state l = true).
Proof. split; [exact tree_proper|]. split; [exact c56_proper|]. eexists. split; vm_compute; reflexivity. Qed.

(** ** C59 *)
Definition only_os {A} (r : res A) : Prop := (exists x, r = Ok x) \/ (exists e, r = Err (OSErr e)).

Theorem C59_lookups_raise_only_oserror : forall c s, linux_like c -> proper_history True c s ->
  forall p follow check flag,
  only_os (resolve_path s p) /\ only_os (resolve_follow s p follow check) /\ only_os (get_object s p check) /\
  only_os (stat s (PStr p) follow) /\ only_os (listdir s (PStr p)) /\ only_os (readlink s p) /\
  (exists b, exists_ s p follow = Ok b) /\ (exists b, is_of_type s p flag follow = Ok b).
Proof.
  intros c s Hc HH p follow check flag. pose proof (proper_reachable _ _ _ HH) as Hr.
  destruct (reachable_GP c s Hc Hr) as [HG _]. pose proof (reachable_Pinv c s Hc Hr) as HP.
  pose proof (proper_honest_dirs _ _ _ HH) as HD. pose proof (proper_honest_links _ _ HH) as HL. pose proof (proper_bits _ _ _ HH) as HB.
  assert (K : forall A (r : res A), answers r -> r <> Err AttrErr -> only_os r).
  { intros A r [Q|[Q|Q]] Hn; [left; exact Q|right; exact Q|contradiction]. }
  destruct (lookups_answer c s Hc Hr p follow check flag) as (A1 & A2 & A3 & A4 & A5 & A6 & _ & _).
  split; [apply K; [exact A1|apply (nr_path s HG HL HD)]|]. split; [apply K; [exact A2|apply (nr_follow s HG HL HD)]|].
  split; [apply K; [exact A3|apply (nr_object s HG HL HD)]|]. split; [apply K; [exact A4|apply (nr_stat s HG HL HD p follow HP)]|].
  split; [apply K; [exact A5|apply (nr_listdir s HG HL HD HB)]|]. split; [apply K; [exact A6|apply (nr_readlink s HG HL HD HP)]|].
  split; [apply (exists_total s HG HL HD)|apply (type_total s p flag follow HG HL HD)].
Qed.
Print Assumptions C59_lookups_raise_only_oserror.

(** os.walk never raises: errors go to the onerror function *)
Theorem C59_walk_never_raises : forall c s, linux_like c -> proper_history True c s ->
  forall top topdown follow edit, (forall root ds fs, incl (edit root ds fs) ds) ->
  exists evs, walk s top topdown follow edit = Ok evs.
Proof.
  intros c s Hc HH top td fl edit He. pose proof (proper_reachable _ _ _ HH) as Hr. destruct (reachable_GP c s Hc Hr) as [HG _].
  apply (walk_no_exn s HG (proper_honest_links _ _ HH) (proper_honest_dirs _ _ _ HH) (proper_bits _ _ _ HH) top td fl edit He).
Qed.
Print Assumptions C59_walk_never_raises.

(** a file made with the type bits of a link (and a size instead of contents):
    every path through it raises AttributeError; one made with those of a block
    device has the bit of directories set: os.listdir raises AttributeError *)
Definition c59_state := run (init posix_cfg None 18 0 0 0)
  [CreateFile (L "/l") 41471 None (Some 5%Z) false false; CreateFile (L "/b") 25014 (Some (L "x")) None false false].
Theorem C59_type_bits_refuted : reachable posix_cfg c59_state /\
  stat c59_state (PStr (L "/l/x")) true = Err AttrErr /\ exists_ c59_state (L "/l") false = Err AttrErr /\
  listdir c59_state (PStr (L "/b")) = Err AttrErr.
Proof.
  split; [exists None, 18%N, 0%Z, 0%Z, 0%Z, [CreateFile (L "/l") 41471 None (Some 5%Z) false false; CreateFile (L "/b") 25014 (Some (L "x")) None false false]; reflexivity|].
  repeat split; vm_compute; reflexivity.
Qed.
Print Assumptions C59_type_bits_refuted.

Example C59_case : stat tree_state (PStr (L "/d/l/x")) true = os_err ENOENT /\ listdir tree_state (PStr (L "/g")) = os_err ENOTDIR /\
  readlink tree_state (L "/g") = os_err EINVAL /\ stat c56_state (PStr (L "/loop")) true = os_err ELOOP /\ exists_ c56_state (L "/loop") false = Ok false.
Proof. repeat split; vm_compute; reflexivity. Qed.

(** ** C60 *)

(** isdir: listdir works; the other way round for paths that exist *)
Theorem C60_isdir_listdir_partial : forall c s, linux_like c -> proper_history True c s -> forall p,
  (isdir s p true = Ok true -> exists l, listdir s (PStr p) = Ok l) /\
  (exists_ s p false = Ok true -> p <> devnull_name s -> resolve_path s p <> Ok (devnull_name s) ->
   (exists l, listdir s (PStr p) = Ok l) -> isdir s p true = Ok true).
Proof.
  intros c s Hc HH p. destruct (reachable_GP c s Hc (proper_reachable _ _ _ HH)) as [HG _].
  pose proof (proper_honest_dirs _ _ _ HH) as HD. split.
  - apply (isdir_listdir s HG HD).
  - intros E Hp Hn El. apply (listdir_isdir s HG HD (proper_bits _ _ _ HH) p Hp Hn E El).
Qed.
Print Assumptions C60_isdir_listdir_partial.

(** a link in the root directory whose text starts with "..": listdir works, but
    isdir and exists say no *)
Definition c60_ops := [Mkdir (L "/d") 511; CreateFile (L "/d/f") 33188 (Some (L "hi")) None false false; Symlink (L "../d") (L "/l")].
Definition c60_state := run (init posix_cfg None 18 0 0 0) c60_ops.
Theorem C60_parent_of_root_refuted : proper_history True posix_cfg c60_state /\
  listdir c60_state (PStr (L "/l")) = Ok [L "f"] /\ isdir c60_state (L "/l") true = Ok false /\
  exists_ c60_state (L "/l") false = Ok false /\ stat c60_state (PStr (L "/l")) true = os_err ENOENT.
Proof.
  split.
  { exists None, 18%N, 0%Z, 0%Z, 0%Z, c60_ops. split; [reflexivity|]. split; [|reflexivity].
    repeat constructor; vm_compute; try reflexivity; intros K; discriminate K. }
  repeat split; vm_compute; reflexivity.
Qed.
Print Assumptions C60_parent_of_root_refuted.

(** islink: readlink works *)
Theorem C60_islink_readlink : forall c s, linux_like c -> proper_history True c s -> forall p,
  ends_with_path_separator c p = false -> (islink s p = Ok true <-> exists t, readlink s p = Ok t).
Proof.
  intros c s Hc HH p Hs. pose proof (proper_reachable _ _ _ HH) as Hr. destruct (reachable_GP c s Hc Hr) as [HG _].
  apply (islink_readlink s HG (proper_honest_links _ _ HH)). rewrite (reachable_cfg c s Hr). exact Hs.
Qed.
Print Assumptions C60_islink_readlink.

(** exists: stat works (for root, and paths that do not end with a separator) *)
Theorem C60_exists_stat_partial : forall c s, linux_like c -> proper_history True c s -> forall p,
  is_root s = true -> ends_with_path_separator c p = false -> p <> devnull_name s -> resolve_path s p <> Ok (devnull_name s) ->
  (exists_ s p false = Ok true <-> exists st, stat s (PStr p) true = Ok st).
Proof.
  intros c s Hc HH p Hroot Hs Hp Hn. pose proof (proper_reachable _ _ _ HH) as Hr. destruct (reachable_GP c s Hc Hr) as [HG _].
  apply (exists_stat s HG (proper_honest_dirs _ _ _ HH) p Hroot Hp Hn). rewrite (reachable_cfg c s Hr). exact Hs.
Qed.
Print Assumptions C60_exists_stat_partial.

(** isfile: open for reading works (for root) *)
Theorem C60_isfile_open : forall c s, linux_like c -> proper_history True c s -> forall p b,
  is_root s = true -> p <> devnull_name s -> resolve_path s p <> Ok (devnull_name s) ->
  isfile s p true = Ok true -> exists w, fst (open_ (PStr p) (L "rb") b true s) = Ok w.
Proof.
  intros c s Hc HH p b Hroot Hp Hn E. destruct (reachable_GP c s Hc (proper_reachable _ _ _ HH)) as [HG _].
  apply (isfile_opens s HG (proper_honest_dirs _ _ _ HH) p b Hroot Hp Hn E).
Qed.
Print Assumptions C60_isfile_open.

(** for a user who is not root, a path can exist although stat is refused *)
Definition c60_user := run (init posix_cfg None 18 0 0 0)
  [Mkdir (L "/d") 511; CreateFile (L "/d/f") 33188 (Some (L "hi")) None false false; Chmod (PStr (L "/d")) 0 true; SetUid 1000].
Theorem C60_permissions_refuted : reachable posix_cfg c60_user /\
  exists_ c60_user (L "/d/f") false = Ok true /\ stat c60_user (PStr (L "/d/f")) true = os_err EACCES.
Proof.
  split; [exists None, 18%N, 0%Z, 0%Z, 0%Z, [Mkdir (L "/d") 511; CreateFile (L "/d/f") 33188 (Some (L "hi")) None false false; Chmod (PStr (L "/d")) 0 true; SetUid 1000]; reflexivity|].
  split; vm_compute; reflexivity.
Qed.
Print Assumptions C60_permissions_refuted.

Example C60_case : isdir tree_state (L "/d") true = Ok true /\ islink tree_state (L "/d/l") = Ok true /\
  ends_with_path_separator posix_cfg (L "/d/l") = false /\ readlink tree_state (L "/d/l") = Ok (L "nowhere") /\
  is_root tree_state = true /\ isfile tree_state (L "/g") true = Ok true /\ L "/g" <> devnull_name tree_state /\
  resolve_path tree_state (L "/g") <> Ok (devnull_name tree_state) /\ exists_ tree_state (L "/g") false = Ok true.
Proof.
  split; [vm_compute; reflexivity|]. split; [vm_compute; reflexivity|]. split; [vm_compute; reflexivity|]. split; [vm_compute; reflexivity|].
  split; [vm_compute; reflexivity|]. split; [vm_compute; reflexivity|].
  assert (E : devnull_name tree_state = L "/dev/null") by (vm_compute; reflexivity). rewrite E.
  assert (E2 : resolve_path tree_state (L "/g") = Ok (L "/g")) by (vm_compute; reflexivity). rewrite E2.
  split; [discriminate|]. split; [discriminate|]. vm_compute; reflexivity.
Qed.

(** ** Earlier properties, for histories *)
Theorem C20_remove_after_history : forall u c s, linux_like c -> proper_history u c s -> null_free s ->
  forall p, not_null_path s p -> forall r s', remove p s = (r, s') ->
  (s' = s /\ exists e, r = Err e) \/
  (r = Ok tt /\ exists pre n d x, names_of s p (pre ++ [n]) /\ resolve s (abs_path (sepc s) pre) false = Ok d /\
     is_dirobj s x = false /\ one_less s s' d n x).
Proof.
  intros u c s Hc HH NF p Hp r s' E.
  destruct (C20_remove c s Hc (proper_reachable _ _ _ HH) NF (proper_honest_dirs _ _ _ HH) p Hp r s' E) as [K|(K & pre & n & d & x & A & B & C & D & _)]; [left; exact K|].
  right. split; [exact K|]. exists pre, n, d, x. auto.
Qed.
Print Assumptions C20_remove_after_history.
