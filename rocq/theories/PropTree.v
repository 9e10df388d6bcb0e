(** * Properties C12-C16: the directory tree after any history of calls.

    [entry s d n], [at_names s names], [refs s o] are defined in FsSpec.v from
    the raw entries of the directory objects; [stat_of s o] is the stat result
    of object [o]. *)
From Verif Require Import SysModel FsSpec TreeThm.

(** ** C12 *)
(** ordinary names: not empty, not "." or "..", no separator *)
Theorem C12_listings_have_no_duplicates : forall c s, linux_like c -> reachable c s ->
  forall a l, listdir s a = Ok l -> NoDup l /\ Forall (ordinary (sepc s)) l.
Proof. exact listing_ok. Qed.
Print Assumptions C12_listings_have_no_duplicates.

(** the listing is exactly the entries of the directory, and each can be looked
    up (the code looks entries up only in a directory with the read bit) *)
Theorem C12_listed_names_are_found : forall c s, linux_like c -> reachable c s ->
  forall p l, listdir s (PStr p) = Ok l ->
  exists rp rr d, resolve_path s p = Ok rp /\ resolve_path s rp = Ok (abs_path (sepc s) rr) /\ at_names s rr = Some d /\
    (forall n, In n l <-> exists o, entry s d n = Some o) /\
    (has_bit (o_mode (ob s d)) PERM_READ = true -> forall n o, entry s d n = Some o ->
       lresolve s (abs_path (sepc s) (rr ++ [n])) = Ok o /\
       exists_ s (abs_path (sepc s) (rr ++ [n])) true = Ok true).
Proof. exact listing_entries. Qed.
Print Assumptions C12_listed_names_are_found.

Definition tree_ops : list op :=
  [Mkdir (L "/d") 511; CreateFile (L "/d/f") 33188 (Some (L "hi")) None false false;
   Symlink (L "nowhere") (L "/d/l"); Link (L "/d/f") (L "/g"); Mkdir (L "/d/e") 511].
Definition tree_state : fs := run (init posix_cfg None 18 0 0 0) tree_ops.
Lemma tree_reachable : reachable posix_cfg tree_state.
Proof. exists None, 18%N, 0%Z, 0%Z, 0%Z, tree_ops. reflexivity. Qed.
Example C12_case : listdir tree_state (PStr (L "/d")) = Ok [L "f"; L "l"; L "e"].
Proof. vm_compute. reflexivity. Qed.

(** ** C13 *)
(** a file or link: as many links as names; a directory: two and its entries
    (the root: one and its entries) *)
Theorem C13_link_count_is_number_of_names : forall c s, linux_like c -> reachable c s ->
  forall names o, at_names s names = Some o ->
  ss_nlink (stat_of s o) =
    if is_dirobj s o then ((if names then 1 else 2) + Z.of_nat (length (ents s o)))%Z
    else Z.of_nat (refs s o).
Proof. exact link_counts. Qed.
Print Assumptions C13_link_count_is_number_of_names.

Example C13_case : at_names tree_state [L "d"; L "f"] = Some 3 /\ refs tree_state 3 = 2 /\
  at_names tree_state [L "d"] = Some 2 /\ ss_nlink (stat_of tree_state 2) = 5%Z.
Proof. repeat split; vm_compute; reflexivity. Qed.

(** ** C14 *)
Theorem C14_the_tree_is_a_tree : forall c s, linux_like c -> reachable c s ->
  (* a directory has one path *)
  (forall a b o, is_dirobj s o = true -> at_names s a = Some o -> at_names s b = Some o -> a = b) /\
  (* it is not below itself *)
  (forall d names, tree_at s d names = Some d -> names = []) /\
  (* its parent is the directory it is in, under its own name: following
     parents ends at the root, which has none *)
  (forall names n o, at_names s (names ++ [n]) = Some o -> is_dirobj s o = true ->
     o_parent (ob s o) = at_names s names /\ o_name (ob s o) = n) /\
  o_parent (ob s root_oid) = None.
Proof. exact tree_shape. Qed.
Print Assumptions C14_the_tree_is_a_tree.

Example C14_case : at_names tree_state [L "d"; L "e"] = Some 5 /\ is_dirobj tree_state 5 = true /\
  o_parent (ob tree_state 5) = Some 2.
Proof. repeat split; vm_compute; reflexivity. Qed.

(** ** C15 *)
Theorem C15_inode_numbers_identify_objects : forall c s, linux_like c -> reachable c s ->
  forall a b x y, at_names s a = Some x -> at_names s b = Some y ->
  ss_ino (stat_of s x) <> None /\ (ss_ino (stat_of s x) = ss_ino (stat_of s y) <-> x = y).
Proof. exact ino_tree. Qed.
Print Assumptions C15_inode_numbers_identify_objects.

(** os.path.samefile says whether both paths lead to the same object *)
Theorem C15_samefile : forall c s, linux_like c -> reachable c s ->
  forall p q b, samefile s p q = Ok b ->
  exists x y, resolve s p false = Ok x /\ resolve s q false = Ok y /\ (b = true <-> x = y).
Proof. exact samefile_object. Qed.
Print Assumptions C15_samefile.

Example C15_case : samefile tree_state (L "/d/f") (L "/g") = Ok true /\ samefile tree_state (L "/d/f") (L "/d") = Ok false.
Proof. split; vm_compute; reflexivity. Qed.

(** ** C16 *)
(** for a directory below no top level directory whose name looks like a drive
    ("x:"), obj.path is its path; it is resolved, and resolves to the object
    when directory mode bits are honest *)
Theorem C16_path_of_a_directory_partial : forall c s, linux_like c -> reachable c s ->
  forall names o, at_names s names = Some o -> is_dirobj s o = true ->
  (forall n rest, names = n :: rest -> is_drive_name n = false) ->
  obj_path s o = Ok (abs_path (sepc s) names) /\
  resolve_path s (abs_path (sepc s) names) = Ok (abs_path (sepc s) names) /\
  (honest_dirs s -> ~ is_null s names -> resolve s (abs_path (sepc s) names) false = Ok o).
Proof. exact dir_path. Qed.
Print Assumptions C16_path_of_a_directory_partial.

(** finding: a top level directory called "x:" is taken for a drive *)
Definition drive_ops : list op := [Mkdir (L "/x:") 511; Mkdir (L "/d") 511; Chdir (PStr (L "/d"))].
Theorem C16_drive_like_name_refuted : exists s o p, reachable posix_cfg s /\
  at_names s [L "x:"] = Some o /\ is_dirobj s o = true /\ obj_path s o = Ok p /\ resolve s p false = os_err ENOENT.
Proof.
  exists (run (init posix_cfg None 18 0 0 0) drive_ops), 2, (L "/d/x:").
  split; [exists None, 18%N, 0%Z, 0%Z, 0%Z, drive_ops; reflexivity|].
  split; [vm_compute; reflexivity|]. split; [vm_compute; reflexivity|]. split; vm_compute; reflexivity.
Qed.
Print Assumptions C16_drive_like_name_refuted.

Example C16_case : obj_path tree_state 5 = Ok (L "/d/e") /\ is_drive_name (L "d") = false.
Proof. split; vm_compute; reflexivity. Qed.
