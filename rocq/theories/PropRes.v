(** * Properties C09-C11: path resolution and the question functions.

    [reachable c s]: [s] is the state after any history of modelled calls on a
    fresh filesystem of configuration [c]; [linux_like c] is what
    [fs.os = OSType.LINUX] gives.  [resolves], [resolved], [meets_link],
    [at_names], [entry], [answers] are the specification in FsSpec.v, [plain],
    [is_null], [honest_links] too. *)
From Verif Require Import SysModel FsSpec ResThm.

(** ** C09 *)
(** every lookup of every string answers in every reachable state *)
Theorem C09_lookups_answer : forall c s, linux_like c -> reachable c s ->
  forall p follow check flag,
  answers (resolve_path s p) /\ answers (resolve_follow s p follow check) /\
  answers (get_object s p check) /\ answers (stat s (PStr p) follow) /\
  answers (listdir s (PStr p)) /\ answers (readlink s p) /\
  answers_bool (exists_ s p follow) /\ answers_bool (is_of_type s p flag follow).
Proof. exact lookups_answer. Qed.
Print Assumptions C09_lookups_answer.

(** a resolved path was obtained by following at most 41 links, starting at the
    position the path denotes from the current directory *)
Theorem C09_at_most_41_links : forall c s, linux_like c -> reachable c s ->
  forall p r, resolve_path s p = Ok r ->
  exists names rr, walk_pos (sepc s) (walk_pos (sepc s) [] (f_cwd s)) p = rev names /\
    r = abs_path (sepc s) rr /\ resolved s names rr.
Proof. exact link_bound. Qed.
Print Assumptions C09_at_most_41_links.

(** a path whose links go on for more than 41 steps, for example in a circle:
    ELOOP, or "does not exist" *)
Theorem C09_loops_are_eloop : forall c s, linux_like c -> reachable c s -> honest_links s ->
  forall names, plain (sepc s) names -> ~ is_null s names ->
  (forall k r, k <= 41 -> ~ resolves s k names r) ->
  resolve_path s (abs_path (sepc s) names) = os_err ELOOP /\
  exists_ s (abs_path (sepc s) names) false = Ok false /\
  (forall check, resolve s (abs_path (sepc s) names) check = os_err ELOOP) /\
  (forall flag, is_of_type s (abs_path (sepc s) names) flag true = Ok false) /\
  stat s (PStr (abs_path (sepc s) names)) true = os_err ELOOP.
Proof. exact loop_eloop. Qed.
Print Assumptions C09_loops_are_eloop.

(** two links pointing at each other *)
Definition loop_state : fs :=
  run (init posix_cfg None 18 0 0 0) [Symlink (L "/b") (L "/a"); Symlink (L "a") (L "/b")].
Example C09_case : reachable posix_cfg loop_state /\ honest_links loop_state /\
  plain slash [L "a"; L "x"] /\ ~ is_null loop_state [L "a"; L "x"] /\
  (forall k r, k <= 41 -> ~ resolves loop_state k [L "a"; L "x"] r).
Proof.
  split; [|split; [|split; [|split]]].
  - exists None, 18%N, 0%Z, 0%Z, 0%Z, [Symlink (L "/b") (L "/a"); Symlink (L "a") (L "/b")]. reflexivity.
  - intros d n o _. destruct o as [|[|[|[|o]]]]; vm_compute; intros H; try discriminate H; eexists; reflexivity.
  - split; repeat constructor; try discriminate; vm_compute; intuition discriminate.
  - intros [_ H]. vm_compute in H. discriminate.
  - intros k r Hk Hr.
    assert (E : resolve_components 41 loop_state [L "a"; L "x"] = Ok r).
    { apply resolve_components_ok; [|exists k; split; assumption].
      apply (Ginv_reach_good posix_cfg); [exact posix_cfg_linux|].
      exists None, 18%N, 0%Z, 0%Z, 0%Z, [Symlink (L "/b") (L "/a"); Symlink (L "a") (L "/b")]. reflexivity. }
    replace (resolve_components 41 loop_state [L "a"; L "x"]) with (@os_err (list str) ELOOP) in E by (vm_compute; reflexivity).
    discriminate.
Qed.

(** ** C10 *)
Theorem C10_resolved_path_is_link_free : forall c s, linux_like c -> reachable c s ->
  forall p r, resolve_path s p = Ok r -> r <> devnull_name s ->
  exists rr, r = abs_path (sepc s) rr /\ Forall (clean (sepc s)) rr /\
    (* no component is a link *)
    (forall pre n l rest, ~ meets_link s rr pre n l rest) /\
    (* if it names an object, all on the way are directories, and it is stable *)
    (forall o, at_names s rr = Some o ->
       (forall pre n rest, rr = pre ++ n :: rest -> exists d, at_names s pre = Some d /\ is_dirobj s d = true) /\
       resolve_path s r = Ok r).
Proof. exact resolved_stable. Qed.
Print Assumptions C10_resolved_path_is_link_free.

(** the object a path leads to is the one its resolved path names *)
Theorem C10_resolved_object : forall c s, linux_like c -> reachable c s ->
  forall p check o, resolve s p check = Ok o -> resolve_path s p <> Ok (devnull_name s) ->
  exists rr, resolve_path s p = Ok (abs_path (sepc s) rr) /\ at_names s rr = Some o /\ is_link s o = false.
Proof. exact resolved_object. Qed.
Print Assumptions C10_resolved_object.

Definition link_state : fs :=
  run (init posix_cfg None 18 0 0 0)
      [Mkdir (L "/d") 511; CreateFile (L "/d/f") 33188 (Some (L "hi")) None false false; Symlink (L "d") (L "/l")].
Example C10_case : reachable posix_cfg link_state /\
  resolve_path link_state (L "/l/../l/f") = Ok (L "/d/f") /\ L "/d/f" <> devnull_name link_state /\
  at_names link_state [L "d"; L "f"] = Some 3.
Proof.
  split; [|split; [vm_compute; reflexivity|split; [vm_compute; discriminate|vm_compute; reflexivity]]].
  exists None, 18%N, 0%Z, 0%Z, 0%Z, [Mkdir (L "/d") 511; CreateFile (L "/d/f") 33188 (Some (L "hi")) None false false; Symlink (L "d") (L "/l")].
  reflexivity.
Qed.

(** ** C11 *)
(** isfile / isdir / stat imply exists, for every path that is not another
    spelling of the null device (see the refutation below) *)
Theorem C11_found_implies_exists_partial : forall c s, linux_like c -> reachable c s ->
  forall p, resolve_path s p <> Ok (devnull_name s) ->
  (isdir s p true = Ok true -> exists_ s p false = Ok true) /\
  (isfile s p true = Ok true -> exists_ s p false = Ok true) /\
  (forall st, stat s (PStr p) true = Ok st -> exists_ s p false = Ok true).
Proof. exact found_implies_exists. Qed.
Print Assumptions C11_found_implies_exists_partial.

Theorem C11_not_both : forall s p, isdir s p true = Ok true -> isfile s p true <> Ok true.
Proof. exact not_both_types. Qed.
Print Assumptions C11_not_both.

(** for the super user isdir, isfile, ... are the type in the stat result *)
Theorem C11_type_is_stat_type : forall s p flag, is_root s = true ->
  (is_of_type s p flag true = Ok true <->
   exists st, stat s (PStr p) true = Ok st /\ S_IFMT (ss_mode st) = flag).
Proof. exact type_is_stat. Qed.
Print Assumptions C11_type_is_stat_type.

(** islink looks at the entry itself *)
Theorem C11_islink_is_the_entry : forall c s, linux_like c -> reachable c s ->
  forall names n, Forall (ordinary (sepc s)) (names ++ [n]) ->
  islink s (abs_path (sepc s) (names ++ [n])) = Ok true <->
  exists d o, resolve s (abs_path (sepc s) names) true = Ok d /\
    has_bit (o_mode (ob s d)) PERM_READ = true /\ entry s d n = Some o /\ is_link s o = true.
Proof. exact islink_entry. Qed.
Print Assumptions C11_islink_is_the_entry.

(** what lexists but does not exist is a link *)
Theorem C11_dangling_is_a_link : forall s p,
  exists_ s p true = Ok true -> exists_ s p false = Ok false -> islink s p = Ok true.
Proof. exact dangling_islink. Qed.
Print Assumptions C11_dangling_is_a_link.

(** the null device under another spelling is a file that does not exist *)
Theorem C11_null_device_refuted : exists s p, reachable posix_cfg s /\
  isfile s p true = Ok true /\ exists_ s p false = Ok false.
Proof. exact null_spelling. Qed.
Print Assumptions C11_null_device_refuted.

Example C11_case :
  isdir link_state (L "/l") true = Ok true /\ isfile link_state (L "/l/f") true = Ok true /\
  islink link_state (L "/l") = Ok true /\ is_root link_state = true /\
  exists_ loop_state (L "/a") true = Ok true /\ exists_ loop_state (L "/a") false = Ok false.
Proof. repeat split; vm_compute; reflexivity. Qed.
