(** * Properties C17-C26, C32, C37, C51, C53: what the operations that create,
    remove and move names do to the filesystem.

    The states are those after any history of calls ([reachable]) on a Linux
    filesystem.  [within_limits s] (no disk is over-full) holds in all of them
    unless set_disk_usage was used to shrink a disk below its usage (C34).
    [place s p pre n d]: the path [p] stands for the name [n] in the directory
    [d].  [one_more], [one_less], [brand_new], [moved], [still_there], [unseen],
    [tree_removed], [dirs_made] are in FsSpec.v and say precisely what changed
    and that nothing else did. *)
From Verif Require Import SysModel FsSpec OpsThm6 PropTree.

(** ** C17 *)
Theorem C17_create_file : forall c s, linux_like c -> reachable c s -> within_limits s -> c_sep c = slash ->
  forall p mode data um o s',
  create_file p mode (Some data) None false um s = (Ok o, s') ->
  exists pre n d, place s p pre n d /\ one_more s s' d n o /\ brand_new s s' d o /\
    o_mode (ob s' o) = (if um then N.ldiff mode (f_umask s) else mode) /\
    (* its contents are the bytes given, and so is the size *)
    o_body (ob s' o) = BFile (Some data) /\ ss_size (stat_of s' o) = Z.of_nat (length data) /\ ss_nlink (stat_of s' o) = 1%Z /\
    (* the path leads to it *)
    (is_link s' o = false -> ~ null_clash s d n -> resolve s' (abs_path (sepc s) (pre ++ [n])) false = Ok o) /\
    (* every other path leads where it did, with the same contents *)
    still_there s s'.
Proof.
  intros c s Hl Hr W Hs p mode data um o s' E. destruct (reachable_GP c s Hl Hr) as [H _].
  assert (H' : Ginv s') by (pose proof (create_file_pres p mode (Some data) None false um s H) as K; rewrite E in K; exact K).
  assert (Hcfg : f_cfg s = c) by (apply (reachable_cfg c s Hr)).
  destruct (create_file_done s p mode (Some data) None um o s' H W E) as (pre & n & d & Hp & OM & BN & Hm & Hb & Hz & Hnl & Hres).
  rewrite make_string_path_slash in Hp by (rewrite Hcfg; exact Hs).
  exists pre, n, d. do 5 (split; [assumption|]). split; [cbn [stat_of ss_size]; unfold st_size; rewrite (Ginv_win s' H'); exact Hz|]. split; [exact Hnl|]. split; [assumption|].
  destruct (bn_new _ _ _ _ BN) as [Ho _]. apply (one_more_still s s' d n o H H'); [|exact OM].
  rewrite Ho in OM. apply (one_more_new_ext s s' d n H OM).
Qed.
Print Assumptions C17_create_file.

Definition c17_call := create_file (L "/d/new") 33188 (Some (L "abc")) None false true.
Lemma tree_state_limits : within_limits tree_state.
Proof.
  intros k m t Hin Ht.
  assert (E : f_mounts tree_state = [([slash], {| m_idev := 1; m_total := None; m_used := 9 |})]) by (vm_compute; reflexivity).
  rewrite E in Hin. destruct Hin as [K|[]]. injection K as <- <-. discriminate Ht.
Qed.
Example C17_case : fst (c17_call tree_state) = Ok 6 /\ within_limits tree_state.
Proof. split; [vm_compute; reflexivity|exact tree_state_limits]. Qed.

(** ** C18 *)
(** [lexists s p]: os.path.lexists *)
Theorem C18_create_existing : forall c s, linux_like c -> reachable c s -> c_sep c = slash ->
  forall p, p <> [] -> lexists s p ->
  (forall mode data sz missing um, create_file p mode data sz missing um s = (os_err EEXIST, s)) /\
  (forall perm, create_dir p perm s = (os_err EEXIST, s)) /\
  (forall old, os_link old p s = (os_err EEXIST, s)) /\
  (forall old follow missing, create_link old p follow missing s = (os_err EEXIST, s)).
Proof.
  intros c s Hl Hr Hs p Hp (names & Hn & He). destruct (reachable_GP c s Hl Hr) as [H _].
  destruct (names_of_anp s p names (Ginv_good s H) Hp Hn) as [_ Ea]. rewrite <- Ea in He.
  assert (Hm : make_string_path (f_cfg s) p = p) by (apply make_string_path_slash; rewrite (reachable_cfg c s Hr); exact Hs).
  split; [|split; [|split]].
  - intros. apply create_file_eexist. rewrite Hm. exact He.
  - intros. apply create_dir_eexist; [apply Ginv_win, H|]. rewrite Hm. exact He.
  - intros old. unfold os_link, bind. rewrite (create_link_eexist s old p true false He). reflexivity.
  - intros. apply create_link_eexist, He.
Qed.
Print Assumptions C18_create_existing.

(** mkdir and symlink look at the spelling of the path first (a trailing
    separator, ".."), so for them: the normal absolute path *)
Theorem C18_mkdir_symlink_existing : forall c s, linux_like c -> reachable c s -> c_sep c = slash ->
  forall names, names <> [] -> Forall (ordinary slash) names -> ~ is_null s names ->
  lexists s (abs_path slash names) ->
  (forall mode, makedir (abs_path slash names) mode s = (os_err EEXIST, s)) /\
  (forall target, os_symlink target (abs_path slash names) s = (os_err EEXIST, s)).
Proof.
  intros c s Hl Hr Hs names Hne Ho Hnull (names' & Hn & He). destruct (reachable_GP c s Hl Hr) as [H _].
  assert (Hsp : sepc s = slash) by (rewrite (reachable_cfg c s Hr); exact Hs).
  assert (Hab : abs_path slash names <> []) by discriminate.
  rewrite <- Hsp in *.
  destruct (names_of_anp s _ names' (Ginv_good s H) Hab Hn) as [_ Ea]. rewrite <- Ea in He.
  rewrite (anp_abs_path s names (Ginv_good s H) Ho) in He. split.
  - intros mode. apply makedir_eexist; assumption.
  - intros t. unfold os_symlink, bind. rewrite (symlink_eexist s names t); try assumption; reflexivity.
Qed.
Print Assumptions C18_mkdir_symlink_existing.

Example C18_case : lexists tree_state (L "/d/f") /\ lexists tree_state (L "/d/l") /\ abs_path slash [L "d"; L "l"] = L "/d/l".
Proof.
  split; [|split; [|reflexivity]]; [exists [L "d"; L "f"]|exists [L "d"; L "l"]]; split; vm_compute; reflexivity.
Qed.

(** ** C19 *)
Theorem C19_mkdir : forall c s, linux_like c -> reachable c s -> within_limits s ->
  forall p mode s', makedir p mode s = (Ok tt, s') ->
  exists pre n d o, place s p pre n d /\ one_more s s' d n o /\ brand_new s s' d o /\
    o_mode (ob s' o) = N.lor S_IFDIR (N.ldiff mode (f_umask s)) /\
    o_body (ob s' o) = BDir [] /\ ss_nlink (stat_of s' o) = 2%Z /\
    (* no other directory has changed its entries *)
    (forall x m, ~ (x = d /\ m = n) -> entry s' x m = entry s x m) /\
    f_mounts s' = f_mounts s /\
    (~ null_clash s d n -> resolve s' (abs_path (sepc s) (pre ++ [n])) false = Ok o) /\
    still_there s s'.
Proof.
  intros c s Hl Hr W p mode s' E. destruct (reachable_GP c s Hl Hr) as [H _].
  assert (H' : Ginv s') by (pose proof (makedir_pres p mode s H) as K; rewrite E in K; exact K).
  destruct (makedir_done s p mode s' H W E) as (pre & n & d & o & Hp & OM & BN & Hm & Hb & Hnl & Hmt & Hres).
  exists pre, n, d, o. do 5 (split; [assumption|]). split; [exact Hnl|]. destruct (bn_new _ _ _ _ BN) as [Ho _]. subst o.
  split; [|do 2 (split; [assumption|])].
  - apply (one_more_entry s s' d n (f_next s) H OM). unfold ents. rewrite Hb.
    pose proof (gi_new s H (f_next s) (le_n _)) as K. unfold is_dirobj in K. destruct (o_body (ob s (f_next s))); [discriminate|reflexivity].
  - apply (one_more_still s s' d n (f_next s) H H'); [|exact OM]. apply (one_more_new_ext s s' d n H OM).
Qed.
Print Assumptions C19_mkdir.
Example C19_case : fst (makedir (L "/d/x/") 511 tree_state) = Ok tt.
Proof. vm_compute. reflexivity. Qed.

(** ** C20 *)
(** [null_free], [not_null_path]: leaving out a file that was created with the
    name of the null device (see C10); [honest_dirs]: mode bits were not abused
    to make a directory look like a file (finding 8) *)
Theorem C20_remove : forall c s, linux_like c -> reachable c s -> null_free s -> honest_dirs s ->
  forall p, not_null_path s p -> forall r s', remove p s = (r, s') ->
  (* it raises and nothing changed *)
  (s' = s /\ exists e, r = Err e) \/
  (* or one name is gone, which was not that of a directory *)
  (r = Ok tt /\ exists pre n d x, names_of s p (pre ++ [n]) /\ resolve s (abs_path (sepc s) pre) false = Ok d /\
     is_dirobj s x = false /\ one_less s s' d n x /\
     entry s' d n = None /\ (forall y m, ~ (y = d /\ m = n) -> entry s' y m = entry s y m) /\
     (* every other path of names leads where it did *)
     (forall q y, at_names s q = Some y -> (forall a b, q = a ++ n :: b -> at_names s a <> Some d) -> at_names s' q = Some y)).
Proof.
  intros c s Hl Hr NF HD p Hp r s' E. destruct (reachable_GP c s Hl Hr) as [H _].
  pose proof (wp_elim _ _ _ _ _ (remove_spec s p H NF HD Hp) E) as K. cbv beta in K.
  destruct K as [K|(K & pre & n & d & x & Ea & Hn & Hd & He & Hx & OL & Hm)]; [left; exact K|]. right. split; [exact K|].
  destruct (one_less_entry s s' d n x H OL) as [K1 K2].
  exists pre, n, d, x. split; [apply anp_cons_names_of; [apply Ginv_good, H|destruct pre; discriminate|exact Hn|exact Ea]|].
  do 5 (split; [assumption|]). apply (one_less_at s s' d n x H OL).
Qed.
Print Assumptions C20_remove.

(** removing a directory raises and changes nothing *)
Theorem C20_remove_directory : forall c s, linux_like c -> reachable c s -> null_free s -> honest_dirs s ->
  forall p, not_null_path s p -> forall pre n d x, names_of s p (pre ++ [n]) -> p <> [] ->
  resolve s (abs_path (sepc s) pre) false = Ok d -> entry s d n = Some x -> is_dirobj s x = true ->
  exists e, remove p s = (Err e, s).
Proof.
  intros c s Hl Hr NF HD p Hp pre n d x Hn Hne Hd He Hx. destruct (remove p s) as [r s'] eqn:E.
  destruct (reachable_GP c s Hl Hr) as [H _]. pose proof (names_of_anp s p _ (Ginv_good s H) Hne Hn) as [_ Ea].
  destruct (C20_remove c s Hl Hr NF HD p Hp r s' E) as [(-> & e & ->)|(_ & pre' & n' & d' & x' & Hn' & Hd' & Hx' & OL & _)]; [eauto|].
  exfalso. unfold names_of in *. rewrite Hn in Hn'. apply (f_equal (@rev _)) in Hn'. rewrite !rev_involutive in Hn'.
  apply app_inj_tail in Hn'. destruct Hn' as [<- <-]. rewrite Hd in Hd'. injection Hd' as <-.
  pose proof (ol_was _ _ _ _ _ OL). congruence.
Qed.
Print Assumptions C20_remove_directory.

Lemma tree_null_free : null_free tree_state.
Proof.
  apply null_free_intro; [apply (reachable_Ginv posix_cfg _ posix_cfg_linux tree_reachable)|vm_compute; reflexivity| |vm_compute; reflexivity].
  vm_compute. intuition discriminate.
Qed.
Lemma tree_honest : honest_dirs tree_state.
Proof. intros o. do 6 (destruct o as [|o]; [vm_compute; reflexivity|]). vm_compute. reflexivity. Qed.
Lemma not_null_names s p names : names_of s p names -> ~ is_null s names -> not_null_path s p.
Proof. intros H K names' H' [Hne Hn]. unfold names_of in *. rewrite H in H'. apply (f_equal (@rev _)) in H'. rewrite !rev_involutive in H'. subst names'. apply K. split; assumption. Qed.
Example C20_case : null_free tree_state /\ honest_dirs tree_state /\ not_null_path tree_state (L "/g") /\
  fst (remove (L "/g") tree_state) = Ok tt.
Proof.
  split; [exact tree_null_free|]. split; [exact tree_honest|]. split; [|vm_compute; reflexivity].
  apply (not_null_names _ _ [L "g"]); [vm_compute; reflexivity|]. intros [_ K]. vm_compute in K. discriminate.
Qed.

(** finding 8: mkdir(p, mode) with file type bits in the mode makes a directory
    that os.remove deletes with all that is in it *)
Definition c20_ops := [Mkdir (L "/d") 33279; CreateDir (L "/d/e") 511; CreateFile (L "/d/e/f") 33188 (Some (L "hi")) None false false].
Definition c20_state := run (init posix_cfg None 18 0 0 0) c20_ops.
Theorem C20_remove_directory_refuted : reachable posix_cfg c20_state /\
  (exists d f, at_names c20_state [L "d"] = Some d /\ is_dirobj c20_state d = true /\ at_names c20_state [L "d"; L "e"] = Some f) /\
  fst (remove (L "/d") c20_state) = Ok tt /\ at_names (snd (remove (L "/d") c20_state)) [L "d"] = None.
Proof.
  split; [exists None, 18%N, 0%Z, 0%Z, 0%Z, c20_ops; reflexivity|]. split; [exists 2, 3; repeat split; vm_compute; reflexivity|].
  split; vm_compute; reflexivity.
Qed.
Print Assumptions C20_remove_directory_refuted.

(** ** C21 *)
Theorem C21_rmdir : forall c s, linux_like c -> reachable c s -> null_free s ->
  forall p, not_null_path s p -> forall r s', rmdir p false s = (r, s') ->
  (s' = s /\ exists e, r = Err e) \/
  (r = Ok tt /\ exists pre n d x, names_of s p (pre ++ [n]) /\ resolve s (abs_path (sepc s) pre) false = Ok d /\
     (* the object removed is empty *)
     ents s x = [] /\ one_less s s' d n x /\
     entry s' d n = None /\ (forall y m, ~ (y = d /\ m = n) -> entry s' y m = entry s y m) /\
     (* and a real directory if its directory can be looked into *)
     (resolve s (abs_path (sepc s) pre) true = Ok d -> has_bit (o_mode (ob s d)) PERM_READ = true ->
        is_link s x = false /\ has_bit (o_mode (ob s x)) S_IFDIR = true)).
Proof.
  intros c s Hl Hr NF p Hp r s' E. destruct (reachable_GP c s Hl Hr) as [H _].
  pose proof (wp_elim _ _ _ _ _ (rmdir_spec s p H NF Hp) E) as K. cbv beta in K.
  destruct K as [K|(-> & pre & n & d & x & Ea & Hn & Hd & He & Hx & Hil & Hlk & OL & Hm)]; [left; exact K|]. right. split; [reflexivity|].
  destruct (one_less_entry s s' d n x H OL) as [K1 K2].
  exists pre, n, d, x. split; [apply anp_cons_names_of; [apply Ginv_good, H|destruct pre; discriminate|exact Hn|exact Ea]|].
  do 5 (split; [assumption|]). intros Hdt Hrd.
  destruct (rmdir_real s p s' pre n d H NF Hp E Ea Hn Hdt Hrd) as (y & Hy & Hyl & Hyb & _). assert (y = x) by congruence. subst y. auto.
Qed.
Print Assumptions C21_rmdir.

Theorem C21_rmdir_not_empty : forall c s, linux_like c -> reachable c s ->
  forall p x, p <> dot -> resolve s (anp s p) true = Ok x -> has_bit (o_mode (ob s x)) S_IFDIR = true ->
  islink s (anp s p) = Ok false -> ents s x <> [] -> rmdir p false s = (os_err ENOTEMPTY, s).
Proof.
  intros c s Hl Hr p x Hp Hx Hb Hi He. destruct (reachable_GP c s Hl Hr) as [H _].
  unfold rmdir, bind, gets, lift, confirmdir. destruct (str_eqb_spec p dot); [contradiction|].
  rewrite Hx. cbn [rbind]. rewrite Hb. cbn [negb]. rewrite (Ginv_win s H). rewrite Hi. cbn [andb]. rewrite Hx.
  unfold truthy_contents. unfold ents in He. destruct (o_body (ob s x)) as [es|]; [|contradiction].
  destruct es; [contradiction|]. reflexivity.
Qed.
Print Assumptions C21_rmdir_not_empty.

Example C21_case : not_null_path tree_state (L "/d/e") /\ fst (rmdir (L "/d/e") false tree_state) = Ok tt /\
  resolve tree_state (anp tree_state (L "/d")) true = Ok 2 /\ islink tree_state (anp tree_state (L "/d")) = Ok false /\
  ents tree_state 2 <> [].
Proof.
  split; [apply (not_null_names _ _ [L "d"; L "e"]); [vm_compute; reflexivity|]; intros [_ K]; vm_compute in K; discriminate K|].
  split; [vm_compute; reflexivity|]. split; [vm_compute; reflexivity|]. split; [vm_compute; reflexivity|].
  vm_compute. discriminate.
Qed.

(** finding 48: in a directory without read permission (root may still use
    it) a symbolic link to an empty directory is taken for the directory *)
Definition c21_ops := [Mkdir (L "/e") 511; Mkdir (L "/d") 511; Symlink (L "/e") (L "/d/l"); Chmod (PStr (L "/d")) 0 true].
Definition c21_state := run (init posix_cfg None 18 0 0 0) c21_ops.
Theorem C21_rmdir_link_refuted : reachable posix_cfg c21_state /\
  (exists l, at_names c21_state [L "d"; L "l"] = Some l /\ is_link c21_state l = true) /\
  fst (rmdir (L "/d/l") false c21_state) = Ok tt /\ at_names (snd (rmdir (L "/d/l") false c21_state)) [L "d"; L "l"] = None.
Proof.
  split; [exists None, 18%N, 0%Z, 0%Z, 0%Z, c21_ops; reflexivity|]. split; [exists 4; split; vm_compute; reflexivity|].
  split; vm_compute; reflexivity.
Qed.
Print Assumptions C21_rmdir_link_refuted.

(** ** C22 *)
Theorem C22_rename : forall c s, linux_like c -> reachable c s ->
  forall a b force on nn, a <> [] -> b <> [] -> names_of s a on -> names_of s b nn ->
  forall s', rename a b force s = (Ok tt, s') ->
  (* both paths are the same, or name the same object: nothing happens *)
  (s' = s /\ (on = nn \/ exists o, lresolve s (abs_path (sepc s) on) = Ok o /\
                                  get_object s (abs_path (sepc s) nn) true = Ok o)) \/
  (* or the object [o] called [n0] in [od] is now called [n] in [nd] *)
  exists opre n0 npre n od nd o, on = opre ++ [n0] /\ nn = npre ++ [n] /\
    resolve s (abs_path (sepc s) opre) true = Ok od /\ resolve s (abs_path (sepc s) npre) true = Ok nd /\
    moved s s' od n0 nd n o /\
    (* when an empty directory or a file was replaced, no other entry changed *)
    ((forall x, entry s nd n = Some x -> ents s x = []) ->
       forall d m, ~ (d = od /\ m = n0) -> ~ (d = nd /\ m = n) -> entry s' d m = entry s d m) /\
    (* every object keeps its inode number *)
    (forall x i, o_ino (ob s x) = Some i -> o_ino (ob s' x) = Some i).
Proof.
  intros c s Hl Hr a b force on nn Ha Hb Hon Hnn s' E. destruct (reachable_GP c s Hl Hr) as [H _].
  destruct (names_of_anp s a on (Ginv_good s H) Ha Hon) as [Fo Eo].
  destruct (names_of_anp s b nn (Ginv_good s H) Hb Hnn) as [Fn En].
  pose proof (wp_elim _ _ _ _ _ (wp_rename s a b force on nn H Eo Fo En Fn) E) as K. cbv beta iota in K.
  destruct K as (H' & [K|K] & _); [left; exact K|]. right.
  destruct K as (opre & n0 & npre & n & od & nd & o & E1 & E2 & E3 & E4 & E5 & E6 & E7 & E8 & MV).
  exists opre, n0, npre, n, od, nd, o. do 5 (split; [assumption|]). split.
  - intros Hemp d m Hd1 Hd2.
    destruct (entry s nd n) as [x|] eqn:Ex.
    2:{ apply (mv_frame _ _ _ _ _ _ _ MV); try assumption. right. intros y Hy. congruence. }
    destruct (Nat.eq_dec d x) as [->|Hdx].
    2:{ apply (mv_frame _ _ _ _ _ _ _ MV); try assumption. right. intros y Hy [l Hr2]. assert (y = x) by congruence. subst y.
        destruct l as [|w l]; [cbn in Hr2; congruence|]. cbn in Hr2. unfold entry in Hr2. rewrite (Hemp x eq_refl) in Hr2. discriminate. }
    unfold entry at 2. rewrite (Hemp x eq_refl). cbn. destruct (entry s' x m) as [y|] eqn:Ey; [|reflexivity].
    destruct (mv_none _ _ _ _ _ _ _ MV x m y Ey) as [K|K]; [contradiction|]. unfold entry in K. rewrite (Hemp x eq_refl) in K. discriminate.
  - pose proof (is_rename a b force s) as K. rewrite E in K. exact K.
Qed.
Print Assumptions C22_rename.
Example C22_case : names_of tree_state (L "/g") [L "g"] /\ names_of tree_state (L "/d/./h") [L "d"; L "h"] /\
  fst (rename (L "/g") (L "/d/./h") false tree_state) = Ok tt /\
  at_names (snd (rename (L "/g") (L "/d/./h") false tree_state)) [L "d"; L "h"] = Some 3.
Proof. split; [|split; [|split]]; vm_compute; reflexivity. Qed.

(** ** C23 *)
(** the directory [o] called by [a], a target [b] in a directory [d] inside [o]:
    nothing changes, whatever the spelling; and it raises (unless the lookup of
    [b] says that [b] is [o] itself, which can only be through a link) *)
Theorem C23_rename_into_itself : forall c s, linux_like c -> reachable c s ->
  forall a b force on npre n o d, a <> [] -> b <> [] -> names_of s a on -> names_of s b (npre ++ [n]) ->
  lresolve s (abs_path (sepc s) on) = Ok o -> is_dirm s o = true ->
  resolve s (abs_path (sepc s) npre) true = Ok d -> reach s o d -> on <> npre ++ [n] ->
  forall r s', rename a b force s = (r, s') ->
  s' = s /\ (get_object s (abs_path (sepc s) (npre ++ [n])) true <> Ok o -> exists e, r = Err e).
Proof.
  intros c s Hl Hr a b force on npre n o d Ha Hb Hon Hnn Ho Hdm Hd Hre Hdiff r s' E. destruct (reachable_GP c s Hl Hr) as [H _].
  destruct (names_of_anp s a on (Ginv_good s H) Ha Hon) as [Fo Eo].
  destruct (names_of_anp s b _ (Ginv_good s H) Hb Hnn) as [Fn En].
  pose proof (wp_elim _ _ _ _ _ (wp_rename s a b force on _ H Eo Fo En Fn) E) as K. cbv beta in K.
  destruct K as (_ & _ & K). apply (K o npre n d); try assumption. reflexivity.
Qed.
Print Assumptions C23_rename_into_itself.

(** through a link into the directory *)
Definition c23_ops := [Mkdir (L "/a") 511; Mkdir (L "/a/b") 511; Symlink (L "/a/b") (L "/l")].
Definition c23_state := run (init posix_cfg None 18 0 0 0) c23_ops.
Example C23_case : reachable posix_cfg c23_state /\
  names_of c23_state (L "/a") [L "a"] /\ names_of c23_state (L "/l/x") ([L "l"] ++ [L "x"]) /\
  lresolve c23_state (L "/a") = Ok 2 /\ is_dirm c23_state 2 = true /\ resolve c23_state (L "/l") true = Ok 3 /\ reach c23_state 2 3 /\
  fst (rename (L "/a") (L "/l/x") false c23_state) = os_err EINVAL.
Proof.
  split; [exists None, 18%N, 0%Z, 0%Z, 0%Z, c23_ops; reflexivity|].
  split; [vm_compute; reflexivity|]. split; [vm_compute; reflexivity|]. split; [vm_compute; reflexivity|].
  split; [vm_compute; reflexivity|]. split; [vm_compute; reflexivity|]. split; [exists [L "b"]; vm_compute; reflexivity|].
  vm_compute. reflexivity.
Qed.

(** ** C24 *)
(** If rename raises, no object has lost its contents or mode, and every
    directory entry is as before, except possibly those of the two names and
    what is below a replaced object; and nothing at all changed unless
    the destination existed, or the destination directory is not
    writable (EACCES) or full (ENOSPC).  What is missing: in those cases the file
    may be lost, see the two theorems that follow. *)
Theorem C24_failed_rename_partial : forall c s, linux_like c -> reachable c s ->
  forall a b force on nn, a <> [] -> b <> [] -> names_of s a on -> names_of s b nn ->
  forall e s', rename a b force s = (Err e, s') ->
  s' = s \/
  (same_data s s' /\
   (exists_ s (abs_path (sepc s) nn) true = Ok true \/ e = OSErr EACCES \/ e = OSErr ENOSPC) /\
   exists npre n nd, nn = npre ++ [n] /\ resolve s (abs_path (sepc s) npre) false = Ok nd /\
     forall d m, ~ (d = nd /\ m = n) ->
       (forall opre n0, on = opre ++ [n0] -> resolve s (abs_path (sepc s) opre) true = Ok d -> m <> n0) ->
       (forall opre n0, on = opre ++ [n0] -> resolve s (abs_path (sepc s) opre) true = Ok nd -> n0 = n -> False) ->
       (forall x, entry s nd n = Some x -> ~ reach s x d) -> entry s' d m = entry s d m).
Proof.
  intros c s Hl Hr a b force on nn Ha Hb Hon Hnn e s' E. destruct (reachable_GP c s Hl Hr) as [H _].
  destruct (names_of_anp s a on (Ginv_good s H) Ha Hon) as [Fo Eo].
  destruct (names_of_anp s b nn (Ginv_good s H) Hb Hnn) as [Fn En].
  pose proof (wp_elim _ _ _ _ _ (wp_rename s a b force on nn H Eo Fo En Fn) E) as K. cbv beta iota in K.
  destruct K as (_ & [K|K] & _); [left; exact K|]. right.
  destruct K as (npre & n & nd & E1 & E2 & SD & Hfr & Hwhy). split; [exact SD|]. split; [exact Hwhy|].
  exists npre, n, nd. auto.
Qed.
Print Assumptions C24_failed_rename_partial.

(** finding 3: the destination directory is not writable *)
Definition c24a_ops := [Mkdir (L "/a") 511; Mkdir (L "/b") 365; Chmod (PStr (L "/a")) 511 true;
  CreateFile (L "/a/f") 33188 (Some (L "hi")) None false false; SetUid 1000].
Definition c24a_state := run (init posix_cfg None 18 0 0 0) c24a_ops.
Theorem C24_not_writable_refuted : reachable posix_cfg c24a_state /\
  (exists o, at_names c24a_state [L "a"; L "f"] = Some o) /\
  fst (rename (L "/a/f") (L "/b/f") false c24a_state) = os_err EACCES /\
  exists_ (snd (rename (L "/a/f") (L "/b/f") false c24a_state)) (L "/a/f") true = Ok false /\
  exists_ (snd (rename (L "/a/f") (L "/b/f") false c24a_state)) (L "/b/f") true = Ok false.
Proof.
  split; [exists None, 18%N, 0%Z, 0%Z, 0%Z, c24a_ops; reflexivity|]. split; [exists 4; vm_compute; reflexivity|].
  split; [vm_compute; reflexivity|]. split; vm_compute; reflexivity.
Qed.
Print Assumptions C24_not_writable_refuted.

(** finding 39: renaming over a file on another device *)
Definition c24b_ops := [AddMount (L "/m") None; CreateFile (L "/m/g") 33188 (Some (L "precious")) None false false;
  CreateFile (L "/f") 33188 (Some (L "hi")) None false false].
Definition c24b_state := run (init posix_cfg None 18 0 0 0) c24b_ops.
Theorem C24_other_device_refuted : reachable posix_cfg c24b_state /\
  exists_ c24b_state (L "/m/g") true = Ok true /\
  fst (rename (L "/f") (L "/m/g") false c24b_state) = os_err EXDEV /\
  exists_ (snd (rename (L "/f") (L "/m/g") false c24b_state)) (L "/m/g") true = Ok false.
Proof.
  split; [exists None, 18%N, 0%Z, 0%Z, 0%Z, c24b_ops; reflexivity|]. split; [vm_compute; reflexivity|].
  split; vm_compute; reflexivity.
Qed.
Print Assumptions C24_other_device_refuted.

(** ** C25 *)
(** [o] is the object the old path leads to; leaving out the null device *)
Theorem C25_link : forall c s, linux_like c -> reachable c s ->
  forall old new s', os_link old new s = (Ok tt, s') -> resolve s old true <> Ok devnull_oid ->
  exists o pre n d, resolve s old true = Ok o /\ is_dirobj s o = false /\ place s new pre n d /\ one_more s s' d n o /\
    (* one link more, nothing else of the object but its name and place changed *)
    ss_nlink (stat_of s' o) = (ss_nlink (stat_of s o) + 1)%Z /\ ss_ino (stat_of s' o) = ss_ino (stat_of s o) /\
    o_mode (ob s' o) = o_mode (ob s o) /\ o_body (ob s' o) = o_body (ob s o) /\ o_size (ob s' o) = o_size (ob s o) /\
    f_mounts s' = f_mounts s /\
    (* both paths now lead to it *)
    resolve s' old true = Ok o /\
    (is_link s o = false -> ~ null_clash s d n -> resolve s' (abs_path (sepc s) (pre ++ [n])) false = Ok o) /\
    (forall x m, ~ (x = d /\ m = n) -> entry s' x m = entry s x m) /\ still_there s s'.
Proof.
  intros c s Hl Hr old new s' E Hnull. destruct (reachable_GP c s Hl Hr) as [H _].
  unfold os_link, bind in E. destruct (create_link old new true false s) as [[o|e] s1] eqn:E1; [|discriminate].
  injection E as <-. assert (H' : Ginv s1) by (pose proof (create_link_pres old new true false s H) as K; rewrite E1 in K; exact K).
  assert (Ho : resolve s old true = Ok o).
  { destruct (Nat.eq_dec o devnull_oid) as [->|Hne].
    - pose proof (wp_elim _ _ _ _ _ (wp_create_link s old new true H) E1) as K. cbv beta in K.
      destruct K as [(e & K & _)|(o & K & Ko & _)]; [discriminate|]. injection K as <-. exact Ko.
    - apply (link_done s old new true o s1 H E1 Hne). }
  assert (Hne : o <> devnull_oid) by (intros ->; contradiction).
  destruct (link_done s old new true o s1 H E1 Hne) as (_ & Hd & pre & n & d & Hp & Hdd & HL & Hold & Hnew).
  pose proof HL as HL0. destruct HL as (OM & Hob & _ & _ & Hm).
  assert (Hdo : d <> o) by (intros ->; congruence).
  exists o, pre, n, d. do 4 (split; [assumption|]). cbn [stat_of ss_nlink ss_ino]. rewrite Hob. cbn.
  do 6 (split; [first [reflexivity|assumption]|]). split; [apply Hold; reflexivity|]. split; [exact Hnew|]. split.
  - apply (one_more_entry s s1 d n o H OM). unfold ents. rewrite Hob. reflexivity.
  - apply (one_more_still s s1 d n o H H'); [|exact OM]. apply (hard_linked_ext s s1 d n o H HL0 Hd Hne).
Qed.
Print Assumptions C25_link.
Example C25_case : fst (os_link (L "/g") (L "/d/e/h") tree_state) = Ok tt /\ resolve tree_state (L "/g") true = Ok 3 /\
  is_link tree_state 3 = false.
Proof. split; [|split]; vm_compute; reflexivity. Qed.

(** ** C26 *)
Theorem C26_symlink : forall c s, linux_like c -> reachable c s -> within_limits s -> c_sep c = slash ->
  forall pre n d target s', Forall (ordinary slash) (pre ++ [n]) ->
  resolve s (abs_path slash pre) true = Ok d -> is_dirobj s d = true -> has_bit (o_mode (ob s d)) PERM_READ = true ->
  os_symlink target (abs_path slash (pre ++ [n])) s = (Ok tt, s') ->
  exists o, one_more s s' d n o /\ brand_new s s' d o /\ is_link s' o = true /\
    o_body (ob s' o) = BFile (Some target) /\ o_size (ob s' o) = Z.of_nat (length target) /\
    readlink s' (abs_path slash (pre ++ [n])) = Ok target /\ islink s' (abs_path slash (pre ++ [n])) = Ok true /\
    (forall x m, ~ (x = d /\ m = n) -> entry s' x m = entry s x m) /\ still_there s s'.
Proof.
  intros c s Hl Hr W Hs pre n d target s' Hn Hd Hdd Hrd E. destruct (reachable_GP c s Hl Hr) as [H _].
  assert (Hsp : sepc s = slash) by (rewrite (reachable_cfg c s Hr); exact Hs). rewrite <- Hsp in *.
  unfold os_symlink, bind in E. destruct (create_symlink _ _ false s) as [[o|e] s1] eqn:E1; [|discriminate]. injection E as <-.
  assert (H' : Ginv s1) by (pose proof (create_symlink_pres (abs_path (sepc s) (pre ++ [n])) target false s H) as K; rewrite E1 in K; exact K).
  destruct (symlink_done s _ target o s1 H W E1) as (q & pre' & n' & d' & _ & _ & OM & BN & Hm & Hb & Hz & _ & Hlast).
  destruct (Hlast Hsp pre n d eq_refl Hn Hd Hdd Hrd) as (-> & -> & Hrl & Hil).
  destruct (bn_new _ _ _ _ BN) as [Ho _].
  exists o. do 2 (split; [assumption|]). split; [unfold is_link; rewrite Hm; reflexivity|].
  split; [rewrite Hb, make_string_path_slash by exact Hsp; reflexivity|]. do 3 (split; [assumption|]). split.
  - subst o. apply (one_more_entry s s1 d n (f_next s) H OM). unfold ents. rewrite Hb.
    pose proof (gi_new s H (f_next s) (le_n _)) as K. unfold is_dirobj in K. destruct (o_body (ob s (f_next s))); [discriminate|reflexivity].
  - apply (one_more_still s s1 d n o H H'); [|exact OM]. subst o. apply (one_more_new_ext s s1 d n H OM).
Qed.
Print Assumptions C26_symlink.
Example C26_case : fst (os_symlink (L "a//../b") (L "/d/e/s") tree_state) = Ok tt /\
  readlink (snd (os_symlink (L "a//../b") (L "/d/e/s") tree_state)) (L "/d/e/s") = Ok (L "a//../b") /\
  resolve tree_state (L "/d/e") true = Ok 5 /\ has_bit (o_mode (ob tree_state 5)) PERM_READ = true.
Proof. split; [|split; [|split]]; vm_compute; reflexivity. Qed.

(** ** C32 *)
Theorem C32_makedirs_partial : forall c s, linux_like c -> reachable c s -> within_limits s -> c_sep c = slash ->
  forall p names, p <> [] -> names_of s p names ->
  (* no name on the way is a symbolic link (finding 7: relative links are
     followed from the current directory, see the next theorem) *)
  (forall pre n l rest, ~ meets_link s names pre n l rest) ->
  forall mode exist_ok r s', makedirs p mode exist_ok s = (r, s') ->
  (* it raises: nothing visible changed *)
  (exists e, r = Err e /\ unseen s s' /\ f_mounts s' = f_mounts s) \/
  (* it was there *)
  (r = Ok tt /\ exist_ok = true /\ unseen s s' /\ f_mounts s' = f_mounts s /\
     exists o, resolve s' (abs_path slash names) true = Ok o /\ is_dirobj s' o = true) \/
  (* or the missing directories, and only these, were made *)
  (r = Ok tt /\ exists a n rest d, names = a ++ n :: rest /\ at_names s a = Some d /\
     dirs_made s s' d (n :: rest) (N.lor S_IFDIR (N.ldiff mode (f_umask s))) /\
     (forall q o, at_names s q = Some o -> at_names s' q = Some o) /\
     forall pre post, names = pre ++ post -> exists x, at_names s' pre = Some x /\ is_dirobj s' x = true).
Proof.
  intros c s Hl Hr W Hs p names Hp Hn Hlf mode eo r s' E. destruct (reachable_GP c s Hl Hr) as [H _].
  assert (Hsp : sepc s = slash) by (rewrite (reachable_cfg c s Hr); exact Hs).
  destruct (names_of_anp s p names (Ginv_good s H) Hp Hn) as [Fo Eo].
  assert (H' : Ginv s') by (pose proof (makedirs_pres p mode eo s H) as K; rewrite E in K; exact K).
  pose proof (wp_elim _ _ _ _ _ (makedirs_spec s p mode eo names H W Hsp Eo Fo Hlf) E) as K. cbv beta in K. rewrite Hsp in K.
  destruct K as [K|[K|(-> & a & n & rest & d & En & Ha & Hd & DM)]]; [left; exact K|right; left; exact K|].
  right. right. split; [reflexivity|]. exists a, n, rest, d. do 3 (split; [assumption|]).
  destruct (dirs_made_at s s' d n rest _ a H Hd Ha DM) as [K1 K2]. split; [exact K1|].
  destruct (K2 (length rest) (le_n _)) as (K3 & K4 & _). rewrite firstn_all, <- En in K3.
  apply (at_prefix_dirs s' names _ H' K3 K4).
Qed.
Print Assumptions C32_makedirs_partial.

(** finding 7/50: the missing directories are made somewhere else *)
Definition c32_ops := [Mkdir (L "/a") 511; Mkdir (L "/d") 511; Mkdir (L "/a/d") 511; Symlink (L "d") (L "/a/l")].
Definition c32_state := run (init posix_cfg None 18 0 0 0) c32_ops.
Theorem C32_relative_link_refuted : reachable posix_cfg c32_state /\
  resolve_path c32_state (L "/a/l") = Ok (L "/a/d") /\
  fst (makedirs (L "/a/l/x") 511 false c32_state) = Ok tt /\
  isdir (snd (makedirs (L "/a/l/x") 511 false c32_state)) (L "/a/l/x") true = Ok false /\
  isdir (snd (makedirs (L "/a/l/x") 511 false c32_state)) (L "/d/x") true = Ok true.
Proof.
  split; [exists None, 18%N, 0%Z, 0%Z, 0%Z, c32_ops; reflexivity|]. split; [vm_compute; reflexivity|]. split; [vm_compute; reflexivity|].
  split; vm_compute; reflexivity.
Qed.
Print Assumptions C32_relative_link_refuted.

(** an existing path: EEXIST, or nothing with exist_ok.  (A file without
    contents on the way gives TypeError instead, finding 18.) *)
Theorem C32_makedirs_existing : forall c s, linux_like c -> reachable c s -> c_sep c = slash ->
  forall p names, p <> [] -> names_of s p names -> exists_ s (abs_path slash names) true = Ok true ->
  (forall pre n rest x, names = pre ++ n :: rest -> at_names s pre = Some x -> o_body (ob s x) <> BFile None) ->
  forall mode, makedirs p mode false s = (os_err EEXIST, s) /\
  (forall o, resolve s (abs_path slash names) true = Ok o -> is_dirobj s o = true -> makedirs p mode true s = (Ok tt, s)).
Proof.
  intros c s Hl Hr Hs p names Hp Hn He Hb mode. destruct (reachable_GP c s Hl Hr) as [H _].
  assert (Hsp : sepc s = slash) by (rewrite (reachable_cfg c s Hr); exact Hs). rewrite <- Hsp in *.
  apply makedirs_existing; try assumption.
Qed.
Print Assumptions C32_makedirs_existing.

Example C32_case : names_of tree_state (L "/d/e/x/y") [L "d"; L "e"; L "x"; L "y"] /\
  (forall pre n l rest, ~ meets_link tree_state [L "d"; L "e"; L "x"; L "y"] pre n l rest) /\
  fst (makedirs (L "/d/e/x/y") 511 false tree_state) = Ok tt.
Proof.
  split; [vm_compute; reflexivity|]. split; [|vm_compute; reflexivity].
  intros pre n l rest (E & Ha & Hl).
  destruct pre as [|p0 [|p1 [|p2 [|p3 pre]]]].
  - injection E as <- <-. vm_compute in Ha. injection Ha as <-. vm_compute in Hl. discriminate Hl.
  - injection E as <- <- <-. vm_compute in Ha. injection Ha as <-. vm_compute in Hl. discriminate Hl.
  - injection E as <- <- <- <-. vm_compute in Ha. discriminate Ha.
  - injection E as <- <- <- <- <-. vm_compute in Ha. discriminate Ha.
  - destruct pre; discriminate E.
Qed.

(** ** C37 *)
(** [no_space s d z]: [z] bytes do not fit on the device of [d] *)
Theorem C37_no_space : forall c s, linux_like c -> reachable c s -> within_limits s -> is_root s = true -> c_sep c = slash ->
  forall p pre n d data um mode r s', p <> [] -> place s p pre n d -> is_dirm s d = true -> is_dirobj s d = true ->
  entry s d n = None -> exists_ s (abs_path slash (pre ++ [n])) true = Ok false ->
  create_file p mode (Some data) None false um s = (r, s') ->
  (no_space s d (Z.of_nat (length data)) /\ r = os_err ENOSPC /\ unseen s s') \/
  (~ no_space s d (Z.of_nat (length data)) /\ exists o, r = Ok o).
Proof.
  intros c s Hl Hr W Hroot Hs p pre n d data um mode r s' Hp [Hn Hd] Hm Hdd He Hex E. destruct (reachable_GP c s Hl Hr) as [H _].
  assert (Hsp : sepc s = slash) by (rewrite (reachable_cfg c s Hr); exact Hs). rewrite <- Hsp in *.
  destruct (names_of_anp s p _ (Ginv_good s H) Hp Hn) as [Fo Eo].
  apply (create_file_space s p mode (Some data) None um pre n d r s'); try assumption.
  split; [rewrite make_string_path_slash by exact Hsp; exact Eo|exact Fo].
Qed.
Print Assumptions C37_no_space.
Definition full_state := init posix_cfg (Some 10%Z) 18 0 0 0.
Lemma full_reachable : reachable posix_cfg full_state.
Proof. exists (Some 10%Z), 18%N, 0%Z, 0%Z, 0%Z, []. reflexivity. Qed.
Example C37_case : reachable posix_cfg full_state /\ place full_state (L "/f") [] (L "f") root_oid /\
  entry full_state root_oid (L "f") = None /\ exists_ full_state (L "/f") true = Ok false /\
  no_space full_state root_oid (Z.of_nat (length (L "12345678901"))) /\
  fst (create_file (L "/f") 33188 (Some (L "12345678901")) None false false full_state) = os_err ENOSPC /\
  fst (create_file (L "/f") 33188 (Some (L "1234567890")) None false false full_state) = Ok 2.
Proof.
  split; [exact full_reachable|]. split; [split; vm_compute; reflexivity|]. split; [vm_compute; reflexivity|].
  split; [vm_compute; reflexivity|]. split; [|split; vm_compute; reflexivity].
  right. exists {| m_idev := 1; m_total := Some 10%Z; m_used := 0 |}, 10%Z. split; [vm_compute; reflexivity|]. split; reflexivity.
Qed.

(** ** C51 *)
Theorem C51_remove_tree : forall c s, linux_like c -> reachable c s ->
  forall p s', remove_object p s = (Ok tt, s') ->
  exists pre n d x, names_of s p (pre ++ [n]) /\ resolve s (abs_path (sepc s) pre) false = Ok d /\
    tree_removed s s' d n x /\
    (* every path of names that does not go through the removed entry is still there *)
    (forall q o, at_names s q = Some o -> (forall a b, q = a ++ n :: b -> at_names s a <> Some d) -> at_names s' q = Some o).
Proof.
  intros c s Hl Hr p s' E. destruct (reachable_GP c s Hl Hr) as [H _].
  destruct (remove_tree s p s' H E) as (pre & n & d & x & Ea & Hn & Hd & TR & K).
  exists pre, n, d, x. split; [apply anp_cons_names_of; [apply Ginv_good, H|destruct pre; discriminate|exact Hn|exact Ea]|]. auto.
Qed.
Print Assumptions C51_remove_tree.
Example C51_case : fst (remove_object (L "/d") tree_state) = Ok tt /\
  at_names (snd (remove_object (L "/d") tree_state)) [L "g"] = Some 3 /\
  ss_nlink (stat_of (snd (remove_object (L "/d") tree_state)) 3) = 1%Z /\ ss_nlink (stat_of tree_state 3) = 2%Z.
Proof. split; [|split; [|split]]; vm_compute; reflexivity. Qed.

(** ** C53 *)
(** A call that raises leaves the state as it was.  [unseen]: mkdir and symlink
    may have numbered an object that nothing refers to.  [is_root]: a user who
    may write to but not search a directory can be left with an empty link
    when the disk is full (finding 44). *)
Theorem C53_failed_mkdir_symlink : forall c s, linux_like c -> reachable c s -> within_limits s ->
  (forall p mode e s', makedir p mode s = (Err e, s') -> unseen s s' /\ f_mounts s' = f_mounts s) /\
  (forall target p e s', os_symlink target p s = (Err e, s') -> is_root s = true -> unseen s s').
Proof.
  intros c s Hl Hr W. destruct (reachable_GP c s Hl Hr) as [H _]. split.
  - intros p mode e s' E. apply (makedir_failed s p mode e s' H W E).
  - intros target p e s' E Hroot. unfold os_symlink, bind in E. destruct (create_symlink p target false s) as [[o|e1] s1] eqn:E1; [discriminate|].
    injection E as <- <-. destruct (symlink_failed s p target e1 s1 H W E1) as [K|[_ K]]; [exact K|congruence].
Qed.
Print Assumptions C53_failed_mkdir_symlink.
Theorem C53_failed_remove_rmdir : forall c s, linux_like c -> reachable c s -> null_free s -> forall p, not_null_path s p ->
  (honest_dirs s -> forall e s', remove p s = (Err e, s') -> s' = s) /\
  (forall e s', rmdir p false s = (Err e, s') -> s' = s).
Proof.
  intros c s Hl Hr NF p Hp. split.
  - intros HD e s' E. destruct (C20_remove c s Hl Hr NF HD p Hp _ _ E) as [[-> _]|[K _]]; [reflexivity|discriminate].
  - intros e s' E. destruct (C21_rmdir c s Hl Hr NF p Hp _ _ E) as [[-> _]|[K _]]; [reflexivity|discriminate].
Qed.
Print Assumptions C53_failed_remove_rmdir.
(** chdir in any configuration; listdir, readlink, stat and the other questions
    are functions of the state in the model: they never change it *)
Theorem C53_failed_chdir : forall s a e s', chdir a s = (Err e, s') -> s' = s.
Proof. exact chdir_failed. Qed.
Print Assumptions C53_failed_chdir.

(** finding 44 *)
Definition c53_ops := [Mkdir (L "/d") 511; Chmod (PStr (L "/d")) 438 true; SetUid 1000].
Definition c53_state := run (init posix_cfg (Some 10%Z) 18 0 0 0) c53_ops.
Theorem C53_full_disk_refuted : reachable posix_cfg c53_state /\ within_limits c53_state /\
  fst (os_symlink (L "12345678901") (L "/d/l") c53_state) = os_err EACCES /\
  exists d n o, entry c53_state d n = None /\ entry (snd (os_symlink (L "12345678901") (L "/d/l") c53_state)) d n = Some o.
Proof.
  split; [exists (Some 10%Z), 18%N, 0%Z, 0%Z, 0%Z, c53_ops; reflexivity|]. split.
  - intros k m t Hin Ht.
    assert (E : f_mounts c53_state = [([slash], {| m_idev := 1; m_total := Some 10%Z; m_used := 0 |})]) by (vm_compute; reflexivity).
    rewrite E in Hin. destruct Hin as [K|[]]. injection K as <- <-. cbn in Ht. injection Ht as <-. cbn. clear. discriminate.
  - split; [vm_compute; reflexivity|]. exists 2, (L "l"), 3. split; vm_compute; reflexivity.
Qed.
Print Assumptions C53_full_disk_refuted.

Example C53_case : fst (makedir (L "/g/x") 511 tree_state) = os_err ENOTDIR /\ fst (os_symlink (L "t") (L "/nodir/x") tree_state) = os_err ENOENT /\
  fst (remove (L "/d") tree_state) = os_err EISDIR /\ fst (rmdir (L "/d") false tree_state) = os_err ENOTEMPTY /\
  fst (chdir (PStr (L "/g")) tree_state) = os_err ENOTDIR.
Proof. split; [|split; [|split; [|split]]]; vm_compute; reflexivity. Qed.
