(** * C50: mount points. *)
From Verif Require Import Str PathModel PathSpec PathProofs FsModel FsSpec OpsModel IoModel SysModel Wp Gen IoFrame ResProofs ResProofs2.
From Verif Require Import GraphInv GraphOps4 GraphIo OpsThm OpsThm3 OpsThm5 ParentInv ResThm MountThm PropTree PropOps.

(** A mount point at the directory with these names from the root. *)
Definition mounted (s : fs) (mn : list str) (m : mount) : Prop :=
  Forall (ordinary (sepc s)) mn /\ In (abs_path (sepc s) mn, m) (f_mounts s).
Definition leads_into (mn names : list str) : Prop := exists rest, names = mn ++ rest.
(** A mount point that is no directory of the path, but whose name starts like it. *)
Definition look_alike (s : fs) (names : list str) : Prop :=
  exists mn m, mounted s mn m /\ ~ leads_into mn names /\ starts_with (abs_path (sepc s) mn) (abs_path (sepc s) names) = true.

(** Every mount point has its own device number, and its own path. *)
Theorem C50_devices_unique : forall c s, reachable c s ->
  (forall k m k' m', In (k, m) (f_mounts s) -> In (k', m') (f_mounts s) -> m_idev m = m_idev m' -> k = k' /\ m = m') /\
  (forall k m m', In (k, m) (f_mounts s) -> In (k, m') (f_mounts s) -> m = m').
Proof.
  intros c s Hr. destruct (devs_reachable c s Hr) as [H1 H2 _ _].
  assert (K : forall (l : list (str * mount)) (f : str * mount -> nat), NoDup (map f l) -> forall a b, In a l -> In b l -> f a = f b -> a = b).
  { intros l f. induction l as [|x l IH]; [intros _ a b []|]. cbn. intros Hn a b Ha Hb E. inversion Hn as [|? ? Hx Hl]; subst.
    destruct Ha as [->|Ha], Hb as [->|Hb]; auto.
    - contradiction Hx. rewrite E. apply in_map, Hb.
    - contradiction Hx. rewrite <- E. apply in_map, Ha. }
  split.
  - intros k m k' m' Ha Hb E. pose proof (K _ _ H2 (k, m) (k', m') Ha Hb E) as L. injection L as -> ->. auto.
  - intros k m m' Ha Hb.
    assert (E : assoc k (f_mounts s) = Some m) by (apply assoc_NoDup; assumption).
    assert (E' : assoc k (f_mounts s) = Some m') by (apply assoc_NoDup; assumption). congruence.
Qed.
Print Assumptions C50_devices_unique.

(** A path belongs to the mount point that is its longest prefix by
    components: its usage is the one reported, and its size is the one set.
    Missing: with a look-alike mount point (see the next theorem). *)
Theorem C50_mount_for_path_partial : forall c s, linux_like c -> reachable c s ->
  forall p names, p <> [] -> names_of s p names -> ~ look_alike s names ->
  exists mn m, mounted s mn m /\ leads_into mn names /\
    (forall mn' m', mounted s mn' m' -> leads_into mn' names -> leads_into mn' mn) /\
    get_disk_usage (Some p) s = (Ok (disk_usage_of m), s) /\
    (forall total, (m_used m <= total)%Z ->
       exists ms, set_disk_usage total (Some p) s = (Ok tt, set_mounts s ms) /\ map fst ms = map fst (f_mounts s) /\
         In (abs_path (sepc s) mn, mkmount (m_idev m) (Some total) (m_used m)) ms /\
         (forall k m', k <> abs_path (sepc s) mn -> In (k, m') ms <-> In (k, m') (f_mounts s))).
Proof.
  intros c s Hl Hr p names Hp Hn Hla. destruct (reachable_GP c s Hl Hr) as [H _].
  pose proof (keys_reachable c s Hl Hr) as Hk. pose proof (gi_lin s H) as Hls.
  destruct (names_of_anp s p names (Ginv_good s H) Hp Hn) as [Ho _].
  destruct (mount_found s p names H Hk Hp Hn) as (k & m & E1 & E2 & E3 & E4).
  assert (Hin := assoc_In _ _ _ E2). destruct (ky_names s Hk k m Hin) as (mn & Hmo & ->).
  assert (Hpre : leads_into mn names).
  { destruct E3 as [E3|[_ E3]].
    - apply (abs_path_inj _ (linux_like_posix _ Hls) _ _ Hmo Ho) in E3. subst mn. exists []. rewrite app_nil_r. reflexivity.
    - destruct (list_eq_dec (list_eq_dec Ascii.ascii_dec) mn (firstn (length mn) names)) as [E|N].
      + exists (skipn (length mn) names). rewrite E at 1. rewrite firstn_skipn. reflexivity.
      + exfalso. apply Hla. exists mn, m. split; [split; assumption|]. split; [|exact E3]. intros (rest & E). apply N. rewrite E.
        rewrite firstn_app, firstn_all, Nat.sub_diag. cbn. rewrite app_nil_r. reflexivity. }
  exists mn, m. split; [split; assumption|]. split; [exact Hpre|]. split; [|split].
  - intros mn' m' Hm' (rest' & E'). destruct Hpre as (rest & E).
    destruct (Nat.le_gt_cases (length mn') (length mn)) as [Hle|Hgt].
    + exists (skipn (length mn') mn). rewrite E in E'. apply (f_equal (firstn (length mn'))) in E'.
      rewrite !firstn_app, firstn_all, Nat.sub_diag in E'. cbn in E'. rewrite app_nil_r in E'.
      replace (length mn' - length mn) with 0 in E' by lia. cbn in E'. rewrite app_nil_r in E'. rewrite <- E' at 1. symmetry. apply firstn_skipn.
    + exfalso. assert (Hs : starts_with (abs_path (sepc s) mn') (abs_path (sepc s) names) = true) by (rewrite E'; apply abs_prefix).
      specialize (E4 _ _ (proj2 Hm') Hs).
      assert (Ex : mn' = mn ++ skipn (length mn) mn').
      { rewrite E in E'. apply (f_equal (firstn (length mn))) in E'. rewrite !firstn_app, firstn_all, Nat.sub_diag in E'. cbn in E'.
        replace (length mn - length mn') with 0 in E' by lia. cbn in E'. rewrite !app_nil_r in E'. rewrite E' at 1. symmetry. apply firstn_skipn. }
      assert (Hlt : length (abs_path (sepc s) mn) < length (abs_path (sepc s) mn')).
      { rewrite Ex. apply abs_path_longer.
        - rewrite <- Ex. rewrite E' in Ho. apply Forall_app in Ho. apply Ho.
        - intros K. rewrite K, app_nil_r in Ex. rewrite Ex in Hgt. lia. }
      lia.
  - unfold get_disk_usage, bind, gets. rewrite E1, E2. reflexivity.
  - intros total Ht. unfold set_disk_usage, bind, gets, ret. rewrite E1, E2.
    assert (Eb : match m_total m with Some _ => (total <? m_used m)%Z | None => false end = false).
    { destruct (m_total m); [|reflexivity]. apply Z.ltb_ge. exact Ht. }
    rewrite Eb. exists (set_assoc (abs_path (sepc s) mn) (mkmount (m_idev m) (Some total) (m_used m)) (f_mounts s)). split; [reflexivity|].
    pose proof (devs_reachable c s Hr) as [Hd _ _ _]. revert E2 Hd. clear. generalize (abs_path (sepc s) mn). intros k. generalize (f_mounts s).
    intros l. induction l as [|[k1 m1] l IH]; [discriminate|]. cbn [assoc set_assoc map fst]. destruct (str_eqb_spec k k1) as [->|N]; intros E Hd.
    + injection E as ->. split; [reflexivity|]. split; [left; reflexivity|]. intros k' m' Hk'. cbn. split; intros [E|K]; auto; injection E as E _; congruence.
    + inversion Hd as [|? ? Hx Hl']; subst. destruct (IH E Hl') as (I1 & I2 & I3). cbn [map fst]. rewrite I1. split; [reflexivity|].
      split; [right; exact I2|]. intros k' m' Hk'. cbn. rewrite (I3 k' m' Hk'). reflexivity.
Qed.
Print Assumptions C50_mount_for_path_partial.

(** finding 21: "/foobar" is taken for a path under the mount point "/foo". *)
Definition c50_ops := [AddMount (L "/foo") (Some 100%Z); AddMount (L "/foo/in") (Some 50%Z); Mkdir (L "/foobar") 511; SetDiskUsage 1000 None;
  CreateFile (L "/foo/in/f") 33188 (Some (L "12345")) None false false].
Definition c50_state := run (init posix_cfg None 18 0 0 0) c50_ops.
Lemma c50_reachable : reachable posix_cfg c50_state.
Proof. exists None, 18%N, 0%Z, 0%Z, 0%Z, c50_ops. reflexivity. Qed.
Lemma c50_sep : sepc c50_state = slash.
Proof. vm_compute. reflexivity. Qed.
Lemma c50_mounts : f_mounts c50_state = [(L "/", mkmount 1 (Some 1000%Z) 0); (L "/foo", mkmount 2 (Some 100%Z) 0); (L "/foo/in", mkmount 3 (Some 50%Z) 5)].
Proof. vm_compute. reflexivity. Qed.
Definition ordb (w : str) : bool := negb (str_eqb w []) && negb (str_eqb w (L ".")) && negb (str_eqb w (L "..")) && negb (existsb (Ascii.eqb slash) w).
Lemma ordb_ok l : forallb ordb l = true -> Forall (ordinary slash) l.
Proof.
  intros H. apply Forall_forall. intros w Hw. rewrite forallb_forall in H. specialize (H w Hw). unfold ordb in H.
  rewrite !andb_true_iff, !negb_true_iff in H. destruct H as [[[H1 H2] H3] H4].
  split; [apply str_eqb_neq, H1|]. split; [apply str_eqb_neq, H2|]. split; [apply str_eqb_neq, H3|].
  intros K. assert (E : existsb (Ascii.eqb slash) w = true) by (apply existsb_exists; exists slash; split; [exact K|reflexivity]). congruence.
Qed.
Ltac foo_ord := apply ordb_ok; vm_compute; reflexivity.
Theorem C50_look_alike_refuted : reachable posix_cfg c50_state /\ names_of c50_state (L "/foobar/x") [L "foobar"; L "x"] /\
  mounted c50_state [L "foo"] (mkmount 2 (Some 100%Z) 0) /\ ~ leads_into [L "foo"] [L "foobar"; L "x"] /\
  get_disk_usage (Some (L "/foobar/x")) c50_state = (Ok (disk_usage_of (mkmount 2 (Some 100%Z) 0)), c50_state).
Proof.
  split; [apply c50_reachable|]. split; [vm_compute; reflexivity|]. split; [unfold mounted; rewrite c50_sep, c50_mounts; split; [foo_ord|right; left; reflexivity]|].
  split; [intros (r & E); discriminate E|]. unfold get_disk_usage, bind.
  assert (E : fst (mount_point_for_path (L "/foobar/x") c50_state) = Ok (L "/foo")) by (vm_compute; reflexivity).
  pose proof (mount_point_pure c50_state (L "/foobar/x") ltac:(vm_compute; reflexivity)) as Es.
  destruct (mount_point_for_path (L "/foobar/x") c50_state) as [r s']. cbn [fst snd] in E, Es. subst r s'. unfold gets. rewrite c50_mounts. reflexivity.
Qed.
Print Assumptions C50_look_alike_refuted.
Example C50_mount_case : names_of c50_state (L "/foo/in/x/y") [L "foo"; L "in"; L "x"; L "y"] /\ ~ look_alike c50_state [L "foo"; L "in"; L "x"; L "y"] /\
  fst (get_disk_usage (Some (L "/foo/in/x/y")) c50_state) = Ok (50, 5, 45)%Z /\
  fst (get_disk_usage (Some (L "/foo/x")) c50_state) = Ok (100, 0, 100)%Z.
Proof.
  split; [vm_compute; reflexivity|]. split; [|split; vm_compute; reflexivity].
  intros (mn & m & [Ho Hm] & Hn & _). rewrite c50_sep in Ho, Hm. rewrite c50_mounts in Hm. apply Hn.
  assert (K : forall a, Forall (ordinary slash) a -> abs_path slash mn = abs_path slash a -> mn = a).
  { intros a Ha E. exact (abs_path_inj _ (linux_like_posix _ posix_cfg_linux) _ _ Ho Ha E). }
  destruct Hm as [E|[E|[E|[]]]]; apply (f_equal fst) in E; cbn [fst] in E; symmetry in E.
  - rewrite (K [] ltac:(constructor) E). eexists. reflexivity.
  - rewrite (K [L "foo"] ltac:(foo_ord) E). eexists. reflexivity.
  - rewrite (K [L "foo"; L "in"] ltac:(foo_ord) E). eexists. reflexivity.
Qed.

(** A new mount point: a new empty directory at its path, with a device number
    that no mount point and no object had; the rest of the tree is as before.
    Missing: symbolic links on the way (finding 7). *)
Theorem C50_add_mount_partial : forall c s, linux_like c -> reachable c s -> within_limits s -> c_sep c = slash ->
  forall p names total k s', p <> [] -> names_of s p names -> (forall pre n l rest, ~ meets_link s names pre n l rest) ->
  (forall t, total = Some t -> (0 <= t)%Z) -> add_mount_point p total s = (Ok k, s') ->
  exists dev o, k = abs_path slash names /\ f_mounts s' = f_mounts s ++ [(k, mkmount dev total 0)] /\
    (forall k' m, In (k', m) (f_mounts s) -> m_idev m <> dev) /\ (forall x, o_dev (ob s x) <> Some dev) /\
    at_names s names = None /\ at_names s' names = Some o /\ is_dirobj s' o = true /\ ents s' o = [] /\ ss_dev (stat_of s' o) = Some dev /\
    (* the objects that were there keep their device, and their place *)
    (forall x, x < f_next s -> o_dev (ob s' x) = o_dev (ob s x)) /\ (forall q x, at_names s q = Some x -> at_names s' q = Some x).
Proof.
  intros c s Hl Hr W Hs p names total k s' Hp Hn Hnl Ht E. destruct (reachable_GP c s Hl Hr) as [H _].
  destruct (names_of_anp s p names (Ginv_good s H) Hp Hn) as [Ho Ea]. pose proof (devs_reachable c s Hr) as [D1 D2 D3 D4].
  assert (Hsp : sepc s = slash) by (rewrite (reachable_cfg c s Hr); exact Hs).
  destruct (keys_reachable c s Hl Hr) as [_ (mr & Kr)].
  destruct (add_mount_shape p total s (Ginv_win s H)) as [[_ E0]|[En _]]; [rewrite E0 in E; discriminate E|].
  rewrite (add_mount_eq p total s En) in E. set (s1 := register s p total) in *.
  assert (G1 : gsame s s1) by (apply (gsame_trans _ (set_dev s (S (f_dev s)))); [apply gsame_set_dev|apply gsame_set_mounts]).
  assert (H1 : Ginv s1) by (apply (gsame_Ginv s s1 G1 H)).
  assert (W1 : within_limits s1).
  { intros k1 m1 t1 Hin Ht1. unfold s1, register in Hin. cbn in Hin. apply in_app_iff in Hin. destruct Hin as [Hin|[Ein|[]]]; [apply (W k1 m1 t1 Hin Ht1)|].
    injection Ein as <- <-. cbn in *. apply Ht, Ht1. }
  unfold bind at 1 in E. unfold gets at 1 in E.
  assert (Eroot : str_eqb (anp s p) (o_name (ob s1 root_oid)) = false).
  { apply str_eqb_neq. intros K. change (ob s1 root_oid) with (ob s root_oid) in K. rewrite (gi_rootname s H) in K. rewrite K in En.
    apply assoc_None in En. apply En. apply in_map_iff. exists ([sepc s], mr). split; [reflexivity|exact Kr]. }
  rewrite Eroot in E. unfold bind at 1 in E.
  pose proof (create_dir_spec s1 (anp s p) PERM_DEF names H1 W1) as C.
  assert (Ean : anp s1 (make_string_path (f_cfg s1) (anp s p)) = abs_path (sepc s1) names).
  { rewrite make_string_path_slash by exact Hsp. rewrite Ea. apply (anp_abs_path s1 names (Ginv_good s1 H1) Ho). }
  assert (At1 : forall q x, tree_at s1 x q = tree_at s x q).
  { induction q as [|j q IH]; intros x; [reflexivity|]. cbn [tree_at]. change (entry s1 x j) with (entry s x j). destruct (entry s x j); [apply IH|reflexivity]. }
  assert (Hnl1 : forall pre n l rest, ~ meets_link s1 names pre n l rest).
  { intros pre n l rest (M1 & M2 & M3). apply (Hnl pre n l rest). split; [exact M1|]. split; [|exact M3]. unfold at_names in *. rewrite <- At1. exact M2. }
  specialize (C Ean Ho Hnl1). unfold wp in C. destruct (create_dir (anp s p) PERM_DEF s1) as [r s2]. cbn [fst snd] in C.
  destruct C as [(e & -> & _)|(a & n & rest & d & Enm & Hat & Hdd & -> & DM)]; [discriminate E|].
  unfold bind, gets, mod_obj, modify, ret in E. injection E as <- <-.
  assert (Ed2 : f_dev s2 = S (f_dev s)) by (rewrite (dm_rest _ _ _ _ _ DM); reflexivity).
  assert (Em2 : f_mounts s2 = f_mounts s ++ [(anp s p, mkmount (S (f_dev s)) total 0)]) by (rewrite (dm_rest _ _ _ _ _ DM); reflexivity).
  destruct (dirs_made_at s1 s2 d n rest _ a H1 Hdd Hat DM) as [K1 K2].
  destruct (K2 (length rest) (le_n _)) as (K3 & K4 & _). rewrite firstn_all, <- Enm in K3.
  set (o := f_next s1 + length rest) in *. set (s3 := mod_ob s2 o (fun x => wo_dev x (Some (f_dev s2)))).
  assert (Ob : forall x, ob s3 x = if Nat.eqb x o then wo_dev (ob s2 o) (Some (f_dev s2)) else ob s2 x) by reflexivity.
  assert (Em3 : f_mounts s3 = f_mounts s ++ [(anp s p, mkmount (S (f_dev s)) total 0)]) by exact Em2.
  match goal with |- context [mod_ob s2 ?x ?f] => change (mod_ob s2 x f) with s3 end. clearbody s3.
  assert (Ents : forall x, ents s3 x = ents s2 x).
  { intros x. unfold ents. rewrite Ob. destruct (Nat.eqb x o) eqn:Ex; [|reflexivity]. apply Nat.eqb_eq in Ex. subst x. reflexivity. }
  assert (At : forall q, at_names s3 q = at_names s2 q).
  { assert (At' : forall q x, tree_at s3 x q = tree_at s2 x q); [|intros q; apply At'].
    induction q as [|j q IH]; intros x; [reflexivity|]. cbn [tree_at]. unfold entry. rewrite Ents. destruct (assoc j (ents s2 x)); [apply IH|reflexivity]. }
  exists (S (f_dev s)), o. split; [rewrite Ea, Hsp; reflexivity|]. split; [exact Em3|].
  split; [intros k' m Hin; specialize (D3 k' m Hin); lia|]. split; [intros x Ex; specialize (D4 x _ Ex); lia|].
  split.
  { destruct (dm_top _ _ _ _ _ DM n rest eq_refl) as [Etop _]. rewrite Enm. unfold at_names in *. rewrite tree_at_app, <- At1, Hat. cbn [tree_at].
    change (entry s1 d n) with (entry s d n) in Etop. rewrite Etop. reflexivity. }
  split; [rewrite At; exact K3|].
  split; [unfold is_dirobj; rewrite Ob, Nat.eqb_refl; exact K4|].
  split.
  { rewrite Ents. assert (En' : exists nm, nth_error (n :: rest) (length rest) = Some nm).
    { destruct (nth_error (n :: rest) (length rest)) eqn:Ex; [eauto|]. apply nth_error_None in Ex. cbn in Ex. lia. }
    destruct En' as (nm & En'). destruct (dm_new _ _ _ _ _ DM (length rest) nm En') as (Eb & _). fold o in Eb. unfold ents. rewrite Eb.
    rewrite (proj2 (nth_error_None (n :: rest) (S (length rest)))) by (cbn; lia). reflexivity. }
  split; [cbn [stat_of ss_dev]; rewrite Ob, Nat.eqb_refl; cbn; rewrite Ed2; reflexivity|].
  split.
  { intros x Hx. assert (Hxo : Nat.eqb x o = false) by (apply Nat.eqb_neq; unfold o; change (f_next s1) with (f_next s); lia).
    rewrite Ob, Hxo. destruct (Nat.eq_dec x d) as [->|Nd].
    - destruct (dm_top _ _ _ _ _ DM n rest eq_refl) as [_ Etop]. rewrite Etop. reflexivity.
    - rewrite (dm_old _ _ _ _ _ DM x Hx Nd). reflexivity. }
  intros q x Hq. rewrite At. apply K1. unfold at_names in *. rewrite At1. exact Hq.
Qed.
Print Assumptions C50_add_mount_partial.
Example C50_add_case : fst (add_mount_point (L "/d/e/m/n") (Some 7%Z) tree_state) = Ok (L "/d/e/m/n") /\
  names_of tree_state (L "/d/e/m/n") [L "d"; L "e"; L "m"; L "n"] /\ within_limits tree_state.
Proof. split; [vm_compute; reflexivity|]. split; [vm_compute; reflexivity|exact tree_state_limits]. Qed.

(** A path that is a mount point already: FileExistsError, and nothing changes. *)
Theorem C50_mounted_twice : forall c s, linux_like c -> reachable c s ->
  forall p names m total, p <> [] -> names_of s p names -> mounted s names m -> add_mount_point p total s = (os_err EEXIST, s).
Proof.
  intros c s Hl Hr p names m total Hp Hn [_ Hm]. destruct (reachable_GP c s Hl Hr) as [H _].
  destruct (names_of_anp s p names (Ginv_good s H) Hp Hn) as [_ Ea].
  destruct (add_mount_shape p total s (Ginv_win s H)) as [[_ E]|[E _]]; [exact E|]. rewrite Ea in E.
  apply assoc_None in E. contradiction E. apply in_map_iff. exists (abs_path (sepc s) names, m). auto.
Qed.
Print Assumptions C50_mounted_twice.
(** finding 17: on an existing directory it raises FileExistsError too, but the
    mount point is there, and the directory is not on its device *)
Theorem C50_existing_directory_refuted : reachable posix_cfg tree_state /\
  fst (add_mount_point (L "/d") (Some 7%Z) tree_state) = os_err EEXIST /\
  (let s' := snd (add_mount_point (L "/d") (Some 7%Z) tree_state) in
   fst (get_disk_usage (Some (L "/d/f")) s') = Ok (7, 0, 7)%Z /\ fst (get_disk_usage (Some (L "/d/f")) s') <> fst (get_disk_usage (Some (L "/d/f")) tree_state) /\
   match resolve s' (L "/d") true with Ok o => ss_dev (stat_of s' o) = Some 1 | Err _ => False end).
Proof.
  split; [exact tree_reachable|]. split; [vm_compute; reflexivity|]. cbv zeta. split; [vm_compute; reflexivity|].
  split; [intros E; vm_compute in E; discriminate E|vm_compute; reflexivity].
Qed.
Print Assumptions C50_existing_directory_refuted.

Lemma om_entry s s' d n o : one_more s s' d n o -> entry s' d n = Some o.
Proof.
  intros OM. unfold entry, ents. rewrite (om_dir _ _ _ _ _ OM). cbn. rewrite assoc_app. fold (entry s d n). rewrite (om_was _ _ _ _ _ OM). cbn.
  rewrite str_eqb_refl. reflexivity.
Qed.
(** What is created carries the device number of the directory it is in. *)
Theorem C50_created_device : forall c s, linux_like c -> reachable c s -> within_limits s -> c_sep c = slash ->
  (forall p mode data um o s', create_file p mode (Some data) None false um s = (Ok o, s') ->
     exists pre n d, place s p pre n d /\ entry s' d n = Some o /\ ss_dev (stat_of s' o) = ss_dev (stat_of s d)) /\
  (forall p mode s', makedir p mode s = (Ok tt, s') ->
     exists pre n d o, place s p pre n d /\ entry s' d n = Some o /\ ss_dev (stat_of s' o) = ss_dev (stat_of s d)) /\
  (forall pre n d target s', Forall (ordinary slash) (pre ++ [n]) ->
     resolve s (abs_path slash pre) true = Ok d -> is_dirobj s d = true -> has_bit (o_mode (ob s d)) PERM_READ = true ->
     os_symlink target (abs_path slash (pre ++ [n])) s = (Ok tt, s') ->
     exists o, entry s' d n = Some o /\ ss_dev (stat_of s' o) = ss_dev (stat_of s d)) /\
  (forall p names mode s', p <> [] -> names_of s p names -> (forall pre n l rest, ~ meets_link s names pre n l rest) ->
     makedirs p mode false s = (Ok tt, s') ->
     exists a n rest d, names = a ++ n :: rest /\ at_names s a = Some d /\
       forall k o, k <= length rest -> at_names s' (a ++ n :: firstn k rest) = Some o -> ss_dev (stat_of s' o) = ss_dev (stat_of s d)).
Proof.
  intros c s Hl Hr W Hs. split; [|split; [|split]].
  - intros p mode data um o s' E. destruct (C17_create_file c s Hl Hr W Hs p mode data um o s' E) as (pre & n & d & Hp & OM & BN & _).
    exists pre, n, d. split; [exact Hp|]. split; [apply (om_entry s s' _ _ _ OM)|]. exact (bn_dev _ _ _ _ BN).
  - intros p mode s' E. destruct (C19_mkdir c s Hl Hr W p mode s' E) as (pre & n & d & o & Hp & OM & BN & _).
    exists pre, n, d, o. split; [exact Hp|]. split; [apply (om_entry s s' _ _ _ OM)|]. exact (bn_dev _ _ _ _ BN).
  - intros pre n d target s' Hn Hd Hdd Hrd E. destruct (C26_symlink c s Hl Hr W Hs pre n d target s' Hn Hd Hdd Hrd E) as (o & OM & BN & _).
    exists o. split; [apply (om_entry s s' _ _ _ OM)|]. exact (bn_dev _ _ _ _ BN).
  - intros p names mode s' Hp Hn Hnl E. destruct (reachable_GP c s Hl Hr) as [H _].
    assert (Hsp : sepc s = slash) by (rewrite (reachable_cfg c s Hr); exact Hs).
    destruct (names_of_anp s p names (Ginv_good s H) Hp Hn) as [Fo Eo].
    pose proof (wp_elim _ _ _ _ _ (makedirs_spec s p mode false names H W Hsp Eo Fo Hnl) E) as K. cbv beta in K.
    destruct K as [(e & Ee & _)|[(_ & Ee & _)|(_ & a & n & rest & d & En & Ha & Hd & DM)]]; [discriminate Ee|discriminate Ee|].
    exists a, n, rest, d. split; [exact En|]. split; [exact Ha|]. intros k o Hk' Ho.
    destruct (dirs_made_at s s' d n rest _ a H Hd Ha DM) as [_ K2]. destruct (K2 k Hk') as (K3 & _). rewrite K3 in Ho. injection Ho as <-.
    destruct (nth_error (n :: rest) k) as [nm|] eqn:Ex; [|apply nth_error_None in Ex; cbn in Ex; lia].
    destruct (dm_new _ _ _ _ _ DM k nm Ex) as (_ & _ & _ & _ & _ & Edev). exact Edev.
Qed.
Print Assumptions C50_created_device.
Example C50_created_case : within_limits c50_state /\ fst (makedir (L "/foo/in/d") 511 c50_state) = Ok tt /\
  (let s' := snd (makedir (L "/foo/in/d") 511 c50_state) in
   match resolve s' (L "/foo/in/d") true with Ok o => ss_dev (stat_of s' o) = Some 3 | Err _ => False end).
Proof.
  split; [|split; vm_compute; reflexivity]. unfold within_limits. rewrite c50_mounts.
  intros k m t [E|[E|[E|[]]]] Et; injection E as <- <-; cbn in Et; injection Et as <-; cbn; lia.
Qed.

(** findings 5 and 62: a hard link from another device takes the object to the
    device of the directory linked to last, so that the first name shows
    another device than its directory; and renaming a mount point's directory
    takes this directory, but not what is in it, to the device around it. *)
Definition c50_link_ops := [AddMount (L "/m") None; CreateFile (L "/f") 33188 (Some (L "12345")) None false false].
Definition c50_link := run (init posix_cfg None 18 0 0 0) c50_link_ops.
Definition dev_at (s : fs) (p : str) : option nat := match resolve s p true with Ok o => ss_dev (stat_of s o) | Err _ => None end.
Theorem C50_link_refuted : reachable posix_cfg c50_link /\ dev_at c50_link (L "/f") = Some 1 /\
  fst (os_link (L "/f") (L "/m/g") c50_link) = Ok tt /\ dev_at (snd (os_link (L "/f") (L "/m/g") c50_link)) (L "/f") = Some 2.
Proof. split; [exists None, 18%N, 0%Z, 0%Z, 0%Z, c50_link_ops; reflexivity|]. split; [vm_compute; reflexivity|]. split; vm_compute; reflexivity. Qed.
Print Assumptions C50_link_refuted.
Theorem C50_rename_refuted : reachable posix_cfg c50_state /\ fst (rename (L "/foo") (L "/bar") false c50_state) = Ok tt /\
  (let s' := snd (rename (L "/foo") (L "/bar") false c50_state) in
   dev_at s' (L "/bar") = Some 1 /\ dev_at s' (L "/bar/in") = Some 3 /\ fst (get_disk_usage (Some (L "/bar/in")) s') = Ok (1000, 0, 1000)%Z).
Proof. split; [apply c50_reachable|]. split; [vm_compute; reflexivity|]. split; [vm_compute; reflexivity|]. split; vm_compute; reflexivity. Qed.
Print Assumptions C50_rename_refuted.

