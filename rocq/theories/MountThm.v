(** * Mount points: device numbers and the mount point of a path (C50). *)
From Coq Require Import RelationClasses Morphisms.
From Verif Require Import Str PathModel PathSpec FsModel FsSpec OpsModel IoModel SysModel Wp Frame IoFrame Gen.

(** the keys of the mount points and their device numbers *)
Definition shape (s : fs) : list (str * nat) := map (fun e => (fst e, m_idev (snd e))) (f_mounts s).
Record devs_ok (s : fs) : Prop := {
  dv_keys : NoDup (map fst (f_mounts s));
  dv_devs : NoDup (map (fun e => m_idev (snd e)) (f_mounts s));
  dv_max : forall k m, In (k, m) (f_mounts s) -> m_idev m <= f_dev s;
  dv_obj : forall o d, o_dev (ob s o) = Some d -> d <= f_dev s
}.
Lemma NoDup_snoc {A} (l : list A) x : NoDup l -> ~ In x l -> NoDup (l ++ [x]).
Proof.
  intros H K. induction l as [|a l IH]; cbn; [constructor; [exact K|constructor]|]. inversion H as [|? ? Ha Hl]; subst.
  constructor; [|apply IH; [exact Hl|intros L; apply K; right; exact L]]. rewrite in_app_iff. intros [L|[->|[]]]; [contradiction|]. apply K. left. reflexivity.
Qed.
Lemma shape_keys s : map fst (f_mounts s) = map fst (shape s).
Proof. unfold shape. rewrite map_map. reflexivity. Qed.
Lemma shape_devs s : map (fun e => m_idev (snd e)) (f_mounts s) = map snd (shape s).
Proof. unfold shape. rewrite map_map. reflexivity. Qed.
Lemma shape_in s k d : In (k, d) (shape s) <-> exists m, In (k, m) (f_mounts s) /\ m_idev m = d.
Proof.
  unfold shape. rewrite in_map_iff. split.
  - intros ([k1 m] & E & H). cbn in E. injection E as <- <-. eauto.
  - intros (m & H & <-). exists (k, m). auto.
Qed.
Lemma devs_shape s s' : shape s' = shape s -> f_dev s' = f_dev s ->
  (forall o d, o_dev (ob s' o) = Some d -> d <= f_dev s \/ exists o0, o_dev (ob s o0) = Some d) -> devs_ok s -> devs_ok s'.
Proof.
  intros E Ed Ho [H1 H2 H3 H4]. split.
  - rewrite shape_keys, E, <- shape_keys. exact H1.
  - rewrite shape_devs, E, <- shape_devs. exact H2.
  - intros k m Hin. assert (K : In (k, m_idev m) (shape s')) by (apply shape_in; eauto). rewrite E in K. apply shape_in in K.
    destruct K as (m0 & Hm & <-). rewrite Ed. apply (H3 k m0 Hm).
  - intros o d K. rewrite Ed. destruct (Ho o d K) as [Hd|(o0 & Hd)]; [exact Hd|]. apply (H4 o0 d Hd).
Qed.

(** ** every state *)
Definition RD := kept_by devs_ok.
Global Instance RD_pre : PreOrder RD.
Proof. split; [intros s H; exact H|]. intros a b c H K L. apply K, H, L. Qed.
Lemma rd_same f : (forall s, shape (f s) = shape s) -> (forall s, f_dev (f s) = f_dev s) ->
  (forall s o, o_dev (ob (f s) o) = o_dev (ob s o)) -> keeps RD (modify f).
Proof.
  intros H1 H2 H3 s K. apply (devs_shape s); [apply H1|apply H2| |exact K]. intros o d E. right. exists o. cbn in E. rewrite H3 in E. exact E.
Qed.
Lemma rd_mod_obj o f : (forall x, o_dev (f x) = o_dev x) -> keeps RD (mod_obj o f).
Proof.
  intros Hf. apply rd_same; try reflexivity. intros s x. unfold mod_ob. cbn. unfold upd. destruct (Nat.eqb x o) eqn:E; [|reflexivity].
  apply Nat.eqb_eq in E. subst. apply Hf.
Qed.
Lemma add_used_shape ms d z : map (fun e : str * mount => (fst e, m_idev (snd e))) (add_used ms d z) = map (fun e => (fst e, m_idev (snd e))) ms.
Proof.
  induction ms as [|[k m] ms IH]; [reflexivity|]. cbn [add_used]. destruct (opt_nat_eqb _ _); [reflexivity|]. cbn [map]. rewrite IH. reflexivity.
Qed.
Lemma set_assoc_shape ms k m m0 : assoc k ms = Some m0 -> m_idev m = m_idev m0 ->
  map (fun e : str * mount => (fst e, m_idev (snd e))) (set_assoc k m ms) = map (fun e => (fst e, m_idev (snd e))) ms.
Proof.
  intros E Em. induction ms as [|[k1 m1] ms IH]; [discriminate E|]. cbn in E |- *. destruct (str_eqb_spec k k1) as [->|Hn].
  - injection E as <-. cbn. rewrite Em. reflexivity.
  - cbn [map]. rewrite (IH E). reflexivity.
Qed.
Lemma rd_cdu z d : keeps RD (change_disk_usage z d).
Proof.
  intros s. unfold change_disk_usage. destruct (mount_for_dev _ _) as [m|]; [|intros K; exact K].
  assert (K : RD s (set_mounts s (add_used (f_mounts s) d z))).
  { intros K. apply (devs_shape s); [apply add_used_shape|reflexivity| |exact K]. intros o x E. right. exists o. exact E. }
  destruct (m_total m); [destruct (_ <? _)%Z|]; [intros L; exact L|exact K|exact K].
Qed.
Lemma rd_alloc n m b : keeps RD (alloc n m b).
Proof.
  intros s K. apply (devs_shape s); [reflexivity|reflexivity| |exact K]. intros o d. cbn. unfold upd.
  destruct (Nat.eqb o (f_next s)); [discriminate|]. intros E. right. exists o. exact E.
Qed.
Ltac same_dev := let y := fresh in intros y; repeat match goal with |- context [match ?b with _ => _ end] => destruct b end; reflexivity.
Ltac rd := kr; try first [apply rd_cdu|apply rd_mod_obj; same_dev|apply rd_alloc|apply rd_same; reflexivity].
Lemma rd_copy_dev o d s : RD s (snd (mod_obj o (fun x => wo_dev x (o_dev (ob s d))) s)).
Proof.
  intros K. apply (devs_shape s); [reflexivity|reflexivity| |exact K]. intros x e. cbn. unfold mod_ob, ob. cbn. unfold upd.
  destruct (Nat.eqb x o); cbn; intros E; right; [exists d|exists x]; exact E.
Qed.
Lemma rd_rm_loop rm : (forall n, keeps RD (rm n)) -> forall k e, keeps RD (rm_loop rm k e).
Proof. intros H. induction k as [|k IH]; intros e; cbn [rm_loop]; rd; [apply H|apply IH]. Qed.
Lemma rd_remove_entry_n fuel : forall d n r, keeps RD (remove_entry_n fuel d n r).
Proof.
  induction fuel as [|f IH]; intros d n r; cbn [remove_entry_n]; unfold unlink_obj; rd.
  apply rd_rm_loop; intros m; apply IH.
Qed.
Lemma rd_copy_k o d : keeps RD (dev <- gets (fun s => o_dev (ob s d)) ;; mod_obj o (fun x => wo_dev x dev)).
Proof. intros s. apply rd_copy_dev. Qed.
Lemma rd_link_obj d o : keeps RD (link_obj d o).
Proof.
  unfold link_obj. repeat (first [apply rd_copy_k|kr1]; cbv zeta); rd.
Qed.
Lemma rd_prims : fs_prims RD (fun t => True) True True.
Proof.
  split; [split|..].
  - intros n m. apply rd_alloc.
  - intros n m. apply rd_alloc.
  - intros d o. unfold add_entry. rd. apply rd_link_obj.
  - intros d n r s. apply (rd_remove_entry_n (S (f_next s)) d n r s).
  - intros _ o n. unfold set_size. rd.
  - intros o c. unfold set_initial_contents, set_size. rd.
  - intros _ o n. unfold set_large_file_size, set_size. rd.
  - intros o n. rd.
  - intros o n. rd.
  - intros s p t _ Hn [H1 H2 H3 H4]. unfold register. split; cbn.
    + rewrite map_app. cbn. apply NoDup_snoc; [exact H1|]. apply assoc_None. exact Hn.
    + rewrite map_app. cbn. apply NoDup_snoc; [exact H2|]. intros K. apply in_map_iff in K. destruct K as ([k m] & E & K).
      specialize (H3 k m K). cbn in E. lia.
    + intros k m K. apply in_app_iff in K. destruct K as [K|[E|[]]]; [specialize (H3 k m K); lia|]. injection E as <- <-. cbn. lia.
    + intros o d E. specialize (H4 o d E). lia.
  - rd.
  - intros i. rd.
  - intros o s [H1 H2 H3 H4]. split; cbn; try assumption. intros x d. unfold mod_ob, ob. cbn. unfold upd.
    destruct (Nat.eqb x o); cbn; [intros E; injection E as <-; lia|]. apply H4.
  - intros o c m t. rd.
  - intros o f Hf. apply rd_mod_obj. intros x. rewrite Hf. reflexivity.
  - intros s s' H [H1 H2 H3 H4]. rewrite H. split; assumption.
  - intros s s' H [H1 H2 H3 H4]. rewrite H. split; assumption.
  - intros o f Hf. apply rd_mod_obj. intros x. rewrite Hf. reflexivity.
  - intros o k v. rd.
  - intros o k. rd.
Qed.
Lemma rd_set_usage t p : keeps RD (set_disk_usage t p).
Proof.
  intros s K. unfold set_disk_usage. unfold bind at 1.
  assert (L : forall q, devs_ok (snd ((k <- mount_point_for_path q ;; m <- gets (fun s => assoc k (f_mounts s)) ;;
    match m with
    | None => raise KeyErr
    | Some m =>
      if match m_total m with Some _ => (t <? m_used m)%Z | None => false end
      then raise_os ENOSPC
      else modify (fun s => set_mounts s (set_assoc k (mkmount (m_idev m) (Some t) (m_used m)) (f_mounts s)))
    end) s))).
  { intros q. unfold bind at 1. pose proof (gn_mount_path _ _ _ (fp_core _ _ _ _ rd_prims) q s K) as K1.
    destruct (mount_point_for_path q s) as [[k|e] s1]; [|exact K1]. cbn [snd] in K1. unfold bind, gets.
    destruct (assoc k (f_mounts s1)) as [m|] eqn:Em; [|exact K1].
    destruct (match m_total m with Some _ => _ | None => _ end); [exact K1|]. unfold modify. cbn [snd].
    apply (devs_shape s1); [apply (set_assoc_shape _ _ _ m Em); reflexivity|reflexivity| |exact K1]. intros o d E. right. exists o. exact E. }
  destruct p as [q|]; apply L.
Qed.
Lemma outm_snd {A} (f : A -> out) m s : snd (outm f m s) = snd (m s).
Proof. unfold outm, bind. destruct (m s) as [[x|e] s']; reflexivity. Qed.
Lemma devs_step o s : devs_ok s -> devs_ok (snd (step o s)).
Proof.
  intros K. assert (D : (exists t p, o = SetDiskUsage t p) \/ (forall t p, o <> SetDiskUsage t p)).
  { destruct o; try (right; intros; discriminate). left. eauto. }
  destruct D as [(t & p & ->)|Hn].
  - cbn [step]. rewrite outm_snd. apply rd_set_usage, K.
  - apply (gen_step _ _ _ (fp_core _ _ _ _ rd_prims) rd_prims o); auto.
Qed.
Theorem devs_reachable c s : reachable c s -> devs_ok s.
Proof.
  intros (t & um & uid & gid & now & ops & ->).
  assert (K : devs_ok (init c t um uid gid now)).
  { split; cbn.
    - constructor; [intros []|constructor].
    - constructor; [intros []|constructor].
    - intros k m [E|[]]. injection E as <- <-. cbn. lia.
    - intros o d. unfold ob. cbn. destruct (Nat.eqb o root_oid); cbn; [intros E; injection E as <-; lia|].
      destruct (Nat.eqb o devnull_oid); cbn; discriminate. }
  revert K. generalize (init c t um uid gid now). induction ops as [|o ops IH]; intros s K; [exact K|]. cbn [run]. apply IH, devs_step, K.
Qed.

(** ** outside Windows only add_mount_point adds mount points *)
Definition RK (s s' : fs) : Prop := f_cfg s' = f_cfg s /\ (c_win (f_cfg s) = false -> shape s' = shape s /\ f_dev s' = f_dev s).
Global Instance RK_pre : PreOrder RK.
Proof.
  split; [intros s; split; auto|]. intros a b c [H1 H2] [K1 K2]. split; [congruence|]. intros Hw. destruct (H2 Hw) as [E1 E2].
  rewrite H1 in K2. destruct (K2 Hw) as [E3 E4]. split; congruence.
Qed.
Lemma rk_same f : (forall s, f_cfg (f s) = f_cfg s) -> (forall s, shape (f s) = shape s) -> (forall s, f_dev (f s) = f_dev s) -> keeps RK (modify f).
Proof. intros H1 H2 H3 s. split; [apply H1|]. intros _. split; [apply H2|apply H3]. Qed.
Lemma rk_mod_obj o f : keeps RK (mod_obj o f).
Proof. apply rk_same; reflexivity. Qed.
Lemma rk_cdu z d : keeps RK (change_disk_usage z d).
Proof.
  intros s. unfold change_disk_usage. destruct (mount_for_dev _ _) as [m|]; [|reflexivity].
  assert (K : RK s (set_mounts s (add_used (f_mounts s) d z))) by (split; [reflexivity|]; intros _; split; [apply add_used_shape|reflexivity]).
  destruct (m_total m); [destruct (_ <? _)%Z|]; [reflexivity|exact K|exact K].
Qed.
Lemma rk_alloc n m b : keeps RK (alloc n m b).
Proof. intros s. split; [reflexivity|]. intros _. split; reflexivity. Qed.
Ltac rk := kr; try first [apply rk_cdu|apply rk_mod_obj|apply rk_alloc|apply rk_same; reflexivity].
Lemma rk_rm_loop rm : (forall n, keeps RK (rm n)) -> forall k e, keeps RK (rm_loop rm k e).
Proof. intros H. induction k as [|k IH]; intros e; cbn [rm_loop]; rk; [apply H|apply IH]. Qed.
Lemma rk_remove_entry_n fuel : forall d n r, keeps RK (remove_entry_n fuel d n r).
Proof.
  induction fuel as [|f IH]; intros d n r; cbn [remove_entry_n]; unfold unlink_obj; rk.
  apply rk_rm_loop; intros m; apply IH.
Qed.
Lemma rk_prims : fs_prims RK (fun t => False) True True.
Proof.
  split; [split|..].
  - intros n m. apply rk_alloc.
  - intros n m. apply rk_alloc.
  - intros d o. unfold add_entry, link_obj. rk.
  - intros d n r s. apply (rk_remove_entry_n (S (f_next s)) d n r s).
  - intros _ o n. unfold set_size. rk.
  - intros o c. unfold set_initial_contents, set_size. rk.
  - intros _ o n. unfold set_large_file_size, set_size. rk.
  - intros o n. rk.
  - intros o n. rk.
  - intros s p t [[]|[-> Hw]] Hn. split; [reflexivity|]. congruence.
  - rk.
  - intros i. rk.
  - intros o. any_dev. rk.
  - intros o c m t. rk.
  - intros o f Hf. rk.
  - intros s s' H. rewrite H. split; [reflexivity|]. intros _; split; reflexivity.
  - intros s s' H. rewrite H. split; [reflexivity|]. intros _; split; reflexivity.
  - intros o f Hf. rk.
  - intros o k v. rk.
  - intros o k. rk.
Qed.
Lemma shape_assoc s k : assoc k (f_mounts s) = None <-> ~ In k (map fst (shape s)).
Proof. rewrite <- shape_keys. apply assoc_None. Qed.
(** the state after the mount point has been registered *)
Lemma add_mount_eq p t s : assoc (anp s p) (f_mounts s) = None ->
  add_mount_point p t s = (isroot <- gets (fun s1 => str_eqb (anp s p) (o_name (ob s1 root_oid))) ;;
  rd <- (if isroot : bool then
           modify (fun s => set_ino s (S (f_ino s))) ;;;
           i <- gets f_ino ;;
           mod_obj root_oid (fun x => wo_ino x (Some i)) ;;; ret root_oid
         else create_dir (anp s p) PERM_DEF) ;;
  dev2 <- gets f_dev ;;
  mod_obj rd (fun x => wo_dev x (Some dev2)) ;;;
  ret (anp s p)) (register s p t).
Proof.
  intros E. unfold add_mount_point, add_mount_point_. unfold bind at 1. unfold gets at 1. unfold bind at 1. unfold gets at 1. rewrite E.
  unfold bind at 1. unfold modify at 1. unfold bind at 1. unfold gets at 1. unfold bind at 1. unfold modify at 1. reflexivity.
Qed.
Lemma add_mount_shape p t s : c_win (f_cfg s) = false ->
  (assoc (anp s p) (f_mounts s) <> None /\ add_mount_point p t s = (os_err EEXIST, s)) \/
  (assoc (anp s p) (f_mounts s) = None /\ RK (register s p t) (snd (add_mount_point p t s))).
Proof.
  intros Hw. destruct (assoc (anp s p) (f_mounts s)) as [m|] eqn:E.
  - left. split; [discriminate|]. unfold add_mount_point, add_mount_point_, bind, gets. rewrite E. reflexivity.
  - right. split; [reflexivity|]. rewrite (add_mount_eq p t s E).
    exact (gn_mounted _ _ _ (fp_core _ _ _ _ rk_prims) create_dir (gn_create_dir _ _ _ (fp_core _ _ _ _ rk_prims)) (anp s p) (anp s p) (register s p t)).
Qed.
Lemma mounts_step o s : c_win (f_cfg s) = false ->
  (shape (snd (step o s)) = shape s /\ f_dev (snd (step o s)) = f_dev s) \/
  exists p t, o = AddMount p t /\ assoc (anp s p) (f_mounts s) = None /\
    shape (snd (step o s)) = shape s ++ [(anp s p, S (f_dev s))] /\ f_dev (snd (step o s)) = S (f_dev s).
Proof.
  intros Hw. destruct o as [] eqn:Eo;
    try (left; refine (proj2 (gen_step _ _ _ (fp_core _ _ _ _ rk_prims) rk_prims o _ _ _ _ s) Hw); rewrite Eo in *; auto; discriminate).
  all: try (left; rewrite <- Eo; refine (proj2 (gen_step _ _ _ (fp_core _ _ _ _ rk_prims) rk_prims o _ _ _ _ s) Hw); rewrite Eo; auto; discriminate).
  - cbn [step]. rewrite outm_snd. destruct (add_mount_shape p total s Hw) as [[_ ->]|[Hn [_ K]]]; [left; split; reflexivity|].
    right. exists p, total. destruct (K Hw) as [K1 K2]. split; [reflexivity|]. split; [exact Hn|]. rewrite K1, K2.
    split; [|reflexivity]. unfold shape, register. cbn. rewrite map_app. reflexivity.
  - left. cbn [step]. rewrite outm_snd. unfold set_disk_usage. unfold bind at 1 3.
    assert (L : forall q s', s' = s -> let s2 := snd ((k <- mount_point_for_path q ;; m <- gets (fun s => assoc k (f_mounts s)) ;;
    match m with
    | None => raise KeyErr
    | Some m =>
      if match m_total m with Some _ => (total <? m_used m)%Z | None => false end
      then raise_os ENOSPC
      else modify (fun s => set_mounts s (set_assoc k (mkmount (m_idev m) (Some total) (m_used m)) (f_mounts s)))
    end) s') in shape s2 = shape s /\ f_dev s2 = f_dev s).
    { intros q s' -> s2. subst s2. unfold bind at 1 3. pose proof (gn_mount_path _ _ _ (fp_core _ _ _ _ rk_prims) q s) as [_ K1]. specialize (K1 Hw).
      destruct (mount_point_for_path q s) as [[k|e] s1]; [|exact K1]. cbn [snd] in K1. unfold bind, gets.
      destruct (assoc k (f_mounts s1)) as [m|] eqn:Em; [|exact K1].
      destruct (match m_total m with Some _ => _ | None => _ end); [exact K1|]. unfold modify. cbn [snd].
      destruct K1 as [K1 K2]. split; [|exact K2]. rewrite <- K1. apply (set_assoc_shape _ _ _ m Em); reflexivity. }
    destruct p as [q|]; apply L; reflexivity.
Qed.

(** ** The mount points of a Linux filesystem are at absolute paths *)
From Verif Require Import PathProofs PathProofs2 ResProofs ResProofs2 GraphInv GraphOps GraphOps2 GraphOps3 GraphOps4 GraphIo OpsThm.
Record keys_ok (s : fs) : Prop := {
  ky_names : forall k m, In (k, m) (f_mounts s) -> exists mn, Forall (ordinary (sepc s)) mn /\ k = abs_path (sepc s) mn;
  ky_root : exists m, In (abs_path (sepc s) [], m) (f_mounts s)
}.
Lemma keys_shape s : keys_ok s <-> (forall k d, In (k, d) (shape s) -> exists mn, Forall (ordinary (sepc s)) mn /\ k = abs_path (sepc s) mn) /\
  exists d, In (abs_path (sepc s) [], d) (shape s).
Proof.
  split.
  - intros [H (m & K)]. split; [|exists (m_idev m); apply shape_in; eauto].
    intros k d L. apply shape_in in L. destruct L as (m0 & L & _). apply (H k m0 L).
  - intros [H (d & K)]. split.
    + intros k m L. apply (H k (m_idev m)), shape_in. eauto.
    + apply shape_in in K. destruct K as (m & K & _). eauto.
Qed.
Theorem keys_reachable c s : linux_like c -> reachable c s -> keys_ok s.
Proof.
  intros Hl (t & um & uid & gid & now & ops & ->).
  assert (K : keys_ok (init c t um uid gid now)).
  { split; cbn; [|exists (mkmount 1 t 0); left; reflexivity]. intros k m [E|[]]. injection E as <- <-. exists []. split; [constructor|reflexivity]. }
  assert (G : Ginv (init c t um uid gid now)) by (apply Ginv_init, Hl).
  revert K G. generalize (init c t um uid gid now). induction ops as [|o ops IH]; intros s K G; [exact K|]. cbn [run].
  assert (G' := step_pres o s G). apply IH; [|exact G'].
  apply keys_shape in K. destruct K as [K1 K2]. apply keys_shape.
  assert (Es : sepc (snd (step o s)) = sepc s) by (unfold sepc; rewrite call_cfg; reflexivity). rewrite Es.
  destruct (mounts_step o s (Ginv_win s G)) as [[E _]|(p & z & _ & _ & E & _)]; rewrite E; [auto|]. split.
  - intros k d L. apply in_app_iff in L. destruct L as [L|[L|[]]]; [apply (K1 k d L)|]. injection L as <- <-.
    apply anp_names, (Ginv_good s G).
  - destruct K2 as (d & K2). exists d. apply in_app_iff. left. exact K2.
Qed.

(** ** The mount point of a path *)
Lemma longest_fold path ms : forall best, (best = [] \/ starts_with best path = true) ->
  let r := fold_left (fun best kv => let k := @fst str mount kv in
    if negb (starts_with [] k) then best
    else if starts_with k path && Nat.ltb (length best) (length k) then k else best) ms best in
  (r = best \/ (In r (map fst ms) /\ starts_with r path = true)) /\ length best <= length r /\
  (forall k, In k (map fst ms) -> starts_with k path = true -> length k <= length r).
Proof.
  induction ms as [|[k m] ms IH]; intros best Hb; cbn [fold_left map In fst].
  - split; [left; reflexivity|]. split; [lia|]. intros k [].
  - change (starts_with [] k) with true. cbn [negb]. destruct (starts_with k path && Nat.ltb (length best) (length k)) eqn:E.
    + apply andb_true_iff in E. destruct E as [E1 E2]. apply Nat.ltb_lt in E2. specialize (IH k (or_intror E1)). cbv zeta in IH.
      destruct IH as (I1 & I2 & I3). split; [|split; [lia|]].
      * right. destruct I1 as [->|[I1 I1']]; auto.
      * intros k0 [<-|L] Hk; [exact I2|]. apply (I3 k0 L Hk).
    + specialize (IH best Hb). cbv zeta in IH. destruct IH as (I1 & I2 & I3). split; [|split; [exact I2|]].
      * destruct I1 as [I1|[I1 I1']]; auto.
      * intros k0 [<-|L] Hk; [|apply (I3 k0 L Hk)]. rewrite Hk in E. cbn in E. apply Nat.ltb_ge in E. lia.
Qed.
Lemma join_app_len sp (a b : list str) : length (join_with [sp] a) <= length (join_with [sp] (a ++ b)).
Proof.
  induction a as [|x a IH]; [cbn; lia|]. destruct a as [|y a].
  - cbn [app]. destruct b as [|z b]; [cbn; lia|]. change (join_with [sp] (x :: z :: b)) with (x ++ [sp] ++ join_with [sp] (z :: b)).
    cbn [join_with]. rewrite !app_length. lia.
  - change (join_with [sp] (x :: y :: a)) with (x ++ [sp] ++ join_with [sp] (y :: a)).
    change (join_with [sp] ((x :: y :: a) ++ b)) with (x ++ [sp] ++ join_with [sp] ((y :: a) ++ b)). rewrite !app_length. lia.
Qed.
Lemma abs_path_longer sp (a b : list str) : Forall (ordinary sp) (a ++ b) -> b <> [] -> length (abs_path sp a) < length (abs_path sp (a ++ b)).
Proof.
  intros Ho Hb. unfold abs_path. cbn [length]. destruct b as [|z b]; [contradiction|]. apply le_n_S.
  assert (Hz : z <> []). { apply Forall_app in Ho. destruct Ho as [_ Ho]. inversion Ho as [|? ? H _]; subst. apply H. }
  assert (Hz1 : 1 <= length z) by (destruct z; [contradiction|cbn; lia]).
  clear Hb Ho. induction a as [|x a IH].
  - cbn [app]. pose proof (join_app_len sp [z] b) as K. cbn [app] in K. cbn [join_with length] in K |- *. lia.
  - destruct a as [|y a].
    + cbn [app]. change (join_with [sp] (x :: z :: b)) with (x ++ [sp] ++ join_with [sp] (z :: b)). rewrite !app_length. cbn [join_with length]. lia.
    + change (join_with [sp] (x :: y :: a)) with (x ++ [sp] ++ join_with [sp] (y :: a)).
      change (join_with [sp] ((x :: y :: a) ++ z :: b)) with (x ++ [sp] ++ join_with [sp] ((y :: a) ++ z :: b)). rewrite !app_length. lia.
Qed.
Lemma join_prefix sp (a b : list str) : starts_with (join_with [sp] a) (join_with [sp] (a ++ b)) = true.
Proof.
  apply starts_with_spec. induction a as [|x a IH]; [cbn; eauto|]. destruct a as [|y a].
  - cbn [app]. destruct b as [|z b]; [exists []; cbn; rewrite app_nil_r; reflexivity|].
    change (join_with [sp] (x :: z :: b)) with (x ++ [sp] ++ join_with [sp] (z :: b)). cbn [join_with]. eauto.
  - destruct IH as (t & E). exists t. change (join_with [sp] (x :: y :: a)) with (x ++ [sp] ++ join_with [sp] (y :: a)).
    change (join_with [sp] ((x :: y :: a) ++ b)) with (x ++ [sp] ++ join_with [sp] ((y :: a) ++ b)). rewrite E, <- !app_assoc. reflexivity.
Qed.
Lemma abs_prefix sp (a b : list str) : starts_with (abs_path sp a) (abs_path sp (a ++ b)) = true.
Proof.
  apply starts_with_spec. destruct (proj1 (starts_with_spec _ _) (join_prefix sp a b)) as (t & E). exists t. unfold abs_path. rewrite E. reflexivity.
Qed.
Lemma mount_found s p names : Ginv s -> keys_ok s -> p <> [] -> names_of s p names ->
  exists k m, mount_point_for_path p s = (Ok k, s) /\ assoc k (f_mounts s) = Some m /\
    (k = abs_path (sepc s) names \/
     (assoc (abs_path (sepc s) names) (f_mounts s) = None /\ starts_with k (abs_path (sepc s) names) = true)) /\
    (forall k' m', In (k', m') (f_mounts s) -> starts_with k' (abs_path (sepc s) names) = true -> length k' <= length k).
Proof.
  intros H [K1 (mr & Kr)] Hp Hn. destruct (names_of_anp s p names (Ginv_good s H) Hp Hn) as [Ho Ea].
  pose proof (gi_lin s H) as Hl. set (path := abs_path (sepc s) names) in *.
  assert (Ek : exists k m, mount_point_for_path p s = (Ok k, s) /\ assoc k (f_mounts s) = Some m /\
    (k = path \/ (assoc path (f_mounts s) = None /\ starts_with k path = true)) /\
    (k <> path -> forall k' m', In (k', m') (f_mounts s) -> starts_with k' path = true -> length k' <= length k)).
  { unfold mount_point_for_path, mount_point_for_path_, bind, gets, ret.
    unfold original_path. rewrite (ll_cs _ Hl). cbn [orb]. rewrite Ea. fold path.
    destruct (assoc path (f_mounts s)) as [m|] eqn:Em.
    - exists path, m. split; [reflexivity|]. split; [exact Em|]. split; [left; reflexivity|]. intros N; contradiction.
    - rewrite (splitdrive_posix _ (linux_like_posix _ Hl)). cbn [fst]. unfold longest_mount.
      destruct (longest_fold path (f_mounts s) [] (or_introl eq_refl)) as (I1 & I2 & I3). cbv zeta in *.
      set (r := fold_left _ _ _) in *.
      assert (Hr : 1 <= length r).
      { apply (I3 (abs_path (sepc s) []) (in_map fst _ _ Kr)). apply (abs_prefix (sepc s) [] names). }
      destruct I1 as [->|[I1 I1']]; [cbn in Hr; lia|]. apply in_map_iff in I1. destruct I1 as ([k0 m0] & E & I1). cbn in E.
      assert (Es : exists m1, assoc r (f_mounts s) = Some m1).
      { destruct (assoc r (f_mounts s)) eqn:E1; [eauto|]. apply assoc_None in E1. contradiction E1. apply in_map_iff. exists (k0, m0). auto. }
      destruct Es as (m1 & Es). exists r, m1. destruct r as [|a r']; [cbn in Hr; lia|]. cbn [nonempty]. split; [reflexivity|]. split; [exact Es|].
      split; [right; split; [reflexivity|exact I1']|]. intros _ k' m' Hin Hs. apply I3; [|exact Hs]. apply in_map_iff. exists (k', m'). auto. }
  destruct Ek as (k & m & E1 & E2 & E3 & E4). exists k, m. split; [exact E1|]. split; [exact E2|]. split; [exact E3|].
  intros k' m' Hin Hs. destruct (str_eqb_spec k path) as [->|N]; [|apply (E4 N k' m' Hin Hs)].
  apply starts_with_spec in Hs. destruct Hs as (t & ->). rewrite app_length. lia.
Qed.
