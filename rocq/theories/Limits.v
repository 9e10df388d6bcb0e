(** * C34: used space stays within the size of every mount point. *)
From Coq Require Import RelationClasses Morphisms.
From Verif Require Import Str PathModel FsModel FsSpec OpsModel IoModel SysModel Wp Frame IoFrame Gen.

Definition RL (s s' : fs) : Prop := within_limits s -> within_limits s'.
Global Instance RL_pre : PreOrder RL.
Proof. split; [intros s H; exact H|]. intros a b c H K L. auto. Qed.
Lemma rl_mounts f : (forall s, f_mounts (f s) = f_mounts s) -> keeps RL (modify f).
Proof. intros H s K. unfold modify, within_limits in *. cbn [snd]. rewrite H. exact K. Qed.
Lemma rl_mod_obj o f : keeps RL (mod_obj o f).
Proof. apply rl_mounts. reflexivity. Qed.
Lemma rl_alloc n m b : keeps RL (alloc n m b).
Proof. intros s K. exact K. Qed.
Lemma add_used_in ms dev z k m : In (k, m) (add_used ms dev z) ->
  In (k, m) ms \/ exists m0, In (k, m0) ms /\ mount_for_dev ms dev = Some m0 /\ m = mkmount (m_idev m0) (m_total m0) (m_used m0 + z).
Proof.
  induction ms as [|[k1 m1] ms IH]; cbn [add_used mount_for_dev In]; [intros []|]. destruct (opt_nat_eqb (Some (m_idev m1)) dev) eqn:E.
  - cbn [In]. intros [K|K]; [|left; right; exact K]. injection K as <- <-. right. exists m1. auto.
  - cbn [In]. intros [K|K]; [left; left; exact K|]. destruct (IH K) as [K1|(m0 & H1 & H2 & H3)]; [left; right; exact K1|]. right. exists m0. auto.
Qed.
Lemma rl_cdu z d : keeps RL (change_disk_usage z d).
Proof.
  intros s H. unfold change_disk_usage. destruct (mount_for_dev (f_mounts s) d) as [m|] eqn:E; [|exact H].
  assert (K : forall k m' t, In (k, m') (add_used (f_mounts s) d z) -> m_total m' = Some t ->
            (m_used m' <= t)%Z \/ (m_total m = Some t /\ m_used m' = m_used m + z)%Z).
  { intros k m' t Hin Ht. destruct (add_used_in _ _ _ _ _ Hin) as [K|(m0 & K1 & K2 & ->)]; [left; exact (H k m' t K Ht)|].
    right. cbn in *. split; congruence. }
  destruct (m_total m) as [t|] eqn:Et.
  - destruct (Z.ltb_spec (t - m_used m) z) as [Hlt|Hge]; cbn [snd]; [exact H|].
    intros k m' t' Hin Ht'. cbn in Hin. destruct (K k m' t' Hin Ht') as [K1|[K1 K2]]; [exact K1|]. injection K1 as <-. lia.
  - intros k m' t' Hin Ht'. cbn in Hin. destruct (K k m' t' Hin Ht') as [K1|[K1 K2]]; [exact K1|]. discriminate K1.
Qed.
Ltac rl := kr; try first [apply rl_cdu|apply rl_mod_obj|apply rl_alloc|apply rl_mounts; reflexivity].
Lemma rl_rm_loop rm : (forall n, keeps RL (rm n)) -> forall k e, keeps RL (rm_loop rm k e).
Proof. intros H. induction k as [|k IH]; intros e; cbn [rm_loop]; rl; [apply H|apply IH]. Qed.
Lemma rl_remove_entry_n fuel : forall d n r, keeps RL (remove_entry_n fuel d n r).
Proof.
  induction fuel as [|f IH]; intros d n r; cbn [remove_entry_n]; unfold unlink_obj; rl.
  apply rl_rm_loop. intros m. apply IH.
Qed.
Lemma rl_prims : fs_prims RL (fun t => match t with Some z => (0 <= z)%Z | None => True end) True True.
Proof.
  split; [split|..].
  - intros n m. apply rl_alloc.
  - intros n m. apply rl_alloc.
  - intros d o. unfold add_entry, link_obj. rl.
  - intros d n r s. apply (rl_remove_entry_n (S (f_next s)) d n r s).
  - intros _ o n. unfold set_size. rl.
  - intros o c. unfold set_initial_contents, set_size. rl.
  - intros _ o n. unfold set_large_file_size, set_size. rl.
  - intros o n. apply rl_mod_obj.
  - intros o n. apply rl_mod_obj.
  - apply (register_from _ _ _); [exact I| |].
    + intros p d t Ht s K k m z Hin Hz. unfold modify in Hin. cbn in Hin. apply in_app_iff in Hin.
      destruct Hin as [Hin|[E|[]]]; [exact (K k m z Hin Hz)|]. injection E as <- <-. cbn in *. subst t. exact Ht.
    + apply rl_mounts. reflexivity.
  - apply rl_mounts. reflexivity.
  - intros i. apply rl_mod_obj.
  - intros o. any_dev. apply rl_mod_obj.
  - intros o c m t. apply rl_mod_obj.
  - intros o f _. apply rl_mod_obj.
  - intros s s' H K. rewrite H. exact K.
  - intros s s' H K. rewrite H. exact K.
  - intros o f _. apply rl_mod_obj.
  - intros o k v. apply rl_mod_obj.
  - intros o k. apply rl_mod_obj.
Qed.
(** set_disk_usage on a mount point that has a size already *)
Lemma set_assoc_in {A} k (v : A) l k' v' : In (k', v') (set_assoc k v l) -> In (k', v') l \/ (k' = k /\ v' = v).
Proof.
  induction l as [|[k1 v1] l IH]; cbn; [intros [E|[]]; injection E; auto|].
  destruct (str_eqb_spec k k1) as [->|]; cbn; intros [E|K]; try (injection E as <- <-); auto. destruct (IH K); auto.
Qed.
Definition sized (s : fs) (k : str) : Prop := forall m, assoc k (f_mounts s) = Some m -> m_total m <> None.
Lemma rl_set_usage t p s : within_limits s ->
  (forall k s1, mount_point_for_path p s = (Ok k, s1) -> sized s1 k) ->
  within_limits (snd (set_disk_usage t (Some p) s)).
Proof.
  intros W Hs. unfold set_disk_usage, ret, bind at 1. unfold bind at 1.
  destruct (mount_point_for_path p s) as [[k|e] s1] eqn:E.
  - assert (W1 : within_limits s1).
    { pose proof (gn_mount_path _ _ _ (fp_core _ _ _ _ rl_prims) p s W) as K. rewrite E in K. exact K. }
    unfold bind, gets. destruct (assoc k (f_mounts s1)) as [m|] eqn:Em; [|exact W1].
    specialize (Hs k s1 eq_refl m Em). destruct (m_total m) as [z|]; [|contradiction].
    destruct (Z.ltb_spec t (m_used m)) as [Hlt|Hge]; [exact W1|]. unfold modify. cbn [snd].
    intros k' m' t' Hin Ht'. cbn in Hin. destruct (set_assoc_in _ _ _ _ _ Hin) as [K|[-> ->]]; [exact (W1 k' m' t' K Ht')|].
    cbn in Ht'. injection Ht' as <-. exact Hge.
  - pose proof (gn_mount_path _ _ _ (fp_core _ _ _ _ rl_prims) p s W) as K. rewrite E in K. exact K.
Qed.
