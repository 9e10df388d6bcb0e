(** * C35: the used space of the mount points against the sizes of the files. *)
From Coq Require Import RelationClasses Morphisms.
From Verif Require Import Str PathModel PathSpec FsModel FsSpec OpsModel IoModel SysModel UsageSpec Wp Frame IoFrame Gen.
From Verif Require Import ResProofs GraphInv GraphOps GraphOps2 GraphOps3 GraphOps4 GraphRename GraphIo MountThm Limits.
Open Scope Z_scope.

(** ** Sums *)
Lemma sumz_ext n f g : (forall x, (x < n)%nat -> f x = g x) -> sumz n f = sumz n g.
Proof. induction n as [|n IH]; intros H; [reflexivity|]. cbn. rewrite IH, H by auto. reflexivity. Qed.
Lemma sumz_change n f g o : (o < n)%nat -> (forall x, (x < n)%nat -> x <> o -> g x = f x) -> sumz n g = sumz n f + (g o - f o).
Proof.
  induction n as [|n IH]; intros Ho H; [lia|]. cbn. destruct (Nat.eq_dec o n) as [->|N].
  - rewrite (sumz_ext n g f); [lia|]. intros x Hx. apply H; lia.
  - rewrite IH by (auto; lia). rewrite (H n) by lia. lia.
Qed.
Lemma sumz_zero n : sumz n (fun _ => 0) = 0.
Proof. induction n as [|n IH]; cbn; [reflexivity|]. rewrite IH. reflexivity. Qed.
(** ** The size of the files of a device *)
(** [off]: by how much a mount point reports too much *)
Record usage (off : nat -> Z) (s : fs) : Prop := {
  us_bal : forall k m, In (k, m) (f_mounts s) -> m_used m = file_sizes s (m_idev m) + off (m_idev m);
  us_pos : forall o, 0 <= o_size (ob s o);
  us_devs : devs_ok s;
  us_fresh : forall o, (f_next s <= o)%nat -> is_dirobj s o = false /\ o_nlink (ob s o) <= 0;
  us_win : c_win (f_cfg s) = false;
  us_nodev : forall o, (f_next s <= o)%nat -> o_dev (ob s o) = None
}.
Notation exact_usage := (usage (fun _ => 0)).
Lemma usage_ext f g s : (forall d, f d = g d) -> usage f s -> usage g s.
Proof. intros E [H1 H2 H3 H4 H5 H6]. split; [|exact H2|exact H3|exact H4|exact H5|exact H6]. intros k m Hin. rewrite <- E. apply (H1 k m Hin). Qed.

Definition delta (dev : option nat) (z : Z) (d : nat) : Z := if opt_nat_eqb (Some d) dev then z else 0.
Lemma opt_nat_sym a b : opt_nat_eqb (Some a) (Some b) = opt_nat_eqb (Some b) (Some a).
Proof. apply Nat.eqb_sym. Qed.
Lemma mount_none ms dev : mount_for_dev ms dev = None -> forall k m, In (k, m) ms -> opt_nat_eqb (Some (m_idev m)) dev = false.
Proof.
  induction ms as [|[k m] ms IH]; [intros _ k m []|]. cbn [mount_for_dev]. destruct (opt_nat_eqb (Some (m_idev m)) dev) eqn:E; [discriminate|].
  intros H k0 m0 [K|K]; [injection K as <- <-; exact E|]. apply (IH H k0 m0 K).
Qed.
Lemma opt_nat_eqb_eq a b : opt_nat_eqb (Some a) b = true -> b = Some a.
Proof. destruct b as [b|]; cbn; [intros E; apply Nat.eqb_eq in E; congruence|discriminate]. Qed.
Lemma add_used_all ms dev z : NoDup (map (fun e : str * mount => m_idev (snd e)) ms) ->
  forall k m, In (k, m) (add_used ms dev z) ->
  exists m0, In (k, m0) ms /\ m_idev m0 = m_idev m /\ m_used m = m_used m0 + delta dev z (m_idev m).
Proof.
  unfold delta. induction ms as [|[k1 m1] ms IH]; cbn [add_used map snd In]; [intros _ k m []|]. intros Hn k m Hin. inversion Hn as [|? ? Hx Hl]; subst.
  destruct (opt_nat_eqb (Some (m_idev m1)) dev) eqn:E.
  - destruct Hin as [K|K].
    + injection K as <- <-. exists m1. cbn [m_idev m_used]. rewrite E. auto.
    + exists m. split; [auto|]. split; [reflexivity|]. destruct (opt_nat_eqb (Some (m_idev m)) dev) eqn:E2; [|lia].
      exfalso. apply Hx. apply opt_nat_eqb_eq in E, E2. assert (m_idev m1 = m_idev m) by congruence. rewrite H. apply in_map_iff. exists (k, m). auto.
  - destruct Hin as [K|K].
    + injection K as <- <-. exists m1. rewrite E. split; [auto|]. split; [reflexivity|lia].
    + destruct (IH Hl k m K) as (m0 & A & B). exists m0. auto.
Qed.
Lemma wp_cdu_usage off z dev s : usage off s ->
  wp (change_disk_usage z dev) s (fun r s' => s' = set_mounts s (f_mounts s') /\
    ((r = Ok tt /\ usage (fun d => off d + delta dev z d) s') \/ (r = os_err ENOSPC /\ s' = s))).
Proof.
  intros [H1 H2 H3 H4 H5 H6]. unfold wp, change_disk_usage.
  assert (Es : s = set_mounts s (f_mounts s)) by (destruct s; reflexivity).
  destruct (mount_for_dev (f_mounts s) dev) as [m|] eqn:Em; cbn [fst snd].
  2:{ split; [exact Es|]. left. split; [reflexivity|]. split; auto. intros k m Hin. unfold delta. rewrite (mount_none _ _ Em k m Hin).
      rewrite Z.add_0_r. apply (H1 k m Hin). }
  assert (K : usage (fun d => off d + delta dev z d) (set_mounts s (add_used (f_mounts s) dev z))).
  { split.
    - intros k m' Hin. destruct (add_used_all _ _ _ (dv_devs s H3) k m' Hin) as (m0 & A & B & C).
      rewrite C, (H1 k m0 A), B. change (file_sizes (set_mounts s _) (m_idev m')) with (file_sizes s (m_idev m')). cbv beta. lia.
    - exact H2.
    - pose proof (rd_cdu z dev s H3) as K. unfold change_disk_usage in K. rewrite Em in K.
      apply (devs_shape s); [apply add_used_shape|reflexivity| |exact H3]. intros o d E. right. exists o. exact E.
    - exact H4.
    - exact H5.
    - exact H6. }
  destruct (m_total m) as [t|]; [destruct (_ <? _)|]; cbn [fst snd]; (split; [first [exact Es|reflexivity]|]); auto.
Qed.
(** one object changes *)
Lemma usage_one off s s' o : usage off s -> f_mounts s' = f_mounts s -> f_next s' = f_next s -> f_dev s' = f_dev s -> f_cfg s' = f_cfg s ->
  (forall d x, x <> o -> weight s' d x = weight s d x) -> (forall x, 0 <= o_size (ob s' x)) ->
  (forall x d, o_dev (ob s' x) = Some d -> exists y, o_dev (ob s y) = Some d) ->
  (forall x, (f_next s <= x)%nat -> is_dirobj s' x = false /\ o_nlink (ob s' x) <= 0) ->
  (forall x, (f_next s <= x)%nat -> o_dev (ob s' x) = None) ->
  usage (fun d => off d - (weight s' d o - weight s d o)) s'.
Proof.
  intros [H1 H2 H3 H4 H5 H6] E1 E2 E3 E4 Hw Hp Hd Hf Hv. split.
  - intros k m Hin. rewrite E1 in Hin. rewrite (H1 k m Hin). unfold file_sizes. rewrite E2. destruct (le_lt_dec (f_next s) o) as [Hle|Hlt].
    + rewrite (sumz_ext _ (weight s' (m_idev m)) (weight s (m_idev m))) by (intros x Hx; apply Hw; lia).
      assert (E : weight s' (m_idev m) o = 0).
      { unfold weight. destruct (Hf o Hle) as [-> B]. destruct (Z.ltb_spec 0 (o_nlink (ob s' o))); [lia|reflexivity]. }
      assert (E' : weight s (m_idev m) o = 0).
      { unfold weight. destruct (H4 o Hle) as [-> B]. destruct (Z.ltb_spec 0 (o_nlink (ob s o))); [lia|reflexivity]. }
      rewrite E, E'. lia.
    + rewrite (sumz_change _ (weight s (m_idev m)) (weight s' (m_idev m)) o Hlt) by (intros x _ N; apply Hw, N). lia.
  - exact Hp.
  - apply (devs_shape s); [unfold shape; rewrite E1; reflexivity|exact E3| |exact H3]. intros x d E. right. apply (Hd x d E).
  - intros x. rewrite E2. apply Hf.
  - rewrite E4. exact H5.
  - rewrite E2. exact Hv.
Qed.
Lemma dir_mod s o f x : is_dirobj (mod_ob s o f) x = if Nat.eqb x o then match o_body (f (ob s o)) with BDir _ => true | _ => false end else is_dirobj s x.
Proof. unfold is_dirobj. rewrite ob_mod. destruct (Nat.eqb x o); reflexivity. Qed.
Lemma usage_mod off s o f : usage off s -> 0 <= o_size (f (ob s o)) -> o_dev (f (ob s o)) = o_dev (ob s o) ->
  ((f_next s <= o)%nat -> is_dirobj (mod_ob s o f) o = false /\ o_nlink (f (ob s o)) <= 0) ->
  usage (fun d => off d - (weight (mod_ob s o f) d o - weight s d o)) (mod_ob s o f).
Proof.
  intros H Hp Hd Hf. apply usage_one; try reflexivity; [exact H| | | | |].
  - intros d x N. unfold weight. rewrite dir_mod, ob_mod. apply Nat.eqb_neq in N. rewrite N. reflexivity.
  - intros x. rewrite ob_mod. destruct (Nat.eqb x o); [exact Hp|apply (us_pos _ _ H)].
  - intros x d. rewrite ob_mod. destruct (Nat.eqb x o) eqn:E; [|eauto]. rewrite Hd. eauto.
  - intros x Hx. destruct (Nat.eq_dec x o) as [->|N].
    + rewrite ob_mod, Nat.eqb_refl. apply Hf, Hx.
    + rewrite dir_mod, ob_mod. apply Nat.eqb_neq in N. rewrite N. apply (us_fresh _ _ H x Hx).
  - intros x Hx. rewrite ob_mod. destruct (Nat.eqb x o) eqn:E; [|apply (us_nodev _ _ H x Hx)]. apply Nat.eqb_eq in E. subst x. rewrite Hd. apply (us_nodev _ _ H o Hx).
Qed.
(** a change that is not seen *)
Definition quiet (f : fobj -> fobj) : Prop := forall x, o_size (f x) = o_size x /\ o_dev (f x) = o_dev x /\ o_nlink (f x) = o_nlink x /\ o_epoch (f x) = o_epoch x /\
  match o_body (f x), o_body x with BDir _, BDir _ | BFile _, BFile _ => True | _, _ => False end.
Lemma quiet_weight s o f d x : quiet f -> weight (mod_ob s o f) d x = weight s d x.
Proof.
  intros Q. unfold weight, is_dirobj. rewrite !ob_mod. destruct (Nat.eqb x o) eqn:E; [|reflexivity]. apply Nat.eqb_eq in E. subst x.
  destruct (Q (ob s o)) as (-> & -> & -> & _ & B). destruct (o_body (f (ob s o))), (o_body (ob s o)); try contradiction; reflexivity.
Qed.
Lemma usage_quiet off s o f : quiet f -> usage off s -> usage off (mod_ob s o f).
Proof.
  intros Q H. pose proof (Q (ob s o)) as (Q1 & Q2 & Q3 & _ & Q4). apply (usage_ext (fun d => off d - (weight (mod_ob s o f) d o - weight s d o))).
  - intros d. rewrite quiet_weight by exact Q. lia.
  - apply usage_mod; [exact H|rewrite Q1; apply (us_pos _ _ H)|exact Q2|]. intros Hle. rewrite Q3. destruct (us_fresh _ _ H o Hle) as [A B].
    split; [|exact B]. unfold is_dirobj in *. rewrite ob_mod, Nat.eqb_refl. destruct (o_body (f (ob s o))), (o_body (ob s o)); try contradiction; auto.
Qed.
Ltac quiet := let x := fresh in let bb := fresh in intros x; destruct x as [? ? ? ? ? ? ? ? bb ? ? ? ? ? ?]; cbn; destruct bb; auto 10.
Lemma usage_same off s s' : f_mounts s' = f_mounts s -> f_next s' = f_next s -> f_heap s' = f_heap s -> f_dev s' = f_dev s -> f_cfg s' = f_cfg s ->
  usage off s -> usage off s'.
Proof.
  intros E1 E2 E3 E4 E5 [H1 H2 [D1 D2 D3 D4] H4 H5 H6]. 
  assert (Eo : forall x, ob s' x = ob s x) by (intros x; unfold ob; rewrite E3; reflexivity).
  assert (Ew : forall d x, weight s' d x = weight s d x) by (intros d x; unfold weight, is_dirobj; rewrite Eo; reflexivity).
  split.
  - rewrite E1. intros k m Hin. rewrite (H1 k m Hin). unfold file_sizes. rewrite E2. f_equal. apply sumz_ext. intros x _. symmetry. apply Ew.
  - intros o. rewrite Eo. apply H2.
  - split; rewrite ?E1, ?E4; [exact D1|exact D2|exact D3|]. intros o d. rewrite Eo. apply D4.
  - intros o. rewrite E2. unfold is_dirobj. rewrite Eo. apply H4.
  - rewrite E5. exact H5.
  - intros o. rewrite E2, Eo. apply H6.
Qed.
(** the links of an object: a directory is not counted; a file is counted while it has links *)
Lemma usage_nlink off s o z : usage off s -> ((f_next s <= o)%nat -> z <= 0) ->
  usage (fun d => off d - (if is_dirobj s o then 0 else (if 0 <? z then delta (o_dev (ob s o)) (o_size (ob s o)) d else 0)
     - (if 0 <? o_nlink (ob s o) then delta (o_dev (ob s o)) (o_size (ob s o)) d else 0))) (mod_ob s o (fun x => wo_nlink x z)).
Proof.
  intros H Hz. eapply usage_ext; [|apply (usage_mod off s o (fun x => wo_nlink x z))].
  - intros d. cbv beta. unfold weight. rewrite dir_mod, !ob_mod, !Nat.eqb_refl. unfold is_dirobj. cbn [wo_nlink o_body o_nlink o_dev o_size].
    destruct (o_body (ob s o)); [lia|]. unfold delta. destruct (0 <? z), (0 <? o_nlink (ob s o)), (opt_nat_eqb _ _); reflexivity.
  - exact H.
  - apply (us_pos _ _ H).
  - reflexivity.
  - intros Hle. destruct (us_fresh _ _ H o Hle) as [A B]. rewrite dir_mod, Nat.eqb_refl. cbn. unfold is_dirobj in A. auto.
Qed.

(** ** Exact usage is kept and the old files are not rewritten *)
Definition RP (N : nat) (s s' : fs) : Prop :=
  exact_usage s' /\ (f_next s <= f_next s')%nat /\ (forall o, (o < N)%nat -> o_epoch (ob s' o) = o_epoch (ob s o)) /\
  (forall o, (o < f_next s)%nat -> is_dirobj s' o = is_dirobj s o).
Definition REN (N : nat) (s s' : fs) : Prop := exact_usage s -> (N <= f_next s)%nat -> RP N s s'.
Global Instance REN_pre N : PreOrder (REN N).
Proof.
  split; [intros s H K; unfold RP; auto|]. intros a b c H1 H2 H K. destruct (H1 H K) as (A & B & C & D). destruct (H2 A ltac:(lia)) as (A' & B' & C' & D').
  split; [exact A'|]. split; [lia|]. split; intros o Ho; [rewrite C', C by exact Ho; reflexivity|]. rewrite D', D by lia. reflexivity.
Qed.
Section Ren.
Variable N : nat.
Notation R := (REN N).
Lemma rn_quiet o f : quiet f -> keeps R (mod_obj o f).
Proof.
  intros Q s H K. split; [apply usage_quiet; assumption|]. split; [reflexivity|]. change (snd (mod_obj o f s)) with (mod_ob s o f).
  split; intros x _; [|unfold is_dirobj]; rewrite ob_mod; destruct (Nat.eqb x o) eqn:E; try reflexivity; apply Nat.eqb_eq in E; subst x.
  - apply Q.
  - destruct (Q (ob s o)) as (_ & _ & _ & _ & B). destruct (o_body (f (ob s o))), (o_body (ob s o)); try contradiction; reflexivity.
Qed.
Lemma rn_same f : (forall s, f_mounts (f s) = f_mounts s /\ f_next (f s) = f_next s /\ f_heap (f s) = f_heap s /\ f_dev (f s) = f_dev s /\ f_cfg (f s) = f_cfg s) ->
  keeps R (modify f).
Proof.
  intros E s H _. destruct (E s) as (E1 & E2 & E3 & E4 & E5). split; [apply (usage_same _ s); assumption|]. cbn. rewrite E2. split; [reflexivity|].
  split; intros o _; unfold is_dirobj, ob; rewrite E3; reflexivity.
Qed.
Lemma rn_alloc n m b : (forall d, b <> BFile (Some d)) -> keeps R (alloc n m b).
Proof.
  intros Hb s H K. assert (Eo : forall x, ob (snd (alloc n m b s)) x = if Nat.eqb x (f_next s) then fresh_obj s n m b else ob s x).
  { intros x. unfold alloc. cbn. unfold ob. cbn. unfold upd. destruct (Nat.eqb x (f_next s)); reflexivity. }
  set (s' := snd (alloc n m b s)) in *. assert (En : f_next s' = S (f_next s)) by reflexivity. assert (Em : f_mounts s' = f_mounts s) by reflexivity.
  assert (Ed : f_dev s' = f_dev s) by reflexivity. assert (Ec : f_cfg s' = f_cfg s) by reflexivity. clearbody s'.
  assert (Ew : forall d x, (x < f_next s)%nat -> weight s' d x = weight s d x).
  { intros d x Hx. unfold weight, is_dirobj. rewrite Eo. assert (Nat.eqb x (f_next s) = false) as -> by (apply Nat.eqb_neq; lia). reflexivity. }
  assert (En' : forall d, weight s' d (f_next s) = 0).
  { intros d. unfold weight, is_dirobj. rewrite Eo, Nat.eqb_refl. cbn. destruct b; reflexivity. }
  split; [|split; [lia|]].
  2:{ split; intros o Ho; unfold is_dirobj; rewrite Eo; (assert (Nat.eqb o (f_next s) = false) as -> by (apply Nat.eqb_neq; lia)); reflexivity. }
  destruct H as [H1 H2 [D1 D2 D3 D4] H4 H5 H6]. split.
  - rewrite Em. intros k m0 Hin. rewrite (H1 k m0 Hin). unfold file_sizes. rewrite En. cbn [sumz]. rewrite En'.
    rewrite (sumz_ext _ (weight s' (m_idev m0)) (weight s (m_idev m0))) by (intros x Hx; apply Ew; lia). lia.
  - intros o. rewrite Eo. destruct (Nat.eqb o (f_next s)); [|apply H2]. cbn. destruct b as [|[d|]]; [lia|lia|lia].
  - split; rewrite ?Em, ?Ed; [exact D1|exact D2|exact D3|]. intros o d. rewrite Eo. destruct (Nat.eqb o (f_next s)); [discriminate|apply D4].
  - intros o. rewrite En. intros Ho. unfold is_dirobj. rewrite Eo. assert (Nat.eqb o (f_next s) = false) as -> by (apply Nat.eqb_neq; lia). apply H4. lia.
  - rewrite Ec. exact H5.
  - intros o. rewrite En. intros Ho. rewrite Eo. assert (Nat.eqb o (f_next s) = false) as -> by (apply Nat.eqb_neq; lia). apply H6. lia.
Qed.
(** only the links of a directory, or its entries, change *)
Lemma rn_dir_mod d f s : is_dirobj s d = true -> is_dirobj (mod_ob s d f) d = true -> o_size (f (ob s d)) = o_size (ob s d) ->
  o_dev (f (ob s d)) = o_dev (ob s d) -> o_epoch (f (ob s d)) = o_epoch (ob s d) -> R s (mod_ob s d f).
Proof.
  intros H1 H2 H3 H4 H5 H K. split; [|split; [reflexivity|]].
  - eapply usage_ext; [|apply (usage_mod _ s d f H)].
    + intros x. cbv beta. unfold weight. rewrite H1, H2. reflexivity.
    + rewrite H3. apply (us_pos _ _ H).
    + exact H4.
    + intros Hle. destruct (us_fresh _ _ H d Hle) as [A _]. congruence.
  - split; intros x _; [rewrite ob_mod|rewrite dir_mod]; destruct (Nat.eqb x d) eqn:E; try reflexivity; apply Nat.eqb_eq in E; subst x; [exact H5|].
    rewrite H1. rewrite dir_mod, Nat.eqb_refl in H2. exact H2.
Qed.
(** ** Removing an entry *)
Lemma wp_unlink_obj off s d e nm : is_dirobj s d = true -> usage off s ->
  (is_dirobj s e = false -> o_nlink (ob s e) = 1 -> forall x, off x = - delta (o_dev (ob s e)) (o_size (ob s e)) x) ->
  ((is_dirobj s e = true \/ o_nlink (ob s e) <> 1) -> forall x, off x = 0) ->
  wp (unlink_obj d e nm) s (fun r s' => exact_usage s' /\ f_next s' = f_next s /\ forall o, o_epoch (ob s' o) = o_epoch (ob s o) /\ is_dirobj s' o = is_dirobj s o).
Proof.
  intros Hd H Ho1 Ho2. unfold unlink_obj.
  set (s1 := mod_ob s d (fun x => wo_nlink x (o_nlink x - 1))).
  assert (Ob1 : forall x, ob s1 x = if Nat.eqb x d then wo_nlink (ob s d) (o_nlink (ob s d) - 1) else ob s x).
  { intros x. unfold s1. rewrite ob_mod. destruct (Nat.eqb x d) eqn:E; [|reflexivity]. apply Nat.eqb_eq in E. subst x. reflexivity. }
  assert (Dir1 : forall x, is_dirobj s1 x = is_dirobj s x).
  { intros x. unfold is_dirobj. rewrite Ob1. destruct (Nat.eqb x d) eqn:E; [|reflexivity]. apply Nat.eqb_eq in E. subst x. reflexivity. }
  assert (U1 : usage off s1).
  { eapply usage_ext; [|apply (usage_mod off s d (fun x => wo_nlink x (o_nlink x - 1)) H)].
    - intros x. cbv beta. fold s1. unfold weight. rewrite Dir1, Hd. lia.
    - apply (us_pos _ _ H).
    - reflexivity.
    - intros Hle. destruct (us_fresh _ _ H d Hle) as [A _]. congruence. }
  apply wp_bind. unfold wp at 1. change (mod_obj d (fun x => wo_nlink x (o_nlink x - 1)) s) with (Ok tt, s1). cbn [fst snd]. cbv beta iota.
  assert (N1 : f_next s1 = f_next s) by reflexivity.
  assert (Ep1 : forall o, o_epoch (ob s1 o) = o_epoch (ob s o)).
  { intros x. rewrite Ob1. destruct (Nat.eqb x d) eqn:E; [|reflexivity]. apply Nat.eqb_eq in E. subst x. reflexivity. }
  assert (D1 : o_dev (ob s1 e) = o_dev (ob s e) /\ o_size (ob s1 e) = o_size (ob s e)).
  { rewrite Ob1. destruct (Nat.eqb e d) eqn:E; [|auto]. apply Nat.eqb_eq in E. subst e. auto. }
  destruct D1 as [D1 D1'].
  assert (L1 : is_dirobj s e = false -> o_nlink (ob s1 e) = o_nlink (ob s e)).
  { intros F. rewrite Ob1. destruct (Nat.eqb e d) eqn:E; [|auto]. apply Nat.eqb_eq in E. subst e. congruence. }
  clearbody s1.
  set (s2 := mod_ob s1 e (fun x => wo_nlink x (o_nlink x - 1))).
  assert (Ob2 : forall x, ob s2 x = if Nat.eqb x e then wo_nlink (ob s1 e) (o_nlink (ob s1 e) - 1) else ob s1 x).
  { intros x. unfold s2. rewrite ob_mod. destruct (Nat.eqb x e) eqn:E; [|reflexivity]. apply Nat.eqb_eq in E. subst x. reflexivity. }
  assert (U2 : exact_usage s2).
  { eapply usage_ext; [|apply (usage_nlink off s1 e (o_nlink (ob s1 e) - 1) U1)].
    - intros x. cbv beta. rewrite Dir1, D1, D1'. destruct (is_dirobj s e) eqn:De.
      + rewrite Ho2 by auto. lia.
      + rewrite L1 by reflexivity. destruct (Z.eq_dec (o_nlink (ob s e)) 1) as [E|E].
        * rewrite (Ho1 eq_refl E). rewrite E. cbn. lia.
        * rewrite Ho2 by auto. destruct (Z.ltb_spec 0 (o_nlink (ob s e) - 1)), (Z.ltb_spec 0 (o_nlink (ob s e))); lia.
    - intros Hle. destruct (us_fresh _ _ U1 e Hle) as [_ B]. lia. }
  apply wp_bind. unfold wp at 1. change (mod_obj e (fun x => wo_nlink x (o_nlink x - 1)) s1) with (Ok tt, s2). cbn [fst snd]. cbv beta iota.
  assert (N2 : f_next s2 = f_next s1) by reflexivity.
  assert (Ep2 : forall o, o_epoch (ob s2 o) = o_epoch (ob s1 o)).
  { intros x. rewrite Ob2. destruct (Nat.eqb x e) eqn:E; [|reflexivity]. apply Nat.eqb_eq in E. subst x. reflexivity. }
  assert (Bd : is_dirobj s2 d = true).
  { unfold is_dirobj. rewrite Ob2. destruct (Nat.eqb d e) eqn:E; [apply Nat.eqb_eq in E; subst e; cbn|]; change (is_dirobj s1 d = true); rewrite Dir1; exact Hd. }
  assert (Dir2 : forall o, is_dirobj s2 o = is_dirobj s o).
  { intros x. rewrite <- Dir1. unfold is_dirobj. rewrite Ob2. destruct (Nat.eqb x e) eqn:E; [|reflexivity]. apply Nat.eqb_eq in E. subst x. reflexivity. }
  clearbody s2. wstep. destruct (_ <? 0).
  { wstep. split; [exact U2|]. split; [congruence|]. intros o. rewrite Ep2, Ep1, Dir2. auto. }
  unfold wp, mod_obj, modify. cbn [fst snd].
  set (f := fun x : fobj => match o_body x with BDir es => wo_body x (BDir (del_assoc nm es)) | BFile _ => x end).
  change (exact_usage (mod_ob s2 d f) /\ f_next s2 = f_next s /\ forall o, o_epoch (ob (mod_ob s2 d f) o) = o_epoch (ob s o) /\ is_dirobj (mod_ob s2 d f) o = is_dirobj s o).
  assert (F : o_size (f (ob s2 d)) = o_size (ob s2 d) /\ o_dev (f (ob s2 d)) = o_dev (ob s2 d) /\ o_epoch (f (ob s2 d)) = o_epoch (ob s2 d) /\ is_dirobj (mod_ob s2 d f) d = true).
  { unfold is_dirobj in Bd |- *. rewrite ob_mod, Nat.eqb_refl. unfold f. destruct (o_body (ob s2 d)); [auto|discriminate]. }
  destruct F as (F1 & F2 & F3 & F4). split; [|split; [congruence|]].
  - eapply usage_ext; [|apply (usage_mod _ s2 d f U2)].
    + intros x. cbv beta. unfold weight. rewrite F4, Bd. lia.
    + rewrite F1. apply (us_pos _ _ U2).
    + exact F2.
    + intros Hle. destruct (us_fresh _ _ U2 d Hle) as [A _]. congruence.
  - intros x. rewrite ob_mod, <- Ep1, <- Ep2. destruct (Nat.eqb x d) eqn:E.
    + apply Nat.eqb_eq in E. subst x. rewrite F4, Hd. auto.
    + rewrite dir_mod, E, Dir2. auto.
Qed.
Lemma rn_rm_loop rm e : (forall n, keeps R (rm n)) -> forall k, keeps R (rm_loop rm k e).
Proof. intros H. induction k as [|k IH]; cbn [rm_loop]; kr; auto. Qed.
Lemma file_size off s e n : usage off s -> is_dirobj s e = false -> obj_size n s e = o_size (ob s e).
Proof.
  intros H D. unfold is_dirobj in D. destruct n; cbn; destruct (o_body (ob s e)); try discriminate; unfold st_size; rewrite (us_win _ _ H); reflexivity.
Qed.
Lemma get_entry_dir s d n e : get_entry s d n = Ok e -> is_dirobj s d = true.
Proof. unfold get_entry, is_dirobj. destruct (o_body (ob s d)); [reflexivity|discriminate]. Qed.
Lemma get_entry_at s d n e : get_entry s d n = Ok e -> exists q, entry s d q = Some e.
Proof.
  unfold get_entry, entry, ents. destruct (o_body (ob s d)) as [es|]; [|discriminate]. destruct (assoc _ es) as [o|] eqn:E; [|discriminate].
  intros K. injection K as ->. eauto.
Qed.
(** non recursive removals of a directory: the directory has its entry "." too *)
Lemma rn_remove_entry_n n : forall d name rec s, (rec = false -> forall m e, entry s d m = Some e -> is_dirobj s e = true -> o_nlink (ob s e) <> 1) ->
  R s (snd (remove_entry_n n d name rec s)).
Proof.
  induction n as [|n IH]; intros d name rec s Hrec; cbn [remove_entry_n]; [reflexivity|].
  intros H K. match goal with |- RP N s (snd (?m s)) => change (wp m s (fun _ s' => RP N s s')) end.
  assert (H0 : RP N s s) by (unfold RP; auto).
  wstep. wstep. destruct (get_entry s d _) as [e|er] eqn:Ege; [|exact H0]. assert (Hd := get_entry_dir _ _ _ _ Ege).
  wstep. wstep. match goal with |- wp (if ?b then _ else _) _ _ => destruct b end; [wstep; exact H0|].
  wstep. destruct (rec && is_dirobj s e) eqn:Er.
  - apply wp_bind. wstep. eapply wp_conseq; [apply (wp_keeps R); apply rn_rm_loop; intros m t; apply IH; discriminate|].
    intros r s1 H1. destruct (H1 H K) as (A & B & C & D). destruct r as [[]|er]; [|split; auto]. apply andb_prop in Er. destruct Er as [_ De].
    assert (Hlt : forall x, is_dirobj s x = true -> (x < f_next s)%nat).
    { intros x Hx. destruct (le_lt_dec (f_next s) x) as [Hle|]; [|assumption]. destruct (us_fresh _ _ H x Hle). congruence. }
    assert (De1 : is_dirobj s1 e = true) by (rewrite D; auto).
    assert (Hd1 : is_dirobj s1 d = true) by (rewrite D; auto).
    eapply wp_conseq; [apply (wp_unlink_obj (fun _ => 0) s1 d e (normalized_entryname s d name) Hd1 A)|].
    + congruence.
    + reflexivity.
    + intros r s2 (W1 & W2 & W3). split; [exact W1|]. rewrite W2. split; [exact B|]. split; intros o Ho; destruct (W3 o) as [W4 W5]; [rewrite W4; auto|rewrite W5; auto].
  - apply wp_bind. wstep. destruct (Z.eqb (o_nlink (ob s e)) 1) eqn:El.
    + apply Z.eqb_eq in El. wstep. wstep.
      destruct (is_dirobj s e) eqn:De.
      { rewrite andb_true_r in Er. apply get_entry_at in Ege. destruct Ege as (q & Ege). contradiction (Hrec Er q e Ege De El). }
      eapply wp_conseq; [apply (wp_cdu_usage (fun _ => 0) _ _ s H)|]. intros r s1 [E1 [[-> U1]|[-> ->]]]; [|exact H0].
      assert (Eo : forall x, ob s1 x = ob s x) by (intros x; rewrite E1; reflexivity).
      assert (Ed : forall x, is_dirobj s1 x = is_dirobj s x) by (intros x; unfold is_dirobj; rewrite Eo; reflexivity).
      assert (En : f_next s1 = f_next s) by (rewrite E1; reflexivity).
      eapply wp_conseq; [eapply (wp_unlink_obj _ s1 d e _ ltac:(rewrite Ed; exact Hd) U1)|].
      * intros _ _ x. rewrite (file_size _ s e _ H De), Eo. unfold delta. destruct (opt_nat_eqb _ _); lia.
      * rewrite Ed, Eo. intros [F|F]; [congruence|contradiction].
      * intros r s2 (W1 & W2 & W3). split; [exact W1|]. rewrite W2, En. split; [reflexivity|]. split; intros o Ho; destruct (W3 o) as [W4 W5]; [rewrite W4, Eo|rewrite W5, Ed]; reflexivity.
    + apply Z.eqb_neq in El. wstep. eapply wp_conseq; [apply (wp_unlink_obj (fun _ => 0) s d e _ Hd H)|].
      * intros _ F. contradiction.
      * reflexivity.
      * intros r s2 (W1 & W2 & W3). split; [exact W1|]. rewrite W2. split; [reflexivity|]. split; intros o Ho; apply (W3 o).
Qed.
Lemma rn_remove_entry d name : keeps R (remove_entry d name true).
Proof. intros s. apply rn_remove_entry_n. discriminate. Qed.
(** ** Adding an entry *)
(** a directory is linked: only directories change *)
Record Dq (s s' : fs) : Prop := {
  dq_mounts : f_mounts s' = f_mounts s; dq_next : f_next s' = f_next s; dq_cfg : f_cfg s' = f_cfg s; dq_dev : f_dev s' = f_dev s;
  dq_dir : forall x, is_dirobj s' x = is_dirobj s x;
  dq_size : forall x, o_size (ob s' x) = o_size (ob s x);
  dq_epoch : forall x, o_epoch (ob s' x) = o_epoch (ob s x);
  dq_file : forall x, is_dirobj s x = false -> o_nlink (ob s' x) = o_nlink (ob s x) /\ o_dev (ob s' x) = o_dev (ob s x);
  dq_devs : forall x d, o_dev (ob s' x) = Some d -> exists y, o_dev (ob s y) = Some d;
  dq_nlink : forall x, o_nlink (ob s x) <= o_nlink (ob s' x)
}.
Lemma Dq_trans a b c : Dq a b -> Dq b c -> Dq a c.
Proof.
  intros [A1 A2 A3 A4 A5 A6 A7 A8 A9 A0] [B1 B2 B3 B4 B5 B6 B7 B8 B9 B0]. split; [congruence|congruence|congruence|congruence| | | | | |].
  - intros x. rewrite B5. apply A5.
  - intros x. rewrite B6. apply A6.
  - intros x. rewrite B7. apply A7.
  - intros x Hx. destruct (A8 x Hx) as [P1 P2]. destruct (B8 x) as [Q1 Q2]; [rewrite A5; exact Hx|]. split; congruence.
  - intros x d Hx. destruct (B9 x d Hx) as (y & Hy). apply (A9 y d Hy).
  - intros x. specialize (A0 x). specialize (B0 x). lia.
Qed.
Lemma Dq_mod s o f : is_dirobj s o = true -> (forall es, o_body (ob s o) = BDir es -> exists es', o_body (f (ob s o)) = BDir es') ->
  o_size (f (ob s o)) = o_size (ob s o) -> o_epoch (f (ob s o)) = o_epoch (ob s o) -> o_nlink (ob s o) <= o_nlink (f (ob s o)) ->
  (exists y, o_dev (f (ob s o)) = o_dev (ob s y)) -> Dq s (mod_ob s o f).
Proof.
  intros D B S E L (y & V). assert (Hdir : forall x, is_dirobj (mod_ob s o f) x = is_dirobj s x).
  { intros x. rewrite dir_mod. destruct (Nat.eqb x o) eqn:Ex; [|reflexivity]. apply Nat.eqb_eq in Ex. subst x. rewrite D.
    unfold is_dirobj in D. destruct (o_body (ob s o)) as [es|]; [|discriminate]. destruct (B es eq_refl) as (es' & ->). reflexivity. }
  assert (Hob : forall x, ob (mod_ob s o f) x = ob s x \/ (x = o /\ ob (mod_ob s o f) x = f (ob s o))).
  { intros x. rewrite ob_mod. destruct (Nat.eqb x o) eqn:Ex; [|auto]. apply Nat.eqb_eq in Ex. subst x. auto. }
  split; try reflexivity; [exact Hdir| | | | |]; intros x; destruct (Hob x) as [-> |[-> ->]]; auto; try lia.
  - congruence.
  - eauto.
  - intros d. rewrite V. eauto.
Qed.
Lemma Dq_RP s s' : Dq s s' -> exact_usage s -> RP N s s'.
Proof.
  intros [A1 A2 A3 A4 A5 A6 A7 A8 A9 A0] H. 
  assert (Ew : forall d x, weight s' d x = weight s d x).
  { intros d x. unfold weight. rewrite A5, A6. destruct (is_dirobj s x) eqn:E; [reflexivity|]. destruct (A8 x E) as [-> ->]. reflexivity. }
  split; [|rewrite A2; split; [reflexivity|split; intros x _; auto]].
  destruct H as [H1 H2 H3 H4 H5 H6]. split.
  - rewrite A1. intros k m Hin. rewrite (H1 k m Hin). unfold file_sizes. rewrite A2. f_equal. apply sumz_ext. intros x _. symmetry. apply Ew.
  - intros x. rewrite A6. apply H2.
  - apply (devs_shape s); [unfold shape; rewrite A1; reflexivity|exact A4| |exact H3]. intros x d E. right. apply (A9 x d E).
  - intros x. rewrite A2, A5. intros Hx. destruct (H4 x Hx) as [P Q]. destruct (A8 x P) as [-> _]. auto.
  - rewrite A3. exact H5.
  - intros x. rewrite A2. intros Hx. destruct (H4 x Hx) as [P Q]. destruct (A8 x P) as [_ ->]. auto.
Qed.
Lemma link_dir s d o : is_dirobj s d = true -> is_dirobj s o = true ->
  wp (link_obj d o) s (fun r s' => r = Ok tt /\ Dq s s' /\ o_nlink (ob s o) < o_nlink (ob s' o)).
Proof.
  intros Hd Ho. unfold link_obj. wstep.
  set (s1 := mod_ob s d (fun x => match o_body x with BDir es => wo_body x (BDir (es ++ [(o_name (ob s o), o)])) | BFile _ => x end)).
  assert (Q1 : Dq s s1).
  { unfold is_dirobj in Hd. destruct (o_body (ob s d)) as [es|] eqn:Eb; [|discriminate].
    apply Dq_mod; [unfold is_dirobj; rewrite Eb; reflexivity| | | | |]; rewrite Eb; cbn; try reflexivity; [eauto|exists d; reflexivity]. }
  apply wp_bind. unfold wp at 1. change (mod_obj d _ s) with (Ok tt, s1). cbn [fst snd]. cbv beta iota. clearbody s1.
  set (s2 := mod_ob s1 o (fun x => wo_parent x (Some d))).
  assert (Q2 : Dq s s2).
  { apply (Dq_trans s s1); [exact Q1|]. apply Dq_mod; [rewrite (dq_dir _ _ Q1); exact Ho| | | | |]; try reflexivity; [eauto|exists o; reflexivity]. }
  apply wp_bind. unfold wp at 1. change (mod_obj o _ s1) with (Ok tt, s2). cbn [fst snd]. cbv beta iota. clearbody s2. clear s1 Q1.
  wstep. apply wp_bind. apply wp_conseq with (Q := fun r s3 => r = Ok tt /\ Dq s s3).
  { destruct (o_ino (ob s2 o)) as [i|]; [wstep; auto|].
    set (s3 := set_ino s2 (S (f_ino s2))). assert (Q3 : Dq s s3).
    { apply (Dq_trans s s2); [exact Q2|]. split; try reflexivity; eauto. all: intros; change (ob s3) with (ob s2); auto with zarith. }
    apply wp_bind. unfold wp at 1. change (modify _ s2) with (Ok tt, s3). cbn [fst snd]. cbv beta iota. clearbody s3. wstep.
    unfold wp, mod_obj, modify. cbn [fst snd]. split; [reflexivity|]. apply (Dq_trans s s3); [exact Q3|].
    apply Dq_mod; [rewrite (dq_dir _ _ Q3); exact Ho| | | | |]; try reflexivity; [eauto|exists o; reflexivity]. }
  intros r s3 [-> Q3]. clear s2 Q2.
  set (s4 := mod_ob s3 d (fun x => wo_nlink x (o_nlink x + 1))).
  assert (Q4 : Dq s s4).
  { apply (Dq_trans s s3); [exact Q3|]. apply Dq_mod; [rewrite (dq_dir _ _ Q3); exact Hd| | | | |]; try reflexivity; [eauto|cbn; lia|exists d; reflexivity]. }
  apply wp_bind. unfold wp at 1. change (mod_obj d _ s3) with (Ok tt, s4). cbn [fst snd]. cbv beta iota. clearbody s4. clear s3 Q3.
  set (s5 := mod_ob s4 o (fun x => wo_nlink x (o_nlink x + 1))).
  assert (Q5 : Dq s4 s5).
  { apply Dq_mod; [rewrite (dq_dir _ _ Q4); exact Ho| | | | |]; try reflexivity; [eauto|cbn; lia|exists o; reflexivity]. }
  assert (L5 : o_nlink (ob s o) < o_nlink (ob s5 o)).
  { unfold s5. rewrite ob_mod, Nat.eqb_refl. cbn. pose proof (dq_nlink _ _ Q4 o). lia. }
  apply wp_bind. unfold wp at 1. change (mod_obj o _ s4) with (Ok tt, s5). cbn [fst snd]. cbv beta iota. clearbody s5.
  wstep. unfold wp, mod_obj, modify. cbn [fst snd]. split; [reflexivity|]. 
  assert (Q6 : Dq s5 (mod_ob s5 o (fun x => wo_dev x (o_dev (ob s5 d))))).
  { apply Dq_mod; [rewrite (dq_dir _ _ Q5), (dq_dir _ _ Q4); exact Ho| | | | |]; try reflexivity; [eauto|exists d; reflexivity]. }
  split; [apply (Dq_trans s s5); [apply (Dq_trans s s4); assumption|exact Q6]|].
  pose proof (dq_nlink _ _ Q6 o). lia.
Qed.
(** the object [o] is added: a directory; or a new file, empty or with room for it; or a file with other links, on this device *)
Lemma wp_add_entry_usage s d o : (o < f_next s)%nat -> (if is_dirobj s o then 1 <= o_nlink (ob s o) else 0 <= o_nlink (ob s o)) -> exact_usage s -> (N <= f_next s)%nat ->
  wp (add_entry d o) s (fun r s' =>
    (is_dirobj s o = false -> o_nlink (ob s o) = 0 -> o_size (ob s o) = 0 \/ r <> os_err ENOSPC) ->
    (is_dirobj s o = false -> 0 < o_nlink (ob s o) -> o_dev (ob s' o) = o_dev (ob s o)) -> RP N s s').
Proof.
  intros Hlt Hc H K. assert (H0 : RP N s s) by (unfold RP; auto).
  unfold add_entry. wstep. destruct (is_dirobj s d) eqn:Hd; cbn [negb]; [|wstep; auto].
  wstep. match goal with |- wp (if ?b then _ else _) _ _ => destruct b end; [wstep; auto|].
  wstep. match goal with |- wp (if ?b then _ else _) _ _ => destruct b end; [wstep; auto|].
  destruct (is_dirobj s o) eqn:Ho.
  { apply wp_bind. eapply wp_conseq; [apply (link_dir s d o Hd Ho)|]. intros r s1 (-> & Q & L). wstep.
    destruct (Z.eqb_spec (o_nlink (ob s1 o)) 1); [lia|]. wstep. intros _ _. apply Dq_RP; assumption. }
  assert (Hn : d <> o) by congruence.
  destruct (link_obj_spec s d o Hn Hd) as (s1 & E1 & [L1 L2 (i & L3 & _) L4]).
  apply wp_bind. unfold wp at 1. rewrite E1. cbn [fst snd]. cbv beta iota.
  assert (Dir : forall x, is_dirobj s1 x = is_dirobj s x).
  { intros x. unfold is_dirobj. destruct (Nat.eq_dec x d) as [->|N1]; [rewrite L2; cbn; unfold is_dirobj in Hd; destruct (o_body (ob s d)); [reflexivity|discriminate]|].
    destruct (Nat.eq_dec x o) as [->|N2]; [rewrite L3; reflexivity|]. rewrite L4 by assumption. reflexivity. }
  assert (Ep : forall x, o_epoch (ob s1 x) = o_epoch (ob s x)).
  { intros x. destruct (Nat.eq_dec x d) as [->|N1]; [rewrite L2; reflexivity|].
    destruct (Nat.eq_dec x o) as [->|N2]; [rewrite L3; reflexivity|]. rewrite L4 by assumption. reflexivity. }
  assert (Sz : forall x, o_size (ob s1 x) = o_size (ob s x)).
  { intros x. destruct (Nat.eq_dec x d) as [->|N1]; [rewrite L2; reflexivity|].
    destruct (Nat.eq_dec x o) as [->|N2]; [rewrite L3; reflexivity|]. rewrite L4 by assumption. reflexivity. }
  assert (En : f_next s1 = f_next s) by (rewrite L1; reflexivity).
  assert (Em : f_mounts s1 = f_mounts s) by (rewrite L1; reflexivity).
  assert (Ec : f_cfg s1 = f_cfg s) by (rewrite L1; reflexivity).
  assert (Edv : f_dev s1 = f_dev s) by (rewrite L1; reflexivity).
  assert (No : o_nlink (ob s1 o) = o_nlink (ob s o) + 1) by (rewrite L3; reflexivity).
  assert (Do : o_dev (ob s1 o) = o_dev (ob s d)) by (rewrite L3; reflexivity).
  assert (Dd : o_dev (ob s1 d) = o_dev (ob s d)) by (rewrite L2; reflexivity).
  assert (U1 : usage (fun x => 0 - (weight s1 x o - weight s x o)) s1).
  { apply usage_one; auto.
    - intros x y Ny. unfold weight. rewrite Dir. destruct (is_dirobj s y) eqn:E; [reflexivity|].
      assert (y <> d) by congruence. rewrite L4 by assumption. reflexivity.
    - intros x. rewrite Sz. apply (us_pos _ _ H).
    - intros x y. destruct (Nat.eq_dec x d) as [->|N1]; [rewrite Dd; eauto|].
      destruct (Nat.eq_dec x o) as [->|N2]; [rewrite Do; eauto|]. rewrite L4 by assumption. eauto.
    - intros x Hx. rewrite Dir. destruct (us_fresh _ _ H x Hx) as [A B]. split; [exact A|]. rewrite L4; [exact B|intros ->; congruence|intros ->; lia].
    - intros x Hx. destruct (us_fresh _ _ H x Hx) as [A B]. rewrite L4; [apply (us_nodev _ _ H x Hx)|intros ->; congruence|intros ->; lia]. }
  assert (Post : exact_usage s1 -> RP N s s1).
  { intros U. split; [exact U|]. rewrite En. split; [reflexivity|]. split; intros x _; [apply Ep|apply Dir]. }
  clear L1 L2 L3 L4. wstep. rewrite No. destruct (Z.eqb_spec (o_nlink (ob s o) + 1) 1) as [E|E].
  - wstep. rewrite (file_size _ s1 o _ U1) by (rewrite Dir; exact Ho).
    wstep. rewrite Dd. eapply wp_conseq; [apply (wp_cdu_usage _ _ _ s1 U1)|]. intros r s2 [E2 Hr] Hsz _. specialize (Hsz eq_refl ltac:(lia)).
    assert (Off : forall x, 0 - (weight s1 x o - weight s x o) + delta (o_dev (ob s d)) (o_size (ob s1 o)) x = 0).
    { intros x. unfold weight. rewrite Dir, Ho, No, Do, Sz. replace (o_nlink (ob s o)) with 0 by lia. change (0 <? 0 + 1) with true. change (0 <? 0) with false. cbn [andb]. unfold delta. destruct (opt_nat_eqb _ _); lia. }
    destruct Hr as [[-> U2]|[-> ->]].
    + assert (Eo : forall x, ob s2 x = ob s1 x) by (intros x; rewrite E2; reflexivity).
      split; [eapply usage_ext; [exact Off|exact U2]|]. split; [rewrite E2; cbn; rewrite En; reflexivity|].
      split; intros x _; unfold is_dirobj; rewrite Eo; [apply Ep|apply Dir].
    + destruct Hsz as [F|F]; [|contradiction].
      apply Post. eapply usage_ext; [|exact U1]. intros x. cbv beta. pose proof (Off x) as O. rewrite Sz, F in O. unfold delta in O. destruct (opt_nat_eqb (Some x) (o_dev (ob s d))); lia.
  - wstep. intros _ Hv. rewrite Do in Hv. apply Post. eapply usage_ext; [|exact U1]. intros x. cbv beta. unfold weight. rewrite Dir, No, Do, Sz, Ho.
    rewrite Hv by (auto; lia).
    destruct (Z.ltb_spec 0 (o_nlink (ob s o) + 1)), (Z.ltb_spec 0 (o_nlink (ob s o))); lia.
Qed.
(** ** New sizes *)
Lemma usage_resized off s o f n : usage off s -> is_dirobj s o = false -> 0 < o_nlink (ob s o) \/ o_dev (ob s o) = None ->
  (forall d, off d = delta (o_dev (ob s o)) (n - o_size (ob s o)) d) -> 0 <= n ->
  o_size (f (ob s o)) = n -> o_dev (f (ob s o)) = o_dev (ob s o) -> o_nlink (f (ob s o)) = o_nlink (ob s o) -> is_dirobj (mod_ob s o f) o = false ->
  exact_usage (mod_ob s o f).
Proof.
  intros H D L Ho Hn F1 F2 F3 F4. eapply usage_ext; [|apply (usage_mod off s o f H)].
  - intros d. cbv beta. rewrite Ho. unfold weight. rewrite F4, D, ob_mod, Nat.eqb_refl, F1, F2, F3. unfold delta. destruct L as [L|L].
    + destruct (Z.ltb_spec 0 (o_nlink (ob s o))); [|lia]. cbn [andb]. destruct (opt_nat_eqb _ _); lia.
    + rewrite L. cbn [opt_nat_eqb]. rewrite andb_false_r. lia.
  - rewrite F1. exact Hn.
  - exact F2.
  - intros Hle. rewrite F3. split; [exact F4|apply (us_fresh _ _ H o Hle)].
Qed.
Lemma st_size_o off s o : usage off s -> st_size s o = o_size (ob s o).
Proof. intros H. unfold st_size. rewrite (us_win _ _ H). reflexivity. Qed.
Lemma wp_set_size_usage s o n : exact_usage s -> 0 < o_nlink (ob s o) \/ o_dev (ob s o) = None ->
  wp (set_size o n) s (fun _ s' => exact_usage s').
Proof.
  intros H L. unfold set_size. wstep. destruct (o_body (ob s o)) as [|data] eqn:Eb; [wstep; exact H|].
  destruct (Z.ltb_spec n 0); [wstep; exact H|]. wstep. rewrite (st_size_o _ _ _ H). wstep. apply wp_bind.
  eapply wp_conseq; [apply (wp_cdu_usage _ _ _ s H)|]. intros r s1 [E [[-> U]|[-> ->]]]; [|exact H].
  assert (Eo : forall x, ob s1 x = ob s x) by (intros x; rewrite E; reflexivity).
  unfold wp, mod_obj, modify. cbn [fst snd].
  match goal with |- exact_usage (mod_ob s1 o ?g) => set (f := g) end.
  assert (Fx : forall x, o_size (f x) = n /\ o_dev (f x) = o_dev x /\ o_nlink (f x) = o_nlink x).
  { intros x. unfold f. destruct data as [[|c d]|]; auto. }
  destruct (Fx (ob s1 o)) as (F1 & F2 & F3).
  apply (usage_resized (fun d => 0 + delta (o_dev (ob s o)) (n - o_size (ob s o)) d) s1 o f n); auto.
  - unfold is_dirobj. rewrite Eo, Eb. reflexivity.
  - rewrite Eo. exact L.
  - intros d. rewrite Eo. lia.
  - unfold is_dirobj. rewrite ob_mod, Nat.eqb_refl, Eo. unfold f. destruct data as [[|c d]|]; cbn; rewrite ?Eb; reflexivity.
Qed.
Lemma wp_set_initial_usage s o c : exact_usage s -> 0 < o_nlink (ob s o) \/ o_dev (ob s o) = None ->
  truthy_contents s o = false -> is_dirobj s o = false -> wp (set_initial_contents o c) s (fun _ s' => exact_usage s').
Proof.
  intros H L T D. unfold set_initial_contents. destruct (Nat.eqb o devnull_oid); [wstep; exact H|]. wstep. wstep. rewrite (st_size_o _ _ _ H). wstep. apply wp_bind.
  eapply wp_conseq; [apply (wp_cdu_usage _ _ _ s H)|]. intros r s1 [E [[-> U]|[-> ->]]]; [|exact H].
  assert (Eo : forall x, ob s1 x = ob s x) by (intros x; rewrite E; reflexivity).
  wstep. unfold truthy_contents in *. rewrite Eo, T. cbn [when]. unfold wp, bind, mod_obj, modify, ret. cbn [fst snd].
  match goal with |- exact_usage (mod_ob s1 o ?g) => set (f := g) end.
  apply (usage_resized (fun d => 0 + delta (o_dev (ob s o)) (Z.of_nat (length c) - o_size (ob s o)) d) s1 o f (Z.of_nat (length c))); auto; try reflexivity.
  - unfold is_dirobj. rewrite Eo. exact D.
  - rewrite Eo. exact L.
  - intros d. rewrite Eo. lia.
  - lia.
  - unfold is_dirobj. rewrite ob_mod, Nat.eqb_refl. reflexivity.
Qed.
Lemma wp_set_large_usage s o n : exact_usage s -> 0 < o_nlink (ob s o) \/ o_dev (ob s o) = None -> o_size (ob s o) = 0 -> is_dirobj s o = false ->
  wp (set_large_file_size o n) s (fun _ s' => exact_usage s').
Proof.
  intros H L T D. unfold set_large_file_size. destruct (Z.ltb_spec n 0); [wstep; exact H|]. wstep. rewrite (st_size_o _ _ _ H), T. cbn [Z.eqb negb when]. wstep. wstep. apply wp_bind.
  eapply wp_conseq; [apply (wp_cdu_usage _ _ _ s H)|]. intros r s1 [E [[-> U]|[-> ->]]]; [|exact H].
  assert (Eo : forall x, ob s1 x = ob s x) by (intros x; rewrite E; reflexivity).
  unfold wp, mod_obj, modify. cbn [fst snd].
  match goal with |- exact_usage (mod_ob s1 o ?g) => set (f := g) end.
  apply (usage_resized (fun d => 0 + delta (o_dev (ob s o)) n d) s1 o f n); auto; try reflexivity.
  - unfold is_dirobj. rewrite Eo. exact D.
  - rewrite Eo. exact L.
  - intros d. rewrite Eo, T. replace (n - 0) with n by lia. lia.
  - unfold is_dirobj. rewrite ob_mod, Nat.eqb_refl. reflexivity.
Qed.
(** ... only [o] is rewritten *)
Definition TO (o : oid) (s s' : fs) : Prop := f_next s' = f_next s /\ (forall x, x <> o -> ob s' x = ob s x) /\ (is_dirobj s o = false -> is_dirobj s' o = false).
Global Instance TO_pre o : PreOrder (TO o).
Proof.
  split; [intros s; unfold TO; auto|]. intros a b c (A1 & A2 & A3) (B1 & B2 & B3). split; [congruence|]. split; [|auto].
  intros x Hx. rewrite B2, A2 by exact Hx. reflexivity.
Qed.
Lemma to_cdu o z d : keeps (TO o) (change_disk_usage z d).
Proof.
  intros s. unfold change_disk_usage. destruct (mount_for_dev _ d) as [m|]; [|reflexivity].
  destruct (m_total m); [destruct (_ <? _)|]; split; try split; auto.
Qed.
Lemma to_mod o f : (forall x, match o_body x with BFile _ => match o_body (f x) with BFile _ => True | _ => False end | _ => True end) -> keeps (TO o) (mod_obj o f).
Proof.
  intros Hf s. change (snd (mod_obj o f s)) with (mod_ob s o f). split; [reflexivity|]. split.
  - intros x Hx. rewrite ob_mod. apply Nat.eqb_neq in Hx. rewrite Hx. reflexivity.
  - unfold is_dirobj. rewrite ob_mod, Nat.eqb_refl. specialize (Hf (ob s o)). destruct (o_body (ob s o)); [discriminate|]. destruct (o_body (f (ob s o))); [contradiction|reflexivity].
Qed.
Lemma to_size o n : keeps (TO o) (set_size o n).
Proof.
  unfold set_size. kr; [apply to_cdu|]. apply to_mod. intros y. destruct y as [? ? ? ? ? ? ? ? bb ? ? ? ? ? ?]. destruct data as [[|c d]|]; cbn; destruct bb; exact Logic.I.
Qed.
Lemma to_initial o c : keeps (TO o) (set_initial_contents o c).
Proof.
  unfold set_initial_contents. kr; [apply to_cdu|apply to_size|]. apply to_mod. intros y. destruct (o_body y); exact Logic.I.
Qed.
Lemma to_large o n : keeps (TO o) (set_large_file_size o n).
Proof.
  unfold set_large_file_size. kr; [apply to_size|apply to_cdu|]. apply to_mod. intros y. destruct (o_body y); exact Logic.I.
Qed.
Lemma to_fill o c z : keeps (TO o) (fill_file o c z).
Proof. unfold fill_file. destruct z; [apply to_large|]. destruct c; kr; apply to_initial. Qed.
Lemma wp_fill_usage s o c z : exact_usage s -> (N <= f_next s)%nat -> (N <= o)%nat -> 0 < o_nlink (ob s o) -> o_size (ob s o) = 0 ->
  truthy_contents s o = false -> is_dirobj s o = false -> wp (fill_file o c z) s (fun _ s' => RP N s s').
Proof.
  intros H K Ho L Sz T D. assert (W : wp (fill_file o c z) s (fun _ s' => exact_usage s')).
  { unfold fill_file. destruct z; [apply wp_set_large_usage; auto|].
    destruct c; apply wp_bind; (eapply wp_conseq; [apply wp_set_initial_usage; auto|]); intros [[]|] s1 U; [exact U|exact U|exact U|exact U|exact U|exact U]. }
  unfold wp in *. destruct (to_fill o c z s) as (T1 & T2 & T3). split; [exact W|]. rewrite T1. split; [reflexivity|]. split; intros x Hx.
  - rewrite T2 by lia. reflexivity.
  - destruct (Nat.eq_dec x o) as [->|Nx]; [rewrite D; auto|]. unfold is_dirobj. rewrite T2 by exact Nx. reflexivity.
Qed.
(** ** The calls on paths *)
Lemma rn_remove_object p : keeps R (remove_object p).
Proof. unfold remove_object. kr. apply rn_remove_entry. Qed.
(** what a new object looks like *)
Lemma wp_alloc s n m b (Q : res oid -> fs -> Prop) : Q (Ok (f_next s)) (snd (alloc n m b s)) -> wp (alloc n m b) s Q.
Proof. exact (fun H => H). Qed.
Lemma alloc_ob s n m b x : ob (snd (alloc n m b s)) x = if Nat.eqb x (f_next s) then fresh_obj s n m b else ob s x.
Proof. unfold alloc. cbn. unfold ob. cbn. unfold upd. destruct (Nat.eqb x (f_next s)); reflexivity. Qed.
Lemma dir_lt s d : exact_usage s -> is_dirobj s d = true -> (d < f_next s)%nat.
Proof. intros H D. destruct (le_lt_dec (f_next s) d) as [Hle|]; [|assumption]. destruct (us_fresh _ _ H d Hle). congruence. Qed.
Lemma RP_trans a b c : RP N a b -> (exact_usage b -> (N <= f_next b)%nat -> RP N b c) -> (N <= f_next a)%nat -> RP N a c.
Proof.
  intros (A & B & C & D) H K. destruct (H A ltac:(lia)) as (A' & B' & C' & D').
  split; [exact A'|]. split; [lia|]. split; intros o Ho; [rewrite C', C by exact Ho; reflexivity|]. rewrite D', D by lia. reflexivity.
Qed.
(** adding a new file or directory *)
Lemma add_entry_new s n m b d : exact_usage s -> (N <= f_next s)%nat -> (b = BFile None \/ b = BDir []) ->
  let s0 := snd (alloc n m b s) in RP N s (snd (add_entry d (f_next s) s0)).
Proof.
  intros H K Hb s0. assert (H1 := rn_alloc n m b ltac:(intros; destruct Hb; congruence) s H K). fold s0 in H1.
  assert (Eo : ob s0 (f_next s) = fresh_obj s n m b) by (unfold s0; rewrite alloc_ob, Nat.eqb_refl; reflexivity).
  assert (En : f_next s0 = S (f_next s)) by reflexivity. clearbody s0. eapply RP_trans; [exact H1| |exact K]. intros U0 K0.
  apply (wp_add_entry_usage s0 d (f_next s)); [lia| |exact U0|exact K0| |].
  - unfold is_dirobj. rewrite Eo. cbn. destruct Hb as [-> | ->]; cbn; lia.
  - unfold is_dirobj. rewrite Eo. cbn. destruct Hb as [-> | ->]; cbn; auto.
  - unfold is_dirobj. rewrite Eo. cbn. destruct Hb as [-> | ->]; cbn; [lia|discriminate].
Qed.
Lemma rn_auto cd p : keeps R (auto_mount cd p).
Proof. intros s H K. unfold auto_mount, bind, gets. rewrite (us_win _ _ H). cbn. unfold RP; auto. Qed.
Lemma wp_add_new s n m b p (Q : res unit -> fs -> Prop) : exact_usage s -> (N <= f_next s)%nat -> (b = BFile None \/ b = BDir []) ->
  (forall r s', RP N s s' -> (r = Ok tt -> b = BFile None -> 0 < o_nlink (ob s' (f_next s)) /\ o_size (ob s' (f_next s)) = 0 /\ o_body (ob s' (f_next s)) = BFile None) -> Q r s') ->
  wp (add_object p (f_next s)) (snd (alloc n m b s)) Q.
Proof.
  intros H K Hb HQ. set (s0 := snd (alloc n m b s)).
  assert (H0 : RP N s s0) by (exact (rn_alloc n m b ltac:(intros; destruct Hb; congruence) s H K)).
  assert (Add : forall d, wp (add_entry d (f_next s)) s0 Q).
  { intros d. pose proof (add_entry_new s n m b d H K Hb) as A. cbv zeta in A. fold s0 in A. unfold wp. apply HQ; [exact A|].
    intros E Eb. assert (Fo : ob s0 (f_next s) = fresh_obj s n m b) by (unfold s0; rewrite alloc_ob, Nat.eqb_refl; reflexivity).
    destruct (Nat.eq_dec d (f_next s)) as [->|Nd].
    - exfalso. unfold add_entry, bind, gets in E. assert (is_dirobj s0 (f_next s) = false) as F by (unfold is_dirobj; rewrite Fo, Eb; reflexivity).
      rewrite F in E. discriminate E.
    - pose proof (wp_add_entry s0 d (f_next s) Nd) as W. unfold wp in W. rewrite E in W. destruct W as [(W & _)|(_ & _ & (s1 & L & M) & _)]; [congruence|].
      rewrite (only_mounts_ob _ _ _ M). destruct (ln_o _ _ _ _ _ L) as (i & -> & _). rewrite Fo, Eb. cbn. split; [lia|auto]. }
  clearbody s0. unfold add_object. apply wp_bind. destruct (str_eqb p []); [wstep; apply Add|].
  wstep. destruct (resolve s0 p true) as [d|e]; [|apply HQ; [exact H0|discriminate]]. wstep. wstep.
  destruct (negb _); [wstep; apply HQ; [exact H0|discriminate]|]. wstep. apply Add.
Qed.
Lemma rn_new_object n m b p : (b = BFile None \/ b = BDir []) -> keeps R (o <- alloc n m b ;; add_object p o).
Proof.
  intros Hb s H K. match goal with |- RP N s (snd (?m s)) => change (wp m s (fun _ s' => RP N s s')) end.
  apply wp_bind, wp_alloc. apply wp_add_new; auto.
Qed.
Lemma rn_new_entry n m b d (k : oid -> M (oid * list oid)) : (b = BFile None \/ b = BDir []) -> (forall o, keeps R (k o)) ->
  keeps R (o <- alloc n m b ;; add_entry d o ;;; k o).
Proof.
  intros Hb Hk s H K. match goal with |- RP N s (snd (?m s)) => change (wp m s (fun _ s' => RP N s s')) end.
  apply wp_bind, wp_alloc. cbv beta iota. apply wp_bind. pose proof (add_entry_new s n m b d H K Hb) as A. cbv zeta in A.
  unfold wp at 1. destruct (fst (add_entry d (f_next s) (snd (alloc n m b s)))); [|exact A].
  unfold wp. eapply RP_trans; [exact A| |exact K]. intros U L. apply (Hk _ _ U L).
Qed.
Lemma rn_create_dirs comps : forall cur new, keeps R (create_dirs cur new comps).
Proof.
  induction comps as [|c l IH]; intros cur new; cbn [create_dirs]; [kr|]. apply kr_bind; [kr|]. intros [[n o]|].
  - kr; apply IH.
  - apply rn_new_entry; [auto|]. intros o. apply IH.
Qed.
Lemma rn_set_modes m l : keeps R (set_modes m l).
Proof. induction l as [|o l IH]; cbn [set_modes]; kr; [|exact IH]. apply rn_quiet. quiet. Qed.
Lemma rn_create_dir_n n : forall p m, keeps R (create_dir_n n p m).
Proof.
  destruct n as [|n]; intros p m; cbn [create_dir_n]; [kr|]. unfold create_dir_body. kr; [apply rn_auto|apply rn_create_dirs|apply rn_set_modes].
Qed.
Lemma rn_create_dir p m : keeps R (create_dir p m).
Proof. apply rn_create_dir_n. Qed.
Lemma wp_fresh_file s n m c z p fp : exact_usage s -> (N <= f_next s)%nat ->
  RP N s (snd ((o <- new_file n m ;; add_object p o ;;;
    catch (fill_file o c z) (fun e => match e with OSErr _ => remove_object fp ;;; raise e | _ => raise e end) ;;; ret o) s)).
Proof.
  intros H K. match goal with |- RP N s (snd (?m s)) => change (wp m s (fun _ s' => RP N s s')) end.
  apply wp_bind, wp_alloc. cbv beta iota. apply wp_bind. apply wp_add_new; auto. intros r s1 H1 Hr.
  destruct r as [[]|e]; [|exact H1]. destruct (Hr eq_refl eq_refl) as (L & Sz & Bd). apply wp_bind.
  assert (F : wp (catch (fill_file (f_next s) c z) (fun e => match e with OSErr _ => remove_object fp ;;; raise e | _ => raise e end)) s1 (fun _ s' => RP N s1 s')).
  { apply wp_catch. destruct H1 as (A & B & _). eapply wp_conseq; [apply (wp_fill_usage s1 (f_next s) c z A)|]; try assumption; try lia.
    - unfold truthy_contents. rewrite Bd. reflexivity.
    - unfold is_dirobj. rewrite Bd. reflexivity.
    - intros [[]|e] s2 H2; [exact H2|].
      assert (X : RP N s1 (snd ((remove_object fp ;;; @raise unit e) s2))).
      { eapply RP_trans; [exact H2| |lia]. intros U2 K2. assert (X0 : keeps R (remove_object fp ;;; @raise unit e)) by (kr; apply rn_remove_object). exact (X0 s2 U2 K2). }
      destruct e; try exact H2; exact X. }
  unfold wp in F |- *. destruct (fst (catch _ _ s1)); (eapply RP_trans; [exact H1|intros _ _; exact F|exact K]).
Qed.
Ltac rn_known := first [apply rn_new_object; [auto]|apply rn_remove_object|apply rn_create_dir|apply rn_auto|kr1].
Ltac rn := unfold new_file, new_dir; repeat (rn_known; cbv zeta).
Lemma rn_create_int p m c z md um : keeps R (create_file_internally p m c z md um).
Proof.
  unfold create_file_internally. do 4 (apply kr_bind; [solve [kr]|]; intros ?; cbv beta; try match goal with |- keeps _ (if ?b then _ else _) => destruct b; [solve [kr]|] end).
  apply kr_bind; [apply rn_auto|]. intros _. apply kr_bind; [kr|]. intros pe. apply kr_bind; [rn|]. intros pd. apply kr_bind; [kr|]. intros mm s H K.
  apply wp_fresh_file; assumption.
Qed.
Lemma rn_create_symlink p t md : keeps R (create_symlink p t md).
Proof. unfold create_symlink. rn. apply rn_create_int. Qed.
Lemma rn_makedir p m : keeps R (makedir p m).
Proof. unfold makedir. rn. Qed.
Lemma rn_makedirs p m e : keeps R (makedirs p m e).
Proof. unfold makedirs. rn. Qed.
Lemma rn_mknod p m d : keeps R (mknod p m d).
Proof. unfold mknod. rn. Qed.
Lemma rn_broken p : keeps R (handle_broken_link p).
Proof. unfold handle_broken_link. rn. Qed.
Lemma rn_remove p : keeps R (remove p).
Proof. unfold remove. rn. apply rn_broken. Qed.
Lemma rn_rmdir p a : keeps R (rmdir p a).
Proof. unfold rmdir. rn. Qed.
Lemma rn_removedirs_loop n : forall h t, keeps R (removedirs_loop n h t).
Proof. induction n as [|n IH]; intros h t; cbn [removedirs_loop]; rn; first [apply rn_rmdir|apply IH]. Qed.
Lemma rn_removedirs p : keeps R (removedirs p).
Proof. unfold removedirs. rn; first [apply rn_rmdir|apply rn_removedirs_loop]. Qed.
Lemma rn_chmod a m f : keeps R (chmod a m f).
Proof. unfold chmod. rn. apply rn_quiet. quiet. Qed.
Lemma rn_lchmod a m : keeps R (lchmod a m).
Proof. unfold lchmod. rn. apply rn_chmod. Qed.
Lemma times_quiet f : times_only f -> quiet f.
Proof. intros Hf x. rewrite (Hf x). destruct x as [? ? ? ? ? ? ? ? b ? ? ? ? ? ?]; cbn; destruct b; auto 10. Qed.
Lemma rn_utime a t n f : keeps R (utime a t n f).
Proof. unfold utime. destruct t, n; rn; apply rn_quiet, times_quiet; let y := fresh in intros y; destruct y; reflexivity. Qed.
Lemma rn_chown a u g f : keeps R (chown a u g f).
Proof. unfold chown. rn. apply rn_quiet. let y := fresh in intros y; destruct (Z.eqb u (-1)), (Z.eqb g (-1)); destruct y as [? ? ? ? ? ? ? ? b ? ? ? ? ? ?]; cbn; destruct b; auto 10. Qed.
Lemma rn_setxattr a k v fl f : keeps R (setxattr a k v fl f).
Proof. unfold setxattr. rn. apply rn_quiet. quiet. Qed.
Lemma rn_removexattr a k f : keeps R (removexattr a k f).
Proof. unfold removexattr. rn. apply rn_quiet. quiet. Qed.
Lemma rn_env f : (forall s, env_only s (f s)) -> keeps R (modify f).
Proof. intros E. apply rn_same. intros s. rewrite (E s). cbn. auto 10. Qed.
Lemma rn_mount_path p : keeps R (mount_point_for_path p).
Proof.
  unfold mount_point_for_path, mount_point_for_path_. rn. unfold auto_mount_force. intros s H K. unfold bind, gets.
  rewrite (us_win _ _ H). unfold RP. cbn. auto.
Qed.
Lemma rn_get_usage p : keeps R (get_disk_usage p).
Proof. unfold get_disk_usage. rn. apply rn_mount_path. Qed.
(** ** Links and renames *)
Lemma nlink_dir s o : Ginv s -> (o < f_next s)%nat -> if is_dirobj s o then 1 <= o_nlink (ob s o) else 0 <= o_nlink (ob s o).
Proof. intros G L. rewrite (gi_nlink s G o L). destruct (is_dirobj s o); lia. Qed.
Lemma entry_nlink s d n e : Ginv s -> entry s d n = Some e -> is_dirobj s e = true -> o_nlink (ob s e) <> 1.
Proof.
  intros G E D. destruct (gi_ent s G d n e (entry_In _ _ _ _ E)) as (L & _). rewrite (gi_nlink s G e L), D.
  assert (refs s e <> 0%nat) by (rewrite (refs_zero_iff s e G); intros K; apply (K d n E)). lia.
Qed.
Lemma wp_link_usage s a b f : Ginv s -> exact_usage s -> (N <= f_next s)%nat ->
  wp (create_link a b f false) s (fun r s' => r <> os_err ENOSPC -> devs_kept s s' -> RP N s s').
Proof.
  intros G H K. assert (H0 : RP N s s) by (unfold RP; auto). unfold create_link. wstep. wstep. wstep.
  destruct (exists_ s (anp s b) true) as [[|]|e]; [wstep; auto| |auto]. wstep. wstep.
  destruct (exists_ s _ false) as [[|]|e]; cbn [negb]; [|apply wp_bind; wstep; auto|auto]. wstep.
  destruct (ends_with_path_separator _ a); [wstep; auto|]. destruct (negb _ && _); [wstep; auto|].
  apply wp_bind, wp_catch. wstep. destruct (resolve_follow s a f true) as [o|e] eqn:Er; [|destruct e; wstep; auto].
  wstep. destruct (has_bit (o_mode (ob s o)) S_IFDIR) eqn:Eb; [wstep; auto|].
  destruct (root_not_nodir s o G Eb) as [Hr Hd]. assert (Hl := resolve_follow_lt s a f true o G Er).
  set (nm := snd (splitpath (f_cfg s) (anp s b))). apply wp_bind. unfold wp at 1, mod_obj, modify. cbn [fst snd]. cbv beta iota.
  set (s2 := mod_ob s o (fun x => wo_name x nm)).
  assert (H2 : RP N s s2) by (exact (rn_quiet o (fun x => wo_name x nm) ltac:(quiet) s H K)).
  assert (Ob2 : o_nlink (ob s2 o) = o_nlink (ob s o) /\ o_dev (ob s2 o) = o_dev (ob s o) /\ is_dirobj s2 o = is_dirobj s o /\ f_next s2 = f_next s).
  { unfold is_dirobj, s2. rewrite ob_mod, Nat.eqb_refl. auto. }
  destruct Ob2 as (O1 & O2 & O3 & O4). clearbody s2. pose proof H2 as (U2 & _).
  assert (Add : forall d, wp (add_entry d o) s2 (fun r s' => r <> os_err ENOSPC -> devs_kept s s' -> RP N s s')).
  { intros d. eapply wp_conseq; [apply (wp_add_entry_usage s2 d o)|]; try lia.
    - pose proof (nlink_dir s o G Hl) as W. rewrite O3, O1. exact W.
    - exact U2.
    - intros r s' W Hr1 Hr2. eapply RP_trans; [exact H2| |exact K]. intros _ _. apply W; [auto|].
      intros _ L. rewrite O2. apply Hr2; [exact Hl|exact Hd|lia]. }
  apply wp_bind. match goal with |- wp ?m s2 ?Q => assert (W : wp m s2 (fun r s' => r <> os_err ENOSPC -> devs_kept s s' -> RP N s s')) end.
  { unfold add_object. apply wp_bind. destruct (str_eqb _ []); [wstep; apply Add|].
    wstep. destruct (resolve s2 _ true) as [d|e]; [|auto]. wstep. wstep. destruct (negb _); [wstep; auto|]. wstep. apply Add. }
  eapply wp_conseq; [exact W|]. intros [[]|e] s'; [|auto].
  - intros X. wstep. intros _. apply X. discriminate.
  - intros X Hr1. apply X. intros E. apply Hr1. unfold os_err in *. congruence.
Qed.
Lemma nlink_file s o : Ginv s -> (o < f_next s)%nat -> is_dirobj s o = false -> o_nlink (ob s o) = Z.of_nat (refs s o).
Proof. intros G L D. rewrite (gi_nlink s G o L), D. lia. Qed.
Lemma devs_shrunk s s1 s' : Ginv s -> Ginv s1 -> shrunk s s1 -> devs_kept s s' -> devs_kept s1 s'.
Proof.
  intros G G1 S D x Hx Df L. assert (Df0 : is_dirobj s x = false) by (rewrite <- (sh_dir _ _ S); exact Df).
  rewrite (shrunk_next _ _ S) in Hx. rewrite (shrunk_attr o_dev s s1 x S) by reflexivity. apply D; [exact Hx|exact Df0|].
  rewrite (nlink_file s x G Hx Df0). assert (refs s x <> 0%nat); [|lia]. intros E.
  rewrite (nlink_file s1 x G1) in L; [|rewrite (shrunk_next _ _ S); exact Hx|exact Df]. rewrite (shrunk_refs_zero s s1 x G G1 S E) in L. cbn in L. lia.
Qed.
Lemma wp_move_usage s old new oldo : Ginv s -> exact_usage s -> (N <= f_next s)%nat ->
  wp (rename_move old new oldo) s (fun r s' => r <> os_err ENOSPC -> devs_kept s s' -> RP N s s').
Proof.
  intros G H K. assert (H0 : RP N s s) by (unfold RP; auto). unfold rename_move. wstep. wstep.
  destruct (exists_ s _ false) as [[|]|e]; cbn [negb]; [|wstep; auto|auto].
  wstep. destruct (resolve s _ true) as [odo|e]; [|auto]. wstep. destruct (resolve s _ true) as [ndo|e]; [|auto].
  wstep. destruct (opt_nat_eqb _ _); cbn [negb]; [|wstep; auto]. wstep. destruct (S_ISDIR _); cbn [negb]; [|wstep; auto].
  wstep. destruct (has_parent_object s ndo oldo) as [[|]|e]; [wstep; auto| |auto].
  wstep. destruct (get_entry s odo _) as [o|e] eqn:Eg; [|auto].
  apply (get_entry_ok s _ _ _ (Ginv_cs s G)) in Eg. set (n0 := snd (splitpath (f_cfg s) old)) in *. set (nn := snd (splitpath (f_cfg s) new)).
  destruct (gi_ent s G _ _ _ (entry_In _ _ _ _ Eg)) as (Holt & Horoot & _).
  assert (R1 : RP N s (snd (remove_entry odo n0 false s))).
  { apply (rn_remove_entry_n (S (f_next s)) odo n0 false s); [|exact H|exact K]. intros _ m e E D. apply (entry_nlink s odo m e G E D). }
  apply wp_bind. pose proof (wp_remove_entry odo n0 false s G) as W1. unfold wp in W1. unfold wp at 1.
  destruct (remove_entry odo n0 false s) as [r s1]. cbn [fst snd] in W1, R1 |- *. destruct W1 as [[G1 HS1 _] HR1].
  destruct r as [[]|e]; [|auto]. cbv beta iota.
  destruct HR1 as (x & Hx & Hd1 & Hoth1). assert (x = o) by congruence. subst x. clear Hx.
  assert (He1 : forall d m, entry s1 d m = if Nat.eqb d odo && str_eqb m n0 then None else entry s d m).
  { intros d m. destruct (Nat.eqb d odo) eqn:Ed; cbn [andb].
    - apply Nat.eqb_eq in Ed. subst d. apply (entry_del s s1 odo n0 (gi_nodup s G odo) Hd1).
    - apply Nat.eqb_neq in Ed. unfold entry. rewrite (Hoth1 d Ed). reflexivity. }
  assert (Href1 : is_dirobj s1 o = true -> refs s1 o = 0%nat).
  { intros Hd. rewrite (sh_dir _ _ HS1) in Hd. apply (refs_zero_iff s1 o G1). intros d m E.
    rewrite He1 in E. destruct (Nat.eqb d odo && str_eqb m n0) eqn:Ed; [discriminate|].
    destruct (dir_one_name s _ _ _ _ o G Hd Eg E) as [-> ->]. rewrite Nat.eqb_refl, str_eqb_refl in Ed. discriminate. }
  apply wp_bind. unfold wp at 1, mod_obj, modify. cbn [fst snd]. cbv beta iota.
  set (s2 := mod_ob s1 o (fun x => wo_name x nn)).
  assert (G2 : Ginv s2) by (apply Ginv_rename_detached; assumption).
  assert (R2 : RP N s s2).
  { eapply RP_trans; [exact R1| |exact K]. intros U1 K1. exact (rn_quiet o (fun x => wo_name x nn) ltac:(quiet) s1 U1 K1). }
  assert (D2 : devs_kept s1 s2 /\ forall x, is_dirobj s2 x = is_dirobj s1 x /\ o_nlink (ob s2 x) = o_nlink (ob s1 x) /\ o_dev (ob s2 x) = o_dev (ob s1 x)).
  { assert (X : forall x, is_dirobj s2 x = is_dirobj s1 x /\ o_nlink (ob s2 x) = o_nlink (ob s1 x) /\ o_dev (ob s2 x) = o_dev (ob s1 x)).
    { intros x. unfold is_dirobj, s2. rewrite ob_mod. destruct (Nat.eqb x o) eqn:Ex; [|auto]. apply Nat.eqb_eq in Ex. subst x. auto. }
    split; [|exact X]. intros x _ _ _. apply X. }
  assert (N2 : f_next s2 = f_next s) by (change (f_next s2) with (f_next s1); apply (shrunk_next _ _ HS1)).
  destruct D2 as [_ D2]. assert (K2 : forall s', devs_kept s s' -> devs_kept s2 s').
  { intros s' D. apply (devs_shrunk s s1 s' G G1 HS1) in D. intros x Hx Df L. destruct (D2 x) as (A & B & C). rewrite A in Df. rewrite B in L. rewrite C.
    apply D; [|exact Df|exact L]. change (f_next s1) with (f_next s2). exact Hx. }
  clearbody s2. wstep. wstep. apply wp_bind.
  match goal with |- wp ?m s2 ?Q => assert (W : wp m s2 (fun r s3 => Ginv s3 /\ shrunk s2 s3 /\ RP N s s3)) end.
  { destruct (assoc _ _); cbn [when]; [|wstep; split; [exact G2|split; [apply shrunk_refl|exact R2]]].
    eapply wp_conseq; [apply wp_and; [apply (wp_remove_entry ndo _ true s2 G2)|apply (wp_keeps R), rn_remove_entry]|].
    intros r s3 [[[G3 HS3 _] _] R3]. split; [exact G3|]. split; [exact HS3|]. eapply RP_trans; [exact R2|exact R3|exact K]. }
  eapply wp_conseq; [exact W|]. intros r s3 (G3 & HS3 & R3). destruct r as [[]|e]; [|auto].
  pose proof R3 as (U3 & L3 & _). assert (Hl3 : (o < f_next s3)%nat) by (rewrite (shrunk_next _ _ HS3); lia).
  eapply wp_conseq; [apply (wp_add_entry_usage s3 ndo o Hl3 (nlink_dir s3 o G3 Hl3) U3 ltac:(lia))|].
  intros r s' W' Hr1 Hr2. eapply RP_trans; [exact R3| |exact K]. intros _ _. apply W'; [auto|].
  intros Df L. apply (devs_shrunk s2 s3 s' G2 G3 HS3 (K2 s' Hr2) o Hl3 Df L).
Qed.
Definition GS (s s' : fs) : Prop := Ginv s -> Ginv s' /\ shrunk s s'.
Global Instance GS_pre : PreOrder GS.
Proof.
  split; [intros s G; split; [exact G|apply shrunk_refl]|]. intros a b c H1 H2 G. destruct (H1 G) as [G1 S1]. destruct (H2 G1) as [G2 S2].
  split; [exact G2|apply (shrunk_trans a b c S1 S2)].
Qed.
Lemma gs_remove_object p : keeps GS (remove_object p).
Proof. intros s G. apply (remove_object_inv s p G). Qed.
Lemma wp_rename_usage s old new f : Ginv s -> exact_usage s -> (N <= f_next s)%nat ->
  wp (rename old new f) s (fun r s' => r <> os_err ENOSPC -> devs_kept s s' -> RP N s s').
Proof.
  intros G H K. assert (H0 : RP N s s) by (unfold RP; auto). unfold rename. wstep. wstep. wstep. wstep.
  destruct (exists_ s (anp s old) true) as [[|]|e]; cbn [negb]; [|wstep; auto|auto].
  apply wp_bind. match goal with |- wp ?m s ?Q => assert (W : wp m s (fun _ s1 => s1 = s)) end.
  { assert (X : keeps eq (when (ends_with_path_separator (f_cfg s) old) (handle_broken_link (anp s old)))) by (unfold handle_broken_link; kr).
    symmetry. apply X. }
  eapply wp_conseq; [exact W|]. clear W. intros [[]|e] s0 ->; [|auto]. wstep. destruct (lresolve s _) as [oldo|e]; [|auto].
  apply wp_bind. match goal with |- wp ?m s ?Q => assert (W : wp m s (fun _ s1 => s1 = s)) end.
  { assert (X : keeps eq (when (negb (c_win (f_cfg s))) (posix_dir_link_errors (anp s new) (anp s old) (ends_with_path_separator (f_cfg s) old)))).
    { unfold posix_dir_link_errors. kr. }
    symmetry. apply X. }
  eapply wp_conseq; [exact W|]. clear W. intros [[]|e] s0 ->; [|auto]. wstep. destruct (exists_ s (anp s new) true) as [e2|e]; [|auto].
  apply wp_bind. match goal with |- wp ?m s ?Q => assert (W : wp m s (fun _ s1 => GS s s1 /\ R s s1)) end.
  { apply wp_and; apply wp_keeps; unfold rename_to_existing, rename_error_for_dir_or_link, rename_same_object; kr; first [apply gs_remove_object|apply rn_remove_object]. }
  eapply wp_conseq; [exact W|]. clear W. intros r s1 [G1 R1]. destruct (G1 G) as [G1' S1]. specialize (R1 H K).
  destruct r as [[[|c q]|]|e]; [wstep; auto| |wstep; auto|auto].
  pose proof R1 as (U1 & L1 & _). eapply wp_conseq; [apply (wp_move_usage s1 (anp s old) (c :: q) oldo G1' U1 ltac:(lia))|].
  intros r s' W Hr D. eapply RP_trans; [exact R1| |exact K]. intros _ _. apply W; [exact Hr|]. apply (devs_shrunk s s1 s' G G1' S1 D).
Qed.
(** ** Mount points *)
Lemma usage_resize s k m t : exact_usage s -> assoc k (f_mounts s) = Some m ->
  exact_usage (set_mounts s (set_assoc k (mkmount (m_idev m) t (m_used m)) (f_mounts s))).
Proof.
  intros [H1 H2 H3 H4 H5 H6] Em. split; [|exact H2| |exact H4|exact H5|exact H6].
  - intros k' m' Hin. change (m_used m' = file_sizes s (m_idev m') + 0). cbn in Hin. apply set_assoc_in in Hin. destruct Hin as [Hin|[-> ->]].
    + apply (H1 k' m' Hin).
    + apply (H1 k m). apply assoc_In, Em.
  - apply (devs_shape s); [apply (set_assoc_shape _ _ _ m Em); reflexivity|reflexivity| |exact H3]. intros o d E. right. exists o. exact E.
Qed.
Lemma rn_set_usage t p : keeps R (set_disk_usage t p).
Proof.
  intros s H K. unfold set_disk_usage. unfold bind at 1.
  assert (L : forall q, RP N s (snd ((k <- mount_point_for_path q ;; m <- gets (fun s => assoc k (f_mounts s)) ;;
    match m with
    | None => raise KeyErr
    | Some m =>
      if match m_total m with Some _ => (t <? m_used m)%Z | None => false end
      then raise_os ENOSPC
      else modify (fun s => set_mounts s (set_assoc k (mkmount (m_idev m) (Some t) (m_used m)) (f_mounts s)))
    end) s))).
  { intros q. unfold bind at 1. pose proof (rn_mount_path q s H K) as K1.
    destruct (mount_point_for_path q s) as [[k|e] s1]; [|exact K1]. cbn [snd] in K1. unfold bind, gets.
    destruct (assoc k (f_mounts s1)) as [m|] eqn:Em; [|exact K1].
    destruct (match m_total m with Some _ => _ | None => _ end); [exact K1|]. unfold modify. cbn [snd].
    eapply RP_trans; [exact K1| |exact K]. intros U1 _. split; [apply usage_resize; assumption|]. split; [reflexivity|].
    split; intros o _; reflexivity. }
  destruct p as [q|]; apply L.
Qed.
Lemma register_usage s p t : exact_usage s -> assoc (anp s p) (f_mounts s) = None -> RP N s (register s p t).
Proof.
  intros H En. pose proof (fp_register _ _ _ _ (fp_core _ _ _ _ rd_prims) s p t (or_introl Logic.I) En (us_devs _ _ H)) as Dv.
  destruct H as [H1 H2 H3 H4 H5 H6]. split; [|split; [reflexivity|split; reflexivity]]. split; [|exact H2|exact Dv|exact H4|exact H5|exact H6].
  intros k m Hin. change (m_used m = file_sizes s (m_idev m) + 0). cbn in Hin. apply in_app_or in Hin. destruct Hin as [Hin|[E|[]]]; [apply (H1 k m Hin)|].
  injection E as <- <-. cbn [m_used m_idev]. unfold file_sizes. rewrite (sumz_ext _ _ (fun _ => 0)).
  - rewrite sumz_zero. reflexivity.
  - intros x _. unfold weight. destruct (is_dirobj s x); [reflexivity|]. destruct (opt_nat_eqb (Some (S (f_dev s))) (o_dev (ob s x))) eqn:E.
    + exfalso. apply opt_nat_eqb_eq in E. apply (dv_obj s H3) in E. lia.
    + rewrite Bool.andb_false_r. reflexivity.
Qed.
Lemma usage_set_dev s o : exact_usage s -> (o < f_next s)%nat ->
  (is_dirobj s o = true \/ o_nlink (ob s o) <= 0) ->
  RP N s (mod_ob s o (fun x => wo_dev x (Some (f_dev s)))).
Proof.
  intros H Hl Hk. set (s' := mod_ob s o (fun x => wo_dev x (Some (f_dev s)))).
  assert (Ob : forall x, ob s' x = if Nat.eqb x o then wo_dev (ob s o) (Some (f_dev s)) else ob s x).
  { intros x. unfold s'. rewrite ob_mod. destruct (Nat.eqb x o) eqn:E; [|reflexivity]. apply Nat.eqb_eq in E. subst x. reflexivity. }
  assert (Dir : forall x, is_dirobj s' x = is_dirobj s x).
  { intros x. unfold is_dirobj. rewrite Ob. destruct (Nat.eqb x o) eqn:E; [|reflexivity]. apply Nat.eqb_eq in E. subst x. reflexivity. }
  assert (W : forall d x, weight s' d x = weight s d x).
  { intros d x. unfold weight. rewrite Dir, Ob. destruct (is_dirobj s x) eqn:Dx; [reflexivity|]. destruct (Nat.eqb x o) eqn:E; [|reflexivity].
    apply Nat.eqb_eq in E. subst x. destruct Hk as [Hk|Hk]; [congruence|]. cbn [wo_dev o_nlink o_dev].
    destruct (Z.ltb_spec 0 (o_nlink (ob s o))); [lia|]. reflexivity. }
  pose proof (fp_dev _ _ _ _ (fp_core _ _ _ _ rd_prims) o s (us_devs _ _ H)) as Dv. change (devs_ok s') in Dv.
  assert (E1 : f_next s' = f_next s) by reflexivity. assert (E2 : f_mounts s' = f_mounts s) by reflexivity. assert (E3 : f_cfg s' = f_cfg s) by reflexivity.
  clearbody s'. destruct H as [H1 H2 H3 H4 H5 H6]. split; [split|split; [lia|split]].
  - rewrite E2. intros k m Hin. rewrite (H1 k m Hin). unfold file_sizes. rewrite E1. f_equal. apply sumz_ext. intros x _. symmetry. apply W.
  - intros x. rewrite Ob. destruct (Nat.eqb x o) eqn:E; [|apply H2]. apply (H2 o).
  - exact Dv.
  - intros x. rewrite E1. intros Hx. rewrite Dir, Ob. destruct (Nat.eqb x o) eqn:E; [apply Nat.eqb_eq in E; lia|]. apply H4, Hx.
  - rewrite E3. exact H5.
  - intros x. rewrite E1. intros Hx. rewrite Ob. destruct (Nat.eqb x o) eqn:E; [apply Nat.eqb_eq in E; lia|]. apply H6, Hx.
  - intros x _. rewrite Ob. destruct (Nat.eqb x o) eqn:E; [|reflexivity]. apply Nat.eqb_eq in E. subst x. reflexivity.
  - intros x _. apply Dir.
Qed.

Lemma wp_create_dirs_lt comps : forall cur new s, Ginv s -> Forall (ordinary (sepc s)) comps -> (cur < f_next s)%nat ->
  wp (create_dirs cur new comps) s (fun r s' => (f_next s <= f_next s')%nat /\ forall c' new', r = Ok (c', new') -> (c' < f_next s')%nat).
Proof.
  induction comps as [|comp comps IH]; intros cur new s H Hc Hlt; cbn [create_dirs].
  - wstep. split; [lia|]. intros c' new' E. injection E as <- <-. exact Hlt.
  - inversion Hc as [|? ? Hc1 Hc2]; subst. wstep. rewrite (directory_content_cs s cur comp (Ginv_cs s H)).
    destruct (entry s cur comp) as [o|] eqn:E.
    + wstep. apply wp_bind. assert (Ho := entry_lt s cur comp o H E).
      assert (Hrest : forall d, (d < f_next s)%nat -> wp (bad <- gets (fun s => negb (N.eqb (N.land (o_mode (ob s d)) S_IFDIR) S_IFDIR)) ;;
          (if bad : bool then raise_os ENOTDIR else create_dirs d new comps)) s
        (fun r s' => (f_next s <= f_next s')%nat /\ forall c' new', r = Ok (c', new') -> (c' < f_next s')%nat)).
      { intros d Hd. wstep. destruct (negb _).
        - wstep. split; [lia|]. discriminate.
        - apply IH; assumption. }
      destruct (S_ISLNK (o_mode (ob s o))).
      * wstep. destruct (text_contents s o) as [t|e]; cbn [rbind]; [|split; [lia|discriminate]].
        destruct (resolve s t true) as [d|e] eqn:Er; [|split; [lia|discriminate]].
        apply Hrest, (resolve_lt s t true d H Er).
      * wstep. apply Hrest, Ho.
    + unfold new_dir. apply wp_bind, GraphOps3.wp_alloc. cbv beta iota.
      set (s1 := snd (alloc comp (N.lor S_IFDIR PERM_DEF) (BDir []) s)).
      assert (H1 : Ginv s1) by (apply Ginv_alloc; [exact H|left; reflexivity|intros _; apply lor_ifdir]).
      assert (A1 : addable s1 (f_next s)) by (apply addable_alloc; [exact H|exact Hc1|left; reflexivity|intros _; apply lor_ifdir]).
      assert (L1 : f_next s1 = S (f_next s)) by reflexivity.
      apply wp_bind. eapply wp_conseq; [apply (wp_add_addable s1 cur (f_next s) H1 A1); lia|].
      intros r s2 [H2 Hcase]. destruct Hcase as [(Hr & -> & _)|(Hd & _ & Ha & Hr)].
      * destruct r as [[]|e]; [congruence|]. split; [lia|discriminate].
      * assert (En : f_next s2 = S (f_next s)) by (rewrite (added_next _ _ _ _ Ha); reflexivity).
        destruct Hr as [->| ->]; cbv beta iota.
        -- eapply wp_conseq; [apply (IH (f_next s) (new ++ [f_next s]) s2 H2)|].
           ++ rewrite (added_cfg _ _ _ _ Ha). exact Hc2.
           ++ lia.
           ++ intros r s3 [Hn3 Hx]. split; [lia|exact Hx].
        -- split; [lia|discriminate].
Qed.
Lemma create_dir_lt s p perm : Ginv s -> wp (create_dir p perm) s (fun r s' => forall rd, r = Ok rd -> (rd < f_next s')%nat).
Proof.
  intros H. pose proof (Ginv_good s H) as Hg. unfold create_dir. cbn [create_dir_n]. unfold create_dir_body.
  wstep. destruct (anp_names s (make_string_path (f_cfg s) p) Hg) as (names & Hn & En). rewrite En.
  apply wp_bind. unfold auto_mount. wstep. rewrite (Ginv_win s H). wstep. cbv beta iota.
  wstep. destruct (exists_ s (abs_path (sepc s) names) true) as [[|]|e]; [wstep; discriminate| |discriminate].
  wstep. rewrite (path_components_clean _ (gi_lin s H) _ (Forall_clean _ _ Hn)).
  apply wp_bind. eapply wp_conseq; [apply (wp_create_dirs_lt names root_oid [] s H Hn)|].
  { pose proof (gi_next s H). unfold root_oid. lia. }
  intros [[c' new']|e] s1 [Hn1 Hx]; cbv beta iota; [|discriminate].
  cbn [fst snd]. specialize (Hx c' new' eq_refl). apply wp_bind.
  assert (W : wp (set_modes (N.lor S_IFDIR perm) new') s1 (fun _ s2 => f_next s2 = f_next s1)).
  { clear. revert s1. induction new' as [|o l IH]; intros s1; cbn [set_modes]; [wstep; reflexivity|]. unfold mod_obj. wstep.
    match goal with |- wp _ ?st _ => exact (IH st) end. }
  eapply wp_conseq; [exact W|]. intros [[]|e] s2 E2; [|discriminate]. wstep. intros rd E. injection E as <-. lia.
Qed.
Lemma wp_mount_usage s p t : Ginv s -> exact_usage s -> (N <= f_next s)%nat ->
  wp (add_mount_point p t) s (fun r s' => (forall k, r = Ok k -> dev_empty s' (f_dev s')) -> RP N s s').
Proof.
  intros G H K. unfold wp. destruct (assoc (anp s p) (f_mounts s)) as [m|] eqn:En.
  { unfold add_mount_point, add_mount_point_, bind, gets. rewrite En. intros _. unfold RP. cbn. auto. }
  rewrite (add_mount_eq p t s En). pose proof (register_usage s p t H En) as R1.
  assert (G1 : Ginv (register s p t)).
  { unfold register. apply (gsame_Ginv (set_dev s (S (f_dev s)))); [apply gsame_set_mounts|]. apply (gsame_Ginv s _ (gsame_set_dev s _) G). }
  set (s1 := register s p t) in *. clearbody s1.
  match goal with |- context [fst (?m s1)] => change (wp m s1 (fun r s' => (forall k, r = Ok k -> dev_empty s' (f_dev s')) -> RP N s s')) end.
  wstep. apply wp_bind.
  match goal with |- wp ?m s1 ?Q => assert (W : wp m s1 (fun r s2 => RP N s s2 /\ forall rd, r = Ok rd -> (rd < f_next s2)%nat)) end.
  { destruct (str_eqb _ _).
    - wstep. wstep. unfold mod_obj. wstep. wstep.
      split.
      + eapply RP_trans; [exact R1| |exact K]. intros U1 K1.
        change (RP N s1 (mod_ob (set_ino s1 (S (f_ino s1))) root_oid (fun x => wo_ino x (Some (S (f_ino s1)))))).
        assert (A : keeps R (modify (fun s => set_ino s (S (f_ino s))))) by (apply rn_same; auto 10).
        eapply RP_trans; [exact (A s1 U1 K1)| |exact K1]. intros U2 K2.
        assert (Q : quiet (fun x => wo_ino x (Some (S (f_ino s1))))) by quiet. exact (rn_quiet root_oid _ Q _ U2 K2).
      + intros rd E. injection E as <-. cbn. pose proof (gi_next s1 G1). unfold root_oid. lia.
    - eapply wp_conseq; [apply wp_and; [apply (wp_keeps R), (rn_create_dir (anp s p) PERM_DEF)|apply (create_dir_lt s1 _ _ G1)]|].
      intros r s2 [R2 L2]. split; [|exact L2]. eapply RP_trans; [exact R1|exact R2|exact K]. }
  eapply wp_conseq; [exact W|]. intros [rd|e] s2 [R2 L2]; [|auto]. specialize (L2 rd eq_refl). wstep.
  apply wp_bind. unfold wp at 1, mod_obj, modify. cbn [fst snd]. cbv beta iota. wstep.
  intros E. specialize (E _ eq_refl). eapply RP_trans; [exact R2| |exact K]. intros U2 K2. apply usage_set_dev; [exact U2|exact L2|].
  destruct (is_dirobj s2 rd) eqn:Dr; [auto|]. right. destruct (Z_le_gt_dec (o_nlink (ob s2 rd)) 0) as [L|L]; [exact L|]. exfalso.
  apply (E rd L2).
  - rewrite dir_mod, Nat.eqb_refl. unfold is_dirobj in Dr. exact Dr.
  - rewrite ob_mod, Nat.eqb_refl. cbn. lia.
  - rewrite ob_mod, Nat.eqb_refl. reflexivity.
Qed.
End Ren.
(** ** Writing *)
(** the number of writes never goes down *)
Definition EM (s s' : fs) : Prop := (f_next s <= f_next s')%nat /\ forall o, (o < f_next s)%nat -> (o_epoch (ob s o) <= o_epoch (ob s' o))%nat.
Global Instance EM_pre : PreOrder EM.
Proof.
  split; [intros s; split; auto|]. intros a b c [A1 A2] [B1 B2]. split; [lia|]. intros o Ho. specialize (A2 o Ho). specialize (B2 o ltac:(lia)). lia.
Qed.
Lemma em_same f : (forall s, f_next (f s) = f_next s) -> (forall s o, o_epoch (ob (f s) o) = o_epoch (ob s o)) -> keeps EM (modify f).
Proof. intros E1 E2 s. split; cbn; [rewrite E1; lia|]. intros o _. rewrite E2. lia. Qed.
Lemma em_mod_obj o f : (forall x, (o_epoch x <= o_epoch (f x))%nat) -> keeps EM (mod_obj o f).
Proof.
  intros E s. change (snd (mod_obj o f s)) with (mod_ob s o f). split; [reflexivity|]. intros x _. rewrite ob_mod.
  destruct (Nat.eqb x o) eqn:Ex; [apply Nat.eqb_eq in Ex; subst x; apply E|lia].
Qed.
Lemma em_cdu z d : keeps EM (change_disk_usage z d).
Proof. intros s. unfold change_disk_usage. destruct (mount_for_dev _ _) as [m|]; [|reflexivity]. destruct (m_total m); [destruct (_ <? _)|]; split; auto. Qed.
Lemma em_alloc n m b : keeps EM (alloc n m b).
Proof.
  intros s. split; [cbn; lia|]. intros o Ho. rewrite alloc_ob. destruct (Nat.eqb o (f_next s)) eqn:E; [apply Nat.eqb_eq in E; lia|]. lia.
Qed.
Ltac em_step := let y := fresh in intros y; repeat match goal with |- context [match ?b with _ => _ end] => destruct b end; cbn; lia.
Ltac em := kr; try first [apply em_cdu|apply em_mod_obj; em_step|apply em_alloc|apply em_same; reflexivity].
Lemma em_rm_loop rm : (forall n, keeps EM (rm n)) -> forall k e, keeps EM (rm_loop rm k e).
Proof. intros H. induction k as [|k IH]; intros e; cbn [rm_loop]; kr; auto. Qed.
Lemma em_remove_entry_n fuel : forall d n r, keeps EM (remove_entry_n fuel d n r).
Proof. induction fuel as [|fuel IH]; intros d n r; cbn [remove_entry_n]; unfold unlink_obj; em. apply em_rm_loop. intros; apply IH. Qed.
Lemma em_prims : fs_prims EM (fun t => True) True True.
Proof.
  split; [split|..].
  all: try solve [intros; unfold new_file, new_dir, add_entry, link_obj, set_initial_contents, set_large_file_size, set_size; em].
  - intros d n r s. apply em_remove_entry_n.
  - apply (register_from _ _ _); [exact Logic.I| |]; intros; apply em_same; reflexivity.
  - intros o f Hf. apply em_mod_obj. intros x. rewrite Hf. cbn. lia.
  - intros s s' H. rewrite H. split; [reflexivity|]. intros; reflexivity.
  - intros s s' H. rewrite H. split; [reflexivity|]. intros; reflexivity.
  - intros o f Hf. apply em_mod_obj. intros x. rewrite Hf. cbn. lia.
Qed.
(** the calls that write *)
Definition RI (s s' : fs) : Prop := f_next s' = f_next s /\ (forall o, o_nlink (ob s' o) = o_nlink (ob s o)) /\
  (forall o, (o_epoch (ob s o) <= o_epoch (ob s' o))%nat) /\ (once s s' -> exact_usage s -> exact_usage s').
Global Instance RI_pre : PreOrder RI.
Proof.
  split; [intros s; split; [reflexivity|]; split; [reflexivity|]; split; [reflexivity|auto]|].
  intros a b c (A1 & A2 & A3 & A4) (B1 & B2 & B3 & B4). split; [congruence|]. split; [intros o; rewrite B2; apply A2|].
  split; [intros o; specialize (A3 o); specialize (B3 o); lia|]. intros H U. apply B4; [|apply A4; [|exact U]].
  - intros o Ho. specialize (H o ltac:(lia)). specialize (A3 o). specialize (B3 o). rewrite A2. destruct H as [H|[H H']]; [left; lia|].
    destruct (Nat.eq_dec (o_epoch (ob b o)) (o_epoch (ob a o))); [right; split; [lia|exact H']|left; lia].
  - intros o Ho. specialize (H o Ho). specialize (A3 o). specialize (B3 o). destruct H as [H|[H H']]; [left; lia|].
    destruct (Nat.eq_dec (o_epoch (ob b o)) (o_epoch (ob a o))); [left; lia|right; split; [lia|exact H']].
Qed.
Lemma ri_handles s s' : handles_only s s' -> RI s s'.
Proof.
  intros H. rewrite H. split; [reflexivity|]. split; [reflexivity|]. split; [reflexivity|]. intros _ U. apply (usage_same _ s); try reflexivity. exact U.
Qed.
Lemma ri_times o f : times_only f -> keeps RI (mod_obj o f).
Proof.
  intros Hf s. change (snd (mod_obj o f s)) with (mod_ob s o f). pose proof (times_quiet f Hf) as Q. split; [reflexivity|].
  split; [|split]; [| |intros _; apply usage_quiet, Q]; intros x; rewrite ob_mod; destruct (Nat.eqb x o) eqn:E; try reflexivity; apply Nat.eqb_eq in E; subst x.
  - apply Q.
  - destruct (Q (ob s o)) as (_ & _ & _ & -> & _). lia.
Qed.
(** sizes and contents: the links stay, the epochs grow *)
Definition NE (s s' : fs) : Prop := f_next s' = f_next s /\ (forall o, o_nlink (ob s' o) = o_nlink (ob s o)) /\
  (forall o, (o_epoch (ob s o) <= o_epoch (ob s' o))%nat).
Global Instance NE_pre : PreOrder NE.
Proof.
  split; [intros s; repeat split; auto|]. intros a b c (A1 & A2 & A3) (B1 & B2 & B3). split; [congruence|]. split; [intros o; rewrite B2; apply A2|].
  intros o; specialize (A3 o); specialize (B3 o); lia.
Qed.
Lemma ne_mod o f : (forall x, o_nlink (f x) = o_nlink x /\ (o_epoch x <= o_epoch (f x))%nat) -> keeps NE (mod_obj o f).
Proof.
  intros E s. change (snd (mod_obj o f s)) with (mod_ob s o f). split; [reflexivity|]. split; intros x; rewrite ob_mod;
    (destruct (Nat.eqb x o) eqn:Ex; [apply Nat.eqb_eq in Ex; subst x; apply E|]); [reflexivity|lia].
Qed.
Lemma ne_cdu z d : keeps NE (change_disk_usage z d).
Proof. intros s. unfold change_disk_usage. destruct (mount_for_dev _ _) as [m|]; [|reflexivity]. destruct (m_total m); [destruct (_ <? _)|]; repeat split; auto. Qed.
Ltac ne_step := let y := fresh in intros y; cbv zeta; split; repeat match goal with |- context [match ?b with _ => _ end] => destruct b end; cbn; lia.
Ltac ne := kr; try first [apply ne_cdu|apply ne_mod; ne_step].
Lemma ne_size o n : keeps NE (set_size o n).
Proof. unfold set_size. ne. Qed.
Lemma ne_initial o c : keeps NE (set_initial_contents o c).
Proof. unfold set_initial_contents. ne. apply ne_size. Qed.
Lemma no_mount ms : mount_for_dev ms None = None.
Proof. induction ms as [|[k m] l IH]; [reflexivity|]. exact IH. Qed.
Lemma cdu_none z s : change_disk_usage z None s = (Ok tt, s).
Proof. unfold change_disk_usage. rewrite no_mount. reflexivity. Qed.
Lemma wp_set_size_cases s o n : wp (set_size o n) s (fun r s' => s' = s \/ (o_epoch (ob s' o) = S (o_epoch (ob s o)) /\ is_dirobj s o = false)).
Proof.
  unfold set_size. wstep. unfold is_dirobj. destruct (o_body (ob s o)) as [|data] eqn:Eb; [wstep; auto|].
  destruct (n <? 0); [wstep; auto|]. wstep. wstep. apply wp_bind. unfold wp at 1, change_disk_usage.
  destruct (mount_for_dev _ _) as [m|].
  - assert (X : wp (mod_obj o (fun x => let x := match data with Some (c :: d) => wo_body x (BFile (Some (resize (c :: d) (st_size s o) n))) | _ => x end in
        wo_epoch (wo_size x n) (S (o_epoch x)))) (set_mounts s (add_used (f_mounts s) (o_dev (ob s o)) (n - st_size s o)))
        (fun r s' => s' = s \/ (o_epoch (ob s' o) = S (o_epoch (ob s o)) /\ false = false))).
    { right. cbn [mod_obj modify snd]. rewrite ob_mod, Nat.eqb_refl. split; [|reflexivity]. destruct data as [[|c d]|]; reflexivity. }
    destruct (m_total m); [destruct (_ <? _)|]; cbn [fst snd]; [left; reflexivity|exact X|exact X].
  - cbn [fst snd]. right. cbn [mod_obj modify snd]. rewrite ob_mod, Nat.eqb_refl. split; [|reflexivity]. destruct data as [[|c d]|]; reflexivity.
Qed.
Lemma ri_size o n : keeps RI (set_size o n).
Proof.
  intros s. destruct (ne_size o n s) as (A & B & C). split; [exact A|]. split; [exact B|]. split; [exact C|]. intros H U.
  destruct (wp_set_size_cases s o n) as [E|[E _]]; [rewrite E; exact U|]. apply (wp_set_size_usage s o n U).
  destruct (le_lt_dec (f_next s) o) as [L|L]; [right; apply (us_nodev _ _ U), L|]. left. destruct (H o L) as [K|[K K']]; [lia|exact K'].
Qed.
Lemma usage_nodev s o f : exact_usage s -> o_dev (ob s o) = None -> 0 <= o_size (f (ob s o)) -> o_dev (f (ob s o)) = None -> o_nlink (f (ob s o)) = o_nlink (ob s o) ->
  is_dirobj (mod_ob s o f) o = is_dirobj s o -> exact_usage (mod_ob s o f).
Proof.
  intros H E Hp Ed El Edir. eapply usage_ext; [|apply (usage_mod _ s o f H Hp); [congruence|]].
  - intros d. cbv beta. unfold weight. rewrite Edir, ob_mod, Nat.eqb_refl, E, Ed. cbn [opt_nat_eqb]. rewrite !Bool.andb_false_r. destruct (is_dirobj s o); reflexivity.
  - intros L. rewrite Edir, El. apply (us_fresh _ _ H o L).
Qed.
Lemma cdu_ok z dev s s1 : change_disk_usage z dev s = (Ok tt, s1) -> forall z', z' <= 0 -> fst (change_disk_usage z' dev s1) = Ok tt.
Proof.
  unfold change_disk_usage. intros E z' Hz.
  assert (X : forall ms, mount_for_dev (add_used ms dev z) dev = match mount_for_dev ms dev with Some m => Some (mkmount (m_idev m) (m_total m) (m_used m + z)) | None => None end).
  { induction ms as [|[k m] l IH]; [reflexivity|]. cbn [add_used mount_for_dev]. destruct (opt_nat_eqb (Some (m_idev m)) dev) eqn:Ed; cbn [mount_for_dev m_idev]; rewrite Ed; [reflexivity|exact IH]. }
  destruct (mount_for_dev (f_mounts s) dev) as [m|] eqn:Em.
  - destruct (m_total m) as [t|] eqn:Et; [destruct (Z.ltb_spec (t - m_used m) z); [discriminate|]|]; injection E as <-; cbn [f_mounts set_mounts]; rewrite X, Em; cbn [m_total m_used];
      rewrite Et; [destruct (Z.ltb_spec (t - (m_used m + z)) z'); [lia|reflexivity]|reflexivity].
  - injection E as <-. rewrite Em. reflexivity.
Qed.
Lemma wp_set_initial_cases s o c : exact_usage s -> is_dirobj s o = false ->
  wp (set_initial_contents o c) s (fun r s' => s' = s \/ (truthy_contents s o = false /\ o_epoch (ob s' o) = S (o_epoch (ob s o))) \/ o_epoch (ob s' o) = S (S (o_epoch (ob s o)))).
Proof.
  intros U D. unfold set_initial_contents. destruct (Nat.eqb o devnull_oid); [wstep; auto|]. wstep. wstep. wstep. rewrite (st_size_o _ _ _ U). apply wp_bind.
  unfold wp at 1. destruct (change_disk_usage (Z.of_nat (length c) - o_size (ob s o)) (o_dev (ob s o)) s) as [r s1] eqn:Ec. cbn [fst snd].
  pose proof (wp_cdu_usage _ (Z.of_nat (length c) - o_size (ob s o)) (o_dev (ob s o)) s U) as W. unfold wp in W. rewrite Ec in W. cbn [fst snd] in W.
  destruct W as [E [[-> U1]|[-> ->]]]; [|left; reflexivity].
  assert (Eo : forall x, ob s1 x = ob s x) by (intros x; rewrite E; reflexivity).
  wstep. destruct (truthy_contents s o) eqn:Et.
  2:{ assert (Et1 : truthy_contents s1 o = false) by (unfold truthy_contents in *; rewrite Eo; exact Et). rewrite Et1. cbn [when]. right. left. split; [reflexivity|].
      unfold bind, mod_obj, modify, ret. cbn [fst snd]. rewrite ob_mod, Nat.eqb_refl. cbn. rewrite Eo. reflexivity. }
  assert (Et1 : truthy_contents s1 o = true) by (unfold truthy_contents in *; rewrite Eo; exact Et). rewrite Et1. cbn [when].
  assert (W2 : wp (set_size o 0) s1 (fun r s2 => r = Ok tt /\ o_epoch (ob s2 o) = S (o_epoch (ob s o)))).
  { unfold set_size. wstep. unfold is_dirobj in D. rewrite Eo. destruct (o_body (ob s o)) as [|data] eqn:Eb; [discriminate|]. cbn [Z.ltb Z.compare]. wstep. wstep.
    apply wp_bind. rewrite (st_size_o _ _ _ U1), Eo. unfold wp at 1.
    pose proof (cdu_ok _ _ s s1 Ec (0 - o_size (ob s o)) ltac:(pose proof (us_pos _ _ U o); lia)) as K. rewrite K.
    assert (Eo2 : forall z d x, ob (snd (change_disk_usage z d s1)) x = ob s1 x).
    { intros z d x. unfold change_disk_usage. destruct (mount_for_dev _ _) as [m|]; [|reflexivity]. destruct (m_total m); [destruct (_ <? _)|]; reflexivity. }
    split; [reflexivity|]. cbn [mod_obj modify snd]. rewrite ob_mod, Nat.eqb_refl, Eo2, Eo. destruct data as [[|c0 d0]|]; reflexivity. }
  apply wp_bind. eapply wp_conseq; [exact W2|]. intros r s2 [-> E2]. cbv beta iota. right. right.
  unfold bind, mod_obj, modify, ret. cbn [fst snd]. rewrite ob_mod, Nat.eqb_refl. cbn. rewrite E2. reflexivity.
Qed.
Lemma ri_initial s o c : is_dirobj s o = false -> RI s (snd (set_initial_contents o c s)).
Proof.
  intros D. destruct (ne_initial o c s) as (A & B & C). split; [exact A|]. split; [exact B|]. split; [exact C|]. intros H U.
  destruct (le_lt_dec (f_next s) o) as [L|L].
  - pose proof (us_nodev _ _ U o L) as Ed. unfold set_initial_contents. destruct (Nat.eqb o devnull_oid); [exact U|].
    unfold bind at 1, gets at 1. unfold bind at 1, gets at 1. unfold bind at 1, gets at 1. rewrite Ed. unfold bind at 1. rewrite cdu_none. unfold bind at 1, gets at 1.
    assert (X : wp (when (truthy_contents s o) (set_size o 0)) s (fun _ s1 => exact_usage s1 /\ o_dev (ob s1 o) = None /\ is_dirobj s1 o = false)).
    { destruct (truthy_contents s o); cbn [when]; [|wstep; auto]. pose proof (wp_set_size_usage s o 0 U (or_intror Ed)) as K.
      apply wp_and; [exact K|]. apply wp_and; [|exact (proj2 (proj2 (to_size o 0 s)) D)].
      unfold set_size. wstep. destruct (o_body (ob s o)) as [|data]; [wstep; exact Ed|].
      cbn [Z.ltb Z.compare]. wstep. wstep. apply wp_bind. unfold wp at 1. rewrite Ed, cdu_none. cbn [fst snd]. cbv beta iota.
      unfold wp. cbn [mod_obj modify snd]. rewrite ob_mod, Nat.eqb_refl. destruct data as [[|c0 d0]|]; exact Ed. }
    unfold wp in X. unfold bind at 1. destruct (when (truthy_contents s o) (set_size o 0) s) as [[[]|e] s1]; destruct X as (U1 & E1 & D1); [|exact U1].
    unfold bind, mod_obj, modify, ret. cbn [fst snd]. apply usage_nodev; cbn; auto; [lia|]. cbn in *. unfold is_dirobj in *. rewrite ob_mod, Nat.eqb_refl. cbn. symmetry. exact D1.
  - destruct (wp_set_initial_cases s o c U D) as [E|[[E E']|E]].
    + rewrite E. exact U.
    + destruct (H o L) as [K|[K K']].
      * lia.
      * apply (wp_set_initial_usage s o c U (or_introl K') E D).
    + destruct (H o L) as [K|[K K']]; lia.
Qed.
Lemma ri_contents o c : keeps RI (set_contents o c).
Proof.
  intros s. unfold set_contents, bind, gets. destruct (is_dirobj s o) eqn:D; [reflexivity|]. apply ri_initial, D.
Qed.
Definition RQ (s s' : fs) : Prop := EM s s' /\ forall N, REN N s s'.
Global Instance RQ_pre : PreOrder RQ.
Proof. split; [intros s; split; reflexivity|]. intros a b c [A1 A2] [B1 B2]. split; [etransitivity; eassumption|]. intros N. transitivity b; auto. Qed.
(** first a call that writes, then one that does not *)
Definition RIE (s s' : fs) : Prop := exists s1, RI s s1 /\ RQ s1 s'.
Lemma rie_ri s s' : RI s s' -> RIE s s'.
Proof. intros H. exists s'. split; [exact H|split; reflexivity]. Qed.
Lemma rie_rq s s' : RQ s s' -> RIE s s'.
Proof. intros H. exists s. split; [reflexivity|exact H]. Qed.
Lemma rie_bind {A B} (m : M A) (k : A -> M B) : keeps RI m -> (forall x, keeps RQ (k x)) -> keeps RIE (bind m k).
Proof.
  intros H1 H2 s. unfold bind. pose proof (H1 s) as K. destruct (m s) as [[x|e] s1]; cbn [snd] in K; [|apply rie_ri, K]. exists s1. split; [exact K|apply H2].
Qed.
Lemma rie_read {A B} (m : M A) (k : A -> M B) : keeps eq m -> (forall x, keeps RIE (k x)) -> keeps RIE (bind m k).
Proof.
  intros H1 H2 s. unfold bind. pose proof (H1 s) as K. destruct (m s) as [[x|e] s1]; cbn [snd] in K; subst s1; [apply H2|apply rie_ri; reflexivity].
Qed.
Lemma rie_then {A B} (m : M A) (k : A -> M B) : keeps RIE m -> (forall x, keeps RQ (k x)) -> keeps RIE (bind m k).
Proof.
  intros H1 H2 s. unfold bind. pose proof (H1 s) as K. destruct (m s) as [[x|e] s1]; cbn [snd] in K; [|exact K]. destruct K as (s0 & A0 & B0).
  exists s0. split; [exact A0|]. etransitivity; [exact B0|apply H2].
Qed.
Lemma rie_exact s s' : RIE s s' -> once s s' -> exact_usage s -> exact_usage s'.
Proof.
  intros (s1 & (A & B & C & D) & (E1 & E2) & F) H U. assert (U1 : exact_usage s1).
  { apply D; [|exact U]. intros o Ho. specialize (H o Ho). specialize (C o). specialize (E2 o ltac:(lia)). destruct H as [H|[H H']]; [left; lia|].
    destruct (Nat.eq_dec (o_epoch (ob s1 o)) (o_epoch (ob s o))); [left; lia|right; split; [lia|exact H']]. }
  apply (F (f_next s) U1). lia.
Qed.
Lemma rq_handles s s' : handles_only s s' -> RQ s s'.
Proof.
  intros H. split; [exact (fp_handles _ _ _ _ (fp_core _ _ _ _ em_prims) s s' H)|]. intros N U _. rewrite H. split; [apply (usage_same _ s); try reflexivity; exact U|].
  split; [reflexivity|]. split; reflexivity.
Qed.
Lemma rq_times o f : times_only f -> keeps RQ (mod_obj o f).
Proof. intros Hf s. split; [apply (fp_times _ _ _ _ (fp_core _ _ _ _ em_prims) o f Hf)|]. intros N. apply (rn_quiet N o f (times_quiet f Hf)). Qed.
Lemma rq_remove p : keeps RQ (remove_object p).
Proof. intros s. split; [apply (gn_remove_object _ _ _ (fp_core _ _ _ _ em_prims))|]. intros N. apply rn_remove_object. Qed.
Lemma rq_create p m c z md um : keeps RQ (create_file_internally p m c z md um).
Proof. intros s. split; [apply (gn_create_int _ _ _ (fp_core _ _ _ _ em_prims)); intros _; exact Logic.I|]. intros N. apply rn_create_int. Qed.
Lemma rq_chmod a m f : keeps RQ (chmod a m f).
Proof. intros s. split; [apply (gn_chmod _ _ _ (fp_core _ _ _ _ em_prims))|]. intros N. apply rn_chmod. Qed.

Lemma rie_init fo a b om : keeps RIE (init_file_object fo a b om).
Proof.
  unfold init_file_object. destruct fo as [o|].
  - apply rie_read; [kr|]. intros d. destruct d; [intros s; apply rie_ri; reflexivity|].
    assert (K : keeps RI ((if om_write om && om_trunc om then set_contents o [] ;;; ret tt else ret tt) ;;; ret o)) by (kr; apply ri_contents).
    intros s. apply rie_ri, K.
  - intros s. apply rie_rq. revert s. match goal with |- forall s, RQ s (snd (?m s)) => change (keeps RQ m) end. kr. apply rq_create.
Qed.
Lemma rie_open_call a om b c r d : keeps RIE (open_call a om b c r d).
Proof.
  unfold open_call. apply rie_read; [unfold handle_file_arg, wget; kr|]. intros [z|fa].
  { intros s. apply rie_rq. apply (ir_add_wrap rq_handles). }
  apply rie_read; [kr|]. intros cc. cbv zeta. apply rie_read; [kr|]. intros du. destruct du; [intros s; apply rie_ri; reflexivity|].
  apply rie_then; [apply rie_init|]. intros o. kr.
  - apply rq_times. let yy := fresh in intros yy; destruct (c_win cc); destruct yy; reflexivity.
  - apply (ir_alloc_wrap rq_handles).
  - apply (ir_modify rq_handles). intros s. destruct (py_index _ _) as [[l|]|]; destruct s; reflexivity.
  - apply (ir_add_wrap rq_handles).
Qed.
Lemma rie_open a m b c : keeps RIE (open_ a m b c).
Proof.
  unfold open_. destruct (parse_mode m); [destruct (has_char _ _)|]; [apply rie_open_call|intros s; apply rie_ri; reflexivity|intros s; apply rie_ri; reflexivity].
Qed.
Lemma rie_outm {A} (f : A -> out) m : keeps RIE m -> keeps RIE (outm f m).
Proof. intros H. unfold outm. apply rie_then; [exact H|]. intros x. kr. Qed.

Lemma rie_of_rq {A} (m : M A) : keeps RQ m -> keeps RIE m.
Proof. intros H s. apply rie_rq, H. Qed.
Lemma rie_of_ri {A} (m : M A) : keeps RI m -> keeps RIE m.
Proof. intros H s. apply rie_ri, H. Qed.
Lemma rie_os_open p fl m u : keeps RIE (os_open p fl m u).
Proof.
  unfold os_open. apply rie_read; [kr|]. intros c. apply rie_read; [kr|]. intros um. cbv zeta. destruct (_ && _); [apply rie_of_rq; kr|].
  apply rie_read; [kr|]. intros q. destruct (c_win c); cbn [negb].
  { apply rie_read; [kr|]. intros [w|].
    - apply rie_of_rq. unfold wget. kr.
    - apply rie_then; [apply rie_open_call|]. intros w. unfold wget. kr. apply rq_chmod. }
  match goal with |- keeps RIE (bind ?m ?k) => assert (K : forall x, keeps RIE (k x)) end.
  { intros [w|].
    - apply rie_of_rq. unfold wget. kr.
    - apply rie_then; [apply rie_open_call|]. intros w. unfold wget. kr. apply rq_chmod. }
  match goal with |- keeps RIE (bind (bind ?l ?f) ?k) => assert (E : forall s, bind (bind l f) k s = bind l (fun x => bind (f x) k) s) end.
  { intros s. unfold bind. destruct (lift _ s) as [[]]; reflexivity. }
  intros s. rewrite E. revert s. match goal with |- forall s, RIE s (snd (?m s)) => change (keeps RIE m) end.
  apply rie_read; [kr|]. intros [|].
  2:{ apply rie_read; [kr|exact K]. }
  match goal with |- keeps RIE (bind ?m ?k) => assert (X : keeps RQ m) end.
  { kr. apply (ir_add_wrap rq_handles). }
  intros s. unfold bind at 1. unfold bind at 1. unfold lift at 1. destruct (resolve s q true) as [o|e]; [|apply rie_ri; reflexivity].
  unfold bind at 1. unfold gets at 1. destruct (is_dirobj s o).
  - destruct (_ || _); [apply rie_ri; reflexivity|].
    apply rie_rq. unfold bind at 1. pose proof (ir_add_wrap rq_handles (mkwrap WDirW o false false false true false false 0 0 false [] 0 0 0 0 0) s) as Y.
    destruct (add_wrap _ s) as [[w|e] s1]; exact Y.
  - exact (K None s).
Qed.
Lemma rie_close_file w : keeps RIE (close_file w).
Proof.
  unfold close_file. apply rie_read; [kr|]. intros o. destruct (negb o); [apply rie_of_rq; kr|]. apply rie_read; [unfold wget; kr|]. intros x.
  apply rie_bind.
  - unfold wget. kr; [apply (ir_flush ri_handles ri_times ri_contents)|]. apply ri_times. intros y. destruct y; reflexivity.
  - intros _. kr; [apply (ir_close_open rq_handles)| |apply rq_remove]. apply (ir_modify rq_handles). intros s. destruct (py_index _ _) as [[l|]|]; destruct s; reflexivity.
Qed.
Lemma rie_close w : keeps RIE (close_wrapper w).
Proof.
  unfold close_wrapper. apply rie_read; [unfold wget; kr|]. intros x. destruct (w_kind x).
  - apply rie_of_rq. kr.
  - apply rie_of_rq. apply (ir_close_open rq_handles).
  - apply rie_of_rq. kr. apply (ir_modify rq_handles). intros s. destruct s; reflexivity.
  - apply rie_close_file.
Qed.
Lemma rie_os_close fd : keeps RIE (os_close fd).
Proof. unfold os_close. apply rie_read; [kr|]. intros w. apply rie_close. Qed.

(** ** Every tidy call *)
Lemma once_ri op s : once s (snd (step op s)) -> keeps RI (step op) -> exact_usage s -> exact_usage (snd (step op s)).
Proof. intros H K U. destruct (K s) as (_ & _ & _ & X). exact (X H U). Qed.
Lemma ren_exact {A} (m : M A) s : keeps (REN 0) m -> exact_usage s -> exact_usage (snd (m s)).
Proof. intros K U. apply (K s U). lia. Qed.
Lemma outm_err {A} (f : A -> out) m s e : fst (m s) = Err e -> fst (outm f m s) = Err e.
Proof. unfold outm, bind. destruct (m s) as [[x|x] s']; cbn; intros H; [discriminate|congruence]. Qed.
Lemma outm_ok {A} (f : A -> out) m s x : fst (m s) = Ok x -> fst (outm f m s) = Ok (f x).
Proof. unfold outm, bind. destruct (m s) as [[y|y] s']; cbn; intros H; [congruence|discriminate]. Qed.
Lemma rn_outm N {A} (f : A -> out) m : keeps (REN N) m -> keeps (REN N) (outm f m).
Proof. intros H. unfold outm. kr. exact H. Qed.

Theorem usage_step op s : Ginv s -> tidy op s -> exact_usage s -> exact_usage (snd (step op s)).
Proof.
  intros G T U. unfold tidy in T. cbv zeta in T.
  assert (RE : keeps (REN 0) (step op) -> exact_usage (snd (step op s))) by (intros K; apply (ren_exact _ s K U)).
  assert (IE : once s (snd (step op s)) -> keeps RIE (step op) -> exact_usage (snd (step op s))) by (intros H K; exact (rie_exact s _ (K s) H U)).
  assert (LK : forall (m : M oid) (f : oid -> out), step op = outm f m -> fst (step op s) <> os_err ENOSPC -> devs_kept s (snd (step op s)) ->
    wp m s (fun r s' => r <> os_err ENOSPC -> devs_kept s s' -> RP 0 s s') -> exact_usage (snd (step op s))).
  { intros m f E H1 H2 W. rewrite E in *. rewrite outm_snd in *. apply W; [|exact H2]. intros K. apply H1. apply outm_err, K. }
  assert (LU : forall (m : M unit) (f : unit -> out), step op = outm f m -> fst (step op s) <> os_err ENOSPC -> devs_kept s (snd (step op s)) ->
    wp m s (fun r s' => r <> os_err ENOSPC -> devs_kept s s' -> RP 0 s s') -> exact_usage (snd (step op s))).
  { intros m f E H1 H2 W. rewrite E in *. rewrite outm_snd in *. apply W; [|exact H2]. intros K. apply H1. apply outm_err, K. }
  assert (HN : (0 <= f_next s)%nat) by lia.
  destruct op; try match type of T with True => apply RE; cbn [step]; apply rn_outm end;
    try (apply IE; [exact T|]; cbn [step]; apply rie_outm).
  - (* CreateFile *) apply rn_create_int.
  - apply rn_create_dir.
  - apply rn_create_symlink.
  - clear RE. destruct T as (-> & T1 & T2). apply (LK (create_link old new follow false) RObj eq_refl T1 T2). apply (wp_link_usage 0 s _ _ _ G U HN).
  - unfold os_symlink. kr. apply rn_create_symlink.
  - clear RE. destruct T as (T1 & T2). apply (LU (os_link src dst) (fun _ => RUnit) eq_refl T1 T2). unfold os_link.
    apply wp_bind. eapply wp_conseq; [apply (wp_link_usage 0 s src dst true G U HN)|].
    intros [o|e] s' W; [wstep; intros _; apply W; discriminate|]. intros K. apply W. intros E. apply K. unfold os_err in *. congruence.
  - apply rn_makedir.
  - apply rn_makedirs.
  - apply rn_mknod.
  - apply rn_remove.
  - apply rn_rmdir.
  - apply rn_removedirs.
  - apply rn_remove_object.
  - clear RE. destruct T as (T1 & T2). apply (LU (rename old new force) (fun _ => RUnit) eq_refl T1 T2). apply (wp_rename_usage 0 s _ _ _ G U HN).
  - apply rn_chmod.
  - apply rn_lchmod.
  - apply rn_utime.
  - apply rn_chown.
  - unfold umask. kr. apply rn_env. intros s0. destruct s0; reflexivity.
  - unfold chdir. kr. apply rn_env. intros s0. destruct s0; reflexivity.
  - apply rn_setxattr.
  - apply rn_removexattr.
  - apply rie_of_ri. unfold os_truncate. kr. apply ri_size.
  - apply rie_of_ri. unfold os_ftruncate. kr. apply ri_size.
  - clear RE LK LU. cbn [step] in *. rewrite outm_snd in *. apply (wp_mount_usage 0 s p total G U HN). intros k E. apply (T (RPath k)). apply outm_ok, E.
  - apply rn_set_usage.
  - apply rn_get_usage.
  - apply rie_of_ri. unfold fs_set_contents. kr. apply ri_contents.
  - apply rie_open.
  - apply rie_os_open.
  - apply rie_os_close.
  - apply rie_of_ri, (ir_os_read ri_handles ri_times ri_contents).
  - apply rie_of_ri, (ir_os_write ri_handles ri_times ri_contents).
  - apply rie_of_ri, (ir_os_pipe ri_handles).
  - apply rie_of_ri, (ir_file_read ri_handles ri_times ri_contents).
  - apply rie_of_ri, (ir_file_write ri_handles ri_times ri_contents).
  - apply rie_of_ri, (ir_file_seek ri_handles ri_times ri_contents).
  - apply rie_of_ri, (ir_file_tell ri_handles ri_times ri_contents).
  - apply rie_of_ri, (ir_file_truncate ri_handles ri_times ri_size ri_contents).
  - apply rie_of_ri, (ir_flush_wrapper ri_handles ri_times ri_contents).
  - apply rie_close.
  - apply rn_env. intros s0. destruct s0; reflexivity.
  - apply rn_env. intros s0. destruct s0; reflexivity.
  - apply rn_env. intros s0. destruct s0; reflexivity.
Qed.
Lemma init_usage c total um uid gid now : linux_like c -> exact_usage (init c total um uid gid now).
Proof.
  intros L. split.
  - intros k m [E|[]]. injection E as <- <-. reflexivity.
  - intros o. destruct o as [|[|o]]; cbn; lia.
  - apply (devs_reachable c). exists total, um, uid, gid, now, []. reflexivity.
  - intros o Ho. change (f_next (init c total um uid gid now)) with 2%nat in Ho. destruct o as [|[|o]]; [lia|lia|]. split; cbn; [reflexivity|lia].
  - apply (ll_win c L).
  - intros o Ho. change (f_next (init c total um uid gid now)) with 2%nat in Ho. destruct o as [|[|o]]; [lia|lia|]. reflexivity.
Qed.
Theorem usage_run ops : forall s, Ginv s -> all_tidy s ops -> exact_usage s -> exact_usage (run s ops).
Proof.
  induction ops as [|o l IH]; intros s G T U; [exact U|]. destruct T as [T1 T2]. cbn [run]. apply IH; [apply step_pres, G|exact T2|apply usage_step; assumption].
Qed.
