(** * What successful and failing creations and removals do. *)
From Verif Require Export ResThm2.

(** equality of states from equalities of updated states *)
Ltac steq := unfold set_heap, set_next, set_ino, set_mounts, set_dev in *; cbn in *;
  repeat match goal with K : mkfs _ _ _ _ _ _ _ _ _ _ _ _ _ _ _ _ = _ |- _ => injection K; clear K; intros end; subst; reflexivity.

Lemma unseen_refl s : unseen s s.
Proof. constructor; [reflexivity|lia|destruct s; reflexivity]. Qed.
Lemma unseen_alloc s nm mode b : unseen s (snd (alloc nm mode b s)).
Proof.
  constructor; [|cbn; lia|destruct s; reflexivity].
  intros x Hx. unfold ob. cbn. unfold upd. destruct (Nat.eqb_spec x (f_next s)); [lia|reflexivity].
Qed.
Lemma unseen_trans a b c : unseen a b -> unseen b c -> unseen a c.
Proof.
  intros [O1 N1 S1] [O2 N2 S2]. constructor; [|lia|].
  - intros x Hx. rewrite O2 by lia. apply O1, Hx.
  - clear -S1 S2. destruct a, b, c; steq.
Qed.

(** ** one_more from the graph lemmas *)
Lemma ob_alloc s nm mode b x : ob (snd (alloc nm mode b s)) x = if Nat.eqb x (f_next s) then fresh_obj s nm mode b else ob s x.
Proof. unfold ob. cbn. unfold upd. destruct (Nat.eqb_spec x (f_next s)); reflexivity. Qed.

Lemma added_one_more s s' d o : d <> o -> is_dirobj s d = true -> entry s d (o_name (ob s o)) = None ->
  added s s' d o -> one_more s s' d (o_name (ob s o)) o /\ f_next s' = f_next s /\
  exists i, ob s' o = wo_dev (wo_nlink (wo_ino (wo_parent (ob s o) (Some d)) (Some i)) (o_nlink (ob s o) + 1)) (o_dev (ob s d)).
Proof.
  intros Hn Hd He (s1 & [R D O X] & Hm).
  assert (Hob : forall x, ob s' x = ob s1 x) by (intros x; apply only_mounts_ob, Hm).
  split; [|split].
  - constructor.
    + exact Hd.
    + exact He.
    + rewrite Hob. exact D.
    + intros x H1 H2. rewrite Hob. apply X; assumption.
    + clear -R Hm. unfold only_mounts in Hm. destruct s, s1, s'; steq.
  - rewrite Hm, R. reflexivity.
  - destruct O as (i & E & _). exists i. rewrite Hob. exact E.
Qed.

Lemma alloc_one_more s s' d nm mode b : Ginv s -> b = BDir [] \/ (exists x, b = BFile x) ->
  d <> f_next s -> let s2 := snd (alloc nm mode b s) in
  is_dirobj s2 d = true -> entry s2 d nm = None -> added s2 s' d (f_next s) ->
  one_more s s' d nm (f_next s) /\ f_next s' = S (f_next s) /\
  exists i, ob s' (f_next s) = wo_dev (wo_nlink (wo_ino (wo_parent (fresh_obj s nm mode b) (Some d)) (Some i))
     (o_nlink (fresh_obj s nm mode b) + 1)) (o_dev (ob s d)).
Proof.
  intros H Hb Hdn s2 Hd He Ha.
  assert (Hnew : ob s2 (f_next s) = fresh_obj s nm mode b) by (unfold s2; rewrite ob_alloc, Nat.eqb_refl; reflexivity).
  assert (Hold : forall x, x <> f_next s -> ob s2 x = ob s x).
  { intros x Hx. unfold s2. rewrite ob_alloc. destruct (Nat.eqb_spec x (f_next s)); [contradiction|reflexivity]. }
  assert (Hnm : o_name (ob s2 (f_next s)) = nm) by (rewrite Hnew; reflexivity).
  destruct (added_one_more s2 s' d (f_next s) Hdn Hd) as (OM & Hnx & i & Hi); [rewrite Hnm; exact He|exact Ha|].
  rewrite Hnm in OM. destruct OM as [_ _ D X R].
  split; [|split].
  - assert (Eents : ents s2 d = ents s d) by (unfold ents; rewrite (Hold d Hdn); reflexivity).
    constructor.
    + unfold is_dirobj in *. rewrite <- (Hold d Hdn). exact Hd.
    + unfold entry in *. rewrite <- Eents. exact He.
    + rewrite D, (Hold d Hdn), Eents. reflexivity.
    + intros x H1 H2. rewrite (X x H1 H2). apply Hold, H2.
    + clear -R. unfold s2 in R. destruct s, s'; steq.
  - rewrite Hnx. reflexivity.
  - exists i. rewrite Hi, Hnew, (Hold d Hdn). reflexivity.
Qed.

(** Resolving the same path before and after the allocation of an object. *)
Lemma alloc_ext s nm mode b : Ginv s -> b = BDir [] \/ (exists x, b = BFile x) ->
  ext (snd (alloc nm mode b s)) s.
Proof.
  intros H Hb. set (s2 := snd (alloc nm mode b s)).
  assert (Hents : forall o, ents s2 o = ents s o) by (intros o; apply ents_alloc; [exact Hb|apply (gi_new s H)]).
  assert (Hat : forall names o, at_names s2 names = Some o -> o <> f_next s).
  { intros names o K. unfold at_names in K. rewrite (tree_at_ents s s2 Hents) in K.
    pose proof (tree_at_lt s root_oid names o H) as L. pose proof (gi_next s H). unfold root_oid in *. specialize (L ltac:(lia) K). lia. }
  assert (Hold : forall x, x <> f_next s -> ob s2 x = ob s x).
  { intros x Hx. unfold s2. rewrite ob_alloc. destruct (Nat.eqb_spec x (f_next s)); [contradiction|reflexivity]. }
  constructor; try reflexivity.
  - unfold devnull_name. rewrite Hold; [reflexivity|]. pose proof (gi_next s H). unfold devnull_oid. lia.
  - intros d n o. unfold entry. rewrite Hents. auto.
  - intros names o K. rewrite (Hold o (Hat _ _ K)). reflexivity.
  - intros names o data K E. rewrite <- E, (Hold o (Hat _ _ K)). reflexivity.
Qed.

(** ** Positions *)
Lemma anp_names_of s p names : good s -> p <> [] -> Forall (ordinary (sepc s)) names ->
  anp s p = abs_path (sepc s) names -> names_of s p names.
Proof.
  intros Hg Hp Hn Ha. pose proof (gd_lin s Hg) as Hl. unfold names_of.
  destruct (absnormpath_all (f_cfg s) (linux_like_abs _ Hl) (f_cwd s) p (gd_cwd s Hg)) as (_ & _ & _ & K).
  rewrite <- (K Hp []). unfold anp in Ha. rewrite Ha. unfold abs_path.
  assert (Hcl := proj1 (Forall_forall _ _) (Forall_clean _ _ Hn)).
  rewrite (walk_abs_path (f_cfg s)); [|intros w Hw; apply Hcl, Hw].
  rewrite (den_ordinary (f_cfg s)) by exact Hn. apply app_nil_r.
Qed.
Lemma anp_cons_names_of s p names : good s -> names <> [] -> Forall (ordinary (sepc s)) names ->
  anp s p = abs_path (sepc s) names -> names_of s p names.
Proof.
  intros Hg Hne Hn Ha. apply anp_names_of; try assumption. intros ->. rewrite (anp_nil s Hg) in Ha.
  apply Hne. symmetry. apply (abs_path_clean_inj (f_cfg s) (gd_lin s Hg)); [constructor|apply Forall_clean, Hn|exact Ha].
Qed.
Lemma names_of_anp s p names : good s -> p <> [] -> names_of s p names ->
  Forall (ordinary (sepc s)) names /\ anp s p = abs_path (sepc s) names.
Proof.
  intros Hg Hp Hw. destruct (anp_names s p Hg) as (ns & Hn & E).
  pose proof (anp_names_of s p ns Hg Hp Hn E) as K. unfold names_of in *. rewrite K in Hw.
  apply (f_equal (@rev _)) in Hw. rewrite !rev_involutive in Hw. subst ns. auto.
Qed.
Lemma resolve_true_false s p o : good s -> resolve s p true = Ok o -> resolve s p false = Ok o.
Proof.
  intros Hg E. unfold resolve in *. apply (resolve_ok s Hg) in E. apply (resolve_ok s Hg).
  destruct E as (rr & E & Hc & [K|(K1 & K2 & K3 & K4)]); exists rr; (split; [exact E|]; split; [exact Hc|]); [left; exact K|].
  right. repeat split; auto. right. left. reflexivity.
Qed.
Lemma resolve_dirm s pre d : Ginv s -> resolve s (abs_path (sepc s) pre) true = Ok d -> d < f_next s.
Proof. intros H E. apply (resolve_lt s _ true d H E). Qed.

(** ** Disk usage of objects of size 0 *)
Lemma add_used_zero ms dev : add_used ms dev 0 = ms.
Proof.
  induction ms as [|[k m] ms IH]; cbn [add_used]; [reflexivity|].
  destruct (opt_nat_eqb _ _); [|rewrite IH; reflexivity]. destruct m; cbn. rewrite Z.add_0_r. reflexivity.
Qed.
Lemma add_used_none ms dev z : mount_for_dev ms dev = None -> add_used ms dev z = ms.
Proof.
  induction ms as [|[k m] ms IH]; cbn [add_used mount_for_dev]; [reflexivity|].
  destruct (opt_nat_eqb _ _); [discriminate|]. intros E. rewrite (IH E). reflexivity.
Qed.
Lemma mount_for_dev_in ms dev m : mount_for_dev ms dev = Some m -> exists k, In (k, m) ms /\ dev = Some (m_idev m).
Proof.
  induction ms as [|[k x] ms IH]; cbn [mount_for_dev]; [discriminate|].
  destruct (opt_nat_eqb (Some (m_idev x)) dev) eqn:E.
  - intros K; injection K as ->. exists k. split; [left; reflexivity|]. symmetry. apply opt_nat_eqb_eq, E.
  - intros K. destruct (IH K) as (k' & Hk & Hd). exists k'. split; [right; exact Hk|exact Hd].
Qed.
Lemma cdu_zero s dev : within_limits s -> change_disk_usage 0 dev s = (Ok tt, s).
Proof.
  intros W. unfold change_disk_usage. destruct (mount_for_dev (f_mounts s) dev) as [m|] eqn:E; [|reflexivity].
  rewrite add_used_zero. assert (Es : set_mounts s (f_mounts s) = s) by (destruct s; reflexivity). rewrite Es.
  destruct (m_total m) as [t|] eqn:Et; [|reflexivity].
  apply mount_for_dev_in in E. destruct E as (k & Hk & _). specialize (W k m t Hk Et).
  destruct (Z.ltb_spec (t - m_used m) 0); [lia|reflexivity].
Qed.
Lemma cdu_err z dev s e : fst (change_disk_usage z dev s) = Err e ->
  e = OSErr ENOSPC /\ exists m t, mount_for_dev (f_mounts s) dev = Some m /\ m_total m = Some t /\ (t - m_used m < z)%Z.
Proof.
  unfold change_disk_usage. destruct (mount_for_dev (f_mounts s) dev) as [m|] eqn:E; [|discriminate].
  destruct (m_total m) as [t|] eqn:Et; [|discriminate]. destruct (Z.ltb_spec (t - m_used m) z); [|discriminate].
  intros K. injection K as <-. split; [reflexivity|]. exists m, t. auto.
Qed.

(** ** Adding an object without size *)
Lemma linked_limits s s' d o nm : linked s s' d o nm -> within_limits s -> within_limits s'.
Proof.
  intros HL W k m t. rewrite (ln_rest _ _ _ _ _ HL). apply W.
Qed.
Lemma wp_add_entry_empty s d o : Ginv s -> within_limits s -> d <> o -> (is_dirobj s o = false -> o_size (ob s o) = 0%Z) -> ents s o = [] ->
  wp (add_entry d o) s (fun r s' =>
    (r <> Ok tt /\ s' = s /\
       (r = Err AttrErr \/ r = Err (OSErr EACCES) \/ r = Err (OSErr EEXIST))) \/
    (is_dirobj s d = true /\ entry s d (o_name (ob s o)) = None /\ linked s s' d o (o_name (ob s o)) /\ r = Ok tt)).
Proof.
  intros HG W Hn Hsz He. unfold add_entry. wstep. destruct (is_dirobj s d) eqn:Hd; cbn [negb].
  2:{ wstep. left. repeat split; auto. discriminate. }
  wstep. match goal with |- wp (if ?b then _ else _) _ _ => destruct b end.
  { wstep. left. repeat split; auto. discriminate. }
  wstep. unfold entry. destruct (assoc (o_name (ob s o)) (ents s d)) eqn:Ea.
  { wstep. left. repeat split; auto. discriminate. }
  destruct (link_obj_spec s d o Hn Hd) as (s1 & E1 & HL). apply wp_bind. unfold wp at 1. rewrite E1. cbn [fst snd].
  wstep. destruct (Z.eqb _ 1).
  - wstep. wstep. assert (Ez : obj_size (S (f_next s1)) s1 o = 0%Z).
    { destruct (ln_o _ _ _ _ _ HL) as (i & Eo & _). cbn [obj_size]. rewrite Eo. cbn.
      unfold is_dirobj in Hsz. unfold ents in He. destruct (o_body (ob s o)) as [es|da] eqn:Eb; cbn.
      - subst es. reflexivity.
      - unfold st_size. rewrite Eo. cbn. destruct (_ && _); [reflexivity|]. apply Hsz. reflexivity. }
    rewrite Ez. unfold wp. rewrite (cdu_zero s1 _ (linked_limits _ _ _ _ _ HL W)). right. auto.
  - wstep. right. auto.
Qed.

(** ** Removing a file or an empty directory *)
Lemma unlinked_one_less s s1 s' d n x : Ginv s -> entry s d n = Some x -> ents s x = [] -> only_mounts s s1 ->
  unlinked s1 s' d x n -> one_less s s' d n x.
Proof.
  intros HG He Hx Hm [R O].
  assert (Hob : forall y, ob s1 y = ob s y) by (intros y; apply only_mounts_ob, Hm).
  assert (Hdx : d <> x).
  { intros ->. unfold entry in He. rewrite Hx in He. discriminate. }
  assert (Een : ents s1 d = ents s d) by (unfold ents; rewrite Hob; reflexivity).
  constructor.
  - exact He.
  - rewrite O, Een, Hob, Nat.eqb_refl. cbv zeta. destruct (Nat.eqb_spec d x); [contradiction|]. reflexivity.
  - rewrite O, Hob, Nat.eqb_refl. cbv zeta. destruct (Nat.eqb_spec x d); [congruence|]. reflexivity.
  - intros y Hyd Hyx. rewrite O, Hob. cbv zeta. destruct (Nat.eqb_spec y d); [contradiction|]. destruct (Nat.eqb_spec y x); [contradiction|]. reflexivity.
  - clear -R Hm. unfold only_mounts in Hm. destruct s, s1, s'; steq.
Qed.

Lemma wp_remove_leaf s d n x rec : Ginv s -> entry s d n = Some x -> ents s x = [] ->
  wp (remove_entry d n rec) s (fun r s' =>
    (s' = s /\ r = Err (OSErr EACCES) /\ is_root s = false /\
      N.land (o_mode (ob s d)) (N.lor PERM_WRITE PERM_EXE) <> N.lor PERM_WRITE PERM_EXE) \/
    (s' = s /\ r = Err (OSErr ENOSPC) /\ is_dirobj s x = false /\ exists m t, mount_for_dev (f_mounts s) (o_dev (ob s x)) = Some m /\ m_total m = Some t /\
       (t - m_used m < - o_size (ob s x))%Z) \/
    (r = Ok tt /\ one_less s s' d n x /\
       (is_dirobj s x = true -> f_mounts s' = f_mounts s) /\
       (is_dirobj s x = false -> f_mounts s' = if Z.eqb (o_nlink (ob s x)) 1 then add_used (f_mounts s) (o_dev (ob s x)) (- o_size (ob s x)) else f_mounts s))).
Proof.
  intros HG He Hx.
  match goal with |- wp _ _ ?Q => change (wp (remove_entry_n (S (f_next s)) d n rec) s Q) end. cbn [remove_entry_n].
  assert (Een : normalized_entryname s d n = n).
  { unfold normalized_entryname. rewrite (Ginv_cs s HG). reflexivity. }
  wstep. rewrite Een. wstep.
  assert (Eg : get_entry s d n = Ok x).
  { unfold get_entry. rewrite Een. pose proof (entry_dirobj _ _ _ _ He) as Hd. unfold is_dirobj in Hd. unfold entry, ents in He.
    destruct (o_body (ob s d)); [|discriminate]. rewrite He. reflexivity. }
  rewrite Eg. wstep. wstep. rewrite (Ginv_win s HG).
  match goal with |- wp (if ?b then _ else _) _ _ => destruct b eqn:Eb end.
  { wstep. left. apply andb_true_iff in Eb. destruct Eb as [E1 E2]. apply negb_true_iff in E1, E2. apply N.eqb_neq in E2. auto. }
  wstep. apply wp_bind.
  assert (Hun : forall s1, only_mounts s s1 -> wp (unlink_obj d x n) s1 (fun r s' => r = Ok tt /\ one_less s s' d n x /\ f_mounts s' = f_mounts s1)).
  { intros s1 Hm. assert (H1 : Ginv s1) by (apply (only_mounts_Ginv s); assumption).
    assert (He1 : entry s1 d n = Some x) by (unfold entry, ents in *; rewrite (only_mounts_ob s s1 d Hm); exact He).
    destruct (unlink_obj_spec s1 d x n H1 He1) as (s' & E' & HU). unfold wp. rewrite E'. cbn [fst snd].
    split; [reflexivity|]. split; [apply (unlinked_one_less s s1); assumption|]. rewrite (un_rest _ _ _ _ _ HU). reflexivity. }
  destruct (is_dirobj s x) eqn:Hdx.
  - rewrite andb_true_r. destruct rec.
    + wstep. rewrite Hx. cbn [length rm_loop]. wstep. rewrite Hx. wstep. eapply wp_conseq; [apply Hun, only_mounts_refl|].
      intros r s' (-> & K1 & K2). right. right. split; [reflexivity|]. split; [exact K1|]. split; [intros _; exact K2|discriminate].
    + wstep. assert (Enl : (o_nlink (ob s x) =? 1)%Z = false).
      { apply Z.eqb_neq. pose proof (entry_lt s d n x HG He) as [Hlt _]. rewrite (gi_nlink s HG x Hlt), Hdx, Hx. cbn.
        pose proof (refs_pos s d n x HG (entry_In s d n x He)). lia. }
      rewrite Enl. wstep. cbv beta iota. eapply wp_conseq; [apply Hun, only_mounts_refl|].
      intros r s' (-> & K1 & K2). right. right. split; [reflexivity|]. split; [exact K1|]. split; [intros _; exact K2|discriminate].
  - rewrite andb_false_r. wstep. destruct (Z.eqb (o_nlink (ob s x)) 1) eqn:En.
    + wstep. wstep. assert (Esz : obj_size (S (f_next s)) s x = o_size (ob s x)).
      { cbn [obj_size]. unfold is_dirobj in Hdx. destruct (o_body (ob s x)); [discriminate|]. unfold st_size. rewrite (Ginv_win s HG). reflexivity. }
      rewrite Esz. eapply wp_conseq; [apply wp_and; [apply wp_change_disk_usage|apply wp_intro; intros r s' E; exact E]|].
      cbv beta. intros r s1 ([Hm Hc] & Er). destruct Hc as [->|[-> ->]].
      * eapply wp_conseq; [apply Hun, Hm|]. intros r s' (-> & K1 & K2). right. right. split; [reflexivity|]. split; [exact K1|].
        split; [discriminate|]. intros _. rewrite K2. unfold change_disk_usage in Er.
        destruct (mount_for_dev (f_mounts s) (o_dev (ob s x))) as [m|] eqn:Em.
        -- destruct (m_total m); [destruct (Z.ltb _ _); [discriminate|]|]; injection Er as <-; reflexivity.
        -- injection Er as <-. symmetry. clear -Em. induction (f_mounts s) as [|[k m] ms IH]; [reflexivity|].
           cbn [add_used mount_for_dev] in *. destruct (opt_nat_eqb _ _); [discriminate|]. rewrite IH by exact Em. reflexivity.
      * right. left. split; [reflexivity|]. split; [reflexivity|]. split; [reflexivity|].
        destruct (cdu_err (- o_size (ob s x)) (o_dev (ob s x)) s (OSErr ENOSPC)) as (_ & K); [rewrite Er; reflexivity|exact K].
    + wstep. eapply wp_conseq; [apply Hun, only_mounts_refl|].
      intros r s' (-> & K1 & K2). right. right. split; [reflexivity|]. split; [exact K1|]. split; [discriminate|]. intros _; exact K2.
Qed.

Definition leaf_post (s : fs) (d : oid) (n : str) (x : oid) (r : res unit) (s' : fs) : Prop :=
  (s' = s /\ r = Err (OSErr EACCES) /\ is_root s = false /\
      N.land (o_mode (ob s d)) (N.lor PERM_WRITE PERM_EXE) <> N.lor PERM_WRITE PERM_EXE) \/
  (s' = s /\ r = Err (OSErr ENOSPC) /\ is_dirobj s x = false /\ exists m t, mount_for_dev (f_mounts s) (o_dev (ob s x)) = Some m /\ m_total m = Some t /\
       (t - m_used m < - o_size (ob s x))%Z) \/
  (r = Ok tt /\ one_less s s' d n x /\
       (is_dirobj s x = true -> f_mounts s' = f_mounts s) /\
       (is_dirobj s x = false -> f_mounts s' = if Z.eqb (o_nlink (ob s x)) 1 then add_used (f_mounts s) (o_dev (ob s x)) (- o_size (ob s x)) else f_mounts s)).

Lemma wp_remove_object_leaf s p pre n d x : Ginv s -> anp s p = abs_path (sepc s) (pre ++ [n]) ->
  Forall (ordinary (sepc s)) (pre ++ [n]) -> resolve s (abs_path (sepc s) pre) false = Ok d ->
  entry s d n = Some x -> ents s x = [] -> wp (remove_object p) s (leaf_post s d n x).
Proof.
  intros H Ep Hn E He Hx. pose proof (gi_lin s H) as Hl.
  unfold remove_object. wstep. rewrite (original_path_cs s p (Ginv_cs s H)), Ep.
  wstep. rewrite (is_root_path_linux _ _ Hl), (abs_path_root_eq _ _ (Forall_clean _ _ Hn)).
  replace (match pre ++ [n] with [] => true | _ :: _ => false end) with false by (destruct pre; reflexivity).
  apply wp_catch. wstep. rewrite (splitpath_abs_path _ (linux_like_posix _ Hl) _ _ Hn). cbn [fst snd].
  wstep. rewrite E. wstep. rewrite (entry_dirobj _ _ _ _ He). cbn [negb].
  eapply wp_conseq; [apply (wp_remove_leaf s d n x true H He Hx)|].
  intros r s' [(-> & -> & K)|[(-> & -> & K)|(-> & K)]]; cbv beta iota.
  - wstep. left. auto.
  - wstep. right. left. auto.
  - right. right. auto.
Qed.

(** ** The new object does not disturb lookups *)
Lemma one_more_new_ext s s' d n : Ginv s -> one_more s s' d n (f_next s) -> ext s s'.
Proof.
  intros H [Hd Hw D X R].
  assert (Hlt : forall names x, at_names s names = Some x -> x <> f_next s).
  { intros names x K. pose proof (gi_next s H). pose proof (tree_at_lt s root_oid names x H) as L. unfold root_oid in L. specialize (L ltac:(lia) K). lia. }
  assert (Hdl := dirobj_lt s d H Hd).
  constructor.
  - rewrite R. reflexivity.
  - rewrite R. reflexivity.
  - rewrite R. reflexivity.
  - unfold devnull_name. rewrite X; [reflexivity| |].
    + intros K. pose proof (gi_null s H) as Hz. rewrite K in Hz. congruence.
    + pose proof (gi_next s H). unfold devnull_oid. lia.
  - intros e m o K. destruct (Nat.eq_dec e d) as [->|Ne].
    + unfold entry, ents. rewrite D. cbn. rewrite assoc_app. unfold entry in K. rewrite K. reflexivity.
    + assert (e <> f_next s) by (pose proof (entry_lt s e m o H K); lia).
      unfold entry, ents in *. rewrite X by assumption. exact K.
  - intros names x K. destruct (Nat.eq_dec x d) as [->|Ne]; [rewrite D; reflexivity|].
    rewrite X; [reflexivity|exact Ne|apply (Hlt names x K)].
  - intros names x data K Eb. destruct (Nat.eq_dec x d) as [->|Ne].
    + unfold is_dirobj in Hd. rewrite Eb in Hd. discriminate.
    + rewrite X; [exact Eb|exact Ne|apply (Hlt names x K)].
Qed.

Lemma del_assoc_snoc {A} n (x : A) es : assoc n es = None -> del_assoc n (es ++ [(n, x)]) = es.
Proof.
  induction es as [|[k y] es IH]; cbn; [rewrite str_eqb_refl; reflexivity|].
  destruct (str_eqb n k); [discriminate|]. intros H. rewrite IH by exact H. reflexivity.
Qed.

(** One more and then one less leaves nothing to be seen. *)
Lemma more_less_unseen s s1 s' d n : Ginv s -> one_more s s1 d n (f_next s) -> one_less s1 s' d n (f_next s) ->
  f_mounts s' = f_mounts s -> f_next s <= f_next s1 -> unseen s s'.
Proof.
  intros H [Hd Hw D X R] [W D2 O2 X2 R2] Hm Hnx. constructor.
  - intros x Hx. destruct (Nat.eq_dec x d) as [->|Ne].
    + assert (Es1 : ents s1 d = ents s d ++ [(n, f_next s)]) by (unfold ents at 1; rewrite D; reflexivity).
      rewrite D2, Es1, D, (del_assoc_snoc n _ (ents s d) Hw). unfold ents. unfold is_dirobj in Hd.
      destruct (ob s d) as [? ? ? ? ? ? ? ? b]; cbn in *. destruct b as [es|]; [|discriminate].
      unfold wo_nlink, wo_body; cbn. f_equal. lia.
    + rewrite X2; [apply X; [exact Ne|lia]|exact Ne|lia].
  - rewrite R2. exact Hnx.
  - clear -R R2 Hm. destruct s, s1, s'; steq.
Qed.

(** ** Creating a file in an existing directory *)
Definition file_data (c : option str) (sz : option Z) : option str :=
  match sz with Some _ => None | None => Some (match c with Some x => x | None => [] end) end.
Definition file_size (c : option str) (sz : option Z) : Z :=
  match sz with Some n => n | None => match c with Some x => Z.of_nat (length x) | None => 0 end end.

(** filling a file that is new and empty *)
Lemma wp_fill_new s o c sz : o <> devnull_oid -> o_body (ob s o) = BFile None -> o_size (ob s o) = 0%Z ->
  wp (fill_file o c sz) s (fun r s' =>
    (r = Err (OSErr ENOSPC) /\ s' = s /\
      ((file_size c sz < 0)%Z \/ exists m t, mount_for_dev (f_mounts s) (o_dev (ob s o)) = Some m /\ m_total m = Some t /\ (t - m_used m < file_size c sz)%Z)) \/
    (r = Ok tt /\ (0 <= file_size c sz)%Z /\
      fst (change_disk_usage (file_size c sz) (o_dev (ob s o)) s) = Ok tt /\
      exists ep, s' = mod_ob (snd (change_disk_usage (file_size c sz) (o_dev (ob s o)) s)) o
           (fun x => wo_epoch (wo_size (wo_body x (BFile (file_data c sz))) (file_size c sz)) ep))).
Proof.
  intros Hn Hb Hs.
  assert (Hst : forall s1, ob s1 o = ob s o -> st_size s1 o = 0%Z).
  { intros s1 E. unfold st_size. rewrite E, Hs. destruct (_ && _); reflexivity. }
  assert (Hinit : forall cc, (file_size (Some cc) None = Z.of_nat (length cc)) ->
    wp (set_initial_contents o cc ;;; ret tt) s (fun r s' =>
    (r = Err (OSErr ENOSPC) /\ s' = s /\ exists m t, mount_for_dev (f_mounts s) (o_dev (ob s o)) = Some m /\ m_total m = Some t /\ (t - m_used m < Z.of_nat (length cc))%Z) \/
    (r = Ok tt /\ fst (change_disk_usage (Z.of_nat (length cc)) (o_dev (ob s o)) s) = Ok tt /\
      exists ep, s' = mod_ob (snd (change_disk_usage (Z.of_nat (length cc)) (o_dev (ob s o)) s)) o
           (fun x => wo_epoch (wo_size (wo_body x (BFile (Some cc))) (Z.of_nat (length cc))) ep)))).
  { intros cc _. unfold set_initial_contents. destruct (Nat.eqb_spec o devnull_oid); [contradiction|].
    apply wp_bind. wstep. wstep. wstep. rewrite (Hst s eq_refl), Z.sub_0_r. apply wp_bind.
    eapply wp_conseq; [apply wp_and; [apply wp_change_disk_usage|apply wp_intro; intros r s' E; exact E]|].
    cbv beta. intros r s1 ([Hm Hc] & Er). destruct Hc as [->|[-> ->]].
    - wstep. assert (Et : truthy_contents s1 o = false) by (unfold truthy_contents; rewrite (only_mounts_ob s s1 o Hm), Hb; reflexivity).
      rewrite Et. cbn [when]. wstep. unfold mod_obj. wstep. wstep. wstep. right. split; [reflexivity|]. rewrite Er. cbn [fst snd]. split; [reflexivity|].
      exists (S (o_epoch (ob s1 o))). unfold mod_ob. reflexivity.
    - left. split; [reflexivity|]. split; [reflexivity|].
      destruct (cdu_err (Z.of_nat (length cc)) (o_dev (ob s o)) s (OSErr ENOSPC)) as (_ & K); [rewrite Er; reflexivity|exact K]. }
  unfold fill_file. destruct sz as [n|].
  - cbn [file_size file_data]. unfold set_large_file_size. destruct (Z.ltb_spec n 0).
    { wstep. left. auto. }
    wstep. rewrite (Hst s eq_refl). cbn [Z.eqb negb when]. wstep. wstep. apply wp_bind.
    eapply wp_conseq; [apply wp_and; [apply wp_change_disk_usage|apply wp_intro; intros r s' E; exact E]|].
    cbv beta. intros r s1 ([Hm Hc] & Er). destruct Hc as [->|[-> ->]].
    + unfold mod_obj. wstep. right. split; [reflexivity|]. split; [lia|]. rewrite Er. cbn [fst snd]. split; [reflexivity|].
      exists (o_epoch (ob s1 o)). unfold mod_ob, upd. f_equal. 
    + left. split; [reflexivity|]. split; [reflexivity|]. right.
      destruct (cdu_err n (o_dev (ob s o)) s (OSErr ENOSPC)) as (_ & K); [rewrite Er; reflexivity|exact K].
  - destruct c as [cc|]; (eapply wp_conseq; [apply Hinit; reflexivity|]); intros r s' [(-> & -> & K)|(-> & K1 & K2)]; [left|right|left|right];
    cbn [file_size file_data]; repeat split; auto; lia.
Qed.

Lemma cdu_mounts z dev s : snd (change_disk_usage z dev s) = set_mounts s (f_mounts (snd (change_disk_usage z dev s))).
Proof. destruct (wp_change_disk_usage z dev s) as [K _]. exact K. Qed.

Lemma resolve_alloc s nm mode b p d : Ginv s -> b = BDir [] \/ (exists x, b = BFile x) -> (b = BDir [] -> has_bit mode S_IFDIR = true) ->
  d <> devnull_oid -> resolve (snd (alloc nm mode b s)) p true = Ok d -> resolve s p true = Ok d.
Proof.
  intros H Hb Hm Hd E. apply (ext_resolve (snd (alloc nm mode b s)) s); try assumption.
  - apply Ginv_good, Ginv_alloc; assumption.
  - apply Ginv_good, H.
  - apply alloc_ext; assumption.
Qed.

(** alloc and add_object together *)
Definition add_post (s : fs) (p : str) (n : str) (mode : N) (b : body) (r : res unit) (s' : fs) : Prop :=
  (unseen s s' /\ s' = snd (alloc n mode b s) /\ exists e, r = Err e) \/
  (r = Ok tt /\ exists d, (p = [] /\ d = root_oid \/ resolve s p true = Ok d) /\ is_dirm s d = true /\ one_more s s' d n (f_next s) /\
     brand_new s s' d (f_next s) /\ o_mode (ob s' (f_next s)) = mode /\ o_body (ob s' (f_next s)) = b /\
     o_size (ob s' (f_next s)) = o_size (fresh_obj s n mode b) /\
     o_nlink (ob s' (f_next s)) = (match b with BDir _ => 2 | BFile _ => 1 end)%Z /\
     o_name (ob s' (f_next s)) = n /\ o_parent (ob s' (f_next s)) = Some d /\
     f_mounts s' = f_mounts s).

Lemma wp_new_add s p n mode b : Ginv s -> within_limits s -> ordinary (sepc s) n ->
  b = BDir [] \/ b = BFile None -> (b = BDir [] -> has_bit mode S_IFDIR = true) ->
  wp (add_object p (f_next s)) (snd (alloc n mode b s)) (fun r s' => Ginv s' /\ add_post s p n mode b r s').
Proof.
  intros H W Hno Hb Hbm.
  assert (Hb' : b = BDir [] \/ (exists x, b = BFile x)) by (destruct Hb; eauto).
  set (s2 := snd (alloc n mode b s)).
  assert (H2 : Ginv s2) by (apply Ginv_alloc; assumption).
  assert (A2 : addable s2 (f_next s)) by (apply addable_alloc; assumption).
  assert (Hnew : ob s2 (f_next s) = fresh_obj s n mode b) by (unfold s2; rewrite ob_alloc, Nat.eqb_refl; reflexivity).
  assert (Hun : unseen s s2) by apply unseen_alloc.
  eapply wp_conseq; [apply wp_and; [apply (wp_add_object s2 p (f_next s) H2 A2)|]|].
  - instantiate (1 := add_post s p n mode b).
    assert (Hadd : forall d, d <> f_next s -> (p = [] /\ d = root_oid \/ resolve s p true = Ok d) -> is_dirm s d = true ->
      wp (add_entry d (f_next s)) s2 (add_post s p n mode b)).
    { intros d Hd Hp Hdm. eapply wp_conseq; [apply (wp_add_entry_empty s2 d (f_next s) H2)|].
      - exact W.
      - exact Hd.
      - intros _. rewrite Hnew. destruct Hb as [-> | ->]; reflexivity.
      - apply (ad_ents _ _ A2).
      - intros r s' [(Hr & -> & Hc)|(Hdd & He & HL & ->)].
        + left. split; [exact Hun|]. split; [reflexivity|]. destruct Hc as [->|[->| ->]]; eauto.
        + right. split; [reflexivity|]. exists d. rewrite Hnew in He, HL. change (o_name (fresh_obj s n mode b)) with n in He, HL.
          assert (Ha : added s2 s' d (f_next s)).
          { exists s'. rewrite Hnew. split; [exact HL|apply only_mounts_refl]. }
          destruct (alloc_one_more s s' d n mode b H Hb' Hd Hdd He Ha) as (OM & Hnx & i & Hi).
          split; [exact Hp|]. split; [exact Hdm|]. split; [exact OM|]. rewrite Hi.
          split; [|cbn; repeat split; try reflexivity].
          * constructor; try (rewrite Hi; cbn; auto; fail).
            -- auto.
            -- exists i. rewrite Hi. split; [reflexivity|]. intros x Hx K.
               destruct (ln_o _ _ _ _ _ HL) as (j & Ej & Hj). rewrite Hnew in Ej, Hj. cbn in Hj.
               assert (i = j) by (rewrite Ej in Hi; cbn in Hi; unfold wo_dev in Hi; cbn in Hi; congruence). subst j.
               pose proof (gi_ino_le s H x i Hx K). destruct Hj as [-> _]. change (f_ino s2) with (f_ino s) in *. lia.
          * destruct b; reflexivity.
          * rewrite (ln_rest _ _ _ _ _ HL). reflexivity. }
    unfold add_object. destruct (str_eqb_spec p []) as [->|Hpne].
    + apply wp_bind. wstep. cbv beta iota. apply Hadd; [|left; auto|apply (gi_rootm s H)]. intros K. apply (ad_root _ _ A2). auto.
    + apply wp_bind. wstep. destruct (resolve s2 p true) as [d|e] eqn:E.
      2:{ left. split; [exact Hun|]. split; [reflexivity|]. eauto. }
      wstep. wstep. destruct (S_ISDIR (o_mode (ob s2 d))) eqn:Ed; cbn [negb].
      2:{ wstep. left. split; [exact Hun|]. split; [reflexivity|]. eauto. }
      wstep. assert (Hn := resolved_not_addable s2 _ p true d H2 A2 E Ed).
      destruct (Nat.eq_dec d devnull_oid) as [->|Hdn].
      { (* a null device with directory mode bits: add_entry fails *)
        unfold add_entry. wstep. rewrite (gi_null s2 H2). cbn [negb]. wstep. left. split; [exact Hun|]. split; [reflexivity|]. eauto. }
      apply Hadd; [exact Hn|right; apply (resolve_alloc s n mode b p d H Hb' Hbm Hdn E)|].
      unfold s2 in Ed. rewrite ob_alloc in Ed. destruct (Nat.eqb_spec d (f_next s)); [contradiction|exact Ed].
  - intros r s' [[K _] K2]. split; assumption.
Qed.

Lemma one_more_mod s s1 d n o f ms : one_more s s1 d n o -> d <> o ->
  one_more s (mod_ob (set_mounts s1 ms) o f) d n o.
Proof.
  intros [A B C D R] Hn. constructor; try assumption.
  - rewrite ob_mod_other by exact Hn. exact C.
  - intros x H1 H2. rewrite ob_mod_other by exact H2. apply D; assumption.
  - clear -R. unfold mod_ob. destruct s, s1; steq.
Qed.
Lemma brand_new_mod s s1 d o f ms : brand_new s s1 d o -> (forall x, o_uid (f x) = o_uid x) -> (forall x, o_gid (f x) = o_gid x) ->
  (forall x, o_dev (f x) = o_dev x) -> (forall x, o_atime (f x) = o_atime x) -> (forall x, o_mtime (f x) = o_mtime x) ->
  (forall x, o_ctime (f x) = o_ctime x) -> (forall x, o_xattr (f x) = o_xattr x) -> (forall x, o_ino (f x) = o_ino x) ->
  brand_new s (mod_ob (set_mounts s1 ms) o f) d o.
Proof.
  intros [A B C D E F G] H1 H2 H3 H4 H5 H6 H7 H8.
  constructor; rewrite ?ob_mod_same; [exact A|rewrite H1; exact B|rewrite H2; exact C|rewrite H3; exact D|rewrite H4, H5, H6; exact E|rewrite H7; exact F|rewrite H8; exact G].
Qed.

Definition no_space (s : fs) (d : oid) (z : Z) : Prop :=
  (z < 0)%Z \/ exists m t, mount_for_dev (f_mounts s) (o_dev (ob s d)) = Some m /\ m_total m = Some t /\ (t - m_used m < z)%Z.

Definition file_made (s s' : fs) (d : oid) (n : str) (mode : N) (c : option str) (sz : option Z) (r : res oid) : Prop :=
  r = Ok (f_next s) /\ one_more s s' d n (f_next s) /\ brand_new s s' d (f_next s) /\
  o_mode (ob s' (f_next s)) = mode /\ o_body (ob s' (f_next s)) = BFile (file_data c sz) /\
  o_size (ob s' (f_next s)) = file_size c sz /\ o_nlink (ob s' (f_next s)) = 1%Z /\
  o_name (ob s' (f_next s)) = n /\ o_parent (ob s' (f_next s)) = Some d /\
  ~ no_space s d (file_size c sz) /\ f_mounts s' = add_used (f_mounts s) (o_dev (ob s d)) (file_size c sz).
Lemma wp_new_file_in s pd fp pre n mode c sz : Ginv s -> within_limits s ->
  Forall (ordinary (sepc s)) (pre ++ [n]) -> fp = abs_path (sepc s) (pre ++ [n]) -> pd = abs_path (sepc s) pre ->
  wp (o <- new_file n mode ;; add_object pd o ;;;
      catch (fill_file o c sz) (fun e => match e with OSErr _ => remove_object fp ;;; raise e | _ => raise e end) ;;;
      ret o) s
    (fun r s' => (unseen s s' /\ f_mounts s' = f_mounts s /\ exists e, r = Err e /\ fst (add_object pd (f_next s) (snd (alloc n mode (BFile None) s))) = Err e) \/
       (exists d, resolve s pd true = Ok d /\ is_dirm s d = true /\
          (file_made s s' d n mode c sz r \/
          (unseen s s' /\ r = Err (OSErr ENOSPC) /\ no_space s d (file_size c sz)) \/
          (r = Err (OSErr EACCES) /\ is_root s = false /\ no_space s d (file_size c sz) /\ one_more s s' d n (f_next s))))).
Proof.
  intros H W Hn -> ->. destruct (ordinary_last _ _ _ Hn) as [Hpre Hno]. pose proof (gi_next s H) as Hnext.
  unfold new_file. apply wp_bind, wp_alloc. cbv beta iota. apply wp_bind.
  eapply wp_conseq; [apply wp_and; [apply (wp_new_add s _ n mode (BFile None) H W Hno); [right; reflexivity|discriminate]|]|].
  { instantiate (1 := fun r _ => fst (add_object (abs_path (sepc s) pre) (f_next s) (snd (alloc n mode (BFile None) s))) = r). unfold wp. reflexivity. }
  intros r s3 [[H3 [(Hun & -> & e & ->)|(-> & d & Hp & Hdm & OM & BN & Hmo & Hbo & Hsz & Hnl & Hna & Hpa & Hms)]] Kadd]; cbv beta iota.
  { left. split; [exact Hun|]. split; [reflexivity|]. exists e. split; [reflexivity|exact Kadd]. }
  assert (Hr : resolve s (abs_path (sepc s) pre) true = Ok d).
  { destruct Hp as [[K _]|K]; [discriminate|exact K]. }
  assert (Hdlt := resolve_lt s _ true d H Hr).
  apply wp_bind, wp_catch.
  assert (Hone : f_next s <> devnull_oid) by (unfold devnull_oid; lia).
  assert (Edev : o_dev (ob s3 (f_next s)) = o_dev (ob s d)) by apply (bn_dev _ _ _ _ BN).
  eapply wp_conseq; [apply (wp_fill_new s3 (f_next s) c sz Hone Hbo Hsz)|].
  intros r s4 [(-> & -> & Hspace)|(-> & Hge & Hok & ep & ->)]; cbv beta iota.
  - (* no space: clean up *)
    rewrite Edev, Hms in Hspace. change ((file_size c sz < 0)%Z \/ _) with (no_space s d (file_size c sz)) in Hspace.
    assert (X := one_more_new_ext s s3 d n H OM).
    assert (Ec : f_cfg s3 = f_cfg s) by (symmetry; apply X).
    assert (Hr3 : resolve s3 (abs_path (sepc s3) pre) false = Ok d).
    { apply resolve_true_false; [apply Ginv_good, H3|]. rewrite Ec. apply (ext_resolve s s3 (Ginv_good s H) (Ginv_good s3 H3) X); [|exact Hr].
      intros ->. pose proof (om_isdir _ _ _ _ _ OM). rewrite (gi_null s H) in *. discriminate. }
    assert (He3 : entry s3 d n = Some (f_next s)).
    { unfold entry, ents. rewrite (om_dir _ _ _ _ _ OM). cbn. rewrite assoc_app. pose proof (om_was _ _ _ _ _ OM) as K. unfold entry in K. rewrite K. cbn. rewrite str_eqb_refl. reflexivity. }
    assert (Hx3 : ents s3 (f_next s) = []) by (unfold ents; rewrite Hbo; reflexivity).
    assert (Hd3 : is_dirobj s3 (f_next s) = false) by (unfold is_dirobj; rewrite Hbo; reflexivity).
    apply wp_bind. eapply wp_conseq; [apply (wp_remove_object_leaf s3 (abs_path (sepc s) (pre ++ [n])) pre n d (f_next s) H3)|].
    + rewrite <- Ec. apply anp_abs_path; [apply Ginv_good, H3|]. rewrite Ec. exact Hn.
    + rewrite Ec. exact Hn.
    + exact Hr3.
    + exact He3.
    + exact Hx3.
    + intros r s5 [(-> & -> & Hroot & _)|[(-> & -> & _ & m & t & Em & Et & Hlt)|(-> & OL & _ & Hm5)]]; cbv beta iota.
      * right. exists d. split; [exact Hr|]. split; [exact Hdm|]. right. right. split; [reflexivity|]. split; [|split; [exact Hspace|exact OM]].
        unfold is_root in *. rewrite (om_rest _ _ _ _ _ OM) in Hroot. exact Hroot.
      * exfalso. rewrite Hsz in Hlt. cbn in Hlt. apply mount_for_dev_in in Em. destruct Em as (k & Hk & _). rewrite Hms in Hk.
        specialize (W k m t Hk Et). lia.
      * wstep. right. exists d. split; [exact Hr|]. split; [exact Hdm|]. right. left. split; [|auto]. apply (more_less_unseen s s3 s5 d n H OM OL).
        -- rewrite (Hm5 Hd3), Hnl, Hsz. cbn. rewrite add_used_zero. exact Hms.
        -- destruct (bn_new _ _ _ _ BN) as [_ ->]. lia.
  - wstep. right. exists d. split; [exact Hr|]. split; [exact Hdm|]. left. rewrite cdu_mounts. unfold file_made.
    set (ms := f_mounts (snd (change_disk_usage _ _ s3))). rewrite ob_mod_same. cbn.
    split; [reflexivity|]. split; [apply one_more_mod; [exact OM|lia]|].
    split; [apply brand_new_mod; auto|].
    assert (Esp : ~ no_space s d (file_size c sz) /\ ms = add_used (f_mounts s) (o_dev (ob s d)) (file_size c sz)).
    { unfold ms. clear ms. unfold change_disk_usage in *. rewrite Edev, Hms in *. unfold no_space.
      destruct (mount_for_dev (f_mounts s) (o_dev (ob s d))) as [m|] eqn:Em.
      - destruct (m_total m) as [tt0|] eqn:Et.
        + destruct (tt0 - m_used m <? file_size c sz)%Z eqn:El; [discriminate|]. cbn. split; [|reflexivity].
          intros [K|(m' & t' & Em' & Et' & K)]; [lia|]. injection Em' as <-. rewrite Et in Et'. injection Et' as <-. lia.
        + cbn. split; [|reflexivity]. intros [K|(m' & t' & Em' & Et' & K)]; [lia|]. injection Em' as <-. congruence.
      - cbn. split; [intros [K|(m' & t' & Em' & _)]; [lia|discriminate]|]. rewrite Hms. symmetry. apply add_used_none, Em. }
    destruct Esp as [Esp Ems]. unfold ob in *. cbn. repeat split; auto.
Qed.
