(** * Mode bits say what an object is.

    After every history in which callers pass permission bits (and no type
    bits) to the functions that create directories, and do not ask for files
    with the type bits of directories or links, directory mode bits are exactly
    on the directory objects; if no disk has a size limit, every link in a
    directory has a text. *)
From Coq Require Import RelationClasses.
From Verif Require Export GraphIo IoFrame Gen HonestSpec.

Definition isdb (x : fobj) : bool := match o_body x with BDir _ => true | BFile _ => false end.
Definition okb (x : fobj) : Prop := S_ISDIR (o_mode x) = isdb x /\ has_bit (o_mode x) S_IFDIR = isdb x.
Definition texted (x : fobj) : Prop := S_ISLNK (o_mode x) = true -> exists t, o_body x = BFile (Some t).

(** what is known about an object: a directory, a file, not a link, a text if a
    link, allocated *)
Inductive kind := KD | KF | KN | KT | KL.
Definition knows (u : Prop) (s : fs) (o : oid) (k : kind) : Prop :=
  match k with
  | KD => isdb (ob s o) = true
  | KF => isdb (ob s o) = false
  | KN => S_ISLNK (o_mode (ob s o)) = false
  | KT => u -> texted (ob s o)
  | KL => o < f_next s
  end.
(** [K]: what is known; [x]: a link that has no text yet *)
Record Hst (u : Prop) (K : list (oid * kind)) (x : option oid) (s : fs) : Prop := {
  hs_ok : forall o, okb (ob s o);
  hs_txt : u -> forall d n o, In (n, o) (ents s d) -> x <> Some o -> texted (ob s o);
  hs_elt : forall d n o, In (n, o) (ents s d) -> o < f_next s;
  hs_lim : u -> forall k m, In (k, m) (f_mounts s) -> m_total m = None;
  hs_k : forall o k, In (o, k) K -> knows u s o k;
  hs_root : isdb (ob s root_oid) = true;
  hs_nul : S_ISLNK (o_mode (ob s devnull_oid)) = false;
  hs_next : 2 <= f_next s
}.

Lemma small_bits um n : (um < 4096)%N -> (12 <= n)%N -> N.testbit um n = false.
Proof. intros H K. rewrite <- (N.mod_small um (2 ^ 12)) by exact H. apply N.mod_pow2_bits_high, K. Qed.
Lemma perm_dir perm : (perm < 4096)%N -> S_ISDIR (N.lor S_IFDIR perm) = true.
Proof.
  intros H. unfold S_ISDIR, S_IFMT. rewrite N.land_lor_distr_l.
  assert (K : N.land perm S_IFMT_mask = 0%N).
  { apply N.bits_inj_0. intros n. rewrite N.land_spec. destruct (N.lt_ge_cases n 12) as [Hn|Hn].
    - assert (Kn : n = 0%N \/ n = 1%N \/ n = 2%N \/ n = 3%N \/ n = 4%N \/ n = 5%N \/ n = 6%N \/ n = 7%N \/ n = 8%N \/ n = 9%N \/ n = 10%N \/ n = 11%N) by lia.
      repeat (destruct Kn as [-> |Kn]; [apply andb_false_r|]). rewrite Kn. apply andb_false_r.
    - rewrite (small_bits perm n H Hn). reflexivity. }
  rewrite K. reflexivity.
Qed.
Lemma ldiff_small m um : (m < 4096)%N -> (N.ldiff m um < 4096)%N.
Proof.
  intros H. apply (N.le_lt_trans _ m); [|exact H]. apply N.ldiff_le. rewrite N.ldiff_ldiff_l, N.lor_comm.
  apply N.bits_inj_0. intros n. rewrite N.ldiff_spec, N.lor_spec. destruct (N.testbit m n); reflexivity.
Qed.
(** a mode of a new file has neither type *)
Lemma land_ldiff_sub m um b : N.land (N.ldiff m um) b = b -> N.land m b = b.
Proof.
  intros H. apply N.bits_inj. intros n. apply (f_equal (fun z => N.testbit z n)) in H. rewrite !N.land_spec, ?N.ldiff_spec in *.
  destruct (N.testbit m n), (N.testbit um n), (N.testbit b n); auto.
Qed.
Lemma file_mode_ldiff m um : file_mode m -> file_mode (N.ldiff m um).
Proof.
  intros [H1 H2]. split.
  - unfold has_bit in *. apply negb_false_iff, N.eqb_eq in H1. apply negb_false_iff, N.eqb_eq.
    apply N.bits_inj_0. intros n. apply (f_equal (fun z => N.testbit z n)) in H1. rewrite N.land_spec, N.bits_0 in H1. rewrite N.land_spec, N.ldiff_spec.
    destruct (N.testbit m n), (N.testbit um n), (N.testbit S_IFDIR n); auto.
  - intros E. apply H2, (land_ldiff_sub _ _ _ E).
Qed.
Lemma file_mode_types m : file_mode m -> S_ISDIR m = false /\ S_ISLNK m = false.
Proof.
  intros [H1 H2]. unfold S_ISDIR, S_ISLNK, S_IFMT. split; apply N.eqb_neq; intros E.
  - assert (E2 : N.land (N.land m S_IFMT_mask) S_IFDIR = N.land m S_IFDIR) by (rewrite <- N.land_assoc; reflexivity).
    rewrite E in E2. unfold has_bit in H1. rewrite <- E2 in H1. discriminate.
  - apply H2. assert (E2 : N.land (N.land m S_IFMT_mask) S_IFLNK = N.land m S_IFLNK) by (rewrite <- N.land_assoc; reflexivity).
    rewrite <- E2, E. reflexivity.
Qed.


Lemma lnk_dir x : okb x -> isdb x = true -> S_ISLNK (o_mode x) = false.
Proof. intros [H _] K. rewrite K in H. unfold S_ISDIR, S_ISLNK in *. apply N.eqb_eq in H. rewrite H. reflexivity. Qed.

(** an object keeps its type *)
Definition sk (y y' : fobj) : Prop :=
  S_IFMT (o_mode y') = S_IFMT (o_mode y) /\ isdb y' = isdb y /\ (texted y -> texted y').
Lemma sk_lnk y y' : sk y y' -> S_ISLNK (o_mode y') = S_ISLNK (o_mode y).
Proof. intros (H & _). unfold S_ISLNK. rewrite H. reflexivity. Qed.
Lemma sk_okb y y' : sk y y' -> okb y -> okb y'.
Proof. intros (H1 & H2 & _) [A B]. split; rewrite H2; [unfold S_ISDIR in *; rewrite H1; exact A|rewrite (has_bit_ifmt _ _ H1); exact B]. Qed.
Lemma sk_same y y' : S_IFMT (o_mode y') = S_IFMT (o_mode y) -> o_body y' = o_body y -> sk y y'.
Proof. intros H1 H2. split; [exact H1|]. split; [unfold isdb; rewrite H2; reflexivity|]. unfold texted, S_ISLNK. rewrite H1, H2. auto. Qed.
Lemma sk_refl y : sk y y. Proof. apply sk_same; reflexivity. Qed.

Section H.
Variable u : Prop.
Notation H0 := (Hst u [] None).
Lemma Hst_step K x s s' : f_next s' = f_next s -> f_mounts s' = f_mounts s -> (forall y, sk (ob s y) (ob s' y)) ->
  (forall d n o, In (n, o) (ents s' d) -> In (n, o) (ents s d) \/ (o < f_next s /\ (u -> x <> Some o -> texted (ob s o)))) ->
  Hst u K x s -> Hst u K x s'.
Proof.
  intros En Em Hk He [a b l c d e i k]. constructor; try rewrite En; try rewrite Em; auto.
  - intros o. apply (sk_okb _ _ (Hk o)), a.
  - intros U d' n o Hin Hx. apply Hk. destruct (He d' n o Hin) as [Q|[_ Q]]; [apply (b U d' n o Q Hx)|apply (Q U Hx)].
  - intros d' n o Hin. destruct (He d' n o Hin) as [Q|[Q _]]; [apply (l d' n o Q)|exact Q].
  - intros o q Hin. specialize (d o q Hin). destruct q; cbn [knows] in *; try (rewrite (proj1 (proj2 (Hk o))); exact d); auto.
    + rewrite (sk_lnk _ _ (Hk o)). exact d.
    + intros U. apply Hk, d, U.
    + rewrite En. exact d.
  - rewrite (proj1 (proj2 (Hk root_oid))). exact e.
  - rewrite (sk_lnk _ _ (Hk devnull_oid)). exact i.
Qed.
Definition be (b : body) : list (str * oid) := match b with BDir es => es | BFile _ => [] end.
Lemma H_mod_at K x s o f : sk (ob s o) (f (ob s o)) ->
  (forall n e, In (n, e) (be (o_body (f (ob s o)))) -> In (n, e) (ents s o) \/ (e < f_next s /\ (u -> x <> Some e -> texted (ob s e)))) ->
  Hst u K x s -> Hst u K x (mod_ob s o f).
Proof.
  intros H1 H2. apply Hst_step; try reflexivity.
  - intros y. rewrite ob_mod. destruct (Nat.eqb y o) eqn:E; [apply Nat.eqb_eq in E; subst y; exact H1|apply sk_refl].
  - intros d n e. unfold ents at 1. rewrite ob_mod. destruct (Nat.eqb d o) eqn:E; [|left; assumption]. apply Nat.eqb_eq in E. subst d. apply H2.
Qed.
Lemma H_mod K x o f : (forall y, S_IFMT (o_mode (f y)) = S_IFMT (o_mode y)) -> (forall y, o_body (f y) = o_body y) -> preserves (Hst u K x) (mod_obj o f).
Proof.
  intros H1 H2 s H. unfold mod_obj, modify. cbn [snd]. apply H_mod_at; [apply sk_same; auto| |exact H].
  intros n e. rewrite H2. left. assumption.
Qed.
Lemma H_frame K x (f : fs -> fs) : (forall s, f_heap (f s) = f_heap s /\ f_next (f s) = f_next s /\ f_mounts (f s) = f_mounts s) ->
  preserves (Hst u K x) (modify f).
Proof.
  intros E s H. cbn. destruct (E s) as (E1 & E2 & E3). apply (Hst_step K x s); auto; unfold ents, ob; rewrite E1; [intros y; apply sk_refl|auto].
Qed.
Lemma H_mounts K x s ms : (u -> forall k m, In (k, m) ms -> m_total m = None) -> Hst u K x s -> Hst u K x (set_mounts s ms).
Proof. intros E [a b l c d e i k]. constructor; auto. Qed.
Lemma H_weaken K K' x s : incl K K' -> Hst u K' x s -> Hst u K x s.
Proof. intros H1 [a b l c d e i k]. constructor; auto. Qed.
Lemma H_0 K s : Hst u K None s -> H0 s.
Proof. apply H_weaken. intros o []. Qed.
Lemma H_add K x s o k : knows u s o k -> Hst u K x s -> Hst u ((o, k) :: K) x s.
Proof. intros Hk [a b l c d e i j]. constructor; auto. intros o' k' [[= <- <-]|Hin]; auto. Qed.
Lemma H_some K o s : Hst u K None s -> Hst u K (Some o) s.
Proof. intros [a b l c d e i k]. constructor; auto. intros U d' n y Hin _. apply (b U d' n y Hin). discriminate. Qed.
Lemma H_unless K o s : Hst u K (Some o) s -> (u -> H0 s) -> H0 s.
Proof. intros [a b l c d e i k] H. constructor; auto; [|intros y q []]. intros U d' n y Hin _. apply (hs_txt _ _ _ _ (H U) U d' n y Hin). discriminate. Qed.

Ltac hmod := solve [apply H_mod; intros ?; cbn; reflexivity].
Ltac hframe := solve [apply H_frame; intros ?; repeat split; reflexivity].

(** ** disk usage *)
Lemma add_used_total ms dev delta k m : In (k, m) (add_used ms dev delta) -> exists m', In (k, m') ms /\ m_total m = m_total m'.
Proof.
  induction ms as [|[k0 m0] ms IH]; cbn [add_used]; [intros []|]. destruct (opt_nat_eqb _ _).
  - intros [E|Hin]; [injection E as <- <-; exists m0; split; [left; reflexivity|reflexivity]|exists m; split; [right; exact Hin|reflexivity]].
  - intros [E|Hin]; [injection E as <- <-; exists m0; split; [left; reflexivity|reflexivity]|]. destruct (IH Hin) as (m' & H1 & H2). exists m'. split; [right; exact H1|exact H2].
Qed.
Lemma cdu_H K x d v : preserves (Hst u K x) (change_disk_usage d v).
Proof.
  intros s H. unfold change_disk_usage. destruct (mount_for_dev _ _) as [m|]; [|exact H].
  assert (Q : Hst u K x (set_mounts s (add_used (f_mounts s) v d))).
  { apply H_mounts; [|exact H]. intros U k m' Hin. destruct (add_used_total _ _ _ _ _ Hin) as (m2 & H1 & ->). apply (hs_lim _ _ _ _ H U k m2 H1). }
  destruct (m_total m); [destruct (_ <? _)%Z|]; cbn; auto.
Qed.
Lemma mount_for_dev_mem ms dev m : mount_for_dev ms dev = Some m -> exists k, In (k, m) ms.
Proof. induction ms as [|[k0 m0] ms IH]; cbn [mount_for_dev]; [discriminate|]. destruct (opt_nat_eqb _ _); [intros E; injection E as ->; exists k0; left; reflexivity|]. intros E. destruct (IH E) as [k K]. exists k. right. exact K. Qed.
Lemma cdu_ok K x d v s : u -> Hst u K x s -> fst (change_disk_usage d v s) = Ok tt.
Proof.
  intros U H. unfold change_disk_usage. destruct (mount_for_dev (f_mounts s) v) as [m|] eqn:E; [|reflexivity].
  destruct (mount_for_dev_mem _ _ _ E) as [k Q]. rewrite (hs_lim _ _ _ _ H U k m Q). reflexivity.
Qed.
Lemma cdu_heap d v s : f_heap (snd (change_disk_usage d v s)) = f_heap s.
Proof. unfold change_disk_usage. destruct (mount_for_dev _ _) as [m|]; [|reflexivity]. destruct (m_total m); [destruct (_ <? _)%Z|]; reflexivity. Qed.
Lemma cdu_ob d v s o : ob (snd (change_disk_usage d v s)) o = ob s o.
Proof. unfold ob. rewrite cdu_heap. reflexivity. Qed.

(** ** contents *)
Lemma wp_cdu_H K x d v s (Q : res unit -> fs -> Prop) : Hst u K x s ->
  (forall r s1, Hst u K x s1 -> (forall o, ob s1 o = ob s o) -> (u -> r = Ok tt) -> Q r s1) -> wp (change_disk_usage d v) s Q.
Proof. intros H G. unfold wp. apply G; [apply cdu_H, H|intros o; apply cdu_ob|intros U; apply (cdu_ok K x d v s U H)]. Qed.
Lemma wp_set_size_H K x o n s : Hst u K x s -> wp (set_size o n) s (fun _ s' => Hst u K x s' /\ isdb (ob s' o) = isdb (ob s o)).
Proof.
  intros H. unfold set_size. wstep. destruct (o_body (ob s o)) as [es|data] eqn:E; [wstep; auto|]. destruct (n <? 0)%Z; [wstep; auto|]. wstep. wstep.
  apply wp_bind. apply (wp_cdu_H K x _ _ s _ H). intros r s1 H1 Eo _. destruct r as [[]|]; [|rewrite Eo; auto]. unfold wp, mod_obj, modify. cbn [fst snd].
  set (f := fun y => let y' := match data with Some (c :: d) => wo_body y (BFile (Some (resize (c :: d) (st_size s o) n))) | _ => y end in wo_epoch (wo_size y' n) (S (o_epoch y'))).
  change (Hst u K x (mod_ob s1 o f) /\ isdb (ob (mod_ob s1 o f) o) = isdb (ob s o)). assert (Eb : o_body (ob s1 o) = BFile data) by (rewrite Eo; exact E).
  assert (Fb : isdb (f (ob s1 o)) = isdb (ob s1 o)) by (unfold f; destruct data as [[|]|]; unfold isdb; cbn; rewrite ?Eb; reflexivity).
  split.
  - apply H_mod_at; [|unfold f; destruct data as [[|]|]; cbn; rewrite ?Eb; intros ? ? []|exact H1].
    split; [unfold f; destruct data as [[|]|]; reflexivity|]. split; [exact Fb|].
    intros T. unfold f. destruct data as [[|c0 t]|]; cbn; try exact T. intros _. eexists. reflexivity.
  - rewrite ob_mod, Nat.eqb_refl, Fb, Eo. reflexivity.
Qed.
Lemma set_size_H K x o n : preserves (Hst u K x) (set_size o n).
Proof. intros s H. apply (wp_set_size_H K x o n s H). Qed.
Lemma wp_set_initial_H K x o c s : isdb (ob s o) = false -> Hst u K x s -> wp (set_initial_contents o c) s (fun _ s' => Hst u K x s').
Proof.
  intros Ho H. unfold set_initial_contents. destruct (Nat.eqb o devnull_oid); [wstep; exact H|]. wstep. wstep. wstep.
  apply wp_bind. apply (wp_cdu_H K x _ _ s _ H). intros r s1 H1 Eo _. destruct r as [[]|]; [|exact H1]. wstep.
  apply wp_bind. apply wp_intro. intros r2 s2 E2.
  assert (H2 : Hst u K x s2 /\ isdb (ob s2 o) = false).
  { rewrite <- Eo in Ho. destruct (truthy_contents s1 o); cbn [when] in E2; [|injection E2 as <- <-; auto].
    pose proof (wp_set_size_H K x o 0 s1 H1) as Q. unfold wp in Q. rewrite E2, Ho in Q. exact Q. }
  destruct H2 as [H2 Ho2]. destruct r2 as [[]|]; [|exact H2]. unfold wp, bind, mod_obj, modify, ret. cbn [fst snd].
  apply H_mod_at; [|cbn; intros ? ? []|exact H2]. split; [reflexivity|]. split; [symmetry; exact Ho2|]. intros _ _. exists c. reflexivity.
Qed.
Lemma set_contents_H K x o c : preserves (Hst u K x) (set_contents o c).
Proof.
  intros s H. change (wp (set_contents o c) s (fun _ s' => Hst u K x s')). unfold set_contents. wstep.
  destruct (is_dirobj s o) eqn:E; [wstep; exact H|]. apply wp_set_initial_H; [exact E|exact H].
Qed.
Lemma wp_set_large_H K x o n s : In (o, KF) K -> In (o, KN) K -> Hst u K x s -> wp (set_large_file_size o n) s (fun _ s' => Hst u K x s').
Proof.
  intros I1 I2 H. unfold set_large_file_size. destruct (n <? 0)%Z; [wstep; exact H|]. wstep. apply wp_bind. apply wp_intro. intros r s1 E1.
  assert (H1 : Hst u K x s1).
  { destruct (negb _); cbn [when] in E1; [|injection E1 as <- <-; exact H]. pose proof (set_size_H K x o 0 s H) as Q. rewrite E1 in Q. exact Q. }
  destruct r as [[]|]; [|exact H1]. wstep. apply wp_bind. apply (wp_cdu_H K x _ _ s1 _ H1). intros r2 s2 H2 _ _. destruct r2 as [[]|]; [|exact H2].
  unfold wp, mod_obj, modify. cbn [fst snd]. apply H_mod_at; [|cbn; intros ? ? []|exact H2].
  pose proof (hs_k _ _ _ _ H2 o KF I1) as Q1. pose proof (hs_k _ _ _ _ H2 o KN I2) as Q2. cbn [knows] in Q1, Q2.
  split; [reflexivity|]. split; [symmetry; exact Q1|]. intros _ L. cbn in L. rewrite Q2 in L. discriminate.
Qed.
Lemma fill_file_H K x o c sz s : In (o, KF) K -> (sz <> None -> In (o, KN) K) -> Hst u K x s -> wp (fill_file o c sz) s (fun _ s' => Hst u K x s').
Proof.
  intros I1 I2 H. assert (Ho := hs_k _ _ _ _ H o KF I1). cbn [knows] in Ho.
  unfold fill_file. destruct sz as [n|]; [apply wp_set_large_H; auto; apply I2; discriminate|].
  destruct c as [c|]; apply wp_bind; apply wp_intro; intros r s1 E1;
    [pose proof (wp_set_initial_H K x o c s Ho H) as Q|pose proof (wp_set_initial_H K x o [] s Ho H) as Q]; unfold wp in Q; rewrite E1 in Q; cbn [snd] in Q; destruct r; exact Q.
Qed.
(** the text of a new link *)
Lemma fill_link_H K o c s : u -> o <> devnull_oid -> o_body (ob s o) = BFile None -> Hst u K (Some o) s ->
  wp (fill_file o (Some c) None) s (fun r s' => r = Ok tt /\ H0 s').
Proof.
  intros U Hn Hb H. unfold fill_file, set_initial_contents. destruct (Nat.eqb o devnull_oid) eqn:Eo; [apply Nat.eqb_eq in Eo; contradiction (Hn Eo)|].
  wstep. wstep. wstep. wstep. apply wp_bind. apply (wp_cdu_H K (Some o) _ _ s _ H). intros r s1 H1 Es Er. rewrite (Er U).
  cbv beta iota. wstep. unfold truthy_contents. rewrite Es, Hb. unfold when. unfold wp, bind, mod_obj, modify, ret. cbn [fst snd]. split; [reflexivity|].
  set (f := fun y => wo_epoch (wo_size (wo_body y (BFile (Some c))) (Z.of_nat (length c))) (S (o_epoch y))). change (H0 (mod_ob s1 o f)).
  assert (H2 : Hst u K (Some o) (mod_ob s1 o f)).
  { apply H_mod_at; [|cbn; intros ? ? []|exact H1]. split; [reflexivity|]. split; [unfold isdb; rewrite Es, Hb; reflexivity|]. intros _ _. exists c. reflexivity. }
  apply (H_0 K). destruct H2 as [a b l c2 d e i k]. constructor; auto. intros U' d' n y Hin _. destruct (Nat.eq_dec y o) as [->|Hy]; [|apply (b U' d' n y Hin); congruence].
  intros _. exists c. rewrite ob_mod, Nat.eqb_refl. reflexivity.
Qed.

(** ** allocation *)
Definition lts (K : list (oid * kind)) : Prop := forall o k, In (o, k) K -> In (o, KL) K.
Lemma alloc_H K K' x nm mode b s : lts K -> okb (fresh_obj s nm mode b) -> be b = [] -> Hst u K x s ->
  (forall o k, In (o, k) K' -> o = f_next s /\ match k with KD => isdb (fresh_obj s nm mode b) = true | KF => isdb (fresh_obj s nm mode b) = false | KN => S_ISLNK mode = false | KT => False | KL => True end) ->
  Hst u (K' ++ K) x (snd (alloc nm mode b s)) /\ fst (alloc nm mode b s) = Ok (f_next s).
Proof.
  intros HK Hb He [a t l c d e i k] HK'. split; [|reflexivity].
  assert (E : forall y, ob (snd (alloc nm mode b s)) y = if Nat.eqb y (f_next s) then fresh_obj s nm mode b else ob s y) by reflexivity.
  assert (Eo : forall y, y < f_next s -> ob (snd (alloc nm mode b s)) y = ob s y).
  { intros y Hy. rewrite E. destruct (Nat.eqb y (f_next s)) eqn:Q; [apply Nat.eqb_eq in Q; lia|reflexivity]. }
  assert (Ee : forall y n o, In (n, o) (ents (snd (alloc nm mode b s)) y) -> In (n, o) (ents s y)).
  { intros y n o. unfold ents at 1. rewrite E. destruct (Nat.eqb y (f_next s)); [|auto]. cbn [o_body fresh_obj]. change (In (n, o) (be b) -> In (n, o) (ents s y)). rewrite He. intros []. }
  constructor.
  - intros y. rewrite E. destruct (Nat.eqb y (f_next s)); [exact Hb|apply a].
  - intros U d' n y Hin Hx. apply Ee in Hin. rewrite (Eo y (l _ _ _ Hin)). apply (t U d' n y Hin Hx).
  - intros d' n y Hin. apply Ee, l in Hin. change (y < S (f_next s)). lia.
  - exact c.
  - intros o q Hin. apply in_app_or in Hin. destruct Hin as [Hin|Hin].
    + destruct (HK' o q Hin) as [-> Q]. destruct q; cbn [knows]; rewrite ?E, ?Nat.eqb_refl; try exact Q; [contradiction|]. change (f_next s < S (f_next s)). lia.
    + assert (Q := d o q Hin). assert (L := d o KL (HK o q Hin)). cbn [knows] in L. destruct q; cbn [knows] in *; try rewrite (Eo o L); try exact Q. change (o < S (f_next s)). lia.
  - rewrite Eo by (unfold root_oid; lia). exact e.
  - rewrite Eo by (unfold devnull_oid; lia). exact i.
  - change (2 <= S (f_next s)). lia.
Qed.
Definition newdir (o : oid) : list (oid * kind) := [(o, KD); (o, KN); (o, KL)].
Definition newfile (o : oid) : list (oid * kind) := [(o, KF); (o, KN); (o, KL)].
Definition newlink (o : oid) : list (oid * kind) := [(o, KF); (o, KL)].
Lemma new_dir_H K x nm perm s : lts K -> (perm < 4096)%N -> Hst u K x s -> Hst u (newdir (f_next s) ++ K) x (snd (new_dir nm perm s)).
Proof.
  intros HK Hp H. unfold new_dir. apply (alloc_H K (newdir (f_next s)) x nm _ (BDir []) s HK); auto.
  - split; [apply perm_dir, Hp|apply lor_ifdir].
  - intros o k [[= <- <-]|[[= <- <-]|[[= <- <-]|[]]]]; split; auto. apply has_ifdir_not_link, lor_ifdir.
Qed.
Lemma new_file_H K x nm mode s : lts K -> file_mode mode -> Hst u K x s -> Hst u (newfile (f_next s) ++ K) x (snd (new_file nm mode s)).
Proof.
  intros HK Hp H. destruct (file_mode_types mode Hp) as [T1 T2]. unfold new_file. apply (alloc_H K (newfile (f_next s)) x nm _ (BFile None) s HK); auto.
  - split; [exact T1|apply Hp].
  - intros o k [[= <- <-]|[[= <- <-]|[[= <- <-]|[]]]]; split; auto.
Qed.
Lemma new_link_H K x nm s : lts K -> Hst u K x s -> Hst u (newlink (f_next s) ++ K) x (snd (new_file nm (N.lor S_IFLNK PERM_DEF) s)).
Proof.
  intros HK H. unfold new_file. apply (alloc_H K (newlink (f_next s)) x nm _ (BFile None) s HK); auto.
  - split; reflexivity.
  - intros o k [[= <- <-]|[[= <- <-]|[]]]; split; auto.
Qed.

(** ** entries *)
Definition okadd (K : list (oid * kind)) (x : option oid) (o : oid) : Prop :=
  In (o, KL) K /\ (x = Some o \/ In (o, KT) K \/ In (o, KN) K).
Lemma okadd_use K x o s : okadd K x o -> Hst u K x s -> o < f_next s /\ (u -> x <> Some o -> texted (ob s o)).
Proof.
  intros [I1 I2] H. split; [apply (hs_k _ _ _ _ H o KL I1)|]. intros U Hx. destruct I2 as [I2|[I2|I2]]; [contradiction|apply (hs_k _ _ _ _ H o KT I2 U)|].
  assert (Q := hs_k _ _ _ _ H o KN I2). cbn [knows] in Q. intros L. rewrite Q in L. discriminate.
Qed.
Lemma link_obj_H K x d o : okadd K x o -> preserves (Hst u K x) (link_obj d o).
Proof.
  intros Hok. unfold link_obj. apply pres_bind; [apply pres_gets|]. intros nm. apply pres_bind.
  - intros s H. unfold mod_obj, modify. cbn [snd]. destruct (o_body (ob s d)) as [es|] eqn:E; apply H_mod_at; try exact H.
    + cbv beta. rewrite E. split; [reflexivity|]. split; [unfold isdb; rewrite E; reflexivity|]. unfold texted. cbn. rewrite E. intros T L. destruct (T L) as [t Et]. discriminate.
    + cbv beta. rewrite E. intros n e Hin. cbn in Hin. apply in_app_or in Hin. unfold ents. rewrite E. destruct Hin as [Hin|[[= <- <-]|[]]]; [left; exact Hin|right].
      apply (okadd_use K x o s Hok H).
    + cbv beta. rewrite E. apply sk_refl.
    + cbv beta. rewrite E. rewrite E. intros n e [].
  - intros _. pres; first [hmod|hframe].
Qed.
Lemma add_entry_H K x d o : okadd K x o -> preserves (Hst u K x) (add_entry d o).
Proof. intros Hok. unfold add_entry. pres; first [apply link_obj_H, Hok|apply cdu_H]. Qed.
Lemma link_obj_ok d o s : fst (link_obj d o s) = Ok tt.
Proof.
  unfold link_obj, bind, gets, mod_obj, modify, ret. cbn [fst snd]. destruct (o_ino _); reflexivity.
Qed.
(** without size limits nothing is changed by a failing [add_entry] *)
Lemma add_entry_fails K x d o s : u -> okadd K x o -> Hst u K x s -> fst (add_entry d o s) = Ok tt \/ snd (add_entry d o s) = s.
Proof.
  intros U Hok H. change (wp (add_entry d o) s (fun r s' => r = Ok tt \/ s' = s)). unfold add_entry. wstep. destruct (is_dirobj s d); cbn [negb]; [|wstep; auto].
  wstep. destruct (_ && _ && _); [wstep; auto|]. wstep. destruct (assoc _ _); [wstep; auto|].
  apply wp_bind. apply wp_intro. intros r s1 E1. assert (Q := link_obj_ok d o s). assert (H1 := link_obj_H K x d o Hok s H). rewrite E1 in Q, H1. cbn [fst snd] in Q, H1. subst r.
  wstep. destruct (Z.eqb _ _); [|wstep; auto]. wstep. wstep. apply (wp_cdu_H K x _ _ s1 _ H1). intros r s2 _ _ Er. left. apply Er, U.
Qed.
Lemma unlink_obj_H K x d e nm : preserves (Hst u K x) (unlink_obj d e nm).
Proof.
  unfold unlink_obj. apply pres_bind; [hmod|]. intros _. apply pres_bind; [hmod|]. intros _. apply pres_bind; [apply pres_gets|]. intros n.
  destruct (n <? 0)%Z; [apply pres_raise|]. intros s H. unfold mod_obj, modify. cbn [snd]. destruct (o_body (ob s d)) as [es|] eqn:E; apply H_mod_at; try exact H; cbv beta; rewrite E.
  - split; [reflexivity|]. split; [unfold isdb; rewrite E; reflexivity|]. unfold texted. cbn. rewrite E. intros T L. destruct (T L) as [t Et]. discriminate.
  - intros n' e' Hin. left. unfold ents. rewrite E. cbn in Hin. apply in_del_assoc in Hin. exact Hin.
  - apply sk_refl.
  - rewrite E. intros ? ? [].
Qed.
Lemma rm_loop_H K x rm : (forall n, preserves (Hst u K x) (rm n)) -> forall k e, preserves (Hst u K x) (rm_loop rm k e).
Proof. intros H k. induction k as [|k IH]; intros e; cbn [rm_loop]; pres; auto. Qed.
Lemma remove_entry_n_H K x n : forall d nm r, preserves (Hst u K x) (remove_entry_n n d nm r).
Proof.
  induction n as [|n IH]; intros d nm r; cbn [remove_entry_n]; pres; first [apply unlink_obj_H|apply cdu_H|apply rm_loop_H; intros; apply IH].
Qed.
Lemma remove_entry_H K x d nm r : preserves (Hst u K x) (remove_entry d nm r).
Proof. intros s. apply remove_entry_n_H. Qed.
Lemma remove_object_H K x p : preserves (Hst u K x) (remove_object p).
Proof. unfold remove_object. pres. apply remove_entry_H. Qed.
Lemma add_object_H K x p o : okadd K x o -> preserves (Hst u K x) (add_object p o).
Proof. intros H. unfold add_object. pres. apply add_entry_H, H. Qed.
Lemma add_object_fails K x p o s : u -> okadd K x o -> Hst u K x s -> fst (add_object p o s) = Ok tt \/ snd (add_object p o s) = s.
Proof.
  intros U Hok H. change (wp (add_object p o) s (fun r s' => r = Ok tt \/ s' = s)). unfold add_object. apply wp_bind.
  assert (G : forall d, wp (add_entry d o) s (fun r s' => r = Ok tt \/ s' = s)) by (intros d; apply (add_entry_fails K x d o s U Hok H)).
  destruct (str_eqb p []); [wstep; apply G|]. wstep. destruct (resolve s p true); [|right; reflexivity]. wstep. wstep. destruct (negb _); wstep; [right; reflexivity|apply G].
Qed.

(** the body of a file that is added stays *)
Lemma file_body_mod s d o (f : fobj -> fobj) (b : body) : o_body (ob s o) = b -> be b = [] -> isdb (ob s o) = false ->
  (forall y, isdb y = false -> o_body (f y) = o_body y) -> o_body (ob (mod_ob s d f) o) = b.
Proof. intros Hb _ Hf H. rewrite ob_mod. destruct (Nat.eqb o d) eqn:E; [|exact Hb]. apply Nat.eqb_eq in E. subst d. rewrite H by exact Hf. exact Hb. Qed.
Definition fbody (o : oid) (s : fs) : Prop := o_body (ob s o) = BFile None.
Lemma fbody_mod o d f : (forall y, isdb y = false -> o_body (f y) = o_body y) -> preserves (fbody o) (mod_obj d f).
Proof. intros Hf s H. unfold fbody, mod_obj, modify in *. cbn [snd]. apply file_body_mod; auto. unfold isdb. rewrite H. reflexivity. Qed.
Lemma link_obj_body o d e : preserves (fbody o) (link_obj d e).
Proof.
  unfold link_obj. pres; try (apply fbody_mod; intros y Hy; cbn; try reflexivity).
  - unfold isdb in Hy. destruct (o_body y) eqn:E; [discriminate|exact E].
  - intros s H. exact H.
Qed.
Lemma add_object_body o p e : preserves (fbody o) (add_object p e).
Proof.
  unfold add_object, add_entry. pres; try apply link_obj_body. all: intros s H; unfold fbody in *; rewrite cdu_ob; exact H.
Qed.

(** ** directories *)
Lemma create_dirs_H comps : forall K cur new s, lts K -> (forall o, In o new -> In (o, KD) K) -> Hst u K None s ->
  wp (create_dirs cur new comps) s (fun r s' => exists K', incl K K' /\ Hst u K' None s' /\
    match r with Ok (_, new') => forall o, In o new' -> In (o, KD) K' | Err _ => True end).
Proof.
  induction comps as [|comp rest IH]; intros K cur new s HK Hn H; cbn [create_dirs].
  - wstep. exists K. split; [apply incl_refl|auto].
  - wstep. destruct (directory_content s cur comp) as [[nm o]|].
    + wstep. destruct (S_ISLNK _).
      * wstep. destruct (let* t := _ in _) as [d|]; [|exists K; split; [apply incl_refl|auto]].
        wstep. destruct (negb _); [wstep; exists K; split; [apply incl_refl|auto]|apply (IH K d new s HK Hn H)].
      * wstep. wstep. destruct (negb _); [wstep; exists K; split; [apply incl_refl|auto]|apply (IH K o new s HK Hn H)].
    + apply wp_bind. unfold wp. cbv beta. change (fst (new_dir comp PERM_DEF s)) with (@Ok oid (f_next s)). cbv iota.
      assert (H1 := new_dir_H K None comp PERM_DEF s HK eq_refl H). set (s1 := snd (new_dir comp PERM_DEF s)) in *. clearbody s1. set (K1 := newdir (f_next s) ++ K) in *.
      change (wp (add_entry cur (f_next s) ;;; create_dirs (f_next s) (new ++ [f_next s]) rest) s1 (fun r s' => exists K', incl K K' /\ Hst u K' None s' /\
        match r with Ok (_, new') => forall o, In o new' -> In (o, KD) K' | Err _ => True end)).
      assert (HI : incl K K1) by (intros q Hq; apply in_or_app; right; exact Hq).
      assert (Hok : okadd K1 None (f_next s)) by (split; [right; right; left; reflexivity|right; right; right; left; reflexivity]).
      assert (HK1 : lts K1) by (intros o k Hin; apply in_app_or in Hin; destruct Hin as [[[= <- <-]|[[= <- <-]|[[= <- <-]|[]]]]|Hin]; [apply Hok|apply Hok|apply Hok|apply HI, (HK o k Hin)]).
      apply wp_bind. apply wp_intro. intros r s2 E2. assert (H2 := add_entry_H K1 None cur (f_next s) Hok s1 H1). rewrite E2 in H2. cbn [snd] in H2.
      destruct r as [[]|]; [|exists K1; auto].
      assert (Hn1 : forall o, In o (new ++ [f_next s]) -> In (o, KD) K1) by (intros o Hin; apply in_app_or in Hin; destruct Hin as [Hin|[<-|[]]]; [apply HI, Hn, Hin|left; reflexivity]).
      pose proof (IH K1 (f_next s) (new ++ [f_next s]) s2 HK1 Hn1 H2) as Q. unfold wp in *. destruct Q as (K' & Q1 & Q2 & Q3). exists K'. split; [intros q Hq; apply Q1, HI, Hq|auto].
Qed.
Lemma set_modes_H K x perm new : (perm < 4096)%N -> (forall o, In o new -> In (o, KD) K) -> preserves (Hst u K x) (set_modes (N.lor S_IFDIR perm) new).
Proof.
  intros Hp. induction new as [|o new IH]; intros Hn; cbn [set_modes]; [apply pres_ret|]. apply pres_bind; [|intros _; apply IH; intros y Hy; apply Hn; right; exact Hy].
  intros s H. unfold mod_obj, modify. cbn [snd]. apply H_mod_at; [|intros n e Hin; left; exact Hin|exact H].
  assert (Q := hs_k _ _ _ _ H o KD (Hn o (or_introl eq_refl))). cbn [knows] in Q. destruct (hs_ok _ _ _ _ H o) as [A _]. rewrite Q in A.
  assert (B := perm_dir perm Hp). unfold S_ISDIR in A, B. apply N.eqb_eq in A, B. apply sk_same; [|reflexivity]. cbn [o_mode wo_mode]. rewrite B. symmetry. exact A.
Qed.
Section Cd.
Variable cd : str -> N -> M oid.
Hypothesis Hcd : forall K p m, lts K -> (m < 4096)%N -> preserves (Hst u K None) (cd p m).
Lemma add_mount_H K p t : lts K -> (u -> t = None) -> preserves (Hst u K None) (add_mount_point_ cd p t).
Proof.
  intros HK Ht. unfold add_mount_point_. pres; try first [hmod|hframe|apply Hcd; [exact HK|reflexivity]].
  intros s H. unfold modify. cbn [snd]. apply H_mounts; [|exact H]. intros U k m Hin. apply in_app_or in Hin. destruct Hin as [Hin|[[= <- <-]|[]]]; [apply (hs_lim _ _ _ _ H U k m Hin)|apply (Ht U)].
Qed.
Lemma mount_path_H K p : lts K -> preserves (Hst u K None) (mount_point_for_path_ cd p).
Proof. intros HK. unfold mount_point_for_path_, auto_mount_force. pres. apply add_mount_H; auto. Qed.
Lemma auto_mount_H K p : lts K -> preserves (Hst u K None) (auto_mount cd p).
Proof. intros HK. unfold auto_mount. pres. apply mount_path_H, HK. Qed.
Lemma create_dir_body_H K p m : lts K -> (m < 4096)%N -> preserves (Hst u K None) (create_dir_body cd p m).
Proof.
  intros HK Hm. unfold create_dir_body. apply pres_bind; [apply pres_gets|]. intros dp. apply pres_bind; [apply auto_mount_H, HK|]. intros _.
  apply pres_bind; [apply pres_lift|]. intros e. destruct e; [apply pres_raise_os|]. apply pres_bind; [apply pres_gets|]. intros comps.
  intros s H. change (wp (r <- create_dirs root_oid [] comps ;; set_modes (N.lor S_IFDIR m) (snd r) ;;; ret (fst r)) s (fun _ s' => Hst u K None s')).
  apply wp_bind. apply wp_intro. intros r s1 E1. pose proof (create_dirs_H comps K root_oid [] s HK (fun o (F : In o []) => match F with end) H) as Q.
  unfold wp in Q. rewrite E1 in Q. destruct Q as (K' & Q1 & Q2 & Q3). cbn [fst snd] in Q2, Q3. destruct r as [[d new]|]; [|apply (H_weaken K K' None s1 Q1 Q2)].
  apply (H_weaken K K' None _ Q1). cbn [fst snd]. assert (P : preserves (Hst u K' None) (set_modes (N.lor S_IFDIR m) new ;;; ret d)) by (pres; apply set_modes_H; assumption).
  apply (P s1 Q2).
Qed.
End Cd.
Lemma create_dir_n_H n : forall K p m, lts K -> (m < 4096)%N -> preserves (Hst u K None) (create_dir_n n p m).
Proof. induction n as [|n IH]; intros K p m HK Hm; cbn [create_dir_n]; [apply pres_raise|]. apply create_dir_body_H; auto. Qed.
Lemma create_dir_H K p m : lts K -> (m < 4096)%N -> preserves (Hst u K None) (create_dir p m).
Proof. apply create_dir_n_H. Qed.
Lemma lts_nil : lts []. Proof. intros o k []. Qed.

(** ** files and links *)
Lemma create_int_H p mode c sz md (um : bool) : ((forall um0, file_mode (if um then N.ldiff mode um0 else mode)) \/
    (um = false /\ mode = N.lor S_IFLNK PERM_DEF /\ sz = None /\ c <> None))  -> preserves H0 (create_file_internally p mode c sz md um).
Proof.
  intros Hm. unfold create_file_internally, auto_mount_drive.
  apply pres_bind; [apply pres_gets|]. intros fp. apply pres_bind; [apply pres_lift|]. intros e. destruct e; [apply pres_raise_os|].
  apply pres_bind; [apply pres_gets|]. intros sp. apply pres_bind; [apply pres_gets|]. intros pd.
  apply pres_bind; [apply auto_mount_H; [intros; apply create_dir_H; assumption|apply lts_nil]|]. intros _.
  apply pres_bind; [apply pres_lift|]. intros pe. apply pres_bind; [pres; apply create_dir_H; [apply lts_nil|reflexivity]|]. intros pd'.
  intros s H. change (wp (mode' <- gets (fun s => if um then N.ldiff mode (f_umask s) else mode) ;;
    o <- new_file (snd sp) mode' ;; add_object pd' o ;;;
    catch (fill_file o c sz) (fun e => match e with OSErr _ => remove_object fp ;;; raise e | _ => raise e end) ;;; ret o) s (fun _ s' => H0 s')).
  wstep. set (mode' := if um then _ else _). apply wp_bind. unfold wp. cbv beta. change (fst (new_file (snd sp) mode' s)) with (@Ok oid (f_next s)). cbv iota.
  set (o := f_next s). set (s1 := snd (new_file (snd sp) mode' s)).
  set (rest := catch (fill_file o c sz) (fun e => match e with OSErr _ => remove_object fp ;;; raise e | _ => raise e end) ;;; ret o).
  change (wp (add_object pd' o ;;; rest) s1 (fun _ s' => H0 s')).
  assert (G : forall K x, In (o, KF) K -> (sz <> None -> In (o, KN) K) -> preserves (Hst u K x) rest).
  { intros K x I1 I2. unfold rest. apply pres_bind; [apply pres_catch|].
    - intros s2 H2. apply (fill_file_H K x o c sz s2 I1 I2 H2).
    - intros e. pres; apply remove_object_H.
    - intros _. apply pres_ret. }
  destruct Hm as [Hm|(-> & -> & -> & Hc)].
  - assert (H1 : Hst u (newfile o ++ []) None s1) by (apply new_file_H; [apply lts_nil|apply Hm|exact H]). rewrite app_nil_r in H1.
    assert (P : preserves (Hst u (newfile o) None) (add_object pd' o ;;; rest)).
    { pres; [apply add_object_H; split; [right; right; left; reflexivity|right; right; right; left; reflexivity]|]. apply G; [left; reflexivity|intros _; right; left; reflexivity]. }
    apply (H_0 (newfile o)). apply (P s1 H1).
  - destruct c as [c|]; [|contradiction Hc; reflexivity].
    assert (H1' : Hst u (newlink o ++ []) None s1) by (apply new_link_H; [apply lts_nil|exact H]). rewrite app_nil_r in H1'.
    assert (H1 := H_some _ o _ H1').
    assert (Hok : okadd (newlink o) (Some o) o) by (split; [right; left; reflexivity|left; reflexivity]).
    assert (P : preserves (Hst u (newlink o) (Some o)) (add_object pd' o ;;; rest)).
    { pres; [apply add_object_H, Hok|]. apply G; [left; reflexivity|intros N; contradiction N; reflexivity]. }
    apply (H_unless (newlink o) o); [apply (P s1 H1)|]. intros U. clear P.
    change (wp (add_object pd' o ;;; rest) s1 (fun _ s' => H0 s')). apply wp_bind. apply wp_intro. intros r s2 E2.
    pose proof (add_object_fails (newlink o) (Some o) pd' o s1 U Hok H1) as F. assert (H2 := add_object_H (newlink o) (Some o) pd' o Hok s1 H1).
    assert (B1 : o_body (ob s1 o) = BFile None) by (change (ob s1 o) with (if Nat.eqb o o then fresh_obj s (snd sp) mode' (BFile None) else ob s o); rewrite Nat.eqb_refl; reflexivity).
    assert (B2 := add_object_body o pd' o s1 B1). unfold fbody in B2.
    rewrite E2 in F, H2, B2. cbn [fst snd] in F, H2, B2.
    destruct r as [[]|]; [|destruct F as [F|F]; [discriminate|subst s2; apply (H_0 _ _ H1')]].
    unfold rest. apply wp_bind, wp_catch. assert (No : o <> devnull_oid) by (pose proof (hs_next _ _ _ _ H); unfold o, devnull_oid; lia).
    pose proof (fill_link_H (newlink o) o c s2 U No B2 H2) as Q. unfold wp in *. destruct (fill_file o (Some c) None s2) as [r3 s3]. cbn [fst snd] in *. destruct Q as [-> Q]. exact Q.
Qed.
Lemma symlink_H p t md : preserves H0 (create_symlink p t md).
Proof.
  unfold create_symlink. pres; try apply remove_object_H. all: apply create_int_H; right; repeat split; discriminate.
Qed.

(** ** lookups find entries *)
Definition found (s : fs) (o : oid) : Prop := o = root_oid \/ o = devnull_oid \/ exists d n, In (n, o) (ents s d).
Lemma assoc_In {A} k (l : list (str * A)) v : assoc k l = Some v -> exists k', In (k', v) l.
Proof.
  induction l as [|[k0 v0] l IH]; cbn [assoc]; [discriminate|]. destruct (str_eqb _ _); [intros [= ->]; exists k0; left; reflexivity|].
  intros E. destruct (IH E) as [k' Q]. exists k'. right. exact Q.
Qed.
Lemma get_entry_found s d n o : get_entry s d n = Ok o -> found s o.
Proof.
  unfold get_entry. destruct (o_body (ob s d)) as [es|] eqn:E; [|discriminate]. destruct (assoc _ es) as [o'|] eqn:Ea; [|discriminate]. intros [= ->].
  destruct (assoc_In _ _ _ Ea) as [k Q]. right. right. exists d, k. unfold ents. rewrite E. exact Q.
Qed.
Lemma norm_walk_found s check comps : forall d o, found s d -> norm_walk (fun _ => Err RecErr) s check d comps = Ok o -> found s o.
Proof.
  induction comps as [|n comps IH]; intros d o Hd; cbn [norm_walk]; [intros [= <-]; exact Hd|].
  destruct (S_ISLNK _); [destruct (text_contents s d); discriminate|]. cbn [rbind]. destruct (negb _); [discriminate|].
  destruct (get_entry s d n) as [o'|e] eqn:E; [|destruct e; discriminate]. destruct (_ && _ && _); [discriminate|]. apply IH, (get_entry_found s d n o' E).
Qed.
Lemma resolve_found' s p ck o : resolve s p ck = Ok o -> found s o.
Proof.
  unfold resolve, resolve_. destruct (resolve_path_ _ s p) as [rp|]; cbn [rbind]; [|discriminate]. unfold get_norm.
  destruct (str_eqb _ _); [intros [= <-]; left; reflexivity|]. destruct (str_eqb _ _); [intros [= <-]; right; left; reflexivity|]. apply norm_walk_found. left. reflexivity.
Qed.
Lemma lresolve_found' s p o : lresolve s p = Ok o -> found s o.
Proof.
  unfold lresolve, lresolve_. destruct (str_eqb p []); [discriminate|]. destruct (str_eqb p _); [intros [= <-]; left; reflexivity|].
  destruct (splitpath _ _) as [h t]. set (h' := if str_eqb h [] then f_cwd s else h). destruct (resolve_ (exists_top s) s h' true) as [d|] eqn:E; cbn [rbind]; [|discriminate].
  destruct (negb _); [discriminate|]. destruct (negb _); [discriminate|]. destruct (str_eqb t []); [intros [= <-]; apply (resolve_found' s h' true d E)|].
  destruct (get_entry s d t) as [o'|e] eqn:Ee; [|destruct e; discriminate]. intros [= <-]. apply (get_entry_found s d t o' Ee).
Qed.
Lemma follow_found s p f ck o : resolve_follow s p f ck = Ok o -> found s o.
Proof. unfold resolve_follow, resolve_any. destruct f; [apply resolve_found'|apply lresolve_found']. Qed.
Lemma found_add s o : found s o -> H0 s -> Hst u [(o, KT); (o, KL)] None s.
Proof.
  intros F H. apply H_add; [|apply H_add; [|exact H]]; cbn [knows].
  - intros U. destruct F as [->|[->|(d & n & Hin)]].
    + intros L. rewrite (lnk_dir _ (hs_ok _ _ _ _ H root_oid) (hs_root _ _ _ _ H)) in L. discriminate.
    + intros L. rewrite (hs_nul _ _ _ _ H) in L. discriminate.
    + apply (hs_txt _ _ _ _ H U d n o Hin). discriminate.
  - pose proof (hs_next _ _ _ _ H). destruct F as [->|[->|(d & n & Hin)]]; [unfold root_oid; lia|unfold devnull_oid; lia|apply (hs_elt _ _ _ _ H d n o Hin)].
Qed.
Lemma okadd_found o : okadd [(o, KT); (o, KL)] None o.
Proof. split; [right; left; reflexivity|right; left; left; reflexivity]. Qed.
Lemma create_link_H a b f md : preserves H0 (create_link a b f md).
Proof.
  unfold create_link. apply pres_bind; [apply pres_gets|]. intros c. apply pres_bind; [apply pres_gets|]. intros np. apply pres_bind; [apply pres_lift|]. intros e.
  destruct e; [apply pres_raise_os|]. cbv zeta. apply pres_bind; [apply pres_gets|]. intros nd. apply pres_bind; [apply pres_lift|]. intros pe.
  apply pres_bind; [pres; apply create_dir_H; [apply lts_nil|reflexivity]|]. intros _. destruct (ends_with_path_separator c a); [apply pres_raise_os|]. destruct (_ && _); [apply pres_raise_os|].
  set (sp := splitpath c np). set (k := fun o : oid => _).
  intros s H. change (wp (o <- catch (lift (fun s => resolve_follow s a f true)) (fun e => match e with OSErr _ => raise_os ENOENT | _ => raise e end) ;; k o) s (fun _ s' => H0 s')).
  apply wp_bind, wp_catch. wstep. destruct (resolve_follow s a f true) as [o|e] eqn:E; [|destruct e; wstep; exact H].
  apply (H_0 [(o, KT); (o, KL)]). assert (P : preserves (Hst u [(o, KT); (o, KL)] None) (k o)).
  { unfold k. pres; [hmod|apply add_object_H, okadd_found]. }
  apply (P s), found_add; [apply (follow_found s a f true o E)|exact H].
Qed.
Lemma new_dir_then K0 nm perm p : lts K0 -> (perm < 4096)%N -> preserves (Hst u K0 None) (o <- new_dir nm perm ;; add_object p o).
Proof.
  intros HK Hp s H. change (wp (o <- new_dir nm perm ;; add_object p o) s (fun _ s' => Hst u K0 None s')). apply wp_bind. unfold wp at 1. cbv beta.
  change (fst (new_dir nm perm s)) with (@Ok oid (f_next s)). cbv iota. assert (H1 := new_dir_H K0 None nm perm s HK Hp H).
  apply (H_weaken K0 (newdir (f_next s) ++ K0)); [intros q Hq; apply in_or_app; right; exact Hq|].
  apply add_object_H; [|exact H1]. split; [right; right; left; reflexivity|right; right; right; left; reflexivity].
Qed.
Lemma pres_bind_gets {A B} (P : fs -> Prop) (f : fs -> A) (k : A -> M B) : (forall s, preserves P (k (f s))) -> preserves P (bind (gets f) k).
Proof. intros H s Hs. apply (H s s Hs). Qed.
Ltac presg := repeat (lazymatch goal with
  | |- preserves _ (bind (gets _) _) => apply pres_bind_gets; let s := fresh "s" in intros s; cbv beta
  | |- preserves _ (bind (new_dir _ _) (fun o => add_object _ o)) => fail
  | |- preserves _ (bind (new_file _ _) (fun o => add_object _ o)) => fail
  | _ => pres1 end; cbv zeta).
Lemma makedir_H p m : (m < 4096)%N -> preserves H0 (makedir p m).
Proof.
  intros Hm. unfold makedir. presg; try apply remove_object_H.
  all: apply new_dir_then; [apply lts_nil|apply ldiff_small, Hm].
Qed.
Lemma makedirs_H p m e : (m < 4096)%N -> preserves H0 (makedirs p m e).
Proof.
  intros Hm. unfold makedirs. presg; try apply remove_object_H.
  all: apply create_dir_H; [apply lts_nil|apply ldiff_small, Hm].
Qed.
Lemma new_file_then nm mode p : file_mode mode -> preserves H0 (o <- new_file nm mode ;; add_object p o).
Proof.
  intros Hp s H. change (wp (o <- new_file nm mode ;; add_object p o) s (fun _ s' => H0 s')). apply wp_bind. unfold wp at 1. cbv beta.
  change (fst (new_file nm mode s)) with (@Ok oid (f_next s)). cbv iota. assert (H1 := new_file_H [] None nm mode s lts_nil Hp H). rewrite app_nil_r in H1.
  apply (H_0 (newfile (f_next s))). apply add_object_H; [|exact H1]. split; [right; right; left; reflexivity|right; right; right; left; reflexivity].
Qed.
Lemma mknod_H p m d : file_mode m -> preserves H0 (mknod p m d).
Proof. intros Hm. unfold mknod. presg. all: apply new_file_then, file_mode_ldiff, Hm. Qed.
Lemma broken_H p : preserves H0 (handle_broken_link p).
Proof. unfold handle_broken_link. pres. Qed.
Lemma remove_H p : preserves H0 (remove p).
Proof. unfold remove. pres; first [apply broken_H|apply remove_object_H]. Qed.
Lemma rmdir_H p a : preserves H0 (rmdir p a).
Proof. unfold rmdir. pres. all: apply remove_object_H. Qed.
Lemma removedirs_loop_H n : forall h t, preserves H0 (removedirs_loop n h t).
Proof. induction n as [|n IH]; intros h t; cbn [removedirs_loop]; pres; first [apply rmdir_H|apply IH]. Qed.
Lemma removedirs_H p : preserves H0 (removedirs p).
Proof. unfold removedirs. pres; first [apply rmdir_H|apply removedirs_loop_H]. Qed.
Lemma entry_then {A} (d : oid) n (k : oid -> M A) : (forall o, preserves (Hst u [(o, KT); (o, KL)] None) (k o)) ->
  preserves H0 (o <- lift (fun s => get_entry s d n) ;; k o).
Proof.
  intros Hk s H. unfold bind, lift. destruct (get_entry s d n) as [o|e] eqn:E; [|exact H].
  apply (H_0 [(o, KT); (o, KL)]). apply (Hk o s), found_add; [apply (get_entry_found s d n o E)|exact H].
Qed.
Lemma rename_move_H old new oldo : preserves H0 (rename_move old new oldo).
Proof.
  unfold rename_move. repeat (lazymatch goal with |- preserves _ (bind (lift (fun s => get_entry s _ _)) _) => fail | _ => pres1 end; cbv zeta).
  apply entry_then. intros o. pres; first [hmod|apply remove_entry_H|apply add_entry_H, okadd_found].
Qed.
Lemma rename_H a b f : preserves H0 (rename a b f).
Proof.
  unfold rename, posix_dir_link_errors, rename_to_existing, rename_error_for_dir_or_link, rename_same_object. pres;
    first [apply broken_H|apply remove_object_H|apply rename_move_H].
Qed.
Lemma chmod_H a m f : preserves H0 (chmod a m f).
Proof. unfold chmod. pres. apply H_mod; intros y; cbn; [apply chmod_mode_type|reflexivity]. Qed.
Lemma set_usage_H t p : ~ u -> preserves H0 (set_disk_usage t p).
Proof.
  intros Hu. unfold set_disk_usage. pres; try (apply mount_path_H; [intros; apply create_dir_H; assumption|apply lts_nil]).
  intros s H. unfold modify. cbn [snd]. apply H_mounts; [intros U; contradiction (Hu U)|exact H].
Qed.
Lemma io_H o : io_call o = true -> preserves H0 (step o).
Proof.
  apply (ir_step (R := kept_by H0)).
  - intros s s' E H. rewrite E. apply (Hst_step [] None s); auto. intros y. apply sk_refl.
  - intros o' f Hf. apply H_mod; intros y; rewrite (Hf y); reflexivity.
  - intros o' n. apply set_size_H.
  - intros o' c. apply set_contents_H.
  - intros p. apply remove_object_H.
  - intros p c md um. apply create_int_H. left. intros um0. assert (F : file_mode (N.lor S_IFREG PERM_DEF_FILE)) by (split; [reflexivity|discriminate]).
    destruct um; [apply file_mode_ldiff, F|exact F].
  - intros a m f. apply chmod_H.
Qed.
Lemma outm_H {A} (f : A -> out) m : preserves H0 m -> preserves H0 (outm f m).
Proof. apply outm_pres. Qed.
Lemma env_H f : (forall s, env_only s (f s)) -> preserves H0 (modify f).
Proof. intros E s H. unfold modify. cbn [snd]. rewrite (E s). apply (Hst_step [] None s); auto. intros y. apply sk_refl. Qed.
Theorem proper_step o : proper_call u o -> preserves H0 (step o).
Proof.
  intros Hp. destruct (io_call o) eqn:Eio; [apply io_H, Eio|]. destruct o; try discriminate Eio; cbn [step proper_call] in *; apply outm_H.
  - unfold create_file. apply create_int_H. left. intros um0. match goal with |- file_mode (if ?b then _ else _) => destruct b end; [apply file_mode_ldiff, Hp|exact Hp].
  - apply create_dir_H; [apply lts_nil|exact Hp].
  - apply symlink_H.
  - apply create_link_H.
  - unfold os_symlink. pres. apply symlink_H.
  - unfold os_link. pres. apply create_link_H.
  - apply makedir_H, Hp.
  - apply makedirs_H, Hp.
  - apply mknod_H, Hp.
  - apply remove_H.
  - apply rmdir_H.
  - apply removedirs_H.
  - apply remove_object_H.
  - apply rename_H.
  - apply chmod_H.
  - unfold lchmod. pres. apply chmod_H.
  - unfold utime. pres; apply H_mod; intros y; cbn; reflexivity.
  - unfold chown. pres; apply H_mod; intros y; destruct (Z.eqb _ (-1)), (Z.eqb _ (-1)); reflexivity.
  - unfold umask. pres. apply env_H. intros s; destruct s; reflexivity.
  - unfold chdir. pres. apply env_H. intros s; destruct s; reflexivity.
  - unfold setxattr. pres. hmod.
  - unfold removexattr. pres. hmod.
  - unfold os_truncate. pres. apply set_size_H.
  - unfold os_ftruncate. pres. apply set_size_H.
  - apply add_mount_H; [intros; apply create_dir_H; assumption|apply lts_nil|exact Hp].
  - apply set_usage_H, Hp.
  - unfold get_disk_usage. pres. apply mount_path_H; [intros; apply create_dir_H; assumption|apply lts_nil].
  - unfold fs_set_contents. pres. apply set_contents_H.
  - apply env_H. intros s; destruct s; reflexivity.
  - apply env_H. intros s; destruct s; reflexivity.
  - apply env_H. intros s; destruct s; reflexivity.
Qed.
Lemma init_H c total um uid gid now : (u -> total = None) -> H0 (init c total um uid gid now).
Proof.
  intros Ht. assert (E : forall o n e, ~ In (n, e) (ents (init c total um uid gid now) o)) by (intros [|[|o]] n e Hin; exact Hin).
  constructor.
  - intros [|[|o]]; split; reflexivity.
  - intros U d n o Hin. contradiction (E d n o Hin).
  - intros d n o Hin. contradiction (E d n o Hin).
  - intros U k m [[= <- <-]|[]]. exact (Ht U).
  - intros o k [].
  - reflexivity.
  - reflexivity.
  - apply le_n.
Qed.
End H.
Theorem proper_H u c s : proper_history u c s -> Hst u [] None s.
Proof.
  intros (total & um & uid & gid & now & ops & Ht & Hops & ->). assert (H := init_H u c total um uid gid now Ht). revert H. generalize (init c total um uid gid now).
  induction Hops as [|o ops Ho Hops IH]; intros s H; cbn [run]; [exact H|]. apply IH. apply (proper_step u o Ho s H).
Qed.
Theorem proper_honest_dirs u c s : proper_history u c s -> honest_dirs s.
Proof. intros H o. apply proper_H in H. destruct (hs_ok _ _ _ _ H o) as [A _]. exact A. Qed.
Theorem proper_honest_links c s : proper_history True c s -> honest_links s.
Proof.
  intros H d n o E L. apply proper_H in H. apply (hs_txt _ _ _ _ H Logic.I d n o); [apply entry_In, E|discriminate|exact L].
Qed.
Lemma proper_reachable u c s : proper_history u c s -> reachable c s.
Proof. intros (total & um & uid & gid & now & ops & _ & _ & ->). exists total, um, uid, gid, now, ops. reflexivity. Qed.
