(** * add_entry and remove_entry keep the graph invariant. *)
From Verif Require Export GraphInv.

(** ** Disk usage is not part of the graph *)
Definition only_mounts (s s' : fs) : Prop := s' = set_mounts s (f_mounts s').
Lemma only_mounts_refl s : only_mounts s s.
Proof. destruct s; reflexivity. Qed.
Lemma only_mounts_trans a b c : only_mounts a b -> only_mounts b c -> only_mounts a c.
Proof. unfold only_mounts. intros -> ->. reflexivity. Qed.
Lemma wp_change_disk_usage delta dev s :
  wp (change_disk_usage delta dev) s (fun r s' => only_mounts s s' /\
     (r = Ok tt \/ (r = Err (OSErr ENOSPC) /\ s' = s))).
Proof.
  unfold wp, change_disk_usage. destruct (mount_for_dev (f_mounts s) dev) as [m|].
  - destruct (m_total m) as [t|]; [destruct (t - m_used m <? delta)%Z|]; cbn;
      (split; [try reflexivity; apply only_mounts_refl|]); auto.
  - cbn. split; [apply only_mounts_refl|auto].
Qed.
Lemma only_mounts_gsame s s' : only_mounts s s' -> gsame s s'.
Proof. intros H. rewrite H. constructor; auto. Qed.
Lemma only_mounts_Ginv s s' : only_mounts s s' -> Ginv s -> Ginv s'.
Proof. intros H. apply gsame_Ginv, only_mounts_gsame, H. Qed.
Lemma only_mounts_ob s s' x : only_mounts s s' -> ob s' x = ob s x.
Proof. intros ->. reflexivity. Qed.

(** ** add_entry *)
Definition added (s s' : fs) (d o : oid) : Prop :=
  exists s1, linked s s1 d o (o_name (ob s o)) /\ only_mounts s1 s'.

Lemma wp_add_entry s d o : d <> o ->
  wp (add_entry d o) s (fun r s' =>
    (r <> Ok tt /\ s' = s /\
       (r = Err AttrErr \/ r = Err (OSErr EACCES) \/ r = Err (OSErr EEXIST))) \/
    (is_dirobj s d = true /\ entry s d (o_name (ob s o)) = None /\ added s s' d o /\
       (r = Ok tt \/ r = Err (OSErr ENOSPC)))).
Proof.
  intros Hn. unfold add_entry. wstep. destruct (is_dirobj s d) eqn:Hd; cbn [negb].
  2:{ wstep. left. repeat split; [discriminate|auto]. }
  wstep. match goal with |- wp (if ?b then _ else _) _ _ => destruct b end.
  { wstep. left. repeat split; [discriminate|auto]. }
  wstep. unfold entry. destruct (assoc (o_name (ob s o)) (ents s d)) as [y|] eqn:Ea.
  { wstep. left. repeat split; [discriminate|auto]. }
  destruct (link_obj_spec s d o Hn Hd) as (s1 & E1 & HL).
  apply wp_bind. unfold wp at 1. rewrite E1. cbn [fst snd].
  wstep. destruct (Z.eqb _ 1).
  - wstep. wstep. eapply wp_conseq; [apply wp_change_disk_usage|]. intros r s2 [Hm Hr]. right.
    repeat split; auto.
    + exists s1. split; assumption.
    + destruct Hr as [->|[-> ->]]; auto.
  - wstep. right. repeat split; auto. exists s1. split; [assumption|apply only_mounts_refl].
Qed.

Lemma Ginv_added s s' d o : d <> o -> is_dirobj s d = true -> added s s' d o ->
  Ginv s -> o < f_next s -> o <> root_oid -> ordinary (sepc s) (o_name (ob s o)) ->
  entry s d (o_name (ob s o)) = None -> (is_dirobj s o = true -> refs s o = 0) -> ~ reach s o d -> Ginv s'.
Proof.
  intros Hn Hd (s1 & HL & Hm) H Ho Hr Hnm He Href Hac. apply (only_mounts_Ginv s1 s' Hm).
  apply (Ginv_linked s s1 d o (o_name (ob s o))); auto. apply assoc_None, He.
Qed.

(** ** remove_entry *)

(** Only directory entries and link counts shrink. *)
Record shrunk (s s' : fs) : Prop := {
  sh_rest : s' = set_mounts (set_heap s (f_heap s')) (f_mounts s');
  sh_ob : forall x, ob s' x = wo_nlink (wo_body (ob s x) (o_body (ob s' x))) (o_nlink (ob s' x));
  sh_file : forall x, is_dirobj s x = false -> o_body (ob s' x) = o_body (ob s x);
  sh_dir : forall x, is_dirobj s' x = is_dirobj s x;
  sh_ent : forall d n o, entry s' d n = Some o -> entry s d n = Some o
}.
Lemma shrunk_refl s : shrunk s s.
Proof. constructor; auto; [destruct s; reflexivity|]. intros x; destruct (ob s x); reflexivity. Qed.
Lemma shrunk_trans a b c : shrunk a b -> shrunk b c -> shrunk a c.
Proof.
  intros H K. constructor.
  - rewrite (sh_rest _ _ K), (sh_rest _ _ H). reflexivity.
  - intros x. rewrite (sh_ob _ _ K x), (sh_ob _ _ H x). reflexivity.
  - intros x Hx. rewrite (sh_file _ _ K x); [apply (sh_file _ _ H x Hx)|]. rewrite (sh_dir _ _ H). exact Hx.
  - intros x. rewrite (sh_dir _ _ K). apply (sh_dir _ _ H).
  - intros d n o E. apply (sh_ent _ _ H), (sh_ent _ _ K), E.
Qed.
Lemma shrunk_attr {A} (f : fobj -> A) s s' x : shrunk s s' ->
  (forall y z, f (wo_nlink y z) = f y) -> (forall y z, f (wo_body y z) = f y) -> f (ob s' x) = f (ob s x).
Proof. intros H H1 H2. rewrite (sh_ob _ _ H x), H1, H2. reflexivity. Qed.
Lemma shrunk_mounts s s' : only_mounts s s' -> shrunk s s'.
Proof.
  intros ->. constructor; auto.
  intros x. change (ob (set_mounts s (f_mounts s')) x) with (ob s x). destruct (ob s x); reflexivity.
Qed.
Lemma shrunk_unlinked s s' d e nm : Ginv s -> entry s d nm = Some e -> unlinked s s' d e nm -> shrunk s s'.
Proof.
  intros H He HU. constructor.
  - rewrite (un_rest _ _ _ _ _ HU). destruct s; reflexivity.
  - intros x. rewrite (un_ob _ _ _ _ _ HU x). cbv zeta. destruct (ob s x); destruct (Nat.eqb x d); destruct (Nat.eqb x e); reflexivity.
  - intros x Hx. rewrite (un_ob _ _ _ _ _ HU x). cbv zeta. destruct (Nat.eqb_spec x d) as [->|].
    + rewrite (entry_dirobj _ _ _ _ He) in Hx. discriminate.
    + destruct (Nat.eqb x e); reflexivity.
  - intros x. apply (unlinked_dirobj s s' d e nm He HU).
  - intros x n y. apply (unlinked_entry_inv s s' d e nm H HU).
Qed.
Lemma shrunk_tree s s' a names b : shrunk s s' -> tree_at s' a names = Some b -> tree_at s a names = Some b.
Proof.
  intros H. revert a; induction names as [|n names IH]; intros a; cbn [tree_at]; [auto|].
  destruct (entry s' a n) as [x|] eqn:E; [|discriminate]. rewrite (sh_ent _ _ H _ _ _ E). apply IH.
Qed.
Lemma shrunk_reach s s' a b : shrunk s s' -> reach s' a b -> reach s a b.
Proof. intros H [names E]. exists names. apply (shrunk_tree s s' a names b H E). Qed.
Lemma shrunk_cfg s s' : shrunk s s' -> f_cfg s' = f_cfg s.
Proof. intros H. rewrite (sh_rest _ _ H). reflexivity. Qed.
Lemma shrunk_next s s' : shrunk s s' -> f_next s' = f_next s.
Proof. intros H. rewrite (sh_rest _ _ H). reflexivity. Qed.
Lemma shrunk_cwd s s' : shrunk s s' -> f_cwd s' = f_cwd s.
Proof. intros H. rewrite (sh_rest _ _ H). reflexivity. Qed.
Lemma shrunk_uid s s' : shrunk s s' -> f_uid s' = f_uid s.
Proof. intros H. rewrite (sh_rest _ _ H). reflexivity. Qed.

Lemma shrunk_ext s s' : shrunk s s' -> ext s' s.
Proof.
  intros H. constructor.
  - apply (shrunk_cfg s s' H).
  - apply (shrunk_cwd s s' H).
  - apply (shrunk_uid s s' H).
  - unfold devnull_name. apply (shrunk_attr o_name s s' _ H); reflexivity.
  - apply (sh_ent _ _ H).
  - intros names o _. symmetry. apply (shrunk_attr o_mode s s' _ H); reflexivity.
  - intros names o data _ Hb. rewrite <- Hb. symmetry. apply (sh_file _ _ H).
    rewrite <- (sh_dir _ _ H). unfold is_dirobj. rewrite Hb. reflexivity.
Qed.

(** Every path down from [d] has at most [k] names. *)
Definition depth_le (s : fs) (d : oid) (k : nat) : Prop :=
  forall names o, tree_at s d names = Some o -> length names <= k.
Lemma depth_shrunk s s' d k : shrunk s s' -> depth_le s d k -> depth_le s' d k.
Proof. intros H D names o E. apply (D names o), (shrunk_tree s s' d names o H E). Qed.
Lemma depth_child s d n e k : entry s d n = Some e -> depth_le s d (S k) -> depth_le s e k.
Proof.
  intros E D names o H. assert (S (length names) <= S k); [|lia].
  apply (D (n :: names) o). simpl. rewrite E. exact H.
Qed.

(** the objects met on a walk *)
Fixpoint walk_objs (s : fs) (d : oid) (names : list str) : list oid :=
  d :: match names with
       | [] => []
       | n :: rest => match entry s d n with Some o => walk_objs s o rest | None => [] end
       end.
Lemma walk_objs_reach s d names x : In x (walk_objs s d names) -> reach s d x.
Proof.
  revert d; induction names as [|n names IH]; intros d; cbn [walk_objs].
  - intros [<-|[]]. apply reach_refl.
  - intros [<-|H]; [apply reach_refl|]. destruct (entry s d n) as [o|] eqn:E; [|destruct H].
    apply (reach_step s d n o x E), IH, H.
Qed.
Lemma walk_objs_nodup s d names : Ginv s -> NoDup (walk_objs s d names).
Proof.
  intros H. revert d; induction names as [|n names IH]; intros d; cbn [walk_objs].
  - constructor; [simpl; tauto|constructor].
  - destruct (entry s d n) as [o|] eqn:E; [|constructor; [simpl; tauto|constructor]].
    constructor; [|apply IH]. intros Hi. apply walk_objs_reach in Hi. destruct Hi as [ns Hns].
    assert (n :: ns = []); [|discriminate]. apply (gi_acyc s H d). simpl. rewrite E. exact Hns.
Qed.
Lemma walk_objs_lt s d names x : Ginv s -> d < f_next s -> In x (walk_objs s d names) -> x < f_next s.
Proof. intros H Hd Hi. apply walk_objs_reach in Hi. destruct Hi as [ns E]. apply (tree_at_lt s d ns x H Hd E). Qed.
Lemma walk_objs_length s d names o : tree_at s d names = Some o -> length (walk_objs s d names) = S (length names).
Proof.
  revert d; induction names as [|n names IH]; intros d; cbn [walk_objs tree_at]; [reflexivity|].
  destruct (entry s d n) as [x|]; [|discriminate]. intros H. simpl. rewrite (IH x H). reflexivity.
Qed.
Lemma depth_bound s d : Ginv s -> depth_le s d (f_next s).
Proof.
  intros H names o E. destruct names as [|n names]; [simpl; lia|].
  assert (Hd : d < f_next s) by (apply dirobj_lt; [exact H|apply (tree_at_dirobj s d n names o E)]).
  pose proof (walk_objs_length s d _ o E) as Hl. pose proof (walk_objs_nodup s d (n :: names) H) as Hnd.
  assert (Hle : length (walk_objs s d (n :: names)) <= length (seq 0 (f_next s))).
  { apply NoDup_incl_length; [exact Hnd|]. intros x Hx. apply in_seq. pose proof (walk_objs_lt s d _ x H Hd Hx). lia. }
  rewrite seq_length in Hle. lia.
Qed.

(** What a removal may raise. *)
Definition rm_err (e : exn) : Prop := e = OSErr EACCES \/ e = OSErr ENOSPC.

(** The state after removing (or failing to remove) the entry [name] of [d]. *)
Record rm_post (s s' : fs) (d : oid) (name : str) : Prop := {
  rp_inv : Ginv s';
  rp_shrunk : shrunk s s';
  rp_frame : forall x, x <> d -> (forall e, entry s d name = Some e -> ~ reach s e x) -> ents s' x = ents s x
}.

(** The subtree of [e] holds no entries any more. *)
Definition emptied (s s' : fs) (e : oid) : Prop := forall x, reach s e x -> ents s' x = [].

Lemma shrunk_empty s s' x : Ginv s' -> shrunk s s' -> ents s x = [] -> ents s' x = [].
Proof.
  intros H' H E. destruct (ents s' x) as [|[n y] es] eqn:Ex; [reflexivity|].
  assert (Hy : entry s' x n = Some y) by (apply In_entry; [exact H'|rewrite Ex; left; reflexivity]).
  apply (sh_ent _ _ H) in Hy. unfold entry in Hy. rewrite E in Hy. discriminate.
Qed.

Section RmLoop.
Variable rm : str -> M unit.
Variable e : oid.
Variable fuel : nat.
Hypothesis Hrm : forall s n, Ginv s -> depth_le s e fuel -> entry s e n <> None ->
  wp (rm n) s (fun r s' => rm_post s s' e n /\
    match r with
    | Ok _ => exists x, entry s e n = Some x /\ ents s' e = del_assoc n (ents s e) /\ emptied s s' x
    | Err er => rm_err er /\ ents s' e = ents s e
    end).

Lemma rm_loop_spec k : forall s, Ginv s -> depth_le s e fuel -> length (ents s e) <= k ->
  wp (rm_loop rm k e) s (fun r s' =>
    Ginv s' /\ shrunk s s' /\ (forall x, ~ reach s e x -> ents s' x = ents s x) /\
    match r with Ok _ => emptied s s' e | Err er => rm_err er end).
Proof.
  induction k as [|k IH]; intros s H D Hk; cbn [rm_loop]; wstep.
  - destruct (ents s e) as [|[n y] es] eqn:Ee; [|simpl in Hk; lia]. wstep.
    split; [exact H|]. split; [apply shrunk_refl|]. split; [auto|].
    intros x [[|n ns] Hx]; simpl in Hx; [congruence|]. unfold entry in Hx. rewrite Ee in Hx. discriminate.
  - destruct (ents s e) as [|[n y] es] eqn:Ee.
    { wstep. split; [exact H|]. split; [apply shrunk_refl|]. split; [auto|].
      intros x [[|n ns] Hx]; simpl in Hx; [congruence|]. unfold entry in Hx. rewrite Ee in Hx. discriminate. }
    apply wp_bind. eapply wp_conseq; [apply Hrm; [assumption|assumption|unfold entry; rewrite Ee; simpl; rewrite str_eqb_refl; discriminate]|].
    intros [[]|er] s1 (HP & HR); destruct HP as [HI HS HF]; cbv beta iota.
    + destruct HR as (x & Hx & He1 & Hemp).
      assert (Hk1 : length (ents s1 e) <= k).
      { rewrite He1, Ee. simpl. rewrite str_eqb_refl. simpl in Hk. lia. }
      eapply wp_conseq; [apply (IH s1 HI (depth_shrunk _ _ _ _ HS D) Hk1)|].
      intros r s2 (HI2 & HS2 & HF2 & HR2). split; [exact HI2|]. split; [apply (shrunk_trans _ _ _ HS HS2)|]. split.
      * intros z Hz. rewrite (HF2 z) by (intros K; apply Hz, (shrunk_reach s s1 e z HS K)).
        apply HF; [intros ->; apply Hz, reach_refl|]. intros e0 E0 K. apply Hz, (reach_step s e n e0 z E0 K).
      * destruct r as [u|er]; [|exact HR2].
        intros z [ns Hz]. destruct ns as [|m ns]; [simpl in Hz; injection Hz as <-; apply HR2, reach_refl|].
        cbn [tree_at] in Hz. destruct (entry s e m) as [c|] eqn:Em; [|discriminate].
        destruct (str_eqb_spec m n) as [->|Hmn].
        -- assert (c = x) by congruence. subst c. apply (shrunk_empty s1 s2 z HI2 HS2). apply Hemp. exists ns; exact Hz.
        -- (* still there in s1, or emptied with x *)
           assert (Em1 : entry s1 e m = Some c).
           { unfold entry. rewrite He1, assoc_del_other by exact Hmn. exact Em. }
           destruct (ents s2 z) as [|ent0 es2] eqn:E2; [reflexivity|exfalso].
           assert (Hnx : ~ reach s x z).
           { intros K. pose proof (shrunk_empty s1 s2 z HI2 HS2 (Hemp z K)). congruence. }
           assert (Hw : forall ns c q, tree_at s c ns = Some z -> q <> [] -> tree_at s e q = Some c -> reach s1 c z).
           { clear ns c Hz Em Em1. intros ns; induction ns as [|p ns IHn]; intros c q Hc Hq Hqc.
             - simpl in Hc. injection Hc as <-. apply reach_refl.
             - pose proof Hc as Hcz. cbn [tree_at] in Hc. destruct (entry s c p) as [c'|] eqn:Ec; [|discriminate].
               assert (Es : ents s1 c = ents s c).
               { apply HF; [intros ->; apply Hq, (gi_acyc s H e), Hqc|].
                 intros e0 E0 K. assert (e0 = x) by congruence. subst e0. apply Hnx.
                 apply (reach_trans s x c z K). exists (p :: ns). exact Hcz. }
               apply (reach_step s1 c p c' z); [unfold entry; rewrite Es; exact Ec|].
               apply (IHn c' (q ++ [p]) Hc); [destruct q; discriminate|].
               rewrite tree_at_app, Hqc. simpl. rewrite Ec. reflexivity. }
           assert (K : reach s1 e z).
           { apply (reach_step s1 e m c z Em1). apply (Hw ns c [m] Hz); [discriminate|]. simpl. rewrite Em. reflexivity. }
           rewrite (HR2 z K) in E2. discriminate.
    + split; [exact HI|]. split; [exact HS|]. split; [|apply HR].
      intros z Hz. apply HF; [intros ->; apply Hz, reach_refl|].
      intros e0 E0 K. apply Hz, (reach_step s e n e0 z E0 K).
Qed.
End RmLoop.

Lemma wp_remove_entry_n fuel d name rec : forall s, Ginv s -> depth_le s d fuel -> (fuel = 0 -> entry s d name <> None) ->
  wp (remove_entry_n fuel d name rec) s (fun r s' => rm_post s s' d name /\
    match r with
    | Ok _ => exists x, entry s d name = Some x /\ ents s' d = del_assoc name (ents s d) /\
                        (if rec then emptied s s' x else forall y, y <> d -> ents s' y = ents s y)
    | Err er => ents s' d = ents s d /\ (rec = false -> s' = s) /\
                match entry s d name with
                | Some _ => rm_err er
                | None => s' = s /\ er = if is_dirobj s d then KeyErr else AttrErr
                end
    end).
Proof.
  revert d name rec; induction fuel as [|fuel IH]; intros d name rec s H D Hf.
  { exfalso. specialize (Hf eq_refl). destruct (entry s d name) as [e|] eqn:E; [|congruence].
    assert (1 <= 0); [|lia]. apply (D [name] e). simpl. rewrite E. reflexivity. }
  cbn [remove_entry_n]. wstep. rewrite (normalized_entryname_cs s d name (Ginv_cs s H)).
  assert (Hsame : forall P : Prop, P -> rm_post s s d name /\ ents s d = ents s d /\ (rec = false -> s = s) /\ P).
  { intros P HP. split; [constructor; [exact H|apply shrunk_refl|auto]|auto]. }
  wstep. rewrite (get_entry_cs s d name (Ginv_cs s H)).
  destruct (is_dirobj s d) eqn:Hd.
  2:{ apply Hsame. destruct (entry s d name) as [e|] eqn:He; [|auto]. rewrite (entry_dirobj _ _ _ _ He) in Hd. discriminate. }
  destruct (entry s d name) as [e|] eqn:He; [|apply Hsame; auto].
  wstep. wstep. rewrite (Ginv_win s H).
  match goal with |- wp (if ?b then _ else _) _ _ => destruct b end.
  { wstep. apply Hsame. left; reflexivity. }
  wstep.
  assert (Hned : forall x, reach s e x -> x <> d).
  { intros x [ns K] ->. assert (name :: ns = []); [|discriminate]. apply (gi_acyc s H d). simpl. rewrite He. exact K. }
  assert (Hfin : forall s1, Ginv s1 -> shrunk s s1 -> (forall x, ~ reach s e x -> ents s1 x = ents s x) ->
    (if rec then emptied s s1 e else forall y, y <> d -> ents s1 y = ents s y) ->
    wp (unlink_obj d e name) s1 (fun r s' => rm_post s s' d name /\
    match r with
    | Ok _ => exists x, Some e = Some x /\ ents s' d = del_assoc name (ents s d) /\
                        (if rec then emptied s s' x else forall y, y <> d -> ents s' y = ents s y)
    | Err er => ents s' d = ents s d /\ (rec = false -> s' = s) /\ rm_err er
    end)).
  { intros s1 H1 S1 F1 R1.
    assert (Ed : ents s1 d = ents s d) by (apply F1; intros K; apply (Hned d K); reflexivity).
    assert (He1 : entry s1 d name = Some e) by (unfold entry; rewrite Ed; exact He).
    destruct (unlink_obj_spec s1 d e name H1 He1) as (s2 & E2 & HU).
    unfold wp. rewrite E2. cbn [fst snd].
    assert (Hy : forall y, y <> d -> ents s2 y = ents s1 y).
    { intros y Hy. rewrite (unlinked_ents s1 s2 d e name HU). apply Nat.eqb_neq in Hy. rewrite Hy. reflexivity. }
    split.
    - constructor.
      + apply (Ginv_unlinked s1 s2 d e name H1 He1 HU).
      + apply (shrunk_trans s s1 s2 S1), (shrunk_unlinked s1 s2 d e name H1 He1 HU).
      + intros x Hx Hr. rewrite (Hy x Hx). apply F1. apply Hr. exact He.
    - exists e. split; [reflexivity|]. split.
      + rewrite (unlinked_ents s1 s2 d e name HU), Nat.eqb_refl, Ed. reflexivity.
      + destruct rec; [|intros y Hyd; rewrite (Hy y Hyd); apply R1, Hyd].
        intros x Hx. rewrite (Hy x (Hned x Hx)). apply R1, Hx. }
  destruct (rec && is_dirobj s e) eqn:Erec.
  - apply andb_true_iff in Erec. destruct Erec as [-> Hde].
    apply wp_bind. wstep.
    eapply wp_conseq; [apply (rm_loop_spec (fun m => remove_entry_n fuel e m true) e fuel)|].
    + intros s1 n H1 D1 Hn1. eapply wp_conseq; [apply (IH e n true s1 H1 D1 (fun _ => Hn1))|].
      intros r s2 [HP HR]. split; [exact HP|]. destruct r; [exact HR|]. destruct HR as (A & _ & B). destruct (entry s1 e n); [auto|congruence].
    + exact H.
    + apply (depth_child s d name e fuel He D).
    + apply le_n.
    + intros [[]|er] s1 (H1 & S1 & F1 & R1); cbv iota beta.
      * apply Hfin; assumption.
      * split; [constructor; [exact H1|exact S1|]|].
        -- intros x Hx Hr. apply F1, Hr. exact He.
        -- split; [|split; [discriminate|exact R1]].
           apply F1. intros K. apply (Hned d K). reflexivity.
  - assert (Hempty : rec = true -> ents s e = []).
    { intros ->. cbn [andb] in Erec. unfold is_dirobj, ents in *. destruct (o_body (ob s e)); [discriminate|reflexivity]. }
    assert (Hm : forall s1, only_mounts s s1 -> wp (unlink_obj d e name) s1 (fun r s' => rm_post s s' d name /\
      match r with
      | Ok _ => exists x, Some e = Some x /\ ents s' d = del_assoc name (ents s d) /\
                        (if rec then emptied s s' x else forall y, y <> d -> ents s' y = ents s y)
      | Err er => ents s' d = ents s d /\ (rec = false -> s' = s) /\ rm_err er
      end)).
    { intros s1 Hm. assert (Es : forall y, ents s1 y = ents s y) by (intros y; unfold ents; rewrite (only_mounts_ob s s1 y Hm); reflexivity).
      apply Hfin; [apply (only_mounts_Ginv s s1 Hm H)|apply shrunk_mounts, Hm|intros; apply Es|].
      destruct rec; [|intros; apply Es]. intros x Hx. rewrite Es.
      destruct Hx as [[|n ns] Hx]; simpl in Hx; [injection Hx as <-; apply Hempty; reflexivity|].
      unfold entry in Hx. rewrite (Hempty eq_refl) in Hx. discriminate. }
    wstep. wstep. destruct (Z.eqb (o_nlink (ob s e)) 1).
    + wstep. wstep. eapply wp_conseq; [apply wp_change_disk_usage|]. intros r s1 [Hm1 Hr]. cbv beta.
      destruct Hr as [->|[-> ->]].
      * apply Hm, Hm1.
      * apply Hsame. right; reflexivity.
    + wstep. apply Hm, only_mounts_refl.
Qed.

Lemma wp_remove_entry d name rec s : Ginv s ->
  wp (remove_entry d name rec) s (fun r s' => rm_post s s' d name /\
    match r with
    | Ok _ => exists x, entry s d name = Some x /\ ents s' d = del_assoc name (ents s d) /\
                        (if rec then emptied s s' x else forall y, y <> d -> ents s' y = ents s y)
    | Err er => ents s' d = ents s d /\ (rec = false -> s' = s) /\
                match entry s d name with
                | Some _ => rm_err er
                | None => s' = s /\ er = if is_dirobj s d then KeyErr else AttrErr
                end
    end).
Proof.
  intros H. unfold remove_entry. apply (wp_remove_entry_n (S (f_next s)) d name rec s H); [|discriminate].
  intros names o E. pose proof (depth_bound s d H names o E). lia.
Qed.
