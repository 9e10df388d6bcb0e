(** * rename keeps the graph invariant, and what it does. *)
From Verif Require Export GraphOps4.

Lemma same_data_refl s : same_data s s.
Proof. constructor; auto. Qed.
Lemma same_data_trans a b c : same_data a b -> same_data b c -> same_data a c.
Proof.
  intros [] []. constructor; intros; try (etransitivity; [match goal with H : _ |- _ => apply H end|]; auto; fail); auto.
  all: congruence.
Qed.
Lemma shrunk_same_data s s' : shrunk s s' -> same_data s s'.
Proof.
  intros H. constructor; intros o;
    try (match goal with |- ?f (ob s' o) = _ => apply (shrunk_attr f s s' o H); reflexivity end).
  - apply (sh_dir s s' H).
  - intros data E. rewrite (sh_file s s' H); [exact E|]. unfold is_dirobj. rewrite E. reflexivity.
Qed.
Lemma linked_same_data s s' d o nm : is_dirobj s d = true -> d <> o -> linked s s' d o nm -> same_data s s'.
Proof.
  intros Hd Hn HL.
  assert (E : forall {A} (f : fobj -> A) x, (forall y z, f (wo_nlink y z) = f y) -> (forall y z, f (wo_body y z) = f y) ->
     (forall y z, f (wo_dev y z) = f y) -> (forall y z, f (wo_ino y z) = f y) -> (forall y z, f (wo_parent y z) = f y) -> f (ob s' x) = f (ob s x)).
  { intros A f x F1 F2 F3 F4 F5. destruct (Nat.eq_dec x d) as [->|Hx]; [rewrite (ln_d _ _ _ _ _ HL), F1, F2; reflexivity|].
    destruct (Nat.eq_dec x o) as [->|Hy]; [|rewrite (ln_other _ _ _ _ _ HL x Hx Hy); reflexivity].
    destruct (ln_o _ _ _ _ _ HL) as (i & -> & _). rewrite F3, F1, F4, F5. reflexivity. }
  constructor; intros x; try (match goal with |- ?f (ob s' x) = _ => apply (E _ f x); reflexivity end).
  - apply (linked_dirobj s s' d o nm Hd HL).
  - intros data Hb. assert (x <> d) by (intros ->; unfold is_dirobj in Hd; rewrite Hb in Hd; discriminate).
    rewrite (linked_body s s' d o nm HL x); assumption.
Qed.
Lemma only_mounts_same_data s s' : only_mounts s s' -> same_data s s'.
Proof.
  intros H. constructor; intros o; unfold is_dirobj; rewrite ?(only_mounts_ob s s' o H); auto.
Qed.
Lemma added_same_data s s' d o : is_dirobj s d = true -> d <> o -> added s s' d o -> same_data s s'.
Proof.
  intros Hd Hn (s1 & HL & Hm). eapply same_data_trans; [apply (linked_same_data s s1 d o _ Hd Hn HL)|apply only_mounts_same_data, Hm].
Qed.
Lemma added_entry s s' d o : is_dirobj s d = true -> added s s' d o -> entry s d (o_name (ob s o)) = None ->
  forall x n, entry s' x n = if Nat.eqb x d && str_eqb n (o_name (ob s o)) then Some o else entry s x n.
Proof.
  intros Hd (s1 & HL & Hm) Hnone x n. unfold entry.
  replace (ents s' x) with (ents s1 x) by (unfold ents; rewrite (only_mounts_ob s1 s' x Hm); reflexivity).
  rewrite (linked_ents s s1 d o _ HL x). destruct (Nat.eqb x d) eqn:Ex; cbn [andb]; [|reflexivity].
  apply Nat.eqb_eq in Ex. subst x. rewrite assoc_app. cbn [assoc].
  destruct (str_eqb n (o_name (ob s o))) eqn:En.
  - apply str_eqb_eq in En. subst n. unfold entry in Hnone. rewrite Hnone. reflexivity.
  - destruct (assoc n (ents s d)); reflexivity.
Qed.

(** why add_entry raises *)
Lemma wp_add_entry_why s d o : d <> o ->
  wp (add_entry d o) s (fun r s' =>
    (r = Err AttrErr -> is_dirobj s d = false) /\
    (r = Err (OSErr EEXIST) -> entry s d (o_name (ob s o)) <> None) /\
    (r = Err (OSErr EACCES) -> is_root s = false /\ has_bit (o_mode (ob s d)) PERM_WRITE = false)).
Proof.
  intros Hn. unfold add_entry. wstep. destruct (is_dirobj s d) eqn:Hd; cbn [negb].
  2:{ wstep. repeat split; try discriminate; reflexivity. }
  wstep. match goal with |- wp (if ?b then _ else _) _ _ => destruct b eqn:Eb end.
  { wstep. apply andb_true_iff in Eb. destruct Eb as [Eb _]. apply andb_true_iff in Eb. destruct Eb as [E1 E2].
    apply negb_true_iff in E1, E2. repeat split; try discriminate; assumption. }
  wstep. unfold entry. destruct (assoc (o_name (ob s o)) (ents s d)) as [y|] eqn:Ea.
  { wstep. repeat split; discriminate. }
  destruct (link_obj_spec s d o Hn Hd) as (s1 & E1 & HL).
  apply wp_bind. unfold wp at 1. rewrite E1. cbn [fst snd].
  wstep. destruct (Z.eqb _ 1).
  - wstep. wstep. eapply wp_conseq; [apply wp_change_disk_usage|]. intros r s2 [Hm [->|[-> ->]]]; repeat split; discriminate.
  - wstep. repeat split; discriminate.
Qed.

(** changing the name of an object that is in no directory *)
Lemma Ginv_rename_detached s o nm : Ginv s -> o <> root_oid -> (is_dirobj s o = true -> refs s o = 0) ->
  Ginv (mod_ob s o (fun x => wo_name x nm)).
Proof.
  intros H Hr Href. destruct (is_dirobj s o) eqn:Hd.
  2:{ apply (gsame_Ginv s); [apply gsame_rename_file; assumption|exact H]. }
  specialize (Href eq_refl). set (s' := mod_ob _ _ _).
  assert (EA : forall {A} (f : fobj -> A) x, (forall y i, f (wo_name y i) = f y) -> f (ob s' x) = f (ob s x)).
  { intros A f x Hf. unfold s'. rewrite ob_mod. destruct (Nat.eqb x o) eqn:Ex; [|reflexivity]. apply Nat.eqb_eq in Ex. subst x. apply Hf. }
  assert (Eents : forall x, ents s' x = ents s x) by (intros x; unfold ents; rewrite (EA _ o_body); reflexivity).
  assert (Edir : forall x, is_dirobj s' x = is_dirobj s x) by (intros x; unfold is_dirobj; rewrite (EA _ o_body); reflexivity).
  assert (Hno : forall d n, ~ In (n, o) (ents s d)).
  { intros d n K. pose proof (refs_pos s d n o H K). lia. }
  destruct H as [h1 h2 h3 h4 h5 h6 h7 h8 h9 h10 h11 h12 h13 h14 h15 h16 h17 h18 h19].
  constructor; try assumption.
  - rewrite Edir. exact h4.
  - unfold is_dirm. rewrite (EA _ o_mode) by reflexivity. exact h5.
  - unfold s'. rewrite ob_mod_other by congruence. exact h6.
  - rewrite (EA _ o_parent) by reflexivity. exact h7.
  - rewrite Edir. exact h8.
  - intros x. rewrite Edir, (EA _ o_mode) by reflexivity. apply h9.
  - intros x Hx. rewrite Edir. apply h10, Hx.
  - intros d n x. rewrite Eents. apply h11.
  - intros d. rewrite Eents. apply h12.
  - intros d n x. rewrite Eents, Edir, (EA _ o_parent) by reflexivity. intros K1 K2.
    assert (x <> o) by (intros ->; apply (Hno d n K1)). unfold s'. rewrite ob_mod_other by assumption. apply (h13 d n x K1 K2).
  - intros x Hx. rewrite (EA _ o_nlink) by reflexivity. rewrite Edir, Eents, (refs_ents s s') by (auto; reflexivity). apply h14, Hx.
  - intros a names. rewrite (tree_at_ents s s' Eents). apply h15.
  - intros x i Hx. rewrite (EA _ o_ino) by reflexivity. apply h16, Hx.
  - intros a b i Ha Hb. rewrite !(EA _ o_ino) by reflexivity. apply h17; assumption.
  - rewrite (EA _ o_ino) by reflexivity. exact h18.
  - intros d n x. rewrite Eents, (EA _ o_ino) by reflexivity. apply h19.
Qed.

(** has_parent_object finds every containing directory *)
Lemma has_parent_reach s o x : Ginv s -> reach s o x -> is_dirobj s x = true ->
  forall fuel, has_parent_n fuel s x o = Ok true \/ has_parent_n fuel s x o = Err RecErr.
Proof.
  intros H [names Hn]. revert x Hn. induction names as [|n names IH] using rev_ind; intros x Hn Hd fuel.
  - cbn in Hn. injection Hn as ->. destruct fuel; cbn; rewrite Nat.eqb_refl; auto.
  - rewrite tree_at_app in Hn. destruct (tree_at s o names) as [d|] eqn:E; [|discriminate]. cbn in Hn.
    destruct (entry s d n) as [y|] eqn:Ey; [|discriminate]. injection Hn as <-.
    destruct (gi_par s H d n y (entry_In _ _ _ _ Ey) Hd) as [Hp _].
    specialize (IH d eq_refl (entry_dirobj _ _ _ _ Ey)).
    destruct fuel as [|fuel]; cbn; rewrite Hp; destruct (Nat.eqb y o); auto.
Qed.
Lemma has_parent_false s x o : Ginv s -> has_parent_object s x o = Ok false -> is_dirobj s x = true /\ ~ reach s o x.
Proof.
  intros H. unfold has_parent_object. destruct (is_dirobj s x) eqn:Hd; [|discriminate]. intros E. split; [reflexivity|].
  intros R. destruct (has_parent_reach s o x H R Hd (S (f_next s))) as [K|K]; rewrite K in E; discriminate.
Qed.

(** a directory has only one name *)
Lemma dir_one_name s d n d' n' o : Ginv s -> is_dirobj s o = true -> entry s d n = Some o -> entry s d' n' = Some o -> d = d' /\ n = n'.
Proof.
  intros H Hd E1 E2. destruct (gi_par s H _ _ _ (entry_In _ _ _ _ E1) Hd) as [P1 N1].
  destruct (gi_par s H _ _ _ (entry_In _ _ _ _ E2) Hd) as [P2 N2]. split; congruence.
Qed.

Lemma entry_del s s' d n : NoDup (map fst (ents s d)) -> ents s' d = del_assoc n (ents s d) ->
  forall m, entry s' d m = if str_eqb m n then None else entry s d m.
Proof.
  intros Hnd E m. unfold entry. rewrite E. destruct (str_eqb m n) eqn:Em.
  - apply str_eqb_eq in Em. subst m. apply assoc_del_same, Hnd.
  - apply assoc_del_other. intros ->. rewrite str_eqb_refl in Em. discriminate.
Qed.

(** what the exceptional end of the last part of rename may leave behind *)
Definition move_failed (s s' : fs) (od : oid) (n0 : str) (nd : oid) (nn : str) (o : oid) (e : exn) : Prop :=
  entry s od n0 = Some o /\ same_data s s' /\
  (forall d n, ~ (d = od /\ n = n0) -> ~ (d = nd /\ n = nn) ->
    (od = nd /\ n0 = nn) \/ (forall x, entry s nd nn = Some x -> ~ reach s x d) -> entry s' d n = entry s d n) /\
  (e = OSErr EACCES \/ e = OSErr ENOSPC).

Lemma wp_rename_move s old new oldo on pre n : Ginv s ->
  old = abs_path (sepc s) on -> Forall (ordinary (sepc s)) on ->
  new = abs_path (sepc s) (pre ++ [n]) -> Forall (ordinary (sepc s)) (pre ++ [n]) ->
  (forall opre n0 d o, on = opre ++ [n0] -> resolve s (abs_path (sepc s) opre) true = Ok d -> is_dirobj s d = true ->
     entry s d n0 = Some o -> o = oldo) ->
  wp (rename_move old new oldo) s (fun r s' => Ginv s' /\
    ((s' = s /\ exists e, r = Err e) \/
     exists opre n0 odo ndo, on = opre ++ [n0] /\
       resolve s (abs_path (sepc s) opre) true = Ok odo /\ is_dirobj s odo = true /\
       resolve s (abs_path (sepc s) pre) true = Ok ndo /\ is_dirobj s ndo = true /\
       o_dev (ob s odo) = o_dev (ob s ndo) /\ ~ reach s oldo ndo /\
       match r with
       | Ok _ => moved s s' odo n0 ndo n oldo
       | Err e => move_failed s s' odo n0 ndo n oldo e
       end)).
Proof.
  intros H -> Hon -> Hnn Hold. pose proof (Ginv_good s H) as Hg. pose proof (linux_like_posix _ (gi_lin s H)) as Hl.
  assert (Hstay : forall e, Ginv s /\ ((s = s /\ exists e0, (Err e : res unit) = Err e0) \/ exists opre n0 odo ndo, on = opre ++ [n0] /\
       resolve s (abs_path (sepc s) opre) true = Ok odo /\ is_dirobj s odo = true /\
       resolve s (abs_path (sepc s) pre) true = Ok ndo /\ is_dirobj s ndo = true /\
       o_dev (ob s odo) = o_dev (ob s ndo) /\ ~ reach s oldo ndo /\ move_failed s s odo n0 ndo n oldo e)).
  { intros e. split; [exact H|]. left. split; [reflexivity|]. exists e. reflexivity. }
  unfold rename_move. wstep. rewrite (splitpath_abs_path _ Hl _ _ Hnn). cbn [fst snd].
  destruct (ordinary_last _ _ _ Hnn) as [Hpre Hno].
  wstep. destruct (exists_ s (abs_path (sepc s) pre) false) as [[|]|e]; cbn [negb]; try (wstep; apply Hstay); [|apply Hstay].
  wstep. destruct (resolve s (fst _) true) as [odo|e] eqn:Eo; [|apply Hstay].
  wstep. destruct (resolve s (abs_path (sepc s) pre) true) as [ndo|e] eqn:En; [|apply Hstay].
  wstep. destruct (opt_nat_eqb _ _) eqn:Edev; cbn [negb]; [|wstep; apply Hstay].
  assert (Edev' : o_dev (ob s odo) = o_dev (ob s ndo)).
  { destruct (o_dev (ob s odo)), (o_dev (ob s ndo)); try discriminate; [apply Nat.eqb_eq in Edev; congruence|reflexivity]. }
  wstep. destruct (S_ISDIR (o_mode (ob s ndo))); cbn [negb]; [|wstep; apply Hstay].
  wstep. destruct (has_parent_object s ndo oldo) as [[|]|e] eqn:Ehp; [wstep; apply Hstay| |apply Hstay].
  destruct (has_parent_false s ndo oldo H Ehp) as [Hndir Hnreach].
  wstep. destruct (get_entry s odo _) as [o|e] eqn:Eg; [|apply Hstay].
  apply (get_entry_ok s _ _ _ (Ginv_cs s H)) in Eg.
  destruct (names_cases on) as [->|(opre & n0 & ->)].
  { exfalso. change (abs_path (sepc s) []) with [sepc s] in Eg. rewrite (splitpath_root _ Hl) in Eg. cbn [snd] in Eg.
    destruct (gi_ent s H odo [] o (entry_In _ _ _ _ Eg)) as (_ & _ & K & _). apply K. reflexivity. }
  rewrite (splitpath_abs_path _ Hl _ _ Hon) in Eo, Eg |- *. cbn [fst snd] in Eo, Eg |- *.
  assert (Hodir := entry_dirobj _ _ _ _ Eg).
  assert (o = oldo) by (apply (Hold opre n0 odo o eq_refl Eo Hodir Eg)). subst o.
  destruct (gi_ent s H _ _ _ (entry_In _ _ _ _ Eg)) as (Holt & Horoot & _).
  apply wp_bind. eapply wp_conseq; [apply (wp_remove_entry odo n0 false s H)|].
  intros [[]|e] s1 [HP1 HR1]; cbv beta iota.
  2:{ destruct HR1 as (_ & K & _). rewrite (K eq_refl). apply Hstay. }
  destruct HR1 as (x & Hx & Hd1 & Hoth1). assert (x = oldo) by congruence. subst x. clear Hx.
  destruct HP1 as [H1 HS1 _].
  assert (He1 : forall d m, entry s1 d m = if Nat.eqb d odo && str_eqb m n0 then None else entry s d m).
  { intros d m. destruct (Nat.eqb d odo) eqn:Ed; cbn [andb].
    - apply Nat.eqb_eq in Ed. subst d. apply (entry_del s s1 odo n0 (gi_nodup s H odo) Hd1).
    - apply Nat.eqb_neq in Ed. unfold entry. rewrite (Hoth1 d Ed). reflexivity. }
  assert (Href1 : is_dirobj s1 oldo = true -> refs s1 oldo = 0).
  { intros Hd. rewrite (sh_dir _ _ HS1) in Hd. apply (refs_zero_iff s1 oldo H1). intros d m K.
    rewrite He1 in K. destruct (Nat.eqb d odo && str_eqb m n0) eqn:Ed; [discriminate|].
    destruct (dir_one_name s _ _ _ _ oldo H Hd Eg K) as [-> ->]. rewrite Nat.eqb_refl, str_eqb_refl in Ed. discriminate. }
  unfold mod_obj. wstep. set (s2 := mod_ob s1 oldo (fun x => wo_name x n)).
  assert (H2 : Ginv s2) by (apply Ginv_rename_detached; assumption).
  assert (Hb2 : forall x, o_body (ob s2 x) = o_body (ob s1 x)).
  { intros x. unfold s2. rewrite ob_mod. destruct (Nat.eqb x oldo) eqn:Ex; [apply Nat.eqb_eq in Ex; subst x|]; reflexivity. }
  assert (He2 : forall x, ents s2 x = ents s1 x) by (intros x; unfold ents; rewrite Hb2; reflexivity).
  assert (Hd2 : forall x, is_dirobj s2 x = is_dirobj s1 x) by (intros x; unfold is_dirobj; rewrite Hb2; reflexivity).
  assert (SD2 : same_data s s2).
  { eapply same_data_trans; [apply shrunk_same_data, HS1|]. constructor; intros x; rewrite ?Hd2, ?Hb2; auto;
      unfold s2; rewrite ob_mod; destruct (Nat.eqb x oldo) eqn:Ex; try reflexivity; apply Nat.eqb_eq in Ex; subst x; reflexivity. }
  assert (Hnr2 : forall x, reach s2 oldo x -> reach s oldo x).
  { intros x [names K]. rewrite (tree_at_ents s1 s2 He2) in K. apply (shrunk_reach s s1 _ _ HS1). exists names. exact K. }
  wstep. rewrite (normalized_entryname_cs s2 ndo n (Ginv_cs s2 H2)). wstep.
  (* the entry that is replaced *)
  match goal with |- wp (bind (when ?b ?m) ?k) s2 ?Q =>
    assert (Hrm : wp (when b m) s2 (fun r s3 => Ginv s3 /\ shrunk s2 s3 /\
       (forall d q, ~ (d = ndo /\ q = n) -> (forall x, entry s2 ndo n = Some x -> ~ reach s2 x d) -> entry s3 d q = entry s2 d q) /\
       match r with Ok _ => entry s3 ndo n = None | Err e => e = OSErr EACCES \/ e = OSErr ENOSPC end)) end.
  { change (assoc n (ents s2 ndo)) with (entry s2 ndo n).
    destruct (entry s2 ndo n) as [x|] eqn:Ex; cbn [when].
    - eapply wp_conseq; [apply (wp_remove_entry ndo n true s2 H2)|]. intros r s3 [[H3 HS3 Hfr] HR].
      split; [exact H3|]. split; [exact HS3|]. split.
      + intros d m Hdm Hnr. destruct (Nat.eq_dec d ndo) as [->|Hd].
        * assert (m <> n) by (intros ->; apply Hdm; split; reflexivity).
          destruct r as [[]|e].
          -- destruct HR as (x' & _ & E3 & _). rewrite (entry_del s2 s3 ndo n (gi_nodup s2 H2 ndo) E3).
             destruct (str_eqb m n) eqn:Em; [apply str_eqb_eq in Em; congruence|reflexivity].
          -- destruct HR as (E3 & _). unfold entry. rewrite E3. reflexivity.
        * unfold entry. rewrite (Hfr d Hd); [reflexivity|]. rewrite Ex. intros e' E'. apply Hnr. exact E'.
      + destruct r as [[]|e].
        * destruct HR as (x' & _ & E3 & _). rewrite (entry_del s2 s3 ndo n (gi_nodup s2 H2 ndo) E3), str_eqb_refl. reflexivity.
        * destruct HR as (_ & _ & HR). rewrite Ex in HR. exact HR.
    - wstep. split; [exact H2|]. split; [apply shrunk_refl|]. split; [reflexivity|exact Ex]. }
  apply wp_bind. eapply wp_conseq; [exact Hrm|]. clear Hrm.
  intros r s3 (H3 & HS3 & Hfr3 & Hr3).
  assert (SD3 : same_data s s3) by (eapply same_data_trans; [exact SD2|apply shrunk_same_data, HS3]).
  (* frame up to s3 *)
  assert (Hfr : forall d m, ~ (d = odo /\ m = n0) -> ~ (d = ndo /\ m = n) ->
    (odo = ndo /\ n0 = n) \/ (forall x, entry s ndo n = Some x -> ~ reach s x d) -> entry s3 d m = entry s d m).
  { intros d m Ha Hb Hc. rewrite Hfr3; [|exact Hb|].
    - unfold entry at 1. rewrite He2. change (assoc m (ents s1 d)) with (entry s1 d m). rewrite He1.
      destruct (Nat.eqb d odo && str_eqb m n0) eqn:Ed; [|reflexivity].
      apply andb_true_iff in Ed. destruct Ed as [E1 E2]. apply Nat.eqb_eq in E1. apply str_eqb_eq in E2. exfalso. apply Ha. split; assumption.
    - intros x Ex [names Kx]. unfold entry in Ex. rewrite He2 in Ex. change (assoc n (ents s1 ndo)) with (entry s1 ndo n) in Ex.
      rewrite He1 in Ex. destruct (Nat.eqb ndo odo && str_eqb n n0) eqn:Ed; [discriminate|].
      destruct Hc as [[-> ->]|Hc]; [rewrite Nat.eqb_refl, str_eqb_refl in Ed; discriminate|].
      apply (Hc x Ex). rewrite (tree_at_ents s1 s2 He2) in Kx. apply (shrunk_reach s s1 _ _ HS1). exists names. exact Kx. }
  assert (Hctx : forall (r : res unit) s4, Ginv s4 ->
    match r with Ok _ => moved s s4 odo n0 ndo n oldo | Err e => move_failed s s4 odo n0 ndo n oldo e end ->
    Ginv s4 /\ ((s4 = s /\ exists e, r = Err e) \/ exists opre0 n1 odo0 ndo0, opre ++ [n0] = opre0 ++ [n1] /\
       resolve s (abs_path (sepc s) opre0) true = Ok odo0 /\ is_dirobj s odo0 = true /\
       Ok ndo = Ok ndo0 /\ is_dirobj s ndo0 = true /\
       o_dev (ob s odo0) = o_dev (ob s ndo0) /\ ~ reach s oldo ndo0 /\
       match r with Ok _ => moved s s4 odo0 n1 ndo0 n oldo | Err e => move_failed s s4 odo0 n1 ndo0 n oldo e end)).
  { intros r0 s4 H4 Hr4. split; [exact H4|]. right. exists opre, n0, odo, ndo.
    split; [reflexivity|]. split; [exact Eo|]. split; [exact Hodir|]. split; [reflexivity|]. split; [exact Hndir|].
    split; [exact Edev'|]. split; [exact Hnreach|]. exact Hr4. }
  destruct r as [[]|e]; cbv beta iota.
  2:{ apply Hctx; [exact H3|]. split; [exact Eg|]. split; [exact SD3|]. split; [exact Hfr|]. exact Hr3. }
  assert (Hname3 : o_name (ob s3 oldo) = n).
  { rewrite (shrunk_attr o_name s2 s3 oldo HS3) by reflexivity. unfold s2. rewrite ob_mod_same. reflexivity. }
  assert (Hnext3 : f_next s3 = f_next s).
  { rewrite (shrunk_next _ _ HS3). change (f_next s2) with (f_next s1). apply (shrunk_next _ _ HS1). }
  assert (Hcfg3 : f_cfg s3 = f_cfg s).
  { rewrite (shrunk_cfg _ _ HS3). change (f_cfg s2) with (f_cfg s1). apply (shrunk_cfg _ _ HS1). }
  assert (Hne : ndo <> oldo) by (intros <-; apply Hnreach, reach_refl).
  eapply wp_conseq; [apply wp_and; [apply (wp_add_entry_inv s3 ndo oldo H3 Hne)|apply (wp_add_entry_why s3 ndo oldo Hne)]|].
  - rewrite Hnext3. exact Holt.
  - exact Horoot.
  - rewrite Hname3, Hcfg3. exact Hno.
  - intros Hd. apply (shrunk_refs_zero s2 s3 oldo H2 H3 HS3). rewrite (refs_ents s1 s2 oldo He2 eq_refl).
    apply Href1. rewrite <- Hd2, <- (sh_dir _ _ HS3). exact Hd.
  - intros K. apply Hnreach, Hnr2, (shrunk_reach s2 s3 _ _ HS3 K).
  - intros r s4 [[H4 Hc] (Hwhy1 & Hwhy2 & Hwhy3)]. rewrite Hname3 in Hc, Hwhy2.
    destruct Hc as [(Hne1 & -> & Hre)|(_ & _ & Ha & Hre)].
    + apply Hctx; [exact H3|]. destruct r as [[]|e]; [congruence|].
      split; [exact Eg|]. split; [exact SD3|]. split; [exact Hfr|].
      assert (Hd3 : is_dirobj s3 ndo = true) by (rewrite (sd_dir _ _ SD3); exact Hndir).
      destruct Hre as [Hre|[Hre|Hre]]; injection Hre as ->; auto.
      * exfalso. rewrite (Hwhy1 eq_refl) in Hd3. discriminate.
      * exfalso. apply (Hwhy2 eq_refl), Hr3.
    + assert (Hd3 : is_dirobj s3 ndo = true) by (rewrite (sd_dir _ _ SD3); exact Hndir).
      assert (He4 := added_entry s3 s4 ndo oldo Hd3 Ha). rewrite Hname3 in He4. specialize (He4 Hr3).
      assert (SD4 : same_data s s4) by (eapply same_data_trans; [exact SD3|apply (added_same_data s3 s4 ndo oldo Hd3 Hne Ha)]).
      assert (Hfr4 : forall d m, ~ (d = odo /\ m = n0) -> ~ (d = ndo /\ m = n) ->
        (odo = ndo /\ n0 = n) \/ (forall x, entry s ndo n = Some x -> ~ reach s x d) -> entry s4 d m = entry s d m).
      { intros d m Ha1 Hb1 Hc1. rewrite He4. destruct (Nat.eqb d ndo && str_eqb m n) eqn:Ed; [|apply Hfr; assumption].
        apply andb_true_iff in Ed. destruct Ed as [E1 E2]. apply Nat.eqb_eq in E1. apply str_eqb_eq in E2. exfalso. apply Hb1. split; assumption. }
      apply Hctx; [exact H4|]. destruct Hre as [->| ->].
      * constructor.
        -- exact Eg.
        -- rewrite He4, Nat.eqb_refl, str_eqb_refl. reflexivity.
        -- intros Hdiff. rewrite He4. destruct (Nat.eqb odo ndo && str_eqb n0 n) eqn:Ed.
           { apply andb_true_iff in Ed. destruct Ed as [E1 E2]. apply Nat.eqb_eq in E1. apply str_eqb_eq in E2. exfalso. apply Hdiff. split; assumption. }
           destruct (entry s3 odo n0) as [y|] eqn:Ey; [|reflexivity]. apply (sh_ent _ _ HS3) in Ey.
           unfold entry in Ey. rewrite He2 in Ey. change (assoc n0 (ents s1 odo)) with (entry s1 odo n0) in Ey.
           rewrite He1, Nat.eqb_refl, str_eqb_refl in Ey. discriminate.
        -- exact Hfr4.
        -- intros d m x Ex. rewrite He4 in Ex. destruct (Nat.eqb d ndo && str_eqb m n) eqn:Ed.
           { left. apply andb_true_iff in Ed. destruct Ed as [E1 E2]. apply Nat.eqb_eq in E1. apply str_eqb_eq in E2. auto. }
           right. apply (sh_ent _ _ HS3) in Ex. unfold entry in Ex. rewrite He2 in Ex. apply (sh_ent _ _ HS1), Ex.
        -- exact SD4.
      * split; [exact Eg|]. split; [exact SD4|]. split; [exact Hfr4|]. auto.
Qed.

(** ** The destination already exists *)
Lemma get_object_root s : Ginv s -> get_object s (abs_path (sepc s) []) true = Ok root_oid.
Proof.
  intros H. unfold get_object. rewrite (original_path_cs s _ (Ginv_cs s H)), (anp_abs_path s [] (Ginv_good s H) (Forall_nil _)).
  unfold get_norm. change (abs_path (sepc s) []) with [sepc s]. rewrite str_eqb_refl. reflexivity.
Qed.
Lemma lresolve_reach s names n o : Ginv s -> Forall (ordinary (sepc s)) (names ++ [n]) ->
  lresolve s (abs_path (sepc s) (names ++ [n])) = Ok o ->
  exists d, resolve s (abs_path (sepc s) names) true = Ok d /\ is_dirobj s d = true /\
    has_bit (o_mode (ob s d)) PERM_READ = true /\ entry s d n = Some o /\ o <> root_oid /\ ents s root_oid <> [].
Proof.
  intros H Hn E. apply (lresolve_snoc s (Ginv_good s H) _ _ _ _ Hn) in E. destruct E as (d & Hd & Hdir & Hr & Hen).
  exists d. split; [exact Hd|]. split; [exact Hdir|]. split; [exact Hr|]. split; [exact Hen|].
  split; [apply (gi_ent s H d n o (entry_In _ _ _ _ Hen))|].
  destruct (resolve_found s _ _ _ H Hd) as [->|[l Hl]]; [rewrite (gi_null s H) in Hdir; discriminate|].
  destruct l as [|a l].
  - cbn in Hl. injection Hl as <-. unfold entry in Hen. destruct (ents s root_oid); discriminate.
  - unfold at_names in Hl. cbn in Hl. unfold entry in Hl. destruct (ents s root_oid); discriminate.
Qed.

(** the removal of the entry called by [pre ++ [n]] *)
Definition unlinked_at (s s1 : fs) (names : list str) : Prop :=
  exists pre n d x, names = pre ++ [n] /\ resolve s (abs_path (sepc s) pre) false = Ok d /\ entry s d n = Some x /\
    rm_post s s1 d n /\ entry s1 d n = None /\ (forall m, m <> n -> entry s1 d m = entry s d m).
(** an unfinished removal *)
Definition unlink_failed (s s1 : fs) (names : list str) (e : exn) : Prop :=
  exists pre n d x, names = pre ++ [n] /\ resolve s (abs_path (sepc s) pre) false = Ok d /\ entry s d n = Some x /\
    rm_post s s1 d n /\ ents s1 d = ents s d /\ rm_err e.

Lemma remove_object_names s names : Ginv s -> Forall (ordinary (sepc s)) names ->
  wp (remove_object (abs_path (sepc s) names)) s (fun r s1 => Ginv s1 /\ shrunk s s1 /\
    match r with Ok _ => unlinked_at s s1 names | Err e => s1 = s \/ unlink_failed s s1 names e end).
Proof.
  intros H Hn. eapply wp_conseq; [apply (wp_remove_object s _ names H (anp_abs_path s names (Ginv_good s H) Hn) Hn)|].
  intros r s1 [(-> & (e & ->) & _)|(pre & n & d & x & En & Hr & Hx & HP & Hres)].
  - split; [exact H|]. split; [apply shrunk_refl|]. left; reflexivity.
  - split; [apply HP|]. split; [apply HP|]. destruct r as [[]|e].
    + destruct Hres as [Hd Hem]. exists pre, n, d, x. split; [exact En|]. split; [exact Hr|]. split; [exact Hx|]. split; [exact HP|].
      pose proof (entry_del s s1 d n (gi_nodup s H d) Hd) as He. split; [rewrite He, str_eqb_refl; reflexivity|].
      intros m Hm. rewrite He. destruct (str_eqb m n) eqn:E; [apply str_eqb_eq in E; congruence|reflexivity].
    + right. destruct Hres as [Hd Her]. exists pre, n, d, x. split; [exact En|]. split; [exact Hr|]. split; [exact Hx|]. split; [exact HP|].
      split; assumption.
Qed.

Lemma rename_same_object_spec s nn old : Ginv s -> Forall (ordinary (sepc s)) nn -> nn <> [] ->
  wp (rename_same_object (abs_path (sepc s) nn) old) s (fun r s1 => s1 = s /\
    forall q, r = Ok (Some q) -> q = abs_path (sepc s) nn).
Proof.
  intros H Hn Hne. pose proof (linux_like_abs _ (gi_lin s H)) as Hl.
  destruct (names_cases nn) as [->|(pre & n & ->)]; [congruence|].
  destruct (join_split_abs _ Hl pre n Hn) as [Hj Hs].
  unfold rename_same_object. wstep. destruct (str_eqb _ _); [wstep; split; [reflexivity|congruence]|].
  apply wp_catch. wstep. destruct (resolve_path s old) as [ro|e].
  2:{ destruct e; wstep; split; try reflexivity; congruence. }
  wstep. wstep. destruct (resolve_path s _) as [rn|e].
  2:{ destruct e; wstep; split; try reflexivity; congruence. }
  apply wp_bind.
  match goal with |- wp ?m s ?Q => assert (Hm : wp m s (fun _ s1 => s1 = s)) end.
  { destruct (_ && _); [wstep; destruct (lresolve s old); [wstep|]; reflexivity|wstep; reflexivity]. }
  eapply wp_conseq; [exact Hm|]. clear Hm. intros [dr|e] s1 ->; cbv beta iota.
  - destruct dr; [|wstep; split; [reflexivity|congruence]]. cbv zeta. rewrite Hs. cbn [fst snd].
    wstep. rewrite (original_path_cs s _ (Ginv_cs s H)), Hj. wstep. split; [reflexivity|]. congruence.
  - destruct e; wstep; split; try reflexivity; congruence.
Qed.

Lemma wp_rename_to_existing s force on nn oldo ews : Ginv s ->
  Forall (ordinary (sepc s)) on -> Forall (ordinary (sepc s)) nn ->
  lresolve s (abs_path (sepc s) on) = Ok oldo ->
  wp (rename_to_existing force (abs_path (sepc s) nn) (abs_path (sepc s) on) oldo ews) s (fun r s1 => Ginv s1 /\ shrunk s s1 /\
    match r with
    | Ok None => s1 = s /\ (on = nn \/ get_object s (abs_path (sepc s) nn) true = Ok oldo)
    | Ok (Some q) => q = abs_path (sepc s) nn /\ nn <> [] /\ on <> nn /\
                     (s1 = s \/ (unlinked_at s s1 nn /\ is_dirm s oldo = false))
    | Err e => s1 = s \/ (unlink_failed s s1 nn e /\ is_dirm s oldo = false)
    end).
Proof.
  intros H Hon Hnn Hold.
  assert (Hstay : forall e : exn, Ginv s /\ shrunk s s /\ (s = s \/ (unlink_failed s s nn e /\ is_dirm s oldo = false))).
  { intros e. split; [exact H|]. split; [apply shrunk_refl|]. left; reflexivity. }
  assert (Hnone : on = nn \/ get_object s (abs_path (sepc s) nn) true = Ok oldo -> Ginv s /\ shrunk s s /\
    s = s /\ (on = nn \/ get_object s (abs_path (sepc s) nn) true = Ok oldo)).
  { intros K. split; [exact H|]. split; [apply shrunk_refl|]. split; [reflexivity|exact K]. }
  assert (Hsome : nn <> [] -> on <> nn -> Ginv s /\ shrunk s s /\ abs_path (sepc s) nn = abs_path (sepc s) nn /\ nn <> [] /\ on <> nn /\ (s = s \/ (unlinked_at s s nn /\ is_dirm s oldo = false))).
  { intros K K2. split; [exact H|]. split; [apply shrunk_refl|]. split; [reflexivity|]. split; [exact K|]. split; [exact K2|]. left; reflexivity. }
  unfold rename_to_existing. wstep. wstep.
  destruct (get_object s (abs_path (sepc s) nn) true) as [newo|e] eqn:En; [|apply Hstay].
  wstep. wstep. destruct (str_eqb (abs_path (sepc s) on) (abs_path (sepc s) nn)) eqn:Eq.
  { apply str_eqb_eq in Eq. apply (abs_path_inj _ (linux_like_posix _ (gi_lin s H)) _ _ Hon Hnn) in Eq.
    destruct (_ && _); wstep; [apply Hstay|]. apply Hnone. left; exact Eq. }
  assert (Hdiff : on <> nn) by (intros ->; rewrite str_eqb_refl in Eq; discriminate).
  assert (Hrootcase : nn = [] -> newo = root_oid /\ oldo <> root_oid /\ ents s root_oid <> []).
  { intros ->. rewrite (get_object_root s H) in En. split; [congruence|].
    destruct (names_cases on) as [->|(pre & n & ->)]; [rewrite str_eqb_refl in Eq; discriminate|].
    destruct (lresolve_reach s pre n oldo H Hon Hold) as (d & _ & _ & _ & _ & K). exact K. }
  destruct (Nat.eqb oldo newo) eqn:Eo.
  { apply Nat.eqb_eq in Eo. subst newo.
    assert (Hne : nn <> []) by (intros K; destruct (Hrootcase K) as (K1 & K2 & _); congruence).
    eapply wp_conseq; [apply (rename_same_object_spec s nn _ H Hnn Hne)|].
    intros r s1 [-> Hq]. destruct r as [[q|]|e]; [|apply Hnone; right; reflexivity|apply Hstay].
    specialize (Hq q eq_refl). subst q. apply (Hsome Hne Hdiff). }
  destruct (_ || _) eqn:Edl.
  { unfold rename_error_for_dir_or_link. apply wp_bind. wstep. rewrite (Ginv_win s H). wstep.
    destruct (S_ISLNK (o_mode (ob s newo))) eqn:El.
    { wstep. cbv beta iota. wstep. apply Hsome; [|exact Hdiff]. intros K. destruct (Hrootcase K) as (-> & _).
      rewrite (has_ifdir_not_link _ (gi_dirbit s H _ (gi_root s H))) in El. discriminate. }
    wstep. wstep. rewrite (Ginv_mac s H). cbn [negb]. rewrite orb_true_r, andb_true_r.
    destruct (truthy_contents s newo) eqn:Et; [wstep; apply Hstay|].
    wstep. destruct (S_ISREG _); wstep; [apply Hstay|]. cbv beta iota. wstep. apply Hsome; [|exact Hdiff].
    intros K. destruct (Hrootcase K) as (-> & _ & K3). unfold truthy_contents in Et. pose proof (gi_root s H) as Hr.
    unfold is_dirobj in Hr. unfold ents in K3. destruct (o_body (ob s root_oid)) as [[|]|]; discriminate || congruence. }
  destruct (S_ISDIR (o_mode (ob s oldo))) eqn:Eod; [wstep; apply Hstay|].
  rewrite (Ginv_win s H). cbn [andb].
  apply wp_bind. eapply wp_conseq; [apply (remove_object_names s nn H Hnn)|].
  intros [[]|e] s1 (H1 & HS & Hr); cbv beta iota.
  - wstep. split; [exact H1|]. split; [exact HS|]. split; [reflexivity|].
    split; [|split; [exact Hdiff|right; split; [exact Hr|exact Eod]]].
    destruct Hr as (pre & n & d & x & -> & _). destruct pre; discriminate.
  - split; [exact H1|]. split; [exact HS|]. destruct Hr as [Hr|Hr]; [left; exact Hr|right; split; [exact Hr|exact Eod]].
Qed.

(** ** rename *)
Lemma resolve_check_weaken s p o : Ginv s -> resolve s p true = Ok o -> resolve s p false = Ok o.
Proof.
  intros H E. apply (resolve_ok s (Ginv_good s H)) in E. apply (resolve_ok s (Ginv_good s H)).
  destruct E as (rr & E & Hc & Hor). exists rr. split; [exact E|]. split; [exact Hc|].
  destruct Hor as [Hor|(K1 & K2 & K3 & _)]; [left; exact Hor|right]. split; [exact K1|]. split; [exact K2|]. split; [exact K3|].
  right; left; reflexivity.
Qed.

Lemma shrunk_resolve_back s s1 p d : Ginv s -> Ginv s1 -> shrunk s s1 -> is_dirobj s1 d = true ->
  resolve s1 p true = Ok d -> resolve s p true = Ok d.
Proof.
  intros H H1 HS Hd E. apply (ext_resolve s1 s (Ginv_good s1 H1) (Ginv_good s H) (shrunk_ext s s1 HS)) in E; [exact E|].
  intros ->. rewrite (gi_null s1 H1) in Hd. discriminate.
Qed.

(** a path to the directory of a removed entry survives *)
Lemma rm_keeps_path s s1 d n names a : Ginv s -> rm_post s s1 d n -> (forall m, m <> n -> entry s1 d m = entry s d m) ->
  tree_at s a names = Some d -> tree_at s1 a names = Some d.
Proof.
  intros H HP Hk. revert a. induction names as [|m names IH]; intros a E; [exact E|].
  cbn in E |- *. destruct (entry s a m) as [y|] eqn:Ey; [|discriminate].
  assert (Ha : a <> d).
  { intros ->. assert (K := gi_acyc s H d (m :: names)). cbn in K. rewrite Ey in K. discriminate (K E). }
  assert (Es : ents s1 a = ents s a).
  { apply (rp_frame _ _ _ _ HP a Ha). intros e Ee [l Hl].
    assert (K := gi_acyc s H a (m :: names ++ n :: l)). cbn in K. rewrite Ey, tree_at_app, E in K. cbn in K. rewrite Ee in K.
    discriminate (K Hl). }
  assert (Ey1 : entry s1 a m = Some y) by (unfold entry; rewrite Es; exact Ey). rewrite Ey1. apply IH, E.
Qed.

(** what a successful rename of [on] to [nn] does *)
Definition renamed (s s' : fs) (on nn : list str) : Prop :=
  exists opre n0 npre n odo ndo o, on = opre ++ [n0] /\ nn = npre ++ [n] /\
    lresolve s (abs_path (sepc s) on) = Ok o /\
    resolve s (abs_path (sepc s) opre) true = Ok odo /\
    resolve s (abs_path (sepc s) npre) true = Ok ndo /\
    is_dirobj s ndo = true /\ o_dev (ob s odo) = o_dev (ob s ndo) /\ ~ reach s o ndo /\
    moved s s' odo n0 ndo n o.

(** what may be left behind by a rename that raised after its checks *)
Definition rename_left (s s' : fs) (on nn : list str) (e : exn) : Prop :=
  exists npre n ndo, nn = npre ++ [n] /\ resolve s (abs_path (sepc s) npre) false = Ok ndo /\
    same_data s s' /\
    (forall d m, ~ (d = ndo /\ m = n) ->
       (forall opre n0, on = opre ++ [n0] -> resolve s (abs_path (sepc s) opre) true = Ok d -> m <> n0) ->
       (forall opre n0, on = opre ++ [n0] -> resolve s (abs_path (sepc s) opre) true = Ok ndo -> n0 = n -> False) ->
       (forall x, entry s ndo n = Some x -> ~ reach s x d) -> entry s' d m = entry s d m) /\
    (exists_ s (abs_path (sepc s) nn) true = Ok true \/ e = OSErr EACCES \/ e = OSErr ENOSPC).

Lemma wp_rename s oldp newp force on nn : Ginv s ->
  anp s oldp = abs_path (sepc s) on -> Forall (ordinary (sepc s)) on ->
  anp s newp = abs_path (sepc s) nn -> Forall (ordinary (sepc s)) nn ->
  wp (rename oldp newp force) s (fun r s' => Ginv s' /\
    match r with
    | Ok _ => (s' = s /\ (on = nn \/ exists o, lresolve s (abs_path (sepc s) on) = Ok o /\
                                              get_object s (abs_path (sepc s) nn) true = Ok o)) \/
              renamed s s' on nn
    | Err e => s' = s \/ (rename_left s s' on nn e)
    end /\
    (forall o npre n d, lresolve s (abs_path (sepc s) on) = Ok o -> is_dirm s o = true ->
       nn = npre ++ [n] -> resolve s (abs_path (sepc s) npre) true = Ok d -> reach s o d -> on <> nn ->
       s' = s /\ (get_object s (abs_path (sepc s) nn) true <> Ok o -> exists e, r = Err e))).
Proof.
  intros H Eon Hon Enn Hnn. pose proof (Ginv_good s H) as Hg.
  assert (Hstay : forall e, Ginv s /\ (s = s \/ rename_left s s on nn e) /\ (forall o npre n d, lresolve s (abs_path (sepc s) on) = Ok o -> is_dirm s o = true ->
       nn = npre ++ [n] -> resolve s (abs_path (sepc s) npre) true = Ok d -> reach s o d -> on <> nn ->
       s = s /\ (get_object s (abs_path (sepc s) nn) true <> Ok o -> exists e', (Err e : res unit) = Err e'))).
  { intros e. split; [exact H|]. split; [left; reflexivity|]. intros. split; [reflexivity|]. intros _. exists e. reflexivity. }
  unfold rename. wstep. wstep. wstep. rewrite Eon, Enn. wstep.
  destruct (exists_ s (abs_path (sepc s) on) true) as [[|]|e] eqn:Ee1; cbn [negb]; try (wstep; apply Hstay); [|apply Hstay].
  assert (Hbk : forall m : M unit, pure m -> forall (k : unit -> M unit) (Q : res unit -> fs -> Prop), (forall e, Q (Err e) s) -> wp (k tt) s Q -> wp (bind m k) s Q).
  { intros m Hm k Q HE HQ. apply wp_bind. apply wp_pure; [exact Hm|]. intros [[]|e] _; [exact HQ|apply HE]. }
  apply Hbk; [apply pure_when, handle_broken_link_pure|exact Hstay|].
  wstep. destruct (lresolve s (abs_path (sepc s) on)) as [oldo|e] eqn:Eold; [|apply Hstay].
  apply Hbk; [apply pure_when, posix_dir_link_errors_pure|exact Hstay|].
  wstep. destruct (exists_ s (abs_path (sepc s) nn) true) as [e2|e] eqn:Ee2; [|apply Hstay].
  (* the state in which the object is moved *)
  assert (Hlast : forall s1, Ginv s1 -> shrunk s s1 -> nn <> [] -> on <> nn ->
    (s1 = s \/ (unlinked_at s s1 nn /\ is_dirm s oldo = false /\ e2 = true)) ->
    wp (rename_move (abs_path (sepc s) on) (abs_path (sepc s) nn) oldo) s1 (fun r s' => Ginv s' /\
    match r with
    | Ok _ => (s' = s /\ (on = nn \/ exists o, Ok oldo = Ok o /\ get_object s (abs_path (sepc s) nn) true = Ok o)) \/
              renamed s s' on nn
    | Err e => s' = s \/ rename_left s s' on nn e
    end /\
    (forall o npre n d, Ok oldo = Ok o -> is_dirm s o = true ->
       nn = npre ++ [n] -> resolve s (abs_path (sepc s) npre) true = Ok d -> reach s o d -> on <> nn ->
       s' = s /\ (get_object s (abs_path (sepc s) nn) true <> Ok o -> exists e, r = Err e)))).
  { intros s1 H1 HS Hne Hdiff Hstage.
    destruct (names_cases nn) as [->|(npre & n & ->)]; [congruence|].
    assert (Ec : f_cfg s1 = f_cfg s) by apply (shrunk_cfg _ _ HS).
    eapply wp_conseq; [apply (wp_rename_move s1 _ _ oldo on npre n H1)|].
    - rewrite Ec. reflexivity.
    - rewrite Ec. exact Hon.
    - rewrite Ec. reflexivity.
    - rewrite Ec. exact Hnn.
    - intros opre n0 d o -> Hd Hdir Ho. rewrite Ec in Hd.
      destruct (lresolve_reach s opre n0 oldo H Hon Eold) as (d' & Hd' & _ & _ & Hen & _).
      assert (Hd2 := shrunk_resolve_back s s1 _ d H H1 HS Hdir Hd). assert (d = d') by congruence. subst d'.
      apply (sh_ent _ _ HS) in Ho. congruence.
    - rewrite Ec. intros r s' [H' Hc]. split; [exact H'|].
      destruct Hc as [(-> & e & ->)|(opre & n0 & odo & ndo & -> & Ho & Hod & Hnd & Hndd & Hdev & Hnr & Hres)].
      + (* nothing moved *)
        destruct Hstage as [->|(HU & Hfile & ->)].
        * split; [left; reflexivity|]. intros. split; [reflexivity|]. intros _. exists e. reflexivity.
        * split; [right|].
          2:{ intros o npre0 n1 d Eo Hd. injection Eo as <-. rewrite Hfile in Hd. discriminate. }
          destruct HU as (pre' & n' & d & x & En' & Hd & Hx & HP & Hgone & Hkeep).
          apply app_inj_tail in En'. destruct En' as [<- <-].
          exists npre, n, d. split; [reflexivity|]. split; [exact Hd|]. split; [apply shrunk_same_data, HS|].
          split; [|left; exact Ee2]. intros d0 m Hm _ _ Hr0. destruct (Nat.eq_dec d0 d) as [->|Hd0].
          -- apply Hkeep. intros ->. apply Hm. split; reflexivity.
          -- unfold entry. rewrite (rp_frame _ _ _ _ HP d0 Hd0 Hr0). reflexivity.
      + (* something moved *)
        assert (Hod0 : resolve s (abs_path (sepc s) opre) true = Ok odo) by (apply (shrunk_resolve_back s s1 _ odo H H1 HS Hod Ho)).
        assert (Hnd0 : resolve s (abs_path (sepc s) npre) true = Ok ndo) by (apply (shrunk_resolve_back s s1 _ ndo H H1 HS Hndd Hnd)).
        assert (Hndd0 : is_dirobj s ndo = true) by (rewrite <- (sh_dir _ _ HS); exact Hndd).
        assert (Hdev0 : o_dev (ob s odo) = o_dev (ob s ndo)).
        { rewrite <- !(shrunk_attr o_dev s s1 _ HS) by reflexivity. exact Hdev. }
        (* entries of s1 and s *)
        assert (Hrel : s1 = s \/ (exists x, entry s ndo n = Some x /\ rm_post s s1 ndo n /\ entry s1 ndo n = None /\
                                   (forall m, m <> n -> entry s1 ndo m = entry s ndo m) /\ is_dirm s oldo = false /\ e2 = true)).
        { destruct Hstage as [->|(HU & Hfile & He2)]; [left; reflexivity|right].
          destruct HU as (pre' & n' & d & x & En' & Hd & Hx & HP & Hgone & Hkeep).
          apply app_inj_tail in En'. destruct En' as [<- <-].
          apply (resolve_check_weaken s _ _ H) in Hnd0. assert (d = ndo) by congruence. subst d.
          exists x. split; [exact Hx|]. split; [exact HP|]. split; [exact Hgone|]. split; [exact Hkeep|]. split; assumption. }
        assert (Hnr0 : ~ reach s oldo ndo \/ (is_dirm s oldo = false /\ e2 = true)).
        { destruct Hrel as [->|(x & _ & _ & _ & _ & K)]; [left; exact Hnr|right; exact K]. }
        assert (Hfr0 : forall d m, ~ (d = ndo /\ m = n) -> (forall x, entry s ndo n = Some x -> ~ reach s x d) -> entry s1 d m = entry s d m).
        { intros d m Hm Hr0. destruct Hrel as [->|(x & Hx & HP & _ & Hkeep & _)]; [reflexivity|].
          destruct (Nat.eq_dec d ndo) as [->|Hd0]; [apply Hkeep; intros ->; apply Hm; split; reflexivity|].
          unfold entry. rewrite (rp_frame _ _ _ _ HP d Hd0 Hr0). reflexivity. }
        assert (Hfrt : (forall d m, ~ (d = odo /\ m = n0) -> ~ (d = ndo /\ m = n) ->
             (odo = ndo /\ n0 = n) \/ (forall x, entry s1 ndo n = Some x -> ~ reach s1 x d) -> entry s' d m = entry s1 d m) ->
           entry s1 odo n0 = Some oldo ->
           forall d m, ~ (d = odo /\ m = n0) -> ~ (d = ndo /\ m = n) ->
             (odo = ndo /\ n0 = n) \/ (forall x, entry s ndo n = Some x -> ~ reach s x d) -> entry s' d m = entry s d m).
        { intros K Kw d m Ha Hb Hc. rewrite K; [|exact Ha|exact Hb|].
          - destruct Hrel as [->|(x & Hx & HP & Hgone & Hkeep & _)]; [reflexivity|].
            destruct Hc as [[-> ->]|Hc]; [congruence|]. apply Hfr0; assumption.
          - destruct Hc as [Hc|Hc]; [left; exact Hc|]. right. intros x Ex Kx.
            apply (Hc x); [apply (sh_ent _ _ HS), Ex|apply (shrunk_reach _ _ _ _ HS Kx)]. }
        split.
        * destruct r as [[]|e].
          -- right. destruct Hres as [Mw Mn Mo Mf Mx Md]. exists opre, n0, npre, n, odo, ndo, oldo.
             split; [reflexivity|]. split; [reflexivity|]. split; [exact Eold|]. split; [exact Hod0|]. split; [exact Hnd0|].
             split; [exact Hndd0|]. split; [exact Hdev0|]. split.
             { destruct Hrel as [->|(x & Hx & HP & Hgone & Hkeep & Hf & _)]; [exact Hnr|].
               intros K. apply Hnr. destruct (is_dirobj s oldo) eqn:Edo.
               - destruct K as [names K]. exists names. apply (rm_keeps_path s s1 ndo n names oldo H HP Hkeep K).
               - rewrite (reach_file s oldo ndo Edo K) in Edo. congruence. }
             constructor.
             ++ apply (sh_ent _ _ HS), Mw.
             ++ exact Mn.
             ++ exact Mo.
             ++ apply (Hfrt Mf Mw).
             ++ intros d m x Ex. destruct (Mx d m x Ex) as [K|K]; [left; exact K|right; apply (sh_ent _ _ HS), K].
             ++ eapply same_data_trans; [apply shrunk_same_data, HS|exact Md].
          -- right. destruct Hres as (Mw & Md & Mf & Me). exists npre, n, ndo. split; [reflexivity|].
             split; [apply (resolve_check_weaken s _ _ H Hnd0)|]. split; [eapply same_data_trans; [apply shrunk_same_data, HS|exact Md]|].
             split; [|right; exact Me]. intros d m Hm Hsrc Hslot Hr0. apply (Hfrt Mf Mw); [|exact Hm|right; exact Hr0].
             intros [-> ->]. apply (Hsrc opre n0 eq_refl Hod0 eq_refl).
        * intros o npre0 n1 d Eo Hdm En' Hd Hreach _. injection Eo as <-. apply app_inj_tail in En'. destruct En' as [<- <-].
          assert (d = ndo) by congruence. subst d. destruct Hnr0 as [K|[K _]]; [contradiction|congruence]. }
  apply wp_bind. destruct e2.
  - eapply wp_conseq; [apply (wp_rename_to_existing s force on nn oldo _ H Hon Hnn Eold)|].
    intros r s1 (H1 & HS & Hr). destruct r as [[q|]|e]; cbv beta iota.
    + destruct Hr as (-> & Hne & Hdiff & Hst). change (match abs_path (sepc s) nn with [] => ret tt | n :: l => rename_move (abs_path (sepc s) on) (n :: l) oldo end)
        with (rename_move (abs_path (sepc s) on) (abs_path (sepc s) nn) oldo).
      apply (Hlast s1 H1 HS Hne Hdiff). destruct Hst as [K|[K1 K2]]; [left; exact K|right; split; [exact K1|split; [exact K2|reflexivity]]].
    + destruct Hr as [-> Hr]. wstep. split; [exact H|]. split.
      * left. split; [reflexivity|]. destruct Hr as [K|K]; [left; exact K|right; exists oldo; split; [reflexivity|exact K]].
      * intros o npre n d Eo Hdm En' Hd Hreach Hdiff. split; [reflexivity|]. intros K. exfalso. injection Eo as <-. destruct Hr; contradiction.
    + destruct Hr as [->|[Hr Hf]]; [apply Hstay|]. split; [exact H1|]. split.
      * right. destruct Hr as (pre & n & d & x & -> & Hd & Hx & HP & Hsame & Her). exists pre, n, d.
        split; [reflexivity|]. split; [exact Hd|]. split; [apply shrunk_same_data, HS|]. split; [|left; exact Ee2].
        intros d0 m Hm _ _ Hr0. destruct (Nat.eq_dec d0 d) as [->|Hd0]; [unfold entry; rewrite Hsame; reflexivity|].
        unfold entry. rewrite (rp_frame _ _ _ _ HP d0 Hd0 Hr0). reflexivity.
      * intros o npre n d Eo Hdm. injection Eo as <-. congruence.
  - wstep. cbv beta iota. change (match abs_path (sepc s) nn with [] => ret tt | n :: l => rename_move (abs_path (sepc s) on) (n :: l) oldo end)
      with (rename_move (abs_path (sepc s) on) (abs_path (sepc s) nn) oldo).
    apply Hlast; [exact H|apply shrunk_refl| | |left; reflexivity].
    + intros ->. rewrite (exists_root s true H) in Ee2. discriminate.
    + intros ->. congruence.
Qed.

Lemma rename_pres a b f : preserves Ginv (rename a b f).
Proof.
  intros s H. pose proof (Ginv_good s H) as Hg.
  destruct (anp_names s a Hg) as (on & Hon & Eon). destruct (anp_names s b Hg) as (nn & Hnn & Enn).
  apply (wp_rename s a b f on nn H Eon Hon Enn Hnn).
Qed.
