(** * Lemmas for C12-C16: listings, link counts, the tree, inode numbers. *)
From Verif Require Export ResThm.

(** ** Listings *)
Lemma listdir_inv s a l : listdir s a = Ok l ->
  exists rp d, resolve_path_arg s a = Ok rp /\ resolve s rp true = Ok d /\ is_dirobj s d = true /\ l = map fst (ents s d).
Proof.
  unfold listdir, confirmdir. destruct (resolve_path_arg s a) as [rp|e] eqn:E1; cbn [rbind]; [|discriminate].
  destruct (resolve s rp true) as [d|e] eqn:E2; cbn [rbind]; [|discriminate].
  destruct (negb _); cbn [rbind]; [discriminate|].
  destruct (o_body (ob s d)) as [es|] eqn:Eb; [|discriminate]. intros H; injection H as <-.
  exists rp, d. repeat split; try assumption.
  - unfold is_dirobj. rewrite Eb. reflexivity.
  - unfold ents. rewrite Eb. reflexivity.
Qed.

Lemma listing_ok c s : linux_like c -> reachable c s -> forall a l, listdir s a = Ok l ->
  NoDup l /\ Forall (ordinary (sepc s)) l.
Proof.
  intros Hc Hr a l Hl. pose proof (reachable_Ginv c s Hc Hr) as HG.
  destruct (listdir_inv s a l Hl) as (rp & d & _ & _ & _ & ->). split; [apply (gi_nodup s HG)|].
  apply Forall_forall. intros n Hn. apply in_map_iff in Hn. destruct Hn as ([n' o] & E & Hi). cbn in E. subst n'.
  apply (gi_ent s HG d n o Hi).
Qed.

Lemma names_in_ents s d n : In n (map fst (ents s d)) <-> exists o, entry s d n = Some o.
Proof.
  unfold entry. split.
  - intros H. destruct (assoc n (ents s d)) as [o|] eqn:E; [eauto|]. exfalso. revert H E.
    induction (ents s d) as [|[k y] es IH]; cbn; [tauto|].
    destruct (str_eqb n k) eqn:Ek; [discriminate|].
    intros [<-|H] E; [rewrite str_eqb_refl in Ek; discriminate|auto].
  - intros [o H]. apply assoc_In in H. apply in_map_iff. exists (n, o). auto.
Qed.

Lemma not_dirobj_null s : Ginv s -> is_dirobj s devnull_oid = false.
Proof. apply gi_null. Qed.


(** an entry of a readable directory reached by link free names is found by
    lexists and lresolve *)
Lemma entry_lookup s rr d n o : Ginv s -> resolve s (abs_path (sepc s) rr) true = Ok d ->
  at_names s rr = Some d -> (forall pre m l rest, ~ meets_link s rr pre m l rest) ->
  has_bit (o_mode (ob s d)) PERM_READ = true -> entry s d n = Some o ->
  lresolve s (abs_path (sepc s) (rr ++ [n])) = Ok o /\ exists_ s (abs_path (sepc s) (rr ++ [n])) true = Ok true.
Proof.
  intros HG Hd Hat Hlf Hrd He. pose proof (Ginv_good s HG) as Hg.
  assert (Hord : Forall (ordinary (sepc s)) (rr ++ [n])).
  { apply Forall_app. split; [apply (at_names_ordinary s HG rr root_oid d Hat)|]. constructor; [|constructor].
    apply (gi_ent s HG d n o), entry_In, He. }
  assert (Hat2 : at_names s (rr ++ [n]) = Some o) by (rewrite (at_names_snoc s rr n d Hat); exact He).
  split.
  - apply (lresolve_snoc s Hg); [exact Hord|]. exists d. repeat split; try assumption. apply (entry_dirobj s d n o He).
  - unfold exists_, exists_body. destruct (is_link s o) eqn:El.
    + assert (islink s (abs_path (sepc s) (rr ++ [n])) = Ok true) as Hi.
      { apply (islink_iff s rr n HG Hord). exists d, o. auto. }
      unfold islink, is_of_type in Hi. rewrite Hi. reflexivity.
    + assert (Hi : islink s (abs_path (sepc s) (rr ++ [n])) = Ok false).
      { destruct (islink s _) as [[]|e] eqn:Ei; [|reflexivity|].
        - apply (islink_iff s rr n HG Hord) in Ei. destruct Ei as (d' & o' & Hd' & _ & He' & Hl'). congruence.
        - exfalso. unfold islink, is_of_type, is_of_type_ in Ei.
          assert (El' : resolve_any (exists_top s) s (abs_path (sepc s) (rr ++ [n])) false true = Ok o).
          { apply (lresolve_snoc s Hg); [exact Hord|]. exists d. repeat split; try assumption. apply (entry_dirobj s d n o He). }
          rewrite El' in Ei. cbn [rbind] in Ei.
          rewrite (raise_for_sep_names s Hg) in Ei by (apply Forall_clean; exact Hord). discriminate. }
      unfold islink, is_of_type in Hi. rewrite Hi. cbn [rbind].
      assert (Hx : exists_ s (abs_path (sepc s) (rr ++ [n])) false = Ok true).
      { apply (exists_names s Hg); [exact Hord|]. right. exists (rr ++ [n]), o.
        split; [|split; [apply Forall_clean; exact Hord|exact Hat2]].
        apply (linkfree_resolve_path s HG (length (rr ++ [n])) _ o); [lia|exact Hat2|].
        intros pre m l rest (E & K1 & K2).
        destruct rest as [|x rest] using rev_ind.
        - apply app_inj_tail in E. destruct E as [<- <-]. congruence.
        - clear IHrest. rewrite app_comm_cons, app_assoc in E. apply app_inj_tail in E. destruct E as [E _].
          apply (Hlf pre m l rest). repeat split; [|exact K1|exact K2]. exact E. }
      unfold exists_, exists_body in Hx. cbn [rbind] in Hx. exact Hx.
Qed.

Lemma listing_entries c s : linux_like c -> reachable c s -> forall p l, listdir s (PStr p) = Ok l ->
  exists rp rr d, resolve_path s p = Ok rp /\ resolve_path s rp = Ok (abs_path (sepc s) rr) /\ at_names s rr = Some d /\
    (forall n, In n l <-> exists o, entry s d n = Some o) /\
    (has_bit (o_mode (ob s d)) PERM_READ = true -> forall n o, entry s d n = Some o ->
       lresolve s (abs_path (sepc s) (rr ++ [n])) = Ok o /\
       exists_ s (abs_path (sepc s) (rr ++ [n])) true = Ok true).
Proof.
  intros Hc Hr p l Hl. pose proof (reachable_Ginv c s Hc Hr) as HG. pose proof (Ginv_good s HG) as Hg.
  destruct (listdir_inv s (PStr p) l Hl) as (rp & d & Hrp & Hd & Hdir & ->). cbn [resolve_path_arg] in Hrp.
  assert (Hd0 := Hd). unfold resolve in Hd0. apply (resolve_ok s Hg) in Hd0.
  destruct Hd0 as (rr & Hr2 & Hcl & Hat). fold (resolve_path s rp) in Hr2.
  destruct Hat as [[_ ->]|(Hnn & Hat & Hse & Hmr)]; [rewrite (gi_null s HG) in Hdir; discriminate|].
  exists rp, rr, d. split; [exact Hrp|]. split; [exact Hr2|]. split; [exact Hat|]. split; [apply names_in_ents|].
  intros Hrd n o He.
  assert (Hlf : forall pre m l rest, ~ meets_link s rr pre m l rest).
  { destruct (list_eq_dec (list_eq_dec ascii_dec) rr []) as [->|Hne].
    - intros pre m l rest (E & _). destruct pre; discriminate.
    - destruct (resolve_path_shape s rp _ HG Hr2) as (rr' & E & Hcl' & K).
      apply (abs_path_clean_inj _ (gi_lin s HG)) in E; [|assumption|assumption]. subst rr'.
      destruct K as [K|K]; [contradiction|exact K]. }
  assert (Hst : resolve_path s (abs_path (sepc s) rr) = Ok (abs_path (sepc s) rr)).
  { apply (linkfree_resolve_path s HG (length rr) rr d); [lia|exact Hat|exact Hlf]. }
  apply entry_lookup with d; try assumption.
  unfold resolve. apply (resolve_ok s Hg). exists rr. split; [exact Hst|]. split; [exact Hcl|]. right. auto.
Qed.

(** ** Link counts *)
Lemma sumn_one f n k : k < n -> (forall j, j < n -> j <> k -> f j = 0) -> sumn f n = f k.
Proof.
  induction n; intros Hk H; [lia|]. cbn [sumn]. destruct (Nat.eq_dec k n) as [->|Hn].
  - rewrite sumn_zero; [reflexivity|]. intros j Hj. apply H; lia.
  - rewrite IHn; [|lia|intros j Hj; apply H; lia]. rewrite (H n); lia.
Qed.
Lemma cnt_at_most_one o es : (forall n n', In (n, o) es -> In (n', o) es -> n = n') -> NoDup (map fst es) -> cnt o es <= 1.
Proof.
  induction es as [|[k y] es IH]; intros H Hnd; [cbn; lia|]. rewrite cnt_cons. inversion Hnd; subst.
  destruct (Nat.eqb_spec y o) as [->|Hne].
  - rewrite cnt_zero; [lia|]. intros n Hn. assert (k = n) by (apply H; [left; reflexivity|right; exact Hn]). subst n.
    apply H2. apply (in_map fst es (k, o) Hn).
  - cbn. apply IH; [|assumption]. intros n n' Hn Hn'. apply H; right; assumption.
Qed.
Lemma dir_refs_one s d n o : Ginv s -> is_dirobj s o = true -> entry s d n = Some o -> refs s o = 1.
Proof.
  intros HG Hdir He. unfold refs.
  assert (Hlt := entry_lt s d n o HG He).
  rewrite (sumn_one _ (f_next s) d).
  - assert (cnt o (ents s d) <= 1).
    { apply cnt_at_most_one; [|apply (gi_nodup s HG)]. intros n1 n2 H1 H2.
      apply (dir_one_name s d n1 d n2 o HG Hdir); apply In_entry; assumption. }
    assert (0 < cnt o (ents s d)) by (apply (cnt_pos o _ n), entry_In, He). lia.
  - apply Hlt.
  - intros j Hj Hne. apply cnt_zero. intros m Hm. apply Hne.
    apply (dir_one_name s j m d n o HG Hdir); [apply In_entry; assumption|exact He].
Qed.
Lemma link_counts c s : linux_like c -> reachable c s -> forall names o, at_names s names = Some o ->
  ss_nlink (stat_of s o) =
    if is_dirobj s o then ((if names then 1 else 2) + Z.of_nat (length (ents s o)))%Z else Z.of_nat (refs s o).
Proof.
  intros Hc Hr names o Ho. pose proof (reachable_Ginv c s Hc Hr) as HG. cbn [ss_nlink stat_of].
  rewrite (gi_nlink s HG o (at_names_lt s names o HG Ho)).
  destruct (is_dirobj s o) eqn:Ed; [|lia].
  destruct (names_cases names) as [->|(pre & n & ->)].
  - cbn in Ho. injection Ho as <-.
    assert (refs s root_oid = 0) as ->; [|cbn; lia].
    apply refs_zero. intros d n Hi. destruct (gi_ent s HG d n _ Hi) as (_ & K & _). congruence.
  - destruct (at_names_snoc_inv s pre n o Ho) as (d & _ & He).
    rewrite (dir_refs_one s d n o HG Ed He). destruct (pre ++ [n]) eqn:E; [destruct pre; discriminate|]. lia.
Qed.

(** ** The tree *)
Lemma dir_one_path s : Ginv s -> forall a b o, is_dirobj s o = true -> at_names s a = Some o -> at_names s b = Some o -> a = b.
Proof.
  intros HG. induction a as [|n a IH] using rev_ind; intros b o Hd Ha Hb.
  - cbn in Ha. injection Ha as <-. symmetry. exact (gi_acyc s HG root_oid b Hb).
  - destruct (names_cases b) as [->|(b' & m & ->)].
    + cbn in Hb. injection Hb as <-. exact (gi_acyc s HG root_oid _ Ha).
    + apply at_names_snoc_inv in Ha. apply at_names_snoc_inv in Hb.
      destruct Ha as (d & Ha & He). destruct Hb as (d' & Hb & He').
      destruct (dir_one_name s d n d' m o HG Hd He He') as [<- <-].
      rewrite (IH b' d (entry_dirobj s d n o He) Ha Hb). reflexivity.
Qed.
Lemma tree_shape c s : linux_like c -> reachable c s ->
  (forall a b o, is_dirobj s o = true -> at_names s a = Some o -> at_names s b = Some o -> a = b) /\
  (forall d names, tree_at s d names = Some d -> names = []) /\
  (forall names n o, at_names s (names ++ [n]) = Some o -> is_dirobj s o = true ->
     o_parent (ob s o) = at_names s names /\ o_name (ob s o) = n) /\
  o_parent (ob s root_oid) = None.
Proof.
  intros Hc Hr. pose proof (reachable_Ginv c s Hc Hr) as HG. split; [exact (dir_one_path s HG)|].
  split; [exact (gi_acyc s HG)|]. split; [|exact (gi_rootpar s HG)].
  intros names n o Ha Hd. apply at_names_snoc_inv in Ha. destruct Ha as (d & Ha & He).
  destruct (gi_par s HG d n o (entry_In _ _ _ _ He) Hd) as [H1 H2]. split; congruence.
Qed.

(** ** Inode numbers *)
Lemma ino_tree c s : linux_like c -> reachable c s -> forall a b x y, at_names s a = Some x -> at_names s b = Some y ->
  ss_ino (stat_of s x) <> None /\ (ss_ino (stat_of s x) = ss_ino (stat_of s y) <-> x = y).
Proof.
  intros Hc Hr a b x y Ha Hb. pose proof (reachable_Ginv c s Hc Hr) as HG. cbn [ss_ino stat_of].
  assert (Hx : o_ino (ob s x) <> None).
  { destruct (names_cases a) as [->|(pre & n & ->)]; [cbn in Ha; injection Ha as <-; exact (gi_ino_root s HG)|].
    destruct (at_names_snoc_inv s pre n x Ha) as (d & _ & He). exact (gi_ino_ent s HG d n x (entry_In _ _ _ _ He)). }
  split; [exact Hx|]. split; [|congruence]. intros E.
  destruct (o_ino (ob s x)) as [i|] eqn:Ei; [|congruence].
  apply (gi_ino_inj s HG x y i); [apply (at_names_lt s a); assumption|apply (at_names_lt s b); assumption|exact Ei|congruence].
Qed.
Lemma opt_nat_eqb_eq a b : opt_nat_eqb a b = true <-> a = b.
Proof.
  destruct a as [x|], b as [y|]; cbn; split; intros H; try discriminate; try reflexivity.
  - apply Nat.eqb_eq in H. congruence.
  - injection H as ->. apply Nat.eqb_refl.
Qed.
Lemma stat_inv s p f st : stat s (PStr p) f = Ok st -> exists o, resolve_follow s p f false = Ok o /\ st = stat_of s o.
Proof.
  unfold stat, stat_obj. cbn [resolve_arg].
  destruct (resolve_follow s p f false) as [o|]; cbn [rbind]; [|discriminate].
  destruct (if negb (is_root s) then _ else _) as [[]|]; cbn [rbind]; [|discriminate].
  destruct (raise_for_sep s p o f false) as [[]|]; cbn [rbind]; [|discriminate].
  intros H; injection H as <-. exists o. auto.
Qed.
Lemma ino_eq_obj s p q x y : Ginv s -> resolve s p false = Ok x -> resolve s q false = Ok y ->
  o_ino (ob s x) = o_ino (ob s y) -> x = y.
Proof.
  intros HG Hx Hy E.
  assert (Hi : forall o, o = devnull_oid \/ (exists names, at_names s names = Some o) -> o = devnull_oid \/ o_ino (ob s o) <> None).
  { intros o [->|[names Ho]]; [auto|]. right.
    destruct (names_cases names) as [->|(pre & n & ->)]; [cbn in Ho; injection Ho as <-; exact (gi_ino_root s HG)|].
    destruct (at_names_snoc_inv s pre n o Ho) as (d & _ & He). exact (gi_ino_ent s HG d n o (entry_In _ _ _ _ He)). }
  destruct (o_ino (ob s x)) as [i|] eqn:Ei.
  - apply (gi_ino_inj s HG x y i); [apply (resolve_lt s p false); assumption|apply (resolve_lt s q false); assumption|exact Ei|congruence].
  - destruct (Hi x (resolve_found s p false x HG Hx)) as [->|]; [|congruence].
    destruct (Hi y (resolve_found s q false y HG Hy)) as [->|]; [reflexivity|congruence].
Qed.
Lemma samefile_object c s : linux_like c -> reachable c s -> forall p q b, samefile s p q = Ok b ->
  exists x y, resolve s p false = Ok x /\ resolve s q false = Ok y /\ (b = true <-> x = y).
Proof.
  intros Hc Hr p q b. pose proof (reachable_Ginv c s Hc Hr) as HG. unfold samefile.
  destruct (stat s (PStr p) true) as [st|] eqn:E1; cbn [rbind]; [|discriminate].
  destruct (stat s (PStr q) true) as [st2|] eqn:E2; cbn [rbind]; [|discriminate].
  intros H; injection H as <-.
  destruct (stat_inv s p true st E1) as (x & Hx & ->). destruct (stat_inv s q true st2 E2) as (y & Hy & ->).
  exists x, y. cbn [ss_ino ss_dev stat_of]. split; [exact Hx|]. split; [exact Hy|].
  rewrite andb_true_iff, !opt_nat_eqb_eq. split; [|intros ->; auto].
  intros [E _]. apply (ino_eq_obj s p q x y HG Hx Hy E).
Qed.

(** ** obj.path *)
Lemma chain_names_at s : Ginv s -> forall names o fuel, at_names s names = Some o -> is_dirobj s o = true ->
  length names < fuel -> chain_names fuel s o = Some ([sepc s] :: names).
Proof.
  intros HG. induction names as [|n names IH] using rev_ind; intros o fuel Ho Hd Hf.
  - cbn in Ho. injection Ho as <-. destruct fuel; [cbn in Hf; lia|]. cbn [chain_names].
    rewrite (gi_rootpar s HG), (gi_rootname s HG). reflexivity.
  - destruct (at_names_snoc_inv s names n o Ho) as (d & Ha & He).
    destruct (gi_par s HG d n o (entry_In _ _ _ _ He) Hd) as [H1 H2].
    rewrite app_length in Hf. cbn in Hf. destruct fuel; [lia|]. cbn [chain_names]. rewrite H1, H2.
    rewrite (IH d fuel Ha (entry_dirobj s d n o He)) by lia. reflexivity.
Qed.
Lemma dir_path_s s : Ginv s -> forall names o, at_names s names = Some o -> is_dirobj s o = true ->
  (forall n rest, names = n :: rest -> is_drive_name n = false) ->
  obj_path s o = Ok (abs_path (sepc s) names) /\
  resolve_path s (abs_path (sepc s) names) = Ok (abs_path (sepc s) names) /\
  (honest_dirs s -> ~ is_null s names -> resolve s (abs_path (sepc s) names) false = Ok o).
Proof.
  intros HG names o Ho Hd Hdr. pose proof (Ginv_good s HG) as Hg.
  assert (Hord := at_names_ordinary s HG names root_oid o Ho).
  assert (Hlf : forall pre m l rest, ~ meets_link s names pre m l rest).
  { intros pre m l rest (E & K1 & K2).
    assert (is_dirobj s l = true).
    { destruct rest as [|x rest].
      - subst names. rewrite Ho in K1. injection K1 as <-. exact Hd.
      - subst names. replace (pre ++ m :: x :: rest) with ((pre ++ [m]) ++ x :: rest) in Ho by (rewrite <- app_assoc; reflexivity).
        destruct (prefix_dirs s (pre ++ [m]) x rest o Ho) as (d & Hd1 & Hd2). congruence. }
    rewrite (gd_dnl s Hg l H) in K2. discriminate. }
  assert (Hrp : resolve_path s (abs_path (sepc s) names) = Ok (abs_path (sepc s) names)).
  { apply (linkfree_resolve_path s HG (length names) names o); [lia|exact Ho|exact Hlf]. }
  split; [|split; [exact Hrp|]].
  - unfold obj_path. rewrite (chain_names_at s HG names o (S (f_next s)) Ho Hd).
    2:{ pose proof (depth_bound s root_oid HG names o Ho). lia. }
    rewrite str_eqb_refl. f_equal.
    destruct names as [|n rest].
    + apply (anp_abs_path s [] Hg); constructor.
    + rewrite (Hdr n rest eq_refl). apply (anp_abs_path s (n :: rest) Hg Hord).
  - intros Hh Hnn. unfold resolve. apply (resolve_ok s Hg). exists names. split; [exact Hrp|].
    split; [apply Forall_clean; exact Hord|]. right. split; [exact Hnn|]. split; [exact Ho|]. split; [|right; left; reflexivity].
    intros pre n rest x E K. rewrite Hh. subst names.
    destruct (prefix_dirs s pre n rest o Ho) as (d & Hd1 & Hd2). unfold at_names in Hd1. congruence.
Qed.
Lemma dir_path c s : linux_like c -> reachable c s -> forall names o, at_names s names = Some o -> is_dirobj s o = true ->
  (forall n rest, names = n :: rest -> is_drive_name n = false) ->
  obj_path s o = Ok (abs_path (sepc s) names) /\
  resolve_path s (abs_path (sepc s) names) = Ok (abs_path (sepc s) names) /\
  (honest_dirs s -> ~ is_null s names -> resolve s (abs_path (sepc s) names) false = Ok o).
Proof. intros Hc Hr. apply dir_path_s, (reachable_Ginv c s Hc Hr). Qed.
