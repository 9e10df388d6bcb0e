(** * Removing trees and making chains of directories. *)
From Verif Require Export OpsThm4.

(** ** Removing a tree *)
Lemma root_no_entry s d n : Ginv s -> entry s d n = Some root_oid -> False.
Proof. intros H E. apply entry_In in E. apply (gi_ent s H) in E. tauto. Qed.
Lemma dir_single s a b k m x : Ginv s -> entry s a k = Some x -> entry s b m = Some x -> is_dirobj s x = true -> a = b /\ k = m.
Proof.
  intros H E1 E2 Hx. apply entry_In in E1, E2. destruct (gi_par s H _ _ _ E1 Hx) as [P1 N1]. destruct (gi_par s H _ _ _ E2 Hx) as [P2 N2].
  split; congruence.
Qed.
Lemma rm_keeps s s' d n x : Ginv s -> rm_post s s' d n -> entry s d n = Some x ->
  (forall m, m <> n -> entry s' d m = entry s d m) ->
  forall names q0 o, at_names s q0 <> None -> at_names s (q0 ++ names) = Some o ->
  (forall a b, q0 ++ names = a ++ n :: b -> at_names s a <> Some d) ->
  forall c, at_names s q0 = Some c -> at_names s' q0 = Some c -> at_names s' (q0 ++ names) = Some o.
Proof.
  intros H HP Hx Hkeep. induction names as [|m names IH]; intros q0 o Hq0 Ho Hav c Hc Hc'.
  - rewrite app_nil_r in *. congruence.
  - change (q0 ++ m :: names) with (q0 ++ ([m] ++ names)) in *. rewrite app_assoc in *.
    assert (Em : exists y, entry s c m = Some y /\ at_names s (q0 ++ [m]) = Some y).
    { unfold at_names in *. rewrite tree_at_app in Ho. destruct (tree_at s root_oid (q0 ++ [m])) as [y|] eqn:Ey; [|discriminate].
      exists y. split; [|reflexivity]. rewrite tree_at_app, Hc in Ey. cbn in Ey. destruct (entry s c m); congruence. }
    destruct Em as (y & Ey & Hy).
    assert (Ey' : entry s' c m = Some y).
    { destruct (Nat.eq_dec c d) as [->|Hcd].
      - rewrite Hkeep; [exact Ey|]. intros ->. apply (Hav q0 names); [|exact Hc]. rewrite <- app_assoc. reflexivity.
      - unfold entry. rewrite (rp_frame _ _ _ _ HP c Hcd); [exact Ey|]. intros e He [l Hl].
        assert (e = x) by congruence. subst e.
        (* c is a directory below x; its only path goes through (d, n) *)
        assert (Hdc : is_dirobj s c = true) by (apply (entry_dirobj s c m y Ey)).
        destruct (Nat.eq_dec d root_oid) as [->|Hdr].
        + assert (K : at_names s (n :: l) = Some c) by (unfold at_names; cbn; rewrite He; exact Hl).
          pose proof (dir_one_path s H q0 (n :: l) c Hdc Hc K) as ->. apply (Hav [] (l ++ m :: names)); [|reflexivity].
          rewrite <- !app_assoc. reflexivity.
        + (* walk up from c along q0 *)
          assert (Hup : forall l q z, at_names s q = Some z -> is_dirobj s z = true -> tree_at s x l = Some z ->
             exists a b, q = a ++ n :: b /\ at_names s a = Some d).
          { clear - H He Hdr. intros l. induction l as [|k l IHl] using rev_ind; intros q z Hq Hz Hl.
            - cbn in Hl. injection Hl as <-. destruct q as [|k q _] using rev_ind.
              + unfold at_names in Hq. cbn in Hq. injection Hq as <-. exfalso. apply (root_no_entry s d n H He).
              + unfold at_names in Hq. rewrite tree_at_app in Hq. destruct (tree_at s root_oid q) as [e|] eqn:Ee; [|discriminate].
                cbn in Hq. destruct (entry s e k) as [v|] eqn:Ev; [|discriminate]. injection Hq as ->.
                destruct (dir_single s e d k n x H Ev He Hz) as [-> ->]. exists q, []. split; [reflexivity|exact Ee].
            - rewrite tree_at_app in Hl. destruct (tree_at s x l) as [w|] eqn:Ew; [|discriminate]. cbn in Hl.
              destruct (entry s w k) as [v|] eqn:Ev; [|discriminate]. injection Hl as ->.
              destruct q as [|j q _] using rev_ind.
              + unfold at_names in Hq. cbn in Hq. injection Hq as <-. exfalso. apply (root_no_entry s w k H Ev).
              + unfold at_names in Hq. rewrite tree_at_app in Hq. destruct (tree_at s root_oid q) as [e|] eqn:Ee; [|discriminate].
                cbn in Hq. destruct (entry s e j) as [v|] eqn:Ej; [|discriminate]. injection Hq as ->.
                destruct (dir_single s e w j k z H Ej Ev Hz) as [-> ->].
                destruct (IHl q w Ee (entry_dirobj s w k z Ev) eq_refl) as (a & b & -> & Ha).
                exists a, (b ++ [k]). split; [rewrite <- app_assoc; reflexivity|exact Ha]. }
          destruct (Hup l q0 c Hc Hdc Hl) as (a & b & -> & Ha). apply (Hav a (b ++ m :: names)); [|exact Ha].
          rewrite <- !app_assoc. reflexivity. }
    apply (IH (q0 ++ [m]) o) with (c := y).
    + rewrite Hy. discriminate.
    + exact Ho.
    + exact Hav.
    + exact Hy.
    + unfold at_names in *. rewrite tree_at_app, Hc'. cbn. rewrite Ey'. reflexivity.
Qed.

Lemma shrunk_unseen_rest s s' : shrunk s s' -> s' = set_mounts (set_heap s (f_heap s')) (f_mounts s').
Proof. apply sh_rest. Qed.

Lemma remove_tree s p s' : Ginv s -> remove_object p s = (Ok tt, s') ->
  exists pre n d x, anp s p = abs_path (sepc s) (pre ++ [n]) /\ Forall (ordinary (sepc s)) (pre ++ [n]) /\
    resolve s (abs_path (sepc s) pre) false = Ok d /\ tree_removed s s' d n x /\
    (forall q o, at_names s q = Some o -> (forall a b, q = a ++ n :: b -> at_names s a <> Some d) -> at_names s' q = Some o).
Proof.
  intros H E. destruct (anp_names s p (Ginv_good s H)) as (names & Hn & En).
  pose proof (wp_elim _ _ _ _ _ (wp_remove_object s p names H En Hn) E) as K. cbv beta in K.
  destruct K as [(_ & (e & K) & _)|(pre & n & d & x & -> & Hr & Hx & HP & He & Hemp)]; [discriminate|].
  exists pre, n, d, x. rewrite En. split; [reflexivity|]. split; [exact Hn|]. split; [exact Hr|].
  pose proof (rp_shrunk _ _ _ _ HP) as HS. pose proof (rp_inv _ _ _ _ HP) as H'. split.
  - constructor.
    + exact Hx.
    + exact He.
    + exact Hemp.
    + intros y Hy Hny. apply (rp_frame _ _ _ _ HP y Hy). intros e Ee. assert (e = x) by congruence. subst e. exact Hny.
    + apply (sh_ob _ _ HS).
    + apply (sh_file _ _ HS).
    + intros y Hy Hf. pose proof (gi_nlink s H y Hy) as K1. rewrite Hf in K1.
      assert (Hy' : y < f_next s') by (rewrite (shrunk_next _ _ HS); exact Hy).
      pose proof (gi_nlink s' H' y Hy') as K2. rewrite (sh_dir _ _ HS), Hf in K2. split; lia.
    + apply (sh_rest _ _ HS).
  - intros q o Hq Hav. apply (rm_keeps s s' d n x H HP Hx) with (q0 := []) (names := q) (c := root_oid); try exact Hq; try reflexivity.
    + intros m Hm. unfold entry. rewrite He, assoc_del_other by exact Hm. reflexivity.
    + discriminate.
    + exact Hav.
Qed.

(** ** Chains of directories *)
Definition perm_all : N := N.lor S_IFDIR PERM_DEF.
Lemma dirs_made_nil s d m : dirs_made s s d [] m.
Proof.
  constructor; cbn; intros; try discriminate; auto.
  - destruct i; discriminate.
  - destruct s; reflexivity.
Qed.

Lemma add_entry_goes s d o : Ginv s -> within_limits s -> d <> o -> (is_dirobj s o = false -> o_size (ob s o) = 0%Z) -> ents s o = [] ->
  is_dirobj s d = true -> has_bit (o_mode (ob s d)) PERM_WRITE = true -> entry s d (o_name (ob s o)) = None ->
  wp (add_entry d o) s (fun r _ => r = Ok tt).
Proof.
  intros HG W Hn Hsz He Hd Hw Hen. unfold add_entry. wstep. rewrite Hd. cbn [negb]. wstep. rewrite Hw. cbn [negb].
  rewrite andb_false_r. cbn [andb]. wstep. unfold entry in Hen. rewrite Hen.
  destruct (link_obj_spec s d o Hn Hd) as (s1 & E1 & HL). apply wp_bind. unfold wp at 1. rewrite E1. cbn [fst snd].
  wstep. destruct (Z.eqb _ 1); [|wstep; reflexivity].
  wstep. wstep. assert (Ez : obj_size (S (f_next s1)) s1 o = 0%Z).
  { destruct (ln_o _ _ _ _ _ HL) as (i & Eo & _). cbn [obj_size]. rewrite Eo. cbn.
    unfold is_dirobj in Hsz. unfold ents in He. destruct (o_body (ob s o)) as [es|da] eqn:Eb; cbn.
    - subst es. reflexivity.
    - unfold st_size. rewrite Eo. cbn. destruct (_ && _); [reflexivity|]. apply Hsz. reflexivity. }
  rewrite Ez. unfold wp. rewrite (cdu_zero s1 _ (linked_limits _ _ _ _ _ HL W)). reflexivity.
Qed.

Lemma wp_new_dir_add s cur n : Ginv s -> within_limits s -> ordinary (sepc s) n -> cur < f_next s -> entry s cur n = None ->
  wp (add_entry cur (f_next s)) (snd (alloc n perm_all (BDir []) s)) (fun r s' =>
    Ginv s' /\ ((exists e, r = Err e /\ unseen s s' /\ f_mounts s' = f_mounts s /\
        (is_dirobj s cur = true -> has_bit (o_mode (ob s cur)) PERM_WRITE = false)) \/
     (r = Ok tt /\ is_dirobj s cur = true /\ f_mounts s' = f_mounts s /\
      o_body (ob s' (f_next s)) = BDir [] /\
      o_name (ob s' (f_next s)) = n /\ o_mode (ob s' (f_next s)) = perm_all /\ o_uid (ob s' (f_next s)) = f_uid s /\
      o_gid (ob s' (f_next s)) = f_gid s /\ o_dev (ob s' (f_next s)) = o_dev (ob s cur) /\
      one_more s s' cur n (f_next s) /\ f_next s' = S (f_next s)))).
Proof.
  intros H W Hno Hlt He. set (s2 := snd (alloc n perm_all (BDir []) s)).
  assert (Hb' : BDir [] = BDir [] \/ (exists x, BDir [] = BFile x)) by (left; reflexivity).
  assert (Hbm : BDir [] = BDir [] -> has_bit perm_all S_IFDIR = true) by (intros _; apply lor_ifdir).
  assert (H2 : Ginv s2) by (apply Ginv_alloc; assumption).
  assert (A2 : addable s2 (f_next s)) by (apply addable_alloc; assumption).
  assert (Hnew : ob s2 (f_next s) = fresh_obj s n perm_all (BDir [])) by (unfold s2; rewrite ob_alloc, Nat.eqb_refl; reflexivity).
  assert (Hcur : ob s2 cur = ob s cur) by (unfold s2; rewrite ob_alloc; destruct (Nat.eqb_spec cur (f_next s)); [lia|reflexivity]).
  assert (Hd2 : is_dirobj s2 cur = is_dirobj s cur) by (unfold is_dirobj; rewrite Hcur; reflexivity).
  assert (Hun : unseen s s2) by apply unseen_alloc.
  assert (Hsz : is_dirobj s2 (f_next s) = false -> o_size (ob s2 (f_next s)) = 0%Z) by (intros _; rewrite Hnew; reflexivity).
  eapply wp_conseq; [apply wp_and; [apply (wp_add_entry_empty s2 cur (f_next s) H2 W); [lia|exact Hsz|apply (ad_ents _ _ A2)]|]|].
  - apply wp_and; [apply (wp_add_addable s2 cur (f_next s) H2 A2); lia|].
    instantiate (1 := fun r s' => is_dirobj s cur = true -> has_bit (o_mode (ob s cur)) PERM_WRITE = true -> r = Ok tt).
    destruct (is_dirobj s cur) eqn:Ed; [|apply wp_intro; intros; discriminate].
    destruct (has_bit (o_mode (ob s cur)) PERM_WRITE) eqn:Ew; [|apply wp_intro; intros; discriminate].
    eapply wp_conseq; [apply (add_entry_goes s2 cur (f_next s) H2 W); [lia|exact Hsz|apply (ad_ents _ _ A2)|exact Hd2|rewrite Hcur; exact Ew|]|auto].
    unfold entry, ents. rewrite Hnew, Hcur. exact He.
  - intros r s' [Hc [[H' _] Hg]]. split; [exact H'|]. destruct Hc as [(Hr & -> & Hc)|(Hdd & He2 & HL & ->)].
    + left. assert (He3 : exists e, r = Err e) by (destruct Hc as [->|[->| ->]]; eauto). destruct He3 as [e ->]. exists e.
      split; [reflexivity|]. split; [exact Hun|]. split; [reflexivity|]. intros Kd.
      destruct (has_bit (o_mode (ob s cur)) PERM_WRITE) eqn:Ew; [|reflexivity]. discriminate (Hg Kd eq_refl).
    + right. split; [reflexivity|]. rewrite Hnew in He2, HL. change (o_name (fresh_obj s n perm_all (BDir []))) with n in He2, HL.
      assert (Ha : added s2 s' cur (f_next s)).
      { exists s'. rewrite Hnew. split; [exact HL|apply only_mounts_refl]. }
      assert (Hne : cur <> f_next s) by lia.
      destruct (alloc_one_more s s' cur n perm_all (BDir []) H Hb' Hne Hdd He2 Ha) as (OM & Hnx & i & Hi).
      rewrite Hd2 in Hdd. split; [exact Hdd|]. split; [rewrite (ln_rest _ _ _ _ _ HL); reflexivity|].
      rewrite Hi. cbn. repeat (split; [reflexivity|]). split; [exact OM|exact Hnx].
Qed.

Lemma wp_create_chain rest : forall n s cur new, Ginv s -> within_limits s -> Forall (ordinary (sepc s)) (n :: rest) -> cur < f_next s ->
  entry s cur n = None ->
  wp (create_dirs cur new (n :: rest)) s (fun r s' =>
    (exists e, r = Err e /\ unseen s s' /\ f_mounts s' = f_mounts s /\ (is_dirobj s cur = true -> has_bit (o_mode (ob s cur)) PERM_WRITE = false)) \/
    (r = Ok (f_next s + length rest, new ++ seq (f_next s) (S (length rest))) /\ is_dirobj s cur = true /\ dirs_made s s' cur (n :: rest) perm_all)).
Proof.
  induction rest as [|m rest IH]; intros n s cur new H W Hc Hlt He; cbn [create_dirs].
  all: inversion Hc as [|? ? Hc1 Hc2]; subst; wstep; rewrite (directory_content_cs s cur n (Ginv_cs s H)), He.
  all: unfold new_dir; apply wp_bind, wp_alloc; cbv beta iota; apply wp_bind.
  all: eapply wp_conseq; [apply (wp_new_dir_add s cur n H W Hc1 Hlt He)|].
  all: intros r s2 (H2 & [(e & -> & Hu & Hm & Hd)|(-> & Hd & Hm & Hb & Hnm & Hmo & Hui & Hgi & Hde & OM & Hnx)]); cbv beta iota; [left; eauto|].
  - wstep. right. rewrite Nat.add_0_r. split; [reflexivity|]. split; [exact Hd|].
    constructor.
    + rewrite Hnx. cbn. lia.
    + intros n' r' E. injection E as <- <-. split; [exact He|exact (om_dir _ _ _ _ _ OM)].
    + intros x Hx Hxd. apply (om_other _ _ _ _ _ OM); [exact Hxd|lia].
    + intros [|i] n' E; cbn in E; [|destruct i; discriminate]. injection E as <-. rewrite Nat.add_0_r. cbn. repeat split; assumption.
    + rewrite (om_rest _ _ _ _ _ OM) at 1. rewrite Hm. destruct s; reflexivity.
  - assert (Ec2 : f_cfg s2 = f_cfg s) by (rewrite (om_rest _ _ _ _ _ OM); reflexivity).
    assert (W2 : within_limits s2) by (unfold within_limits; rewrite Hm; exact W).
    eapply wp_conseq; [apply (IH m s2 (f_next s) (new ++ [f_next s]) H2 W2)|].
    + rewrite Ec2. exact Hc2.
    + lia.
    + unfold entry, ents. rewrite Hb. reflexivity.
    + intros r s3 [(e & -> & _ & _ & K)|(-> & _ & D)].
      * exfalso. unfold is_dirobj in K. rewrite Hb, Hmo in K. specialize (K eq_refl). discriminate K.
      * right. rewrite Hnx. split; [rewrite <- app_assoc; cbn; repeat f_equal; lia|]. split; [exact Hd|].
        assert (Hs2 : f_uid s2 = f_uid s /\ f_gid s2 = f_gid s) by (rewrite (om_rest _ _ _ _ _ OM); split; reflexivity).
        destruct Hs2 as [Eu Eg].
        constructor.
        -- rewrite (dm_next _ _ _ _ _ D), Hnx. cbn. lia.
        -- intros n' r' E. injection E as <- <-. split; [exact He|].
           rewrite (dm_old _ _ _ _ _ D cur); [exact (om_dir _ _ _ _ _ OM)|lia|lia].
        -- intros x Hx Hxd. rewrite (dm_old _ _ _ _ _ D x); [|lia|lia]. apply (om_other _ _ _ _ _ OM); [exact Hxd|lia].
        -- intros [|i] n' E; cbn [nth_error] in E.
           ++ injection E as <-. rewrite Nat.add_0_r. destruct (dm_top _ _ _ _ _ D m rest eq_refl) as [_ Kt]. rewrite Kt.
              unfold ents. rewrite Hb. cbn. rewrite Hnx. repeat split; try assumption. repeat f_equal. lia.
           ++ destruct (dm_new _ _ _ _ _ D i n' E) as (K1 & K2 & K3 & K4 & K5 & K6).
              replace (f_next s + S i) with (f_next s2 + i) by lia. rewrite K1, K2, K3, K4, K5, K6, Eu, Eg, Hde.
              split; [|repeat split; reflexivity]. replace (f_next s + S (S i)) with (f_next s2 + S i) by lia. reflexivity.
        -- rewrite (dm_rest _ _ _ _ _ D) at 1. rewrite (om_rest _ _ _ _ _ OM) at 1. rewrite Hm. destruct s; reflexivity.
Qed.

Inductive dir_walk (s : fs) : oid -> list str -> oid -> Prop :=
| dw_nil d : dir_walk s d [] d
| dw_cons cur n o d' rest d : entry s cur n = Some o ->
    (is_link s o = false /\ d' = o \/ exists t, is_link s o = true /\ o_body (ob s o) = BFile (Some t) /\ resolve s t true = Ok d') ->
    has_bit (o_mode (ob s d')) S_IFDIR = true ->
    dir_walk s d' rest d -> dir_walk s cur (n :: rest) d.

Lemma has_ifdir_land m : negb (N.eqb (N.land m S_IFDIR) S_IFDIR) = negb (has_bit m S_IFDIR).
Proof.
  unfold has_bit, S_IFDIR. f_equal. 
  assert (K : N.land m 16384 = 0%N \/ N.land m 16384 = 16384%N).
  { change 16384%N with (2 ^ 14)%N. rewrite <- N.shiftl_1_l. destruct (N.testbit m 14) eqn:E.
    - right. apply N.bits_inj. intros i. rewrite N.land_spec. destruct (N.eq_dec i 14) as [->|Hi]; [rewrite E; reflexivity|].
      rewrite N.shiftl_1_l, N.pow2_bits_false by congruence. apply andb_false_r.
    - left. apply N.bits_inj. intros i. rewrite N.land_spec, N.bits_0. destruct (N.eq_dec i 14) as [->|Hi]; [rewrite E; reflexivity|].
      rewrite N.shiftl_1_l, N.pow2_bits_false by congruence. apply andb_false_r. }
  destruct K as [-> | ->]; reflexivity.
Qed.

Lemma wp_create_dirs_full comps : forall cur new s, Ginv s -> within_limits s -> Forall (ordinary (sepc s)) comps -> cur < f_next s ->
  wp (create_dirs cur new comps) s (fun r s' =>
    (exists e, r = Err e /\ unseen s s' /\ f_mounts s' = f_mounts s) \/
    exists a b d, comps = a ++ b /\ dir_walk s cur a d /\
      ((b = [] /\ s' = s /\ r = Ok (d, new)) \/
       (exists n rest, b = n :: rest /\ r = Ok (f_next s + length rest, new ++ seq (f_next s) (length b)) /\
          is_dirobj s d = true /\ dirs_made s s' d b perm_all))).
Proof.
  induction comps as [|comp comps IH]; intros cur new s H W Hc Hlt.
  - cbn [create_dirs]. wstep. right. exists [], [], cur. split; [reflexivity|]. split; [constructor|]. left. auto.
  - destruct (entry s cur comp) as [o|] eqn:E.
    2:{ eapply wp_conseq; [apply (wp_create_chain comps comp s cur new H W Hc Hlt E)|]. intros r s' [(e & K1 & K2 & K3 & _)|(K1 & K2 & K3)].
        - left. eauto.
        - right. exists [], (comp :: comps), cur. split; [reflexivity|]. split; [constructor|]. right. exists comp, comps. auto. }
    cbn [create_dirs]. inversion Hc as [|? ? Hc1 Hc2]; subst. wstep. rewrite (directory_content_cs s cur comp (Ginv_cs s H)), E.
    wstep. apply wp_bind. assert (Ho := entry_lt s cur comp o H E).
    assert (Hrest : forall d', d' < f_next s ->
      (is_link s o = false /\ d' = o \/ exists t, is_link s o = true /\ o_body (ob s o) = BFile (Some t) /\ resolve s t true = Ok d') ->
      wp (bad <- gets (fun s => negb (N.eqb (N.land (o_mode (ob s d')) S_IFDIR) S_IFDIR)) ;;
          (if bad : bool then raise_os ENOTDIR else create_dirs d' new comps)) s
      (fun r s' =>
        (exists e, r = Err e /\ unseen s s' /\ f_mounts s' = f_mounts s) \/
        exists a b d, comp :: comps = a ++ b /\ dir_walk s cur a d /\
          ((b = [] /\ s' = s /\ r = Ok (d, new)) \/
           (exists n rest, b = n :: rest /\ r = Ok (f_next s + length rest, new ++ seq (f_next s) (length b)) /\
              is_dirobj s d = true /\ dirs_made s s' d b perm_all)))).
    { intros d' Hd' Hl. wstep. rewrite has_ifdir_land. destruct (has_bit (o_mode (ob s d')) S_IFDIR) eqn:Eb; cbn [negb].
      - eapply wp_conseq; [apply (IH d' new s H W Hc2 Hd')|]. intros r s' [K|(a & b & d & -> & Hw & K)]; [left; exact K|right].
        exists (comp :: a), b, d. split; [reflexivity|]. split; [econstructor; eassumption|exact K].
      - wstep. left. eexists. split; [reflexivity|]. split; [apply unseen_refl|reflexivity]. }
    destruct (S_ISLNK (o_mode (ob s o))) eqn:El.
    + wstep. destruct (text_contents s o) as [t|e] eqn:Et; cbn [rbind].
      2:{ left. eexists. split; [reflexivity|]. split; [apply unseen_refl|reflexivity]. }
      destruct (resolve s t true) as [d'|e] eqn:Er; [|left; eexists; split; [reflexivity|]; split; [apply unseen_refl|reflexivity]].
      apply Hrest; [apply (resolve_lt s t true d' H Er)|]. right. exists t. split; [exact El|]. split; [|exact Er].
      unfold text_contents in Et. destruct (o_body (ob s o)) as [|[x|]]; try discriminate. injection Et as ->. reflexivity.
    + wstep. apply Hrest; [apply Ho|]. left. split; [exact El|reflexivity].
Qed.

Lemma dir_walk_tree s cur a d : dir_walk s cur a d ->
  (forall pre n o rest, a = pre ++ n :: rest -> tree_at s cur (pre ++ [n]) = Some o -> is_link s o = false) -> tree_at s cur a = Some d.
Proof.
  induction 1 as [|cur n o d' rest d E Hl Hb Hw IH]; intros Hnl; [reflexivity|].
  assert (Ko : is_link s o = false) by (apply (Hnl [] n o rest eq_refl); cbn; rewrite E; reflexivity).
  destruct Hl as [[_ ->]|(t & K & _)]; [|congruence]. cbn. rewrite E. apply IH.
  intros pre m x r' -> Hx. apply (Hnl (n :: pre) m x r' eq_refl). cbn. rewrite E. exact Hx.
Qed.

Definition wo_modes (mode : N) (new : list oid) (x : oid) (ob : fobj) : fobj :=
  if existsb (Nat.eqb x) new then wo_mode ob mode else ob.
Lemma wp_set_modes_exact mode : forall new s, wp (set_modes mode new) s (fun r s' =>
  r = Ok tt /\ s' = set_heap s (f_heap s') /\ forall x, ob s' x = wo_modes mode new x (ob s x)).
Proof.
  induction new as [|o new IH]; intros s; cbn [set_modes].
  - wstep. split; [reflexivity|]. split; [destruct s; reflexivity|]. reflexivity.
  - apply wp_bind. unfold mod_obj. wstep. cbv beta iota. eapply wp_conseq; [apply IH|]. intros r s' (-> & E & K).
    split; [reflexivity|]. split; [rewrite E at 1; destruct s; reflexivity|]. intros x. rewrite K. unfold wo_modes. cbn [existsb].
    unfold mod_ob, ob, upd. cbn. destruct (Nat.eqb_spec x o) as [->|]; cbn [orb]; [|reflexivity].
    destruct (f_heap s o). match goal with |- context [if ?b then _ else _] => destruct b end; reflexivity.
Qed.

Lemma existsb_seq x a n : existsb (Nat.eqb x) (seq a n) = (Nat.leb a x && Nat.ltb x (a + n)).
Proof.
  destruct (existsb _ _) eqn:E; symmetry.
  - apply existsb_exists in E. destruct E as (y & Hy & K). apply Nat.eqb_eq in K. subst y. apply in_seq in Hy.
    apply andb_true_iff. split; [apply Nat.leb_le; lia|apply Nat.ltb_lt; lia].
  - apply not_true_iff_false. intros K. apply andb_true_iff in K. destruct K as [K1 K2]. apply Nat.leb_le in K1. apply Nat.ltb_lt in K2.
    apply not_true_iff_false in E. apply E. apply existsb_exists. exists x. split; [apply in_seq; lia|apply Nat.eqb_refl].
Qed.

Lemma dirs_made_modes s s1 s2 d names m m' : d < f_next s -> dirs_made s s1 d names m ->
  s2 = set_heap s1 (f_heap s2) -> (forall x, ob s2 x = wo_modes m' (seq (f_next s) (length names)) x (ob s1 x)) ->
  dirs_made s s2 d names m'.
Proof.
  intros Hd [D1 D2 D3 D4 D5] E K.
  assert (Kold : forall x, x < f_next s -> ob s2 x = ob s1 x).
  { intros x Hx. rewrite K. unfold wo_modes. rewrite existsb_seq. destruct (Nat.leb_spec (f_next s) x); [lia|reflexivity]. }
  constructor.
  - rewrite E. exact D1.
  - intros n rest En. rewrite (Kold d Hd). apply (D2 n rest En).
  - intros x Hx Hxd. rewrite (Kold x Hx). apply (D3 x Hx Hxd).
  - intros i n Ei. assert (Hi : i < length names) by (apply nth_error_Some; congruence).
    rewrite K. unfold wo_modes. rewrite existsb_seq. destruct (Nat.leb_spec (f_next s) (f_next s + i)); [|lia].
    destruct (Nat.ltb_spec (f_next s + i) (f_next s + length names)); [|lia]. cbn [andb].
    destruct (D4 i n Ei) as (K1 & K2 & _ & K4). cbn. tauto.
  - rewrite E, D5. reflexivity.
Qed.

Lemma wp_create_dir s p perm : Ginv s -> within_limits s ->
  wp (create_dir p perm) s (fun r s' =>
    (exists e, r = Err e /\ unseen s s' /\ f_mounts s' = f_mounts s) \/
    exists names a b d, anp s (make_string_path (f_cfg s) p) = abs_path (sepc s) names /\ Forall (ordinary (sepc s)) names /\
      exists_ s (abs_path (sepc s) names) true = Ok false /\
      names = a ++ b /\ dir_walk s root_oid a d /\
      ((b = [] /\ s' = s /\ r = Ok d) \/
       (exists n rest, b = n :: rest /\ r = Ok (f_next s + length rest) /\ is_dirobj s d = true /\
          dirs_made s s' d b (N.lor S_IFDIR perm)))).
Proof.
  intros H W. pose proof (Ginv_good s H) as Hg. unfold create_dir. cbn [create_dir_n]. unfold create_dir_body.
  wstep. destruct (anp_names s (make_string_path (f_cfg s) p) Hg) as (names & Hn & En). rewrite En.
  apply wp_bind. unfold auto_mount. wstep. rewrite (Ginv_win s H). wstep. cbv beta iota.
  assert (Hs : forall e, exists e', (Err e : res oid) = Err e' /\ unseen s s /\ f_mounts s = f_mounts s).
  { intros e. exists e. split; [reflexivity|]. split; [apply unseen_refl|reflexivity]. }
  wstep. destruct (exists_ s (abs_path (sepc s) names) true) as [[|]|e] eqn:Ex; [wstep|..]; try (left; apply Hs).
  wstep. rewrite (path_components_clean _ (gi_lin s H) _ (Forall_clean _ _ Hn)).
  apply wp_bind. eapply wp_conseq; [apply (wp_create_dirs_full names root_oid [] s H W Hn)|].
  { pose proof (gi_next s H). unfold root_oid. lia. }
  intros r s1 [(e & -> & K1 & K2)|(a & b & d & -> & Hw & K)]; cbv beta iota; [left; eauto|].
  destruct K as [(-> & -> & ->)|(n & rest & -> & -> & Hd & D)]; cbv beta iota; cbn [fst snd].
  - apply wp_bind. cbn [set_modes]. wstep. cbv beta iota. wstep. right. exists (a ++ []), a, [], d. rewrite ?app_nil_r in *.
    repeat (split; [assumption || reflexivity|]). left. auto.
  - apply wp_bind. eapply wp_conseq; [apply wp_set_modes_exact|]. intros r s2 (-> & E2 & K2). cbv beta iota. wstep.
    right. exists (a ++ n :: rest), a, (n :: rest), d. repeat (split; [assumption || reflexivity|]). right. exists n, rest.
    split; [reflexivity|]. split; [reflexivity|]. split; [exact Hd|].
    apply (dirs_made_modes s s1 s2 d (n :: rest) perm_all); [apply (dirobj_lt s d H Hd)|exact D|exact E2|exact K2].
Qed.

(** the directories are there afterwards *)
Lemma dirs_made_entry_old s s' d n rest m x k o : Ginv s -> dirs_made s s' d (n :: rest) m ->
  entry s x k = Some o -> entry s' x k = Some o.
Proof.
  intros H D E. assert (Hx := dirobj_lt s x H (entry_dirobj s x k o E)). destruct (Nat.eq_dec x d) as [->|Hxd].
  2:{ unfold entry, ents in *. rewrite (dm_old _ _ _ _ _ D x Hx Hxd). exact E. }
  destruct (dm_top _ _ _ _ _ D n rest eq_refl) as [_ Ed]. unfold entry, ents in *. rewrite Ed. cbn.
  rewrite assoc_app. destruct (o_body (ob s d)) as [es|]; [|discriminate]. rewrite E. reflexivity.
Qed.
Lemma dirs_made_chain s s' d names m : is_dirobj s d = true -> dirs_made s s' d names m ->
  forall k i, i + k <= length names -> forall n, nth_error names i = Some n -> 
  tree_at s' (f_next s + i) (firstn k (skipn (S i) names)) = Some (f_next s + i + length (firstn k (skipn (S i) names))).
Proof.
  intros Hd D. induction k as [|k IH]; intros i Hk n En; [cbn; f_equal; lia|].
  destruct (dm_new _ _ _ _ _ D i n En) as (Eb & _). destruct (nth_error names (S i)) as [m'|] eqn:Em.
  - assert (Es : skipn (S i) names = m' :: skipn (S (S i)) names).
    { clear - Em. revert i Em. induction names as [|x l IHl]; intros i Em; [destruct i; discriminate|].
      destruct i as [|i]; cbn in Em |- *; [destruct l; cbn in Em; [discriminate|injection Em as ->; reflexivity]|]. apply (IHl i Em). }
    rewrite Es. cbn [firstn tree_at length]. unfold entry, ents. rewrite Eb. cbn [assoc]. rewrite str_eqb_refl.
    rewrite (IH (S i) ltac:(lia) m' Em). f_equal. lia.
  - apply nth_error_None in Em. rewrite skipn_all2 by lia. cbn. f_equal. lia.
Qed.

Lemma nth_split_snoc (names : list str) : names <> [] -> exists i n, nth_error names i = Some n /\ S i = length names.
Proof.
  intros Hn. destruct names as [|n names _] using rev_ind; [congruence|]. exists (length names), n.
  rewrite app_length, nth_error_app2 by lia. rewrite Nat.sub_diag. split; [reflexivity|cbn; lia].
Qed.

Lemma dirs_made_at s s' d n rest m a : Ginv s -> is_dirobj s d = true -> at_names s a = Some d -> dirs_made s s' d (n :: rest) m ->
  (forall q o, at_names s q = Some o -> at_names s' q = Some o) /\
  forall k, k <= length rest -> at_names s' (a ++ n :: firstn k rest) = Some (f_next s + k) /\
    is_dirobj s' (f_next s + k) = true /\ o_mode (ob s' (f_next s + k)) = m.
Proof.
  intros H Hd Ha D.
  assert (Hkeep : forall q x o, tree_at s x q = Some o -> tree_at s' x q = Some o).
  { induction q as [|j q IH]; intros x o E; [exact E|]. cbn in E |- *. destruct (entry s x j) as [y|] eqn:Ey; [|discriminate].
    rewrite (dirs_made_entry_old s s' d n rest m x j y H D Ey). apply (IH y o E). }
  split; [intros q o; apply Hkeep|].
  intros k Hk. assert (En : nth_error (n :: rest) 0 = Some n) by reflexivity.
  pose proof (dirs_made_chain s s' d (n :: rest) m Hd D k 0 ltac:(cbn; lia) n En) as K. cbn [skipn] in K.
  rewrite Nat.add_0_r in K.
  assert (Ktop : entry s' d n = Some (f_next s)).
  { destruct (dm_top _ _ _ _ _ D n rest eq_refl) as [Kn Ed]. unfold entry, ents in *. rewrite Ed. cbn. rewrite assoc_app, Kn. cbn.
    rewrite str_eqb_refl. reflexivity. }
  assert (El : length (firstn k rest) = k) by (apply firstn_length_le; lia).
  split.
  - unfold at_names. rewrite tree_at_app. unfold at_names in Ha. rewrite (Hkeep a root_oid d Ha). cbn [tree_at]. rewrite Ktop, K, El. reflexivity.
  - assert (Kn : exists n', nth_error (n :: rest) k = Some n').
    { destruct (nth_error (n :: rest) k) eqn:E0; [eauto|]. apply nth_error_None in E0. cbn in E0. lia. }
    destruct Kn as [n' Kn]. destruct (dm_new _ _ _ _ _ D k n' Kn) as (K1 & _ & K3 & _). unfold is_dirobj. rewrite K1. auto.
Qed.

Lemma create_dir_spec s p perm names : Ginv s -> within_limits s ->
  anp s (make_string_path (f_cfg s) p) = abs_path (sepc s) names -> Forall (ordinary (sepc s)) names ->
  (forall pre n l rest, ~ meets_link s names pre n l rest) ->
  wp (create_dir p perm) s (fun r s' =>
    (exists e, r = Err e /\ unseen s s' /\ f_mounts s' = f_mounts s) \/
    exists a n rest d, names = a ++ n :: rest /\ at_names s a = Some d /\ is_dirobj s d = true /\ r = Ok (f_next s + length rest) /\
       dirs_made s s' d (n :: rest) (N.lor S_IFDIR perm)).
Proof.
  intros H W En Hn Hnl. eapply wp_conseq; [apply (wp_create_dir s p perm H W)|].
  intros r s' [K|(names' & a & b & d & En' & Hn' & Hex & Eab & Hw & K)]; [left; exact K|right].
  assert (names' = names) by (eapply (abs_path_inj (f_cfg s)); first [eassumption|congruence|apply Forall_clean; eassumption|apply linux_like_posix, (gi_lin s H)]). subst names'.
  subst names. apply dir_walk_tree in Hw.
  2:{ intros pre n o rest -> Ho. destruct (is_link s o) eqn:E; [|reflexivity]. exfalso. apply (Hnl pre n o (rest ++ b)).
      split; [rewrite <- app_assoc; reflexivity|]. split; [exact Ho|exact E]. }
  destruct K as [(-> & -> & ->)|(n & rest & -> & -> & Hd & D)].
  - exfalso. rewrite app_nil_r in *. rewrite (linkfree_lexists s a d H Hw Hnl) in Hex. discriminate.
  - exists a, n, rest, d. auto.
Qed.

Lemma makedirs_spec s p mode eo names : Ginv s -> within_limits s -> c_sep (f_cfg s) = slash ->
  anp s p = abs_path (sepc s) names -> Forall (ordinary (sepc s)) names ->
  (forall pre n l rest, ~ meets_link s names pre n l rest) ->
  wp (makedirs p mode eo) s (fun r s' =>
    (exists e, r = Err e /\ unseen s s' /\ f_mounts s' = f_mounts s) \/
    (r = Ok tt /\ eo = true /\ unseen s s' /\ f_mounts s' = f_mounts s /\ exists o, resolve s' (abs_path (sepc s) names) true = Ok o /\ is_dirobj s' o = true) \/
    (r = Ok tt /\ exists a n rest d, names = a ++ n :: rest /\ at_names s a = Some d /\ is_dirobj s d = true /\
       dirs_made s s' d (n :: rest) (N.lor S_IFDIR (N.ldiff mode (f_umask s))))).
Proof.
  intros H W Hsl En Hn Hnl.
  assert (Hs : forall e, exists e', (Err e : res unit) = Err e' /\ unseen s s /\ f_mounts s = f_mounts s).
  { intros e. exists e. split; [reflexivity|]. split; [apply unseen_refl|reflexivity]. }
  unfold makedirs. wstep. destruct (str_eqb p []); [wstep; left; apply Hs|]. cbv zeta. wstep. rewrite En.
  apply wp_bind. rewrite (Ginv_mac s H), andb_false_r. wstep. cbv beta iota. wstep.
  destruct (makedirs_scan s root_oid _) as [[]|e]; [|left; apply Hs]. cbv beta iota. wstep.
  apply wp_catch. apply wp_bind. eapply wp_conseq; [apply (create_dir_spec s _ _ names H W)|].
  - rewrite make_string_path_slash by exact Hsl. apply (anp_abs_path s names (Ginv_good s H) Hn).
  - exact Hn.
  - exact Hnl.
  - intros r s' [(e & -> & Hu & Hm)|(a & n & rest & d & E1 & E2 & E3 & -> & D)]; cbv beta iota.
    + assert (He : forall e', exists e, (Err e' : res unit) = Err e /\ unseen s s' /\ f_mounts s' = f_mounts s) by (intros e'; exists e'; auto).
      destruct e as [en| | | | | | | | | |]; try (left; apply He).
      assert (Hk : wp (bad <- (if negb eo then ret true else o <- lift (fun s => resolve s (abs_path (sepc s) names) true) ;; gets (fun s => negb (is_dirobj s o))) ;;
         (if bad : bool then raise_os (match c_win (f_cfg s), en with true, ENOTDIR => ENOENT | _, _ => en end) else ret tt)) s' (fun r s'0 =>
    (exists e, r = Err e /\ unseen s s'0 /\ f_mounts s'0 = f_mounts s) \/
    (r = Ok tt /\ eo = true /\ unseen s s'0 /\ f_mounts s'0 = f_mounts s /\ exists o, resolve s'0 (abs_path (sepc s) names) true = Ok o /\ is_dirobj s'0 o = true) \/
    (r = Ok tt /\ exists a n rest d, names = a ++ n :: rest /\ at_names s a = Some d /\ is_dirobj s d = true /\
       dirs_made s s'0 d (n :: rest) (N.lor S_IFDIR (N.ldiff mode (f_umask s)))))).
      { assert (Ec : f_cfg s' = f_cfg s) by (rewrite (un_state _ _ Hu); reflexivity).
        apply wp_bind. destruct eo; cbn [negb].
        - wstep. rewrite Ec. destruct (resolve s' (abs_path (sepc s) names) true) as [o|e] eqn:Er; [|left; apply He].
          wstep. cbv beta iota. destruct (is_dirobj s' o) eqn:Ed; cbn [negb].
          + wstep. right. left. split; [reflexivity|]. split; [reflexivity|]. split; [exact Hu|]. split; [exact Hm|]. eauto.
          + wstep. left. apply He.
        - wstep. cbv beta iota. wstep. left. apply He. }
      assert (Hk2 : wp (bad <- (if negb eo then ret true else o <- lift (fun s0 => resolve s0 (abs_path (sepc s) names) true) ;; gets (fun s => negb (is_dirobj s o))) ;;
         (if bad : bool then raise_os (match c_win (f_cfg s), en with true, ENOTDIR => ENOENT | _, _ => en end) else ret tt)) s' (fun r s'0 =>
    (exists e, r = Err e /\ unseen s s'0 /\ f_mounts s'0 = f_mounts s) \/
    (r = Ok tt /\ eo = true /\ unseen s s'0 /\ f_mounts s'0 = f_mounts s /\ exists o, resolve s'0 (abs_path (sepc s) names) true = Ok o /\ is_dirobj s'0 o = true) \/
    (r = Ok tt /\ exists a n rest d, names = a ++ n :: rest /\ at_names s a = Some d /\ is_dirobj s d = true /\
       dirs_made s s'0 d (n :: rest) (N.lor S_IFDIR (N.ldiff mode (f_umask s)))))).
      { destruct eo; [|exact Hk]. unfold wp, bind, lift, gets in *. cbn [negb] in *.
        assert (Ec : f_cfg s' = f_cfg s) by (rewrite (un_state _ _ Hu); reflexivity). rewrite Ec in Hk. exact Hk. }
      destruct en; try exact Hk2; left; apply He.
    + wstep. right. right. split; [reflexivity|]. exists a, n, rest, d. auto.
Qed.
