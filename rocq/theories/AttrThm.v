(** * Attribute calls: chmod, chown, utime, extended attributes, umask, chdir. *)
From Coq Require Import RelationClasses Morphisms.
From Verif Require Import Str PathModel PathSpec FsModel FsSpec OpsModel IoModel SysModel Wp Frame IoFrame Gen LookEq.

Lemma touched_mod s o f : touched s (mod_ob s o f) o f.
Proof.
  split.
  - unfold ob, mod_ob, upd. cbn. rewrite Nat.eqb_refl. reflexivity.
  - intros x Hx. unfold ob, mod_ob, upd. cbn. destruct (Nat.eqb_spec x o); [contradiction|reflexivity].
  - destruct s; reflexivity.
Qed.
Lemma touched_same_tree s s' o f : touched s s' o f ->
  (forall x, o_name (f x) = o_name x) -> (forall x, o_body (f x) = o_body x) ->
  (forall x, S_IFMT (o_mode (f x)) = S_IFMT (o_mode x)) -> same_tree s s'.
Proof.
  intros [T1 T2 T3] Hn Hb Hm.
  assert (A : forall x, o_name (ob s' x) = o_name (ob s x) /\ o_body (ob s' x) = o_body (ob s x) /\ S_IFMT (o_mode (ob s' x)) = S_IFMT (o_mode (ob s x))).
  { intros x. destruct (Nat.eq_dec x o) as [->|Hx]; [rewrite T1; auto|rewrite (T2 x Hx); auto]. }
  split.
  - rewrite T3. reflexivity.
  - rewrite T3. reflexivity.
  - rewrite T3. reflexivity.
  - apply A.
  - intros x. unfold is_dirobj. destruct (A x) as (_ & -> & _). reflexivity.
  - intros x. unfold ents. destruct (A x) as (_ & -> & _). reflexivity.
  - intros x. apply A.
  - intros x _. apply A.
Qed.
Lemma touched_same_read s s' o f : touched s s' o f -> (forall x, o_mode (f x) = o_mode x) -> same_read s s'.
Proof. intros [T1 T2 T3] Hm x. destruct (Nat.eq_dec x o) as [->|Hx]; [rewrite T1, Hm|rewrite (T2 x Hx)]; reflexivity. Qed.
Lemma fd_object_same s s' fd : s' = set_heap s (f_heap s') -> fd_object s' fd = fd_object s fd.
Proof. intros ->. reflexivity. Qed.
Lemma touched_arg s s' o f a follow check : touched s s' o f ->
  (forall x, o_name (f x) = o_name x) -> (forall x, o_body (f x) = o_body x) -> (forall x, o_mode (f x) = o_mode x) ->
  resolve_arg s' a follow check = resolve_arg s a follow check.
Proof.
  intros T Hn Hb Hm. destruct a as [p|fd]; cbn.
  - apply look_follow; [apply (touched_same_tree s s' o f T Hn Hb); intros x; rewrite Hm; reflexivity|apply (touched_same_read s s' o f T Hm)].
  - apply fd_object_same, (to_rest _ _ _ _ T).
Qed.
Lemma chain_same s s' : (forall x, o_parent (ob s' x) = o_parent (ob s x)) -> (forall x, o_name (ob s' x) = o_name (ob s x)) ->
  forall n o, chain_names n s' o = chain_names n s o.
Proof.
  intros Hp Hn. induction n as [|n IH]; intros o; cbn; [reflexivity|]. rewrite Hp, Hn. destruct (o_parent (ob s o)); [rewrite IH|]; reflexivity.
Qed.
Lemma touched_obj_path s s' o f x : touched s s' o f -> (forall x, o_name (f x) = o_name x) -> (forall x, o_parent (f x) = o_parent x) ->
  obj_path s' x = obj_path s x.
Proof.
  intros [T1 T2 T3] Hn Hp. unfold obj_path.
  rewrite (chain_same s s').
  - rewrite T3. reflexivity.
  - intros y. destruct (Nat.eq_dec y o) as [->|Hy]; [rewrite T1; auto|rewrite (T2 y Hy); auto].
  - intros y. destruct (Nat.eq_dec y o) as [->|Hy]; [rewrite T1; auto|rewrite (T2 y Hy); auto].
Qed.
(** stat looks at the same object as before *)
Lemma touched_stat_obj s s' o f a follow : touched s s' o f ->
  (forall x, o_name (f x) = o_name x) -> (forall x, o_body (f x) = o_body x) -> (forall x, o_mode (f x) = o_mode x) ->
  (forall x, o_parent (f x) = o_parent x) ->
  stat_obj s' a follow = stat_obj s a follow.
Proof.
  intros T Hn Hb Hm Hp. unfold stat_obj. rewrite (touched_arg s s' o f a follow false T Hn Hb Hm).
  assert (TT : same_tree s s') by (apply (touched_same_tree s s' o f T Hn Hb); intros x; rewrite Hm; reflexivity).
  assert (TR : same_read s s') by (apply (touched_same_read s s' o f T Hm)).
  destruct (resolve_arg s a follow false) as [x|]; cbn; [|reflexivity].
  rewrite (lk_root s s' TT). assert (Ep : o_parent (ob s' x) = o_parent (ob s x)).
  { destruct (Nat.eq_dec x o) as [->|Hx]; [rewrite (to_obj _ _ _ _ T); auto|rewrite (to_other _ _ _ _ T x Hx); auto]. }
  rewrite Ep. destruct (negb (is_root s)); [destruct (o_parent (ob s x)) as [d|]|].
  - rewrite (touched_obj_path s s' o f d T Hn Hp). destruct (obj_path s d) as [pp|]; cbn; [|reflexivity].
    rewrite (look_get_object s s' TT (or_intror TR)). destruct (get_object s pp true); cbn; [|reflexivity].
    destruct a as [p|]; [rewrite (look_raise s s' TT (or_intror TR))|]; reflexivity.
  - cbn. destruct a as [p|]; [rewrite (look_raise s s' TT (or_intror TR))|]; reflexivity.
  - cbn. destruct a as [p|]; [rewrite (look_raise s s' TT (or_intror TR))|]; reflexivity.
Qed.

(** ** chmod *)
Lemma land_bits a b i : N.testbit (N.land a b) i = N.testbit a i && N.testbit b i.
Proof. apply N.land_spec. Qed.
Lemma perm_all_bits i : N.testbit PERM_ALL i = (i <? 12)%N.
Proof. unfold PERM_ALL. change 4095%N with (N.ones 12). destruct (N.ltb_spec i 12); [apply N.ones_spec_low; assumption|apply N.ones_spec_high; assumption]. Qed.
Lemma chmod_bits c old m i : c_win c = false ->
  N.testbit (chmod_mode c old m) i = if (i <? 12)%N then N.testbit m i else N.testbit old i.
Proof.
  intros E. unfold chmod_mode. rewrite E, N.lor_spec, N.ldiff_spec, N.land_spec, perm_all_bits.
  destruct (i <? 12)%N; cbn [negb]; [rewrite andb_false_r, andb_true_r; reflexivity|rewrite andb_true_r, andb_false_r, orb_false_r; reflexivity].
Qed.
Lemma bits_type a b : (forall i, (12 <= i)%N -> (i < 16)%N -> N.testbit a i = N.testbit b i) -> S_IFMT a = S_IFMT b.
Proof.
  intros H. unfold S_IFMT. apply N.bits_inj. intros i. rewrite !N.land_spec. destruct (N.ltb_spec i 12) as [Hi|Hi].
  - assert (E : N.testbit S_IFMT_mask i = false); [|rewrite E, !andb_false_r; reflexivity].
    unfold S_IFMT_mask. change 61440%N with (N.shiftl 15 12). apply N.shiftl_spec_low. exact Hi.
  - destruct (N.ltb_spec i 16) as [Hj|Hj]; [rewrite (H i Hi Hj); reflexivity|].
    assert (E : N.testbit S_IFMT_mask i = false); [|rewrite E, !andb_false_r; reflexivity].
    unfold S_IFMT_mask. apply N.bits_above_log2. change (N.log2 61440) with 15%N. lia.
Qed.
Lemma small_bits i : (i < 18)%N -> i = 0%N \/ i = 1%N \/ i = 2%N \/ i = 3%N \/ i = 4%N \/ i = 5%N \/ i = 6%N \/ i = 7%N \/ i = 8%N \/
  i = 9%N \/ i = 10%N \/ i = 11%N \/ i = 12%N \/ i = 13%N \/ i = 14%N \/ i = 15%N \/ i = 16%N \/ i = 17%N.
Proof. lia. Qed.
Lemma has_write_bit m : has_bit m PERM_WRITE = N.testbit m 7.
Proof.
  unfold has_bit, PERM_WRITE. change 128%N with (2 ^ 7)%N. destruct (N.testbit m 7) eqn:E.
  - destruct (N.eqb_spec (N.land m (2 ^ 7)) 0) as [K|]; [|reflexivity].
    assert (K2 : N.testbit (N.land m (2 ^ 7)) 7 = N.testbit 0 7) by (rewrite K; reflexivity).
    rewrite N.land_spec, E, N.pow2_bits_true in K2. discriminate.
  - destruct (N.eqb_spec (N.land m (2 ^ 7)) 0) as [K|K]; [reflexivity|]. exfalso. apply K. apply N.bits_inj. intros i.
    rewrite N.land_spec, N.bits_0. destruct (N.eq_dec i 7) as [->|Hi]; [rewrite E; reflexivity|]. rewrite N.pow2_bits_false by congruence. apply andb_false_r.
Qed.
(** Windows: only the write bits (1, 4 and 7) follow the owner's write bit *)
Lemma chmod_bits_win c old m i : c_win c = true -> (i < 18)%N ->
  N.testbit (chmod_mode c old m) i = if N.eqb i 1 || N.eqb i 4 || N.eqb i 7 then N.testbit m 7 else N.testbit old i.
Proof.
  intros E Hi. unfold chmod_mode. rewrite E, has_write_bit. destruct (N.testbit m 7).
  - rewrite N.lor_spec. destruct (small_bits i Hi) as [->|[->|[->|[->|[->|[->|[->|[->|[->|[->|[->|[->|[->|[->|[->|[->|[->| ->]]]]]]]]]]]]]]]]];
      cbn [N.eqb Pos.eqb orb N.testbit Pos.testbit]; rewrite ?orb_true_r, ?orb_false_r; reflexivity.
  - rewrite N.land_spec. destruct (small_bits i Hi) as [->|[->|[->|[->|[->|[->|[->|[->|[->|[->|[->|[->|[->|[->|[->|[->|[->| ->]]]]]]]]]]]]]]]]];
      cbn [N.eqb Pos.eqb orb N.testbit Pos.testbit]; rewrite ?andb_true_r, ?andb_false_r; reflexivity.
Qed.

(** ** Extended attributes: keys are distinct in every reachable state *)
Definition xkeys (s : fs) : Prop := forall o, NoDup (map fst (o_xattr (ob s o))).
Lemma xk_mod_obj o f : (forall x, o_xattr (f x) = o_xattr x \/ (NoDup (map fst (o_xattr x)) -> NoDup (map fst (o_xattr (f x))))) ->
  keeps (kept_by xkeys) (mod_obj o f).
Proof.
  intros H s K x. unfold mod_obj, modify. cbn [snd]. destruct (touched_mod s o f) as [T1 T2 _].
  destruct (Nat.eq_dec x o) as [->|Hx]; [rewrite T1; destruct (H (ob s o)) as [E|E]; [rewrite E; apply K|apply E, K]|rewrite (T2 x Hx); apply K].
Qed.
Lemma xk_heap f : (forall s, f_heap (f s) = f_heap s) -> keeps (kept_by xkeys) (modify f).
Proof. intros H s K x. unfold modify, ob. cbn [snd]. rewrite H. apply K. Qed.
Lemma xk_same s s' : f_heap s' = f_heap s -> kept_by xkeys s s'.
Proof. intros H K x. unfold ob. rewrite H. apply K. Qed.
Lemma xk_alloc n m b : keeps (kept_by xkeys) (alloc n m b).
Proof. intros s K x. unfold alloc, ob, upd. cbn. destruct (Nat.eqb_spec x (f_next s)); [constructor|apply K]. Qed.
Lemma xk_cdu z d : keeps (kept_by xkeys) (change_disk_usage z d).
Proof.
  intros s. apply xk_same. unfold change_disk_usage. destruct (mount_for_dev _ _) as [m|]; [|reflexivity].
  destruct (m_total m); [destruct (_ <? _)%Z|]; reflexivity.
Qed.
Ltac xk_body := let y := fresh "y" in intros y; left; cbn; try (destruct (o_body y)); reflexivity.
Ltac xk := kr; try first [apply xk_cdu|apply xk_alloc|apply xk_heap; reflexivity|apply xk_mod_obj; xk_body].
Lemma xk_rm_loop rm : (forall n, keeps (kept_by xkeys) (rm n)) -> forall k e, keeps (kept_by xkeys) (rm_loop rm k e).
Proof. intros H. induction k as [|k IH]; intros e; cbn [rm_loop]; xk; [apply H|apply IH]. Qed.
Lemma xk_remove_entry_n fuel : forall d n r, keeps (kept_by xkeys) (remove_entry_n fuel d n r).
Proof. induction fuel as [|f IH]; intros d n r; cbn [remove_entry_n]; unfold unlink_obj; xk. apply xk_rm_loop. intros m. apply IH. Qed.
Lemma nodup_set {A} k (v : A) l : NoDup (map fst l) -> NoDup (map fst (set_assoc k v l)).
Proof.
  induction l as [|[k1 v1] l IH]; cbn; intros H; [constructor; [intros []|constructor]|]. inversion_clear H as [|? ? H1 H2].
  destruct (str_eqb_spec k k1) as [->|Hk]; cbn; constructor; auto. intros K. apply in_map_iff in K. destruct K as [[k2 v2] [E K]]. cbn in E. subst k2.
  assert (K2 : In (k1, v2) l \/ (k1 = k /\ v2 = v)).
  { clear -K. induction l as [|[k3 v3] l IH]; cbn in *; [destruct K as [E|[]]; injection E; auto|].
    destruct (str_eqb_spec k k3) as [->|]; cbn in K; destruct K as [E|K]; try (injection E as <- <-); auto. destruct (IH K); auto. }
  destruct K2 as [K2|[K2 _]]; [apply H1, (in_map fst _ _ K2)|congruence].
Qed.
Lemma nodup_del {A} k (l : list (str * A)) : NoDup (map fst l) -> NoDup (map fst (del_assoc k l)).
Proof.
  induction l as [|[k1 v1] l IH]; cbn; intros H; [constructor|]. inversion_clear H as [|? ? H1 H2].
  destruct (str_eqb_spec k k1); [assumption|]. cbn. constructor; auto. intros K. apply in_map_iff in K. destruct K as [[k2 v2] [E K]].
  apply H1. cbn in E. subst k2. apply in_del_assoc in K. apply (in_map fst _ _ K).
Qed.
Lemma assoc_del_same {A} k (l : list (str * A)) : NoDup (map fst l) -> assoc k (del_assoc k l) = None.
Proof.
  induction l as [|[k1 v1] l IH]; cbn; intros H; [reflexivity|]. inversion_clear H as [|? ? H1 H2].
  destruct (str_eqb_spec k k1) as [->|Hk]; [apply assoc_None, H1|]. cbn. destruct (str_eqb_spec k k1); [contradiction|auto].
Qed.
Lemma xk_prims : fs_prims (kept_by xkeys) (fun _ => True) True True.
Proof.
  split; [split|..].
  - intros n m. apply xk_alloc.
  - intros n m. apply xk_alloc.
  - intros d o. unfold add_entry, link_obj. xk.
  - intros d n r s. apply (xk_remove_entry_n (S (f_next s)) d n r s).
  - intros _ o n. unfold set_size. xk. apply xk_mod_obj. intros y. left. destruct data as [[|]|]; reflexivity.
  - intros o c. unfold set_initial_contents, set_size. xk. apply xk_mod_obj. intros y. left. destruct data as [[|]|]; reflexivity.
  - intros _ o n. unfold set_large_file_size, set_size. xk. apply xk_mod_obj. intros y. left. destruct data as [[|]|]; reflexivity.
  - intros o n. xk.
  - intros o n. xk.
  - apply (register_from _ _ _); [exact I| |].
    + intros p d t _. xk.
    + xk.
  - xk.
  - intros i. xk.
  - intros o. any_dev. xk.
  - intros o c m t. xk.
  - intros o f Hf. apply xk_mod_obj. intros x. left. rewrite (Hf x). reflexivity.
  - intros s s' H. apply xk_same. rewrite H. reflexivity.
  - intros s s' H. apply xk_same. rewrite H. reflexivity.
  - intros o f Hf. apply xk_mod_obj. intros x. left. rewrite (Hf x). reflexivity.
  - intros o k v. apply xk_mod_obj. intros x. right. cbn. apply nodup_set.
  - intros o k. apply xk_mod_obj. intros x. right. cbn. apply nodup_del.
Qed.
Lemma reachable_xkeys c s : reachable c s -> xkeys s.
Proof.
  apply (gen_reachable xkeys xk_prims); [intros k m; xk|].
  intros total um uid gid now o. unfold init, ob. cbn. destruct (o =? root_oid); [constructor|]. destruct (o =? devnull_oid); constructor.
Qed.

(** ** Who changes owners and extended attributes *)
Definition attrs_kept (s s' : fs) : Prop :=
  f_next s <= f_next s' /\
  forall o, o < f_next s -> o_uid (ob s' o) = o_uid (ob s o) /\ o_gid (ob s' o) = o_gid (ob s o) /\ o_xattr (ob s' o) = o_xattr (ob s o).
Global Instance attrs_kept_pre : PreOrder attrs_kept.
Proof.
  split; [intros s; split; auto|]. intros a b c [H1 H2] [K1 K2]. split; [lia|]. intros o Ho.
  destruct (K2 o ltac:(lia)) as (-> & -> & ->). apply (H2 o Ho).
Qed.
Lemma ak_same s s' : f_heap s' = f_heap s -> f_next s' = f_next s -> attrs_kept s s'.
Proof. intros H K. split; [lia|]. intros o _. unfold ob. rewrite H. auto. Qed.
Lemma ak_mod_obj o f : (forall x, o_uid (f x) = o_uid x /\ o_gid (f x) = o_gid x /\ o_xattr (f x) = o_xattr x) -> keeps attrs_kept (mod_obj o f).
Proof.
  intros H s. split; [reflexivity|]. intros x _. unfold mod_obj, modify. cbn [snd]. destruct (touched_mod s o f) as [T1 T2 _].
  destruct (Nat.eq_dec x o) as [->|Hx]; [rewrite T1; apply H|rewrite (T2 x Hx); auto].
Qed.
Lemma ak_heap f : (forall s, f_heap (f s) = f_heap s) -> (forall s, f_next (f s) = f_next s) -> keeps attrs_kept (modify f).
Proof. intros H K s. apply ak_same; unfold modify; cbn [snd]; auto. Qed.
Lemma ak_alloc n m b : keeps attrs_kept (alloc n m b).
Proof.
  intros s. unfold alloc. split; [cbn; lia|]. intros x Hx. unfold ob, upd. cbn.
  destruct (Nat.eqb_spec x (f_next s)); [lia|auto].
Qed.
Lemma ak_cdu z d : keeps attrs_kept (change_disk_usage z d).
Proof.
  intros s. unfold change_disk_usage. destruct (mount_for_dev _ _) as [m|]; [|reflexivity].
  destruct (m_total m); [destruct (_ <? _)%Z|]; apply ak_same; reflexivity.
Qed.
Ltac ak_body := let y := fresh "y" in intros y; cbn; try (destruct (o_body y)); auto.
Ltac ak := kr; try first [apply ak_cdu|apply ak_alloc|apply ak_heap; reflexivity|apply ak_mod_obj; ak_body].
Lemma ak_rm_loop rm : (forall n, keeps attrs_kept (rm n)) -> forall k e, keeps attrs_kept (rm_loop rm k e).
Proof. intros H. induction k as [|k IH]; intros e; cbn [rm_loop]; ak; [apply H|apply IH]. Qed.
Lemma ak_remove_entry_n fuel : forall d n r, keeps attrs_kept (remove_entry_n fuel d n r).
Proof. induction fuel as [|f IH]; intros d n r; cbn [remove_entry_n]; unfold unlink_obj; ak. apply ak_rm_loop. intros m. apply IH. Qed.
Lemma ak_core : fs_core attrs_kept (fun _ => True) True True.
Proof.
  split.
  - intros n m. apply ak_alloc.
  - intros n m. apply ak_alloc.
  - intros d o. unfold add_entry, link_obj. ak.
  - intros d n r s. apply (ak_remove_entry_n (S (f_next s)) d n r s).
  - intros _ o n. unfold set_size. ak; destruct data as [[|]|]; auto.
  - intros o c. unfold set_initial_contents, set_size. ak; destruct data as [[|]|]; auto.
  - intros _ o n. unfold set_large_file_size, set_size. ak; destruct data as [[|]|]; auto.
  - intros o n. ak.
  - intros o n. ak.
  - apply (register_from _ _ _); [exact I| |].
    + intros p d t _. ak.
    + ak.
  - ak.
  - intros i. ak.
  - intros o. any_dev. ak.
  - intros o c m t. ak.
  - intros o f Hf. apply ak_mod_obj. intros x. rewrite (Hf x). auto.
  - intros s s' H. apply ak_same; rewrite H; reflexivity.
  - intros s s' H. apply ak_same; rewrite H; reflexivity.
Qed.
Lemma ak_step o : attr_call o = false -> keeps attrs_kept (step o).
Proof.
  intros H. destruct o; try discriminate H; try (apply (gen_core_step _ _ _ ak_core); [intros; exact I|intros; exact I|intros; exact I|discriminate|reflexivity]).
  cbn [step]. apply gn_outm. apply (gen_set_usage _ _ _ ak_core). intros k m. ak.
Qed.
