(** * Creating over an existing name; running out of space; removing trees. *)
From Verif Require Export OpsThm3.

(** ** EEXIST *)
Lemma create_file_eexist s p mode c sz md um : exists_ s (anp s (make_string_path (f_cfg s) p)) true = Ok true ->
  create_file p mode c sz md um s = (os_err EEXIST, s).
Proof. intros E. unfold create_file, create_file_internally, bind, gets, lift. rewrite E. reflexivity. Qed.
Lemma create_dir_eexist s p perm : c_win (f_cfg s) = false -> exists_ s (anp s (make_string_path (f_cfg s) p)) true = Ok true ->
  create_dir p perm s = (os_err EEXIST, s).
Proof. intros Hw E. unfold create_dir, create_dir_n, create_dir_body, auto_mount, bind, gets, lift, ret. rewrite Hw, E. reflexivity. Qed.
Lemma create_link_eexist s old new f md : exists_ s (anp s new) true = Ok true ->
  create_link old new f md s = (os_err EEXIST, s).
Proof. intros E. unfold create_link, bind, gets, lift. rewrite E. reflexivity. Qed.

Lemma last_sep_eq (sp : ascii) m u : ~ In sp m -> ~ In sp u -> forall a t, a ++ sp :: m = t ++ sp :: u -> m = u.
Proof.
  intros Hm Hu. induction a as [|x a IH]; intros [|y t] E; cbn in E; inversion E; subst.
  - reflexivity.
  - exfalso. apply Hm. apply in_elt.
  - exfalso. apply Hu. apply in_elt.
  - eapply IH. eassumption.
Qed.
Lemma abs_no_up sp names : sp <> dotc -> Forall (ordinary sp) names -> ends_with [sp; dotc; dotc] (abs_path sp names) = false.
Proof.
  intros Hs Hn. destruct (ends_with _ _) eqn:E; [|reflexivity]. exfalso. unfold ends_with in E.
  apply starts_with_spec in E. destruct E as [t E]. apply (f_equal (@rev ascii)) in E. rewrite rev_involutive, rev_app_distr, rev_involutive in E.
  destruct names as [|n names _] using rev_ind.
  - cbn in E. apply (f_equal (@length ascii)) in E. rewrite app_length in E. cbn in E. lia.
  - apply ordinary_last in Hn. destruct Hn as [_ (Hne & Hd & Hdd & Hi)].
    assert (K : n = L "..").
    { destruct (list_eq_dec (list_eq_dec ascii_dec) names []) as [->|Hne2].
      - apply (last_sep_eq sp n (L "..") Hi) with (a := []) (t := rev t); [|exact E]. cbn. intros [K|[K|[]]]; apply Hs; symmetry; exact K.
      - rewrite abs_path_snoc in E by exact Hne2.
        apply (last_sep_eq sp n (L "..") Hi) with (a := abs_path sp names) (t := rev t); [|exact E]. cbn. intros [K|[K|[]]]; apply Hs; symmetry; exact K. }
    contradiction.
Qed.

(** the parent of an existing name exists *)
Lemma lexists_parent s pre n : Ginv s -> Forall (ordinary (sepc s)) (pre ++ [n]) -> ~ is_null s (pre ++ [n]) ->
  exists_ s (abs_path (sepc s) (pre ++ [n])) true = Ok true -> exists_ s (abs_path (sepc s) pre) false = Ok true.
Proof.
  intros H Hn Hnn E. destruct (ordinary_last _ _ _ Hn) as [Hpre Hno].
  destruct (is_null_dec s pre) as [Hnp|Hnp]; [apply exists_null; [apply Hnp|discriminate]|].
  assert (Kex : exists_ s (abs_path (sepc s) (pre ++ [n])) false = Ok true -> exists_ s (abs_path (sepc s) pre) false = Ok true).
  { intros K. apply (exists_names s (Ginv_good s H) _ _ Hn) in K. destruct K as [K|(rr & o & Er & Hc & Hat)].
    - exfalso. apply Hnn. split; [destruct pre; discriminate|exact K].
    - destruct (rp_parent s H pre n rr o Hn Hc Hnn Hnp Er Hat) as (r' & d & x & Er' & Hc' & Hat' & _).
      apply (exists_of_rp s H pre r' d Hpre Hc' Er' Hat'). }
  destruct (islink s (abs_path (sepc s) (pre ++ [n]))) as [[|]|e] eqn:El.
  - apply (islink_iff s pre n H Hn) in El. destruct El as (d & o & Hr & K0).
    unfold resolve in Hr. apply (resolve_ok s (Ginv_good s H)) in Hr. destruct Hr as (rr & Er & Hc & [[_ ->]|(_ & Hat & _)]).
    + exfalso. destruct K0 as (_ & He & _). apply entry_dirobj in He. rewrite (gi_null s H) in He. discriminate.
    + apply (exists_of_rp s H pre rr d Hpre Hc Er Hat).
  - apply Kex. unfold exists_, exists_body in E |- *. unfold islink, is_of_type in El. rewrite El in E. exact E.
  - exfalso. unfold exists_, exists_body in E. unfold islink, is_of_type in El. rewrite El in E. discriminate.
Qed.

Lemma makedir_eexist s names mode : Ginv s -> names <> [] -> Forall (ordinary (sepc s)) names -> ~ is_null s names ->
  exists_ s (abs_path (sepc s) names) true = Ok true ->
  makedir (abs_path (sepc s) names) mode s = (os_err EEXIST, s).
Proof.
  intros H Hne Hn Hnn E. pose proof (Ginv_good s H) as Hg. pose proof (gi_lin s H) as Hl.
  unfold makedir. unfold bind at 1. unfold gets at 1. cbv beta iota zeta.
  unfold path_without_trailing_separators. rewrite (strip_seps_clean s Hg) by (apply Forall_clean, Hn).
  change (str_eqb (abs_path (sepc s) names) []) with false. cbv iota. rewrite (Ginv_win s H), (Ginv_mac s H).
  unfold bind at 1. unfold gets at 1. cbv beta iota.
  destruct (names_cases names) as [->|(pre & n & ->)]; [congruence|].
  rewrite (splitpath_abs_path _ (linux_like_posix _ Hl) _ _ Hn). cbn [fst snd].
  destruct (ordinary_last _ _ _ Hn) as [Hpre Hno].
  change (str_eqb (abs_path (sepc s) pre) []) with false. cbn [negb]. cbv iota.
  rewrite (abs_no_up (sepc s) pre (ll_sep _ Hl) Hpre). cbn [andb]. cbv iota.
  rewrite (normpath_fix _ (linux_like_posix _ Hl)) by (apply abs_path_canonical, Hpre).
  unfold bind at 1. unfold bind at 1. unfold lift at 1. rewrite (lexists_parent s pre n H Hn Hnn E). cbn [negb]. cbv beta iota. unfold ret at 1. cbv beta iota.
  unfold bind at 1. unfold gets at 1. cbv beta iota. rewrite (anp_abs_path s _ Hg Hn).
  unfold bind at 1. unfold lift at 1. rewrite E. cbv beta iota. rewrite andb_false_r. cbn [andb].
  unfold bind at 1. unfold bind at 1. unfold ret at 1. cbv beta iota. reflexivity.
Qed.

Lemma norm_walk_tree s rl check : Ginv s -> forall names d x, tree_at s d names = Some x ->
  (forall pre rest x, names = pre ++ rest -> tree_at s d pre = Some x -> is_link s x = false) ->
  norm_walk rl s check d names <> Err AttrErr.
Proof.
  intros H. pose proof (gi_lin s H) as Hl. induction names as [|n names IH]; intros d x Hx Hnl; cbn [norm_walk]; [discriminate|].
  fold (is_link s d). rewrite (Hnl [] (n :: names) d eq_refl eq_refl). cbn [rbind].
  destruct (S_ISDIR (o_mode (ob s d))); cbn [negb]; [|discriminate].
  cbn [tree_at] in Hx. rewrite (get_entry_cs s d n (Ginv_cs s H)). destruct (entry s d n) as [y|] eqn:En; [|discriminate].
  rewrite (entry_dirobj s d n y En). destruct (negb (is_root s) && check && negb _); [discriminate|].
  apply (IH y x Hx). intros pre rest z -> Hz. apply (Hnl (n :: pre) rest z eq_refl). simpl. rewrite En. exact Hz.
Qed.
Lemma linkfree_no_attr s rr o c : Ginv s -> at_names s rr = Some o ->
  (forall pre n l rest, ~ meets_link s rr pre n l rest) -> resolve s (abs_path (sepc s) rr) c <> Err AttrErr.
Proof.
  intros H Hat Hnl E. assert (Hor := at_names_ordinary s H rr root_oid o Hat).
  pose proof (linkfree_resolve_path s H (length rr) rr o (le_n _) Hat Hnl) as Er.
  unfold resolve, resolve_ in E. unfold resolve_path in Er. rewrite Er in E. cbn [rbind] in E.
  unfold get_norm in E. rewrite (abs_path_root_eq _ _ (Forall_clean _ _ Hor)) in E.
  rewrite (original_path_cs s _ (Ginv_cs s H)), (path_components_clean _ (gi_lin s H) _ (Forall_clean _ _ Hor)) in E.
  destruct rr as [|n rr]; [discriminate|]. destruct (str_eqb _ _); [discriminate|]. revert E.
  apply (norm_walk_tree s _ _ H _ _ o Hat). apply (nolink_prefixes s (Ginv_good s H)), Hnl.
Qed.
Lemma linkfree_lexists s rr o : Ginv s -> at_names s rr = Some o ->
  (forall pre n l rest, ~ meets_link s rr pre n l rest) -> exists_ s (abs_path (sepc s) rr) true = Ok true.
Proof.
  intros H Hat Hnl. pose proof (Ginv_good s H) as Hg. assert (Hor := at_names_ordinary s H rr root_oid o Hat).
  assert (E2 : exists_ s (abs_path (sepc s) rr) false = Ok true).
  { apply (exists_of_rp s H rr rr o Hor (Forall_clean _ _ Hor)); [|exact Hat]. apply (linkfree_resolve_path s H (length rr) rr o (le_n _) Hat Hnl). }
  unfold exists_, exists_body in E2 |- *.
  destruct (is_of_type_ (exists_top s) s (abs_path (sepc s) rr) S_IFLNK false) as [[|]|e] eqn:K; [reflexivity|exact E2|].
  exfalso. pose proof (lookup_ok_type s H _ _ _ _ K) as ->.
  destruct rr as [|n rr _] using rev_ind.
  { unfold is_of_type_, resolve_any in K. rewrite (lresolve_root s) in K by assumption. cbn [rbind] in K.
    unfold raise_for_sep_ in K. destruct (ends_with_path_separator _ _); [|discriminate].
    fold (is_link s root_oid) in K. rewrite (gd_dnl s Hg _ (gd_root s Hg)) in K.
    repeat match type of K with context [if ?b then _ else _] => destruct b end; discriminate. }
  unfold is_of_type_, resolve_any in K. destruct (lresolve_ (exists_top s) s (abs_path (sepc s) (rr ++ [n]))) as [x|e] eqn:El; cbn [rbind] in K.
  { unfold raise_for_sep_ in K. rewrite (ends_sep_clean _ (gi_lin s H)) in K by (apply Forall_clean, Hor). discriminate. }
  assert (e = AttrErr) by (destruct e; congruence). subst e. clear K.
  pose proof (linkfree_prefix s rr [n] Hnl) as Hnl'.
  unfold at_names in Hat. rewrite tree_at_app in Hat. destruct (tree_at s root_oid rr) as [d|] eqn:Ed; [|discriminate].
  unfold lresolve_ in El. change (str_eqb (abs_path (sepc s) (rr ++ [n])) []) with false in El. cbv iota in El.
  rewrite (abs_path_root_eq _ _ (Forall_clean _ _ Hor)) in El.
  replace (match rr ++ [n] with [] => true | _ :: _ => false end) with false in El by (destruct rr; reflexivity).
  unfold path_without_trailing_separators in El. rewrite (strip_seps_clean s Hg _ _ (Forall_clean _ _ Hor)), abs_path_not_dot in El by assumption.
  rewrite (original_path_cs s _ (Ginv_cs s H)), (splitpath_abs_path _ (linux_like_posix _ (gi_lin s H)) _ _ Hor) in El. cbv beta iota zeta in El.
  change (str_eqb (abs_path (sepc s) rr) []) with false in El. cbv iota in El.
  destruct (resolve_ (exists_top s) s (abs_path (sepc s) rr) true) as [dd|e] eqn:Er; cbn [rbind] in El.
  - rewrite (get_entry_cs s dd n (Ginv_cs s H)) in El. destruct (is_dirobj s dd); cbn [negb] in El; [|discriminate].
    destruct (has_bit _ _); cbn [negb] in El; [|discriminate]. destruct (str_eqb n []); [discriminate|]. destruct (entry s dd n); discriminate.
  - injection El as ->. revert Er. apply (linkfree_no_attr s rr d true H Ed Hnl').
Qed.

Lemma symlink_eexist s names t : Ginv s -> c_sep (f_cfg s) = slash -> names <> [] -> Forall (ordinary (sepc s)) names -> ~ is_null s names ->
  exists_ s (abs_path (sepc s) names) true = Ok true ->
  create_symlink (abs_path (sepc s) names) t false s = (os_err EEXIST, s).
Proof.
  intros H Hsl Hne Hn Hnn E. pose proof (Ginv_good s H) as Hg. pose proof (gi_lin s H) as Hl.
  assert (Hcf : forall q mode c, exists_ s (anp s q) true = Ok true -> create_file_internally q mode c None false false s = (os_err EEXIST, s)).
  { intros q mode c K. apply (create_file_eexist s q mode c None false false). rewrite make_string_path_slash by exact Hsl. exact K. }
  unfold create_symlink. unfold bind at 1. unfold gets at 1. cbv beta iota zeta.
  rewrite (normcase_id _ (linux_like_posix _ Hl)), !make_string_path_slash by exact Hsl.
  rewrite (ends_sep_clean _ Hl) by (apply Forall_clean, Hn). unfold bind at 1. unfold ret at 1. cbv beta iota.
  unfold bind at 1. unfold lift at 1.
  assert (Ean := anp_abs_path s names Hg Hn).
  destruct (islink s (abs_path (sepc s) names)) as [[|]|e] eqn:El; cbv beta iota.
  - unfold bind at 1. unfold ret at 1. cbv beta iota. apply Hcf. rewrite Ean. exact E.
  - assert (E2 : exists_ s (abs_path (sepc s) names) false = Ok true).
    { unfold exists_, exists_body in E |- *. unfold islink, is_of_type in El. rewrite El in E. exact E. }
    unfold bind at 1. unfold lift at 1.
    assert (Hq : exists q, resolve_path s (abs_path (sepc s) names) = Ok q /\ exists_ s (anp s q) true = Ok true).
    { apply (exists_names s Hg _ _ Hn) in E2. destruct E2 as [K|(rr & o & Er & Hc & Hat)].
      - exfalso. apply Hnn. split; assumption.
      - exists (abs_path (sepc s) rr). split; [exact Er|].
        assert (Hor := at_names_ordinary s H rr root_oid o Hat). rewrite (anp_abs_path s rr Hg Hor).
        destruct (rp_names s H names rr Hn Hc Er) as [_ [[K _]|[_ (k & Hk & Hres)]]]; [contradiction|].
        apply (linkfree_lexists s rr o H Hat). apply (resolves_nolink s k names rr Hres). }
    destruct Hq as (q & -> & Kq). cbv beta iota. apply Hcf. exact Kq.
  - exfalso. unfold exists_, exists_body in E. unfold islink, is_of_type in El. rewrite El in E. discriminate.
Qed.

Lemma resolve_alloc_fwd s nm mode b p d c : Ginv s -> b = BDir [] \/ (exists x, b = BFile x) -> (b = BDir [] -> has_bit mode S_IFDIR = true) ->
  d <> devnull_oid -> resolve s p c = Ok d -> resolve (snd (alloc nm mode b s)) p c = Ok d.
Proof.
  intros H Hb Hm Hd E. apply (ext_resolve s (snd (alloc nm mode b s))); try assumption.
  - apply Ginv_good, H.
  - apply Ginv_good, Ginv_alloc; assumption.
  - assert (Hents : forall o, ents (snd (alloc nm mode b s)) o = ents s o) by (intros o; apply ents_alloc; [exact Hb|apply (gi_new s H)]).
    assert (Hat : forall names o, at_names s names = Some o -> o <> f_next s).
    { intros names o K. pose proof (at_names_lt s names o H K). lia. }
    assert (Hold : forall x, x <> f_next s -> ob (snd (alloc nm mode b s)) x = ob s x).
    { intros x Hx. rewrite ob_alloc. destruct (Nat.eqb_spec x (f_next s)); [contradiction|reflexivity]. }
    constructor; try reflexivity.
    + unfold devnull_name. rewrite Hold; [reflexivity|]. pose proof (gi_next s H). unfold devnull_oid. lia.
    + intros e n o. unfold entry. rewrite Hents. auto.
    + intros names o K. rewrite (Hold o (Hat _ _ K)). reflexivity.
    + intros names o data K Eb. rewrite <- Eb, (Hold o (Hat _ _ K)). reflexivity.
Qed.

(** ** When the space does not suffice *)
Lemma add_object_root s p n mode d : Ginv s -> within_limits s -> is_root s = true -> p <> [] ->
  resolve s p true = Ok d -> is_dirm s d = true -> is_dirobj s d = true -> entry s d n = None ->
  exists s1, add_object p (f_next s) (snd (alloc n mode (BFile None) s)) = (Ok tt, s1).
Proof.
  intros H W Hroot Hp Hr Hdm Hd He. set (s2 := snd (alloc n mode (BFile None) s)).
  assert (Hdlt := dirobj_lt s d H Hd). assert (Hdn : d <> f_next s) by lia.
  assert (Hd0 : d <> devnull_oid) by (intros ->; rewrite (gi_null s H) in Hd; discriminate).
  assert (Hr2 : resolve s2 p true = Ok d) by (apply resolve_alloc_fwd; auto; [eauto|discriminate]).
  assert (Eod : ob s2 d = ob s d) by (unfold s2; rewrite ob_alloc; destruct (Nat.eqb_spec d (f_next s)); [contradiction|reflexivity]).
  assert (Eon : ob s2 (f_next s) = fresh_obj s n mode (BFile None)) by (unfold s2; rewrite ob_alloc, Nat.eqb_refl; reflexivity).
  assert (K : wp (add_object p (f_next s)) s2 (fun r _ => r = Ok tt)).
  { unfold add_object. destruct (str_eqb_spec p []); [contradiction|]. apply wp_bind. wstep. rewrite Hr2. wstep. wstep.
    rewrite Eod. unfold is_dirm in Hdm. rewrite Hdm. cbn [negb]. wstep. cbv beta iota.
    unfold add_entry. wstep. unfold is_dirobj in Hd |- *. rewrite Eod. destruct (o_body (ob s d)) as [es|] eqn:Eb; [|discriminate]. cbn [negb].
    wstep. assert (Hroot2 : is_root s2 = true) by exact Hroot. rewrite Hroot2. cbn [negb andb].
    wstep. rewrite Eon. change (o_name (fresh_obj s n mode (BFile None))) with n. unfold ents. rewrite Eod.
    unfold entry, ents in He. rewrite Eb in He. rewrite Eb, He.
    assert (Hd2 : is_dirobj s2 d = true) by (unfold is_dirobj; rewrite Eod, Eb; reflexivity).
    destruct (link_obj_spec s2 d (f_next s) Hdn Hd2) as (s3 & E3 & HL). apply wp_bind. unfold wp at 1. rewrite E3. cbn [fst snd].
    wstep. destruct (Z.eqb _ 1); [|wstep; reflexivity]. wstep. wstep.
    destruct (ln_o _ _ _ _ _ HL) as (i & Eo & _).
    assert (Ez : obj_size (S (f_next s3)) s3 (f_next s) = 0%Z).
    { cbn [obj_size]. rewrite Eo, Eon. cbn. unfold st_size. rewrite Eo, Eon. cbn. destruct (_ && _); reflexivity. }
    rewrite Ez. unfold wp. rewrite (cdu_zero s3 _ (linked_limits _ _ _ _ _ HL W)). reflexivity. }
  unfold wp in K. destruct (add_object p (f_next s) s2) as [r s1] eqn:E. cbn in K. subst r. eauto.
Qed.

Lemma create_file_space s p mode c sz um pre n d r s' : Ginv s -> within_limits s -> is_root s = true ->
  make_path_names s p pre n -> resolve s (abs_path (sepc s) pre) true = Ok d -> is_dirm s d = true -> is_dirobj s d = true ->
  entry s d n = None -> exists_ s (abs_path (sepc s) (pre ++ [n])) true = Ok false ->
  create_file p mode c sz false um s = (r, s') ->
  (no_space s d (file_size c sz) /\ r = os_err ENOSPC /\ unseen s s') \/
  (~ no_space s d (file_size c sz) /\ exists o, r = Ok o).
Proof.
  intros H W Hroot [Ea Hn] Hr Hdm Hd He Hex E. pose proof (Ginv_good s H) as Hg. pose proof (gi_lin s H) as Hl.
  destruct (ordinary_last _ _ _ Hn) as [Hpre Hno].
  assert (Hok : wp (create_file_internally p mode c sz false um) s (fun r s' => (no_space s d (file_size c sz) /\ r = os_err ENOSPC /\ unseen s s') \/
  (~ no_space s d (file_size c sz) /\ exists o, r = Ok o))).
  { unfold create_file_internally. wstep. rewrite Ea. wstep. rewrite Hex. cbv iota. wstep.
    rewrite (splitpath_abs_path _ (linux_like_posix _ Hl) _ _ Hn). cbn [fst snd]. wstep.
    change (str_eqb (abs_path (sepc s) pre) []) with false. cbv iota. apply wp_bind.
    unfold auto_mount_drive, auto_mount. wstep. rewrite (Ginv_win s H). wstep. cbv beta iota. wstep.
    assert (Hpe : exists_ s (abs_path (sepc s) pre) false = Ok true).
    { unfold resolve in Hr. apply (resolve_ok s Hg) in Hr. destruct Hr as (rr & Er & Hc & [[_ ->]|(_ & Hat & _)]).
      - rewrite (gi_null s H) in Hd. discriminate.
      - apply (exists_of_rp s H pre rr d Hpre Hc Er Hat). }
    rewrite Hpe. apply wp_bind. cbn [negb]. wstep. cbv beta iota. rewrite (original_path_cs s _ (Ginv_cs s H)). wstep.
    eapply wp_conseq; [apply (wp_new_file_in s _ _ pre n _ c sz H W Hn); reflexivity|].
    destruct (add_object_root s (abs_path (sepc s) pre) n (if um then N.ldiff mode (f_umask s) else mode) d H W Hroot) as (s1 & E1);
      try assumption; [discriminate|].
    intros r1 s2 [(_ & _ & e & _ & K)|(d1 & Hr1 & _ & K)]; [rewrite E1 in K; discriminate|].
    rewrite Hr in Hr1. injection Hr1 as <-.
    destruct K as [K|[(K1 & K2 & K3)|(_ & K & _)]]; [right|left; auto|congruence].
    destruct K as (-> & _ & _ & _ & _ & _ & _ & _ & _ & K & _). eauto. }
  apply (wp_elim _ _ _ _ _ Hok E).
Qed.
