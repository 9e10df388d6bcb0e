(** * Creating, linking and removing by path: what the calls do. *)
From Verif Require Export OpsThm.

(** ** create_file without missing directories *)
Definition make_path_names (s : fs) (p : str) (pre : list str) (n : str) : Prop :=
  anp s (make_string_path (f_cfg s) p) = abs_path (sepc s) (pre ++ [n]) /\ Forall (ordinary (sepc s)) (pre ++ [n]).

Lemma wp_create_internal s p mode c sz um : Ginv s -> within_limits s ->
  wp (create_file_internally p mode c sz false um) s
    (fun r s' => (unseen s s' /\ f_mounts s' = f_mounts s /\ exists e, r = Err e) \/
       exists d pre n, make_path_names s p pre n /\
          exists_ s (abs_path (sepc s) (pre ++ [n])) true = Ok false /\
          resolve s (abs_path (sepc s) pre) true = Ok d /\ is_dirm s d = true /\
          (file_made s s' d n (if um then N.ldiff mode (f_umask s) else mode) c sz r \/
          (unseen s s' /\ r = Err (OSErr ENOSPC) /\ no_space s d (file_size c sz)) \/
          (r = Err (OSErr EACCES) /\ is_root s = false /\ no_space s d (file_size c sz) /\ one_more s s' d n (f_next s)))).
Proof.
  intros H W. pose proof (Ginv_good s H) as Hg. unfold create_file_internally. wstep.
  assert (Hself : forall r : res oid, (exists e, r = Err e) -> unseen s s /\ f_mounts s = f_mounts s /\ exists e, r = Err e).
  { intros r K. split; [apply unseen_refl|]. split; [reflexivity|exact K]. }
  destruct (anp_names s (make_string_path (f_cfg s) p) Hg) as (names & Hn & En). rewrite En.
  wstep. destruct (exists_ s (abs_path (sepc s) names) true) as [[|]|e] eqn:Ee; [wstep; left; eauto| |left; eauto].
  destruct (names_cases names) as [->|(pre & n & ->)]; [rewrite (exists_root s true H) in Ee; discriminate|].
  wstep. rewrite (splitpath_abs_path _ (linux_like_posix _ (gi_lin s H)) _ _ Hn). cbn [fst snd].
  wstep. change (str_eqb (abs_path (sepc s) pre) []) with false. cbv iota.
  apply wp_bind. unfold auto_mount_drive, auto_mount. wstep. rewrite (Ginv_win s H). wstep. cbv beta iota.
  wstep. destruct (exists_ s (abs_path (sepc s) pre) false) as [pe|e]; [|left; eauto]. apply wp_bind.
  destruct pe; cbn [negb]; [|wstep; left; eauto].
  wstep. cbv beta iota. rewrite (original_path_cs s _ (Ginv_cs s H)). wstep.
  eapply wp_conseq; [apply (wp_new_file_in s _ _ pre n _ c sz H W Hn); reflexivity|].
  intros r s' [(K1 & K2 & e & K3 & _)|(d & Hr & Hdm & K)]; [left; eauto|]. right. exists d, pre, n. split; [split; assumption|]. auto.
Qed.

Lemma exists_null s p : p = devnull_name s -> p <> [] -> exists_ s p false = Ok true.
Proof.
  intros E Hp. unfold exists_, exists_body. cbn [rbind]. destruct (str_eqb_spec p []); [contradiction|].
  subst p. rewrite str_eqb_refl. reflexivity.
Qed.
Lemma exists_true_null s p : p = devnull_name s -> p <> [] -> exists_ s p true <> Ok false.
Proof.
  intros E Hp. pose proof (exists_null s p E Hp) as K. unfold exists_, exists_body in *. cbn [rbind] in K.
  destruct (is_of_type_ (exists_top s) s p S_IFLNK false) as [[]|e]; cbn [rbind]; [discriminate| |discriminate]. rewrite K. discriminate.
Qed.

(** the new entry can be looked up *)
Lemma lookup_one_more s s' d pre n o : Ginv s -> Ginv s' -> ext s s' -> one_more s s' d n o -> d <> o ->
  Forall (ordinary (sepc s)) (pre ++ [n]) -> resolve s (abs_path (sepc s) pre) true = Ok d -> is_dirm s d = true ->
  exists_ s (abs_path (sepc s) (pre ++ [n])) true = Ok false ->
  is_link s' o = false -> ~ null_clash s d n ->
  resolve s' (abs_path (sepc s) (pre ++ [n])) false = Ok o.
Proof.
  intros H H' X OM Hdo Hn Hr Hdm Hex Hl Hnc. destruct (ordinary_last _ _ _ Hn) as [Hpre Hno].
  assert (Ec : f_cfg s' = f_cfg s) by (symmetry; apply X).
  assert (Hd0 : d <> devnull_oid).
  { intros ->. pose proof (om_isdir _ _ _ _ _ OM) as K. rewrite (gi_null s H) in K. discriminate. }
  assert (Edn : devnull_name s' = devnull_name s) by (symmetry; apply X).
  assert (Hr' : resolve s' (abs_path (sepc s) pre) false = Ok d).
  { apply resolve_true_false; [apply Ginv_good, H'|]. apply (ext_resolve s s' (Ginv_good s H) (Ginv_good s' H') X); assumption. }
  assert (Hnn : forall ns, is_null s' ns -> is_null s ns) by (intros ns [A B]; split; [exact A|rewrite Ec, Edn in B; exact B]).
  rewrite <- Ec. apply (resolve_snoc s' pre n d o H').
  - rewrite Ec. exact Hpre.
  - intros K. apply Hnn in K. unfold resolve in Hr. apply (resolve_ok s (Ginv_good s H)) in Hr.
    destruct Hr as (rr & E & Hc & [[K2 ->]|(K2 & _)]); [congruence|]. 
    apply (rp_names s H pre rr Hpre Hc) in E. destruct E as [_ [[_ ->]|[K3 _]]]; contradiction.
  - rewrite Ec. exact Hr'.
  - exact Hd0.
  - unfold is_dirm. rewrite (om_dir _ _ _ _ _ OM). exact Hdm.
  - unfold entry, ents. rewrite (om_dir _ _ _ _ _ OM). cbn. rewrite assoc_app. pose proof (om_was _ _ _ _ _ OM) as K. unfold entry in K. rewrite K. cbn. rewrite str_eqb_refl. reflexivity.
  - exact Hl.
  - intros K. apply Hnn in K. destruct K as [_ K]. apply (exists_true_null s _ K); [discriminate|exact Hex].
  - intros rr Hcr E K. apply Hnn in K. apply Hnc. exists rr. split; [|exact K].
    (* where pre led before *)
    unfold resolve in Hr. apply (resolve_ok s (Ginv_good s H)) in Hr. destruct Hr as (r0 & E0 & Hc0 & [[_ K0]|(_ & Hat & _)]); [congruence|].
    assert (E1 := ext_resolve_path s s' (Ginv_good s H) (Ginv_good s' H') X _ r0 d E0 Hc0 Hat).
    rewrite Ec in E. fold (resolve_path s' (abs_path (sepc s) pre)) in E1. rewrite E in E1.
    rewrite Ec in Hcr.
    assert (E2 : abs_path (sepc s) rr = abs_path (sepc s) r0) by congruence.
    assert (rr = r0) by (apply (abs_path_clean_inj (f_cfg s) (gi_lin s H)); assumption). subst rr. exact Hat.
Qed.

Lemma file_made_ok s s' d n mode c sz r : Ginv s -> file_made s s' d n mode c sz r -> d <> f_next s.
Proof. intros H (_ & OM & _). pose proof (dirobj_lt s d H (om_isdir _ _ _ _ _ OM)). lia. Qed.


(** create_file *)
Lemma create_file_done s p mode c sz um o s' : Ginv s -> within_limits s ->
  create_file p mode c sz false um s = (Ok o, s') ->
  exists pre n d, place s (make_string_path (f_cfg s) p) pre n d /\ one_more s s' d n o /\ brand_new s s' d o /\
    o_mode (ob s' o) = (if um then N.ldiff mode (f_umask s) else mode) /\
    o_body (ob s' o) = BFile (file_data c sz) /\ o_size (ob s' o) = file_size c sz /\ o_nlink (ob s' o) = 1%Z /\
    (is_link s' o = false -> ~ null_clash s d n -> resolve s' (abs_path (sepc s) (pre ++ [n])) false = Ok o).
Proof.
  intros H W E. pose proof (wp_elim _ _ _ _ _ (wp_create_internal s p mode c sz um H W) E) as K. cbv beta in K.
  destruct K as [(_ & _ & e & Ke)|(d & pre & n & (Ea & Hn) & Hex & Hr & Hdm & K)]; [discriminate|].
  destruct K as [K|[(_ & K & _)|(K & _)]]; [|discriminate|discriminate].
  pose proof (file_made_ok s s' d n _ c sz _ H K) as Hdo.
  destruct K as (Ko & OM & BN & Hm & Hb & Hs & Hl & _ & _). injection Ko as ->.
  assert (H' : Ginv s') by (pose proof (create_file_pres p mode c sz false um s H) as K; rewrite E in K; exact K).
  exists pre, n, d. split.
  { split; [|exact Hr]. apply anp_cons_names_of; [apply Ginv_good, H|destruct pre; discriminate|exact Hn|exact Ea]. }
  split; [exact OM|]. split; [exact BN|]. do 4 (split; [assumption|]).
  intros Hlk Hnc.
  apply (lookup_one_more s s' d pre n (f_next s) H H' (one_more_new_ext s s' d n H OM) OM Hdo Hn Hr Hdm Hex Hlk Hnc).
Qed.

Lemma create_file_failed s p mode c sz um e s' : Ginv s -> within_limits s ->
  create_file p mode c sz false um s = (Err e, s') ->
  unseen s s' \/ (e = OSErr EACCES /\ is_root s = false).
Proof.
  intros H W E. pose proof (wp_elim _ _ _ _ _ (wp_create_internal s p mode c sz um H W) E) as K. cbv beta in K.
  destruct K as [(K & _)|(d & pre & n & _ & _ & _ & _ & K)]; [left; exact K|].
  destruct K as [(K & _)|[(K & _)|(K & Hr & _)]]; [discriminate|left; exact K|]. right. injection K as ->. auto.
Qed.

(** ** mkdir *)
Lemma anp_strip s p : good s -> anp s (path_without_trailing_separators (f_cfg s) p) = anp s p.
Proof.
  intros Hg. unfold path_without_trailing_separators. generalize (length p). intros n. revert p.
  induction n as [|n IH]; intros p; [reflexivity|]. cbn [strip_seps].
  destruct (ends_with_path_separator (f_cfg s) p) eqn:E; [|reflexivity].
  destruct (ends_sep_inv s Hg p E) as (q & -> & Hq). rewrite removelast_last, IH. symmetry. apply anp_trailing; assumption.
Qed.

Lemma wp_makedir s p mode : Ginv s -> within_limits s ->
  wp (makedir p mode) s (fun r s' =>
    (unseen s s' /\ f_mounts s' = f_mounts s /\ exists e, r = Err e) \/
    (r = Ok tt /\ exists pre n d, anp s p = abs_path (sepc s) (pre ++ [n]) /\ Forall (ordinary (sepc s)) (pre ++ [n]) /\
       exists_ s (abs_path (sepc s) (pre ++ [n])) true = Ok false /\
       resolve s (abs_path (sepc s) pre) true = Ok d /\ is_dirm s d = true /\
       one_more s s' d n (f_next s) /\ brand_new s s' d (f_next s) /\
       o_mode (ob s' (f_next s)) = N.lor S_IFDIR (N.ldiff mode (f_umask s)) /\ o_body (ob s' (f_next s)) = BDir [] /\
       o_nlink (ob s' (f_next s)) = 2%Z /\ f_mounts s' = f_mounts s)).
Proof.
  intros H W. pose proof (Ginv_good s H) as Hg. unfold makedir. wstep.
  assert (Hself : forall r : res unit, (exists e, r = Err e) -> unseen s s /\ f_mounts s = f_mounts s /\ exists e, r = Err e).
  { intros r K. split; [apply unseen_refl|]. split; [reflexivity|exact K]. }
  destruct (str_eqb _ []); [wstep; left; eauto|]. wstep. rewrite (Ginv_win s H).
  apply wp_bind.
  match goal with |- wp ?m s ?Q => assert (Hm : wp m s (fun _ s1 => s1 = s)) end.
  { destruct (negb _); [|wstep; reflexivity]. wstep. destruct (exists_ s _ false) as [[|]|e]; cbn [negb]; try wstep; reflexivity. }
  eapply wp_conseq; [exact Hm|]. clear Hm. intros [[]|e] s1 ->; cbv beta iota; [|left; eauto].
  wstep. rewrite (anp_strip s p Hg). destruct (anp_names s p Hg) as (names & Hn & En). rewrite En. wstep.
  destruct (exists_ s (abs_path (sepc s) names) true) as [e|e] eqn:Ee; [|left; eauto].
  rewrite (Ginv_mac s H), andb_false_r.
  destruct e.
  - apply wp_bind. wstep. cbv beta iota. rewrite andb_false_l. wstep. left; eauto.
  - wstep. destruct (names_cases names) as [->|(pre & n & ->)]; [rewrite (exists_root s true H) in Ee; discriminate|].
    rewrite (splitpath_abs_path _ (linux_like_posix _ (gi_lin s H)) _ _ Hn). cbn [fst snd].
    destruct (ordinary_last _ _ _ Hn) as [Hpre Hno]. wstep.
    unfold new_dir. apply wp_bind, wp_alloc. cbv beta iota.
    eapply wp_conseq; [apply (wp_new_add s _ n _ (BDir []) H W Hno); [left; reflexivity|intros _; apply lor_ifdir]|].
    intros r s3 [H3 [(Hun & -> & e & ->)|(-> & d & Hp & Hdm & OM & BN & Hmo & Hbo & Hsz & Hnl & Hna & Hpa & Hms)]]; cbv beta iota.
    { left. split; [exact Hun|]. split; [reflexivity|eauto]. }
    right. split; [reflexivity|]. exists pre, n, d. destruct Hp as [[K _]|Hp]; [discriminate|]. split; [first [reflexivity|exact En]|]. repeat (split; [assumption|]). exact Hms.
Qed.

Lemma makedir_done s p mode s' : Ginv s -> within_limits s -> makedir p mode s = (Ok tt, s') ->
  exists pre n d o, place s p pre n d /\ one_more s s' d n o /\ brand_new s s' d o /\
    o_mode (ob s' o) = N.lor S_IFDIR (N.ldiff mode (f_umask s)) /\ o_body (ob s' o) = BDir [] /\ o_nlink (ob s' o) = 2%Z /\
    f_mounts s' = f_mounts s /\
    (~ null_clash s d n -> resolve s' (abs_path (sepc s) (pre ++ [n])) false = Ok o).
Proof.
  intros H W E. pose proof (wp_elim _ _ _ _ _ (wp_makedir s p mode H W) E) as K. cbv beta in K.
  destruct K as [(_ & _ & e & Ke)|(_ & pre & n & d & Ea & Hn & Hex & Hr & Hdm & OM & BN & Hmo & Hbo & Hnl & Hms)]; [discriminate|].
  assert (H' : Ginv s') by (pose proof (makedir_pres p mode s H) as K; rewrite E in K; exact K).
  exists pre, n, d, (f_next s). split.
  { split; [|exact Hr]. apply anp_cons_names_of; [apply Ginv_good, H|destruct pre; discriminate|exact Hn|exact Ea]. }
  repeat (split; [assumption|]). intros Hnc.
  apply (lookup_one_more s s' d pre n (f_next s) H H' (one_more_new_ext s s' d n H OM) OM); try assumption.
  - pose proof (dirobj_lt s d H (om_isdir _ _ _ _ _ OM)). lia.
  - unfold is_link. rewrite Hmo. apply has_ifdir_not_link, lor_ifdir.
Qed.
Lemma makedir_failed s p mode e s' : Ginv s -> within_limits s -> makedir p mode s = (Err e, s') -> unseen s s' /\ f_mounts s' = f_mounts s.
Proof.
  intros H W E. pose proof (wp_elim _ _ _ _ _ (wp_makedir s p mode H W) E) as K. cbv beta in K.
  destruct K as [(K & K2 & _)|(K & _)]; [auto|discriminate].
Qed.

