(** * C85 (continued): root's Path.mkdir succeeds. *)
From Verif Require Export PropMkdir.
From Verif Require Import SysModel FsSpec PathProofs ResProofs ResProofs2 GraphInv ResThm ResThm2 OpsThm OpsThm2 OpsThm4 OpsThm6 GraphOps3 GraphOps4 ParentInv TreeThm Honest HistThm PropMake PropTree PropOps PropFd PropRmtree2.

(** ** add_object of a new directory, by root *)
Lemma add_dir_root s p n mode d : Ginv s -> within_limits s -> is_root s = true -> p <> [] -> has_bit mode S_IFDIR = true ->
  resolve s p true = Ok d -> is_dirm s d = true -> is_dirobj s d = true -> entry s d n = None ->
  exists s1, add_object p (f_next s) (snd (alloc n mode (BDir []) s)) = (Ok tt, s1).
Proof.
  intros H W Hroot Hp Hbit Hr Hdm Hd He. set (s2 := snd (alloc n mode (BDir []) s)).
  assert (Hdlt := dirobj_lt s d H Hd). assert (Hdn : d <> f_next s) by lia.
  assert (Hd0 : d <> devnull_oid) by (intros ->; rewrite (gi_null s H) in Hd; discriminate).
  assert (Hr2 : resolve s2 p true = Ok d) by (apply resolve_alloc_fwd; auto).
  assert (Eod : ob s2 d = ob s d) by (unfold s2; rewrite ob_alloc; destruct (Nat.eqb_spec d (f_next s)); [contradiction|reflexivity]).
  assert (Eon : ob s2 (f_next s) = fresh_obj s n mode (BDir [])) by (unfold s2; rewrite ob_alloc, Nat.eqb_refl; reflexivity).
  assert (K : wp (add_object p (f_next s)) s2 (fun r _ => r = Ok tt)).
  { unfold add_object. destruct (str_eqb_spec p []); [contradiction|]. apply wp_bind. wstep. rewrite Hr2. wstep. wstep.
    rewrite Eod. unfold is_dirm in Hdm. rewrite Hdm. cbn [negb]. wstep. cbv beta iota.
    unfold add_entry. wstep. unfold is_dirobj in Hd |- *. rewrite Eod. destruct (o_body (ob s d)) as [es|] eqn:Eb; [|discriminate]. cbn [negb].
    wstep. assert (Hroot2 : is_root s2 = true) by exact Hroot. rewrite Hroot2. cbn [negb andb].
    wstep. rewrite Eon. change (o_name (fresh_obj s n mode (BDir []))) with n. unfold ents. rewrite Eod.
    unfold entry, ents in He. rewrite Eb in He. rewrite Eb, He.
    assert (Hd2 : is_dirobj s2 d = true) by (unfold is_dirobj; rewrite Eod, Eb; reflexivity).
    destruct (link_obj_spec s2 d (f_next s) Hdn Hd2) as (s3 & E3 & HL). apply wp_bind. unfold wp at 1. rewrite E3. cbn [fst snd].
    wstep. destruct (Z.eqb _ 1); [|wstep; reflexivity]. wstep. wstep.
    destruct (ln_o _ _ _ _ _ HL) as (i & Eo & _).
    assert (Ez : obj_size (S (f_next s3)) s3 (f_next s) = 0%Z).
    { cbn [obj_size]. rewrite Eo, Eon. reflexivity. }
    rewrite Ez. unfold wp. rewrite (cdu_zero s3 _ (linked_limits _ _ _ _ _ HL W)). reflexivity. }
  unfold wp in K. destruct (add_object p (f_next s) s2) as [r s1] eqn:E. cbn in K. subst r. eauto.
Qed.

Record Live (s : fs) : Prop := { lw_gp : GP s; lw_h : Hst True [] None s; lw_lim : within_limits s; lw_root : is_root s = true }.
Lemma Live_G s : Live s -> Ginv s.
Proof. intros H. apply (lw_gp s H). Qed.
Lemma Live_dirs s : Live s -> honest_dirs s.
Proof. intros H o. destruct (hs_ok _ _ _ _ (lw_h s H) o) as [A _]. exact A. Qed.
Lemma Live_bits s : Live s -> forall o, has_bit (o_mode (ob s o)) S_IFDIR = is_dirobj s o.
Proof. intros H o. destruct (hs_ok _ _ _ _ (lw_h s H) o) as [_ A]. exact A. Qed.
Lemma Live_links s : Live s -> honest_links s.
Proof. intros H d n o E L. apply (hs_txt _ _ _ _ (lw_h s H) Logic.I d n o); [apply entry_In, E|discriminate|exact L]. Qed.

Lemma dir_nolink s names d : Ginv s -> at_names s names = Some d -> is_dirobj s d = true -> forall pre m l rest, ~ meets_link s names pre m l rest.
Proof.
  intros HG Ho Hd pre m l rest (E & K1 & K2).
  assert (H : is_dirobj s l = true).
  { destruct rest as [|x rest].
    - subst names. rewrite Ho in K1. injection K1 as <-. exact Hd.
    - subst names. replace (pre ++ m :: x :: rest) with ((pre ++ [m]) ++ x :: rest) in Ho by (rewrite <- app_assoc; reflexivity).
      destruct (prefix_dirs s (pre ++ [m]) x rest d Ho) as (d1 & Hd1 & Hd2). congruence. }
  rewrite (gd_dnl s (Ginv_good s HG) l H) in K2. discriminate.
Qed.
(** names that leave the tree in an existing directory meet no link *)
Lemma gone_nolink s a d x y : Ginv s -> at_names s a = Some d -> is_dirobj s d = true -> entry s d x = None ->
  at_names s (a ++ x :: y) = None /\ forall pre m l rest, ~ meets_link s (a ++ x :: y) pre m l rest.
Proof.
  intros HG Ha Hd Hx.
  assert (N : forall z, at_names s (a ++ x :: z) = None).
  { intros z. unfold at_names in *. rewrite tree_at_app, Ha. cbn. rewrite Hx. reflexivity. }
  split; [apply N|]. intros pre m l rest (E & K1 & K2).
  replace (pre ++ m :: rest) with ((pre ++ [m]) ++ rest) in E by (rewrite <- app_assoc; reflexivity).
  apply app_eq_app in E. destruct E as [t [[E1 E2]|[E1 E2]]].
  - apply (dir_nolink s a d HG Ha Hd pre m l t). split; [rewrite E1, <- app_assoc; reflexivity|auto].
  - destruct t as [|x' t].
    + rewrite app_nil_r in E1. apply (dir_nolink s a d HG Ha Hd pre m l []). split; [symmetry; exact E1|auto].
    + cbn in E2. injection E2 as <- ->. rewrite E1, N in K1. discriminate.
Qed.
Lemma dir_resolves s names d : Live s -> at_names s names = Some d -> is_dirobj s d = true -> ~ is_null s names ->
  resolve s (abs_path (sepc s) names) true = Ok d /\ resolve s (abs_path (sepc s) names) false = Ok d.
Proof.
  intros HL Ho Hd Hnn. pose proof (Live_G s HL) as HG. pose proof (Ginv_good s HG) as Hg.
  pose proof (dir_nolink s names d HG Ho Hd) as Hlf.
  pose proof (linkfree_resolve_path s HG (length names) names d (le_n _) Ho Hlf) as Hrp.
  assert (F : resolve s (abs_path (sepc s) names) false = Ok d).
  { unfold resolve. apply (resolve_ok s Hg). exists names. split; [exact Hrp|].
    split; [apply Forall_clean, (at_names_ordinary s HG names root_oid d Ho)|]. right. split; [exact Hnn|]. split; [exact Ho|]. split; [|right; left; reflexivity].
    intros pre n rest x E K. rewrite (Live_dirs s HL). subst names.
    destruct (prefix_dirs s pre n rest d Ho) as (d' & Hd1 & Hd2). unfold at_names in Hd1. congruence. }
  split; [apply (root_may s _ d (lw_root s HL) F HG)|exact F].
Qed.

Lemma missing_lexists s pre n cl : Live s -> Forall (ordinary (sepc s)) (pre ++ [n]) -> ~ is_null s (pre ++ [n]) ->
  (forall a m l rest, ~ meets_link s (pre ++ [n]) a m l rest) -> at_names s (pre ++ [n]) = None ->
  exists_ s (abs_path (sepc s) (pre ++ [n])) cl = Ok false.
Proof.
  intros HL Hn Hnn Hlf Hno. pose proof (Live_G s HL) as HG. pose proof (Ginv_good s HG) as Hg.
  assert (F : exists_ s (abs_path (sepc s) (pre ++ [n])) false <> Ok true).
  { intros K. apply (exists_names s Hg _ _ Hn) in K. destruct K as [K|(rr & o & Er & Hc & Hat)].
    - apply Hnn. split; [destruct pre; discriminate|exact K].
    - destruct (rp_names s HG (pre ++ [n]) rr Hn Hc Er) as [_ [[K _]|[_ (k & Hk & Hres)]]]; [contradiction|].
      destruct (resolves_det s k 0 (pre ++ [n]) rr (pre ++ [n]) Hg Hres (res_done s _ Hlf)) as [_ ->]. congruence. }
  destruct (exists_total s HG (Live_links s HL) (Live_dirs s HL) (abs_path (sepc s) (pre ++ [n])) cl) as ([|] & E); [exfalso|exact E].
  destruct cl; [|apply F, E]. unfold exists_, exists_body in E.
  change (is_of_type_ (exists_top s) s (abs_path (sepc s) (pre ++ [n])) S_IFLNK false) with (islink s (abs_path (sepc s) (pre ++ [n]))) in E.
  destruct (islink s (abs_path (sepc s) (pre ++ [n]))) as [[|]|e] eqn:El; cbn [rbind] in E; [|apply F, E|discriminate].
  apply (islink_iff s pre n HG Hn) in El. destruct El as (d & o & Hr & _ & He & _).
  unfold resolve in Hr. apply (resolve_ok s Hg) in Hr. destruct Hr as (rr & Er & Hc & [[_ ->]|(_ & Hat & _)]).
  - apply entry_dirobj in He. rewrite (gi_null s HG) in He. discriminate.
  - destruct (ordinary_last _ _ _ Hn) as [Hpre _]. assert (Hlp : forall a m l rest, ~ meets_link s pre a m l rest) by (apply (linkfree_prefix s pre [n] Hlf)).
    destruct (rp_names s HG pre rr Hpre Hc Er) as [_ [[Kn ->]|[_ (k & Hk & Hres)]]].
    + rewrite (at_names_snoc s pre n d Hat) in Hno. congruence.
    + destruct (resolves_det s k 0 pre rr pre Hg Hres (res_done s _ Hlp)) as [_ ->]. rewrite (at_names_snoc s pre n d Hat) in Hno. congruence.
Qed.

Lemma exists_dir s names d : Live s -> at_names s names = Some d -> is_dirobj s d = true -> exists_ s (abs_path (sepc s) names) false = Ok true.
Proof.
  intros HL Ho Hd. pose proof (Live_G s HL) as HG. pose proof (at_names_ordinary s HG names root_oid d Ho) as Hor.
  apply (exists_of_rp s HG names names d Hor (Forall_clean _ _ Hor)); [|exact Ho].
  apply (linkfree_resolve_path s HG (length names) names d (le_n _) Ho). apply (dir_nolink s names d HG Ho Hd).
Qed.

(** ** makedir in an existing directory succeeds, in a missing one it says so *)
Lemma makedir_start s pre n mode : Ginv s -> Forall (ordinary (sepc s)) (pre ++ [n]) ->
  makedir (abs_path (sepc s) (pre ++ [n])) mode s =
  match exists_ s (abs_path (sepc s) pre) false with
  | Err e => (Err e, s)
  | Ok false => (os_err ENOENT, s)
  | Ok true =>
      match exists_ s (abs_path (sepc s) (pre ++ [n])) true with
      | Err e => (Err e, s)
      | Ok true => (os_err EEXIST, s)
      | Ok false => (o <- new_dir n (N.ldiff mode (f_umask s)) ;; add_object (abs_path (sepc s) pre) o) s
      end
  end.
Proof.
  intros H Hn. pose proof (Ginv_good s H) as Hg. pose proof (gi_lin s H) as Hl.
  unfold makedir. unfold bind at 1. unfold gets at 1. cbv beta iota zeta.
  unfold path_without_trailing_separators. rewrite (strip_seps_clean s Hg) by (apply Forall_clean, Hn).
  change (str_eqb (abs_path (sepc s) (pre ++ [n])) []) with false. cbv iota. rewrite (Ginv_win s H), (Ginv_mac s H).
  unfold bind at 1. unfold gets at 1. cbv beta iota.
  rewrite (splitpath_abs_path _ (linux_like_posix _ Hl) _ _ Hn). cbn [fst snd].
  destruct (ordinary_last _ _ _ Hn) as [Hpre Hno].
  change (str_eqb (abs_path (sepc s) pre) []) with false. cbn [negb]. cbv iota.
  rewrite (abs_no_up (sepc s) pre (ll_sep _ Hl) Hpre). cbn [andb]. cbv iota.
  rewrite (normpath_fix _ (linux_like_posix _ Hl)) by (apply abs_path_canonical, Hpre).
  unfold bind at 1. unfold bind at 1. unfold lift at 1.
  destruct (exists_ s (abs_path (sepc s) pre) false) as [[|]|e]; cbn [negb]; cbv beta iota; [|reflexivity|reflexivity].
  unfold ret at 1. cbv beta iota. unfold bind at 1. unfold gets at 1. cbv beta iota. rewrite (anp_abs_path s _ Hg Hn).
  unfold bind at 1. unfold lift at 1.
  destruct (exists_ s (abs_path (sepc s) (pre ++ [n])) true) as [[|]|e]; cbv beta iota; [| |reflexivity].
  - rewrite andb_false_r. cbn [andb]. unfold bind at 1. unfold bind at 1. unfold ret at 1. cbv beta iota. reflexivity.
  - unfold bind at 1. unfold ret at 1. cbv beta iota zeta. rewrite (splitpath_abs_path _ (linux_like_posix _ Hl) _ _ Hn). cbn [fst snd].
    unfold bind at 1. unfold gets at 1. cbv beta iota. reflexivity.
Qed.

(** [s] with more directories: what the tree has it keeps, with its mode and kind *)
Definition keeps (s s' : fs) : Prop := forall names x, at_names s names = Some x ->
  at_names s' names = Some x /\ is_dirobj s' x = is_dirobj s x /\ o_mode (ob s' x) = o_mode (ob s x).
Definition new_mode (s : fs) (mode : N) : N := N.lor S_IFDIR (N.ldiff mode (f_umask s)).
(** the directories made on the way *)
Definition steps_made (s s' : fs) (a : list str) (x : str) (y : list str) : Prop :=
  forall z1 z2, y = z1 ++ z2 -> z2 <> [] -> exists o, at_names s' (a ++ x :: z1) = Some o /\ is_dirobj s' o = true /\ o_mode (ob s' o) = new_mode s 511.

Lemma makedir_in s pre n d mode : Live s -> Forall (ordinary (sepc s)) (pre ++ [n]) -> ~ is_null s pre -> ~ is_null s (pre ++ [n]) ->
  at_names s pre = Some d -> is_dirobj s d = true -> entry s d n = None ->
  exists s1, makedir (abs_path (sepc s) (pre ++ [n])) mode s = (Ok tt, s1) /\
    sepc s1 = sepc s /\ devnull_name s1 = devnull_name s /\ at_names s1 (pre ++ [n]) = Some (f_next s) /\
    is_dirobj s1 (f_next s) = true /\ ents s1 (f_next s) = [] /\ ((mode < 4096)%N -> Live s1) /\
    o_mode (ob s1 (f_next s)) = new_mode s mode /\ f_umask s1 = f_umask s /\ keeps s s1.
Proof.
  intros HL Hn N1 N2 Hat Hd He. pose proof (Live_G s HL) as HG.
  destruct (gone_nolink s pre d n [] HG Hat Hd He) as [Hno Hlf].
  destruct (dir_resolves s pre d HL Hat Hd N1) as [Hr _].
  assert (Hdm : is_dirm s d = true) by (rewrite (Live_dirs s HL); exact Hd).
  assert (E : exists s1, makedir (abs_path (sepc s) (pre ++ [n])) mode s = (Ok tt, s1)).
  { rewrite (makedir_start s pre n mode HG Hn), (exists_dir s pre d HL Hat Hd), (missing_lexists s pre n true HL Hn N2 Hlf Hno).
    unfold bind, new_dir. change (alloc n ?m (BDir []) s) with (Ok (f_next s), snd (alloc n m (BDir []) s)). cbv beta iota.
    apply (add_dir_root s (abs_path (sepc s) pre) n _ d HG (lw_lim s HL) (lw_root s HL)); try assumption; [discriminate|apply lor_ifdir]. }
  destruct E as [s1 E]. exists s1. split; [exact E|].
  destruct (makedir_done s _ mode s1 HG (lw_lim s HL) E) as (pre' & n' & d' & o & [Hp Hr'] & OM & BN & Hm & Hb & Hnl & Hmt & _).
  destruct (bn_new _ _ _ _ BN) as [Ho _]. subst o.
  assert (En : pre' ++ [n'] = pre ++ [n]).
  { pose proof (names_here s (pre ++ [n]) HG Hn) as K. unfold names_of in K, Hp. rewrite K in Hp.
    rewrite <- (rev_involutive (pre' ++ [n'])), <- Hp, rev_involutive. reflexivity. }
  apply app_inj_tail in En. destruct En as [-> ->].
  assert (d' = d) by congruence. subst d'.
  pose proof (one_more_new_ext s s1 d n HG OM) as X.
  split; [rewrite (om_rest _ _ _ _ _ OM); reflexivity|]. split; [symmetry; apply (ex_null _ _ X)|].
  split.
  { rewrite (at_names_snoc s1 pre n d (ext_at s s1 pre d X Hat)). unfold entry, ents at 1. rewrite (om_dir _ _ _ _ _ OM). cbn. rewrite assoc_app.
    unfold entry in He. rewrite He. cbn. rewrite str_eqb_refl. reflexivity. }
  split; [unfold is_dirobj; rewrite Hb; reflexivity|]. split; [unfold ents; rewrite Hb; reflexivity|].
  split; [intros Hmode; constructor|].
  - pose proof (makedir_GP (abs_path (sepc s) (pre ++ [n])) mode s (lw_gp s HL)) as K. rewrite E in K. exact K.
  - pose proof (makedir_H True (abs_path (sepc s) (pre ++ [n])) mode Hmode s (lw_h s HL)) as K. rewrite E in K. exact K.
  - intros k m t K. rewrite Hmt in K. apply (lw_lim s HL k m t K).
  - unfold is_root. rewrite (om_rest _ _ _ _ _ OM). apply (lw_root s HL).
  - split; [exact Hm|]. split; [rewrite (om_rest _ _ _ _ _ OM); reflexivity|]. intros names y Ky.
    split; [apply (ext_at s s1 names y X Ky)|].
    assert (Hlt : y < f_next s).
    { pose proof (gi_next s HG). pose proof (tree_at_lt s root_oid names y HG) as L. unfold root_oid in L. exact (L ltac:(lia) Ky). }
    destruct (Nat.eq_dec y d) as [->|Nd].
    + unfold is_dirobj. rewrite (om_dir _ _ _ _ _ OM). unfold is_dirobj in Hd. rewrite Hd. split; reflexivity.
    + unfold is_dirobj. rewrite (om_other _ _ _ _ _ OM y Nd ltac:(lia)). split; reflexivity.
Qed.
Lemma makedir_not_yet s pre n mode : Live s -> Forall (ordinary (sepc s)) (pre ++ [n]) -> pre <> [] -> ~ is_null s pre ->
  (forall a m l rest, ~ meets_link s pre a m l rest) -> at_names s pre = None ->
  makedir (abs_path (sepc s) (pre ++ [n])) mode s = (os_err ENOENT, s).
Proof.
  intros HL Hn Hne N1 Hlf Hno. rewrite (makedir_start s pre n mode (Live_G s HL) Hn). destruct (ordinary_last _ _ _ Hn) as [Hpre _].
  destruct (names_cases pre) as [->|(q & m & ->)]; [congruence|]. rewrite (missing_lexists s q m false HL Hpre N1 Hlf Hno). reflexivity.
Qed.

Lemma mkdir_live a x d : forall y s mode eo, Live s -> Forall (ordinary (sepc s)) (a ++ x :: y) ->
  (forall p q, a ++ x :: y = p ++ q -> ~ is_null s p) ->
  at_names s a = Some d -> is_dirobj s d = true -> entry s d x = None ->
  exists s1 o, plib_mkdir_rev (sepc s) (rev (a ++ x :: y)) mode true eo s = (Ok tt, s1) /\
    sepc s1 = sepc s /\ devnull_name s1 = devnull_name s /\ at_names s1 (a ++ x :: y) = Some o /\
    is_dirobj s1 o = true /\ ents s1 o = [] /\ ((mode < 4096)%N -> Live s1) /\
    o_mode (ob s1 o) = new_mode s mode /\ f_umask s1 = f_umask s /\ keeps s s1 /\ steps_made s s1 a x y.
Proof.
  induction y as [|n y IH] using rev_ind; intros s mode eo HL F NN Ha Hd Hx.
  - destruct (makedir_in s a x d mode HL F) as (s1 & E & K); try assumption.
    { apply (NN a [x]). reflexivity. } { apply (NN (a ++ [x]) []). rewrite app_nil_r. reflexivity. }
    destruct K as (K1 & K2 & K3 & K4 & K5 & K6 & K7 & K8 & K9).
    exists s1, (f_next s). split; [|repeat (split; [assumption|]); intros z1 z2 Ez Nz; destruct z1, z2; discriminate || congruence]. rewrite rev_app_distr. cbn [rev app plib_mkdir_rev]. rewrite rev_involutive.
    unfold catch. rewrite E. reflexivity.
  - assert (Eq : a ++ x :: y ++ [n] = (a ++ x :: y) ++ [n]) by (rewrite <- app_assoc; reflexivity). rewrite Eq in *.
    destruct (ordinary_last _ _ _ F) as [Fp _].
    assert (NNp : forall p q, a ++ x :: y = p ++ q -> ~ is_null s p).
    { intros p q K. apply (NN p (q ++ [n])). rewrite K, <- app_assoc. reflexivity. }
    destruct (gone_nolink s a d x y (Live_G s HL) Ha Hd Hx) as [Hno Hlf].
    destruct (IH s 511%N true HL Fp NNp Ha Hd Hx) as (s1 & o & E1 & Es & En & Hat & Ho & He & HL1 & Hm1 & Hu1 & Hk1 & Hs1). specialize (HL1 eq_refl).
    rewrite rev_app_distr. cbn [rev app plib_mkdir_rev]. unfold catch.
    change (rev (a ++ x :: y) ++ [n]) with (rev (a ++ x :: y) ++ [n]).
    assert (Er : rev (n :: rev (a ++ x :: y)) = (a ++ x :: y) ++ [n]) by (cbn [rev]; rewrite rev_involutive; reflexivity).
    cbn [rev] in Er. rewrite Er. rewrite (makedir_not_yet s (a ++ x :: y) n mode HL F ltac:(destruct a; discriminate) ltac:(apply (NNp _ []); rewrite app_nil_r; reflexivity) Hlf Hno).
    unfold os_err. cbv iota. unfold bind. rewrite E1. cbv iota.
    rewrite <- Es in F |- *.
    assert (T : forall p, is_null s1 p -> is_null s p) by (intros p [K1 K2]; split; [exact K1|rewrite <- Es, <- En; exact K2]).
    destruct (makedir_in s1 (a ++ x :: y) n o mode HL1 F) as (s2 & E2 & K1 & K2 & K3 & K4 & K5 & K6 & K7 & K8 & K9); try assumption.
    { intros K. apply T in K. revert K. apply (NNp _ []). rewrite app_nil_r. reflexivity. }
    { intros K. apply T in K. revert K. apply (NN _ []). rewrite app_nil_r. reflexivity. }
    { unfold entry. rewrite He. reflexivity. }
    exists s2, (f_next s1). unfold plib_mkdir1, catch. rewrite E2. split; [reflexivity|]. split; [exact K1|]. split; [congruence|].
    split; [exact K3|]. split; [exact K4|]. split; [exact K5|]. split; [exact K6|].
    split; [unfold new_mode in *; congruence|]. split; [congruence|]. split.
    + intros names z Kz. destruct (Hk1 _ _ Kz) as (Z1 & Z2 & Z3). destruct (K9 _ _ Z1) as (Y1 & Y2 & Y3). repeat split; congruence.
    + intros z1 z2 Ez Nz. destruct (names_cases z2) as [->|(z3 & m & ->)]; [congruence|]. rewrite app_assoc in Ez. apply app_inj_tail in Ez. destruct Ez as [Ez _].
      assert (W : exists o1, at_names s1 (a ++ x :: z1) = Some o1 /\ is_dirobj s1 o1 = true /\ o_mode (ob s1 o1) = new_mode s 511).
      { destruct z3 as [|m3 z3]; [rewrite app_nil_r in Ez; subst z1; exists o; auto|]. apply (Hs1 z1 (m3 :: z3) Ez). discriminate. }
      destruct W as (o1 & W1 & W2 & W3). destruct (K9 _ _ W1) as (Y1 & Y2 & Y3). exists o1. repeat split; congruence.
Qed.

Lemma proper_Live c s : linux_like c -> proper_history True c s -> is_root s = true -> Live s.
Proof.
  intros Hc HH Hr. pose proof (proper_H True c s HH) as K. constructor; [|exact K| |exact Hr].
  - apply (reachable_GP c s Hc). apply (proper_reachable True c s HH).
  - intros k m t Q E. rewrite (hs_lim _ _ _ _ K Logic.I k m Q) in E. discriminate.
Qed.

(** Root, a path whose names [a] lead to the directory [d], which has no entry
    [x]: with parents the call succeeds and the path is a new empty directory;
    with the mode [mode] without the umask, and the directories made on the way
    have the mode 0o777 without the umask (mode is not taken into account for them);
    without, it succeeds if only the last name is missing and raises
    FileNotFoundError otherwise, and then nothing changes. *)
Theorem C85_mkdir_done_partial : forall c s, linux_like c -> proper_history True c s -> is_root s = true ->
  forall a x y d, Forall (ordinary (sepc s)) (a ++ x :: y) ->
  (forall p q, a ++ x :: y = p ++ q -> ~ is_null s p) ->
  at_names s a = Some d -> is_dirobj s d = true -> entry s d x = None ->
  forall mode exist_ok,
  (exists s' o, plib_mkdir (a ++ x :: y) mode true exist_ok s = (Ok tt, s') /\
     at_names s' (a ++ x :: y) = Some o /\ is_dirobj s' o = true /\ ents s' o = [] /\
     o_mode (ob s' o) = N.lor S_IFDIR (N.ldiff mode (f_umask s)) /\
     (forall z1 z2, y = z1 ++ z2 -> z2 <> [] -> exists o', at_names s' (a ++ x :: z1) = Some o' /\ is_dirobj s' o' = true /\
        o_mode (ob s' o') = N.lor S_IFDIR (N.ldiff 511 (f_umask s)))) /\
  (y = [] -> exists s', plib_mkdir (a ++ [x]) mode false exist_ok s = (Ok tt, s')) /\
  (y <> [] -> plib_mkdir (a ++ x :: y) mode false exist_ok s = (Err (OSErr ENOENT), s)).
Proof.
  intros c s Hc HH Hroot a x y d F NN Ha Hd Hx mode eo. pose proof (proper_Live c s Hc HH Hroot) as HL. unfold plib_mkdir. split; [|split].
  - destruct (mkdir_live a x d y s mode eo HL F NN Ha Hd Hx) as (s1 & o & E & _ & _ & A & B & C & _ & D & _ & _ & G). exists s1, o. auto 10.
  - intros ->. destruct (makedir_in s a x d mode HL F) as (s1 & E & _); try assumption.
    { apply (NN a [x]). reflexivity. } { apply (NN (a ++ [x]) []). rewrite app_nil_r. reflexivity. }
    exists s1. rewrite rev_app_distr. cbn [rev app plib_mkdir_rev]. rewrite rev_involutive. unfold catch. rewrite E. reflexivity.
  - intros Hy. destruct (names_cases y) as [->|(q & n & ->)]; [congruence|].
    assert (Eq : a ++ x :: q ++ [n] = (a ++ x :: q) ++ [n]) by (rewrite <- app_assoc; reflexivity). rewrite Eq in *.
    destruct (gone_nolink s a d x q (Live_G s HL) Ha Hd Hx) as [Hno Hlf].
    pose proof (makedir_not_yet s (a ++ x :: q) n mode HL F ltac:(destruct a; discriminate) ltac:(apply (NN _ [n]); reflexivity) Hlf Hno) as E.
    rewrite rev_app_distr. cbn [rev app plib_mkdir_rev]. unfold catch.
    assert (Er : rev (n :: rev (a ++ x :: q)) = (a ++ x :: q) ++ [n]) by (cbn [rev]; rewrite rev_involutive; reflexivity).
    cbn [rev] in Er. rewrite Er, E. reflexivity.
Qed.
Print Assumptions C85_mkdir_done_partial.

Example C85_done_case : proper_history True posix_cfg tree_state /\ is_root tree_state = true /\
  at_names tree_state [L "d"; L "e"] = Some 5 /\ is_dirobj tree_state 5 = true /\ entry tree_state 5 (L "x") = None /\
  fst (plib_mkdir [L "d"; L "e"; L "x"; L "y"] 511 true false tree_state) = Ok tt /\
  fst (plib_mkdir [L "d"; L "e"; L "x"; L "y"] 511 false false tree_state) = Err (OSErr ENOENT) /\
  (forall p q, [L "d"; L "e"; L "x"; L "y"] = p ++ q -> ~ is_null tree_state p).
Proof.
  split.
  { exists None, 18%N, 0%Z, 0%Z, 0%Z, tree_ops. split; [reflexivity|]. split; [|reflexivity].
    repeat constructor; vm_compute; try reflexivity; intros K; discriminate K. }
  split; [vm_compute; reflexivity|]. split; [vm_compute; reflexivity|]. split; [vm_compute; reflexivity|]. split; [vm_compute; reflexivity|].
  split; [vm_compute; reflexivity|]. split; [vm_compute; reflexivity|].
  intros p q E [K1 K2]. destruct p as [|n1 p]; [contradiction|]. injection E as <- E. clear -K2.
  apply (f_equal (fun l => nth 2 l "x"%char)) in K2. destruct p; vm_compute in K2; discriminate K2.
Qed.
