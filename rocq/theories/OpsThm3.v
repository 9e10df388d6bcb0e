(** * Symbolic links, hard links, removing: what the calls do. *)
From Verif Require Export OpsThm2.

(** ** symlink *)
Lemma make_string_path_slash c p : c_sep c = slash -> make_string_path c p = p.
Proof.
  intros E. unfold make_string_path, replace_char, sep. rewrite E. rewrite <- (map_id p) at 2. apply map_ext. intros a.
  destruct (Ascii.eqb_spec a slash); congruence.
Qed.

(** the path at which create_symlink makes the link *)
Definition symlink_at (s : fs) (fp q : str) : Prop :=
  q = fp \/ islink s fp = Ok false /\ resolve_path s fp = Ok q.

Lemma wp_symlink s p t : Ginv s -> within_limits s ->
  wp (create_symlink p t false) s (fun r s' =>
    ((unseen s s' /\ f_mounts s' = f_mounts s /\ exists e, r = Err e) \/
     exists q, symlink_at s (make_string_path (f_cfg s) p) q /\
       ends_with_path_separator (f_cfg s) (make_string_path (f_cfg s) p) = false /\
       exists d pre n, make_path_names s q pre n /\
          exists_ s (abs_path (sepc s) (pre ++ [n])) true = Ok false /\
          resolve s (abs_path (sepc s) pre) true = Ok d /\ is_dirm s d = true /\
          (file_made s s' d n (N.lor S_IFLNK PERM_DEF) (Some (make_string_path (f_cfg s) t)) None r \/
          (unseen s s' /\ r = Err (OSErr ENOSPC)) \/
          (r = Err (OSErr EACCES) /\ is_root s = false /\ one_more s s' d n (f_next s))))).
Proof.
  intros H W. unfold create_symlink. wstep. cbv zeta.
  assert (Hself : forall r : res oid, (exists e, r = Err e) -> unseen s s /\ f_mounts s = f_mounts s /\ exists e, r = Err e).
  { intros r K. split; [apply unseen_refl|]. split; [reflexivity|exact K]. }
  rewrite (normcase_id _ (linux_like_posix _ (gi_lin s H))). set (fp := make_string_path (f_cfg s) p).
  apply wp_bind. rewrite (Ginv_win s H), (Ginv_mac s H).
  match goal with |- wp ?m s ?Q => assert (Hm : wp m s (fun r s1 => s1 = s /\ (r = Ok tt -> ends_with_path_separator (f_cfg s) fp = false))) end.
  { destruct (ends_with_path_separator (f_cfg s) fp); [|wstep; auto].
    wstep. destruct (exists_ s fp false) as [[|]|e]; [wstep; split; [reflexivity|discriminate]| |split; [reflexivity|discriminate]].
    wstep. destruct (exists_ s _ false) as [[|]|e]; cbn [negb when]; [wstep; split; [reflexivity|discriminate]| |split; [reflexivity|discriminate]].
    wstep. destruct (exists_ s _ true) as [[|]|e]; cbn [negb]; try wstep; (split; [reflexivity|discriminate]). }
  eapply wp_conseq; [exact Hm|]. clear Hm. intros [[]|e] s1 [-> Hends]; cbv beta iota; [|left; eauto]. specialize (Hends eq_refl).
  wstep. destruct (islink s fp) as [il|e] eqn:Eil; [|left; eauto]. apply wp_bind.
  assert (Hgo : forall q, symlink_at s fp q ->
     wp (create_file_internally q (N.lor S_IFLNK PERM_DEF) (Some (make_string_path (f_cfg s) t)) None false false) s
     (fun r s' => (unseen s s' /\ f_mounts s' = f_mounts s /\ exists e, r = Err e) \/
     exists q, symlink_at s fp q /\ ends_with_path_separator (f_cfg s) fp = false /\ exists d pre n, make_path_names s q pre n /\
          exists_ s (abs_path (sepc s) (pre ++ [n])) true = Ok false /\
          resolve s (abs_path (sepc s) pre) true = Ok d /\ is_dirm s d = true /\
          (file_made s s' d n (N.lor S_IFLNK PERM_DEF) (Some (make_string_path (f_cfg s) t)) None r \/
          (unseen s s' /\ r = Err (OSErr ENOSPC)) \/
          (r = Err (OSErr EACCES) /\ is_root s = false /\ one_more s s' d n (f_next s))))).
  { intros q Hq. eapply wp_conseq; [apply (wp_create_internal s q _ _ _ _ H W)|].
    intros r s' [K|(d & pre & n & Hmn & Hex & Hr & Hdm & K)]; [left; exact K|]. right. exists q. split; [exact Hq|]. split; [exact Hends|].
    exists d, pre, n. do 4 (split; [assumption|]). destruct K as [K|[(K & K2 & _)|(K & K2 & _ & K3)]]; [left; exact K|right; left; auto|right; right; auto]. }
  destruct il; wstep.
  - apply Hgo. left. reflexivity.
  - destruct (resolve_path s fp) as [q|e] eqn:Erp; [|left; eauto]. cbv beta iota. apply Hgo. right. split; [exact Eil|exact Erp].
Qed.

Lemma resolves_snoc_any s k pre rr d n : resolves s k pre rr -> at_names s rr = Some d ->
  (forall o, entry s d n = Some o -> is_link s o = false) -> resolves s k (pre ++ [n]) (rr ++ [n]).
Proof.
  intros H Hat He. induction H as [names Hno|k names a m l rest t r Hm Hb Hres IH].
  - apply res_done. intros a m l rest (E & K1 & K2).
    destruct rest as [|x rest] using rev_ind.
    + apply app_inj_tail in E. destruct E as [<- <-].
      rewrite (at_names_snoc s names n d Hat) in K1. rewrite (He _ K1) in K2. discriminate.
    + clear IHrest. rewrite app_comm_cons, app_assoc in E. apply app_inj_tail in E. destruct E as [E _].
      apply (Hno a m l rest). split; [exact E|split; assumption].
  - destruct Hm as (E & K1 & K2). eapply (res_link s k (names ++ [n]) a m l (rest ++ [n]) t).
    + split; [rewrite E, <- app_assoc; reflexivity|split; assumption].
    + exact Hb.
    + rewrite app_assoc. apply IH. exact Hat.
Qed.

(** a link is made in the directory of its path *)
Lemma symlink_spot s q pre0 n0 d0 pre n d : Ginv s -> c_sep (f_cfg s) = slash ->
  Forall (ordinary (sepc s)) (pre0 ++ [n0]) -> resolve s (abs_path (sepc s) pre0) true = Ok d0 -> is_dirobj s d0 = true ->
  has_bit (o_mode (ob s d0)) PERM_READ = true ->
  symlink_at s (abs_path (sepc s) (pre0 ++ [n0])) q -> make_path_names s q pre n ->
  exists_ s (abs_path (sepc s) (pre ++ [n])) true = Ok false -> resolve s (abs_path (sepc s) pre) true = Ok d ->
  d = d0 /\ n = n0.
Proof.
  intros H Hsl Ho0 Hr0 Hd0 Hrd Hq [Ea Hn] Hex Hr. pose proof (Ginv_good s H) as Hg.
  destruct (ordinary_last _ _ _ Ho0) as [Hpre0 Hno0].
  rewrite make_string_path_slash in Ea by exact Hsl.
  assert (Hsame : q = abs_path (sepc s) (pre0 ++ [n0]) -> d = d0 /\ n = n0).
  { intros ->. rewrite (anp_abs_path s _ Hg Ho0) in Ea.
    apply (abs_path_clean_inj (f_cfg s) (gi_lin s H)) in Ea; try (apply Forall_clean; assumption).
    apply app_inj_tail in Ea. destruct Ea as [-> ->]. split; congruence. }
  destruct Hq as [Hq|[Hil Hrp]]; [apply Hsame, Hq|].
  pose proof Hr0 as Hr0'. unfold resolve in Hr0'. apply (resolve_ok s Hg) in Hr0'. fold (resolve_path s (abs_path (sepc s) pre0)) in Hr0'.
  destruct Hr0' as (r0 & E0 & Hc0 & [[_ K]|(Hnn & Hat & _ & _)]).
  { rewrite K, not_dirobj_null in Hd0 by exact H. discriminate. }
  assert (Hnl : forall o, entry s d0 n0 = Some o -> is_link s o = false).
  { intros o Eo. destruct (is_link s o) eqn:El; [|reflexivity]. exfalso.
    assert (K : islink s (abs_path (sepc s) (pre0 ++ [n0])) = Ok true) by (apply (islink_iff s pre0 n0 H Ho0); exists d0, o; auto). congruence. }
  pose proof Hrp as Hrp'. unfold resolve_path in Hrp'. apply (resolve_path_ok s Hg) in Hrp'.
  destruct Hrp' as (_ & Hv & names & rr & Hno & Ean & Hres & Eq).
  rewrite (anp_abs_path s _ Hg Ho0) in Ean. apply (abs_path_clean_inj (f_cfg s) (gi_lin s H)) in Ean; try (apply Forall_clean; assumption).
  subst names. destruct Hres as [[_ Err]|[Hnnl (k & Hk & Hres)]]; [subst rr; apply Hsame, Eq|].
  destruct (rp_names s H pre0 r0 Hpre0 Hc0 E0) as [_ [[Hnp K2]|[Hnp (k0 & Hk0 & Hres0)]]]; [subst r0; contradiction|].
  destruct (resolves_det s _ _ _ _ _ Hg Hres (resolves_snoc_any s k0 pre0 r0 d0 n0 Hres0 Hat Hnl)) as [_ Err]. subst rr q.
  assert (Hor0 : Forall (ordinary (sepc s)) r0) by (apply (at_names_ordinary s H r0 root_oid d0 Hat)).
  assert (Hor : Forall (ordinary (sepc s)) (r0 ++ [n0])) by (apply Forall_app; split; [exact Hor0|constructor; [exact Hno0|constructor]]).
  rewrite (anp_abs_path s _ Hg Hor) in Ea. apply (abs_path_clean_inj (f_cfg s) (gi_lin s H)) in Ea; try (apply Forall_clean; assumption).
  apply app_inj_tail in Ea. destruct Ea as [<- <-]. split; [|reflexivity].
  unfold resolve in Hr. apply (resolve_ok s Hg) in Hr. destruct Hr as (r1 & E1 & Hc1 & K1).
  fold (resolve_path s (abs_path (sepc s) r0)) in E1.
  assert (Est : resolve_path s (abs_path (sepc s) r0) = Ok (abs_path (sepc s) r0)).
  { apply (linkfree_resolve_path s H (length r0) r0 d0); [lia|exact Hat|]. apply (resolves_nolink s k0 pre0 r0 Hres0). }
  rewrite Est in E1. assert (E2 : abs_path (sepc s) r0 = abs_path (sepc s) r1) by congruence.
    apply (abs_path_clean_inj (f_cfg s) (gi_lin s H)) in E2; try assumption. subst r1.
    destruct K1 as [[K1 _]|(_ & K1 & _)]; [contradiction|congruence].
Qed.

Lemma symlink_done s p t o s' : Ginv s -> within_limits s -> create_symlink p t false s = (Ok o, s') ->
  exists q pre n d, symlink_at s (make_string_path (f_cfg s) p) q /\
    place s (make_string_path (f_cfg s) q) pre n d /\ one_more s s' d n o /\ brand_new s s' d o /\
    o_mode (ob s' o) = N.lor S_IFLNK PERM_DEF /\
    o_body (ob s' o) = BFile (Some (make_string_path (f_cfg s) t)) /\
    o_size (ob s' o) = Z.of_nat (length t) /\
    (has_bit (o_mode (ob s d)) PERM_READ = true ->
       readlink s' (abs_path (sepc s) (pre ++ [n])) = Ok (make_string_path (f_cfg s) t) /\
       islink s' (abs_path (sepc s) (pre ++ [n])) = Ok true) /\
    (c_sep (f_cfg s) = slash -> forall pre0 n0 d0, p = abs_path (sepc s) (pre0 ++ [n0]) ->
       Forall (ordinary (sepc s)) (pre0 ++ [n0]) -> resolve s (abs_path (sepc s) pre0) true = Ok d0 -> is_dirobj s d0 = true ->
       has_bit (o_mode (ob s d0)) PERM_READ = true ->
       d = d0 /\ n = n0 /\ readlink s' p = Ok t /\ islink s' p = Ok true).
Proof.
  intros H W E. pose proof (wp_elim _ _ _ _ _ (wp_symlink s p t H W) E) as K. cbv beta in K.
  destruct K as [(_ & _ & e & Ke)|(q & Hq & _ & d & pre & n & [Ea Hn] & Hex & Hr & Hdm & K)]; [discriminate|].
  destruct K as [K|[(_ & K)|(K & _)]]; [|discriminate|discriminate].
  pose proof (file_made_ok s s' d n _ _ _ _ H K) as Hdo.
  destruct K as (Ko & OM & BN & Hm & Hb & Hs & Hl & _ & _). injection Ko as ->.
  assert (H' : Ginv s') by (pose proof (create_symlink_pres p t false s H) as K; rewrite E in K; exact K).
  pose proof (one_more_new_ext s s' d n H OM) as X.
  assert (Ec : f_cfg s' = f_cfg s) by (symmetry; apply X).
  exists q, pre, n, d. split; [exact Hq|]. split.
  { split; [|exact Hr]. apply anp_cons_names_of; [apply Ginv_good, H|destruct pre; discriminate|exact Hn|exact Ea]. }
  split; [exact OM|]. split; [exact BN|]. split; [exact Hm|]. split; [exact Hb|]. split.
  { rewrite Hs. cbn. unfold make_string_path, replace_char. rewrite map_length. reflexivity. }
  assert (Hlook : forall a b, Forall (ordinary (sepc s)) (a ++ [b]) -> resolve s (abs_path (sepc s) a) true = Ok d -> b = n ->
    has_bit (o_mode (ob s d)) PERM_READ = true ->
    readlink s' (abs_path (sepc s) (a ++ [b])) = Ok (make_string_path (f_cfg s) t) /\
    islink s' (abs_path (sepc s) (a ++ [b])) = Ok true).
  { intros a b Hab Hra -> Hrd.
    assert (Hd0 : d <> devnull_oid).
    { intros ->. pose proof (om_isdir _ _ _ _ _ OM) as K. rewrite (gi_null s H) in K. discriminate. }
    assert (Hra' : resolve s' (abs_path (sepc s) a) true = Ok d).
    { apply (ext_resolve s s' (Ginv_good s H) (Ginv_good s' H') X); assumption. }
    assert (He' : entry s' d n = Some (f_next s)).
    { unfold entry, ents. rewrite (om_dir _ _ _ _ _ OM). cbn. rewrite assoc_app. pose proof (om_was _ _ _ _ _ OM) as K. unfold entry in K. rewrite K. cbn. rewrite str_eqb_refl. reflexivity. }
    assert (Hrd' : has_bit (o_mode (ob s' d)) PERM_READ = true) by (rewrite (om_dir _ _ _ _ _ OM); exact Hrd).
    assert (Hlr : lresolve s' (abs_path (sepc s') (a ++ [n])) = Ok (f_next s)).
    { apply (lresolve_snoc s' (Ginv_good s' H')); [rewrite Ec; exact Hab|]. exists d. rewrite Ec. split; [exact Hra'|].
      split; [apply (entry_dirobj s' d n _ He')|]. auto. }
    assert (Hlk : is_link s' (f_next s) = true) by (unfold is_link; rewrite Hm; reflexivity).
    rewrite <- Ec. split.
    - unfold readlink. rewrite Hlr. cbn [rbind]. unfold is_link, S_ISLNK in Hlk. rewrite Hlk. cbn [negb].
      rewrite (ends_sep_clean (f_cfg s') (gi_lin s' H')) by (rewrite Ec; apply Forall_clean, Hab).
      unfold text_contents. rewrite Hb, Ec. reflexivity.
    - apply (islink_iff s' a n H'); [rewrite Ec; exact Hab|]. exists d, (f_next s). rewrite Ec. auto. }
  split; [intros Hrd; apply Hlook; auto|].
  intros Hsl pre0 n0 d0 -> Hab Hra Hd0 Hrd. rewrite make_string_path_slash in Hq by exact Hsl.
  destruct (symlink_spot s q pre0 n0 d0 pre n d H Hsl Hab Hra Hd0 Hrd Hq (conj Ea Hn) Hex Hr) as [-> ->].
  split; [reflexivity|]. split; [reflexivity|].
  destruct (Hlook pre0 n0 Hab Hra eq_refl Hrd) as [K1 K2]. split; [|exact K2].
  rewrite K1, make_string_path_slash by exact Hsl. reflexivity.
Qed.

Lemma symlink_failed s p t e s' : Ginv s -> within_limits s -> create_symlink p t false s = (Err e, s') ->
  unseen s s' \/ (e = OSErr EACCES /\ is_root s = false).
Proof.
  intros H W E. pose proof (wp_elim _ _ _ _ _ (wp_symlink s p t H W) E) as K. cbv beta in K.
  destruct K as [(K & _)|(q & _ & _ & d & pre & n & _ & _ & _ & _ & K)]; [left; exact K|].
  destruct K as [(K & _)|[(K & _)|(K & Hr & _)]]; [discriminate|left; exact K|]. right. injection K as ->. auto.
Qed.

(** ** link *)
Lemma add_entry_linked s d o : (1 <= o_nlink (ob s o))%Z -> d <> o ->
  wp (add_entry d o) s (fun r s' =>
    (s' = s /\ r <> Ok tt) \/
    (r = Ok tt /\ is_dirobj s d = true /\ entry s d (o_name (ob s o)) = None /\ linked s s' d o (o_name (ob s o)))).
Proof.
  intros Hl Hn. unfold add_entry. wstep. destruct (is_dirobj s d) eqn:Hd; cbn [negb]; [|wstep; left; split; [reflexivity|discriminate]].
  wstep. match goal with |- wp (if ?b then _ else _) _ _ => destruct b end; [wstep; left; split; [reflexivity|discriminate]|].
  wstep. unfold entry. destruct (assoc (o_name (ob s o)) (ents s d)) eqn:Ea; [wstep; left; split; [reflexivity|discriminate]|].
  destruct (link_obj_spec s d o Hn Hd) as (s1 & E1 & HL). apply wp_bind. unfold wp at 1. rewrite E1. cbn [fst snd].
  wstep. destruct (ln_o _ _ _ _ _ HL) as (i & Eo & _).
  match goal with |- wp (if ?b then _ else _) _ _ => assert (E2 : b = false) end.
  { rewrite Eo. cbn. apply Z.eqb_neq. lia. }
  rewrite E2. wstep. right. auto.
Qed.

Lemma resolve_follow_found s p f c o : Ginv s -> resolve_follow s p f c = Ok o -> is_dirobj s o = false ->
  o = devnull_oid \/ exists d n, entry s d n = Some o.
Proof.
  intros H. unfold resolve_follow, resolve_any. destruct f; intros E Hd.
  - destruct (resolve_found s p c o H E) as [K|(names & K)]; [left; exact K|]. right.
    destruct (names_cases names) as [->|(pre & n & ->)].
    + cbn in K. injection K as <-. rewrite (gi_root s H) in Hd. discriminate.
    + destruct (at_names_snoc_inv s pre n o K) as (d & _ & K2). eauto.
  - destruct (lresolve_inv s (Ginv_good s H) _ p o E) as [[_ ->]|(h & t & d & Hd2 & Hd3 & _ & [[_ ->]|[_ Ht]])].
    + rewrite (gi_root s H) in Hd. discriminate.
    + congruence.
    + right. eauto.
Qed.
Lemma entry_nlink s d n o : Ginv s -> entry s d n = Some o -> (1 <= o_nlink (ob s o))%Z.
Proof.
  intros H He. rewrite (gi_nlink s H o (proj1 (entry_lt s d n o H He))).
  assert (0 < refs s o).
  { destruct (refs s o) eqn:E; [|lia]. exfalso. apply (proj1 (refs_zero_iff s o H) E d n He). }
  destruct (is_dirobj s o); lia.
Qed.

Lemma rename_ext s o n : o <> devnull_oid -> ext s (mod_ob s o (fun x => wo_name x n)) /\ ext (mod_ob s o (fun x => wo_name x n)) s.
Proof.
  intros Ho. set (s2 := mod_ob s o (fun x => wo_name x n)).
  assert (He : forall d m, entry s2 d m = entry s d m).
  { intros d m. unfold entry, ents, s2. rewrite ob_mod. destruct (Nat.eqb_spec d o) as [->|]; reflexivity. }
  assert (Hm : forall x, o_mode (ob s2 x) = o_mode (ob s x)) by (intros x; unfold s2; rewrite ob_mod; destruct (Nat.eqb_spec x o) as [->|]; reflexivity).
  assert (Hb : forall x, o_body (ob s2 x) = o_body (ob s x)) by (intros x; unfold s2; rewrite ob_mod; destruct (Nat.eqb_spec x o) as [->|]; reflexivity).
  assert (Hn : devnull_name s2 = devnull_name s).
  { unfold devnull_name, s2. rewrite ob_mod. destruct (Nat.eqb_spec devnull_oid o); [congruence|reflexivity]. }
  split; constructor; try reflexivity; intros; rewrite ?He, ?Hm, ?Hb, ?Hn in *; auto.
Qed.

Definition hard_linked (s s' : fs) (d : oid) (n : str) (o : oid) : Prop :=
  one_more s s' d n o /\
  ob s' o = wo_name (wo_parent (wo_dev (wo_nlink (ob s o) (o_nlink (ob s o) + 1)) (o_dev (ob s d))) (Some d)) n /\
  f_next s' = f_next s /\ f_ino s' = f_ino s /\ f_mounts s' = f_mounts s.

Lemma wp_create_link s old new follow : Ginv s ->
  wp (create_link old new follow false) s (fun r s' =>
    (exists e, r = Err e /\ (s' = s \/ exists o n, resolve_follow s old follow true = Ok o /\ is_dirobj s o = false /\
         (s' = mod_ob s o (fun x => wo_name x n) \/ o = devnull_oid))) \/
    (exists o, r = Ok o /\ resolve_follow s old follow true = Ok o /\ is_dirobj s o = false /\
       (o = devnull_oid \/
        exists pre n d, anp s new = abs_path (sepc s) (pre ++ [n]) /\ Forall (ordinary (sepc s)) (pre ++ [n]) /\
        exists_ s (abs_path (sepc s) (pre ++ [n])) true = Ok false /\
        resolve s (abs_path (sepc s) pre) true = Ok d /\ is_dirm s d = true /\ d <> o /\ hard_linked s s' d n o))).
Proof.
  intros H. pose proof (Ginv_good s H) as Hg. unfold create_link. wstep. wstep.
  assert (Hself : forall e, exists e0 : exn, @Err oid e = Err e0 /\ (s = s \/ exists o n, resolve_follow s old follow true = Ok o /\ is_dirobj s o = false /\
         (s = mod_ob s o (fun x => wo_name x n) \/ o = devnull_oid))) by (intros e; exists e; auto).
  destruct (anp_names s new Hg) as (names & Hn & En). rewrite En. wstep.
  destruct (exists_ s (abs_path (sepc s) names) true) as [[|]|e] eqn:Ee; [wstep; left; apply Hself| |left; apply Hself].
  destruct (names_cases names) as [->|(pre & n & ->)]; [rewrite (exists_root s true H) in Ee; discriminate|].
  rewrite (splitpath_abs_path _ (linux_like_posix _ (gi_lin s H)) _ _ Hn). cbn [fst snd].
  destruct (ordinary_last _ _ _ Hn) as [Hpre Hno]. wstep.
  change (str_eqb (abs_path (sepc s) pre) []) with false. cbv iota. wstep.
  destruct (exists_ s (abs_path (sepc s) pre) false) as [pe|e]; [|left; apply Hself].
  apply wp_bind. destruct pe; cbn [negb]; [wstep|wstep; left; apply Hself]. cbv beta iota.
  destruct (ends_with_path_separator _ old); [wstep; left; apply Hself|].
  destruct (negb _ && _); [wstep; left; apply Hself|].
  apply wp_bind, wp_catch. wstep. destruct (resolve_follow s old follow true) as [o|e] eqn:Er.
  2:{ destruct e; try (wstep; left; apply Hself). }
  wstep. destruct (has_bit (o_mode (ob s o)) S_IFDIR) eqn:Eb; [wstep; left; apply Hself|].
  destruct (root_not_nodir s o H Eb) as [Hr Hd].
  unfold mod_obj. wstep.
  assert (G := gsame_rename_file s o n Hd Hr). set (s2 := mod_ob s o (fun x => wo_name x n)) in *.
  assert (H2 := gsame_Ginv s s2 G H).
  assert (A : addable s2 o).
  { constructor.
    - rewrite (gs_next _ _ G). apply (resolve_follow_lt s old follow true o H Er).
    - exact Hr.
    - unfold s2. rewrite ob_mod_same. cbn. exact Hno.
    - right. unfold s2. rewrite ob_mod_same. cbn. exact Eb.
    - rewrite (gs_ents _ _ G). unfold ents. unfold is_dirobj in Hd. destruct (o_body (ob s o)); [discriminate|reflexivity]. }
  destruct (Nat.eq_dec o devnull_oid) as [Hnull|Hnull].
  { apply wp_bind. apply wp_intro. intros [[]|e] s3 _; cbv beta iota.
    - wstep. right. exists o. auto.
    - left. exists e. split; [reflexivity|]. right. exists o, n. auto. }
  assert (Hfail : forall e, exists e0 : exn, @Err oid e = Err e0 /\ (s2 = s \/ exists o0 n0, Ok o = Ok o0 /\ is_dirobj s o0 = false /\
         (s2 = mod_ob s o0 (fun x => wo_name x n0) \/ o0 = devnull_oid))).
  { intros e. exists e. split; [reflexivity|]. right. exists o, n. split; [reflexivity|]. split; [exact Hd|]. left. reflexivity. }
  destruct (resolve_follow_found s old follow true o H Er Hd) as [K|(d0 & n0 & He0)]; [contradiction|].
  assert (Hnl := entry_nlink s d0 n0 o H He0).
  apply wp_bind. unfold add_object. change (str_eqb (abs_path (sepc s) pre) []) with false. cbv iota. apply wp_bind. wstep.
  destruct (resolve s2 (abs_path (sepc s) pre) true) as [d|e] eqn:Ep; cbv beta iota; [|left; apply Hfail].
  wstep. wstep. destruct (S_ISDIR (o_mode (ob s2 d))) eqn:Edm; cbn [negb]; [wstep; cbv beta iota|wstep; left; apply Hfail].
  assert (Hdo : d <> o).
  { intros ->. unfold s2 in Edm. rewrite ob_mod_same in Edm. cbn in Edm. apply isdir_has_ifdir in Edm. congruence. }
  assert (Eds : ob s2 d = ob s d) by (unfold s2; rewrite ob_mod; destruct (Nat.eqb_spec d o); [contradiction|reflexivity]).
  eapply wp_conseq; [apply (add_entry_linked s2 d o); [unfold s2; rewrite ob_mod_same; exact Hnl|exact Hdo]|].
  intros r s3 [[-> Hr3]|(-> & Hdd & Hen & HL)]; cbv beta iota.
  { destruct r as [[]|e]; [contradiction|]. left. apply Hfail. }
  wstep. right. exists o. split; [reflexivity|]. split; [reflexivity|]. split; [exact Hd|]. right. exists pre, n, d.
  split; [reflexivity|]. split; [exact Hn|]. split; [exact Ee|].
  assert (Hd0 : d <> devnull_oid) by (intros ->; rewrite (gi_null s2 H2) in Hdd; discriminate).
  destruct (rename_ext s o n Hnull) as [X1 X2]. fold s2 in X1, X2.
  split. { apply (ext_resolve s2 s (Ginv_good s2 H2) Hg X2); [exact Hd0|exact Ep]. }
  split. { unfold is_dirm. rewrite <- Eds. exact Edm. }
  split; [exact Hdo|].
  assert (Enm : o_name (ob s2 o) = n) by (unfold s2; rewrite ob_mod_same; reflexivity). rewrite Enm in *.
  destruct HL as [R D (i & Eo & Hi) X].
  assert (Eino : o_ino (ob s2 o) = o_ino (ob s o)) by (unfold s2; rewrite ob_mod_same; reflexivity).
  rewrite Eino in Hi. destruct (o_ino (ob s o)) as [j|] eqn:Ej.
  2:{ exfalso. apply (gi_ino_ent s H d0 n0 o); [apply entry_In, He0|exact Ej]. }
  destruct Hi as [-> Hi].
  assert (Eds2 : ents s2 d = ents s d) by apply (gs_ents _ _ G).
  split.
  { constructor.
    - unfold is_dirobj. rewrite <- Eds. exact Hdd.
    - unfold entry. rewrite <- Eds2. exact Hen.
    - rewrite D, Eds2, Eds. reflexivity.
    - intros x Hx1 Hx2. rewrite X by assumption. unfold s2. rewrite ob_mod. destruct (Nat.eqb_spec x o); [contradiction|reflexivity].
    - clear -R. unfold s2, mod_ob in R. destruct s, s3; steq. }
  split.
  { rewrite Eo. unfold s2. rewrite ob_mod_same. rewrite ob_mod. destruct (Nat.eqb_spec d o); [contradiction|].
    clear -Ej. destruct (ob s o). cbn in *. subst. reflexivity. }
  split; [rewrite R; reflexivity|]. split; [rewrite Hi; reflexivity|rewrite R; reflexivity].
Qed.

Lemma hard_linked_ext s s' d n o : Ginv s -> hard_linked s s' d n o -> is_dirobj s o = false -> o <> devnull_oid -> ext s s'.
Proof.
  intros H (OM & Eo & _) Hdo Hnull. destruct OM as [Hd Hw D X R].
  constructor; try (rewrite R; reflexivity).
  - unfold devnull_name. rewrite X; [reflexivity| |congruence]. intros K. pose proof (gi_null s H) as Hz. rewrite K in Hz. congruence.
  - intros e m x K. destruct (Nat.eq_dec e d) as [->|Ne].
    + unfold entry, ents. rewrite D. cbn. rewrite assoc_app. unfold entry in K. rewrite K. reflexivity.
    + destruct (Nat.eq_dec e o) as [->|Ne2]; [rewrite (entry_dirobj s o m x K) in Hdo; discriminate|].
      unfold entry, ents in *. rewrite X by assumption. exact K.
  - intros names x K. destruct (Nat.eq_dec x d) as [->|Ne]; [rewrite D; reflexivity|].
    destruct (Nat.eq_dec x o) as [->|Ne2]; [rewrite Eo; reflexivity|]. rewrite X by assumption. reflexivity.
  - intros names x data K Eb. destruct (Nat.eq_dec x d) as [->|Ne].
    + unfold is_dirobj in Hd. rewrite Eb in Hd. discriminate.
    + destruct (Nat.eq_dec x o) as [->|Ne2]; [rewrite Eo; exact Eb|]. rewrite X by assumption. exact Eb.
Qed.

Lemma link_done s old new follow o s' : Ginv s -> create_link old new follow false s = (Ok o, s') -> o <> devnull_oid ->
  resolve_follow s old follow true = Ok o /\ is_dirobj s o = false /\
  exists pre n d, place s new pre n d /\ is_dirobj s d = true /\ hard_linked s s' d n o /\
    (follow = true -> resolve s' old true = Ok o) /\
    (is_link s o = false -> ~ null_clash s d n -> resolve s' (abs_path (sepc s) (pre ++ [n])) false = Ok o).
Proof.
  intros H E Hnull. pose proof (wp_elim _ _ _ _ _ (wp_create_link s old new follow H) E) as K. cbv beta in K.
  destruct K as [(e & Ke & _)|(o1 & Ko & Er & Hd & K)]; [discriminate|]. injection Ko as <-.
  split; [exact Er|]. split; [exact Hd|]. destruct K as [K|(pre & n & d & Ea & Hn & Hex & Hr & Hdm & Hdo & HL)]; [contradiction|].
  assert (H' : Ginv s') by (pose proof (create_link_pres old new follow false s H) as K; rewrite E in K; exact K).
  pose proof (hard_linked_ext s s' d n o H HL Hd Hnull) as X.
  exists pre, n, d. split.
  { split; [|exact Hr]. apply anp_cons_names_of; [apply Ginv_good, H|destruct pre; discriminate|exact Hn|exact Ea]. }
  split; [apply HL|]. split; [exact HL|]. split.
  - intros ->. apply (ext_resolve s s' (Ginv_good s H) (Ginv_good s' H') X); [exact Hnull|exact Er].
  - intros Hlk Hnc. apply (lookup_one_more s s' d pre n o H H' X (proj1 HL) Hdo Hn Hr Hdm Hex); [|exact Hnc].
    unfold is_link. destruct HL as (_ & -> & _). exact Hlk.
Qed.
Lemma link_failed s old new follow e s' : Ginv s -> create_link old new follow false s = (Err e, s') ->
  s' = s \/ exists o n, resolve_follow s old follow true = Ok o /\ is_dirobj s o = false /\
    (s' = mod_ob s o (fun x => wo_name x n) \/ o = devnull_oid).
Proof.
  intros H E. pose proof (wp_elim _ _ _ _ _ (wp_create_link s old new follow H) E) as K. cbv beta in K.
  destruct K as [(e0 & _ & K)|(o1 & Ko & _)]; [exact K|discriminate].
Qed.

(** ** remove *)
Lemma wp_remove_shape s p : Ginv s ->
  wp (remove p) s (fun r s' =>
    (s' = s /\ exists e, r = Err e) \/
    exists names, anp s p = abs_path (sepc s) names /\ Forall (ordinary (sepc s)) names /\
      (fst (remove_object (abs_path (sepc s) names) s), snd (remove_object (abs_path (sepc s) names) s)) = (r, s') /\
      (exists_ s (abs_path (sepc s) names) false = Ok false \/
       exists o, resolve s (abs_path (sepc s) names) false = Ok o /\
         (is_dirm s o = false \/ exists l, lresolve s (abs_path (sepc s) names) = Ok l /\ is_link s l = true))).
Proof.
  intros H. pose proof (Ginv_good s H) as Hg. unfold remove. wstep. wstep.
  destruct (anp_names s p Hg) as (names & Hn & En). rewrite En.
  rewrite (Ginv_win s H), (Ginv_mac s H).
  assert (Hself : forall e, s = s /\ exists e0, @Err unit e = Err e0) by (intros e; split; [reflexivity|eauto]).
  apply wp_bind.
  match goal with |- wp ?m s ?Q => assert (Hm : wp m s (fun _ s1 => s1 = s)) end.
  { destruct (ends_with_path_separator _ p); cbn [when]; [|wstep; reflexivity].
    unfold handle_broken_link. wstep. wstep. destruct (islink s _) as [[|]|e]; try wstep; try reflexivity.
    destruct (exists_ s _ false) as [[|]|e]; cbn [negb]; try wstep; reflexivity. }
  eapply wp_conseq; [exact Hm|]. clear Hm. intros [[]|e] s1 ->; cbv beta iota; [|left; apply Hself].
  wstep. destruct (exists_ s (abs_path (sepc s) names) false) as [ex|e] eqn:Eex; [|left; apply Hself].
  apply wp_bind.
  match goal with |- wp ?m s ?Q => assert (Hm : wp m s (fun r s1 => s1 = s /\ (r = Ok tt -> 
      (ex = false \/
       exists o, resolve s (abs_path (sepc s) names) false = Ok o /\
         (is_dirm s o = false \/ exists l, lresolve s (abs_path (sepc s) names) = Ok l /\ is_link s l = true))))) end.
  { destruct ex; [|wstep; auto]. wstep.
    destruct (resolve s (abs_path (sepc s) names) false) as [o|e] eqn:Er; [|split; [reflexivity|discriminate]].
    wstep. unfold is_dirm. destruct (S_ISDIR (o_mode (ob s o))) eqn:Ed.
    - wstep. destruct (lresolve s _) as [l|e] eqn:El; [|split; [reflexivity|discriminate]].
      wstep. unfold is_link. destruct (S_ISLNK (o_mode (ob s l))) eqn:Elk; cbn [negb]; [|wstep; split; [reflexivity|discriminate]].
      destruct (ends_with_char _ p); wstep; (split; [reflexivity|]); [discriminate|]. intros _. right. exists o. split; [reflexivity|]. right. eauto.
    - wstep. destruct (raise_for_sep s p o true false) as [[]|e]; (split; [reflexivity|]); [|discriminate]. intros _. right. eauto. }
  eapply wp_conseq; [exact Hm|]. clear Hm. intros [[]|e] s1 [-> K]; cbv beta iota; [|left; apply Hself]. specialize (K eq_refl).
  apply wp_intro. intros r s' E. right. exists names. split; [reflexivity|]. split; [exact Hn|]. rewrite E. split; [reflexivity|].
  destruct K as [->|K]; auto.
Qed.

(** the last name of a path that is not a link *)
Lemma entry_rp s pre n d x c : Ginv s -> null_free s -> Forall (ordinary (sepc s)) (pre ++ [n]) ->
  resolve s (abs_path (sepc s) pre) c = Ok d -> entry s d n = Some x -> is_link s x = false ->
  is_null s (pre ++ [n]) \/
  exists rr, resolve_path s (abs_path (sepc s) (pre ++ [n])) = Ok (abs_path (sepc s) rr) /\ Forall (ordinary (sepc s)) rr /\ at_names s rr = Some x.
Proof.
  intros H NF Hn Hr He Hl. destruct (ordinary_last _ _ _ Hn) as [Hpre Hno].
  destruct (is_null_dec s (pre ++ [n])) as [K|Hnn]; [left; exact K|right].
  unfold resolve in Hr. apply (resolve_ok s (Ginv_good s H)) in Hr. destruct Hr as (r0 & E0 & Hc0 & K).
  assert (Hdd : is_dirobj s d = true) by apply (entry_dirobj s d n x He).
  destruct K as [[_ ->]|(Hnr & Hat & _)]; [rewrite (gi_null s H) in Hdd; discriminate|].
  fold (resolve_path s (abs_path (sepc s) pre)) in E0.
  assert (Hnp : ~ is_null s pre).
  { intros K. destruct (rp_names s H pre r0 Hpre Hc0 E0) as [_ [[_ ->]|[K2 _]]]; contradiction. }
  exists (r0 ++ [n]). assert (Ha : at_names s (r0 ++ [n]) = Some x) by (rewrite (at_names_snoc s r0 n d Hat); exact He).
  split; [apply (rp_snoc s H pre r0 d n x); assumption|]. split; [apply (at_names_ordinary s H _ root_oid x Ha)|exact Ha].
Qed.
Lemma same_entry s pre n d x c c' o : Ginv s -> null_free s -> Forall (ordinary (sepc s)) (pre ++ [n]) ->
  resolve s (abs_path (sepc s) pre) c = Ok d -> entry s d n = Some x -> is_link s x = false ->
  resolve s (abs_path (sepc s) (pre ++ [n])) c' = Ok o -> is_null s (pre ++ [n]) \/ o = x.
Proof.
  intros H NF Hn Hr He Hl Ho. destruct (entry_rp s pre n d x c H NF Hn Hr He Hl) as [K|(rr & Erp & Hor & Hat)]; [left; exact K|right].
  unfold resolve in Ho. apply (resolve_ok s (Ginv_good s H)) in Ho. destruct Ho as (r1 & E1 & Hc1 & K).
  fold (resolve_path s (abs_path (sepc s) (pre ++ [n]))) in E1. rewrite Erp in E1.
  assert (E2 : abs_path (sepc s) rr = abs_path (sepc s) r1) by congruence.
  apply (abs_path_clean_inj (f_cfg s) (gi_lin s H)) in E2; try assumption; [|apply Forall_clean, Hor]. subst r1.
  destruct K as [[K _]|(_ & K & _)]; [rewrite (NF _ K) in Hat; discriminate|congruence].
Qed.
Lemma entry_exists s pre n d x c : Ginv s -> null_free s -> Forall (ordinary (sepc s)) (pre ++ [n]) ->
  resolve s (abs_path (sepc s) pre) c = Ok d -> entry s d n = Some x -> is_link s x = false ->
  exists_ s (abs_path (sepc s) (pre ++ [n])) false = Ok true.
Proof.
  intros H NF Hn Hr He Hl. destruct (entry_rp s pre n d x c H NF Hn Hr He Hl) as [[_ K]|(rr & Erp & Hor & Hat)].
  - apply exists_null; [exact K|discriminate].
  - apply (exists_of_rp s H (pre ++ [n]) rr x Hn); [apply Forall_clean, Hor|exact Erp|exact Hat].
Qed.
(** when the path itself is spelled like the null device, no link can be there *)
Lemma null_resolve s names c : Ginv s -> Forall (ordinary (sepc s)) names -> is_null s names ->
  forall o, resolve s (abs_path (sepc s) names) c = Ok o -> o = devnull_oid.
Proof.
  intros H Hn Hnull o Ho. unfold resolve in Ho. apply (resolve_ok s (Ginv_good s H)) in Ho. destruct Ho as (r1 & E1 & Hc1 & K).
  destruct (rp_names s H names r1 Hn Hc1 E1) as [_ [[_ ->]|[K2 _]]]; [|contradiction].
  destruct K as [[_ K]|(K & _)]; [exact K|contradiction].
Qed.

Definition file_unlinked (s s' : fs) (d : oid) (n : str) (x : oid) : Prop :=
  one_less s s' d n x /\
  f_mounts s' = if Z.eqb (o_nlink (ob s x)) 1 then add_used (f_mounts s) (o_dev (ob s x)) (- o_size (ob s x)) else f_mounts s.

Lemma ents_file s x : is_dirobj s x = false -> ents s x = [].
Proof. unfold is_dirobj, ents. destruct (o_body (ob s x)); [discriminate|reflexivity]. Qed.

Lemma remove_object_none s names : Ginv s -> Forall (ordinary (sepc s)) names ->
  (names = [] \/ exists pre n, names = pre ++ [n] /\ forall d x, resolve s (abs_path (sepc s) pre) false = Ok d -> entry s d n = Some x -> False) ->
  wp (remove_object (abs_path (sepc s) names)) s (fun r s' => s' = s /\ exists e, r = Err e).
Proof.
  intros H Hn Hc. eapply wp_conseq; [apply (wp_remove_object s _ names H); [apply anp_abs_path; [apply Ginv_good, H|exact Hn]|exact Hn]|].
  intros r s' [(K & K2 & _)|(pre & n & d & x & E & Hr & He & _)]; [auto|]. exfalso.
  destruct Hc as [->|(pre' & n' & -> & K)]; [destruct pre; discriminate|]. apply app_inj_tail in E. destruct E as [-> ->]. eauto.
Qed.

(** either there is an entry to remove or nothing happens *)
Lemma resolve_dec s p c : (exists d, resolve s p c = Ok d) \/ (forall d, resolve s p c <> Ok d).
Proof. destruct (resolve s p c) as [d|e]; [left; eauto|right; intros; discriminate]. Qed.
Lemma remove_target s names : (names = [] \/ exists pre n, names = pre ++ [n] /\ forall d x, resolve s (abs_path (sepc s) pre) false = Ok d -> entry s d n = Some x -> False) \/
  exists pre n d x, names = pre ++ [n] /\ resolve s (abs_path (sepc s) pre) false = Ok d /\ entry s d n = Some x.
Proof.
  destruct (names_cases names) as [->|(pre & n & ->)]; [left; left; reflexivity|].
  destruct (resolve_dec s (abs_path (sepc s) pre) false) as [(d & Hd)|K].
  2:{ left. right. exists pre, n. split; [reflexivity|]. intros d x Hd. exfalso. apply (K d Hd). }
  destruct (entry s d n) as [x|] eqn:Ex; [right; exists pre, n, d, x; auto|].
  left. right. exists pre, n. split; [reflexivity|]. intros d' x Hd'. rewrite Hd in Hd'. injection Hd' as <-. congruence.
Qed.

Lemma remove_spec s p : Ginv s -> null_free s -> honest_dirs s -> not_null_path s p ->
  wp (remove p) s (fun r s' =>
    (s' = s /\ exists e, r = Err e) \/
    (r = Ok tt /\ exists pre n d x, anp s p = abs_path (sepc s) (pre ++ [n]) /\ Forall (ordinary (sepc s)) (pre ++ [n]) /\
       resolve s (abs_path (sepc s) pre) false = Ok d /\ entry s d n = Some x /\ is_dirobj s x = false /\
       file_unlinked s s' d n x)).
Proof.
  intros H NF HD Hnp. eapply wp_conseq; [apply (wp_remove_shape s p H)|].
  intros r s' [K|(names & Ea & Hn & E & Hwhy)]; [left; exact K|].
  assert (Ero : remove_object (abs_path (sepc s) names) s = (r, s')) by (rewrite <- E; destruct (remove_object _ s); reflexivity). clear E.
  destruct (remove_target s names) as [Hno|(pre & n & d & x & -> & Hr & He)].
  { left. apply (wp_elim _ _ _ _ _ (remove_object_none s names H Hn Hno) Ero). }
  assert (Hxd : is_dirobj s x = false).
  { destruct (is_dirobj s x) eqn:Exd; [|reflexivity]. exfalso.
    assert (Hxl : is_link s x = false) by (apply (gd_dnl s (Ginv_good s H)), Exd).
    pose proof (entry_exists s pre n d x false H NF Hn Hr He Hxl) as Kex.
    destruct Hwhy as [K|(o & Ho & [K|(l & Kl & Kll)])].
    - congruence.
    - destruct (same_entry s pre n d x false false o H NF Hn Hr He Hxl Ho) as [Knull| ->].
      + revert Knull. apply Hnp, anp_cons_names_of; [apply Ginv_good, H|destruct pre; discriminate|exact Hn|exact Ea].
      + rewrite <- (HD x) in Exd. congruence.
    - apply (lresolve_snoc s (Ginv_good s H)) in Kl; [|exact Hn]. destruct Kl as (d' & Hr' & _ & _ & He').
      apply resolve_true_false in Hr'; [|apply Ginv_good, H]. change (resolve s (abs_path (sepc s) pre) false = Ok d') in Hr'.
      assert (d' = d) by congruence. subst d'. assert (l = x) by congruence. subst l. congruence. }
  pose proof (wp_elim _ _ _ _ _ (wp_remove_object_leaf s _ pre n d x H (anp_abs_path s _ (Ginv_good s H) Hn) Hn Hr He (ents_file s x Hxd)) Ero) as K.
  destruct K as [(-> & -> & _)|[(-> & -> & _)|(-> & OL & _ & Hm)]]; [left; eauto|left; eauto|]. right. split; [reflexivity|].
  exists pre, n, d, x. repeat (split; [assumption|]). exact (Hm Hxd).
Qed.

(** ** rmdir *)
Lemma rmdir_spec s p : Ginv s -> null_free s -> not_null_path s p ->
  wp (rmdir p false) s (fun r s' =>
    (s' = s /\ exists e, r = Err e) \/
    (r = Ok tt /\ exists pre n d x, anp s p = abs_path (sepc s) (pre ++ [n]) /\ Forall (ordinary (sepc s)) (pre ++ [n]) /\
       resolve s (abs_path (sepc s) pre) false = Ok d /\ entry s d n = Some x /\ ents s x = [] /\
       islink s (abs_path (sepc s) (pre ++ [n])) = Ok false /\
       (is_link s x = false -> has_bit (o_mode (ob s x)) S_IFDIR = true /\ resolve s (abs_path (sepc s) (pre ++ [n])) true = Ok x) /\
       one_less s s' d n x /\ (is_dirobj s x = true -> f_mounts s' = f_mounts s))).
Proof.
  intros H NF Hnp. pose proof (Ginv_good s H) as Hg. unfold rmdir. wstep.
  assert (Hself : forall e, s = s /\ exists e0, @Err unit e = Err e0) by (intros e; split; [reflexivity|eauto]).
  destruct (str_eqb p dot); [wstep; left; apply Hself|]. cbv zeta. wstep.
  destruct (anp_names s p Hg) as (names & Hn & En). rewrite En. rewrite (Ginv_win s H), (Ginv_mac s H).
  wstep. unfold confirmdir. destruct (resolve s (abs_path (sepc s) names) true) as [d0|e] eqn:Er; cbn [rbind]; [|left; apply Hself].
  destruct (has_bit (o_mode (ob s d0)) S_IFDIR) eqn:Eb; cbn [negb]; [|left; apply Hself].
  apply wp_bind. wstep. destruct (islink s (abs_path (sepc s) names)) as [l|e] eqn:El; cbv beta iota; [|left; apply Hself].
  rewrite andb_false_r. rewrite orb_true_r, andb_true_r. destruct l; [wstep; left; apply Hself|].
  wstep. rewrite Er. wstep. destruct (truthy_contents s d0) eqn:Et; [wstep; left; apply Hself|].
  apply wp_intro. intros r s' Ero.
  destruct (remove_target s names) as [Hno|(pre & n & d & x & -> & Hr & He)].
  { left. apply (wp_elim _ _ _ _ _ (remove_object_none s names H Hn Hno) Ero). }
  assert (Hx : is_link s x = false -> d0 = x).
  { intros Hxl. destruct (same_entry s pre n d x false true d0 H NF Hn Hr He Hxl Er) as [K|K]; [|exact K]. exfalso. revert K. apply Hnp, anp_cons_names_of; [exact Hg|destruct pre; discriminate|exact Hn|exact En]. }
  assert (Hxe : ents s x = []).
  { destruct (is_link s x) eqn:Exl.
    - apply ents_file. destruct (is_dirobj s x) eqn:K; [|reflexivity]. rewrite (gd_dnl s Hg x K) in Exl. discriminate.
    - rewrite <- (Hx eq_refl). unfold truthy_contents in Et. unfold ents. destruct (o_body (ob s d0)) as [[|]|]; [reflexivity|discriminate|reflexivity]. }
  pose proof (wp_elim _ _ _ _ _ (wp_remove_object_leaf s _ pre n d x H (anp_abs_path s _ Hg Hn) Hn Hr He Hxe) Ero) as K.
  destruct K as [(-> & -> & _)|[(-> & -> & _)|(-> & OL & Hm & _)]]; [left; eauto|left; eauto|]. right. split; [reflexivity|].
  exists pre, n, d, x. do 6 (split; [first [reflexivity|assumption]|]). split; [|split; assumption].
  intros Hxl. rewrite <- (Hx Hxl). split; assumption.
Qed.
Lemma rmdir_real s p s' pre n d : Ginv s -> null_free s -> not_null_path s p -> rmdir p false s = (Ok tt, s') ->
  anp s p = abs_path (sepc s) (pre ++ [n]) -> Forall (ordinary (sepc s)) (pre ++ [n]) ->
  resolve s (abs_path (sepc s) pre) true = Ok d -> has_bit (o_mode (ob s d)) PERM_READ = true ->
  exists x, entry s d n = Some x /\ is_link s x = false /\ has_bit (o_mode (ob s x)) S_IFDIR = true /\ ents s x = [] /\
    one_less s s' d n x /\ (is_dirobj s x = true -> f_mounts s' = f_mounts s).
Proof.
  intros H NF Hnp E Ea Hn Hr Hrd. pose proof (Ginv_good s H) as Hg.
  pose proof (wp_elim _ _ _ _ _ (rmdir_spec s p H NF Hnp) E) as K. cbv beta in K.
  destruct K as [(_ & e & K)|(_ & pre' & n' & d' & x & Ea' & Hn' & Hr' & He & Hx & Hil & Hlk & OL & Hm)]; [discriminate|].
  rewrite Ea in Ea'. apply (abs_path_clean_inj (f_cfg s) (gi_lin s H)) in Ea'; try (apply Forall_clean; assumption).
  apply app_inj_tail in Ea'. destruct Ea' as [<- <-].
  apply resolve_true_false in Hr as Hrf; [|exact Hg]. rewrite Hrf in Hr'. injection Hr' as <-.
  exists x. split; [exact He|]. assert (Hxl : is_link s x = false).
  { destruct (is_link s x) eqn:K; [|reflexivity]. exfalso.
    assert (K2 : islink s (abs_path (sepc s) (pre ++ [n])) = Ok true) by (apply (islink_iff s pre n H Hn); exists d, x; auto). congruence. }
  split; [exact Hxl|]. split; [apply Hlk, Hxl|]. auto.
Qed.
