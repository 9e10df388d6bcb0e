(** * Links, directories, device nodes and mount points keep the graph invariant. *)
From Verif Require Export GraphOps3.

Lemma create_file_internally_pres p mode c sz md um : preserves Ginv (create_file_internally p mode c sz md um).
Proof. intros s H. apply (create_file_internally_inv s p mode c sz md um H). Qed.
Lemma create_file_pres p mode c sz md um : preserves Ginv (create_file p mode c sz md um).
Proof. apply create_file_internally_pres. Qed.

Lemma create_symlink_pres p t md : preserves Ginv (create_symlink p t md).
Proof.
  unfold create_symlink. pres; first [apply remove_object_pres|apply create_file_internally_pres].
Qed.
Lemma os_symlink_pres a b : preserves Ginv (os_symlink a b).
Proof. unfold os_symlink. pres. apply create_symlink_pres. Qed.

(** ** Hard links *)
Lemma lresolve_found s p o : Ginv s -> lresolve s p = Ok o ->
  o = root_oid \/ o < f_next s.
Proof.
  intros H E. destruct (lresolve_inv s (Ginv_good s H) _ p o E) as [[_ ->]|(h & t & d & Hd & _ & _ & [[_ ->]|[_ Ht]])].
  - left; reflexivity.
  - right. apply (resolve_lt s h true d H Hd).
  - right. apply (entry_lt s d t o H Ht).
Qed.
Lemma resolve_follow_lt s p f c o : Ginv s -> resolve_follow s p f c = Ok o -> o < f_next s.
Proof.
  intros H. unfold resolve_follow, resolve_any. destruct f; intros E; [apply (resolve_lt s p c o H E)|].
  destruct (lresolve_found s p o H E) as [->|K]; [|exact K]. pose proof (gi_next s H). unfold root_oid. lia.
Qed.

Lemma gsame_rename_file s o nm : is_dirobj s o = false -> o <> root_oid -> gsame s (mod_ob s o (fun x => wo_name x nm)).
Proof.
  intros Hd Hr. apply gsame_mod; [|congruence]. unfold is_dirobj in Hd.
  constructor; cbn; auto; destruct (o_body (ob s o)); try discriminate; exact I.
Qed.

Lemma root_not_nodir s o : Ginv s -> has_bit (o_mode (ob s o)) S_IFDIR = false -> o <> root_oid /\ is_dirobj s o = false.
Proof.
  intros H Hb. split.
  - intros ->. rewrite (gi_dirbit s H root_oid (gi_root s H)) in Hb. discriminate.
  - destruct (is_dirobj s o) eqn:E; [|reflexivity]. rewrite (gi_dirbit s H o E) in Hb. discriminate.
Qed.

Lemma create_link_pres a b f md : preserves Ginv (create_link a b f md).
Proof.
  intros s H. change (wp (create_link a b f md) s (fun _ s' => Ginv s')).
  pose proof (Ginv_good s H) as Hg. unfold create_link. wstep. wstep.
  destruct (anp_names s b Hg) as (names & Hn & En). rewrite En. wstep.
  destruct (exists_ s (abs_path (sepc s) names) true) as [[|]|e] eqn:Ee; [wstep; exact H| |exact H].
  destruct (names_cases names) as [->|(pre & n & ->)]; [rewrite (exists_root s true H) in Ee; discriminate|].
  rewrite (splitpath_abs_path _ (linux_like_posix _ (gi_lin s H)) _ _ Hn). cbn [fst snd].
  destruct (ordinary_last _ _ _ Hn) as [Hpre Hno]. wstep.
  change (str_eqb (abs_path (sepc s) pre) []) with false. cbv iota. wstep.
  destruct (exists_ s (abs_path (sepc s) pre) false) as [pe|e]; [|exact H].
  apply wp_bind.
  match goal with |- wp ?m s ?Q => assert (Hm : wp m s (fun _ s1 => Ginv s1 /\ f_cfg s1 = f_cfg s)) end.
  { destruct pe; cbn [negb]; [wstep; split; [exact H|reflexivity]|]. destruct md; [|wstep; split; [exact H|reflexivity]].
    apply wp_bind. eapply wp_conseq; [apply wp_and; [apply (create_dir_inv 2 s _ PERM_DEF H)|apply wp_cfg; intros; apply create_dir_cfg]|].
    intros [x|e] s1 [[H1 _] Ec]; cbv beta iota; [wstep|]; split; assumption. }
  eapply wp_conseq; [exact Hm|]. clear Hm. intros [[]|e] s1 [H1 Ec]; cbv beta iota; [|exact H1].
  destruct (ends_with_path_separator _ a); [wstep; exact H1|].
  destruct (negb _ && _); [wstep; exact H1|].
  apply wp_bind, wp_catch. wstep. destruct (resolve_follow s1 a f true) as [o|e] eqn:Er.
  2:{ destruct e; try (wstep; exact H1). }
  wstep. destruct (has_bit (o_mode (ob s1 o)) S_IFDIR) eqn:Eb; [wstep; exact H1|].
  destruct (root_not_nodir s1 o H1 Eb) as [Hr Hd].
  unfold mod_obj. wstep.
  assert (G := gsame_rename_file s1 o n Hd Hr). set (s2 := mod_ob s1 o (fun x => wo_name x n)) in *.
  assert (H2 := gsame_Ginv s1 s2 G H1).
  assert (A : addable s2 o).
  { constructor.
    - rewrite (gs_next _ _ G). apply (resolve_follow_lt s1 a f true o H1 Er).
    - exact Hr.
    - unfold s2. rewrite ob_mod_same. cbn. rewrite Ec. exact Hno.
    - right. unfold s2. rewrite ob_mod_same. cbn. exact Eb.
    - rewrite (gs_ents _ _ G). unfold ents. unfold is_dirobj in Hd. destruct (o_body (ob s1 o)); [discriminate|reflexivity]. }
  apply wp_bind. eapply wp_conseq; [apply (wp_add_object s2 _ o H2 A)|].
  intros [[]|e] s3 [H3 _]; cbv beta iota; [wstep|]; exact H3.
Qed.
Lemma os_link_pres a b : preserves Ginv (os_link a b).
Proof. unfold os_link. pres. apply create_link_pres. Qed.

(** ** Directories *)
Lemma new_dir_add_inv s p n perm : Ginv s -> ordinary (sepc s) n ->
  wp (o <- new_dir n perm ;; add_object p o) s (fun r s' => Ginv s').
Proof.
  intros H Hn. unfold new_dir. apply wp_bind, wp_alloc. cbv beta iota.
  eapply wp_conseq; [apply wp_add_object|intros r s' [K _]; exact K].
  - apply Ginv_alloc; [exact H|left; reflexivity|intros _; apply lor_ifdir].
  - apply addable_alloc; [exact H|exact Hn|left; reflexivity|intros _; apply lor_ifdir].
Qed.
Lemma new_file_add_inv s p n perm : Ginv s -> ordinary (sepc s) n ->
  wp (o <- new_file n perm ;; add_object p o) s (fun r s' => Ginv s').
Proof.
  intros H Hn. unfold new_file. apply wp_bind, wp_alloc. cbv beta iota.
  eapply wp_conseq; [apply wp_add_object|intros r s' [K _]; exact K].
  - apply Ginv_alloc; [exact H|right; eexists; reflexivity|discriminate].
  - apply addable_alloc; [exact H|exact Hn|right; eexists; reflexivity|discriminate].
Qed.

Lemma makedir_pres p mode : preserves Ginv (makedir p mode).
Proof.
  intros s H. change (wp (makedir p mode) s (fun _ s' => Ginv s')).
  pose proof (Ginv_good s H) as Hg. unfold makedir. wstep.
  destruct (str_eqb _ []); [wstep; exact H|]. wstep. rewrite (Ginv_win s H).
  set (dn := path_without_trailing_separators (f_cfg s) p).
  apply wp_bind.
  match goal with |- wp ?m s ?Q => assert (Hm : wp m s (fun _ s1 => s1 = s)) end.
  { destruct (negb _); [|wstep; reflexivity]. wstep. destruct (exists_ s _ false) as [[|]|e]; cbn [negb]; try wstep; reflexivity. }
  eapply wp_conseq; [exact Hm|]. clear Hm. intros [[]|e] s1 ->; cbv beta iota; [|exact H].
  wstep. destruct (anp_names s dn Hg) as (names & Hn & En). rewrite En. wstep.
  destruct (exists_ s (abs_path (sepc s) names) true) as [e|e] eqn:Ee; [|exact H].
  rewrite (Ginv_mac s H), andb_false_r.
  destruct e.
  - apply wp_bind. wstep. cbv beta iota. rewrite andb_false_l. wstep. exact H.
  - wstep. destruct (names_cases names) as [->|(pre & n & ->)]; [rewrite (exists_root s true H) in Ee; discriminate|].
    rewrite (splitpath_abs_path _ (linux_like_posix _ (gi_lin s H)) _ _ Hn). cbn [fst snd].
    destruct (ordinary_last _ _ _ Hn) as [Hpre Hno]. wstep. apply new_dir_add_inv; assumption.
Qed.

Lemma makedirs_pres p mode eo : preserves Ginv (makedirs p mode eo).
Proof. unfold makedirs. pres; first [apply remove_object_pres|apply create_dir_pres]. Qed.

Lemma mknod_pres p mode dev : preserves Ginv (mknod p mode dev).
Proof.
  intros s H. change (wp (mknod p mode dev) s (fun _ s' => Ginv s')).
  unfold mknod. wstep. rewrite (Ginv_win s H). wstep.
  destruct (_ || _); [wstep; exact H|]. destruct (str_eqb (snd _) []) eqn:E1.
  { wstep. destruct (exists_ s _ true) as [[|]|e]; try (wstep; exact H). exact H. }
  destruct (str_eqb (snd _) dot || _) eqn:E2; [wstep; exact H|].
  wstep. destruct (exists_ s p true) as [[|]|e]; try (wstep; exact H); [|exact H].
  wstep. apply new_file_add_inv; [exact H|].
  apply orb_false_iff in E2. destruct E2 as [E2 E3].
  split; [|split; [|split]].
  - intros K. rewrite K in E1. discriminate.
  - intros K. rewrite K in E2. rewrite str_eqb_refl in E2. discriminate.
  - intros K. rewrite K in E3. rewrite str_eqb_refl in E3. discriminate.
  - apply (split_all _ (linux_like_abs _ (gi_lin s H))).
Qed.

(** ** Mount points *)
Lemma gsame_set_dev s d : gsame s (set_dev s d).
Proof. constructor; reflexivity || (intros; assumption). Qed.
Lemma gsame_set_mounts s d : gsame s (set_mounts s d).
Proof. constructor; reflexivity || (intros; assumption). Qed.
Lemma gsame_odev s o d : gsame s (mod_ob s o (fun x => wo_dev x d)).
Proof. apply gsame_mod; [|intros _ K; exact K]. constructor; cbn; auto; destruct (o_body (ob s o)); auto. Qed.

Lemma Ginv_root_ino s : Ginv s ->
  Ginv (mod_ob (set_ino s (S (f_ino s))) root_oid (fun x => wo_ino x (Some (S (f_ino s))))).
Proof.
  intros H. set (s' := mod_ob _ _ _).
  assert (E : forall x, ob s' x = if Nat.eqb x root_oid then wo_ino (ob s root_oid) (Some (S (f_ino s))) else ob s x).
  { intros x. unfold s'. rewrite ob_mod. rewrite !ob_set_ino. reflexivity. }
  assert (EA : forall {A} (f : fobj -> A) x, (forall y i, f (wo_ino y i) = f y) -> f (ob s' x) = f (ob s x)).
  { intros A f x Hf. rewrite E. destruct (Nat.eqb x root_oid) eqn:Ex; [|reflexivity]. apply Nat.eqb_eq in Ex. subst x. apply Hf. }
  assert (Eents : forall x, ents s' x = ents s x) by (intros x; unfold ents; rewrite (EA _ o_body); reflexivity).
  assert (Edir : forall x, is_dirobj s' x = is_dirobj s x) by (intros x; unfold is_dirobj; rewrite (EA _ o_body); reflexivity).
  assert (Eino : forall x, x < f_next s -> forall i, o_ino (ob s' x) = Some i ->
     (x = root_oid /\ i = S (f_ino s)) \/ (x <> root_oid /\ o_ino (ob s x) = Some i /\ i <= f_ino s)).
  { intros x Hx i. rewrite E. destruct (Nat.eqb x root_oid) eqn:Ex.
    - apply Nat.eqb_eq in Ex. cbn. intros K. left. split; [exact Ex|congruence].
    - apply Nat.eqb_neq in Ex. intros K. right. split; [exact Ex|]. split; [exact K|apply (gi_ino_le s H x i Hx K)]. }
  destruct H as [h1 h2 h3 h4 h5 h6 h7 h8 h9 h10 h11 h12 h13 h14 h15 h16 h17 h18 h19].
  constructor; try assumption.
  - intros o. rewrite Edir, (EA _ o_mode) by reflexivity. apply h9.
  - intros o Ho. rewrite Edir. apply h10, Ho.
  - intros d n o. rewrite Eents. apply h11.
  - intros d. rewrite Eents. apply h12.
  - intros d n o. rewrite Eents, Edir, (EA _ o_parent), (EA _ o_name) by reflexivity. apply h13.
  - intros o Ho. rewrite (EA _ o_nlink) by reflexivity. rewrite Edir, Eents, (refs_ents s s') by (auto; reflexivity). apply h14, Ho.
  - intros a names. rewrite (tree_at_ents s s' Eents). apply h15.
  - intros o i Ho K. change (f_ino s') with (S (f_ino s)). destruct (Eino o Ho i K) as [[_ ->]|(_ & _ & K2)]; lia.
  - intros a b i Ha Hb Ka Kb. destruct (Eino a Ha i Ka) as [[-> Ka2]|(Ka1 & Ka2 & Ka3)], (Eino b Hb i Kb) as [[-> Kb2]|(Kb1 & Kb2 & Kb3)]; try lia.
    apply (h17 a b i Ha Hb Ka2 Kb2).
  - rewrite E. discriminate.
  - intros d n o. rewrite Eents. intros K. rewrite E. destruct (Nat.eqb o root_oid) eqn:Ex; [discriminate|]. apply (h19 d n o K).
Qed.

Lemma add_mount_point_pres p t : preserves Ginv (add_mount_point p t).
Proof.
  intros s H. change (wp (add_mount_point p t) s (fun _ s' => Ginv s')).
  unfold add_mount_point, add_mount_point_. wstep. wstep.
  destruct (assoc _ (f_mounts s)); [wstep; exact H|]. wstep. wstep. wstep. wstep.
  set (s1 := set_mounts _ _).
  assert (H1 : Ginv s1).
  { apply (gsame_Ginv (set_dev s (S (f_dev s)))); [apply gsame_set_mounts|]. apply (gsame_Ginv s _ (gsame_set_dev s _) H). }
  apply wp_bind.
  match goal with |- wp ?m s1 ?Q => assert (Hm : wp m s1 (fun _ s2 => Ginv s2)) end.
  { destruct (str_eqb _ _).
    - wstep. wstep. unfold mod_obj. wstep. wstep. apply (Ginv_root_ino s1 H1).
    - apply (create_dir_inv 2 s1 _ PERM_DEF H1). }
  eapply wp_conseq; [exact Hm|]. intros [rd|e] s2 H2; cbv beta iota; [|exact H2].
  wstep. unfold mod_obj. wstep. wstep. apply (gsame_Ginv s2 _ (gsame_odev s2 _ _) H2).
Qed.

Lemma mount_point_pure s p : c_win (f_cfg s) = false -> snd (mount_point_for_path p s) = s.
Proof.
  intros Hw. unfold mount_point_for_path, mount_point_for_path_.
  change (wp (path <- gets (fun s => anp s (original_path s p)) ;;
    ms <- gets f_mounts ;; c <- gets f_cfg ;;
    match assoc path ms with
    | Some _ => ret path
    | None =>
      let k := longest_mount path (fst (splitdrive c path)) ms in
      if nonempty k then ret k
      else r <- auto_mount_force create_dir path ;; match r with Some k => ret k | None => raise AssertErr end
    end) s (fun _ s' => s' = s)).
  wstep. wstep. wstep. destruct (assoc _ _); [wstep; reflexivity|]. cbv zeta. destruct (nonempty _); [wstep; reflexivity|].
  unfold auto_mount_force. wstep. wstep. rewrite Hw. wstep. cbv beta iota. wstep. reflexivity.
Qed.
Lemma wp_mount_point s p (Q : res str -> fs -> Prop) : c_win (f_cfg s) = false ->
  (forall r, Q r s) -> wp (mount_point_for_path p) s Q.
Proof. intros Hw HQ. unfold wp. rewrite (mount_point_pure s p Hw). apply HQ. Qed.

Lemma get_disk_usage_pres p : preserves Ginv (get_disk_usage p).
Proof.
  intros s H. change (wp (get_disk_usage p) s (fun _ s' => Ginv s')). unfold get_disk_usage. apply wp_bind.
  assert (K : forall r : res str, match r with Ok k => wp (m <- gets (fun s => assoc k (f_mounts s)) ;;
     match m with Some m => ret (disk_usage_of m) | None => raise KeyErr end) s (fun _ s' => Ginv s') | Err e => Ginv s end).
  { intros [k|e]; [|exact H]. wstep. destruct (assoc k _); wstep; exact H. }
  destruct p as [p|].
  - apply wp_mount_point; [apply (Ginv_win s H)|exact K].
  - wstep. apply (K (Ok _)).
Qed.
Lemma set_disk_usage_pres t p : preserves Ginv (set_disk_usage t p).
Proof.
  intros s H. change (wp (set_disk_usage t p) s (fun _ s' => Ginv s')). unfold set_disk_usage.
  assert (K : forall q, wp (k <- mount_point_for_path q ;; m <- gets (fun s => assoc k (f_mounts s)) ;;
    match m with
    | None => raise KeyErr
    | Some m =>
      if match m_total m with Some _ => (t <? m_used m)%Z | None => false end
      then raise_os ENOSPC
      else modify (fun s => set_mounts s (set_assoc k (mkmount (m_idev m) (Some t) (m_used m)) (f_mounts s)))
    end) s (fun _ s' => Ginv s')).
  { intros q. apply wp_bind, wp_mount_point; [apply (Ginv_win s H)|]. intros [k|e]; [|exact H].
    wstep. destruct (assoc k _) as [m|]; [|wstep; exact H]. destruct (match m_total m with Some _ => _ | None => _ end).
    - wstep. exact H.
    - wstep. apply (gsame_Ginv s _ (gsame_set_mounts s _) H). }
  destruct p as [p|]; apply wp_bind; wstep; cbv beta iota; apply K.
Qed.
