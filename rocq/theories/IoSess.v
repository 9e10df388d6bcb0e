(** * Sessions with one open file. *)
From Coq Require Import RelationClasses.
From Verif Require Export PropFd IoApp OpenThm Gen Limits.

Lemma session_step (A : op -> Prop) c s hs o : session A c s hs -> A o -> own hs o ->
  session A c (snd (step o s)) (hs ++ returned (fst (step o s))).
Proof.
  intros (total & um & uid & gid & now & H) HA Ho. exists total, um, uid, gid, now. apply co_step; assumption.
Qed.
(** [p] is neither spelled like the null device nor leads to it *)
Definition not_devnull (s : fs) (p : str) : Prop := p <> devnull_name s /\ resolve s p false <> Ok devnull_oid.
(** no mount point has a size limit *)
Definition unlimited (s : fs) : Prop := forall k m, In (k, m) (f_mounts s) -> m_total m = None.
Lemma unlimited_roomy s s' o : unlimited s -> totals_same (f_mounts s) (f_mounts s') -> roomy s' o.
Proof.
  intros H T m Hm. specialize (T (o_dev (ob s' o))). rewrite Hm in T. cbn in T.
  destruct (mount_for_dev (f_mounts s) (o_dev (ob s' o))) as [m0|] eqn:E; [|discriminate]. cbn in T.
  destruct (mount_for_dev_in _ _ _ E) as (k & Hin & _). rewrite (H _ _ Hin) in T. congruence.
Qed.

Definition RU (s s' : fs) : Prop := unlimited s -> unlimited s'.
Global Instance RU_pre : PreOrder RU.
Proof. split; [intros s H; exact H|]. intros a b c H K L. auto. Qed.
Lemma ru_mounts f : (forall s, f_mounts (f s) = f_mounts s) -> keeps RU (modify f).
Proof. intros H s K. unfold modify, unlimited in *. cbn [snd]. rewrite H. exact K. Qed.
Lemma ru_mod_obj o f : keeps RU (mod_obj o f).
Proof. apply ru_mounts. reflexivity. Qed.
Lemma ru_alloc n m b : keeps RU (alloc n m b).
Proof. intros s K. exact K. Qed.
Lemma ru_cdu z d : keeps RU (change_disk_usage z d).
Proof.
  intros s H. unfold change_disk_usage. destruct (mount_for_dev (f_mounts s) d) as [m|] eqn:E; [|exact H].
  assert (K : unlimited (set_mounts s (add_used (f_mounts s) d z))).
  { intros k m' Hin. cbn in Hin. destruct (add_used_in _ _ _ _ _ Hin) as [K|(m0 & K1 & K2 & ->)]; [exact (H k m' K)|]. exact (H _ _ K1). }
  destruct (m_total m) as [t|]; [destruct (_ <? _)%Z|]; assumption.
Qed.
Ltac ru := kr; try first [apply ru_cdu|apply ru_mod_obj|apply ru_alloc|apply ru_mounts; reflexivity].
Lemma ru_rm_loop rm : (forall n, keeps RU (rm n)) -> forall k e, keeps RU (rm_loop rm k e).
Proof. intros H. induction k as [|k IH]; intros e; cbn [rm_loop]; ru; [apply H|apply IH]. Qed.
Lemma ru_remove_entry_n fuel : forall d n r, keeps RU (remove_entry_n fuel d n r).
Proof.
  induction fuel as [|f IH]; intros d n r; cbn [remove_entry_n]; unfold unlink_obj; ru.
  apply ru_rm_loop. intros m. apply IH.
Qed.
Lemma ru_prims : fs_prims RU (fun t => t = None) True True.
Proof.
  split; [split|..].
  - intros n m. apply ru_alloc.
  - intros n m. apply ru_alloc.
  - intros d o. unfold add_entry, link_obj. ru.
  - intros d n r s. apply (ru_remove_entry_n (S (f_next s)) d n r s).
  - intros _ o n. unfold set_size. ru.
  - intros o c. unfold set_initial_contents, set_size. ru.
  - intros _ o n. unfold set_large_file_size, set_size. ru.
  - intros o n. apply ru_mod_obj.
  - intros o n. apply ru_mod_obj.
  - apply (register_from _ _ _); [reflexivity| |].
    + intros p d t Ht s K k m Hin. unfold modify in Hin. cbn in Hin. apply in_app_iff in Hin.
      destruct Hin as [Hin|[E|[]]]; [exact (K k m Hin)|]. injection E as <- <-. exact Ht.
    + apply ru_mounts. reflexivity.
  - apply ru_mounts. reflexivity.
  - intros i. apply ru_mod_obj.
  - intros o. any_dev. apply ru_mod_obj.
  - intros o c m t. apply ru_mod_obj.
  - intros o f _. apply ru_mod_obj.
  - intros s s' H K. rewrite H. exact K.
  - intros s s' H K. rewrite H. exact K.
  - intros o f _. apply ru_mod_obj.
  - intros o k v. apply ru_mod_obj.
  - intros o k. apply ru_mod_obj.
Qed.
(** without set_disk_usage and sized mount points the disks stay unlimited *)
Lemma unlimited_step s o : (forall p t, o = AddMount p t -> t = None) -> (forall t p, o <> SetDiskUsage t p) -> unlimited s -> unlimited (snd (step o s)).
Proof. intros H1 H2. apply (gen_step _ _ _ (fp_core _ _ _ _ ru_prims) ru_prims o (fun _ => Logic.I) (fun _ => Logic.I) H1 H2 s). Qed.

Lemma wp_open_notfile s p rp om b raw del o : o <> devnull_oid -> is_dirm s o || is_dirobj s o = true ->
  wp (open_obj (Some o) p rp om b raw del (f_cfg s)) s (fun r s' => exists e, r = Err e).
Proof.
  intros Hn Hd. unfold open_obj. destruct (om_must_not_exist om); wstep; [wstep; eauto|].
  unfold init_file_object. apply wp_bind. wstep. destruct (negb (is_root s) && _); [wstep; eauto|].
  destruct (om_write om && om_trunc om).
  - do 2 apply wp_bind. unfold set_contents. wstep. destruct (is_dirobj s o) eqn:Ed; [wstep; eauto|]. rewrite orb_false_r in Hd.
    apply (wp_conseq _ _ _ _ (IoThm.wp_set_initial o [] s Hn Ed)). intros r s1 [(-> & Hr)|(-> & Hw)]; [eexists; reflexivity|].
    wstep. wstep. unfold open_end. wstep. unfold is_dirm in Hd. rewrite (meta_mode _ _ (wt_meta _ _ _ _ Hw)), Hd. wstep. eauto.
  - wstep. wstep. unfold open_end. wstep. unfold is_dirm in Hd. destruct (S_ISDIR (o_mode (ob s o))); [wstep; eauto|]. cbn in Hd. wstep.
    apply wp_bind. match goal with |- wp ?m s _ => apply (wp_conseq m s (fun r s' => r = Ok tt /\ is_dirobj s' o = is_dirobj s o)) end.
    { destruct (om_trunc om); [apply wp_mod_obj|apply wp_ret; auto]. split; [reflexivity|]. unfold is_dirobj. rewrite ob_mod_same. destruct (c_win _); reflexivity. }
    cbv beta. intros r s1 (-> & E). wstep. rewrite E, Hd. wstep. eauto.
Qed.

(** the outcome of a successful open(p, mode) *)
Record opened_file (s s' : fs) (p : str) (w : wid) (o : oid) (om : open_modes) (b : Z) (raw del : bool) : Prop := mkOpenedFile {
  of_handle : handle_on s s' w o om b raw del;
  of_null : o <> devnull_oid;
  of_name : devnull_name s' = devnull_name s;
  of_mode : is_dirm s' o = false;
  of_file : is_dirobj s' o = false;
  of_link : is_link s' o = false;
  of_how : (exists_ s p false = Ok true /\ resolve s p false = Ok o /\ om_must_not_exist om = false /\ kept o s s' /\
            o_body (ob s' o) = (if om_write om && om_trunc om then BFile (Some []) else o_body (ob s o))) \/
           (exists_ s p false = Ok false /\ o = f_next s /\ om_must_exist om = false /\ o_body (ob s' o) = BFile (Some []) /\
            o_size (ob s' o) = 0%Z /\ exists s1 d n, one_more s s1 d n o /\ brand_new s s1 d o /\ o_mode (ob s1 o) = open_mode_bits s /\ kept o s1 s' /\
            (islink s p = Ok true \/ ends_with_path_separator (f_cfg s) p = false));
  of_path : forall o2, resolve s' p false = Ok o2 -> o2 = o;
  of_found : (forall rr, resolve_path s p = Ok (abs_path (sepc s) rr) -> Forall (clean (sepc s)) rr -> Forall (ordinary (sepc s)) rr) -> resolve s' p false = Ok o
}.

Lemma kept_resolve o s s' p : kept o s s' -> is_dirobj s o = false -> is_link s o = false -> resolve s' p false = resolve s p false.
Proof. intros K Hd Hl. apply look_resolve; [exact (kept_tree _ _ _ K Hd Hl)|right; exact (kept_read _ _ _ K)]. Qed.
Lemma kept_link o s s' x : kept o s s' -> is_link s' x = is_link s x.
Proof. intros K. unfold is_link. rewrite (kept_mode _ _ _ _ K). reflexivity. Qed.
Lemma kept_null o s s' : kept o s s' -> devnull_name s' = devnull_name s.
Proof.
  intros K. unfold devnull_name. destruct (Nat.eq_dec devnull_oid o) as [<-|N]; [|rewrite (kp_other _ _ _ K _ N); reflexivity].
  pose proof (kp_meta _ _ _ K) as E. unfold meta in E. congruence.
Qed.
Lemma open_str_done s p om b cf raw del w s' : Ginv s -> c_sep (f_cfg s) = slash -> within_limits s -> Finv s -> not_devnull s p ->
  open_call (PStr p) om b cf raw del s = (Ok w, s') -> exists o, opened_file s s' p w o om b raw del.
Proof.
  intros HG Hsl HL HF [Hp Hnd] H. rewrite (open_call_str _ _ _ _ _ _ _ Hp) in H.
  destruct (resolve_path s p) as [rp|e] eqn:Erp; [|discriminate].
  destruct (exists_ s p false) as [[|]|e] eqn:Eex; [| |discriminate].
  - destruct (get_norm _ s rp false) as [o|e] eqn:Eg; [|discriminate].
    apply (get_norm_resolve _ _ _ _ _ HG Erp) in Eg.
    assert (Hn : o <> devnull_oid) by congruence.
    assert (Hl : is_link s o = false).
    { pose proof Eg as E2. unfold resolve, resolve_ in E2. fold (resolve_path s p) in E2. rewrite Erp in E2. cbn [rbind] in E2. unfold get_norm in E2.
      destruct (str_eqb_spec rp [sepc s]) as [E3|E3].
      - injection E2 as <-. apply has_ifdir_not_link, (gi_dirbit s HG), (gi_root s HG).
      - destruct (str_eqb_spec rp (devnull_name s)) as [E4|E4]; [congruence|].
        apply (resolve_nolink s p false o HG Eg). congruence. }
    destruct (is_dirm s o || is_dirobj s o) eqn:Ed.
    { exfalso. pose proof (wp_open_notfile s p rp om b raw del o Hn Ed) as K. unfold wp in K. rewrite H in K. destruct K as [e K]. discriminate. }
    apply orb_false_elim in Ed. destruct Ed as [Hdm Hdo].
    pose proof (wp_open_found s p rp om b raw del o HF Hdm Hdo Hn) as K. unfold wp in K. rewrite H in K. cbn [fst snd] in K.
    destruct (om_must_not_exist om) eqn:Em; [destruct K; discriminate|]. destruct K as [(K & _)|[(K & _)|(w' & K & Hh & Hk & Hb)]]; try discriminate. injection K as <-.
    exists o. split; auto.
    + exact (kept_null _ _ _ Hk).
    + unfold is_dirm. rewrite (kept_mode _ _ _ _ Hk). exact Hdm.
    + rewrite (kept_dirobj _ _ _ _ Hk). exact Hdo.
    + rewrite (kept_link _ _ _ _ Hk). exact Hl.
    + left. auto.
    + intros o2. rewrite (kept_resolve _ _ _ _ Hk Hdo Hl). congruence.
    + intros _. rewrite (kept_resolve _ _ _ _ Hk Hdo Hl). exact Eg.
  - pose proof (wp_open_missing s p rp om b raw del HG HL HF) as K. unfold wp in K. rewrite H in K. cbn [fst snd] in K.
    destruct K as [(e & K & _)|(w' & s1 & d & pre & n & K & HG1 & K1 & K2 & K3 & K4 & K5 & K6 & K7 & K8 & K9 & K10)]; [discriminate|]. injection K as <-.
    pose proof K6 as (_ & Hom & Hbn & Hmo & Hbo & _). exists (f_next s).
    assert (Hdo : is_dirobj s1 (f_next s) = false) by (unfold is_dirobj; rewrite Hbo; reflexivity).
    assert (Hl : is_link s1 (f_next s) = false) by (unfold is_link; rewrite Hmo; apply new_file_mode).
    destruct (resolve_path_shape _ _ _ HG Erp) as (rr & -> & Hc & _).
    assert (Hnn : ~ is_null s rr).
    { intros Hi. apply Hnd. unfold resolve. apply (resolve_ok s (Ginv_good _ HG)). exists rr. auto. }
    pose proof (gi_next _ HG) as Hge.
    split; auto.
    + intros E. change devnull_oid with 1 in E. lia.
    + rewrite (kept_null _ _ _ K8). symmetry. apply (md_ext s s1 d n HG Hom).
    + unfold is_dirm. rewrite (kept_mode _ _ _ _ K8), Hmo. apply new_file_mode.
    + rewrite (kept_dirobj _ _ _ _ K8). exact Hdo.
    + rewrite (kept_link _ _ _ _ K8). exact Hl.
    + right. split; [exact Eex|]. split; [reflexivity|]. split; [exact K1|]. split; [exact K9|]. split; [exact K10|]. exists s1, d, n. auto.
    + intros o2. rewrite (kept_resolve _ _ _ _ K8 Hdo Hl).
      apply (made_only s s1 d n HG HG1 Hom (ex_intro _ _ Hbo) Hl p rr pre Hsl Erp Hc Hnn K2 K3).
    + intros Ho. rewrite (kept_resolve _ _ _ _ K8 Hdo Hl).
      apply (made_found s s1 d n HG HG1 Hom (ex_intro _ _ Hbo) Hl p rr pre Hsl Erp Hc Hnn K2 K3 K4). apply Ho; [exact Erp|exact Hc].
Qed.

(** the fixed fields of a handle never change *)
Lemma step_wstat o s hs v : natural_fds o -> own hs o -> Sinv s hs -> v < f_wnext s ->
  wstat (wr (snd (step o s)) v) = wstat (wr s v) /\ f_wnext s <= f_wnext (snd (step o s)).
Proof.
  intros HA Ho HS Hv. pose proof (si_f _ _ HS) as HF.
  assert (Hh : forall s', hst s s' -> wstat (wr s' v) = wstat (wr s v) /\ f_wnext s <= f_wnext s').
  { intros s' (_ & _ & E1 & E2). rewrite E1. split; [apply E2|apply le_n]. }
  assert (Hop : forall s1 s2 w fd, v < f_wnext s1 -> opened s1 s2 w fd -> wstat (wr s2 v) = wstat (wr s1 v) /\ f_wnext s1 <= f_wnext s2).
  { intros s1 s2 w fd Hv1 K. rewrite (op_next _ _ _ _ K). split; [|apply Nat.le_succ_diag_r]. apply (op_wraps _ _ _ _ K). rewrite (op_new _ _ _ _ K). intros E. rewrite E in Hv1. exact (Nat.lt_irrefl _ Hv1). }
  destruct (fd_call o) eqn:Efd; [|apply Hh, (hs_step o Efd s)].
  destruct o; try discriminate; cbn [step]; rewrite outm_eq; cbn [fst snd].
  - unfold open_. destruct (parse_mode mode) as [om|e]; [|split; reflexivity].
    destruct (has_char _ _); [|split; reflexivity].
    assert (Hp : forall fd, a = PFd fd -> (0 <= fd)%Z) by (intros fd ->; exact HA).
    pose proof (open_call_spec a om buffering closefd false false s HF Hp) as K. unfold wp in K.
    destruct (open_call a om buffering closefd false false s) as [[w|e] s']; cbn [fst snd] in *; [|apply Hh, K].
    destruct K as (_ & [(fd & K)|(fd & l & _ & K)]); [exact (Hop _ _ _ _ Hv K)|].
    rewrite (jo_next _ _ _ _ _ K). split; [|apply Nat.le_succ_diag_r]. apply (jo_wraps _ _ _ _ _ K). rewrite (jo_new _ _ _ _ _ K). intros E. rewrite E in Hv. exact (Nat.lt_irrefl _ Hv).
  - pose proof (os_open_spec p flags mode uuid s HF) as K. unfold wp in K.
    destruct K as [(K & _)|(w & fd & K & _)]; [apply Hh, K|exact (Hop _ _ _ _ Hv K)].
  - unfold os_close, bind, lift. destruct (get_open_file s fd) as [w|e] eqn:Eg; [|split; reflexivity].
    destruct (os_close_dir _ _ _ HF Eg) as (l & Hl).
    pose proof (close_spec w s HF ltac:(eauto)) as K. unfold wp in K.
    destruct K as [(K & _)|(l' & _ & K)]; [apply Hh, K|]. rewrite (cl_next _ _ _ _ K). split; [apply K|apply le_n].
  - destruct (os_pipe_spec s HF) as (w1 & fd1 & s1 & w2 & fd2 & K1 & K2 & _).
    destruct (Hop _ _ _ _ Hv K1) as [A1 A2]. destruct (Hop s1 _ _ _ (Nat.lt_le_trans _ _ _ Hv A2) K2) as [B1 B2].
    split; [rewrite B1; exact A1|exact (Nat.le_trans _ _ _ A2 B2)].
  - destruct (si_hs _ _ HS w (Ho w eq_refl)) as [_ Hk].
    pose proof (close_spec w s HF ltac:(intros E; destruct Hk; congruence)) as K. unfold wp in K.
    destruct K as [(K & _)|(l' & _ & K)]; [apply Hh, K|]. rewrite (cl_next _ _ _ _ K). split; [apply K|apply le_n].
Qed.
Lemma continues_wstat s hs s' hs' v : continues natural_fds s hs s' hs' -> Sinv s hs -> v < f_wnext s ->
  wstat (wr s' v) = wstat (wr s v) /\ Sinv s' hs'.
Proof.
  intros H HS Hv. cut (wstat (wr s' v) = wstat (wr s v) /\ f_wnext s <= f_wnext s' /\ Sinv s' hs'); [tauto|].
  induction H as [|s1 hs1 o H IH Ho Hown]; [auto|]. destruct IH as (E1 & E2 & E3).
  destruct (step_wstat o s1 hs1 v Ho Hown E3 (Nat.lt_le_trans _ _ _ Hv E2)) as [A1 A2].
  split; [congruence|]. split; [exact (Nat.le_trans _ _ _ E2 A2)|]. apply step_Sinv; assumption.
Qed.
