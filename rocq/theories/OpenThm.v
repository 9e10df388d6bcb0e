(** * Opening a file by its path. *)
From Verif Require Export IoThm OpsThm6 LookEq.

(** Nothing but the contents, size and times of [o], the disk usage and the
    handles differ. *)
Record kept (o : oid) (s s' : fs) : Prop := mkKept {
  kp_env : same_env s s';
  kp_next : f_next s' = f_next s /\ f_ino s' = f_ino s /\ f_dev s' = f_dev s;
  kp_other : forall x, x <> o -> ob s' x = ob s x;
  kp_meta : meta (ob s' o) = meta (ob s o);
  kp_dir : is_dirobj s' o = is_dirobj s o;
  kp_tot : totals_same (f_mounts s) (f_mounts s')
}.
Lemma kept_refl o s : kept o s s.
Proof. split; try reflexivity; repeat split; auto using totals_refl. Qed.
Lemma kept_trans o a b c : kept o a b -> kept o b c -> kept o a c.
Proof.
  intros [A1 A2 A3 A4 A5 A6] [B1 B2 B3 B4 B5 B6]. split.
  - etransitivity; eassumption.
  - destruct A2 as (?&?&?), B2 as (?&?&?). repeat split; congruence.
  - intros x Hx. rewrite B3, A3 by exact Hx. reflexivity.
  - congruence.
  - congruence.
  - eapply totals_trans; eassumption.
Qed.
Lemma iow_kept w s s' : iow w s s' -> kept (w_obj (wr s w)) s s'.
Proof. intros [A1 A2 A3 A4 A5 A6 A7 A8 A9]. split; assumption. Qed.
Lemma handles_kept_o o s s' : handles_only s s' -> kept o s s'.
Proof. intros H. rewrite H. split; try reflexivity; repeat split; auto using totals_refl. Qed.
Lemma released_kept o s s' : released s s' -> kept o s s'.
Proof. intros H. rewrite H. split; try reflexivity; repeat split; auto using totals_refl. Qed.
Lemma meta_mode x y : meta x = meta y -> o_mode x = o_mode y.
Proof. unfold meta. congruence. Qed.
Lemma kept_mode o s s' x : kept o s s' -> o_mode (ob s' x) = o_mode (ob s x).
Proof.
  intros H. destruct (Nat.eq_dec x o) as [->|E]; [exact (meta_mode _ _ (kp_meta _ _ _ H))|rewrite (kp_other _ _ _ H x E); reflexivity].
Qed.
Lemma kept_dirobj o s s' x : kept o s s' -> is_dirobj s' x = is_dirobj s x.
Proof.
  intros H. destruct (Nat.eq_dec x o) as [->|E]; [exact (kp_dir _ _ _ H)|unfold is_dirobj; rewrite (kp_other _ _ _ H x E); reflexivity].
Qed.
Lemma kept_ents o s s' x : kept o s s' -> is_dirobj s o = false -> ents s' x = ents s x.
Proof.
  intros H Hd. destruct (Nat.eq_dec x o) as [->|E]; [|unfold ents; rewrite (kp_other _ _ _ H x E); reflexivity].
  pose proof (kp_dir _ _ _ H) as K. rewrite Hd in K. unfold is_dirobj, ents in *. destruct (o_body (ob s' o)), (o_body (ob s o)); try discriminate; reflexivity.
Qed.
Lemma kept_tree o s s' : kept o s s' -> is_dirobj s o = false -> is_link s o = false -> same_tree s s'.
Proof.
  intros H Hd Hl. pose proof (kp_env _ _ _ H) as He. unfold same_env in He. destruct He as (E1 & E2 & E3 & E4 & E5 & E6 & E7).
  split; try congruence.
  - unfold devnull_name.
    destruct (Nat.eq_dec devnull_oid o) as [E|E]; [|rewrite (kp_other _ _ _ H _ E); reflexivity].
    pose proof (kp_meta _ _ _ H) as K. rewrite <- E in K. unfold meta in K. congruence.
  - intros x. apply (kept_dirobj _ _ _ _ H).
  - intros x. apply (kept_ents _ _ _ _ H Hd).
  - intros x. rewrite (kept_mode _ _ _ x H). reflexivity.
  - intros x Hx. rewrite (kp_other _ _ _ H x); [reflexivity|]. intros ->. congruence.
Qed.
Lemma kept_read o s s' : kept o s s' -> same_read s s'.
Proof. intros H x. rewrite (kept_mode _ _ _ x H). reflexivity. Qed.

Lemma norm_walk_rl rl1 rl2 s check names : forall d,
  (forall pre rest x, names = pre ++ rest -> tree_at s d pre = Some x -> is_link s x = false) ->
  norm_walk rl1 s check d names = norm_walk rl2 s check d names \/ c_cs (f_cfg s) = false \/ c_mac (f_cfg s) = true.
Proof.
  destruct (c_cs (f_cfg s)) eqn:Ecs; [|auto]. destruct (c_mac (f_cfg s)) eqn:Em; [auto|]. intros d H. left. revert d H.
  induction names as [|n names IH]; intros d H; cbn [norm_walk]; [reflexivity|].
  pose proof (H [] (n :: names) d eq_refl eq_refl) as Hd. unfold is_link in Hd. rewrite Hd. cbn [rbind].
  destruct (negb (S_ISDIR _)); [reflexivity|]. destruct (get_entry s d n) as [x|e] eqn:Eg; [|reflexivity].
  rewrite IH; [reflexivity|]. intros pre rest y -> Hy. apply (H (n :: pre) rest y eq_refl). cbn [tree_at].
  replace (entry s d n) with (Some x); [exact Hy|]. unfold get_entry, normalized_entryname in Eg. rewrite Ecs in Eg. cbn in Eg. unfold entry, ents.
  destruct (o_body (ob s d)); [|discriminate]. destruct (assoc n entries); [congruence|discriminate].
Qed.
Lemma get_norm_resolve rl s p rp o : Ginv s -> resolve_path s p = Ok rp -> get_norm rl s rp false = Ok o <-> resolve s p false = Ok o.
Proof.
  intros HG Hr. pose proof (Ginv_good _ HG) as Hg. pose proof (gi_lin _ HG) as Hl.
  unfold resolve, resolve_. fold (resolve_path s p). rewrite Hr. cbn [rbind].
  destruct (resolve_path_shape _ _ _ HG Hr) as (rr & -> & Hc & Hn). unfold get_norm.
  destruct (str_eqb _ [_]); [reflexivity|]. destruct (str_eqb_spec (abs_path (sepc s) rr) (devnull_name s)) as [E|E]; [reflexivity|].
  rewrite (original_path_cs s _ (Ginv_cs _ HG)), (path_components_clean _ Hl _ Hc).
  destruct Hn as [[_ Hn]|Hn]; [contradiction|].
  destruct (norm_walk_rl rl (fun _ => Err RecErr) s false rr root_oid) as [->|[K|K]]; [|reflexivity| |].
  - intros pre rest x E1 E2. exact (nolink_prefixes s Hg rr Hn pre rest x E1 E2).
  - rewrite (Ginv_cs _ HG) in K. discriminate.
  - rewrite (Ginv_mac _ HG) in K. discriminate.
Qed.

(** ** The end of open(): the handle *)
Definition open_end (om : open_modes) (b : Z) (raw del : bool) (c : cfg) (o : oid) : M wid :=
  isd <- gets (fun s => S_ISDIR (o_mode (ob s o))) ;;
  if isd : bool then raise_os (if c_win c then EACCES else EISDIR) else
  now <- gets f_now ;;
  (if om_trunc om then
     mod_obj o (fun x => let x := wo_mtime x now in if c_win c then x else wo_ctime x now)
   else ret tt) ;;;
  isdo <- gets (fun s => is_dirobj s o) ;;
  if isdo : bool then raise TypeErr else
  cont <- gets (fun s => match byte_contents s o with Some b => b | None => [] end) ;;
  x <- gets (fun s => init_wrapper s o om b true raw del cont) ;;
  add_wrap x.
Definition open_obj (fo : option oid) (p rp : str) (om : open_modes) (b : Z) (raw del : bool) (c : cfg) : M wid :=
  dup <- (if om_must_not_exist om then
            match fo with
            | Some _ => ret true
            | None => il <- lift (fun s => islink s p) ;; ret (il && negb (c_win c))
            end
          else ret false) ;;
  if dup : bool then raise_os EEXIST else
  o <- init_file_object fo p rp om ;; open_end om b raw del c o.
Lemma open_call_str p om b cf raw del s : p <> devnull_name s ->
  open_call (PStr p) om b cf raw del s =
  match resolve_path s p with
  | Err e => (Err e, s)
  | Ok rp => match exists_ s p false with
    | Err e => (Err e, s)
    | Ok true => match get_norm (fun t => resolve s t true) s rp false with
                 | Err e => (Err e, s)
                 | Ok o => open_obj (Some o) p rp om b raw del (f_cfg s) s
                 end
    | Ok false => open_obj None p rp om b raw del (f_cfg s) s
    end
  end.
Proof.
  intros Hp. unfold open_call, handle_file_arg. unfold bind at 1. unfold bind at 1. cbn [gets]. unfold gets at 1.
  destruct (str_eqb_spec p (devnull_name s)) as [E|E]; [contradiction|]. unfold bind at 1. unfold lift at 1.
  destruct (resolve_path s p) as [rp|e]; [|reflexivity]. unfold bind at 1. unfold lift at 1.
  destruct (exists_ s p false) as [[|]|e]; [|reflexivity|reflexivity].
  unfold bind at 1. unfold bind at 1. unfold lift at 1. destruct (get_norm _ s rp false) as [o|e]; reflexivity.
Qed.

(** A handle [w] on [o] with the given modes was opened in [s]. *)
Record handle_on (s s' : fs) (w : wid) (o : oid) (om : open_modes) (b : Z) (raw del : bool) : Prop := mkHandleOn {
  ho_fd : exists fd, opened s s' w fd;
  ho_wrap : exists fd, wr s' w = ww_fd (init_wrapper s' o om b true raw del (match byte_contents s' o with Some d => d | None => [] end)) fd;
  ho_others : forall v, v <> w -> wr s' v = wr s v
}.
Lemma add_wrap_handles x s : handles_only s (snd (add_wrap x s)).
Proof.
  unfold add_wrap, alloc_wrap, add_open_file, bind, wmod, modify, ret. cbn [fst snd].
  change (f_free (set_wnext (set_wraps s (upd (f_wraps s) (f_wnext s) x)) (S (f_wnext s)))) with (f_free s).
  destruct (f_free s); destruct s; reflexivity.
Qed.
Lemma add_wrap_others x s v : v <> f_wnext s -> wr (snd (add_wrap x s)) v = wr s v.
Proof.
  intros Hv. unfold add_wrap, alloc_wrap, add_open_file, bind, wmod, modify, ret. cbn [fst snd].
  change (f_free (set_wnext (set_wraps s (upd (f_wraps s) (f_wnext s) x)) (S (f_wnext s)))) with (f_free s).
  destruct (f_free s); unfold wr; cbn; unfold upd; rewrite (proj2 (Nat.eqb_neq _ _) Hv); reflexivity.
Qed.
Lemma wp_open_end om b raw del o s : Finv s -> is_dirm s o = false -> is_dirobj s o = false ->
  wp (open_end om b raw del (f_cfg s) o) s (fun r s' => exists w, r = Ok w /\ handle_on s s' w o om b raw del /\ kept o s s' /\
     o_body (ob s' o) = o_body (ob s o) /\ o_size (ob s' o) = o_size (ob s o)).
Proof.
  intros HF Hm Hd. unfold open_end. wstep. unfold is_dirm in Hm. rewrite Hm. wstep.
  set (s1 := if om_trunc om then mod_ob s o (fun x => let x := wo_mtime x (f_now s) in if c_win (f_cfg s) then x else wo_ctime x (f_now s)) else s).
  apply wp_bind. assert (K : wp (if om_trunc om then mod_obj o (fun x => let x := wo_mtime x (f_now s) in if c_win (f_cfg s) then x else wo_ctime x (f_now s)) else ret tt) s
     (fun r s' => r = Ok tt /\ s' = s1)) by (unfold s1; destruct (om_trunc om); split; reflexivity).
  apply (wp_conseq _ _ _ _ K). intros r sx (-> & ->). clear K.
  assert (Hk : kept o s s1).
  { unfold s1. destruct (om_trunc om); [|apply kept_refl]. split.
    - repeat split; reflexivity.
    - repeat split; reflexivity.
    - intros x Hx. apply ob_mod_other, Hx.
    - rewrite ob_mod_same. destruct (c_win (f_cfg s)); reflexivity.
    - unfold is_dirobj. rewrite ob_mod_same. destruct (c_win (f_cfg s)); reflexivity.
    - apply totals_refl. }
  assert (Hb : o_body (ob s1 o) = o_body (ob s o) /\ o_size (ob s1 o) = o_size (ob s o)).
  { unfold s1. destruct (om_trunc om); [|auto]. rewrite ob_mod_same. destruct (c_win (f_cfg s)); auto. }
  assert (Hw : f_wraps s1 = f_wraps s /\ hst s s1) by (unfold s1; destruct (om_trunc om); repeat split; reflexivity).
  clearbody s1. destruct Hw as [Hw Hh]. wstep. rewrite (kept_dirobj _ _ _ _ Hk), Hd. wstep. wstep.
  assert (HF1 : Finv s1) by exact (Finv_hst _ _ Hh HF).
  destruct (add_wrap_opened (init_wrapper s1 o om b true raw del (match byte_contents s1 o with Some d => d | None => [] end)) s1 HF1) as (fd & H1 & H2 & H3).
  pose proof (add_wrap_handles (init_wrapper s1 o om b true raw del (match byte_contents s1 o with Some d => d | None => [] end)) s1) as H4.
  pose proof (fun v => add_wrap_others (init_wrapper s1 o om b true raw del (match byte_contents s1 o with Some d => d | None => [] end)) s1 v) as H5.
  unfold wp. destruct (add_wrap _ s1) as [r s']. cbn [fst snd] in *. exists (f_wnext s1). split; [exact H2|].
  assert (Eo : ob s' o = ob s1 o) by (rewrite H4; reflexivity).
  split; [split|split; [|]].
  - exists fd. exact (opened_hst_l _ _ _ _ _ Hh H1).
  - exists fd. rewrite H3. f_equal. unfold init_wrapper, byte_contents. rewrite Eo. reflexivity.
  - intros v Hv. rewrite (H5 v Hv). unfold wr. rewrite Hw. reflexivity.
  - exact (kept_trans _ _ _ _ Hk (handles_kept_o _ _ _ H4)).
  - rewrite Eo. exact Hb.
Qed.

Lemma wrote_kept o c s s' : is_dirobj s o = false -> wrote o c s s' -> kept o s s'.
Proof.
  intros Hd [A1 A2 A3 A4 A5 A6 A7 A8]. split; [rewrite A1; repeat split; reflexivity|rewrite A1; repeat split; reflexivity|exact A2|exact A3| |exact A8].
  rewrite Hd. unfold is_dirobj. rewrite A5. reflexivity.
Qed.
Lemma wrote_hst o c s s' : wrote o c s s' -> hst s s' /\ f_wraps s' = f_wraps s.
Proof. intros [A1 _ _ _ _ _ _ _]. rewrite A1. repeat split; reflexivity. Qed.
Lemma handle_on_l s s1 s' w o om b raw del : hst s s1 -> f_wraps s1 = f_wraps s -> handle_on s1 s' w o om b raw del -> handle_on s s' w o om b raw del.
Proof.
  intros H1 H2 [(fd & A) B C]. split; [exists fd; exact (opened_hst_l _ _ _ _ _ H1 A)|exact B|].
  intros v Hv. rewrite (C v Hv). unfold wr. rewrite H2. reflexivity.
Qed.
Lemma wp_open_found s p rp om b raw del o : Finv s -> is_dirm s o = false -> is_dirobj s o = false -> o <> devnull_oid ->
  wp (open_obj (Some o) p rp om b raw del (f_cfg s)) s (fun r s' =>
    if om_must_not_exist om then r = Err (OSErr EEXIST) /\ s' = s else
    (r = Err (OSErr EACCES) /\ s' = s /\ is_root s = false) \/
    (r = nospc /\ ~ roomy s o /\ om_write om && om_trunc om = true) \/
    exists w, r = Ok w /\ handle_on s s' w o om b raw del /\ kept o s s' /\
      o_body (ob s' o) = if om_write om && om_trunc om then BFile (Some []) else o_body (ob s o)).
Proof.
  intros HF Hm Hd Hn. unfold open_obj. destruct (om_must_not_exist om); wstep; [wstep; auto|].
  unfold init_file_object. apply wp_bind. wstep.
  destruct (negb (is_root s) && _) eqn:Ed; [wstep; left; apply andb_prop in Ed; destruct Ed as [Ed _]; apply negb_true_iff in Ed; auto|]. clear Ed.
  destruct (om_write om && om_trunc om) eqn:Et.
  - do 2 apply wp_bind. unfold set_contents. wstep. rewrite Hd.
    apply (wp_conseq _ _ _ _ (IoThm.wp_set_initial o [] s Hn Hd)). intros r s1 [(-> & Hr)|(-> & Hw)]; [right; left; auto|].
    wstep. wstep. destruct (wrote_hst _ _ _ _ Hw) as [H1 H2]. pose proof (wrote_kept _ _ _ _ Hd Hw) as H3.
    assert (Ec : f_cfg s = f_cfg s1) by (symmetry; exact (proj1 (kp_env _ _ _ H3))). rewrite Ec.
    apply (wp_conseq _ _ _ _ (wp_open_end om b raw del o s1 (Finv_hst _ _ H1 HF) ltac:(unfold is_dirm; rewrite (kept_mode _ _ _ _ H3); exact Hm) ltac:(rewrite (kept_dirobj _ _ _ _ H3); exact Hd))).
    intros r s2 (w & -> & A & B & C & _). right; right. exists w. split; [reflexivity|]. split; [exact (handle_on_l _ _ _ _ _ _ _ _ _ H1 H2 A)|].
    split; [exact (kept_trans _ _ _ _ H3 B)|]. rewrite C. exact (wt_body _ _ _ _ Hw).
  - wstep. wstep. apply (wp_conseq _ _ _ _ (wp_open_end om b raw del o s HF Hm Hd)).
    intros r s2 (w & -> & A & B & C & _). right; right. exists w. auto.
Qed.
(** on a directory *)
Lemma wp_open_dir s p rp om b raw del o : is_dirm s o = true -> is_dirobj s o = true ->
  wp (open_obj (Some o) p rp om b raw del (f_cfg s)) s (fun r s' => s' = s /\ exists e, r = Err (OSErr e) /\
     (om_must_not_exist om = true -> e = EEXIST)).
Proof.
  intros Hm Hd. unfold open_obj. destruct (om_must_not_exist om); wstep; [wstep; eauto|].
  unfold init_file_object. apply wp_bind. wstep.
  destruct (negb (is_root s) && _); [wstep; split; [reflexivity|eexists; split; [reflexivity|discriminate]]|].
  destruct (om_write om && om_trunc om).
  - do 2 apply wp_bind. unfold set_contents. wstep. rewrite Hd. wstep. split; [reflexivity|eexists; split; [reflexivity|discriminate]].
  - wstep. wstep. unfold open_end. wstep. unfold is_dirm in Hm. rewrite Hm. wstep. split; [reflexivity|eexists; split; [reflexivity|discriminate]].
Qed.
Lemma new_file_mode um : let m := N.ldiff (N.lor S_IFREG PERM_DEF_FILE) um in S_ISDIR m = false /\ S_ISLNK m = false.
Proof.
  cbv zeta. assert (K : forall um, N.land (N.ldiff (N.lor S_IFREG PERM_DEF_FILE) um) S_IFDIR = 0%N).
  { intros u. apply N.bits_inj_0. intros i. rewrite N.land_spec, N.ldiff_spec.
    assert (E : N.testbit (N.lor S_IFREG PERM_DEF_FILE) i && N.testbit S_IFDIR i = false) by (rewrite <- N.land_spec; exact (N.bits_0 i)).
    destruct (N.testbit (N.lor S_IFREG PERM_DEF_FILE) i), (N.testbit S_IFDIR i), (N.testbit u i); try reflexivity; discriminate. }
  assert (K2 : forall um, N.land (N.ldiff (N.lor S_IFREG PERM_DEF_FILE) um) 8192 = 0%N).
  { intros u. apply N.bits_inj_0. intros i. rewrite N.land_spec, N.ldiff_spec.
    assert (E : N.testbit (N.lor S_IFREG PERM_DEF_FILE) i && N.testbit 8192 i = false) by (rewrite <- N.land_spec; exact (N.bits_0 i)).
    destruct (N.testbit (N.lor S_IFREG PERM_DEF_FILE) i), (N.testbit 8192 i), (N.testbit u i); try reflexivity; discriminate. }
  split.
  - destruct (S_ISDIR _) eqn:E; [|reflexivity]. apply isdir_has_ifdir in E. unfold has_bit in E. rewrite K in E. discriminate.
  - unfold S_ISLNK, S_IFMT. destruct (N.eqb_spec (N.land (N.ldiff (N.lor S_IFREG PERM_DEF_FILE) um) 61440) 40960) as [E|E]; [|exact (proj2 (N.eqb_neq _ _) E)].
    exfalso. specialize (K2 um). assert (E2 : N.land (N.land (N.ldiff (N.lor S_IFREG PERM_DEF_FILE) um) 61440) 8192 = 8192%N) by (rewrite E; reflexivity).
    rewrite <- N.land_assoc in E2. change (N.land 61440 8192) with 8192%N in E2. rewrite K2 in E2. discriminate.
Qed.

Definition open_mode_bits (s : fs) : N := N.ldiff (N.lor S_IFREG PERM_DEF_FILE) (f_umask s).
Lemma unseen_hst s s' : unseen s s' -> hst s s' /\ f_wraps s' = f_wraps s.
Proof. intros [_ _ H]. rewrite H. repeat split; reflexivity. Qed.
Lemma one_more_hst s s' d n o : one_more s s' d n o -> hst s s' /\ f_wraps s' = f_wraps s /\ f_cfg s' = f_cfg s.
Proof. intros [_ _ _ _ H]. rewrite H. repeat split; reflexivity. Qed.
Lemma wp_open_missing s p rp om b raw del : Ginv s -> within_limits s -> Finv s ->
  wp (open_obj None p rp om b raw del (f_cfg s)) s (fun r s' =>
    (exists e, r = Err e /\ unseen s s' /\ f_mounts s' = f_mounts s /\ (om_must_exist om = true -> s' = s)) \/
    exists w s1 d pre n, r = Ok w /\ Ginv s1 /\ om_must_exist om = false /\ make_path_names s rp pre n /\
      resolve s (abs_path (sepc s) pre) true = Ok d /\ is_dirm s d = true /\
      (islink s p = Ok true \/ ends_with_path_separator (f_cfg s) p = false) /\
      file_made s s1 d n (open_mode_bits s) (Some []) None (Ok (f_next s)) /\
      handle_on s s' w (f_next s) om b raw del /\ kept (f_next s) s1 s' /\ o_body (ob s' (f_next s)) = BFile (Some []) /\
      o_size (ob s' (f_next s)) = 0%Z).
Proof.
  intros HG HL HF. unfold open_obj.
  assert (Hs : forall e, exists e', Err (A:=wid) e = Err e' /\ unseen s s /\ f_mounts s = f_mounts s /\ (om_must_exist om = true -> s = s))
    by (intros e; exists e; split; [reflexivity|]; split; [apply unseen_refl|auto]).
  assert (Hmain : wp (o <- init_file_object None p rp om ;; open_end om b raw del (f_cfg s) o) s (fun r s' =>
    (exists e, r = Err e /\ unseen s s' /\ f_mounts s' = f_mounts s /\ (om_must_exist om = true -> s' = s)) \/
    exists w s1 d pre n, r = Ok w /\ Ginv s1 /\ om_must_exist om = false /\ make_path_names s rp pre n /\
      resolve s (abs_path (sepc s) pre) true = Ok d /\ is_dirm s d = true /\
      (islink s p = Ok true \/ ends_with_path_separator (f_cfg s) p = false) /\
      file_made s s1 d n (open_mode_bits s) (Some []) None (Ok (f_next s)) /\
      handle_on s s' w (f_next s) om b raw del /\ kept (f_next s) s1 s' /\ o_body (ob s' (f_next s)) = BFile (Some []) /\
      o_size (ob s' (f_next s)) = 0%Z)).
  { unfold init_file_object. destruct (om_must_exist om) eqn:Eme; [wstep; left; apply Hs|]. apply wp_bind. wstep. wstep.
    destruct (islink s p) as [il|e] eqn:Eil; [|left; apply Hs].
    apply wp_bind.
    assert (K : wp (if il then lift (fun s => let* l := lresolve s p in text_contents s l) else ret p) s
       (fun r s' => s' = s /\ forall tp, r = Ok tp -> il = true \/ tp = p)).
    { destruct il; [split; [reflexivity|auto]|]. split; [reflexivity|]. intros tp E. injection E as <-. auto. }
    apply (wp_conseq _ _ _ _ K). clear K. intros [tp|e] sx (-> & Htp); [|left; apply Hs].
    destruct (ends_with_path_separator (f_cfg s) tp) eqn:Ee; [wstep; left; apply Hs|].
    apply (wp_conseq _ _ _ _ (wp_and _ _ _ _ (create_file_internally_inv s rp _ (Some []) None false true HG) (wp_create_internal s rp _ (Some []) None true HG HL))).
    intros r s1 [HG1 [(H1 & H2 & e & ->)|(d & pre & n & H1 & H2 & H3 & H4 & H5)]].
    { left. exists e. split; [reflexivity|]. split; [exact H1|]. split; [exact H2|discriminate]. }
    assert (Hns : ~ no_space s d 0).
    { intros [Hz|(m & t & Hm & Ht & Hlt)]; [lia|]. destruct (mount_for_dev_in _ _ _ Hm) as (k & Hin & _). specialize (HL k m t Hin Ht). lia. }
    cbn [file_size length] in H5. change (Z.of_nat 0) with 0%Z in H5.
    destruct H5 as [H5|[(_ & _ & H5)|(_ & _ & H5 & _)]]; try contradiction.
    pose proof H5 as (-> & Hom & Hbn & Hmo & Hbo & Hsi & _).
    destruct (one_more_hst _ _ _ _ _ Hom) as (A1 & A2 & A3). rewrite <- A3.
    destruct (new_file_mode (f_umask s)) as [Hnd _].
    assert (Hd1 : is_dirm s1 (f_next s) = false) by (unfold is_dirm; rewrite Hmo; exact Hnd).
    assert (Hd2 : is_dirobj s1 (f_next s) = false) by (unfold is_dirobj; rewrite Hbo; reflexivity).
    apply (wp_conseq _ _ _ _ (wp_open_end om b raw del (f_next s) s1 (Finv_hst _ _ A1 HF) Hd1 Hd2)).
    rewrite A3. intros r s2 (w & -> & B1 & B2 & B3 & B4). right. exists w, s1, d, pre, n. split; [reflexivity|]. split; [exact HG1|]. split; [reflexivity|].
    split; [exact H1|]. split; [exact H3|]. split; [exact H4|]. split.
    { destruct (Htp tp eq_refl) as [-> | ->]; [left; reflexivity|right; exact Ee]. }
    split; [exact H5|]. split; [exact (handle_on_l _ _ _ _ _ _ _ _ _ A1 A2 B1)|]. split; [exact B2|]. rewrite B3, B4, Hbo, Hsi. auto. }
  destruct (om_must_not_exist om); [|wstep; exact Hmain].
  apply wp_bind. wstep. destruct (islink s p) as [il|e] eqn:Eil; [|left; apply Hs]. wstep.
  destruct (il && negb (c_win (f_cfg s))); [wstep; left; apply Hs|exact Hmain].
Qed.

(** ** A new file is found where its path led *)
Section Made.
Variables s s1 : fs.
Variables (d : oid) (n : str).
Hypothesis HG : Ginv s.
Hypothesis HG1 : Ginv s1.
Hypothesis OM : one_more s s1 d n (f_next s).
Hypothesis Hfile : exists x, o_body (ob s1 (f_next s)) = BFile x.
Hypothesis Hnl : is_link s1 (f_next s) = false.
Notation o := (f_next s).
Lemma md_ext : ext s s1.
Proof. exact (one_more_new_ext _ _ _ _ HG OM). Qed.
Lemma md_leaf : ents s1 o = [] /\ ents s o = [].
Proof.
  destruct Hfile as [x Hx]. split; [unfold ents; rewrite Hx; reflexivity|].
  pose proof (gi_new s HG o (Nat.le_refl _)) as K. unfold is_dirobj, ents in *. destruct (o_body (ob s o)); [discriminate|reflexivity].
Qed.
Lemma md_entry x m : ~ (x = d /\ m = n) -> entry s1 x m = entry s x m.
Proof. apply (one_more_entry _ _ _ _ _ HG OM). destruct md_leaf as [A B]. congruence. Qed.
Lemma md_new : entry s1 d n = Some o.
Proof.
  unfold entry, ents. rewrite (om_dir _ _ _ _ _ OM). cbn. rewrite assoc_app. pose proof (om_was _ _ _ _ _ OM) as K. unfold entry in K. rewrite K.
  cbn. rewrite str_eqb_refl. reflexivity.
Qed.
Lemma md_back q : forall x l, tree_at s1 x q = Some l -> l <> o -> tree_at s x q = Some l.
Proof.
  induction q as [|m q IH]; intros x l; cbn [tree_at]; [auto|]. intros H Hl.
  destruct (entry s1 x m) as [y|] eqn:E; [|discriminate].
  destruct (Nat.eq_dec y o) as [->|Hy].
  - exfalso. destruct q as [|m' q]; cbn [tree_at] in H; [congruence|]. unfold entry in H. rewrite (proj1 md_leaf) in H. discriminate.
  - assert (Hne : ~ (x = d /\ m = n)) by (intros [-> ->]; rewrite md_new in E; congruence).
    rewrite (md_entry _ _ Hne) in E. rewrite E. auto.
Qed.
Lemma md_resolves k names r : resolves s k names r -> resolves s1 k names r.
Proof.
  intros H. induction H as [names Hno|k names pre m l rest t r Hm Hb Hr IH].
  - apply res_done. intros pre m l rest (E & H1 & H2). apply (Hno pre m l rest).
    assert (Hl : l <> o) by (intros ->; congruence).
    assert (H3 : at_names s (pre ++ [m]) = Some l) by exact (md_back _ _ _ H1 Hl).
    split; [exact E|]. split; [exact H3|]. unfold is_link in *. rewrite <- (ex_mode _ _ md_ext _ _ H3). exact H2.
  - apply (res_link s1 k names pre m l rest t r).
    + apply (ext_meets s s1 md_ext). exact Hm.
    + destruct Hm as (_ & Hm & _). exact (ex_file _ _ md_ext _ _ _ Hm Hb).
    + rewrite <- (ex_cfg _ _ md_ext). exact IH.
Qed.
Lemma md_resolved names r : resolved s names r -> resolved s1 names r.
Proof.
  pose proof (ext_null s s1 md_ext) as Hnull.
  intros [[A B]|(A & k & B & C)]; [left; split; [apply Hnull, A|exact B]|right]. split; [intros K; apply A, Hnull, K|].
  exists k. split; [exact B|exact (md_resolves _ _ _ C)].
Qed.
(** the path that was resolved in [s] *)
Variables (p : str) (rr pre : list str).
Hypothesis Hslash : c_sep (f_cfg s) = slash.
Hypothesis Hrp : resolve_path s p = Ok (abs_path (sepc s) rr).
Hypothesis Hrr : Forall (clean (sepc s)) rr.
Hypothesis Hnn : ~ is_null s rr.
Hypothesis Hmk : make_path_names s (abs_path (sepc s) rr) pre n.
Hypothesis Hpre : resolve s (abs_path (sepc s) pre) true = Ok d.
Hypothesis Hdm : is_dirm s d = true.
Lemma md_linkfree : forall a m l rest, ~ meets_link s rr a m l rest.
Proof. destruct (resolve_path_shape _ _ _ HG Hrp) as (r2 & E & Hc & H).
  assert (r2 = rr) by (symmetry; apply (abs_path_clean_inj _ (gi_lin _ HG)); assumption). subst r2. destruct H as [H|H]; [contradiction|exact H].
Qed.
Lemma md_pre : Forall (ordinary (sepc s)) rr -> rr = pre ++ [n] /\ at_names s pre = Some d /\ searchable s root_oid pre.
Proof.
  intros Ho. destruct Hmk as [H1 H2]. rewrite (make_string_path_slash _ _ Hslash), (anp_abs_path s _ (Ginv_good _ HG) Ho) in H1.
  assert (E : rr = pre ++ [n]) by (apply (abs_path_clean_inj _ (gi_lin _ HG)); [exact Hrr|exact (Forall_clean _ _ H2)|exact H1]).
  split; [exact E|]. pose proof Hpre as Hp. unfold resolve in Hp. apply (resolve_ok s (Ginv_good _ HG)) in Hp.
  destruct Hp as (r0 & E0 & Hc0 & [[_ K0]|(_ & Hat & Hse & _)]).
  - exfalso. pose proof (om_isdir _ _ _ _ _ OM) as K. rewrite K0, (gi_null s HG) in K. discriminate.
  - apply (resolve_path_ok s (Ginv_good _ HG)) in E0. destruct E0 as (_ & _ & names & r1 & Hn & Ha & Hr & E1).
    assert (Hop : Forall (ordinary (sepc s)) pre) by (apply Forall_app in H2; tauto).
    rewrite (anp_abs_path s _ (Ginv_good _ HG) Hop) in Ha.
    assert (En : pre = names) by (apply (abs_path_clean_inj _ (gi_lin _ HG)); [exact (Forall_clean _ _ Hop)|exact (Forall_clean _ _ Hn)|exact Ha]). subst names.
    assert (Hlf : forall a m l rest, ~ meets_link s pre a m l rest) by (apply (linkfree_prefix s pre [n]); rewrite <- E; exact md_linkfree).
    assert (r1 = pre) by (apply (resolved_det s (Ginv_good _ HG) pre r1 pre Hr); apply linkfree_resolved, Hlf). subst r1.
    assert (r0 = pre) by (apply (abs_path_clean_inj _ (gi_lin _ HG)); [exact Hc0|exact (Forall_clean _ _ Hop)|exact E1]). subst r0. auto.
Qed.
Lemma md_cfg : f_cfg s1 = f_cfg s.
Proof. symmetry. apply (ex_cfg _ _ md_ext). Qed.
Lemma md_anp q : anp s1 q = anp s q.
Proof. apply (ext_anp s s1 md_ext). Qed.
Lemma md_at : Forall (ordinary (sepc s)) rr -> at_names s1 rr = Some o.
Proof.
  intros Ho. destruct (md_pre Ho) as (E & Hat & _). rewrite E. rewrite (at_names_snoc s1 pre n d); [exact md_new|]. exact (ext_at _ _ _ _ md_ext Hat).
Qed.
(** whatever the path now leads to is the new file *)
Lemma made_only check o2 : resolve s1 p check = Ok o2 -> o2 = o.
Proof.
  intros H. unfold resolve in H. apply (resolve_ok s1 (Ginv_good _ HG1)) in H. destruct H as (r0 & E0 & Hc0 & H).
  apply (resolve_path_ok s1 (Ginv_good _ HG1)) in E0. destruct E0 as (_ & _ & names & r1 & Hn & Ha & Hr & E1).
  rewrite md_cfg in *. rewrite md_anp in Ha.
  pose proof Hrp as Hq. unfold resolve_path in Hq. apply (resolve_path_ok s (Ginv_good _ HG)) in Hq. destruct Hq as (_ & _ & names2 & r2 & Hn2 & Ha2 & Hr2 & E2).
  assert (names2 = names) by (apply (abs_path_clean_inj _ (gi_lin _ HG)); [exact (Forall_clean _ _ Hn2)|exact (Forall_clean _ _ Hn)|congruence]). subst names2.
  assert (r2 = rr).
  { apply (abs_path_clean_inj _ (gi_lin _ HG)); [|exact Hrr|symmetry; exact E2].
    apply (resolved_clean s (Ginv_good _ HG) names r2); [exact (Forall_clean _ _ Hn)|exact Hr2]. }
  subst r2.
  assert (Hr1 : r1 = rr) by (apply (resolved_det s1 (Ginv_good _ HG1) names r1 rr Hr), md_resolved, Hr2). subst r1.
  assert (r0 = rr) by (apply (abs_path_clean_inj _ (gi_lin _ HG)); [exact Hc0|exact Hrr|exact E1]). subst r0.
  destruct H as [[K _]|(_ & Hat & _)]; [exfalso; apply Hnn; apply (ext_null s s1 md_ext); exact K|].
  assert (Ho : Forall (ordinary (sepc s)) rr) by (rewrite <- md_cfg; exact (at_names_ordinary s1 HG1 rr _ _ Hat)).
  rewrite (md_at Ho) in Hat. congruence.
Qed.
(** and it is found *)
Lemma made_found : Forall (ordinary (sepc s)) rr -> resolve s1 p false = Ok o.
Proof.
  intros Ho. unfold resolve. apply (resolve_ok s1 (Ginv_good _ HG1)). exists rr. rewrite md_cfg. split; [|split; [exact Hrr|right]].
  - pose proof Hrp as Hq. unfold resolve_path in Hq. apply (resolve_path_ok s (Ginv_good _ HG)) in Hq. destruct Hq as (Hp & Hv & names & r2 & Hn & Ha & Hr & E).
    apply (resolve_path_ok s1 (Ginv_good _ HG1)). split; [exact Hp|]. split.
    + apply (ext_valid s s1 (Ginv_good _ HG) md_ext (exists_top s)); [|exact Hv].
      intros ns Hns. apply (ext_exists_top s s1 (Ginv_good _ HG) (Ginv_good _ HG1) md_ext ns Hns).
    + exists names, r2. rewrite md_cfg, md_anp. split; [exact Hn|]. split; [exact Ha|]. split; [exact (md_resolved _ _ Hr)|exact E].
  - destruct (md_pre Ho) as (E & Hat & Hse). split; [intros K; apply Hnn; apply (ext_null s s1 md_ext); exact K|].
    split; [exact (md_at Ho)|]. split; [|right; left; reflexivity].
    intros a m rest x E2 Hx. rewrite E in E2. destruct rest as [|z rest] using rev_ind.
    + apply app_inj_tail in E2. destruct E2 as [<- <-].
      change (at_names s1 pre = Some x) in Hx. rewrite (ext_at _ _ _ _ md_ext Hat) in Hx. injection Hx as <-.
      unfold is_dirm. rewrite (ex_mode _ _ md_ext _ _ Hat). exact Hdm.
    + clear IHrest. rewrite app_comm_cons, app_assoc in E2. apply app_inj_tail in E2. destruct E2 as [E2 _].
      destruct (tree_at_prefix s root_oid a (m :: rest) d ltac:(rewrite <- E2; exact Hat)) as [y Hy].
      pose proof (ext_at _ _ _ _ md_ext Hy) as Hy1. unfold at_names in Hy1. rewrite Hy1 in Hx. injection Hx as <-.
      unfold is_dirm. rewrite (ex_mode _ _ md_ext a y Hy). exact (Hse a m rest y E2 Hy).
Qed.
End Made.
