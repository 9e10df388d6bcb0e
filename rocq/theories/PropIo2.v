(** * Opening, truncating, sizes and shared files: C44, C45, C36, C43. *)
From Verif Require Import IoSess OpsThm4 PropIo.

(** ** C44: the mode table of open() *)
Definition binary_modes : list str :=
  [L "rb"; L "r+b"; L "rb+"; L "wb"; L "w+b"; L "wb+"; L "ab"; L "a+b"; L "ab+"; L "xb"; L "x+b"; L "xb+"].
Definition has (ch : ascii) (m : str) : bool := existsb (Ascii.eqb ch) m.
Lemma binary_mode_spec m : In m binary_modes -> exists om, parse_mode m = Ok om /\ has_char "b"%char m = true /\
  om_must_exist om = has "r" m /\ om_must_not_exist om = has "x" m /\ om_trunc om = has "w" m /\ om_append om = has "a" m /\
  om_read om = (has "r" m || has "+" m) /\ om_write om = (negb (has "r" m) || has "+" m).
Proof.
  intros H. unfold binary_modes in H. cbn [In] in H.
  repeat (destruct H as [<-|H]; [eexists; split; [reflexivity|]; repeat split|]). contradiction.
Qed.
Lemma open_eq p m om b cf s : parse_mode m = Ok om -> has_char "b"%char m = true -> p <> devnull_name s ->
  step (Open (PStr p) m b cf) s =
  match resolve_path s p with
  | Err e => (Err e, s)
  | Ok rp => match exists_ s p false with
    | Err e => (Err e, s)
    | Ok true => match get_norm (fun t => resolve s t true) s rp false with
                 | Err e => (Err e, s)
                 | Ok o => outm RHandle (open_obj (Some o) p rp om b false false (f_cfg s)) s
                 end
    | Ok false => outm RHandle (open_obj None p rp om b false false (f_cfg s)) s
    end
  end.
Proof.
  intros Hm Hb Hp. cbn [step]. rewrite outm_eq. unfold open_. rewrite Hm, Hb. rewrite (open_call_str _ _ _ _ _ _ _ Hp).
  destruct (resolve_path s p); [|reflexivity]. destruct (exists_ s p false) as [[|]|]; try reflexivity; [|rewrite outm_eq; reflexivity].
  destruct (get_norm _ _ _ _); [rewrite outm_eq; reflexivity|reflexivity].
Qed.

(** what a successful open of an existing file did *)
Definition opened_existing (s s' : fs) (p m : str) : Prop :=
  exists o, resolve s p false = Ok o /\ resolve s' p false = Ok o /\ has "x" m = false /\
    o_body (ob s' o) = (if has "w" m then BFile (Some []) else o_body (ob s o)) /\
    meta (ob s' o) = meta (ob s o) /\ (forall x, x <> o -> ob s' x = ob s x).
(** and of a missing one: one new, empty file; then its times *)
Definition opened_new (s s' : fs) (p m : str) : Prop :=
  exists o s1 d n, has "r" m = false /\ one_more s s1 d n o /\ brand_new s s1 d o /\
    o_mode (ob s1 o) = N.ldiff (N.lor S_IFREG 438) (f_umask s) /\
    bytes_of s' o [] /\ o_size (ob s' o) = 0%Z /\ meta (ob s' o) = meta (ob s1 o) /\ (forall x, x <> o -> ob s' x = ob s1 x) /\
    (forall o2, resolve s' p false = Ok o2 -> o2 = o).

Theorem C44_success : forall c s hs p m b cf w s',
  linux_like c -> c_sep c = slash -> session natural_fds c s hs -> within_limits s -> not_devnull s p -> In m binary_modes ->
  step (Open (PStr p) m b cf) s = (Ok (RHandle w), s') ->
  (exists_ s p false = Ok true /\ opened_existing s s' p m) \/ (exists_ s p false = Ok false /\ opened_new s s' p m).
Proof.
  intros c s hs p m b cf w s' Hl Hs HS HL Hn Hm H. destruct (binary_mode_spec m Hm) as (om & M1 & M2 & M3 & M4 & M5 & M6 & M7 & M8).
  destruct (session_open c s hs p m _ b cf w s' Hl Hs HS HL Hn M1 M2 H) as (_ & _ & o & O).
  destruct (of_how _ _ _ _ _ _ _ _ _ O) as [(E1 & E2 & Ex & K & E)|(E1 & Eo & Ex & E & E3 & s1 & d & n & OM & BN & Emo & K & _)].
  - left. split; [exact E1|]. exists o. split; [exact E2|]. split.
    { rewrite (kept_resolve o _ _ _ K); [exact E2| |].
      - rewrite <- (kept_dirobj _ _ _ _ K). apply O.
      - rewrite <- (kept_link _ _ _ _ K). apply O. }
    split; [congruence|]. split; [|split; [apply K|apply K]]. rewrite E, M5, M8. clear - Hm.
    unfold binary_modes in Hm. cbn [In] in Hm. repeat (destruct Hm as [<-|Hm]; [reflexivity|]). contradiction.
  - right. split; [exact E1|]. exists o, s1, d, n. split; [congruence|]. split; [exact OM|]. split; [exact BN|]. split; [exact Emo|].
    split; [exact E|]. split; [exact E3|]. split; [apply K|]. split; [apply K|]. apply O.
Qed.

(** 'r' requires existence, 'x' absence, and a directory cannot be opened; a
    failed open changes nothing *)
Theorem C44_failure : forall c s hs p m b cf r s',
  linux_like c -> c_sep c = slash -> session natural_fds c s hs -> within_limits s -> not_devnull s p -> In m binary_modes ->
  step (Open (PStr p) m b cf) s = (r, s') ->
  (has "r" m = true -> exists_ s p false = Ok false -> s' = s /\ exists e, r = Err e) /\
  (has "x" m = true -> exists_ s p false = Ok true -> s' = s /\ (exists e, r = Err e) /\
     (forall o, resolve s p false = Ok o -> r = os_err EEXIST)) /\
  (forall o, exists_ s p false = Ok true -> resolve s p false = Ok o -> is_dirm s o = true -> is_dirobj s o = true ->
     s' = s /\ exists e, r = Err (OSErr e)) /\
  (* a missing file *)
  (forall e, exists_ s p false = Ok false -> r = Err e -> unseen s s' /\ f_mounts s' = f_mounts s).
Proof.
  intros c s hs p m b cf r s' Hl Hs HS HL Hn Hm H. destruct (binary_mode_spec m Hm) as (om & M1 & M2 & M3 & M4 & M5 & M6 & M7 & M8).
  destruct (session_Ginv _ _ _ _ Hl HS) as [HG Hc].
  assert (HF : Finv s) by (apply (si_f _ hs), (session_Sinv natural_fds c); auto).
  rewrite (open_eq _ _ _ _ _ _ M1 M2 (proj1 Hn)) in H.
  assert (Hmiss : exists_ s p false = Ok false -> (has "r" m = true -> s' = s /\ exists e, r = Err e) /\ (forall e, r = Err e -> unseen s s' /\ f_mounts s' = f_mounts s)).
  { intros E. rewrite E in H. destruct (resolve_path s p) as [rp|e] eqn:Erp.
    2:{ injection H as <- <-. split; [eauto|]. intros _ _. split; [apply unseen_refl|reflexivity]. }
    pose proof (wp_open_missing s p rp om b false false HG HL HF) as K. unfold wp in K. rewrite outm_eq in H. injection H as <- <-.
    destruct K as [(e & K1 & K2 & K3 & K4)|(w & s1 & d & pre & n & K1 & _ & K2 & _)]; rewrite K1.
    - split; [|auto]. intros Hr. split; [apply K4; congruence|eauto].
    - split; [intros Hr; congruence|]. intros e Q. discriminate Q. }
  split; [intros Hr E; apply (Hmiss E), Hr|]. split; [|split].
  - intros Hx E. rewrite E in H. destruct (resolve_path s p) as [rp|e] eqn:Erp.
    2:{ injection H as <- <-. split; [reflexivity|]. split; [eauto|]. intros o Er. unfold resolve, resolve_ in Er. fold (resolve_path s p) in Er. rewrite Erp in Er. discriminate Er. }
    destruct (get_norm _ s rp false) as [o1|e] eqn:Eg.
    + rewrite outm_eq in H. unfold open_obj in H. rewrite M4, Hx in H. cbn in H. injection H as <- <-. split; [reflexivity|]. split; [eauto|reflexivity].
    + injection H as <- <-. split; [reflexivity|]. split; [eauto|]. intros o Er. rewrite (proj2 (get_norm_resolve _ _ _ _ _ HG Erp) Er) in Eg. discriminate Eg.
  - intros o E Er Hd1 Hd2. rewrite E in H. destruct (resolve_path s p) as [rp|e] eqn:Erp.
    2:{ unfold resolve, resolve_ in Er. fold (resolve_path s p) in Er. rewrite Erp in Er. discriminate Er. }
    rewrite (proj2 (get_norm_resolve _ _ _ _ _ HG Erp) Er) in H. rewrite outm_eq in H.
    pose proof (wp_open_dir s p rp om b false false o Hd1 Hd2) as K. unfold wp in K. destruct K as (K1 & e & K2 & _). rewrite K1, K2 in H. injection H as <- <-. eauto.
  - intros e E Hre. exact (proj2 (Hmiss E) e Hre).
Qed.

Lemma wp_eq {A} (m : M A) s (Q : res A -> fs -> Prop) r s' : m s = (r, s') -> Q r s' -> wp m s Q.
Proof. intros E H. unfold wp. rewrite E. exact H. Qed.
(** root can open every existing file, whatever its permissions *)
Theorem C44_root_opens : forall c s hs p m b cf o,
  linux_like c -> session natural_fds c s hs -> not_devnull s p -> In m binary_modes -> has "x" m = false ->
  is_root s = true -> (has "w" m = false \/ unlimited s) -> ends_with_path_separator c p = false ->
  resolve s p false = Ok o -> is_dirm s o = false -> is_dirobj s o = false ->
  exists w s', step (Open (PStr p) m b cf) s = (Ok (RHandle w), s').
Proof.
  intros c s hs p m b cf o Hl HS Hn Hm Hx Hroot Hw Hsep Hres Hd1 Hd2. destruct (binary_mode_spec m Hm) as (om & M1 & M2 & M3 & M4 & M5 & M6 & M7 & M8).
  destruct (session_Ginv _ _ _ _ Hl HS) as [HG Hc].
  apply (open_succeeds s p m om b cf o HG); auto.
  - apply (si_f _ hs), (session_Sinv natural_fds c); auto.
  - apply Hn.
  - congruence.
  - destruct Hw as [Hw|Hw]; [left; rewrite M5, Hw; apply andb_false_r|right]. apply (unlimited_roomy s); [exact Hw|apply totals_refl].
  - intros ->. apply (proj2 Hn), Hres.
  - rewrite Hc. exact Hsep.
Qed.
(** and create every missing one, in an existing directory *)
Theorem C44_root_creates : forall c s hs pre n d m b cf,
  linux_like c -> c_sep c = slash -> session natural_fds c s hs -> within_limits s -> is_root s = true ->
  In m binary_modes -> has "r" m = false -> plain slash (pre ++ [n]) ->
  let p := abs_path slash (pre ++ [n]) in
  (forall a k l rest, ~ meets_link s (pre ++ [n]) a k l rest) ->
  resolve s (abs_path slash pre) true = Ok d -> is_dirm s d = true -> is_dirobj s d = true -> entry s d n = None ->
  exists_ s p false = Ok false -> exists_ s p true = Ok false -> islink s p = Ok false ->
  exists w s', step (Open (PStr p) m b cf) s = (Ok (RHandle w), s').
Proof.
  intros c s hs pre n d m b cf Hl Hs HS HL Hroot Hm Hrm Hpl p Hnl Hr Hd1 Hd2 He Hex Hlx Hil.
  destruct (binary_mode_spec m Hm) as (om & M1 & M2 & M3 & M4 & M5 & M6 & M7 & M8).
  destruct (session_Ginv _ _ _ _ Hl HS) as [HG Hc]. pose proof (Ginv_good _ HG) as Hg.
  assert (Hsp : sepc s = slash) by (change (c_sep (f_cfg s) = slash); rewrite Hc; exact Hs).
  assert (HF : Finv s) by (apply (si_f _ hs), (session_Sinv natural_fds c); auto).
  assert (Hp : p <> devnull_name s).
  { intros E. rewrite E in Hlx. apply (exists_true_null s (devnull_name s) eq_refl) in Hlx; [exact Hlx|]. rewrite <- E. discriminate. }
  assert (Hord : Forall (ordinary (sepc s)) (pre ++ [n])) by (rewrite Hsp; apply Hpl).
  assert (Erp : resolve_path s p = Ok p).
  { apply (resolve_path_ok s Hg). split; [discriminate|]. split.
    - apply rfind_none_valid. rewrite Hsp. apply rfind_plain; [discriminate|exact Hpl].
    - exists (pre ++ [n]), (pre ++ [n]). unfold p. rewrite Hsp in *. split; [exact Hord|]. split; [rewrite <- Hsp; apply anp_abs_path; [exact Hg|rewrite Hsp; exact Hord]|].
      split; [|reflexivity]. apply linkfree_resolved, Hnl. }
  rewrite (open_eq _ _ _ _ _ _ M1 M2 Hp), Erp, Hex, outm_eq.
  assert (K : exists o s1, create_file_internally p (N.lor S_IFREG PERM_DEF_FILE) (Some []) None false true s = (Ok o, s1)).
  { destruct (create_file_internally p (N.lor S_IFREG PERM_DEF_FILE) (Some []) None false true s) as [r s1] eqn:E.
    destruct (create_file_space s p (N.lor S_IFREG PERM_DEF_FILE) (Some []) None true pre n d r s1 HG HL Hroot) as [(K & _)|(_ & o & ->)]; auto; [| | |exfalso|eauto].
    - split; [|exact Hord]. rewrite make_string_path_slash by exact Hsp. unfold p. rewrite <- Hsp. apply anp_abs_path; assumption.
    - rewrite Hsp. exact Hr.
    - rewrite Hsp. exact Hlx.
    - cbn in K. destruct K as [Hz|(mm & t & Hmt & Ht & Hlt)]; [lia|]. destruct (mount_for_dev_in _ _ _ Hmt) as (k & Hin & _). specialize (HL k mm t Hin Ht). lia. }
  destruct K as (o & s1 & K).
  assert (G : wp (open_obj None p p om b false false (f_cfg s)) s (fun r _ => exists w, r = Ok w)).
  { unfold open_obj. apply wp_bind. apply (wp_eq _ _ _ (Ok false) s).
    { destruct (om_must_not_exist om); [|reflexivity]. unfold bind, lift. rewrite Hil. reflexivity. }
    cbv beta iota. apply wp_bind. apply (wp_eq _ _ _ (Ok o) s1).
    { unfold init_file_object. rewrite M3, Hrm. unfold bind, gets, lift, ret. rewrite Hil. unfold p. rewrite <- Hsp.
      rewrite (ends_sep_clean _ (gi_lin _ HG) _ (Forall_clean _ _ Hord)). rewrite Hsp. exact K. }
    pose proof (wp_create_internal s p (N.lor S_IFREG PERM_DEF_FILE) (Some []) None true HG HL) as W. unfold wp in W. rewrite K in W. cbn [fst snd] in W.
    destruct W as [(_ & _ & e & W)|(d2 & pre2 & n2 & _ & _ & _ & _ & [W|[(_ & W & _)|(W & _)]])]; try discriminate W.
    destruct W as (Eo & Hom & Hbn & Hmo & Hbo & _). injection Eo as ->.
    destruct (one_more_hst _ _ _ _ _ Hom) as (A1 & A2 & A3). rewrite <- A3.
    eapply wp_conseq; [apply (wp_open_end om b false false (f_next s) s1 (Finv_hst _ _ A1 HF))|].
    - unfold is_dirm. rewrite Hmo. apply new_file_mode.
    - unfold is_dirobj. rewrite Hbo. reflexivity.
    - cbv beta. intros r s2 (w & -> & _). eauto. }
  unfold wp in G. destruct G as [w G]. rewrite G. eauto.
Qed.

(** a read-only handle cannot be written, a write-only one not read, whatever
    happened in between *)
Definition refused (r : res out * fs) (s : fs) (w : wid) : Prop :=
  exists e, r = (Err e, s) /\ (is_open s w = true -> is_large s (w_obj (wr s w)) = false -> e = Unsupported \/ e = OSErr EBADF).
Theorem C44_direction : forall c s hs p m b cf w s1 s2 hs2,
  linux_like c -> c_sep c = slash -> session natural_fds c s hs -> within_limits s -> not_devnull s p ->
  In m binary_modes -> step (Open (PStr p) m b cf) s = (Ok (RHandle w), s1) ->
  continues natural_fds s1 (hs ++ [w]) s2 hs2 ->
  (has "r" m = true -> has "+" m = false ->
     (forall d, refused (step (HWrite w d) s2) s2 w) /\ (forall n, refused (step (HTruncate w n) s2) s2 w)) /\
  (has "r" m = false -> has "+" m = false -> forall n, refused (step (HRead w n) s2) s2 w).
Proof.
  intros c s hs p m b cf w s1 s2 hs2 Hl Hsl HS HL Hn Hm H HC. destruct (binary_mode_spec m Hm) as (om & M1 & M2 & M3 & M4 & M5 & M6 & M7 & M8).
  destruct (session_open c s hs p m _ b cf w s1 Hl Hsl HS HL Hn M1 M2 H) as (HS1 & _ & o & O).
  pose proof (session_Sinv natural_fds c s1 _ ltac:(auto) HS1) as HI1.
  destruct (si_hs _ _ HI1 w ltac:(apply in_or_app; right; left; reflexivity)) as [Hlt _].
  destruct (continues_wstat _ _ _ _ w HC HI1 Hlt) as [Hst _].
  assert (HS2 : session natural_fds c s2 hs2).
  { destruct HS1 as (t & um & u & g & nw & HS1). exists t, um, u, g, nw. exact (continues_trans _ _ _ _ _ _ _ HS1 HC). }
  destruct (session_Ginv _ _ _ _ Hl HS2) as [HG2 Hc2]. pose proof (Ginv_win _ HG2) as Hw.
  destruct (ho_wrap _ _ _ _ _ _ _ _ (of_handle _ _ _ _ _ _ _ _ _ O)) as [fd HX].
  assert (X1 : w_kind (wr s1 w) = WFile) by (rewrite HX; reflexivity).
  assert (X2 : w_read (wr s1 w) = om_read om) by (rewrite HX; reflexivity).
  assert (X3 : w_update (wr s1 w) = om_write om) by (rewrite HX; reflexivity).
  unfold wstat in Hst. injection Hst as T1 T2 T3 T4 T5 T6 T7 T8 T9.
  assert (G : forall (A : Type) (k : wrapper -> M A) f, (exists e, k (wr s2 w) s2 = (Err e, s2) /\ (e = Unsupported \/ e = OSErr EBADF)) ->
     refused (outm f (x <- io_enter w ;; k x) s2) s2 w).
  { intros A k f (e & Hk2 & Hk). unfold io_enter, wget, check_open. rewrite outm_eq. unfold refused, bind, gets. rewrite T1, X1.
    destruct (is_large s2 (w_obj (wr s2 w))) eqn:El; [cbn [fst snd raise]; exists LargeFile; split; [reflexivity|congruence]|].
    destruct (is_open s2 w) eqn:Eo.
    - cbn [when ret fst snd negb]. unfold when, ret. cbn [negb]. rewrite Hk2. cbn [fst snd]. exists e. auto.
    - cbn. eexists. split; [reflexivity|discriminate]. }
  assert (Hraise : forall (A : Type), exists e, io_raise (A:=A) (wr s2 w) s2 = (Err e, s2) /\ (e = Unsupported \/ e = OSErr EBADF)).
  { intros A. unfold io_raise. destruct (w_raw (wr s2 w)); eexists; split; try reflexivity; auto. }
  assert (Hwin : c_win (f_cfg s2) = false) by exact Hw.
  split.
  - intros Hr Hpl. assert (Eu : w_update (wr s2 w) = false) by (rewrite T5, X3, M8, Hr, Hpl; reflexivity). split.
    + intros d. cbn [step]. unfold file_write. apply G. rewrite Eu. cbn [negb]. unfold bind at 1, gets.
      rewrite Hwin, andb_false_r. cbn [andb]. apply Hraise.
    + intros n. cbn [step]. unfold file_truncate. apply G. rewrite Eu. cbn [negb]. unfold bind at 1, gets.
      rewrite Hwin, andb_false_r. cbn [andb]. apply Hraise.
  - intros Hr Hpl n. assert (Er : w_read (wr s2 w) = false) by (rewrite T4, X2, M7, Hr, Hpl; reflexivity).
    cbn [step]. unfold file_read. apply G. rewrite Er. cbn [negb]. unfold bind at 1, gets.
    rewrite Hwin, andb_false_r. cbn [andb]. apply Hraise.
Qed.

(** a mode string that is not one of the table is refused before anything happens *)
Definition mode_cores : list str := [L "r"; L "w"; L "a"; L "x"; L "r+"; L "w+"; L "a+"; L "x+"].
Definition core_of (m : str) : str := filter (fun ch => negb (Ascii.eqb ch "t"%char) && negb (Ascii.eqb ch "b"%char)) m.
Lemma no_U_replace m : ~ In "U"%char m -> replace_rU m = m.
Proof.
  induction m as [|a m IH]; [reflexivity|]. intros H. assert (IH' : replace_rU m = m) by (apply IH; intros K; apply H; right; exact K).
  assert (Hm : match m with x :: _ => x <> "U"%char | [] => True end) by (destruct m; [exact Logic.I|intros ->; apply H; right; left; reflexivity]).
  cbn [replace_rU]. destruct a as [[|] [|] [|] [|] [|] [|] [|] [|]]; try (rewrite IH'; reflexivity).
  destruct m as [|[[|] [|] [|] [|] [|] [|] [|] [|]] m]; try (rewrite IH'; reflexivity). exfalso. apply Hm. reflexivity.
Qed.
Lemma no_U_map m : ~ In "U"%char m -> map (fun c => if Ascii.eqb c "U"%char then "r"%char else c) m = m.
Proof.
  induction m as [|a m IH]; [reflexivity|]. intros H. cbn [map]. rewrite IH by (intros K; apply H; right; exact K).
  destruct (Ascii.eqb a "U") eqn:E; [|reflexivity]. apply Ascii.eqb_eq in E. exfalso. apply H. left. exact E.
Qed.
Lemma parse_mode_bad m : ~ In "U"%char m -> (In "b"%char m /\ In "t"%char m) \/ ~ In (core_of m) mode_cores -> parse_mode m = Err ValueErr.
Proof.
  intros HU H. unfold parse_mode.
  assert (Hin : forall a, In a m -> has_char a m = true) by (intros a Ha; apply existsb_exists; exists a; split; [exact Ha|apply Ascii.eqb_refl]).
  destruct H as [[Hb Ht]|H]; [rewrite (Hin _ Hb), (Hin _ Ht); reflexivity|].
  destruct (has_char "b" m && has_char "t" m); [reflexivity|]. fold (core_of m).
  assert (HU2 : ~ In "U"%char (core_of m)) by (unfold core_of; rewrite filter_In; tauto).
  cbv zeta. rewrite (no_U_replace _ HU2), (no_U_map _ HU2). unfold open_mode_map.
  assert (N : forall x, In x mode_cores -> str_eqb (core_of m) x = false).
  { intros x Hx. destruct (str_eqb (core_of m) x) eqn:E; [|reflexivity]. apply str_eqb_eq in E. exfalso. apply H. rewrite E. exact Hx. }
  rewrite !N by (cbn; tauto). reflexivity.
Qed.
Theorem C44_bad_mode : forall s p m b cf, ~ In "U"%char m -> (In "b"%char m /\ In "t"%char m) \/ ~ In (core_of m) mode_cores ->
  step (Open p m b cf) s = (Err ValueErr, s).
Proof. intros s p m b cf HU H. cbn [step]. unfold open_. rewrite (parse_mode_bad m HU H). reflexivity. Qed.

(** the hypotheses are met: /f holds "123456"; /n does not exist *)
Example C44_case_existing : exists w s', step (Open (PStr (L "/l")) (L "w+b") (-1) true) io_state = (Ok (RHandle w), s') /\
  In (L "w+b") binary_modes /\ not_devnull io_state (L "/l") /\ exists_ io_state (L "/l") false = Ok true.
Proof.
  eexists _, _. split; [apply pair_eq; vm_compute; reflexivity|]. split; [cbn; tauto|]. split; [|vm_compute; reflexivity].
  apply io_not_null; [reflexivity|]. left. vm_compute. reflexivity.
Qed.
Example C44_case_new : exists w s', step (Open (PStr (L "/n")) (L "xb") (-1) true) io_state = (Ok (RHandle w), s') /\
  In (L "xb") binary_modes /\ not_devnull io_state (L "/n") /\ exists_ io_state (L "/n") false = Ok false.
Proof.
  eexists _, _. split; [apply pair_eq; vm_compute; reflexivity|]. split; [cbn; tauto|]. split; [|vm_compute; reflexivity].
  apply io_not_null; [reflexivity|]. right. eexists. vm_compute. reflexivity.
Qed.
Example C44_case_refused :
  fst (step (Open (PStr (L "/n")) (L "rb") (-1) true) io_state) = os_err ENOENT /\
  fst (step (Open (PStr (L "/f")) (L "xb") (-1) true) io_state) = os_err EEXIST /\
  fst (step (Open (PStr (L "/")) (L "rb") (-1) true) io_state) = os_err EISDIR /\
  fst (step (Open (PStr (L "/f")) (L "rwb") (-1) true) io_state) = Err ValueErr /\
  is_root io_state = true /\ resolve io_state (L "/f") false = Ok 2 /\ is_dirm io_state 2 = false /\ is_dirobj io_state 2 = false.
Proof. split; [vm_compute; reflexivity|]. split; [vm_compute; reflexivity|]. split; [vm_compute; reflexivity|]. split; [vm_compute; reflexivity|]. split; [vm_compute; reflexivity|]. split; [vm_compute; reflexivity|]. split; vm_compute; reflexivity. Qed.
Definition c44_open := Open (PStr (L "/f")) (L "rb") (-1) true.
Definition c44_state : fs := snd (step c44_open io_state).
Example C44_case_direction : step c44_open io_state = (Ok (RHandle 3), c44_state) /\ has "r" (L "rb") = true /\ has "+" (L "rb") = false /\
  fst (step (HWrite 3 (L "x")) c44_state) = Err Unsupported /\ fst (step (HRead 3 (-1)) c44_state) = Ok (RBytes (L "123456")).
Proof. split; [unfold c44_state; apply pair_eq; vm_compute; reflexivity|]. split; [reflexivity|]. split; [reflexivity|]. split; vm_compute; reflexivity. Qed.

(** ** C36: st_size is the length of the contents *)
(** of the files in [tr] the non-empty ones, and all others *)
Definition sized (tr : oid -> Prop) (s : fs) : Prop :=
  c_win (f_cfg s) = false -> forall o d, bytes_of s o d -> (tr o -> d <> []) -> o_size (ob s o) = Z.of_nat (length d).
Section Sized.
Variable tr : oid -> Prop.
Notation RS := (kept_by (sized tr)).
Lemma sz_same s s' : f_cfg s' = f_cfg s -> f_heap s' = f_heap s -> RS s s'.
Proof. unfold kept_by, sized, bytes_of, ob. intros -> ->. exact (fun H => H). Qed.
Lemma sz_heap f : (forall s, f_cfg (f s) = f_cfg s) -> (forall s, f_heap (f s) = f_heap s) -> keeps RS (modify f).
Proof. intros H K s. apply sz_same; [apply H|apply K]. Qed.
Lemma sz_mod_obj_at o f s : (forall d, o_body (f (ob s o)) = BFile (Some d) -> (tr o -> d <> []) -> sized tr s -> c_win (f_cfg s) = false -> o_size (f (ob s o)) = Z.of_nat (length d)) ->
  RS s (mod_ob s o f).
Proof.
  intros H K Hc x d Hb Hd. unfold bytes_of in Hb. change (f_cfg (mod_ob s o f)) with (f_cfg s) in Hc. destruct (Nat.eq_dec x o) as [->|N].
  - rewrite ob_mod_same in *. apply (H d Hb Hd K Hc).
  - rewrite ob_mod_other in * by exact N. apply (K Hc x d Hb Hd).
Qed.
Lemma sz_mod_obj o f : (forall x, o_size (f x) = o_size x) -> (forall x, o_body (f x) = o_body x \/ exists es, o_body (f x) = BDir es) -> keeps RS (mod_obj o f).
Proof.
  intros H K s. apply sz_mod_obj_at. intros d Hb Hd HK Hc. rewrite H. destruct (K (ob s o)) as [E|[es E]]; rewrite E in Hb; [|discriminate Hb].
  apply (HK Hc o d Hb Hd).
Qed.
Lemma sz_alloc n m b : (forall d, b <> BFile (Some d)) -> keeps RS (alloc n m b).
Proof.
  intros Hb s K Hc x d. unfold alloc, bytes_of, ob, upd. cbn. destruct (Nat.eqb_spec x (f_next s)); [intros E; exfalso; exact (Hb d E)|apply (K Hc x d)].
Qed.
Lemma sz_cdu z d : keeps RS (change_disk_usage z d).
Proof.
  intros s. apply sz_same; unfold change_disk_usage; destruct (mount_for_dev _ _) as [m|]; try reflexivity; destruct (m_total m); try destruct (_ <? _)%Z; reflexivity.
Qed.
Ltac sz_body := let y := fresh "y" in intros y; cbn; try (destruct (o_body y) eqn:?; cbn); eauto.
Ltac sz := kr; try first [apply sz_cdu|apply sz_alloc; discriminate|apply sz_heap; reflexivity|apply sz_mod_obj; sz_body; fail].
Lemma sz_rm_loop rm : (forall n, keeps RS (rm n)) -> forall k e, keeps RS (rm_loop rm k e).
Proof. intros H. induction k as [|k IH]; intros e; cbn [rm_loop]; sz; [apply H|apply IH]. Qed.
Lemma sz_remove_entry_n fuel : forall d n r, keeps RS (remove_entry_n fuel d n r).
Proof. induction fuel as [|f IH]; intros d n r; cbn [remove_entry_n]; unfold unlink_obj; sz. apply sz_rm_loop. intros m. apply IH. Qed.
Lemma resize_length d n : (0 <= n)%Z -> Z.of_nat (length (resize d (Z.of_nat (length d)) n)) = n.
Proof.
  intros H. unfold resize. destruct (Z.ltb_spec n (Z.of_nat (length d))); [rewrite firstn_length; lia|]. rewrite app_length, repeat_length. lia.
Qed.
Lemma sz_set_size o n : tr o \/ n = 0%Z -> keeps RS (set_size o n).
Proof.
  intros Hn s. unfold set_size, bind, gets. destruct (o_body (ob s o)) as [es|data] eqn:Eb; [apply sz_same; reflexivity|].
  destruct (Z.ltb_spec n 0); [apply sz_same; reflexivity|].
  assert (Hc : forall z dv, f_heap (snd (change_disk_usage z dv s)) = f_heap s /\ f_cfg (snd (change_disk_usage z dv s)) = f_cfg s).
  { intros z dv. unfold change_disk_usage; destruct (mount_for_dev _ _) as [m|]; auto; destruct (m_total m); try destruct (_ <? _)%Z; auto. }
  specialize (Hc (n - st_size s o)%Z (o_dev (ob s o))).
  destruct (change_disk_usage _ _ s) as [[u|e] s1]; cbn [fst snd] in Hc; [|apply sz_same; apply Hc].
  destruct Hc as [Hc1 Hc2]. cbv beta iota.
  transitivity s1; [apply sz_same; assumption|]. unfold mod_obj, modify. cbn [snd]. apply sz_mod_obj_at. intros d Hb Hd HK Hw.
  assert (Eo : ob s1 o = ob s o) by (unfold ob; rewrite Hc1; reflexivity). rewrite Eo in *.
  destruct data as [[|c data]|]; cbn in Hb |- *.
  - rewrite Eb in Hb. injection Hb as <-. destruct Hn as [Hn| ->]; [exfalso; apply (Hd Hn); reflexivity|reflexivity].
  - injection Hb as <-. assert (E : st_size s o = Z.of_nat (length (c :: data))).
    { unfold st_size. rewrite <- Hc2, Hw. cbn [andb]. rewrite <- Eo. apply (HK Hw o (c :: data)); [unfold bytes_of; rewrite Eo; exact Eb|discriminate]. }
    rewrite E, resize_length; [reflexivity|assumption].
  - rewrite Eb in Hb. discriminate Hb.
Qed.
Lemma sz_prims : fs_prims RS (fun _ => True) (forall o, tr o) True.
Proof.
  split; [split|..].
  - intros n m. apply sz_alloc. discriminate.
  - intros n m. apply sz_alloc. discriminate.
  - intros d o. unfold add_entry, link_obj. sz.
  - intros d n r s. apply (sz_remove_entry_n (S (f_next s)) d n r s).
  - intros Ht o n. apply sz_set_size. left. apply Ht.
  - intros o c. unfold set_initial_contents. sz; [apply sz_set_size; right; reflexivity|].
    intros s. apply sz_mod_obj_at. cbn. intros d E _ _ _. injection E as <-. reflexivity.
  - intros _ o n. unfold set_large_file_size. sz; [apply sz_set_size; right; reflexivity|].
    intros s. apply sz_mod_obj_at. cbn. intros d E. discriminate E.
  - intros o n. sz.
  - intros o n. sz.
  - apply (register_from _ _ _); [exact I| |].
    + intros p d t _. sz.
    + sz.
  - sz.
  - intros i. sz.
  - intros o. any_dev. sz.
  - intros o c m t. sz.
  - intros o f Hf. apply sz_mod_obj; intros x; rewrite (Hf x); auto.
  - intros s s' H. apply sz_same; rewrite H; reflexivity.
  - intros s s' H. apply sz_same; rewrite H; reflexivity.
  - intros o f Hf. apply sz_mod_obj; intros x; rewrite (Hf x); auto.
  - intros o k v. sz.
  - intros o k. sz.
Qed.
Lemma sz_step o : (trunc_call o = true -> forall x, tr x) -> keeps RS (step o).
Proof.
  intros H. destruct o; try (apply (gen_step _ _ _ (fp_core _ _ _ _ sz_prims) sz_prims); [exact H|intros; exact Logic.I|intros; exact Logic.I|discriminate]).
  cbn [step]. apply gn_outm. apply (gen_set_usage _ _ _ (fp_core _ _ _ _ sz_prims)). intros k m. sz.
Qed.
Lemma sz_init c total um uid gid now : sized tr (init c total um uid gid now).
Proof.
  intros _ o d. unfold bytes_of, ob, init. cbn. destruct (Nat.eqb o root_oid); [discriminate|]. destruct (Nat.eqb o devnull_oid); [|discriminate].
  intros E _. injection E as <-. reflexivity.
Qed.
End Sized.
Lemma stat_str s p st : stat s (PStr p) true = Ok st -> exists o, resolve s p false = Ok o /\ st = stat_of s o.
Proof.
  unfold stat, stat_obj. cbn [rbind]. destruct (resolve_arg s (PStr p) true false) as [o|e] eqn:E; [|discriminate]. cbn [rbind].
  destruct (if negb (is_root s) then _ else _); [|discriminate]. cbn [rbind]. destruct (raise_for_sep _ _ _ _ _); [|discriminate]. cbn [rbind].
  intros H. injection H as <-. exists o. split; [exact E|reflexivity].
Qed.
(** reading a whole file, opened in 'rb' mode, gives its contents *)
Lemma whole_read c s hs p b cf w s1 n d s2 : linux_like c -> c_sep c = slash -> session natural_fds c s hs -> within_limits s -> not_devnull s p ->
  step (Open (PStr p) (L "rb") b cf) s = (Ok (RHandle w), s1) -> (n < 0)%Z -> step (HRead w n) s1 = (Ok (RBytes d), s2) ->
  exists o, resolve s p false = Ok o /\ bytes_of s o d.
Proof.
  intros Hl Hs HS HL Hn H Hneg HR.
  destruct (session_open c s hs p (L "rb") _ b cf w s1 Hl Hs HS HL Hn eq_refl eq_refl H) as (HS1 & HL1 & o & O).
  destruct (of_how _ _ _ _ _ _ _ _ _ O) as [(_ & E1 & _ & K & E)|(_ & _ & E & _)]; [|discriminate E]. cbn [andb om_write] in E.
  exists o. split; [exact E1|]. unfold bytes_of. rewrite <- E. destruct (o_body (ob s1 o)) as [es|[D|]] eqn:Eb.
  - pose proof (of_file _ _ _ _ _ _ _ _ _ O) as K1. unfold is_dirobj in K1. rewrite Eb in K1. discriminate K1.
  - destruct (handle_view _ _ _ _ _ _ _ _ _ (of_handle _ _ _ _ _ _ _ _ _ O) (of_null _ _ _ _ _ _ _ _ _ O) Eb) as (V3 & [G1 G2 G3 G4 G5 G6 G7]).
    cbn in V3, G1, G2, G3. rewrite andb_false_r in V3. cbn in V3.
    pose proof (reads_spec w o [n] s1 _ _ _ V3 G1 G2 G3 ltac:(lia)) as K1. cbn [map outs slices] in K1. rewrite HR in K1. cbn [fst] in K1.
    rewrite (proj2 (Z.ltb_lt _ _) Hneg) in K1. cbn [skipn] in K1. injection K1 as ->. reflexivity.
  - exfalso. destruct (ho_wrap _ _ _ _ _ _ _ _ (of_handle _ _ _ _ _ _ _ _ _ O)) as [fd HX].
    cbn [step] in HR. rewrite outm_eq in HR. unfold file_read, io_enter, wget, bind, gets in HR. rewrite HX in HR. cbn in HR. unfold is_large in HR. rewrite Eb in HR. discriminate HR.
Qed.
Lemma sized_session (tr : oid -> Prop) (A : op -> Prop) c s hs : (forall o, A o -> trunc_call o = true -> forall x, tr x) -> session A c s hs -> sized tr s.
Proof.
  intros HA (total & um & uid & gid & now & H). induction H as [|s1 hs1 o H IH Ao Ho]; [apply sz_init|].
  exact (sz_step tr o (HA o Ao) s1 IH).
Qed.
Lemma session_mono (A B : op -> Prop) c s hs : (forall o, A o -> B o) -> session A c s hs -> session B c s hs.
Proof.
  intros HAB (total & um & uid & gid & now & H). exists total, um, uid, gid, now. induction H as [|s1 hs1 o H IH Ao Ho]; econstructor; eauto.
Qed.
(** Any history at all: when reading the file gives something, st_size is the number of bytes. *)
Theorem C36_nonempty_partial : forall c s hs p st b cf w s1 n d s2,
  linux_like c -> c_sep c = slash -> session natural_fds c s hs -> within_limits s -> not_devnull s p ->
  stat s (PStr p) true = Ok st ->
  step (Open (PStr p) (L "rb") b cf) s = (Ok (RHandle w), s1) -> (n < 0)%Z -> step (HRead w n) s1 = (Ok (RBytes d), s2) ->
  d <> [] -> ss_size st = Z.of_nat (length d).
Proof.
  intros c s hs p st b cf w s1 n d s2 Hl Hs HS HL Hn Hst H Hneg HR Hd.
  destruct (whole_read c s hs p b cf w s1 n d s2 Hl Hs HS HL Hn H Hneg HR) as (o & E1 & E2). destruct (stat_str _ _ _ Hst) as (o2 & E3 & ->).
  rewrite E1 in E3. injection E3 as <-. destruct (session_Ginv _ _ _ _ Hl HS) as [HG _]. cbn [stat_of ss_size]. unfold st_size. rewrite (Ginv_win _ HG). cbn [andb].
  apply (sized_session (fun _ => True) natural_fds c s hs (fun _ _ _ _ => Logic.I) HS (Ginv_win _ HG) o d E2 (fun _ => Hd)).
Qed.
(** Histories without truncate calls: always. *)
Theorem C36_no_truncate_partial : forall c s hs p st b cf w s1 n d s2,
  linux_like c -> c_sep c = slash -> session (fun o => natural_fds o /\ trunc_call o = false) c s hs -> within_limits s -> not_devnull s p ->
  stat s (PStr p) true = Ok st ->
  step (Open (PStr p) (L "rb") b cf) s = (Ok (RHandle w), s1) -> (n < 0)%Z -> step (HRead w n) s1 = (Ok (RBytes d), s2) ->
  ss_size st = Z.of_nat (length d).
Proof.
  intros c s hs p st b cf w s1 n d s2 Hl Hs HS0 HL Hn Hst H Hneg HR.
  assert (HS : session natural_fds c s hs) by (apply (session_mono _ _ _ _ _ (fun o K => proj1 K) HS0)).
  destruct (whole_read c s hs p b cf w s1 n d s2 Hl Hs HS HL Hn H Hneg HR) as (o & E1 & E2). destruct (stat_str _ _ _ Hst) as (o2 & E3 & ->).
  rewrite E1 in E3. injection E3 as <-. destruct (session_Ginv _ _ _ _ Hl HS) as [HG _]. cbn [stat_of ss_size]. unfold st_size. rewrite (Ginv_win _ HG). cbn [andb].
  apply (sized_session (fun _ => False) _ c s hs (fun o K E => False_ind _ (eq_true_false_abs _ E (proj2 K))) HS0 (Ginv_win _ HG) o d E2 (fun F => False_ind _ F)).
Qed.
(** the same for every file object of every reachable state, macOS included *)
Theorem C36_every_file_partial : forall c s o d, c_win c = false -> reachable c s -> bytes_of s o d -> d <> [] -> ss_size (stat_of s o) = Z.of_nat (length d).
Proof.
  intros c s o d Hw HR Hb Hd. pose proof (reachable_cfg c s HR) as Hc. cbn [stat_of ss_size]. unfold st_size. rewrite Hc, Hw. cbn [andb].
  destruct HR as (total & um & uid & gid & now & ops & ->). revert Hb. revert Hc. generalize (sz_init (fun _ => True) c total um uid gid now). generalize (init c total um uid gid now).
  induction ops as [|x ops IH]; intros s Hs Hc Hb; [apply (Hs ltac:(cbn in Hc; congruence) o d Hb (fun _ => Hd))|].
  cbn [run] in *. apply IH; [|exact Hc|exact Hb]. apply (sz_step (fun _ => True) x (fun _ _ => Logic.I) s Hs).
Qed.
(** os.truncate on an empty file: st_size 5, but nothing to read *)
Definition c36_ops : list op := [CreateFile (L "/f") 33188 (Some []) None true true; Truncate (PStr (L "/f")) 5].
Definition c36_state : fs := run fd_init c36_ops.
Theorem C36_empty_truncate_refuted : session natural_fds posix_cfg c36_state (all_handles fd_init [] c36_ops) /\
  (exists st, stat c36_state (PStr (L "/f")) true = Ok st /\ ss_size st = 5%Z) /\
  outs c36_state [Open (PStr (L "/f")) (L "rb") (-1) true; HRead 3 (-1)] = [Ok (RHandle 3); Ok (RBytes [])].
Proof.
  split; [|split].
  - exists None, 18%N, 0%Z, 0%Z, 0%Z. apply continues_ops. okgo.
  - eexists. split; vm_compute; reflexivity.
  - vm_compute. reflexivity.
Qed.
Example C36_case : exists st s1 s2, session (fun o => natural_fds o /\ trunc_call o = false) posix_cfg io_state (all_handles fd_init [] io_ops) /\
  stat io_state (PStr (L "/l")) true = Ok st /\ ss_size st = 6%Z /\
  step (Open (PStr (L "/l")) (L "rb") (-1) true) io_state = (Ok (RHandle 3), s1) /\ step (HRead 3 (-1)) s1 = (Ok (RBytes (L "123456")), s2).
Proof.
  eexists _, _, _. split; [|split; [vm_compute; reflexivity|]].
  - exists None, 18%N, 0%Z, 0%Z, 0%Z. apply continues_ops. repeat (split; [split; [exact Logic.I|reflexivity]|split; [intros w E; discriminate E|]]). exact Logic.I.
  - split; [reflexivity|]. split; apply pair_eq; vm_compute; reflexivity.
Qed.

(** ** C45: truncate cuts or pads with zeros *)
(** the first n bytes, padded with NUL bytes *)
Definition truncated (D : str) (n : nat) : str := firstn n D ++ repeat Ascii.zero (n - length D).
Lemma resize_truncated D n : (0 <= n)%Z -> resize D (Z.of_nat (length D)) n = truncated D (Z.to_nat n).
Proof.
  intros Hn. unfold resize, truncated. destruct (Z.ltb_spec n (Z.of_nat (length D))).
  - replace (Z.to_nat n - length D) with 0 by lia. cbn. rewrite app_nil_r. reflexivity.
  - rewrite firstn_all2 by lia. f_equal. f_equal. lia.
Qed.
(** os.truncate(path or fd, n) and os.ftruncate(fd, n) *)
Definition truncates (s : fs) (op : op) (o : oid) (n : Z) : Prop :=
  match op with
  | Truncate (PStr p) n' => n' = n /\ resolve s p true = Ok o
  | Truncate (PFd fd) n' | Ftruncate fd n' => n' = n /\ fd_object s fd = Ok o
  | _ => False
  end.
Theorem C45_os_truncate_partial : forall c s op o n D,
  c_win c = false -> reachable c s -> truncates s op o n -> (0 <= n)%Z -> bytes_of s o D -> (D <> [] \/ n = 0%Z) ->
  (* it succeeds, or the disk is full and nothing happens *)
  (fst (step op s) = Ok RUnit /\
   bytes_of (snd (step op s)) o (truncated D (Z.to_nat n)) /\ ss_size (stat_of (snd (step op s)) o) = n /\ kept o s (snd (step op s))) \/
  (fst (step op s) = os_err ENOSPC /\ snd (step op s) = s /\ ~ unlimited s).
Proof.
  intros c s op o n D Hw HR Hop Hn Hb HD.
  assert (E : step op s = outm (fun _ => RUnit) (set_size o n) s).
  { destruct op; try contradiction; [destruct a as [p|fd]|]; destruct Hop as [-> Hop]; cbn [step]; rewrite !outm_eq; unfold os_truncate, os_ftruncate, bind, lift.
    - change (resolve_arg s (PStr p) true true) with (resolve s p true). rewrite Hop. reflexivity.
    - cbn [resolve_arg]. rewrite Hop. reflexivity.
    - rewrite Hop. reflexivity. }
  rewrite E, outm_eq. clear E. cbn [fst snd].
  pose proof (reachable_cfg c s HR) as Hc.
  assert (Hsz : D <> [] -> st_size s o = Z.of_nat (length D)) by (intros K; exact (C36_every_file_partial c s o D Hw HR Hb K)).
  assert (G : wp (set_size o n) s (fun r s' => (r = Ok tt /\ bytes_of s' o (truncated D (Z.to_nat n)) /\ ss_size (stat_of s' o) = n /\ kept o s s') \/ (r = nospc /\ s' = s /\ ~ unlimited s))).
  { unfold set_size. apply wp_bind_gets. unfold bytes_of in Hb. rewrite Hb, (proj2 (Z.ltb_ge n 0) Hn). apply wp_bind_gets. apply wp_bind_gets.
    apply wp_bind. eapply wp_conseq; [apply wp_cdu|]. cbv beta. intros r s1 [(-> & -> & Hr)|(-> & Hs1 & Ht1)].
    - right. split; [reflexivity|]. split; [reflexivity|]. intros U. apply Hr. apply (unlimited_roomy s s o U), totals_refl.
    - apply wp_mod_obj. left. split; [reflexivity|].
      assert (Hb1 : forall x, ob s1 x = ob s x) by (intros x; rewrite Hs1; reflexivity).
      assert (Hcf : f_cfg s1 = c) by (rewrite Hs1; exact Hc).
      split; [|split].
      + unfold bytes_of. rewrite ob_mod_same, Hb1. destruct D as [|x D].
        * cbn. rewrite Hb. destruct HD as [HD| ->]; [contradiction HD; reflexivity|reflexivity].
        * cbn [wo_epoch wo_size wo_body o_body]. rewrite (Hsz ltac:(discriminate)), resize_truncated by exact Hn. reflexivity.
      + cbn [stat_of ss_size]. unfold st_size. change (f_cfg (mod_ob s1 o _)) with (f_cfg s1). rewrite Hcf, Hw. cbn [andb]. rewrite ob_mod_same. reflexivity.
      + constructor.
        * rewrite Hs1. unfold same_env. auto 10.
        * rewrite Hs1. auto.
        * intros x Hx. rewrite ob_mod_other by exact Hx. apply Hb1.
        * rewrite ob_mod_same, Hb1. destruct D; reflexivity.
        * unfold is_dirobj. rewrite ob_mod_same, Hb1, Hb. destruct D; cbn; rewrite ?Hb; reflexivity.
        * intros d. rewrite <- Ht1. reflexivity. }
  unfold wp in G. destruct G as [(E & G)|(E & G & U)]; rewrite E; [left; auto|right]. split; [reflexivity|auto].
Qed.
(** after file.truncate(0) the size is 0 *)
Notation all_sized := (sized (fun _ => True)).
Notation sized_at o := (sized (fun x => x <> o)).
Lemma heap_cdu z dv s : f_heap (snd (change_disk_usage z dv s)) = f_heap s /\ f_cfg (snd (change_disk_usage z dv s)) = f_cfg s.
Proof. unfold change_disk_usage; destruct (mount_for_dev _ _) as [m|]; auto; destruct (m_total m); try destruct (_ <? _)%Z; auto. Qed.
Lemma set_size_zero o s : all_sized s -> fst (set_size o 0 s) = Ok tt -> sized_at o (snd (set_size o 0 s)).
Proof.
  intros HS Hok Hw x d Hb Hd. destruct (Nat.eq_dec x o) as [->|N].
  2:{ apply (sz_set_size (fun _ => True) o 0 (or_introl Logic.I) s HS Hw x d Hb). intros _. apply Hd, N. }
  clear Hd. revert Hok Hw Hb. unfold set_size, bind, gets. destruct (o_body (ob s o)) as [es|data] eqn:Eb; [discriminate|].
  cbn [Z.ltb Z.compare]. pose proof (heap_cdu (0 - st_size s o) (o_dev (ob s o)) s) as [Hc Hc2].
  destruct (change_disk_usage _ _ s) as [[u|e] s1]; cbn [fst snd] in *; [|discriminate].
  unfold mod_obj, modify. cbn [fst snd]. intros _ Hw Hb. change (c_win (f_cfg s1) = false) in Hw. unfold bytes_of in Hb. rewrite ob_mod_same in *.
  assert (Eo : ob s1 o = ob s o) by (unfold ob; rewrite Hc; reflexivity). rewrite Eo in *.
  assert (E : d = []); [|subst d; destruct data as [[|]|]; reflexivity].
  destruct data as [[|c data]|]; cbn in Hb; rewrite ?Eb in Hb; [congruence| |discriminate].
  rewrite Hc2 in Hw. assert (E : st_size s o = Z.of_nat (length (c :: data))).
  { unfold st_size. rewrite Hw. apply (HS Hw o (c :: data)); [exact Eb|discriminate]. }
  rewrite E in Hb. unfold resize in Hb. cbn [length] in Hb. rewrite (proj2 (Z.ltb_lt _ _)) in Hb by lia. cbn in Hb. congruence.
Qed.
Lemma sz_flush tr w : keeps (kept_by (sized tr)) (flush w).
Proof.
  apply ir_flush.
  - apply (fp_handles _ _ _ _ (fp_core _ _ _ _ (sz_prims tr))).
  - apply (fp_times _ _ _ _ (fp_core _ _ _ _ (sz_prims tr))).
  - intros o c. apply (gn_set_contents _ _ _ (fp_core _ _ _ _ (sz_prims tr))).
Qed.
Lemma truncate_zero e w o s B P F D : view_ e s w o B P F D -> w_update (wr s w) = true -> w_append (wr s w) = false -> all_sized s ->
  wp (file_truncate w (Some 0%Z)) s (fun r s' => forall n, r = Ok n -> sized_at o s').
Proof.
  intros V Hu Ha HS. unfold file_truncate. apply (wp_io_enter e w o s B P F D); [exact V|]. rewrite Hu, Ha. cbn [negb].
  apply wp_bind, wp_ret. cbv beta iota. apply wp_bind_wget. cbv zeta. cbn [Z.ltb Z.compare]. apply wp_bind_wmod.
  rewrite (v_obj _ _ _ _ _ _ _ _ V).
  set (s1 := mod_wr s w _). assert (H1 : all_sized s1) by (apply (sz_same (fun _ => True) s s1); [reflexivity|reflexivity|exact HS]).
  clearbody s1. apply wp_bind. pose proof (sz_flush (fun _ => True) w s1 H1) as H2. unfold wp at 1.
  destruct (flush w s1) as [[u|e1] s2]; cbn [fst snd] in *; [|discriminate].
  apply wp_bind. unfold wp at 1. pose proof (set_size_zero o s2 H2) as H3.
  destruct (set_size o 0 s2) as [[[]|e1] s3]; cbn [fst snd] in *; [|discriminate]. specialize (H3 eq_refl).
  apply wp_bind_wget. assert (E : (Z.of_nat (length (w_buf (wr s3 w))) <? 0)%Z = false) by (apply Z.ltb_ge; lia). rewrite E. apply wp_bind, wp_ret. cbv beta iota.
  apply wp_bind. pose proof (sz_flush (fun x => x <> o) w s3 H3) as H4. unfold wp at 1. destruct (flush w s3) as [[u2|e1] s4]; cbn [fst snd] in *; [|discriminate].
  apply wp_ret. intros n _. exact H4.
Qed.
(** file.truncate(n) after any calls on a handle (as in C41): the file on the
    disk has the new contents and size at once *)
Theorem C45_handle_truncate : forall c s hs p m b cf w s1 D,
  linux_like c -> c_sep c = slash -> session natural_fds c s hs -> within_limits s -> not_devnull s p -> held s p D ->
  random_mode m -> step (Open (PStr p) m b cf) s = (Ok (RHandle w), s1) ->
  let B := start_bytes m D in
  forall l n, Forall (random_use w) l -> safe_run (bufsize_of b) l B 0 (length B) -> (0 <= n)%Z ->
  let s2 := run s1 l in let s3 := snd (step (HTruncate w (Some n)) s2) in
  (unlimited s \/ space_enough (outs s1 (l ++ [HTruncate w (Some n)]))) ->
  fst (step (HTruncate w (Some n)) s2) = Ok (RInt n) /\
  holds s3 p (truncated (fst (ref_run l (B, 0))) (Z.to_nat n)) /\
  (forall o, resolve s3 p false = Ok o -> ss_size (stat_of s3 o) = n).
Proof.
  intros c s hs p m b cf w s1 D Hl Hs HS HL Hn HD Hm H B l n Hu Hsafe Hn0 s2 s3 Hr.
  assert (Hmode : exists om, parse_mode m = Ok om /\ has_char "b"%char m = true /\ om_write om = true /\ om_append om = false /\ om_read om = true /\
     (om_must_not_exist om = false -> (if om_write om && om_trunc om then [] else D) = B) /\ (om_must_exist om = false -> B = [])).
  { subst B. destruct Hm as [<-|[<-|[<-|[<-|[<-|[<-|[]]]]]]]; eexists; (split; [reflexivity|]); repeat split; discriminate. }
  destruct Hmode as (om & M1 & M2 & M3 & M4 & M5 & M6 & M7).
  destruct (session_open c s hs p m _ b cf w s1 Hl Hs HS HL Hn M1 M2 H) as (HS1 & _ & o & O).
  assert (B0 : bytes_of s1 o B).
  { destruct (of_how _ _ _ _ _ _ _ _ _ O) as [(E1 & E2 & Ex & _ & E)|(E1 & _ & Ex & E & _)].
    - unfold bytes_of. rewrite E, <- (M6 Ex). destruct (_ && _); [reflexivity|]. destruct HD as [[_ HD]|[HD _]]; [apply HD, E2|congruence].
    - rewrite (M7 Ex). exact E. }
  destruct (handle_view _ _ _ _ _ _ _ _ _ (of_handle _ _ _ _ _ _ _ _ _ O) (of_null _ _ _ _ _ _ _ _ _ O) B0) as (V & [F1 F2 F3 F4 F5 F6 F7]).
  rewrite M4, andb_false_r in V. rewrite M3 in F1. rewrite M4 in F2. rewrite M5 in F3. rewrite <- F6 in Hsafe.
  assert (Hr1 : roomy s1 o \/ space_enough (outs s1 (l ++ [HTruncate w (Some n)]))).
  { destruct Hr as [Hr|Hr]; [left; apply (unlimited_open _ _ _ _ _ _ _ Hr H)|right; exact Hr]. }
  rewrite outs_app in Hr1.
  destruct (random_run w o l s1 B 0 (length B) B V F1 F2 F3 Hu Hsafe) as (T1 & T2 & F' & D' & T3).
  { destruct Hr1 as [Hr1|Hr1]; [left; exact Hr1|right]. apply Forall_app in Hr1. apply Hr1. }
  fold s2 in T1, T3, Hr1. pose proof (iow_flags _ _ _ T1) as (G1 & G2 & _ & _ & _ & G6 & _).
  pose proof (wp_truncate true w o s2 _ _ _ _ (Some n) T3 ltac:(congruence) ltac:(congruence)) as K. cbv beta zeta iota in K. rewrite (proj2 (Z.ltb_ge n 0) Hn0) in K.
  assert (HS2 : session natural_fds c s2 (all_handles s1 (hs ++ [w]) l)).
  { apply session_run; [exact HS1|]. apply (okops_handle w); [apply in_or_app; right; left; reflexivity|]. eapply Forall_impl; [|exact Hu]. intros x Hx; apply Hx. }
  assert (HS3 : session natural_fds c s3 (all_handles s1 (hs ++ [w]) l ++ [])).
  { pose proof (session_step _ _ _ _ (HTruncate w (Some n)) HS2 Logic.I) as K3.
    assert (R : returned (fst (step (HTruncate w (Some n)) s2)) = []) by (cbn [step]; rewrite outm_eq; destruct (file_truncate _ _ _) as [[|]]; reflexivity).
    rewrite R in K3. apply K3. intros x E. injection E as <-.
    clear - l. revert s1. assert (G : forall ops s hs', In w hs' -> In w (all_handles s hs' ops)); [|intros s1; apply G, in_or_app; right; left; reflexivity].
    induction ops as [|o ops IH]; intros s hs' Hin; [exact Hin|]. cbn [all_handles]. apply IH, in_or_app. left. exact Hin. }
  assert (Hz : n = 0%Z -> forall z, fst (file_truncate w (Some n) s2) = Ok z -> sized_at o s3).
  { intros -> z Ez. pose proof (truncate_zero true w o s2 _ _ _ _ T3 ltac:(congruence) ltac:(congruence)
      (sized_session (fun _ => True) natural_fds c s2 _ (fun _ _ _ _ => Logic.I) HS2)) as Kz. unfold wp in Kz. unfold s3. cbn [step]. rewrite outm_eq. cbn [snd]. apply (Kz z Ez). }
  destruct (session_Ginv _ _ _ _ Hl HS3) as [HG3 Hc3]. pose proof (session_reachable _ _ _ _ HS3) as HR3.
  subst s3. cbn [outs] in Hr1. unfold wp in K. cbn [step] in *. rewrite outm_eq in *. destruct (file_truncate w (Some n) s2) as [r s3]. cbn [fst snd] in *.
  destruct K as [(-> & K)|((-> & V3) & I3)].
  { exfalso. destruct Hr1 as [Hr1|Hr1]; [apply K, (roomy_iow _ _ _ o T1), Hr1|]. apply Forall_app in Hr1. destruct Hr1 as [_ Hr1]. inversion Hr1 as [|? ? K1']. apply K1'. reflexivity. }
  split; [reflexivity|].
  assert (K2 : kept o s1 s3).
  { apply (kept_trans o _ s2); [rewrite <- (v_obj _ _ _ _ _ _ _ _ V); apply iow_kept, T1|]. rewrite <- (v_obj _ _ _ _ _ _ _ _ T3); apply iow_kept, I3. }
  assert (ER : forall o2, resolve s3 p false = Ok o2 -> o2 = o).
  { intros o2. rewrite (kept_resolve o _ _ _ K2 (of_file _ _ _ _ _ _ _ _ _ O) (of_link _ _ _ _ _ _ _ _ _ O)). apply O. }
  pose proof (v_data _ _ _ _ _ _ _ _ V3) as VD. change (cut ?a ?b) with (truncated a b) in VD.
  split; [intros o2 E; rewrite (ER o2 E); exact VD|]. intros o2 E. rewrite (ER o2 E).
  assert (Hlen : length (truncated (fst (ref_run l (B, 0))) (Z.to_nat n)) = Z.to_nat n).
  { unfold truncated. rewrite app_length, firstn_length, repeat_length. lia. }
  pose proof (Ginv_win _ HG3) as Hw3.
  assert (G : o_size (ob s3 o) = Z.of_nat (length (truncated (fst (ref_run l (B, 0))) (Z.to_nat n)))).
  { destruct (Z.eq_dec n 0) as [E0|E0].
    - apply (Hz E0 n eq_refl Hw3 o _ VD). intros K3. contradiction K3. reflexivity.
    - apply (sized_session (fun _ => True) natural_fds c s3 _ (fun _ _ _ _ => Logic.I) HS3 Hw3 o _ VD). intros _ E3. rewrite E3 in Hlen. cbn in Hlen. lia. }
  cbn [stat_of ss_size]. unfold st_size. rewrite Hw3. cbn [andb]. rewrite G, Hlen. lia.
Qed.
(** os.truncate of an empty file changes the size only *)
Theorem C45_empty_refuted : resolve c36_state (L "/f") true = Ok 2 /\ bytes_of c36_state 2 [] /\ ss_size (stat_of c36_state 2) = 5%Z.
Proof. split; [vm_compute; reflexivity|]. split; vm_compute; reflexivity. Qed.
Example C45_case_os : truncates io_state (Truncate (PStr (L "/l")) 9) 2 9 /\ bytes_of io_state 2 (L "123456") /\
  fst (step (Truncate (PStr (L "/l")) 9) io_state) = Ok RUnit /\ truncated (L "123456") 4 = L "1234" /\ length (truncated (L "123456") 9) = 9.
Proof. split; [split; [reflexivity|vm_compute; reflexivity]|]. split; [vm_compute; reflexivity|]. split; [vm_compute; reflexivity|]. split; reflexivity. Qed.
Example C45_case_handle : step c41_open io_state = (Ok (RHandle 3), c41_state) /\ Forall (random_use 3) [HWrite 3 (L "ab")] /\
  safe_run (bufsize_of 4) [HWrite 3 (L "ab")] (L "123456") 0 6 /\ held io_state (L "/f") (L "123456") /\
  fst (step (HTruncate 3 (Some 4%Z)) (run c41_state [HWrite 3 (L "ab")])) = Ok (RInt 4) /\
  bytes_of (snd (step (HTruncate 3 (Some 4%Z)) (run c41_state [HWrite 3 (L "ab")]))) 2 (L "ab34").
Proof.
  split; [apply C41_case|]. split; [repeat constructor; discriminate|]. split; [|split; [apply C42_case|split; vm_compute; reflexivity]].
  split; [|exact Logic.I]. right. right. vm_compute. discriminate.
Qed.

Print Assumptions C44_success.
Print Assumptions C44_failure.
Print Assumptions C44_root_opens.
Print Assumptions C44_root_creates.
Print Assumptions C44_direction.
Print Assumptions C44_bad_mode.
Print Assumptions C36_nonempty_partial.
Print Assumptions C36_no_truncate_partial.
Print Assumptions C36_every_file_partial.
Print Assumptions C36_empty_truncate_refuted.
Print Assumptions C45_os_truncate_partial.
Print Assumptions C45_handle_truncate.
Print Assumptions C45_empty_refuted.
