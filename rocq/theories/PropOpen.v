(** * Property C70: the flags of os.open *)
From Verif Require Import PropIo PropIo2 PropIo3 PropFd PropTree PropAttr OpenThm IoSess GraphOps4 AttrThm FdThm ResThm LookEq Frame.
From Verif Require Import OpsThm.

(** the permission bits asked for *)
Definition asked (s : fs) (mode : option N) : N := match mode with Some m => m | None => N.ldiff 511 (f_rumask s) end.
Definition writing (fl : N) : bool := has_bit fl O_WRONLY || has_bit fl O_RDWR.
(** the mode of a file with its 12 permission bits replaced *)
Definition with_bits (old m : N) : N := N.lor (N.ldiff old 4095) (N.land m 4095).
(** everything of an object but its contents, its mode and its times *)
Definition identity (x : fobj) := (o_name x, o_ino x, o_dev x, o_nlink x, o_uid x, o_gid x, o_parent x, o_xattr x).

(** what a successful os.open of an existing file did *)
Definition fd_existing (s s' : fs) (p : str) (fl : N) (mode : option N) : Prop :=
  exists o, resolve s p false = Ok o /\ has_bit fl O_EXCL = false /\
    o_body (ob s' o) = (if has_bit fl O_TRUNC && writing fl then BFile (Some []) else o_body (ob s o)) /\
    o_mode (ob s' o) = with_bits (o_mode (ob s o)) (asked s mode) /\
    identity (ob s' o) = identity (ob s o) /\ (forall x, x <> o -> ob s' x = ob s x) /\
    (is_root s = true -> resolve s' p false = Ok o).
(** and of a missing one *)
Definition fd_new (s s' : fs) (p : str) (fl : N) (mode : option N) : Prop :=
  exists o s1 d n, has_bit fl O_CREAT = true /\ one_more s s1 d n o /\ brand_new s s1 d o /\
    bytes_of s' o [] /\ o_size (ob s' o) = 0%Z /\
    o_mode (ob s' o) = with_bits (o_mode (ob s1 o)) (asked s mode) /\
    identity (ob s' o) = identity (ob s1 o) /\ (forall x, x <> o -> ob s' x = ob s1 x).

Definition flag_modes (fl : N) : open_modes :=
  mkom (negb (has_bit fl O_CREAT) && negb false) (negb (has_bit fl O_WRONLY)) (has_bit fl (N.lor O_RDWR O_WRONLY)) (has_bit fl O_TRUNC) (has_bit fl O_APPEND) (has_bit fl O_EXCL).
Lemma has_or a b c : has_bit a (N.lor b c) = has_bit a b || has_bit a c.
Proof.
  unfold has_bit. rewrite N.land_lor_distr_r. destruct (N.eqb_spec (N.land a b) 0) as [->|H]; cbn [negb orb]; [rewrite N.lor_0_l; reflexivity|].
  destruct (N.eqb_spec (N.lor (N.land a b) (N.land a c)) 0) as [E|_]; [|reflexivity]. apply N.lor_eq_0_iff in E. destruct E. contradiction.
Qed.
Lemma os_open_done c s hs p fl mode u fd s' : linux_like c -> c_sep c = slash -> session natural_fds c s hs -> within_limits s -> not_devnull s p ->
  has_bit fl O_TMPFILE = false -> (forall o, resolve s p false = Ok o -> is_dirobj s o = false) ->
  step (OsOpen p fl mode u) s = (Ok (RInt fd), s') ->
  exists w sm o, Ginv sm /\ opened_file s sm p w o (flag_modes fl) (-1) true false /\ w_fd (wr sm w) = fd /\ chmod (PStr p) (asked s mode) true sm = (Ok tt, s').
Proof.
  intros Hl Hs HS HL Hn Ht HD H. destruct (session_Ginv _ _ _ _ Hl HS) as [HG Hc].
  assert (HF : Finv s) by (apply (si_f _ hs), (session_Sinv natural_fds c); auto).
  pose proof (Ginv_win _ HG) as Hw.
  cbn [step] in H. apply is_open_ok in H. destruct H as (fd' & H & E). injection E as ->.
  assert (W : wp (os_open p fl mode u) s (fun r sf => r = Ok fd -> exists w sm o, Ginv sm /\ opened_file s sm p w o (flag_modes fl) (-1) true false /\ w_fd (wr sm w) = fd /\ chmod (PStr p) (asked s mode) true sm = (Ok tt, sf))).
  2:{ apply (wp_elim _ _ _ _ _ W H). reflexivity. }
  unfold os_open. rewrite Ht. wstep. wstep. cbv zeta. fold (flag_modes fl). rewrite Hw. fold (asked s mode).
  destruct (om_must_not_exist _ && om_must_exist _); [apply wp_raise; discriminate|]. wstep.
  apply wp_bind. apply (wp_conseq _ s (fun r sx => sx = s /\ forall w1, r <> Ok (Some w1))).
  { wstep. destruct (exists_ s p false) as [[|]|e] eqn:Ee; try (wstep; split; [reflexivity|discriminate]); [|split; [reflexivity|discriminate]].
    wstep. destruct (resolve s p true) as [o|e] eqn:Er; [|split; [reflexivity|discriminate]]. wstep.
    apply (resolve_true_false s p o (Ginv_good _ HG)) in Er. rewrite (HD o Er). wstep. split; [reflexivity|discriminate]. }
  intros r sx (-> & Hr). destruct r as [[w1|]|e]; [contradiction (Hr w1 eq_refl)| |discriminate].
  apply wp_bind. apply wp_intro. intros r sm Ho. destruct r as [w1|e]; [|discriminate].
  destruct (open_str_done s p (flag_modes fl) (-1) true true false w1 sm HG ltac:(congruence) HL HF Hn Ho) as (o & O).
  apply wp_bind_wget. destruct (ho_wrap _ _ _ _ _ _ _ _ (of_handle _ _ _ _ _ _ _ _ _ O)) as (fd2 & Ew).
  assert (Eo : w_obj (wr sm w1) = o) by (rewrite Ew; reflexivity). rewrite Eo, (proj2 (Nat.eqb_neq _ _) (of_null _ _ _ _ _ _ _ _ _ O)).
  apply wp_bind. apply wp_intro. intros r sf Hc2. destruct r as [[]|e]; [|discriminate]. change (chmod (PStr p) (asked s mode) true sm = (Ok tt, sf)) in Hc2. apply wp_bind_wget, wp_ret. intros Ef. injection Ef as Ef.
  exists w1, sm, o. split; [replace sm with (snd (open_call (PStr p) (flag_modes fl) (-1) true true false s)) by (rewrite Ho; reflexivity); apply open_call_pres, HG|]. split; [exact O|]. split; [|exact Hc2]. rewrite <- Ef. pose proof (oo_chmod (PStr p) (asked s mode) true sm) as Hoo. rewrite Hc2 in Hoo. cbn [snd] in Hoo. rewrite Hoo. reflexivity.
Qed.

Lemma chmod_at s p m s' : Ginv s -> chmod (PStr p) m true s = (Ok tt, s') ->
  exists o, resolve s p false = Ok o /\ touched s s' o (fun x => wo_ctime (wo_mode x (with_bits (o_mode (ob s o)) m)) (f_now s)) /\
    S_IFMT (o_mode (ob s' o)) = S_IFMT (o_mode (ob s o)).
Proof.
  intros HG E. pose proof E as E0. unfold chmod, bind, gets, lift in E0.
  destruct (C27_chmod _ _ _ _ _ _ E) as [(e & K & _)|(_ & o & Er & T & Ht & _)]; [discriminate|].
  exists o. cbn [resolve_arg] in Er. change (resolve_follow s p true true) with (resolve s p true) in Er.
  split; [apply (resolve_true_false _ _ _ (Ginv_good _ HG) Er)|]. split; [|exact Ht].
  cbn [resolve_arg] in E0. change (resolve_follow s p true true) with (resolve s p true) in E0. rewrite Er in E0. unfold mod_obj, modify in E0. injection E0 as E0.
  assert (Em : o_mode (ob s' o) = with_bits (o_mode (ob s o)) m).
  { rewrite <- E0. rewrite ob_mod_same. cbn [o_mode wo_ctime wo_mode]. unfold chmod_mode. rewrite (Ginv_win _ HG). reflexivity. }
  rewrite <- Em. exact T.
Qed.
Theorem C70_success : forall c s hs p fl mode u fd s',
  linux_like c -> c_sep c = slash -> session natural_fds c s hs -> within_limits s -> not_devnull s p ->
  has_bit fl O_TMPFILE = false -> (forall o, resolve s p false = Ok o -> is_dirobj s o = false) ->
  step (OsOpen p fl mode u) s = (Ok (RInt fd), s') ->
  (exists_ s p false = Ok true /\ fd_existing s s' p fl mode) \/ (exists_ s p false = Ok false /\ fd_new s s' p fl mode).
Proof.
  intros c s hs p fl mode u fd s' Hl Hs HS HL Hn Ht HD H.
  destruct (session_Ginv _ _ _ _ Hl HS) as [HG Hc].
  destruct (os_open_done c s hs p fl mode u fd s' Hl Hs HS HL Hn Ht HD H) as (w & sm & o & HGm & O & Ew & Ec).
  destruct (chmod_at _ _ _ _ HGm Ec) as (o2 & Er2 & T & Hty). pose proof (of_path _ _ _ _ _ _ _ _ _ O o2 Er2) as E2o. subst o2.
  assert (Eo : ob s' o = wo_ctime (wo_mode (ob sm o) (with_bits (o_mode (ob sm o)) (asked s mode))) (f_now sm)) by apply T.
  assert (Ex : forall x, x <> o -> ob s' x = ob sm x) by apply T.
  assert (Eb : o_body (ob s' o) = o_body (ob sm o)) by (rewrite Eo; reflexivity).
  assert (Ei : identity (ob s' o) = identity (ob sm o)) by (rewrite Eo; reflexivity).
  assert (Em : o_mode (ob s' o) = with_bits (o_mode (ob sm o)) (asked s mode)) by (rewrite Eo; reflexivity).
  assert (Hid : forall a b, meta a = meta b -> identity a = identity b /\ o_mode a = o_mode b).
  { intros a b K. unfold meta in K. injection K as K1 K2 K3 K4 K5 K6 K7 K8 K9. split; [unfold identity|]; congruence. }
  destruct (of_how _ _ _ _ _ _ _ _ _ O) as [(E1 & E2 & E3 & K & E)|(E1 & Eon & E3 & E & E4 & s1 & d & n & OM & BN & Emo & K & _)].
  - left. split; [exact E1|]. exists o. destruct (Hid _ _ (kp_meta _ _ _ K)) as [Hi Hm].
    split; [exact E2|]. split; [exact E3|]. split.
    { rewrite Eb, E. cbn [om_write om_trunc flag_modes]. rewrite has_or. unfold writing. rewrite (orb_comm (has_bit fl O_RDWR)), andb_comm. reflexivity. }
    split; [rewrite Em, Hm; reflexivity|]. split; [congruence|]. split.
    { intros x Hx. rewrite (Ex x Hx). apply (kp_other _ _ _ K x Hx). }
    intros Hr.
    destruct (C27_chmod_seen _ _ _ _ _ Ec) as [Q _]; [|rewrite Q; exact Er2].
    unfold is_root in *. destruct (kp_env _ _ _ K) as (_ & _ & _ & _ & Hu & _). rewrite Hu. exact Hr.
  - right. split; [exact E1|]. exists o, s1, d, n. destruct (Hid _ _ (kp_meta _ _ _ K)) as [Hi Hm].
    split; [cbn [om_must_exist flag_modes] in E3; destruct (has_bit fl O_CREAT); [reflexivity|discriminate E3]|]. split; [exact OM|]. split; [exact BN|].
    split; [unfold bytes_of; rewrite Eb; exact E|]. split; [rewrite Eo; exact E4|]. split; [rewrite Em, Hm; reflexivity|]. split; [congruence|].
    intros x Hx. rewrite (Ex x Hx). apply (kp_other _ _ _ K x Hx).
Qed.
Print Assumptions C70_success.

(** what the model does, once the flags are known to be without O_TMPFILE *)
Lemma os_open_eq s p fl mode u : c_win (f_cfg s) = false -> c_mac (f_cfg s) = false -> has_bit fl O_TMPFILE = false ->
  os_open p fl mode u s =
  if has_bit fl O_EXCL && negb (has_bit fl O_CREAT) then (Err NotImpl, s) else
  let rest := fun s => (w <- open_call (PStr p) (flag_modes fl) (-1) true true false ;;
      x <- wget w ;;
      (if Nat.eqb (w_obj x) devnull_oid then ret tt else chmod (PStr p) (asked s mode) true) ;;;
      y <- wget w ;; ret (w_fd y)) s in
  match exists_ s p false with
  | Err e => (Err e, s)
  | Ok false => rest s
  | Ok true => match resolve s p true with
      | Err e => (Err e, s)
      | Ok o => if is_dirobj s o then
                  if has_bit fl O_CREAT || writing fl then (Err (OSErr EISDIR), s)
                  else (w <- add_wrap (mkwrap WDirW o false false false true false false 0 0 false [] 0 0 0 0 0) ;; x <- wget w ;; ret (w_fd x)) s
                else rest s
      end
  end.
Proof.
  intros Hw Hm Ht. unfold os_open. unfold bind at 1, gets at 1. unfold bind at 1, gets at 1. rewrite Ht. cbv zeta. fold (flag_modes fl).
  cbn [om_must_not_exist om_must_exist flag_modes]. rewrite andb_true_r. destruct (has_bit fl O_EXCL && negb (has_bit fl O_CREAT)) eqn:E1; [reflexivity|].
  unfold bind at 1, ret at 1. rewrite Hw. unfold bind at 1. unfold bind at 1, lift at 1. destruct (exists_ s p false) as [[|]|e]; [| |reflexivity].
  - unfold bind at 1, lift at 1. destruct (resolve s p true) as [o|e]; [|reflexivity]. unfold bind at 1, gets at 1. destruct (is_dirobj s o).
    + cbn [om_must_exist om_write flag_modes]. rewrite Hm, andb_true_r, negb_involutive, has_or, (orb_comm (has_bit fl O_RDWR)). fold (writing fl).
      destruct (has_bit fl O_CREAT || writing fl); [reflexivity|].
      match goal with |- context[add_wrap ?x] => set (X := x) end. unfold bind, ret. destruct (add_wrap X s) as [[w|e] s1]; reflexivity.
    + unfold ret at 1. reflexivity.
  - unfold ret at 1. reflexivity.
Qed.

Lemma bind_err {A B} (m : M A) (k : A -> M B) s e s' : m s = (Err e, s') -> bind m k s = (Err e, s').
Proof. intros E. unfold bind. rewrite E. reflexivity. Qed.
Lemma bind_ok {A B} (m : M A) (k : A -> M B) s x s' : m s = (Ok x, s') -> bind m k s = k x s'.
Proof. intros E. unfold bind. rewrite E. reflexivity. Qed.
Lemma open_call_missing s p om b cf raw del : Ginv s -> within_limits s -> Finv s -> p <> devnull_name s -> exists_ s p false = Ok false ->
  om_must_exist om = true -> exists e, open_call (PStr p) om b cf raw del s = (Err e, s).
Proof.
  intros HG HL HF Hn E Hm. rewrite (open_call_str _ _ _ _ _ _ _ Hn). rewrite E. destruct (resolve_path s p) as [rp|e]; [|eauto].
  pose proof (wp_open_missing s p rp om b raw del HG HL HF) as K. unfold wp in K.
  destruct K as [(e & K1 & _ & _ & K4)|(w & s1 & d & pre & n & _ & _ & K2 & _)]; [|congruence]. exists e.
  destruct (open_obj None p rp om b raw del (f_cfg s) s) as [r s']. cbn [fst snd] in *. subst r. rewrite (K4 Hm). reflexivity.
Qed.
Theorem C70_failure : forall c s hs p fl mode u r s',
  linux_like c -> c_sep c = slash -> session natural_fds c s hs -> within_limits s -> not_devnull s p ->
  has_bit fl O_TMPFILE = false -> step (OsOpen p fl mode u) s = (r, s') ->
  (* O_EXCL without O_CREAT *)
  (has_bit fl O_EXCL = true -> has_bit fl O_CREAT = false -> s' = s /\ r = Err NotImpl) /\
  (* a missing file without O_CREAT *)
  (has_bit fl O_CREAT = false -> exists_ s p false = Ok false -> s' = s /\ exists e, r = Err e) /\
  (* an existing file with O_CREAT and O_EXCL *)
  (has_bit fl O_CREAT = true -> has_bit fl O_EXCL = true -> exists_ s p false = Ok true ->
     forall o, resolve s p false = Ok o -> is_dirobj s o = false ->
     s' = s /\ (exists e, r = Err e) /\ (is_root s = true -> r = os_err EEXIST)) /\
  (* a directory *)
  (exists_ s p false = Ok true -> forall o, resolve s p true = Ok o -> is_dirobj s o = true ->
     has_bit fl O_EXCL = false \/ has_bit fl O_CREAT = true ->
     if has_bit fl O_CREAT || writing fl then s' = s /\ r = os_err EISDIR
     else (exists fd, r = Ok (RInt fd)) /\ f_heap s' = f_heap s /\ f_mounts s' = f_mounts s).
Proof.
  intros c s hs p fl mode u r s' Hl Hs HS HL Hn Ht H. destruct (session_Ginv _ _ _ _ Hl HS) as [HG Hc].
  assert (HF : Finv s) by (apply (si_f _ hs), (session_Sinv natural_fds c); auto).
  cbn [step] in H. rewrite outm_eq, (os_open_eq s p fl mode u (Ginv_win _ HG) (Ginv_mac _ HG) Ht) in H. cbv zeta in H.
  split; [|split; [|split]].
  - intros H1 H2. rewrite H1, H2 in H. cbn in H. injection H as <- <-. auto.
  - intros H2 E. destruct (has_bit fl O_EXCL && negb (has_bit fl O_CREAT)); [cbn in H; injection H as <- <-; eauto|]. rewrite E in H.
    destruct (open_call_missing s p (flag_modes fl) (-1) true true false HG HL HF (proj1 Hn) E) as [e Ee]; [cbn; rewrite H2; reflexivity|].
    rewrite (bind_err _ _ _ _ _ Ee) in H. cbn [fst snd] in H. injection H as <- <-. eauto.
  - intros H1 H2 E o Er Hd. rewrite H1, H2 in H. cbn [andb negb] in H. rewrite E in H.
    destruct (resolve s p true) as [o2|e] eqn:Et.
    + rewrite (resolve_true_false _ _ _ (Ginv_good _ HG) Et) in Er. injection Er as ->. rewrite Hd in H.
      assert (K : open_call (PStr p) (flag_modes fl) (-1) true true false s = (Err (OSErr EEXIST), s)).
      { rewrite (open_call_str _ _ _ _ _ _ _ (proj1 Hn)), E.
        pose proof (resolve_true_false _ _ _ (Ginv_good _ HG) Et) as Ef. destruct (resolve_path s p) as [rp|e] eqn:Erp.
        2:{ unfold resolve, resolve_ in Ef. fold (resolve_path s p) in Ef. rewrite Erp in Ef. discriminate Ef. }
        rewrite (proj2 (get_norm_resolve _ _ _ _ _ HG Erp) Ef). unfold open_obj. cbn [om_must_not_exist flag_modes]. rewrite H2. reflexivity. }
      rewrite (bind_err _ _ _ _ _ K) in H. cbn [fst snd] in H. injection H as <- <-. split; [reflexivity|]. split; [eauto|reflexivity].
    + cbn [fst snd] in H. injection H as <- <-. split; [reflexivity|]. split; [eauto|]. intros Hr. rewrite (resolve_root_check s p Hr), Er in Et. discriminate Et.
  - intros E o Er Hd Hx. destruct (has_bit fl O_EXCL && negb (has_bit fl O_CREAT)) eqn:Ex.
    { exfalso. apply andb_prop in Ex. destruct Ex as [X1 X2]. destruct Hx as [K|K]; rewrite K in *; discriminate. }
    rewrite E, Er, Hd in H. destruct (has_bit fl O_CREAT || writing fl); [cbn [fst snd] in H; injection H as <- <-; auto|].
    match goal with H : context[add_wrap ?x] |- _ => set (X := x) in H end. pose proof (add_wrap_handles X s) as K. 
    assert (Hok : exists w, fst (add_wrap X s) = Ok w). { destruct (add_wrap_opened X s HF) as (fd & _ & K2 & _). eauto. }
    destruct Hok as [w Hok]. destruct (add_wrap X s) as [r1 s1] eqn:Ea. cbn [fst snd] in *. subst r1.
    rewrite (bind_ok _ _ _ _ _ Ea) in H. unfold bind, wget, gets, ret in H. cbn [fst snd] in H. injection H as <- <-. split; [eauto|].
    unfold handles_only in K. rewrite K. split; reflexivity.
Qed.
Print Assumptions C70_failure.

(** ** Reading and writing only as the flags say *)
Definition RR (s s' : fs) : Prop := hst s s' /\ f_heap s' = f_heap s /\ f_cfg s' = f_cfg s /\ forall v, w_raw (wr s v) = true -> w_raw (wr s' v) = true.
Global Instance RR_pre : PreOrder RR.
Proof.
  constructor.
  - intros s. split; [reflexivity|]. auto.
  - intros a b c (A1 & A2 & A3 & A4) (B1 & B2 & B3 & B4). split; [etransitivity; eassumption|]. split; [congruence|]. split; [congruence|]. auto.
Qed.
Lemma RR_wmod w f : (forall x, wstat (f x) = wstat x) -> (forall x, w_raw x = true -> w_raw (f x) = true) -> keeps RR (wmod w f).
Proof.
  intros H1 H2 s. split; [apply hs_wmod, H1|]. split; [reflexivity|]. split; [reflexivity|]. intros v Hv. unfold wmod, modify. cbn [snd].
  destruct (Nat.eq_dec v w) as [->|N]; [rewrite wr_mod_same; apply H2, Hv|rewrite wr_mod_other by exact N; exact Hv].
Qed.
Lemma RR_sync w : keeps RR (sync_io w).
Proof. unfold sync_io, set_stream_contents, wget. kr; (apply RR_wmod; [reflexivity|intros ? H'; exact H']). Qed.
Definition fd_fails (r : res out * fs) (s : fs) (w : wid) : Prop :=
  exists e s', r = (Err e, s') /\ f_heap s' = f_heap s /\ (byte_contents s (file_of s w) <> None -> e = OSErr EBADF).

Theorem C70_direction : forall c s hs p fl mode u fd s1 s2 hs2 w,
  linux_like c -> c_sep c = slash -> session natural_fds c s hs -> within_limits s -> not_devnull s p ->
  has_bit fl O_TMPFILE = false -> (forall o, resolve s p false = Ok o -> is_dirobj s o = false) ->
  step (OsOpen p fl mode u) s = (Ok (RInt fd), s1) -> get_open_file s1 fd = Ok w ->
  continues natural_fds s1 hs s2 hs2 -> get_open_file s2 fd = Ok w ->
  (writing fl = false -> forall d, fd_fails (step (OsWrite fd d) s2) s2 w) /\
  (has_bit fl O_WRONLY = true -> forall n, fd_fails (step (OsRead fd n) s2) s2 w).
Proof.
  intros c s hs p fl mode u fd s1 s2 hs2 w Hl Hs HS HL Hn Ht HD H Hw1 HC Hw2.
  destruct (os_open_done c s hs p fl mode u fd s1 Hl Hs HS HL Hn Ht HD H) as (w1 & sm & o & HGm & O & Ef & Ec).
  assert (HH : hst sm s1). { pose proof (oo_hst_k _ (oo_chmod (PStr p) (asked s mode) true) sm) as K. rewrite Ec in K. exact K. }
  destruct (ho_fd _ _ _ _ _ _ _ _ (of_handle _ _ _ _ _ _ _ _ _ O)) as [fd2 Hfd]. pose proof (op_fd _ _ _ _ Hfd) as Efd. rewrite Ef in Efd. subst fd2.
  assert (w = w1).
  { destruct (get_open_used s1 fd w (proj1 (op_free _ _ _ _ Hfd)) Hw1) as (l & Hsl). rewrite (slot_hst _ _ HH), (op_slot _ _ _ _ Hfd) in Hsl. congruence. }
  subst w1. 
  assert (HS1 : session natural_fds c s1 hs).
  { pose proof (session_step natural_fds c s hs (OsOpen p fl mode u) HS ltac:(exact Logic.I) ltac:(intros v K; discriminate K)) as K. rewrite H in K. cbn [fst snd returned] in K. rewrite app_nil_r in K. exact K. }
  pose proof (session_Sinv natural_fds c s1 _ ltac:(auto) HS1) as HI1.
  assert (HS2 : session natural_fds c s2 hs2).
  { destruct HS1 as (t & um & ui & g & nw & HS1). exists t, um, ui, g, nw. exact (continues_trans _ _ _ _ _ _ _ HS1 HC). }
  destruct (session_Ginv _ _ _ _ Hl HS2) as [HG2 Hc2]. pose proof (Ginv_win _ HG2) as Hwin.
  assert (Hlt : w < f_wnext s1). { pose proof (op_new _ _ _ _ Hfd). pose proof (op_next _ _ _ _ Hfd). destruct HH as (_ & _ & K & _). rewrite K. lia. }
  destruct (continues_wstat _ _ _ _ w HC HI1 Hlt) as [Hst _].
  destruct (ho_wrap _ _ _ _ _ _ _ _ (of_handle _ _ _ _ _ _ _ _ _ O)) as [fd3 HX].
  assert (Hst2 : wstat (wr s2 w) = wstat (wr sm w)) by (rewrite Hst; apply HH).
  assert (X1 : w_kind (wr s2 w) = WFile) by (unfold wstat in Hst2; rewrite HX in Hst2; injection Hst2; auto).
  assert (X2 : w_read (wr s2 w) = negb (has_bit fl O_WRONLY)) by (unfold wstat in Hst2; rewrite HX in Hst2; injection Hst2; auto).
  assert (X3 : w_update (wr s2 w) = has_bit fl (N.lor O_RDWR O_WRONLY)) by (unfold wstat in Hst2; rewrite HX in Hst2; injection Hst2; auto).
  assert (X4 : w_fd (wr s2 w) = fd) by (unfold wstat in Hst2; congruence).
  assert (Hobj : w_obj (wr s2 w) = o) by (unfold wstat in Hst2; rewrite HX in Hst2; injection Hst2; auto).
  assert (Hop : is_open s2 w = true).
  { unfold is_open. rewrite X4. unfold get_open_file in Hw2. destruct (Z.leb_spec (Z.of_nat (length (f_open s2))) fd) as [|Hlf]; [discriminate|].
    rewrite (proj2 (Z.ltb_lt _ _) Hlf). cbn [andb]. destruct (py_index (f_open s2) fd) as [[[|v l]|]|]; try discriminate. injection Hw2 as ->. cbn. rewrite Nat.eqb_refl. reflexivity. }
  assert (Hop3 : forall s3, RR s2 s3 -> is_open s3 w = true) by (intros s3 K; rewrite (is_open_hst _ _ _ (proj1 K)); exact Hop).
  assert (Henter : forall s3, RR s2 s3 -> w_raw (wr s3 w) = true -> 
    if is_large s2 (w_obj (wr s2 w)) then io_enter w s3 = (Err LargeFile, s3) else io_enter w s3 = (Ok (wr s3 w), s3)).
  { intros s3 K Hraw. unfold io_enter, wget, bind, gets, check_open. 
    assert (Q : w_kind (wr s3 w) = WFile /\ w_obj (wr s3 w) = w_obj (wr s2 w)).
    { destruct K as ((_ & _ & _ & K) & _). specialize (K w). unfold wstat in K. injection K; intros; split; congruence. }
    destruct Q as [Q1 Q2]. rewrite Q1, Q2.
    assert (Ql : is_large s3 (w_obj (wr s2 w)) = is_large s2 (w_obj (wr s2 w))). { unfold is_large, ob. destruct K as (_ & K & _). rewrite K. reflexivity. }
    rewrite Ql. destruct (is_large s2 _); [reflexivity|]. pose proof (Hop3 s3 K) as K3; unfold bind, gets; rewrite K3; reflexivity. }
  assert (Hraw : RR s2 (snd (wmod w (fun y => ww_raw y true) s2)) /\ w_raw (wr (snd (wmod w (fun y => ww_raw y true) s2)) w) = true).
  { split; [apply RR_wmod; reflexivity|]. unfold wmod, modify. cbn [snd]. rewrite wr_mod_same. reflexivity. }
  set (s2r := snd (wmod w (fun y => ww_raw y true) s2)) in *. destruct Hraw as [R0 Hraw].
  assert (Ewm : wmod w (fun y => ww_raw y true) s2 = (Ok tt, s2r)) by reflexivity. clearbody s2r.
  assert (Hnl : byte_contents s2 (file_of s2 w) <> None -> is_large s2 (w_obj (wr s2 w)) = false).
  { unfold byte_contents, file_of, is_large. rewrite Hobj. intros K. rewrite (proj2 (Nat.eqb_neq _ _) (of_null _ _ _ _ _ _ _ _ _ O)) in K.
    destruct (o_body (ob s2 o)) as [|[x|]]; [reflexivity|reflexivity|congruence]. }
  assert (Elift : lift (fun s => get_open_file s fd) s2 = (Ok w, s2)) by (unfold lift; rewrite Hw2; reflexivity).
  assert (Ewget : forall s3, wget w s3 = (Ok (wr s3 w), s3)) by reflexivity.
  split.
  - intros Hwr d. assert (Hup : has_bit fl (N.lor O_RDWR O_WRONLY) = false) by (rewrite has_or, orb_comm; exact Hwr). rewrite Hup in X3.
    cbn [step]. rewrite outm_eq. unfold os_write. rewrite (bind_ok _ _ _ _ _ Elift), (bind_ok _ _ _ _ _ (Ewget s2)), X1.
    rewrite (bind_ok _ _ _ _ _ Ewm).
    destruct (sync_io w s2r) as [rs s3] eqn:Esy. assert (R1 : RR s2r s3) by (pose proof (RR_sync w s2r) as K; rewrite Esy in K; exact K).
    destruct rs as [[]|e].
    + rewrite (bind_ok _ _ _ _ _ Esy). unfold update_flush_pos.
      pose proof (RR_wmod w (fun x => ww_fpos x (w_pos x)) ltac:(reflexivity) ltac:(intros x K; exact K) s3) as R2.
      destruct (wmod w (fun x => ww_fpos x (w_pos x)) s3) as [ru s4] eqn:Eu. cbn [snd] in R2.
      assert (ru = Ok tt) by (unfold wmod, modify in Eu; congruence). subst ru. rewrite (bind_ok _ _ _ _ _ Eu).
      assert (R3 : RR s2 s4) by (etransitivity; [exact R0|etransitivity; [exact R1|exact R2]]).
      assert (Hr4 : w_raw (wr s4 w) = true) by (apply R2, R1, Hraw).
      specialize (Henter s4 R3 Hr4). destruct (is_large s2 (w_obj (wr s2 w))) eqn:El.
      * assert (Ew : file_write w d s4 = (Err LargeFile, s4)) by (unfold file_write; apply (bind_err _ _ _ _ _ Henter)).
        rewrite (bind_err _ _ _ _ _ Ew). exists LargeFile, s4. split; [reflexivity|]. split; [apply R3|]. intros K. specialize (Hnl K). discriminate.
      * assert (Ew : file_write w d s4 = (Err (OSErr EBADF), s4)).
        { unfold file_write. rewrite (bind_ok _ _ _ _ _ Henter).
          assert (Eu4 : w_update (wr s4 w) = false). { destruct R3 as ((_ & _ & _ & K) & _). specialize (K w). unfold wstat in K. congruence. }
          rewrite Eu4. cbn [negb]. unfold bind, gets. destruct R3 as (_ & _ & Ecf & _). rewrite Ecf, Hwin, andb_false_r. cbn [andb]. unfold io_raise. rewrite Hr4. reflexivity. }
        rewrite (bind_err _ _ _ _ _ Ew). exists (OSErr EBADF), s4. split; [reflexivity|]. split; [apply R3|reflexivity].
    + rewrite (bind_err _ _ _ _ _ Esy). exists e, s3. split; [reflexivity|].
      assert (R3 : RR s2 s3) by (etransitivity; [exact R0|exact R1]). split; [apply R3|].
      intros K. exfalso. unfold sync_io, wget, bind, gets in Esy. destruct (Nat.eqb _ _); [discriminate Esy|].
      assert (Eob : byte_contents s2r (w_obj (wr s2r w)) = byte_contents s2 (file_of s2 w)).
      { destruct R0 as ((_ & _ & _ & K0) & Kh & _). specialize (K0 w). assert (Ko : w_obj (wr s2r w) = w_obj (wr s2 w)) by (unfold wstat in K0; congruence). unfold file_of, byte_contents, ob. rewrite Kh, Ko. reflexivity. }
      rewrite Eob in Esy. destruct (byte_contents s2 (file_of s2 w)); [|congruence]. discriminate Esy.
  - intros Hrd n. rewrite Hrd in X2. cbn [negb] in X2. cbn [step]. rewrite outm_eq. unfold os_read. rewrite (bind_ok _ _ _ _ _ Elift).
    rewrite (bind_ok _ _ _ _ _ Ewm), (bind_ok _ _ _ _ _ (Ewget s2r)).
    assert (Q : w_kind (wr s2r w) = WFile /\ w_read (wr s2r w) = false).
    { destruct R0 as ((_ & _ & _ & K) & _). specialize (K w). unfold wstat in K. injection K; intros; split; congruence. }
    destruct Q as [Q1 Q2]. rewrite Q1. specialize (Henter s2r R0 Hraw). unfold file_read. destruct (is_large s2 (w_obj (wr s2 w))) eqn:El.
    + rewrite (bind_err _ _ _ _ _ Henter). exists LargeFile, s2r. split; [reflexivity|]. split; [apply R0|]. intros K. specialize (Hnl K). discriminate.
    + rewrite (bind_ok _ _ _ _ _ Henter). rewrite Q2. cbn [negb]. unfold bind, gets. destruct R0 as (R01 & R02 & Ecf & _). rewrite Ecf, Hwin, andb_false_r. cbn [andb].
      unfold io_raise. rewrite Hraw. exists (OSErr EBADF), s2r. split; [reflexivity|]. split; [exact R02|reflexivity].
Qed.
Print Assumptions C70_direction.

(** ** What os.open does not do as POSIX says *)
(** opening an existing file leaves its mode alone: false, also for a user who does not own it *)
Definition c70_mode_ops : list op := [CreateFile (L "/f") 33206 (Some (L "123456")) None true false; SetUid 1].
Definition c70_mode_state : fs := run (init posix_cfg None 18 0 0 0) c70_mode_ops.
Theorem C70_mode_refuted : exists s, reachable posix_cfg s /\ exists o fd s',
  resolve s (L "/f") true = Ok o /\ f_uid s = 1%Z /\ o_uid (ob s o) = 0%Z /\
  step (OsOpen (L "/f") 0 None []) s = (Ok (RInt fd), s') /\ o_mode (ob s o) = 33206%N /\ o_mode (ob s' o) = 33261%N.
Proof.
  exists c70_mode_state. split; [exists None, 18%N, 0%Z, 0%Z, 0%Z, c70_mode_ops; reflexivity|].
  exists 2, 3%Z, (snd (step (OsOpen (L "/f") 0 None []) c70_mode_state)).
  split; [vm_compute; reflexivity|]. split; [vm_compute; reflexivity|]. split; [vm_compute; reflexivity|].
  split; [apply pair_eq; vm_compute; reflexivity|]. split; vm_compute; reflexivity.
Qed.
(** opening a directory with O_DIRECTORY (65536) creates nothing: false *)
Definition c70_dir_ops : list op := [Mkdir (L "/d") 511].
Definition c70_dir_state : fs := run (init posix_cfg None 18 0 0 0) c70_dir_ops.
Theorem C70_directory_refuted : exists s, reachable posix_cfg s /\ exists fd s',
  step (OsOpen (L "/d") 65536 None (L "uuid")) s = (Ok (RInt fd), s') /\
  listdir s (PStr (L "/d")) = Ok [] /\ listdir s' (PStr (L "/d")) = Ok [L "uuid"].
Proof.
  exists c70_dir_state. split; [exists None, 18%N, 0%Z, 0%Z, 0%Z, c70_dir_ops; reflexivity|].
  exists 3%Z, (snd (step (OsOpen (L "/d") 65536 None (L "uuid")) c70_dir_state)).
  split; [apply pair_eq; vm_compute; reflexivity|]. split; vm_compute; reflexivity.
Qed.
(** a user with write permission only may open for writing: false *)
Definition c70_write_ops : list op := [CreateFile (L "/f") 32914 (Some (L "123456")) None true false; SetUid 1].
Definition c70_write_state : fs := run (init posix_cfg None 18 0 0 0) c70_write_ops.
Theorem C70_write_only_refuted : exists s, reachable posix_cfg s /\ exists o,
  resolve s (L "/f") false = Ok o /\ o_mode (ob s o) = N.lor S_IFREG 146 (* 0o222 *) /\ f_uid s = 1%Z /\
  fst (step (OsOpen (L "/f") O_WRONLY None []) s) = os_err EACCES.
Proof.
  exists c70_write_state. split; [exists None, 18%N, 0%Z, 0%Z, 0%Z, c70_write_ops; reflexivity|]. exists 2.
  split; [vm_compute; reflexivity|]. split; [vm_compute; reflexivity|]. split; vm_compute; reflexivity.
Qed.

(** ** The hypotheses are met *)
Definition c70_call : op := OsOpen (L "/l") 513 None [].
Definition c70_state : fs := snd (step c70_call io_state).
Example C70_success_case :
  step c70_call io_state = (Ok (RInt 3), c70_state) /\ not_devnull io_state (L "/l") /\ has_bit 513 O_TMPFILE = false /\
  (forall o, resolve io_state (L "/l") false = Ok o -> is_dirobj io_state o = false) /\
  exists_ io_state (L "/l") false = Ok true /\ o_body (ob io_state 2) = BFile (Some (L "123456")) /\ o_body (ob c70_state 2) = BFile (Some []).
Proof.
  split; [unfold c70_state; apply pair_eq; vm_compute; reflexivity|]. split; [apply io_not_null; [reflexivity|left; vm_compute; reflexivity]|].
  split; [reflexivity|]. split.
  { intros o H. assert (E : resolve io_state (L "/l") false = Ok 2) by (vm_compute; reflexivity). rewrite E in H. injection H as <-. vm_compute. reflexivity. }
  split; [vm_compute; reflexivity|]. split; vm_compute; reflexivity.
Qed.
Example C70_direction_case : get_open_file c70_state 3 = Ok 3 /\ continues natural_fds c70_state (all_handles fd_init [] io_ops) c70_state (all_handles fd_init [] io_ops) /\
  fst (step (OsRead 3 4) c70_state) = os_err EBADF /\ fst (step (OsWrite 3 (L "ab")) c70_state) = Ok (RInt 2).
Proof.
  split; [vm_compute; reflexivity|]. split; [apply co_nil|]. split; vm_compute; reflexivity.
Qed.
Example C70_failure_case :
  fst (step (OsOpen (L "/f") 193 None []) io_state) = os_err EEXIST /\ fst (step (OsOpen (L "/x") 1 None []) io_state) = os_err ENOENT /\
  fst (step (OsOpen (L "/f") 129 None []) io_state) = Err NotImpl /\ fst (step (OsOpen (L "/") 1 None []) io_state) = os_err EISDIR /\
  fst (step (OsOpen (L "/") 0 None []) io_state) = Ok (RInt 3).
Proof. repeat (split; [vm_compute; reflexivity|]). vm_compute; reflexivity. Qed.
