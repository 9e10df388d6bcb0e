(** * C86: shutil.copyfileobj copies the rest of the source. *)
From Verif Require Export CopyModel.
From Verif Require Import SysModel MountThm GraphIo IoFrame IoThm IoSess OpenThm FdThm PropFd PropIo PropIo2 CohThm CohThm2 PropIo3 LineThm PropLine PropSend.
From Coq Require Import Lia ZifyBool.
Import ListNotations.
Open Scope string_scope.
Open Scope list_scope.

Lemma bytes_at_split (B : str) P n : bytes_at B P n ++ skipn (P + length (bytes_at B P n)) B = skipn P B.
Proof.
  rewrite <- skipn_skipn'. unfold bytes_at. destruct (n <? 0)%Z.
  - rewrite skipn_all, app_nil_r. reflexivity.
  - set (l := skipn P B). rewrite firstn_length. destruct (Nat.le_gt_cases (Z.to_nat n) (length l)) as [H|H].
    + rewrite Nat.min_l by exact H. apply firstn_skipn.
    + rewrite Nat.min_r, skipn_all, app_nil_r, firstn_all2 by lia. reflexivity.
Qed.
Lemma bytes_at_end (B : str) P n : n <> 0%Z -> bytes_at B P n = [] -> skipn P B = [].
Proof.
  unfold bytes_at. intros Hn H. destruct (n <? 0)%Z eqn:E; [exact H|].
  destruct (skipn P B) as [|x l]; [reflexivity|]. destruct (Z.to_nat n) eqn:E2; [lia|discriminate].
Qed.
(** no write in parts cuts anything off *)
Definition past (bs : Z) (C : str) (P F : nat) : Prop := length C <= P \/ length C <= F \/ (bs < 0)%Z.
Lemma overwrite_length B P d : d <> [] -> length (overwrite B P d) = Nat.max (length B) (P + length d).
Proof.
  intros Hd. destruct d as [|x d]; [congruence|]. unfold overwrite.
  rewrite !app_length, firstn_length, repeat_length, skipn_length. lia.
Qed.
Lemma written_past bs B P F D d : d <> [] -> past bs B P F -> exists F' D', written bs B P F D d = (overwrite B P d, F', D') /\ past bs (overwrite B P d) (P + length d) F'.
Proof.
  intros Hd H. destruct (written_safe bs B P F D d) as (D' & E).
  { cbn [safe_op]. unfold past in H. lia. }
  exists (synced bs (HWrite 0 d) B P F), D'. split; [exact E|]. unfold past in *. rewrite overwrite_length by exact Hd.
  cbn [synced]. destruct (Z.leb_spec (Z.of_nat (P + length d) - Z.of_nat F) bs); [lia|]. destruct (Z.ltb_spec bs (Z.of_nat (length d))); lia.
Qed.

(** ** The loop *)
Record copied (s s' : fs) (w1 w2 : wid) (o1 o2 : oid) (B1 C : str) (P1 P2 : nat) : Prop := {
  cp_src : exists F, view s' w1 o1 B1 P1 F B1;
  cp_dst : exists F D, view s' w2 o2 C P2 F D;
  cp_flags1 : w_append (wr s' w1) = w_append (wr s w1) /\ w_read (wr s' w1) = w_read (wr s w1);
  cp_flags2 : w_append (wr s' w2) = w_append (wr s w2) /\ w_update (wr s' w2) = w_update (wr s w2) /\ w_raw (wr s' w2) = w_raw (wr s w2) /\ w_del (wr s' w2) = w_del (wr s w2);
  cp_other : forall o, o <> o1 -> o <> o2 -> ob s' o = ob s o;
  cp_env : f_cfg s' = f_cfg s /\ forall fd, get_open_file s' fd = get_open_file s fd;
  cp_room : forall o, roomy s o -> roomy s' o
}.
Lemma wp_copy len w1 w2 o1 o2 B1 : len <> 0%Z -> o1 <> o2 -> forall fuel s P1 F1 C P2 F2 D2,
  view s w1 o1 B1 P1 F1 B1 -> view s w2 o2 C P2 F2 D2 -> past (w_bufsize (wr s w2)) C P2 F2 ->
  w_append (wr s w1) = false -> w_read (wr s w1) = true -> w_append (wr s w2) = false -> w_update (wr s w2) = true ->
  length (skipn P1 B1) < fuel ->
  wp (copy_loop fuel w1 w2 len) s (fun r s' => (r = nospc /\ ~ (roomy s o1 /\ roomy s o2)) \/
    (r = Ok tt /\ copied s s' w1 w2 o1 o2 B1 (overwrite C P2 (skipn P1 B1)) (P1 + length (skipn P1 B1)) (P2 + length (skipn P1 B1)))).
Proof.
  intros Hlen N. induction fuel as [|fuel IH]; intros s P1 F1 C P2 F2 D2 V1 V2 HF A1 R1 A2 U2 Hf; [lia|]. cbn [copy_loop].
  apply wp_bind. eapply wp_conseq; [apply (wp_read_any w1 o1 s B1 P1 F1 len V1 A1 R1)|]. cbv beta.
  intros r s1 [(-> & X)|((-> & F1' & W1) & I1)]; [left; split; [reflexivity|]; intros [Q _]; apply X, Q|]. cbv beta iota.
  destruct (iow_app _ _ _ I1) as (A1' & R1' & _).
  destruct (other_view s s1 w1 w2 o1 o2 _ _ _ _ _ I1 (v_obj _ _ _ _ _ _ _ _ V1) V2 ltac:(congruence)) as (W2 & E2).
  pose proof (bytes_at_split B1 P1 len) as Hs. pose proof (bytes_at_end B1 P1 len Hlen) as He. set (buf := bytes_at B1 P1 len) in *.
  destruct buf as [|b0 b] eqn:Eb.
  - apply wp_ret. right. split; [reflexivity|]. rewrite (He eq_refl). cbn [overwrite length] in *. rewrite !Nat.add_0_r in *.
    constructor.
    + eauto.
    + eauto.
    + split; assumption.
    + rewrite E2. auto.
    + intros o n1 _. apply (iw_other _ _ _ I1). rewrite (v_obj _ _ _ _ _ _ _ _ V1). exact n1.
    + apply (same_files _ _ _ I1).
    + intros o Q. apply (roomy_iow _ _ _ o I1), Q.
  - rewrite <- Eb in *. assert (Hb : 0 < length buf) by (rewrite Eb; cbn; lia). clear Eb He.
    apply wp_bind. eapply wp_conseq; [apply (wp_file_write true w2 o2 s1 C P2 F2 D2 buf W2); congruence|]. cbv beta.
    assert (Hne : buf <> []) by (intros Q; rewrite Q in Hb; cbn in Hb; lia). rewrite <- E2 in HF.
    destruct (written_past (w_bufsize (wr s1 w2)) C P2 F2 D2 buf Hne HF) as (F2' & D2' & -> & HF').
    intros r s2 [(-> & X)|((-> & W2') & I2)]; [left; split; [reflexivity|]; intros [_ Q]; apply X, (roomy_iow _ _ _ o2 I1), Q|]. cbv beta iota.
    destruct (iow_flags _ _ _ I2) as (U2' & A2' & R2' & Bf2 & _ & Dl2 & _). rewrite <- Bf2 in HF'. pose proof (iw_raw _ _ _ I2) as Rw2.
    destruct (other_view s1 s2 w2 w1 o2 o1 _ _ _ _ _ I2 (v_obj _ _ _ _ _ _ _ _ W2) W1 N) as (W1' & E1).
    assert (Hl : length (skipn P1 B1) = length buf + length (skipn (P1 + length buf) B1)) by (rewrite <- Hs, app_length; reflexivity).
    assert (T1 : w_append (wr s2 w1) = false) by (rewrite E1; congruence). assert (T2 : w_read (wr s2 w1) = true) by (rewrite E1; congruence).
    assert (T3 : w_append (wr s2 w2) = false) by (rewrite A2', E2; exact A2). assert (T4 : w_update (wr s2 w2) = true) by (rewrite U2', E2; exact U2).
    assert (T5 : length (skipn (P1 + length buf) B1) < fuel) by (clear - Hl Hf Hb; lia).
    eapply wp_conseq; [exact (IH s2 _ _ _ _ _ _ W1' W2' HF' T1 T2 T3 T4 T5)|]. cbv beta.
    intros r s3 [(-> & X)|(-> & K)].
    { left. split; [reflexivity|]. intros [Q1 Q2]. apply X. split; apply (roomy_iow _ _ _ _ I2), (roomy_iow _ _ _ _ I1); assumption. }
    right. split; [reflexivity|]. rewrite overwrite_twice, Hs, <- !Nat.add_assoc, <- Hl in K.
    destruct K as [K1 K2 K3 K4 K5 K6 K7]. constructor; try assumption.
    + destruct K3. split; congruence.
    + destruct K4 as (? & ? & ? & ?). repeat split; congruence.
    + intros o n1 n2. rewrite K5 by assumption. rewrite (iw_other _ _ _ I2) by (rewrite (v_obj _ _ _ _ _ _ _ _ W2); exact n2).
      apply (iw_other _ _ _ I1). rewrite (v_obj _ _ _ _ _ _ _ _ V1). exact n1.
    + destruct K6 as [Q1 Q2]. split.
      * rewrite Q1, (proj1 (same_files _ _ _ I2)). apply (same_files _ _ _ I1).
      * intros fd. rewrite Q2, (proj2 (same_files _ _ _ I2)). apply (same_files _ _ _ I1).
    + intros o Q. apply K7, (roomy_iow _ _ _ _ I2), (roomy_iow _ _ _ _ I1), Q.
Qed.

(** Two open handles of different files, not in append mode, that have the
    current bytes of their files before them (as they have after opening, and as
    C79_wrote and C79_read say); the destination stands at or behind the end of its
    bytes, or has not been moved or flushed since it was opened.  copyfileobj, given enough rounds, reads the rest of the
    source, leaves the source as it was, at its end, and changes no other file;
    when the destination is then flushed or closed successfully, its file has the
    old bytes and the rest of the source at the position where it stood; and if
    there is room, flushing does not fail.  The length of the parts, 0 and
    negative ones too, does not matter. *)
Theorem C86_copyfileobj_partial : forall s w1 w2 B1 B2 len fuel,
  source s w1 B1 -> in_step s w2 B2 -> w_update (wr s w2) = true -> length B2 <= Nat.max (offset s w2) (w_fpos (wr s w2)) ->
  file_of s w1 <> file_of s w2 ->
  let rest := skipn (offset s w1) B1 in length rest < fuel ->
  let r := fst (copyfileobj fuel w1 w2 len s) in let s' := snd (copyfileobj fuel w1 w2 len s) in
  let bytes := overwrite B2 (offset s w2) rest in
  (r = Ok tt /\ source s' w1 B1 /\ offset s' w1 = offset s w1 + length rest /\ offset s' w2 = offset s w2 + length rest /\
   (forall o, o <> file_of s w1 -> o <> file_of s w2 -> ob s' o = ob s o) /\ f_cfg s' = f_cfg s /\ (forall fd, get_open_file s' fd = get_open_file s fd) /\
   (forall x s2, step (HFlush w2) s' = (Ok x, s2) -> bytes_of s2 (file_of s w1) B1 /\ bytes_of s2 (file_of s w2) bytes) /\
   (w_raw (wr s w2) = false -> w_del (wr s w2) = false ->
    forall x s2, step (HClose w2) s' = (Ok x, s2) -> bytes_of s2 (file_of s w1) B1 /\ bytes_of s2 (file_of s w2) bytes) /\
   (unlimited s -> fst (step (HFlush w2) s') = Ok RUnit)) \/
  (r = Err (OSErr ENOSPC) /\ ~ unlimited s).
Proof.
  intros s w1 w2 B1 B2 len fuel (S1 & R1) S2 U2 HE N rest Hf r s' bytes.
  pose proof (step_view _ _ _ S1) as V1. pose proof (step_view _ _ _ S2) as V2. pose proof (st_append _ _ _ S1) as A1. pose proof (st_append _ _ _ S2) as A2.
  assert (HP : past (w_bufsize (wr s w2)) B2 (offset s w2) (w_fpos (wr s w2))) by (unfold past; lia).
  set (o1 := file_of s w1) in *. set (o2 := file_of s w2) in *. set (P1 := offset s w1) in *. set (P2 := offset s w2) in *.
  assert (K : (r = nospc /\ ~ (roomy s o1 /\ roomy s o2)) \/ (r = Ok tt /\ copied s s' w1 w2 o1 o2 B1 bytes (P1 + length rest) (P2 + length rest))).
  { assert (Hl : (if (len =? 0)%Z then 65536%Z else len) <> 0%Z) by (destruct (Z.eqb_spec len 0); [discriminate|assumption]).
    exact (wp_copy _ w1 w2 o1 o2 B1 Hl N fuel s P1 _ B2 P2 _ B2 V1 V2 HP A1 R1 A2 U2 Hf). }
  clearbody r s'. destruct K as [(-> & K)|(-> & K)].
  { right. split; [reflexivity|]. intros Q. apply K. split; apply unlimited_any, Q. }
  left. split; [reflexivity|]. destruct K as [(F1 & W1) (F2 & D2 & W2) (X1 & X2) (Y1 & Y2 & Y3 & Y4) Ko [Kc Kf] Kr].
  destruct (view_step _ _ _ _ _ _ W1 ltac:(congruence)) as (T & Tf & Tp).
  split; [split; [exact T|congruence]|]. split; [exact Tp|]. split; [exact (v_pos _ _ _ _ _ _ _ _ W2)|]. split; [exact Ko|]. split; [exact Kc|]. split; [exact Kf|].
  assert (FL : wp (flush_wrapper w2) s' (fun rr sx => (rr = nospc /\ ~ roomy s' o2) \/ (rr = Ok tt /\ view sx w2 o2 bytes (P2 + length rest) (P2 + length rest) bytes /\ iow w2 s' sx))).
  { unfold flush_wrapper. apply wp_bind_wget. rewrite (v_kind _ _ _ _ _ _ _ _ W2). apply (wp_flush true w2 o2 s' _ _ _ _ W2); congruence. }
  assert (Src : forall sx, iow w2 s' sx -> bytes_of sx o1 B1).
  { intros sx I. unfold bytes_of. rewrite (iw_other _ _ _ I) by (rewrite (v_obj _ _ _ _ _ _ _ _ W2); exact N). exact (v_data _ _ _ _ _ _ _ _ W1). }
  split; [|split].
  - intros x s2 E. cbn [step] in E. rewrite outm_eq in E. unfold wp in FL. destruct (flush_wrapper w2 s') as [rr sx]. cbn [fst snd] in *.
    destruct FL as [(-> & _)|(-> & W & I)]; [discriminate E|]. injection E as _ <-. split; [apply Src, I|exact (v_data _ _ _ _ _ _ _ _ W)].
  - intros Hraw Hdel x s2 E. cbn [step] in E. rewrite outm_eq in E.
    pose proof (wp_close true w2 o2 s' _ _ _ _ W2 ltac:(congruence) ltac:(congruence) ltac:(congruence) ltac:(congruence)) as CL. unfold wp in CL.
    destruct (close_wrapper w2 s') as [rr sx]. cbn [fst snd] in *.
    destruct CL as [(-> & _)|(-> & sy & W & I & Re)]; [discriminate E|]. injection E as _ <-. unfold released in Re. rewrite Re.
    split; [apply (Src sy I)|exact (v_data _ _ _ _ _ _ _ _ W)].
  - intros Q. cbn [step]. rewrite outm_eq. unfold wp in FL. destruct (flush_wrapper w2 s') as [rr sx]. cbn [fst snd] in *.
    destruct FL as [(_ & K)|(-> & _)]; [exfalso; apply K, Kr, unlimited_any, Q|reflexivity].
Qed.
Print Assumptions C86_copyfileobj_partial.

(** Handles are like this after open(). *)
Theorem C86_opened : forall c s hs p m b cf w s1 D, linux_like c -> c_sep c = slash -> session natural_fds c s hs -> within_limits s -> not_devnull s p -> held s p D ->
  In m binary_modes -> has "a" m = false -> step (Open (PStr p) m b cf) s = (Ok (RHandle w), s1) ->
  exists B, in_step s1 w B /\ offset s1 w = 0 /\ length B <= Nat.max (offset s1 w) (w_fpos (wr s1 w)) /\
    w_raw (wr s1 w) = false /\ w_del (wr s1 w) = false /\
    (has "r" m || has "+" m = true -> source s1 w B) /\ (negb (has "r" m) || has "+" m = true -> w_update (wr s1 w) = true) /\
    (forall v, v <> w -> wr s1 v = wr s v).
Proof.
  intros c s hs p m b cf w s1 D Hl Hs HS HL Hn HD Hm Ha H.
  destruct (C79_opened c s hs p w _ _ s1 D Hl Hs HS HL Hn HD (by_open s p m b cf w s1 Hm Ha H)) as (B & S & P & K1 & K2).
  exists B. split; [exact S|]. split; [exact P|].
  destruct (binary_mode_spec m Hm) as (om & M1 & M2 & M3 & M4 & M5 & M6 & M7 & M8).
  destruct (session_open c s hs p m _ b cf w s1 Hl Hs HS HL Hn M1 M2 H) as (_ & _ & o & O).
  assert (Eo : file_of s1 w = o) by (destruct (ho_wrap _ _ _ _ _ _ _ _ (of_handle _ _ _ _ _ _ _ _ _ O)) as (fd2 & Ew); unfold file_of; rewrite Ew; reflexivity).
  pose proof (st_bytes _ _ _ S) as Hb. rewrite Eo in Hb.
  destruct (handle_view _ _ _ _ _ _ _ _ _ (of_handle _ _ _ _ _ _ _ _ _ O) (of_null _ _ _ _ _ _ _ _ _ O) Hb) as (V & [G1 G2 G3 G4 G5 G6 G7]).
  split; [rewrite (v_fpos _ _ _ _ _ _ _ _ V); apply Nat.le_max_r|]. split; [assumption|]. split; [assumption|]. split; [exact K1|]. split.
  - intros Q. apply (K2 Q).
  - apply (ho_others _ _ _ _ _ _ _ _ (of_handle _ _ _ _ _ _ _ _ _ O)).
Qed.
Print Assumptions C86_opened.

(** ** A case: the files of C79, the destination opened for writing *)
Definition c86_ops : list op :=
  [CreateFile (L "/f") 33188 (Some (L "abcdefg")) None true true;
   Open (PStr (L "/f")) (L "rb") (-1) true; Open (PStr (L "/g")) (L "wb") 2 true].
Definition c86_state : fs := run fd_init c86_ops.
Example C86_case : source c86_state 3 (L "abcdefg") /\ in_step c86_state 4 [] /\ w_update (wr c86_state 4) = true /\ length (@nil ascii) <= Nat.max (offset c86_state 4) (w_fpos (wr c86_state 4)) /\
  file_of c86_state 3 <> file_of c86_state 4 /\ length (skipn (offset c86_state 3) (L "abcdefg")) < 8 /\ w_raw (wr c86_state 4) = false /\ w_del (wr c86_state 4) = false /\
  unlimited c86_state /\ fst (copyfileobj 8 3 4 3 c86_state) = Ok tt /\
  bytes_of (snd (step (HClose 4) (snd (copyfileobj 8 3 4 3 c86_state)))) (file_of c86_state 4) (L "abcdefg").
Proof.
  split; [c79|]. split; [split; vm_compute; try reflexivity; discriminate|]. split; [vm_compute; reflexivity|]. split; [vm_compute; repeat constructor|]. split; [vm_compute; discriminate|].
  split; [vm_compute; repeat constructor|]. split; [vm_compute; reflexivity|]. split; [vm_compute; reflexivity|].
  split; [apply c43_free; vm_compute; reflexivity|]. split; vm_compute; reflexivity.
Qed.

(** ** What does not hold: after a seek, copying into the middle of a file in parts smaller
    than its buffer cuts off the rest of the file (the last three bytes of the
    source over the first three of six) *)
Definition c86b_ops : list op :=
  [CreateFile (L "/f") 33188 (Some (L "abc")) None true true; CreateFile (L "/g") 33188 (Some (L "123456")) None true true;
   Open (PStr (L "/f")) (L "rb") (-1) true; Open (PStr (L "/g")) (L "r+b") 2 true; HSeek 4 0 0].
Definition c86b_state : fs := run fd_init c86b_ops.
Theorem C86_middle_refuted : c86b_state = run fd_init c86b_ops /\ source c86b_state 3 (L "abc") /\ sink c86b_state 4 (L "123456") /\ unlimited c86b_state /\
  file_of c86b_state 3 <> file_of c86b_state 4 /\ fst (copyfileobj 9 3 4 1 c86b_state) = Ok tt /\
  bytes_of (snd (step (HClose 4) (snd (copyfileobj 9 3 4 1 c86b_state)))) (file_of c86b_state 4) (L "abc") /\
  overwrite (L "123456") (offset c86b_state 4) (L "abc") = L "abc456".
Proof.
  split; [reflexivity|]. split; [c79|]. split; [c79|]. split; [apply c43_free; vm_compute; reflexivity|]. split; [vm_compute; discriminate|].
  split; [vm_compute; reflexivity|]. split; vm_compute; reflexivity.
Qed.
Print Assumptions C86_middle_refuted.
Example C86_opened_case : exists hs s0, linux_like posix_cfg /\ session natural_fds posix_cfg s0 hs /\ within_limits s0 /\ not_devnull s0 (L "/f") /\ held s0 (L "/f") lines3 /\
  In (L "rb") binary_modes /\ step (Open (PStr (L "/f")) (L "rb") (-1) true) s0 = (Ok (RHandle 3), c78_s1).
Proof.
  destruct c78_held as (H1 & H2 & H3 & H4 & H5 & H6). eexists _, c78_state.
  split; [apply posix_cfg_linux|]. split; [exact H1|]. split; [exact H2|]. split; [exact H4|]. split; [exact H5|]. split; [left; reflexivity|exact H6].
Qed.

(** ** Two files: open the one for reading and the other for writing, copy, close. *)
Lemma opened_alone c s hs p m om b cf w s1 v o1 B : linux_like c -> c_sep c = slash -> session natural_fds c s hs -> within_limits s -> not_devnull s p ->
  parse_mode m = Ok om -> has_char "b"%char m = true -> step (Open (PStr p) m b cf) s = (Ok (RHandle w), s1) ->
  (exists fd s0, opened s0 s v fd) -> file_of s v = o1 -> o1 < f_next s -> is_dirobj s o1 = false -> file_of s1 w <> o1 -> in_step s v B ->
  (source s v B -> source s1 v B) /\ offset s1 v = offset s v.
Proof.
  intros Hl Hs HS HL Hn M1 M2 H (fd & s0 & OP) Eo Hlt Hdir N Hst.
  destruct (session_open c s hs p m _ b cf w s1 Hl Hs HS HL Hn M1 M2 H) as (_ & _ & o & O).
  assert (Ew : file_of s1 w = o) by (destruct (ho_wrap _ _ _ _ _ _ _ _ (of_handle _ _ _ _ _ _ _ _ _ O)) as (fd2 & Ew); unfold file_of; rewrite Ew; reflexivity).
  rewrite Ew in N. destruct (ho_fd _ _ _ _ _ _ _ _ (of_handle _ _ _ _ _ _ _ _ _ O)) as [fd2 OP2].
  pose proof (op_inv _ _ _ _ OP) as FI.
  assert (Hv : v < f_wnext s) by (destruct (fi_fd s FI fd [v] v (op_slot _ _ _ _ OP) (or_introl eq_refl)) as [K _]; exact K).
  assert (Nv : v <> w) by (rewrite (op_new _ _ _ _ OP2); intros ->; apply (Nat.lt_irrefl _ Hv)).
  assert (Er : wr s1 v = wr s v) by (apply (ho_others _ _ _ _ _ _ _ _ (of_handle _ _ _ _ _ _ _ _ _ O) v Nv)).
  assert (Eb : ob s1 o1 = ob s o1).
  { destruct (of_how _ _ _ _ _ _ _ _ _ O) as [(_ & _ & _ & K & _)|(_ & En & _ & _ & _ & sx & d & n & OM & _ & _ & K & _)].
    - apply (kp_other _ _ _ K). intros Q; apply N; symmetry; exact Q.
    - rewrite (kp_other _ _ _ K) by (intros Q; apply N; symmetry; exact Q). apply (om_other _ _ _ _ _ OM); [|intros Q; apply N; symmetry; exact Q].
      intros ->. rewrite (om_isdir _ _ _ _ _ OM) in Hdir. discriminate. }
  assert (Ei : is_open s1 v = is_open s v).
  { rewrite (st_open _ _ _ Hst). apply (slot_is_open s1 v [v]); [|left; reflexivity]. rewrite Er, (op_fd _ _ _ _ OP).
    rewrite (op_others _ _ _ _ OP2); [apply (op_slot _ _ _ _ OP)|]. intros ->. apply (proj2 (op_free _ _ _ _ OP2)). exists [v]. apply (op_slot _ _ _ _ OP). }
  rewrite <- Eo in Eb. destruct (C79_alone s s1 v B Eb Er Ei) as (A1 & _ & A2). split; assumption.
Qed.

(** In any session: [p] holds [D]; after opening [p] for reading and [q], another
    file or none, for writing, copyfileobj copies everything: when the second is
    closed, [q]'s file holds [D] and [p]'s still does. *)
Theorem C86_files : forall c s hs p q b1 cf1 b2 cf2 w1 s1 w2 s2 D, linux_like c -> c_sep c = slash -> session natural_fds c s hs -> within_limits s ->
  not_devnull s p -> held s p D -> step (Open (PStr p) (L "rb") b1 cf1) s = (Ok (RHandle w1), s1) ->
  not_devnull s1 q -> step (Open (PStr q) (L "wb") b2 cf2) s1 = (Ok (RHandle w2), s2) -> file_of s1 w1 <> file_of s2 w2 ->
  forall len fuel, length D < fuel ->
  let r := fst (copyfileobj fuel w1 w2 len s2) in let s3 := snd (copyfileobj fuel w1 w2 len s2) in
  (r = Ok tt /\ (forall o, o <> file_of s1 w1 -> o <> file_of s2 w2 -> ob s3 o = ob s2 o) /\
   forall x s4, step (HClose w2) s3 = (Ok x, s4) -> bytes_of s4 (file_of s1 w1) D /\ bytes_of s4 (file_of s2 w2) D) \/
  (r = Err (OSErr ENOSPC) /\ ~ unlimited s2).
Proof.
  intros c s hs p q b1 cf1 b2 cf2 w1 s1 w2 s2 D Hl Hs HS HL Hn HD E1 Hn2 E2 N len fuel Hf r s3.
  destruct (C86_opened c s hs p (L "rb") b1 cf1 w1 s1 D Hl Hs HS HL Hn HD ltac:(left; reflexivity) eq_refl E1) as (B & S & P & _ & _ & _ & K1 & _ & _).
  specialize (K1 eq_refl).
  destruct (session_open c s hs p (L "rb") _ b1 cf1 w1 s1 Hl Hs HS HL Hn eq_refl eq_refl E1) as (HS1 & HL1 & o1 & O1).
  assert (Eo1 : file_of s1 w1 = o1) by (destruct (ho_wrap _ _ _ _ _ _ _ _ (of_handle _ _ _ _ _ _ _ _ _ O1)) as (fd2 & Ew); unfold file_of; rewrite Ew; reflexivity).
  assert (EB : B = D).
  { pose proof (st_bytes _ _ _ S) as Hb. rewrite Eo1 in Hb.
    destruct (of_how _ _ _ _ _ _ _ _ _ O1) as [(Ex & Er & _ & _ & Eb)|(_ & _ & Eb & _)]; [|discriminate Eb].
    destruct HD as [[_ HD]|[HD _]]; [|rewrite Ex in HD; discriminate HD].
    pose proof (HD o1 Er) as Hb2. unfold bytes_of in *. rewrite Eb in Hb. cbn in Hb. rewrite Hb2 in Hb. injection Hb as Hb. symmetry. exact Hb. }
  subst B.
  destruct (session_open c s1 (hs ++ [w1]) q (L "wb") _ b2 cf2 w2 s2 Hl Hs HS1 HL1 Hn2 eq_refl eq_refl E2) as (HS2 & HL2 & o2 & O2).
  assert (Eo2 : file_of s2 w2 = o2) by (destruct (ho_wrap _ _ _ _ _ _ _ _ (of_handle _ _ _ _ _ _ _ _ _ O2)) as (fd2 & Ew); unfold file_of; rewrite Ew; reflexivity).
  destruct (session_Ginv _ _ _ _ Hl HS) as [HG _].
  assert (Hlt : o1 < f_next s1) by (exact (opened_lt _ _ _ _ _ _ _ _ _ HG O1)).
  destruct (opened_alone c s1 (hs ++ [w1]) q (L "wb") _ b2 cf2 w2 s2 w1 o1 D Hl Hs HS1 HL1 Hn2 eq_refl eq_refl E2) as [Q1 Q2]; try assumption.
  { destruct (ho_fd _ _ _ _ _ _ _ _ (of_handle _ _ _ _ _ _ _ _ _ O1)) as [fd OP]. exists fd, s. exact OP. }
  { apply (of_file _ _ _ _ _ _ _ _ _ O1). }
  { rewrite <- Eo1. intros K. apply N. symmetry. exact K. }
  specialize (Q1 K1).
  assert (B2 : bytes_of s2 o2 []).
  { destruct (of_how _ _ _ _ _ _ _ _ _ O2) as [(_ & _ & _ & _ & Eb)|(_ & _ & _ & Eb & _)]; exact Eb. }
  destruct (handle_view _ _ _ _ _ _ _ _ _ (of_handle _ _ _ _ _ _ _ _ _ O2) (of_null _ _ _ _ _ _ _ _ _ O2) B2) as (V & [G1 G2 G3 G4 G5 G6 G7]).
  destruct (view_step _ _ _ _ _ _ V G2) as (T & _ & Tp).
  assert (Er : file_of s2 w1 = file_of s1 w1).
  { destruct Q1 as [Q1 _]. unfold file_of. destruct (ho_fd _ _ _ _ _ _ _ _ (of_handle _ _ _ _ _ _ _ _ _ O1)) as [fd OP].
    destruct (ho_fd _ _ _ _ _ _ _ _ (of_handle _ _ _ _ _ _ _ _ _ O2)) as [fd2 OP2].
    pose proof (op_inv _ _ _ _ OP) as FI. destruct (fi_fd s1 FI fd [w1] w1 (op_slot _ _ _ _ OP) (or_introl eq_refl)) as [K _].
    rewrite (ho_others _ _ _ _ _ _ _ _ (of_handle _ _ _ _ _ _ _ _ _ O2) w1); [reflexivity|]. rewrite (op_new _ _ _ _ OP2). intros Z. rewrite Z in K. apply (Nat.lt_irrefl _ K). }
  assert (EP : offset s2 w1 = 0) by (rewrite Q2; exact P).
  pose proof (C86_copyfileobj_partial s2 w1 w2 D [] len fuel Q1 T G1 (Nat.le_0_l _) ltac:(rewrite Er; exact N)) as K. cbv zeta in K.
  rewrite EP, Tp, Er in K. cbn [skipn] in K. specialize (K Hf). destruct K as [(R1 & _ & _ & _ & Ko & _ & _ & _ & Kc & _)|K]; [left|right; exact K].
  split; [exact R1|]. split; [exact Ko|]. intros x s4 E4. destruct (Kc G4 G5 x s4 E4) as [Z1 Z2]. split; [exact Z1|].
  assert (EO : overwrite [] 0 D = D).
  { destruct D as [|d0 D]; [reflexivity|]. unfold overwrite. rewrite skipn_nil, app_nil_r. reflexivity. }
  cbn [nonempty andb] in Z2. rewrite EO in Z2. exact Z2.
Qed.
Print Assumptions C86_files.
Definition c86_s2 : fs := snd (step (Open (PStr (L "/g")) (L "wb") 2 true) c78_s1).
Example C86_files_case : exists hs, linux_like posix_cfg /\ session natural_fds posix_cfg c78_state hs /\ within_limits c78_state /\
  not_devnull c78_state (L "/f") /\ held c78_state (L "/f") lines3 /\ step (Open (PStr (L "/f")) (L "rb") (-1) true) c78_state = (Ok (RHandle 3), c78_s1) /\
  not_devnull c78_s1 (L "/g") /\ step (Open (PStr (L "/g")) (L "wb") 2 true) c78_s1 = (Ok (RHandle 4), c86_s2) /\ file_of c78_s1 3 <> file_of c86_s2 4 /\
  fst (copyfileobj 50 3 4 3 c86_s2) = Ok tt /\ fst (step (HClose 4) (snd (copyfileobj 50 3 4 3 c86_s2))) = Ok RUnit /\
  bytes_of (snd (step (HClose 4) (snd (copyfileobj 50 3 4 3 c86_s2)))) (file_of c86_s2 4) lines3.
Proof.
  destruct c78_held as (H1 & H2 & H3 & H4 & H5 & H6). eexists.
  split; [apply posix_cfg_linux|]. split; [exact H1|]. split; [exact H2|]. split; [exact H4|]. split; [exact H5|]. split; [exact H6|]. clear.
  split; [split; vm_compute; discriminate|]. split; [unfold c86_s2; apply pair_eq; vm_compute; reflexivity|]. split; [vm_compute; discriminate|].
  split; [vm_compute; reflexivity|]. split; vm_compute; reflexivity.
Qed.
