(** * C79: os.sendfile copies the bytes asked for *)
From Verif Require Import MountThm GraphIo IoFrame IoThm IoSess OpenThm FdThm PropFd PropIo PropIo2 CohThm CohThm2 PropIo3 LineThm PropLine.
From Coq Require Import Lia ZifyBool.
Import ListNotations.
Open Scope string_scope.
Open Scope list_scope.

(** The open handle [w], not in append mode, has the bytes [B] of its file before
    it, and nothing that is not in the file. *)
Record in_step (s : fs) (w : wid) (B : str) : Prop := mkStep {
  st_kind : w_kind (wr s w) = WFile;
  st_open : is_open s w = true;
  st_append : w_append (wr s w) = false;
  st_null : file_of s w <> devnull_oid;
  st_bytes : bytes_of s (file_of s w) B;
  st_buf : w_buf (wr s w) = B;
  st_epoch : w_epoch (wr s w) = o_epoch (ob s (file_of s w))
}.
(** it may read; it may write, and has read nothing since it was opened or wrote last *)
Definition source (s : fs) (w : wid) (B : str) : Prop := in_step s w B /\ w_read (wr s w) = true.
Definition sink (s : fs) (w : wid) (B : str) : Prop := in_step s w B /\ w_update (wr s w) = true /\ offset s w <= w_fpos (wr s w).

Lemma step_view s w B : in_step s w B -> view s w (file_of s w) B (offset s w) (w_fpos (wr s w)) B.
Proof. intros [H1 H2 H3 H4 H5 H6 H7]. split; auto. Qed.
Lemma view_step s w o B P F : view s w o B P F B -> w_append (wr s w) = false -> in_step s w B /\ file_of s w = o /\ offset s w = P.
Proof.
  intros V Ha. pose proof (v_obj _ _ _ _ _ _ _ _ V) as E. split; [|split; [exact E|exact (v_pos _ _ _ _ _ _ _ _ V)]].
  assert (E' : file_of s w = o) by exact E.
  split; rewrite ?E'; [exact (v_kind _ _ _ _ _ _ _ _ V)|exact (v_open _ _ _ _ _ _ _ _ V)|exact Ha|exact (v_null _ _ _ _ _ _ _ _ V)|exact (v_data _ _ _ _ _ _ _ _ V)|exact (v_buf _ _ _ _ _ _ _ _ V)|exact (v_epoch _ _ _ _ _ _ _ _ V eq_refl)].
Qed.
(** ** How handles come to be like this *)
(** after opening, *)
Theorem C79_opened : forall c s hs p w rd up s1 D, linux_like c -> c_sep c = slash -> session natural_fds c s hs -> within_limits s -> not_devnull s p -> held s p D ->
  opens s p w rd up s1 -> exists B, in_step s1 w B /\ offset s1 w = 0 /\ (rd = true -> source s1 w B) /\ (up = true -> sink s1 w B).
Proof.
  intros c s hs p w rd up s1 D Hl Hs HS HL Hn HD HO.
  destruct (opens_calm c s hs p w rd up s1 D Hl Hs HS HL Hn HD HO) as (o & _ & C & P & Fr & Fu & Ho & Hf).
  destruct (ca_bytes _ _ _ _ (C True)) as (B & HB & K). specialize (K Logic.I Hf). pose proof (C True) as C1. exists B.
  assert (E : file_of s1 w = o) by exact (ca_obj _ _ _ _ C1).
  assert (S : in_step s1 w B).
  { split; rewrite ?E; [exact (ca_kind _ _ _ _ C1)|exact Ho|exact (ca_append _ _ _ _ C1)|exact (ca_null _ _ _ _ C1)|exact HB|exact K|exact Hf]. }
  split; [exact S|]. split; [exact P|]. split; [intros ->; split; assumption|intros ->]. split; [exact S|]. split; [exact Fu|]. rewrite P. lia.
Qed.
(** after a successful os.write() through it, *)
Theorem C79_wrote : forall w rd s fd d x s1, an_open_handle w rd true true s -> get_open_file s fd = Ok w -> step (OsWrite fd d) s = (Ok x, s1) ->
  exists B, sink s1 w B.
Proof.
  intros w rd s fd d x s1 H Hw E. destruct (handle_Inv _ _ _ _ _ H) as (o & I & Ef & Fr & Fu & Ho).
  cbn [step] in E. apply is_open_ok in E. destruct E as (z & E & _). rewrite (os_write_eq _ _ _ _ Hw (ca_kind _ _ _ _ I)) in E.
  assert (C : calm w o True s). { eapply calm_weaken; [|exact I]. intros _. left. reflexivity. }
  pose proof (wp_os_write w o True s d C Ho Fu) as K. unfold wp in K. rewrite E in K. cbn [fst snd] in K.
  destruct K as [(K & _)|(_ & B & _ & V)]; [discriminate|]. cbv zeta in V.
  assert (Hst : wstat (wr s1 w) = wstat (wr s w)).
  { pose proof (wr_hst _ _ w (hs_step (OsWrite fd d) eq_refl s)) as Hh. cbn [step] in Hh. rewrite outm_snd, (os_write_eq _ _ _ _ Hw (ca_kind _ _ _ _ I)), E in Hh. exact Hh. }
  destruct (stat_flags _ _ Hst) as (G1 & G2 & G3 & _).
  destruct (view_step _ _ _ _ _ _ V ltac:(rewrite G3; exact (ca_append _ _ _ _ I))) as (S & _ & P).
  eexists. split; [exact S|]. split; [congruence|]. rewrite P, (v_fpos _ _ _ _ _ _ _ _ V). lia.
Qed.
(** after a successful read through it, *)
Theorem C79_read : forall w up clean s n x s1, an_open_handle w true up clean s -> clean = true \/ up = false -> step (HRead w n) s = (Ok x, s1) ->
  exists B, source s1 w B.
Proof.
  intros w up clean s n x s1 H Hc E.
  destruct (reading_out w up clean s (Z.eqb n 0) [] (fun b p => bio_read b p n) H Hc) as (B & HB & K). rewrite <- reading_read in K. cbv zeta in K.
  cbn [step] in E. apply is_open_ok in E. destruct E as (a & E & _). rewrite E in K. cbn [fst snd] in K.
  destruct K as [(_ & F & V & Hr)|(K & _)]; [|discriminate]. exists B.
  destruct (handle_Inv _ _ _ _ _ H) as (o & I & Ef & Fr & Fu & Ho).
  assert (Ha : w_append (wr s1 w) = false).
  { pose proof (wr_hst _ _ w (hs_step (HRead w n) eq_refl s)) as Hh. cbn [step] in Hh. rewrite outm_snd, E in Hh. cbn [snd] in Hh. destruct (stat_flags _ _ Hh) as (_ & _ & G3 & _). rewrite G3. exact (ca_append _ _ _ _ I). }
  destruct (view_step _ _ _ _ _ _ V Ha) as (S & _). split; assumption.
Qed.
(** and after any call that leaves the file and the handle alone. *)
Theorem C79_alone : forall s s1 w B, ob s1 (file_of s w) = ob s (file_of s w) -> wr s1 w = wr s w -> is_open s1 w = is_open s w ->
  (source s w B -> source s1 w B) /\ (sink s w B -> sink s1 w B) /\ offset s1 w = offset s w.
Proof.
  intros s s1 w B E1 E2 E3.
  assert (K : in_step s w B -> in_step s1 w B).
  { intros [H1 H2 H3 H4 H5 H6 H7]. assert (E : file_of s1 w = file_of s w) by (unfold file_of; rewrite E2; reflexivity).
    split; rewrite ?E; unfold bytes_of in *; rewrite ?E1, ?E2, ?E3; assumption. }
  unfold source, sink, offset. rewrite E2. split; [intros (H & Hr); auto|]. split; [intros (H & Hu); auto|reflexivity].
Qed.

(** ** The copy *)
Lemma other_view s s1 w v o o' B P F D e : iow w s s1 -> w_obj (wr s w) = o -> view_ e s v o' B P F D -> o' <> o -> view_ e s1 v o' B P F D /\ wr s1 v = wr s v.
Proof.
  intros I Eo V N. assert (Nv : v <> w) by (intros ->; apply N; rewrite <- Eo; symmetry; exact (v_obj _ _ _ _ _ _ _ _ V)).
  assert (Ew : wr s1 v = wr s v) by (apply (iw_wraps _ _ _ I); [exact Nv|rewrite Eo, (v_obj _ _ _ _ _ _ _ _ V); exact N]).
  assert (Eb : ob s1 o' = ob s o') by (apply (iw_other _ _ _ I); rewrite Eo; exact N).
  split; [|exact Ew]. destruct V as [V1 V2 V3 V4 V5 V6 V7 V8 V9].
  split; rewrite ?Ew, ?Eb; auto. rewrite (is_open_hst _ _ v (iw_hst _ _ _ I)). exact V3.
Qed.
Lemma wp_read_any w o s B P F n : view s w o B P F B -> w_append (wr s w) = false -> w_read (wr s w) = true ->
  wp (file_read w n) s (fun r s' => ends s o w r s' (r = Ok (bytes_at B P n) /\ exists F', view s' w o B (P + length (bytes_at B P n)) F' B)).
Proof.
  intros V Ha Hr. destruct (w_update (wr s w)) eqn:Hu.
  - eapply wp_conseq; [apply (wp_read_update w o s B P F B n V Hu Ha Hr)|]. cbv beta. intros r s1 [K|((E & V1) & I)]; [left; exact K|right].
    split; [|exact I]. rewrite <- bio_read_at. split; [exact E|]. eexists. exact V1.
  - eapply wp_conseq; [apply (wp_read_only true w o s B P F B n V Hu Ha Hr ltac:(reflexivity))|]. cbv beta zeta. intros r s1 (E & V1 & I). right.
    split; [|exact I]. rewrite <- bio_read_at. split; [exact E|]. eexists. exact V1.
Qed.
Lemma wp_seek_any w o s B P F k : view s w o B P F B -> w_append (wr s w) = false ->
  wp (file_seek w (Z.of_nat k) 0) s (fun r s' => ends s o w r s' (r = Ok tt /\ exists F', view s' w o B k F' B)).
Proof.
  intros V Ha. destruct (w_update (wr s w)) eqn:Hu.
  - eapply wp_conseq; [apply (wp_seek true w o s B P F B (Z.of_nat k) 0 V Hu Ha)|]. cbv beta. rewrite bio_seek_set. intros r s1 [K|((E & V1) & I)]; [left; exact K|right]. eauto.
  - eapply wp_conseq; [apply (wp_seek_ro true w o s B P F B (Z.of_nat k) 0 V Hu Ha)|]. cbv beta. rewrite bio_seek_set. intros r s1 (E & V1 & I). right. eauto.
Qed.
Lemma wp_tell_any w o s B P F : view s w o B P F B -> w_append (wr s w) = false ->
  wp (file_tell w) s (fun r s' => ends s o w r s' (r = Ok (Z.of_nat P) /\ exists F', view s' w o B P F' B)).
Proof.
  intros V Ha. destruct (w_update (wr s w)) eqn:Hu.
  - eapply wp_conseq; [apply (wp_tell true w o s B P F B V Hu Ha)|]. cbv beta. intros r s1 [K|((E & V1) & I)]; [left; exact K|right]. eauto.
  - unfold wp. rewrite (wp_tell_ro true w o s B P F B V Hu Ha). cbn [fst snd]. right. split; [split; [reflexivity|eauto]|reflexivity].
Qed.

(** what sendfile reads and where the source stands after that *)
Definition sent (B : str) (P : nat) (off : option Z) (count : Z) : str * nat :=
  match off with
  | None => let got := bytes_at B P count in (got, P + length got)
  | Some z => (bytes_at B (Z.to_nat z) count, P)
  end.
Definition fetch (w : wid) (off : option Z) (count : Z) : M str :=
  match off with
  | None => file_read w count
  | Some offset =>
      position <- file_tell w ;;
      file_seek w offset 0 ;;;
      c <- file_read w count ;;
      file_seek w position 0 ;;;
      ret c
  end.
Lemma iow_app w s s' : iow w s s' -> w_append (wr s' w) = w_append (wr s w) /\ w_read (wr s' w) = w_read (wr s w) /\ w_update (wr s' w) = w_update (wr s w).
Proof. intros I. destruct (iow_flags _ _ _ I) as (G1 & G2 & G3 & _). auto. Qed.
Lemma wp_fetch w o s B P F off count : view s w o B P F B -> w_append (wr s w) = false -> w_read (wr s w) = true ->
  match off with Some z => (0 <= z)%Z | None => True end ->
  wp (fetch w off count) s (fun r s' => ends s o w r s' (r = Ok (fst (sent B P off count)) /\ exists F', view s' w o B (snd (sent B P off count)) F' B)).
Proof.
  intros V Ha Hr Hz. destruct off as [z|]; cbn [fetch sent fst snd]; [|apply (wp_read_any w o s B P F count V Ha Hr)].
  apply wp_bind. eapply wp_conseq; [apply (wp_tell_any w o s B P F V Ha)|]. cbv beta. intros r s1 [(-> & K)|((-> & F1 & V1) & I1)]; [left; auto|]. cbv beta iota.
  destruct (iow_app _ _ _ I1) as (A1 & R1 & _).
  replace z with (Z.of_nat (Z.to_nat z)) by lia. rewrite Nat2Z.id.
  apply wp_bind. eapply wp_conseq; [apply (wp_seek_any w o s1 B P F1 (Z.to_nat z) V1); congruence|]. cbv beta. intros r s2 [(-> & K)|((-> & F2 & V2) & I2)].
  { left. split; [reflexivity|]. intros K2. apply K, (roomy_iow _ _ _ o I1), K2. } cbv beta iota.
  destruct (iow_app _ _ _ I2) as (A2 & R2 & _).
  assert (I02 : iow w s s2) by (etransitivity; eassumption).
  apply wp_bind. eapply wp_conseq; [apply (wp_read_any w o s2 B _ F2 count V2); congruence|]. cbv beta. intros r s3 [(-> & K)|((-> & F3 & V3) & I3)].
  { left. split; [reflexivity|]. intros K2. apply K, (roomy_iow _ _ _ o I02), K2. } cbv beta iota.
  destruct (iow_app _ _ _ I3) as (A3 & R3 & _).
  assert (I03 : iow w s s3) by (etransitivity; eassumption).
  apply wp_bind. eapply wp_conseq; [apply (wp_seek_any w o s3 B _ F3 P V3); congruence|]. cbv beta. intros r s4 [(-> & K)|((-> & F4 & V4) & I4)].
  { left. split; [reflexivity|]. intros K2. apply K, (roomy_iow _ _ _ o I03), K2. } cbv beta iota.
  apply wp_ret. right. split; [split; [reflexivity|eauto]|etransitivity; eassumption].
Qed.
Lemma written_at bs B P F D d : P <= F -> exists F' D', written bs B P F D d = (overwrite B P d, F', D').
Proof.
  intros H. destruct (written_safe bs B P F D d) as (D' & E); [|eauto].
  cbn [safe_op]. lia.
Qed.
Lemma wp_sink w o s B P F d : view s w o B P F B -> w_append (wr s w) = false -> w_update (wr s w) = true -> P <= F ->
  wp (written <- file_write w d ;; flush w ;;; ret written) s (fun r s' => ends s o w r s'
    (r = Ok (Z.of_nat (length d)) /\ let B' := overwrite B P d in view s' w o B' (P + length d) (P + length d) B')).
Proof.
  intros V Ha Hu HF. apply wp_bind. eapply wp_conseq; [apply (wp_file_write true w o s B P F B d V Hu Ha)|]. cbv beta.
  destruct (written_at (w_bufsize (wr s w)) B P F B d HF) as (F' & D' & ->). intros r s1 [(-> & K)|((-> & V1) & I1)]; [left; auto|]. cbv beta iota.
  destruct (iow_app _ _ _ I1) as (A1 & R1 & U1).
  apply wp_bind. eapply wp_conseq; [apply (wp_flush true w o s1 _ _ _ _ V1); congruence|]. cbv beta. intros r s2 [(-> & K)|(-> & V2 & I2)].
  { left. split; [reflexivity|]. intros K2. apply K, (roomy_iow _ _ _ o I1), K2. } cbv beta iota.
  apply wp_ret. right. split; [split; [reflexivity|exact V2]|etransitivity; eassumption].
Qed.

Lemma same_files w s s' : iow w s s' -> f_cfg s' = f_cfg s /\ forall fd, get_open_file s' fd = get_open_file s fd.
Proof.
  intros I. split; [apply (iw_env _ _ _ I)|]. intros fd. unfold get_open_file. destruct (iw_hst _ _ _ I) as (E & _). rewrite E. reflexivity.
Qed.
Lemma send_bind {A B} (m : M A) (k : A -> M B) s x s' : m s = (Ok x, s') -> bind m k s = k x s'.
Proof. intros H. unfold bind. rewrite H. reflexivity. Qed.
(** sendfile(out, in, offset, count): the bytes of the source, from [offset] or its
    position on, overwrite the destination at its position; the number of bytes
    is returned.  The source keeps its bytes, and its position if an offset was
    given.  Both handles are as before (so that this can be repeated), and all
    other files are untouched. *)
Theorem C79_sendfile_partial : forall s w1 w2 fd_in fd_out off count B1 B2,
  c_win (f_cfg s) = false -> c_mac (f_cfg s) = false ->
  (3 <= fd_in)%Z -> (3 <= fd_out)%Z -> get_open_file s fd_in = Ok w1 -> get_open_file s fd_out = Ok w2 ->
  source s w1 B1 -> sink s w2 B2 -> file_of s w1 <> file_of s w2 ->
  match off with Some z => (0 <= z)%Z | None => True end ->
  let got := match off with None => bytes_at B1 (offset s w1) count | Some z => bytes_at B1 (Z.to_nat z) count end in
  let r := fst (os_sendfile fd_out fd_in off count s) in let s' := snd (os_sendfile fd_out fd_in off count s) in
  (r = Ok (Z.of_nat (length got)) /\
   source s' w1 B1 /\ offset s' w1 = (match off with None => offset s w1 + length got | Some _ => offset s w1 end) /\
   sink s' w2 (overwrite B2 (offset s w2) got) /\ offset s' w2 = offset s w2 + length got /\
   file_of s' w1 = file_of s w1 /\ file_of s' w2 = file_of s w2 /\
   (forall o, o <> file_of s w1 -> o <> file_of s w2 -> ob s' o = ob s o) /\
   f_cfg s' = f_cfg s /\ (forall fd, get_open_file s' fd = get_open_file s fd)) \/
  (r = Err (OSErr ENOSPC) /\ ~ unlimited s).
Proof.
  intros s w1 w2 fd_in fd_out off count B1 B2 Hw Hm H1 H2 G1 G2 (S1 & R1) (S2 & U2 & F2) N Hz got r s'.
  pose proof (step_view _ _ _ S1) as V1. pose proof (step_view _ _ _ S2) as V2. pose proof (st_append _ _ _ S1) as A1. pose proof (st_append _ _ _ S2) as A2.
  set (o1 := file_of s w1) in *. set (o2 := file_of s w2) in *. set (P1 := offset s w1) in *. set (P2 := offset s w2) in *.
  assert (Eg : got = fst (sent B1 P1 off count)) by (unfold got; destruct off; reflexivity).
  assert (Ep : (match off with None => P1 + length got | Some _ => P1 end) = snd (sent B1 P1 off count)) by (unfold got; destruct off; reflexivity).
  rewrite Ep. clearbody got. clear Ep.
  set (K := fun (rr : res Z) (sx : fs) =>
    (rr = Ok (Z.of_nat (length got)) /\
     source sx w1 B1 /\ offset sx w1 = snd (sent B1 P1 off count) /\
     sink sx w2 (overwrite B2 P2 got) /\ offset sx w2 = P2 + length got /\
     file_of sx w1 = o1 /\ file_of sx w2 = o2 /\ (forall o, o <> o1 -> o <> o2 -> ob sx o = ob s o) /\ f_cfg sx = f_cfg s /\ (forall fd, get_open_file sx fd = get_open_file s fd)) \/
    (rr = Err (OSErr ENOSPC) /\ ~ unlimited s)).
  change (K r s'). subst r s'. change (wp (os_sendfile fd_out fd_in off count) s K).
  unfold os_sendfile. do 2 wstep. rewrite Hw, Hm. cbv beta iota.
  destruct ((0 <=? fd_in)%Z && (fd_in <? 3)%Z) eqn:T1; [lia|]. destruct ((0 <=? fd_out)%Z && (fd_out <? 3)%Z) eqn:T2; [lia|].
  wstep. rewrite G1. wstep. rewrite G2. apply wp_bind, wp_ret. cbv beta iota. apply wp_bind_wget. rewrite (v_kind _ _ _ _ _ _ _ _ V1).
  change (wp (contents <- fetch w1 off count ;;
    match contents with [] => ret 0%Z | _ => y <- wget w2 ;;
      match w_kind y with WFile => written <- file_write w2 contents ;; flush w2 ;;; ret written | WPipe => raise NotImpl | _ => raise AttrErr end end) s K).
  apply wp_bind. eapply wp_conseq; [apply (wp_fetch w1 o1 s B1 P1 _ off count V1 A1 R1 Hz)|]. cbv beta.
  intros rr s1 [(-> & X)|((-> & F1' & W1) & I1)]; [right; split; [reflexivity|]; intros Q0; apply X, unlimited_any, Q0|]. cbv beta iota. rewrite <- Eg.
  destruct (iow_app _ _ _ I1) as (A1' & R1' & _).
  destruct (other_view s s1 w1 w2 o1 o2 _ _ _ _ _ I1 eq_refl V2 ltac:(congruence)) as (W2 & E2).
  destruct got as [|g0 g] eqn:Egot.
  - apply wp_ret. left. split; [reflexivity|]. destruct (view_step _ _ _ _ _ _ W1 ltac:(congruence)) as (T & Tf & Tp).
    destruct (view_step _ _ _ _ _ _ W2 ltac:(congruence)) as (T' & Tf' & Tp').
    split; [split; [exact T|congruence]|]. split; [exact Tp|]. cbn [overwrite length]. split; [|split; [lia|split; [exact Tf|split; [exact Tf'|split; [|apply (same_files _ _ _ I1)]]]]].
    + split; [exact T'|]. rewrite Tp', E2. auto.
    + intros o n1 _. apply (iw_other _ _ _ I1). exact n1.
  - rewrite <- Egot in *. apply wp_bind_wget. rewrite (v_kind _ _ _ _ _ _ _ _ W2).
    eapply wp_conseq; [apply (wp_sink w2 o2 s1 B2 P2 _ got W2); [congruence|congruence|exact F2]|]. cbv beta.
    intros rr s2 [(-> & X)|((-> & W2') & I2)].
    { right. split; [reflexivity|]. intros Q0. apply X, (roomy_iow _ _ _ o2 I1), unlimited_any, Q0. }
    cbv zeta in W2'. destruct (iow_app _ _ _ I2) as (A2' & R2' & U2').
    destruct (other_view s1 s2 w2 w1 o2 o1 _ _ _ _ _ I2 (v_obj _ _ _ _ _ _ _ _ W2) W1 N) as (W1' & E1).
    destruct (view_step _ _ _ _ _ _ W1' ltac:(congruence)) as (T & Tf & Tp).
    destruct (view_step _ _ _ _ _ _ W2' ltac:(congruence)) as (T' & Tf' & Tp').
    left. rewrite <- Egot. split; [reflexivity|]. split; [split; [exact T|congruence]|]. split; [exact Tp|]. split; [|split; [exact Tp'|split; [exact Tf|split; [exact Tf'|split; [|split; [rewrite (proj1 (same_files _ _ _ I2)); apply (same_files _ _ _ I1)|intros fd; rewrite (proj2 (same_files _ _ _ I2)); apply (same_files _ _ _ I1)]]]]]].
    + split; [exact T'|]. split; [congruence|]. rewrite Tp', (v_fpos _ _ _ _ _ _ _ _ W2'). apply Nat.le_refl.
    + intros o n1 n2. rewrite (iw_other _ _ _ I2) by (rewrite (v_obj _ _ _ _ _ _ _ _ W2); exact n2). apply (iw_other _ _ _ I1). exact n1.
Qed.

(** Called again and again with the same positive count and no offset, it copies
    the rest of the source: after [n] successful calls the first [n * count]
    bytes of it. *)
Inductive sends (fd_out fd_in : Z) (count : nat) : nat -> fs -> fs -> Prop :=
| send_none s : sends fd_out fd_in count 0 s s
| send_more n s x s1 s2 : os_sendfile fd_out fd_in None (Z.of_nat count) s = (Ok x, s1) -> sends fd_out fd_in count n s1 s2 ->
    sends fd_out fd_in count (S n) s s2.
Lemma skipn_skipn' {A} (l : list A) a b : skipn b (skipn a l) = skipn (a + b) l.
Proof. revert l. induction a as [|a IH]; intros l; [reflexivity|]. destruct l as [|x l]; [rewrite !skipn_nil; reflexivity|]. apply IH. Qed.
Lemma overwrite_twice B P a b : overwrite (overwrite B P a) (P + length a) b = overwrite B P (a ++ b).
Proof.
  destruct a as [|a0 a]; [cbn [overwrite length app]; rewrite Nat.add_0_r; reflexivity|].
  destruct b as [|b0 b]; [cbn [overwrite]; rewrite app_nil_r; reflexivity|].
  assert (K : forall D Q d, d <> [] -> overwrite D Q d = firstn Q D ++ repeat Ascii.zero (Q - length D) ++ d ++ skipn (Q + length d) D).
  { intros D Q [|? ?] Hd; [congruence|reflexivity]. }
  rewrite !K by discriminate. generalize (a0 :: a) (b0 :: b). clear. intros x y. set (z := repeat Ascii.zero (P - length B)).
  assert (E : firstn P B ++ z ++ x ++ skipn (P + length x) B = (firstn P B ++ z ++ x) ++ skipn (P + length x) B) by (rewrite <- !app_assoc; reflexivity).
  rewrite E. assert (Lp : length (firstn P B ++ z ++ x) = P + length x) by (unfold z; rewrite !app_length, firstn_length, repeat_length; lia).
  rewrite firstn_app, Lp, Nat.sub_diag, firstn_O, app_nil_r, firstn_all2 by lia.
  rewrite skipn_app, Lp, (skipn_all2 (firstn P B ++ z ++ x)) by lia. rewrite app_nil_l, skipn_skipn'.
  replace (P + length x - length _) with 0 by (rewrite app_length, Lp; lia). rewrite <- !app_assoc. do 3 f_equal. cbn [repeat app]. f_equal. rewrite app_length. f_equal. lia.
Qed.
Lemma firstn_parts (l : str) P a b : firstn a (skipn P l) ++ firstn b (skipn (P + length (firstn a (skipn P l))) l) = firstn (a + b) (skipn P l).
Proof.
  rewrite <- skipn_skipn'. set (m := skipn P l). rewrite firstn_length.
  destruct (Nat.le_gt_cases a (length m)) as [H|H].
  - rewrite Nat.min_l by exact H. rewrite <- (firstn_skipn a m) at 3. rewrite firstn_app, firstn_firstn, firstn_length, Nat.min_r, Nat.min_l by lia.
    replace (a + b - a) with b by lia. reflexivity.
  - rewrite Nat.min_r, skipn_all, firstn_nil, app_nil_r, !firstn_all2 by lia. reflexivity.
Qed.
Theorem C79_copied_partial : forall s s' w1 w2 fd_in fd_out count n B1 B2,
  c_win (f_cfg s) = false -> c_mac (f_cfg s) = false ->
  (3 <= fd_in)%Z -> (3 <= fd_out)%Z -> get_open_file s fd_in = Ok w1 -> get_open_file s fd_out = Ok w2 ->
  source s w1 B1 -> sink s w2 B2 -> file_of s w1 <> file_of s w2 ->
  sends fd_out fd_in count n s s' ->
  bytes_of s' (file_of s w1) B1 /\
  bytes_of s' (file_of s w2) (overwrite B2 (offset s w2) (firstn (n * count) (skipn (offset s w1) B1))).
Proof.
  intros s s' w1 w2 fd_in fd_out count n B1 B2 Hw Hm H1 H2 G1 G2 S1 S2 N H. revert B2 Hw Hm G1 G2 S1 S2 N.
  induction H as [s|n s x s1 s2 E H IH]; intros B2 Hw Hm G1 G2 S1 S2 N.
  - cbn [Nat.mul firstn overwrite]. split; [apply (st_bytes _ _ _ (proj1 S1))|apply (st_bytes _ _ _ (proj1 S2))].
  - pose proof (C79_sendfile_partial s w1 w2 fd_in fd_out None (Z.of_nat count) B1 B2 Hw Hm H1 H2 G1 G2 S1 S2 N Logic.I) as K. cbv zeta in K. rewrite E in K. cbn [fst snd] in K.
    destruct K as [(_ & T1 & P1 & T2 & P2 & E1 & E2 & _ & Ec & Eg)|(K & _)]; [|discriminate].
    destruct (IH (overwrite B2 (offset s w2) (bytes_at B1 (offset s w1) (Z.of_nat count)))) as (J1 & J2); try assumption; try congruence; try (rewrite Eg; assumption).
    rewrite E1 in J1. rewrite E2, P1, P2, overwrite_twice in J2. split; [exact J1|]. clear - J2.
    assert (Eb : bytes_at B1 (offset s w1) (Z.of_nat count) = firstn count (skipn (offset s w1) B1)) by (unfold bytes_at; destruct (_ <? 0)%Z eqn:Q; [lia|rewrite Nat2Z.id; reflexivity]).
    rewrite Eb in J2. rewrite firstn_parts in J2. exact J2.
Qed.

(** ** What is refused *)
(** the standard streams, and descriptors that are not open *)
Theorem C79_refused : forall s fd_out fd_in off count, c_win (f_cfg s) = false ->
  ((0 <= fd_in < 3)%Z \/ (0 <= fd_out < 3)%Z -> os_sendfile fd_out fd_in off count s = (Err (OSErr EINVAL), s)) /\
  ((3 <= fd_in)%Z -> (3 <= fd_out)%Z -> get_open_file s fd_in = Err (OSErr EBADF) \/ (exists w, get_open_file s fd_in = Ok w) /\ get_open_file s fd_out = Err (OSErr EBADF) ->
   os_sendfile fd_out fd_in off count s = (Err (OSErr EBADF), s)).
Proof.
  intros s fd_out fd_in off count Hw. unfold os_sendfile, bind, gets, lift. rewrite Hw. split.
  - intros H. destruct ((0 <=? fd_in)%Z && (fd_in <? 3)%Z) eqn:T1; [reflexivity|]. destruct ((0 <=? fd_out)%Z && (fd_out <? 3)%Z) eqn:T2; [reflexivity|lia].
  - intros H1 H2 H. destruct ((0 <=? fd_in)%Z && (fd_in <? 3)%Z) eqn:T1; [lia|]. destruct ((0 <=? fd_out)%Z && (fd_out <? 3)%Z) eqn:T2; [lia|].
    destruct H as [H|((w & E) & H)]; [rewrite H; reflexivity|rewrite E, H; reflexivity].
Qed.

(** ** A case *)
Definition c79_ops : list op :=
  [CreateFile (L "/f") 33188 (Some (L "abcdefg")) None true true; CreateFile (L "/g") 33188 (Some (L "123456")) None true true;
   Open (PStr (L "/f")) (L "rb") (-1) true; Open (PStr (L "/g")) (L "r+b") (-1) true].
Definition c79_state : fs := run fd_init c79_ops.
Definition c79_s1 : fs := snd (os_sendfile 4 3 None 3 c79_state).
Definition c79_s2 : fs := snd (os_sendfile 4 3 None 3 c79_s1).
Ltac c79 := split; [|try split; vm_compute; try reflexivity; try (repeat constructor)]; split; vm_compute; try reflexivity; try discriminate.
Example C79_case : source c79_state 3 (L "abcdefg") /\ sink c79_state 4 (L "123456") /\ file_of c79_state 3 <> file_of c79_state 4 /\
  get_open_file c79_state 3 = Ok 3 /\ get_open_file c79_state 4 = Ok 4 /\ unlimited c79_state /\
  fst (os_sendfile 4 3 (Some 4%Z) 9 c79_state) = Ok 3%Z /\ fst (step (OsRead 3 2) (snd (os_sendfile 4 3 (Some 4%Z) 9 c79_state))) = Ok (RBytes (L "ab")) /\
  sends 4 3 3 2 c79_state c79_s2 /\ bytes_of c79_s2 (file_of c79_state 4) (L "abcdef") /\ fst (os_sendfile 4 3 None 3 c79_s2) = Ok 1%Z.
Proof.
  split; [c79|]. split; [c79|]. split; [vm_compute; discriminate|]. split; [vm_compute; reflexivity|]. split; [vm_compute; reflexivity|].
  split; [apply c43_free; vm_compute; reflexivity|]. split; [vm_compute; reflexivity|]. split; [vm_compute; reflexivity|].
  split; [|split; vm_compute; reflexivity].
  apply (send_more 4 3 3 1 c79_state 3 c79_s1); [unfold c79_s1; apply pair_eq; vm_compute; reflexivity|].
  apply (send_more 4 3 3 0 c79_s1 3 c79_s2); [unfold c79_s2; apply pair_eq; vm_compute; reflexivity|constructor].
Qed.
Example C79_opened_case : exists hs s0, linux_like posix_cfg /\ session natural_fds posix_cfg s0 hs /\ within_limits s0 /\ not_devnull s0 (L "/f") /\ held s0 (L "/f") lines3 /\
  opens s0 (L "/f") 3 true false c78_s1 /\ source c78_s1 3 lines3.
Proof.
  destruct c78_held as (H1 & H2 & H3 & H4 & H5 & H6). eexists _, c78_state.
  split; [apply posix_cfg_linux|]. split; [exact H1|]. split; [exact H2|]. split; [exact H4|]. split; [exact H5|].
  split; [|c79]. apply (by_open c78_state (L "/f") (L "rb") (-1) true 3 c78_s1); [cbn; tauto|reflexivity|exact H6].
Qed.

(** ** What does not hold *)
(** a destination that was read from: the bytes after the copy are lost (the
    buffer holds 2 bytes) *)
Theorem C79_read_first_refuted : exists s, s = run fd_init (firstn 3 c79_ops ++ [Open (PStr (L "/g")) (L "r+b") 2 true; HRead 4 1; HSeek 4 0 0; HRead 4 3]) /\
  source s 3 (L "abcdefg") /\ in_step s 4 (L "123456") /\ w_update (wr s 4) = true /\ offset s 4 = 3 /\ unlimited s /\
  fst (os_sendfile 4 3 None 1 s) = Ok 1%Z /\ bytes_of (snd (os_sendfile 4 3 None 1 s)) (file_of s 4) (L "123a") /\ overwrite (L "123456") 3 (L "a") = L "123a56".
Proof.
  eexists. split; [reflexivity|]. split; [c79|]. split; [split; vm_compute; try reflexivity; discriminate|]. split; [vm_compute; reflexivity|]. split; [vm_compute; reflexivity|].
  split; [apply c43_free; vm_compute; reflexivity|]. split; [vm_compute; reflexivity|]. split; vm_compute; reflexivity.
Qed.

Print Assumptions C79_opened.
Print Assumptions C79_wrote.
Print Assumptions C79_read.
Print Assumptions C79_alone.
Print Assumptions C79_sendfile_partial.
Print Assumptions C79_copied_partial.
Print Assumptions C79_refused.
Print Assumptions C79_read_first_refuted.
