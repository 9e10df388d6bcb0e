(** * Several handles of one file: the calls that write through a handle. *)
From Verif Require Import Str PathModel FsModel FsSpec OpsModel IoModel SysModel Wp Frame IoFrame Gen FdThm IoThm.
From Verif Require Import PropFd PropIo PropIo2 IoSess OpenThm CohThm.

Lemma calm_weaken w o (st st' : Prop) s : (st' -> st) -> calm w o st s -> calm w o st' s.
Proof. intros H [C1 C2 C3 C4 C5 C6 C7 (D & C8 & C9)]. constructor; auto. exists D. auto. Qed.
Lemma calm_view w o st s : calm w o st s -> is_open s w = true -> exists D, bytes_of s o D /\
  view_ false s w o (w_buf (wr s w)) (w_pos (wr s w)) (w_fpos (wr s w)) D /\ (st -> fresh w o s -> w_buf (wr s w) = D).
Proof.
  intros [C1 C2 C3 C4 C5 C6 C7 (D & C8 & C9)] Ho. exists D. split; [exact C8|]. split; [|exact C9]. constructor; auto. discriminate.
Qed.
Lemma view_calm w o st st' B P F s : calm w o st s -> view s w o B P F B -> calm w o st' s /\ fresh w o s.
Proof.
  intros [C1 C2 C3 C4 C5 C6 C7 _] V. split; [|apply (v_epoch _ _ _ _ _ _ _ _ V eq_refl)]. constructor; auto. exists B. split; [apply (v_data _ _ _ _ _ _ _ _ V)|].
  intros _ _. apply (v_buf _ _ _ _ _ _ _ _ V).
Qed.
Lemma flush_open w s : fst (flush w s) = Ok tt -> is_open s w = true.
Proof. unfold flush, check_open, bind at 1 2, gets. destruct (is_open s w); [reflexivity|discriminate]. Qed.
Lemma flush_ok w o st st' s : calm w o st s -> w_update (wr s w) = true -> fst (flush w s) = Ok tt -> calm w o st' (snd (flush w s)).
Proof.
  intros C Hu Hok. destruct (calm_view _ _ _ _ C (flush_open _ _ Hok)) as (D & _ & V & _).
  pose proof (wp_flush _ _ _ _ _ _ _ _ V Hu (ca_append _ _ _ _ C)) as K. unfold wp in K. destruct (U_flush w o st True w s C) as [C' _].
  destruct K as [(E & _)|(_ & V' & _)]; [rewrite Hok in E; discriminate E|]. apply (view_calm _ _ _ _ _ _ _ _ C' V').
Qed.
(** ** Not updatable: nothing is written *)
Lemma file_write_ro w d s : w_update (wr s w) = false -> snd (file_write w d s) = s.
Proof.
  intros Hu. unfold file_write, io_enter, wget, check_open, io_raise, bind, gets, ret, raise, raise_os. destruct (w_kind (wr s w)); try reflexivity.
  destruct (is_large s _); [reflexivity|]. destruct (is_open s w); [|reflexivity]. rewrite Hu. cbn [negb].
  destruct (w_raw (wr s w)); [destruct (c_win (f_cfg s))|]; cbn; try reflexivity. destruct (nonempty d); reflexivity.
Qed.
Lemma file_truncate_ro w n s : w_update (wr s w) = false -> snd (file_truncate w n s) = s.
Proof.
  intros Hu. unfold file_truncate, io_enter, wget, check_open, io_raise, bind, gets, ret, raise, raise_os. destruct (w_kind (wr s w)); try reflexivity.
  destruct (is_large s _); [reflexivity|]. destruct (is_open s w); [|reflexivity]. rewrite Hu. cbn [negb].
  destruct (w_raw (wr s w)); [destruct (c_win (f_cfg s))|]; cbn; try reflexivity. destruct n; reflexivity.
Qed.
(** ** os.write through a calm handle *)
Definition os_write_to (w : wid) (d : str) : M Z :=
  wmod w (fun y => ww_raw y true) ;;; sync_io w ;;; update_flush_pos w ;;; file_write w d ;;; flush w ;;; ret (Z.of_nat (length d)).
Lemma os_write_eq fd d s w : get_open_file s fd = Ok w -> w_kind (wr s w) = WFile -> os_write fd d s = os_write_to w d s.
Proof. intros H K. unfold os_write, bind at 1 2, lift, wget, gets. rewrite H. cbv beta iota. rewrite K. reflexivity. Qed.
Lemma calm_raw w o st s : calm w o st s -> calm w o st (mod_wr s w (fun y => ww_raw y true)).
Proof. intros C. apply (U_raw w o st True w s C). Qed.
Lemma wr_hst s s' v : hst s s' -> wstat (wr s' v) = wstat (wr s v).
Proof. intros H. apply H. Qed.
Lemma stat_flags x y : wstat x = wstat y -> w_update x = w_update y /\ w_read x = w_read y /\ w_append x = w_append y /\ w_bufsize x = w_bufsize y /\ w_fd x = w_fd y.
Proof. unfold wstat. intros E. injection E as E1 E2 E3 E4 E5 E6 E7 E8 E9. auto. Qed.
Lemma wp_os_write w o st s d : calm w o st s -> is_open s w = true -> w_update (wr s w) = true ->
  wp (os_write_to w d) s (fun r s' => (r = nospc /\ ~ roomy s o) \/
    (r = Ok (Z.of_nat (length d)) /\ exists B, (st -> bytes_of s o B) /\
       let P := w_pos (wr s w) in view s' w o (overwrite B P d) (P + length d) (P + length d) (overwrite B P d))).
Proof.
  intros C0 Ho Hu. unfold os_write_to. apply wp_bind_wmod. set (s0 := mod_wr s w _).
  assert (C : calm w o st s0) by apply calm_raw, C0. assert (H0 : hst s s0) by (apply (hs_wmod w (fun y => ww_raw y true)); reflexivity).
  assert (Ob0 : forall x, ob s0 x = ob s x) by reflexivity. assert (Hm0 : f_mounts s0 = f_mounts s) by reflexivity.
  assert (P0 : w_pos (wr s0 w) = w_pos (wr s w)) by (unfold s0; rewrite wr_mod_same; reflexivity). clearbody s0.
  apply wp_bind. apply (wp_conseq _ s0 (fun r s1 => r = Ok tt /\ calm w o st s1 /\ fresh w o s1 /\ w_pos (wr s1 w) = w_pos (wr s0 w) /\ f_heap s1 = f_heap s0 /\ hst s0 s1 /\ roomy s1 o = roomy s0 o)).
  { eapply wp_conseq; [apply wp_and; [apply calm_sync, C|]|].
    - instantiate (1 := fun _ s' => f_mounts s' = f_mounts s0). clear. revert s0.
      assert (K : keeps (fun s s' : fs => f_mounts s' = f_mounts s) (sync_io w)).
      { apply (@ir_sync (fun s s' : fs => f_mounts s' = f_mounts s)); [constructor; [intros x; reflexivity|intros x y z H1 H2; congruence]|]. intros x y E. rewrite E. reflexivity. }
      exact K.
    - cbv beta. intros r s1 ((E1 & E2 & E3 & E4 & E5 & E6) & E7). do 6 (split; [assumption|]). unfold roomy. rewrite E7.
      assert (Eo : ob s1 o = ob s0 o) by (unfold ob; rewrite E5; reflexivity). rewrite Eo. reflexivity. }
  intros r s1 (-> & C1 & F1 & P1 & Hh1 & H1 & R1). unfold update_flush_pos. apply wp_bind_wmod. set (s2 := mod_wr s1 w _).
  assert (H2 : hst s1 s2) by (apply (hs_wmod w (fun x => ww_fpos x (w_pos x))); reflexivity).
  assert (Hall : hst s s2) by (etransitivity; [exact H0|etransitivity; eassumption]).
  assert (Ho1 : is_open s1 w = true) by (rewrite (is_open_hst s s1 w); [exact Ho|etransitivity; [exact H0|exact H1]]).
  destruct (calm_view _ _ _ _ C1 Ho1) as (D & HD & V & HB). specialize (fun K => HB K F1).
  assert (V2 : view s2 w o (w_buf (wr s1 w)) (w_pos (wr s1 w)) (w_pos (wr s1 w)) D).
  { assert (V0 : view s1 w o (w_buf (wr s1 w)) (w_pos (wr s1 w)) (w_fpos (wr s1 w)) D) by (destruct V; constructor; auto).
    apply (view_set _ _ _ _ _ _ _ _ (fun x => ww_fpos x (w_pos x)) V0); reflexivity. }
  assert (R2 : roomy s2 o = roomy s o).
  { transitivity (roomy s1 o); [reflexivity|]. rewrite R1. unfold roomy. rewrite Hm0, Ob0. reflexivity. }
  destruct (stat_flags _ _ (wr_hst _ _ w Hall)) as (Fu & _ & Fa & _).
  assert (Hu2 : w_update (wr s2 w) = true) by (rewrite Fu; exact Hu). assert (Ha2 : w_append (wr s2 w) = false) by (rewrite Fa; apply C0).
  set (B := w_buf (wr s1 w)) in *. set (P := w_pos (wr s1 w)) in *.
  assert (EP : P = w_pos (wr s w)) by (exact (eq_trans P1 P0)).
  assert (HBs : st -> bytes_of s o B). { intros K. unfold bytes_of. rewrite <- Ob0. unfold ob. rewrite <- Hh1. fold (ob s1 o). rewrite HB; [exact HD|exact K]. }
  clearbody s2 B P. clear V HB HD.
  apply wp_bind. eapply wp_conseq; [apply (wp_file_write _ _ _ _ _ _ _ _ d V2 Hu2 Ha2)|]. cbv beta.
  intros r s3 [(-> & Hr)|((-> & V3) & I3)]; [left; split; [reflexivity|rewrite <- R2; exact Hr]|].
  assert (V3' : exists F D', view s3 w o (bw B P d) (P + length d) F D').
  { unfold written in V3. replace (Z.of_nat (P + length d) - Z.of_nat P)%Z with (Z.of_nat (length d)) in V3 by lia.
    destruct (w_bufsize (wr s2 w) <? Z.of_nat (length d))%Z; cbn [negb] in V3; eauto. }
  destruct V3' as (F & D' & V3'). pose proof (iow_flags _ _ _ I3) as (Gu & Ga & _).
  apply wp_bind. eapply wp_conseq; [apply (wp_flush _ _ _ _ _ _ _ _ V3'); congruence|]. cbv beta.
  intros r s4 [(-> & Hr)|(-> & V4 & I4)].
  - left. split; [reflexivity|]. rewrite <- R2. intros K. apply Hr. apply (roomy_iow _ _ _ _ I3), K.
  - right. apply wp_ret. split; [reflexivity|]. exists B. split; [exact HBs|]. cbv zeta. rewrite <- EP, overwrite_bw. exact V4.
Qed.
(** ** The handles of the same file follow a flush *)
Section Follow.
Variables (w : wid) (o : oid) (st : Prop).
Definition R2 (s s' : fs) : Prop := hst s s' /\ U w o st False s s'.
Global Instance R2_pre : PreOrder R2.
Proof. split; [intros s; split; reflexivity|]. intros a b c [H1 H2] [K1 K2]. split; etransitivity; eassumption. Qed.
Lemma R2_bind {A B} (m : M A) (k : A -> M B) s (Q : res B -> fs -> Prop) : keeps hst m -> keeps (U w o st False) m ->
  (forall a s1, R2 s s1 -> wp (k a) s1 Q) -> (forall e s1, Q (Err e) s1) -> wp (bind m k) s Q.
Proof. intros H K Hk He. apply wp_bind. unfold wp. destruct (fst (m s)) eqn:E; [apply Hk; split; [apply H|apply K]|apply He]. Qed.
Lemma sync_else v : v <> w -> keeps (fun s s' : fs => f_heap s' = f_heap s /\ wr s' w = wr s w) (sync_io v).
Proof.
  intros N. assert (PR : PreOrder (fun s s' : fs => f_heap s' = f_heap s /\ wr s' w = wr s w)).
  { constructor; [intros x; auto|]. intros a b c [A1 A2] [B1 B2]. split; congruence. }
  assert (Hw : forall f, keeps (fun s s' : fs => f_heap s' = f_heap s /\ wr s' w = wr s w) (wmod v f)).
  { intros f s. split; [reflexivity|]. apply wr_mod_other. auto. }
  unfold sync_io, set_stream_contents, wget. kr; apply Hw.
Qed.
Lemma for_each_fresh l : forall s, calm w o st s -> In w l \/ fresh w o s -> wp (for_each l sync_io) s (fun r s' => r = Ok tt -> fresh w o s').
Proof.
  induction l as [|v l IH]; intros s C H; cbn [for_each].
  - apply wp_ret. intros _. destruct H as [[]|H]. exact H.
  - destruct (Nat.eq_dec v w) as [->|N].
    + apply wp_bind. eapply wp_conseq; [apply calm_sync, C|]. cbv beta. intros r s1 (-> & C1 & F1 & _). apply IH; auto.
    + apply wp_bind. eapply wp_conseq; [apply wp_and; [apply (wp_keeps _ _ _ (U_sync w o st True v))|apply (wp_keeps _ _ _ (sync_else v N))]|]. cbv beta.
      intros r s1 (H1 & H2 & H3). destruct (H1 C) as [C1 _]. destruct r as [[]|e]; [|discriminate]. apply IH; [exact C1|].
      destruct H as [[E|H]|H]; [contradiction (N E)|auto|]. right. unfold fresh, ob. rewrite H2, H3. exact H.
Qed.
Lemma related_hst s s' v a : hst s s' -> related s' v a = related s v a.
Proof.
  intros (H1 & _ & _ & H4). unfold related. rewrite H1. apply filter_ext. intros x.
  pose proof (H4 x) as Ex. pose proof (H4 v) as Ev. unfold wstat in Ex, Ev. injection Ex as -> -> -> _ _ _ _ _ _. injection Ev as _ -> _ _ _ _ _ _ _. reflexivity.
Qed.
Lemma flush_fresh v s : v <> w -> calm w o st s -> w_update (wr s v) = true -> In w (related s v false) ->
  wp (flush v) s (fun r s' => r = Ok tt -> fresh w o s').
Proof.
  intros N C Hu Hin. assert (N' : loose w st False v) by (intros E; contradiction (N E)). unfold flush. apply R2_bind; [apply hs_check|apply U_check| |discriminate].
  intros _ s1 [H1 U1]. apply wp_bind_wget. pose proof (wr_hst _ _ v H1) as E1. destruct (stat_flags _ _ E1) as (F1 & _). rewrite F1, Hu. cbn [negb].
  apply R2_bind; [|shelve| |discriminate]. { hs; first [apply hs_sync|apply hs_stream]. }
  Unshelve. 2:{ unfold wget. kr; first [apply U_sync|apply U_stream, N']. }
  intros cnt s2 [H2 U2]. apply R2_bind; [apply hs_wmod; reflexivity|apply U_wmod; intros E; contradiction (N E)| |discriminate].
  intros _ s3 [H3 U3]. apply R2_bind; [apply hs_set_contents|apply U_set_contents| |discriminate].
  intros ch s4 [H4 U4]. apply R2_bind; [|shelve| |discriminate]. { hs. }
  Unshelve. 2:{ kr; [apply U_wmod; intros E; contradiction (N E)|]. apply U_times. let y := fresh in intros y; destruct y; reflexivity. }
  intros _ s5 [H5 U5]. wstep. apply R2_bind; [apply hs_wmod; reflexivity|apply U_wmod; intros E; contradiction (N E)| |discriminate].
  intros _ s6 [H6 U6]. unfold flush_related. wstep.
  assert (H : hst s s6) by (repeat (etransitivity; [eassumption|]); reflexivity).
  apply for_each_fresh.
  - apply U6, U5, U4, U3, U2, U1, C.
  - left. rewrite (related_hst _ _ v false H). exact Hin.
Qed.
Lemma os_write_fresh v d s : v <> w -> calm w o st s -> w_update (wr s v) = true -> In w (related s v false) ->
  wp (os_write_to v d) s (fun r s' => r = Ok (Z.of_nat (length d)) -> fresh w o s').
Proof.
  intros N C Hu Hin. assert (N' : loose w st False v) by (intros E; contradiction (N E)). unfold os_write_to, update_flush_pos.
  apply R2_bind; [apply hs_wmod; reflexivity|apply U_wmod; intros E; contradiction (N E)| |discriminate]. intros _ s1 [H1 U1].
  apply R2_bind; [apply hs_sync|apply U_sync| |discriminate]. intros _ s2 [H2 U2].
  apply R2_bind; [apply hs_wmod; reflexivity|apply U_wmod; intros E; contradiction (N E)| |discriminate]. intros _ s3 [H3 U3].
  apply R2_bind; [apply hs_file_write|apply U_file_write, N'| |discriminate]. intros _ s4 [H4 U4].
  assert (H : hst s s4) by (repeat (etransitivity; [eassumption|]); reflexivity).
  apply wp_bind. eapply wp_conseq; [apply (flush_fresh v s4 N)|].
  - apply U4, U3, U2, U1, C.
  - destruct (stat_flags _ _ (wr_hst _ _ v H)) as (F1 & _). congruence.
  - rewrite (related_hst _ _ v false H). exact Hin.
  - cbv beta. intros r s5 K. destruct r as [[]|e]; [|discriminate]. apply wp_ret. intros _. apply K. reflexivity.
Qed.
End Follow.
