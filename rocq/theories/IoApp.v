(** * An open file in append mode. *)
From Verif Require Export IoThm.

(** what is not yet in the file *)
Definition pend (B : str) (F : nat) : str := skipn F B.
(** the state of an appending handle: at the end of its buffer, the flushed part before [F] *)
Record aview_ (e : bool) (s : fs) (w : wid) (o : oid) (R : str) (D : str) : Prop := mkAview {
  a_kind : w_kind (wr s w) = WFile;
  a_obj : w_obj (wr s w) = o;
  a_open : is_open s w = true;
  a_null : o <> devnull_oid;
  a_upd : w_update (wr s w) = true;
  a_app : w_append (wr s w) = true;
  a_pos : w_pos (wr s w) = length (w_buf (wr s w));
  a_fpos : w_fpos (wr s w) <= length (w_buf (wr s w));
  a_pend : skipn (w_fpos (wr s w)) (w_buf (wr s w)) = R;
  a_data : o_body (ob s o) = BFile (Some D);
  a_sync : e = true -> w_epoch (wr s w) = o_epoch (ob s o) /\ w_buf (wr s w) = D ++ R
}.
Notation aview := (aview_ false).
Lemma aview_any e s w o R D : aview_ true s w o R D -> aview_ e s w o R D.
Proof. intros []; constructor; auto. Qed.
Lemma aview_weaken e s w o R D : aview_ e s w o R D -> aview s w o R D.
Proof. intros []; constructor; auto; discriminate. Qed.
(** flush of an appending handle, synced or not: the pending data go to the end *)
Lemma wp_flush_app e w o s R D : aview_ e s w o R D ->
  wp (flush w) s (fun r s' => ends s o w r s' (r = Ok tt /\ aview_ true s' w o [] (D ++ R) /\
     w_fpos (wr s' w) = length (D ++ R) /\ w_buf (wr s' w) = D ++ R)).
Proof.
  intros [A1 A2 A3 A4 A5 A6 A7 A8 A9 A10 A11].
  unfold flush. apply wp_check_open; [exact A3|]. apply wp_bind_wget. rewrite A5, A6. cbn [negb]. rewrite A2, A9.
  assert (HD : forall s', ob s' o = ob s o -> byte_contents s' o = Some D).
  { intros s' E. unfold byte_contents. rewrite (proj2 (Nat.eqb_neq _ _) A4), E, A10. reflexivity. }
  apply wp_bind. apply wp_bind.
  match goal with |- wp (sync_io w) s ?Q => apply (wp_conseq _ s (fun r s' => r = Ok tt /\ iow w s s' /\ ob s' o = ob s o)) end.
  { unfold sync_io. apply wp_bind_wget, wp_bind_gets. rewrite A2. destruct (Nat.eqb _ _); [apply wp_ret; split; [reflexivity|split; reflexivity]|].
    apply wp_bind_gets. rewrite HD by reflexivity. unfold set_stream_contents. apply wp_bind, wp_bind_wget, wp_bind_wmod, wp_wmod, wp_wmod.
    split; [reflexivity|]. split; [|reflexivity]. do 2 (etransitivity; [|apply iow_wmod; reflexivity]). apply iow_wmod; reflexivity. }
  intros r s1 (-> & I1 & E1). apply wp_bind_gets. rewrite (HD _ E1).
  pose proof (iow_flags _ _ _ I1) as (G1 & G2 & _).
  unfold set_stream_contents. set (C := D ++ R). apply wp_bind, wp_bind_wget, wp_bind_wmod, wp_wmod, wp_ret. rewrite G2, A6.
  set (s2 := mod_wr s1 w (fun x => ww_bufpos x [] 0)). set (s3 := mod_wr s2 w (fun y => ww_bufpos y C (length C))).
  assert (I3 : iow w s1 s3) by (etransitivity; [apply iow_wmod|apply iow_wmod]; reflexivity).
  assert (V3 : view_ false s3 w o C (length C) (w_fpos (wr s1 w)) D).
  { pose proof (iow_stat _ _ _ I1) as Hst. pose proof (is_open_hst _ _ w (iw_hst _ _ _ I1)) as Ho1. pose proof (is_open_hst _ _ w (iw_hst _ _ _ I3)) as Ho3.
    constructor; unfold s3, s2; rewrite ?wr_mod_same; cbn [w_kind w_obj w_buf w_pos w_fpos ww_bufpos].
    - unfold wstat in Hst. congruence.
    - rewrite (stat_obj' _ _ Hst). exact A2.
    - fold s2. fold s3. congruence.
    - exact A4.
    - reflexivity.
    - reflexivity.
    - reflexivity.
    - discriminate.
    - change (ob (mod_wr (mod_wr s1 w (fun x => ww_bufpos x [] 0)) w (fun y => ww_bufpos y C (length C))) o) with (ob s1 o). rewrite E1. exact A10. }
  clearbody s3. clear s2.
  unfold update_flush_pos. apply wp_bind_wmod. set (s4 := mod_wr s3 w _). assert (V4 : view_ false s4 w o C (length C) (length C) D).
  { pose proof (view_set _ _ _ _ _ _ _ _ (fun x => ww_fpos x (w_pos x)) V3 ltac:(reflexivity) ltac:(reflexivity)) as K. cbn [w_buf w_pos w_fpos ww_fpos] in K.
    rewrite (v_buf _ _ _ _ _ _ _ _ V3), (v_pos _ _ _ _ _ _ _ _ V3) in K. exact K. }
  assert (I4 : iow w s s4) by (etransitivity; [exact I1|etransitivity; [exact I3|apply iow_wmod; reflexivity]]).
  eapply wp_conseq; [apply (wp_flush_tail false w o s4 _ _ _ _ V4)|]. cbv beta. intros r s5 [(-> & Hr)|(-> & V5 & I5)].
  - left. split; [reflexivity|]. intros H; apply Hr. apply (roomy_iow w s s4 o I4). exact H.
  - assert (I : iow w s s5) by (etransitivity; eassumption). right. split; [|exact I]. split; [reflexivity|].
    pose proof (iow_flags _ _ _ I) as (L1 & L2 & _). destruct V5 as [v_kind0 v_obj0 v_open0 v_null0 v_buf0 v_pos0 v_fpos0 v_epoch0 v_data0].
    split; [|split; assumption]. constructor; auto; try congruence.
    + rewrite v_fpos0, v_buf0. auto.
    + rewrite v_fpos0, v_buf0. apply skipn_all.
    + intros _. split; [apply v_epoch0; reflexivity|]. rewrite app_nil_r. exact v_buf0.
Qed.
Lemma aview_weq s s' w o R D : aview s w o R D -> wr s' w = wr s w -> is_open s' w = is_open s w -> o_body (ob s' o) = o_body (ob s o) -> aview s' w o R D.
Proof. intros [] H1 H2 H3. constructor; rewrite ?H1; congruence. Qed.
Lemma wp_try_flush_app e w o s R D op : aview_ e s w o R D ->
  wp (try_flush w op) s (fun r s' => ends s o w r s' (r = Ok tt /\ aview_ true s' w o [] (D ++ R))).
Proof.
  intros V. unfold try_flush. apply wp_bind_wget. apply wp_catch.
  eapply wp_conseq; [apply (wp_flush_app e w o s R D V)|]. cbv beta. intros r s1 [(-> & Hr)|((-> & V1 & _) & I1)].
  - unfold nospc. match goal with |- wp ?m s1 _ => apply (wp_conseq m s1 (fun r _ => r = nospc)) end; [|cbv beta; intros r s2 ->; left; auto].
    unfold bseek. apply wp_bind, wp_bind_wget. rewrite bio_seek_set. apply wp_wmod. cbv beta iota.
    unfold btrunc_here. apply wp_bind_wmod, wp_bind_wmod. reflexivity.
  - right. split; [split; [reflexivity|exact V1]|exact I1].
Qed.
Lemma aview_mod e s w o R D f R' : aview_ e s w o R D -> (forall x, wstat (f x) = wstat x) ->
  w_pos (f (wr s w)) = length (w_buf (f (wr s w))) -> w_fpos (f (wr s w)) <= length (w_buf (f (wr s w))) ->
  skipn (w_fpos (f (wr s w))) (w_buf (f (wr s w))) = R' ->
  (e = true -> w_epoch (f (wr s w)) = w_epoch (wr s w) /\ w_buf (f (wr s w)) = D ++ R') -> aview_ e (mod_wr s w f) w o R' D.
Proof.
  intros [] Hf H1 H2 H3 H4. pose proof (is_open_hst _ _ w (hs_wmod w f Hf s : hst s (mod_wr s w f))) as Ho. pose proof (Hf (wr s w)) as Hw.
  constructor; rewrite ?wr_mod_same; auto; try congruence; try (unfold wstat in Hw; congruence).
  intros E. destruct (H4 E) as [-> H5]. split; [exact (proj1 (a_sync0 E))|exact H5].
Qed.
(** a write: the pending data and the new ones reach the end of the file or stay pending, in order *)
Lemma wp_write_app e w o s R D d : aview_ e s w o R D ->
  wp (file_write w d) s (fun r s' => ends s o w r s' (r = Ok (Z.of_nat (length d)) /\
    exists X R', X ++ R' = R ++ d /\ aview_ e s' w o R' (D ++ X))).
Proof.
  intros V. pose proof V as [A1 A2 A3 A4 A5 A6 A7 A8 A9 A10 A11].
  unfold file_write, io_enter. apply wp_bind, wp_bind_wget. rewrite A1. apply wp_bind_gets. unfold is_large. rewrite A2, A10.
  apply wp_check_open; [exact A3|]. apply wp_ret. rewrite A5, A6. cbn [negb].
  unfold bwrite at 1. apply wp_bind_wmod. set (f := fun x : wrapper => ww_bufpos x (fst (bio_write (w_buf x) (w_pos x) d)) (snd (bio_write (w_buf x) (w_pos x) d))). set (s1 := mod_wr s w f).
  assert (HB : w_buf (f (wr s w)) = w_buf (wr s w) ++ d /\ w_pos (f (wr s w)) = length (w_buf (wr s w)) + length d).
  { unfold f. cbv zeta. cbn [w_buf w_pos ww_bufpos]. rewrite A7, bio_write_pos. fold (bw (w_buf (wr s w)) (length (w_buf (wr s w))) d). rewrite bw_end. auto. }
  destruct HB as [HB HP].
  assert (V1 : aview_ e s1 w o (R ++ d) D).
  { apply (aview_mod e s w o R D f); [exact V|reflexivity|rewrite HB, HP, app_length; reflexivity|rewrite HB, app_length; change (w_fpos (f (wr s w))) with (w_fpos (wr s w)); lia| |intros E; split; [reflexivity|rewrite HB, (proj2 (A11 E)), app_assoc; reflexivity]].
    rewrite HB. change (w_fpos (f (wr s w))) with (w_fpos (wr s w)). rewrite skipn_app, A9.
    replace (w_fpos (wr s w) - length (w_buf (wr s w))) with 0 by lia. reflexivity. }
  assert (I1 : iow w s s1) by (apply iow_wmod; reflexivity).
  assert (Hs1 : wr s1 w = f (wr s w)) by apply wr_mod_same.
  apply wp_bind_wget. rewrite Hs1.
  apply wp_bind.
  match goal with |- wp ?m s1 ?Q => apply (wp_conseq m s1 (fun r s' => ends s o w r s' (r = Ok tt /\ exists X R', X ++ R' = R ++ d /\ aview_ e s' w o R' (D ++ X)))) end.
  2:{ cbv beta. intros r s2 [(-> & Hr)|((-> & X & R' & HX & V2) & I2)]; [left; auto|].
      apply wp_bind_wmod. apply wp_ret. right. split; [|etransitivity; [exact I2|apply iow_wmod; reflexivity]].
      split; [reflexivity|]. exists X, R'. split; [exact HX|]. apply (aview_mod e s2 w o R'); [exact V2|reflexivity|exact (a_pos _ _ _ _ _ _ V2)|exact (a_fpos _ _ _ _ _ _ V2)|exact (a_pend _ _ _ _ _ _ V2)|intros E; split; [reflexivity|exact (proj2 (a_sync _ _ _ _ _ _ V2 E))]]. }
  rewrite HP. change (w_fpos (f (wr s w))) with (w_fpos (wr s w)). change (w_bufsize (f (wr s w))) with (w_bufsize (wr s w)).
  destruct (_ <? _)%Z.
  2:{ apply wp_ret. right. split; [|exact I1]. split; [reflexivity|]. exists [], (R ++ d). rewrite app_nil_r. auto. }
  destruct (_ <? _)%Z.
  - apply wp_bind, wp_ret. cbv beta iota. apply wp_bind. eapply wp_conseq; [apply (wp_try_flush_app e w o s1 _ _ _ V1)|]. cbv beta.
    intros r s2 [(-> & Hr)|((-> & V2) & I2)].
    + left. split; [reflexivity|]. intros H; apply Hr, (roomy_iow _ _ _ o I1), H.
    + apply wp_ret. right. split; [|etransitivity; eassumption]. split; [reflexivity|]. exists (R ++ d), []. rewrite app_nil_r. split; [reflexivity|apply aview_any, V2].
  - apply wp_bind. apply wp_bind. unfold bseek at 1. apply wp_bind_wget. rewrite bio_seek_set. apply wp_wmod. cbv beta iota.
    set (s2 := mod_wr s1 w _). unfold btrunc_here. apply wp_wmod. set (s3 := mod_wr s2 w _).
    assert (H3 : w_buf (wr s3 w) = w_buf (wr s w) /\ w_pos (wr s3 w) = length (w_buf (wr s w)) /\ w_fpos (wr s3 w) = w_fpos (wr s w)).
    { unfold s3, s2, s1. rewrite !wr_mod_same. cbn [w_buf w_pos w_fpos ww_bufpos]. rewrite HB, A7. unfold bio_truncate. rewrite firstn_app, firstn_all, Nat.sub_diag.
      cbn [firstn]. rewrite app_nil_r. auto. }
    destruct H3 as (H3 & H4 & H5).
    assert (I3 : iow w s s3). { etransitivity; [exact I1|]. unfold s3, s2. etransitivity; [|apply iow_wmod; reflexivity]. apply iow_wmod; reflexivity. }
    assert (V3 : aview s3 w o R D).
    { pose proof (is_open_hst _ _ w (iw_hst _ _ _ I3)) as Ho. pose proof (iow_stat _ _ _ I3) as Hst. unfold wstat in Hst. injection Hst. intros.
      constructor; rewrite ?H3, ?H4, ?H5; auto; try congruence; discriminate. }
    clearbody s3. clear s2. apply wp_bind. eapply wp_conseq; [apply (wp_try_flush_app false w o s3 _ _ _ V3)|]. cbv beta.
    intros r s4 [(-> & Hr)|((-> & V4) & I4)].
    + left. split; [reflexivity|]. intros H; apply Hr, (roomy_iow _ _ _ o I3), H.
    + unfold bwrite. apply wp_wmod. right. assert (I : iow w s s4) by (etransitivity; eassumption).
      split; [|etransitivity; [exact I|apply iow_wmod; reflexivity]]. split; [reflexivity|]. exists R, d. split; [reflexivity|].
      pose proof V4 as [_ _ _ _ _ _ C7 C8 C9 _ C11].
      assert (HC : bw (w_buf (wr s4 w)) (w_pos (wr s4 w)) d = w_buf (wr s4 w) ++ d) by (rewrite C7; apply bw_end).
      apply (aview_mod e s4 w o []); [apply aview_any, V4|reflexivity| | | |]; cbv zeta; cbn [w_buf w_pos w_fpos ww_bufpos]; rewrite ?bio_write_pos; fold (bw (w_buf (wr s4 w)) (w_pos (wr s4 w)) d); rewrite HC, ?app_length; try lia.
      * rewrite skipn_app, C9. replace (w_fpos (wr s4 w) - length (w_buf (wr s4 w))) with 0 by lia. reflexivity.
      * intros _. split; [reflexivity|]. rewrite (proj2 (C11 eq_refl)), app_nil_r. reflexivity.
Qed.

(** ** The read position of a handle is not moved by a flush *)
Definition rkept (s s' : fs) : Prop := forall v, w_rseek (wr s' v) = w_rseek (wr s v) /\ w_rwhence (wr s' v) = w_rwhence (wr s v).
Global Instance rkept_pre : PreOrder rkept.
Proof.
  split; [intros s v; auto|]. intros a b c H K v. destruct (H v) as [H1 H2], (K v) as [K1 K2]. split; congruence.
Qed.
Lemma rk_wmod w f : (forall x, w_rseek (f x) = w_rseek x /\ w_rwhence (f x) = w_rwhence x) -> keeps rkept (wmod w f).
Proof.
  intros H s v. unfold wmod, modify. cbn [snd]. destruct (Nat.eq_dec v w) as [->|E]; [rewrite wr_mod_same; apply H|rewrite wr_mod_other by exact E; auto].
Qed.
Lemma oo_rk {A} (m : M A) : keeps only_objects m -> keeps rkept m.
Proof. intros H s v. pose proof (H s) as K. unfold only_objects in K. rewrite K. split; reflexivity. Qed.
Ltac rk := unfold wget in *; kr; try first [apply rk_wmod; intros; split; reflexivity|apply oo_rk, oo_mod_obj|apply oo_rk, oo_set_contents].
Lemma rk_check w : keeps rkept (check_open w).
Proof. unfold check_open. rk. Qed.
Lemma rk_stream w c : keeps rkept (set_stream_contents w c).
Proof. unfold set_stream_contents. rk. Qed.
Lemma rk_sync w : keeps rkept (sync_io w).
Proof. unfold sync_io. rk. apply rk_stream. Qed.
Lemma rk_for_each l f : (forall x, keeps rkept (f x)) -> keeps rkept (for_each l f).
Proof. intros H. induction l as [|x l IH]; cbn [for_each]; rk; auto. Qed.
Lemma rk_flush w : keeps rkept (flush w).
Proof.
  unfold flush, update_flush_pos. rk; try first [apply rk_check|apply rk_sync|apply rk_stream]. unfold flush_related. rk. apply rk_for_each, rk_sync.
Qed.
Lemma wp_rflush w s : wp (flush w) s (fun _ s' => rkept s s').
Proof. apply rk_flush. Qed.

(** ** seek, tell, read and close of an appending handle *)
Lemma wp_seek_app e w o s R D off wh : aview_ e s w o R D ->
  wp (file_seek w off wh) s (fun r s' => ends s o w r s' (r = Ok tt /\ aview_ true s' w o [] (D ++ R) /\
     w_rseek (wr s' w) = off /\ w_rwhence (wr s' w) = wh)).
Proof.
  intros V. pose proof V as [A1 A2 A3 A4 A5 A6 A7 A8 A9 A10 A11].
  unfold file_seek. apply wp_bind_wget. rewrite A1. apply wp_check_open; [exact A3|]. rewrite A6. cbn [negb]. apply wp_bind_wmod.
  set (s1 := mod_wr s w _). assert (V1 : aview s1 w o R D).
  { apply (aview_mod false s w o R D); [exact (aview_weaken _ _ _ _ _ _ V)|reflexivity|exact A7|exact A8|exact A9|discriminate]. }
  assert (I1 : iow w s s1) by (apply iow_wmod; reflexivity).
  assert (Hr : w_rseek (wr s1 w) = off /\ w_rwhence (wr s1 w) = wh) by (unfold s1; rewrite wr_mod_same; split; reflexivity).
  clearbody s1.
  eapply wp_conseq; [exact (wp_and _ _ _ _ (wp_flush_app false w o s1 R D V1) (wp_rflush w s1))|]. cbv beta.
  intros r s2 [[(-> & Hn)|((-> & V2 & _) & I2)] K].
  - left. split; [reflexivity|]. intros H; apply Hn, (roomy_iow _ _ _ o I1), H.
  - right. split; [|etransitivity; eassumption]. split; [reflexivity|]. split; [exact V2|]. destruct (K w) as [K1 K2]. rewrite K1, K2. exact Hr.
Qed.

Lemma aview_after e s s' w o R D : aview_ e s w o R D -> iow w s s' ->
  w_buf (wr s' w) = w_buf (wr s w) -> w_pos (wr s' w) = w_pos (wr s w) -> w_fpos (wr s' w) = w_fpos (wr s w) -> w_epoch (wr s' w) = w_epoch (wr s w) ->
  o_body (ob s' o) = o_body (ob s o) -> o_epoch (ob s' o) = o_epoch (ob s o) -> aview_ e s' w o R D.
Proof.
  intros [A1 A2 A3 A4 A5 A6 A7 A8 A9 A10 A11] I H1 H2 H3 H4 H5 H6.
  pose proof (is_open_hst _ _ w (iw_hst _ _ _ I)) as Ho. pose proof (iow_stat _ _ _ I) as Hst. unfold wstat in Hst. injection Hst. intros.
  constructor; rewrite ?H1, ?H2, ?H3, ?H4, ?H5, ?H6; auto; congruence.
Qed.
(** where the next read of an appending handle starts: [None] when the position can not be one *)
Definition apos (C : str) (off : Z) (wh : nat) : option nat := bio_seek C (length C) off wh.
Lemma wp_tell_app e w o s R D : aview_ e s w o R D ->
  wp (file_tell w) s (fun r s' => ends s o w r s' (aview_ true s' w o [] (D ++ R) /\
     if Nat.eqb (w_rwhence (wr s w)) 0
     then r = Ok (w_rseek (wr s w)) /\ w_rseek (wr s' w) = w_rseek (wr s w) /\ w_rwhence (wr s' w) = w_rwhence (wr s w)
     else match apos (D ++ R) (w_rseek (wr s w)) (w_rwhence (wr s w)) with
          | None => r = Err ValueErr /\ w_rseek (wr s' w) = w_rseek (wr s w) /\ w_rwhence (wr s' w) = w_rwhence (wr s w)
          | Some p => r = Ok (Z.of_nat p) /\ w_rseek (wr s' w) = Z.of_nat p /\ w_rwhence (wr s' w) = 0
          end)).
Proof.
  intros V. pose proof V as [A1 A2 A3 A4 A5 A6 A7 A8 A9 A10 A11].
  unfold file_tell. apply wp_bind_wget. rewrite A1. apply wp_check_open; [exact A3|]. apply wp_bind.
  eapply wp_conseq; [exact (wp_and _ _ _ _ (wp_flush_app e w o s R D V) (wp_rflush w s))|]. cbv beta.
  intros r s1 [[(-> & Hn)|((-> & V1 & Hf & Hb) & I1)] K]; [left; auto|]. destruct (K w) as [K1 K2].
  apply wp_bind_wget. rewrite (a_app _ _ _ _ _ _ V1), K1, K2. cbn [negb].
  destruct (Nat.eqb_spec (w_rwhence (wr s w)) 0) as [E|E].
  - apply wp_ret. right. split; [|exact I1]. split; [exact V1|]. repeat split; auto; congruence.
  - apply wp_bind. unfold bseek. apply wp_bind_wget. rewrite (a_pos _ _ _ _ _ _ V1), Hb. fold (apos (D ++ R) (w_rseek (wr s w)) (w_rwhence (wr s w))).
    destruct (apos _ _ _) as [p|].
    + apply wp_wmod. apply wp_bind_wget. rewrite wr_mod_same. cbn [w_pos ww_bufpos]. apply wp_bind_wmod. apply wp_bind.
      apply wp_bind_wget. rewrite bio_seek_set. apply wp_wmod. apply wp_ret.
      set (s2 := mod_wr _ w _). assert (I2 : iow w s1 s2) by (unfold s2; do 2 (etransitivity; [|apply iow_wmod; reflexivity]); apply iow_wmod; reflexivity).
      right. split; [|etransitivity; eassumption]. split; [|unfold s2; rewrite !wr_mod_same; repeat split; reflexivity].
      apply (aview_after true s1); [exact V1|exact I2| | | | |reflexivity|reflexivity]; unfold s2; rewrite !wr_mod_same; cbn [w_buf w_pos w_fpos w_epoch ww_bufpos ww_rseek]; try reflexivity.
      rewrite (a_pos _ _ _ _ _ _ V1), Hb. reflexivity.
    + apply wp_raise. right. split; [|exact I1]. split; [exact V1|]. repeat split; congruence.
Qed.
(** read of a handle of mode 'a+', when no other handle interfered *)
Lemma wp_read_app w o s R D n : aview_ true s w o R D -> w_read (wr s w) = true ->
  wp (file_read w n) s (fun r s' => ends s o w r s' (aview_ true s' w o [] (D ++ R) /\
     match apos (D ++ R) (w_rseek (wr s w)) (w_rwhence (wr s w)) with
     | None => r = Err ValueErr /\ w_rseek (wr s' w) = w_rseek (wr s w) /\ w_rwhence (wr s' w) = w_rwhence (wr s w)
     | Some p => let rp := bio_read (D ++ R) p n in r = Ok (fst rp) /\ w_rseek (wr s' w) = Z.of_nat (snd rp) /\ w_rwhence (wr s' w) = 0
     end)).
Proof.
  intros V Hrd. pose proof V as [A1 A2 A3 A4 A5 A6 A7 A8 A9 A10 A11].
  unfold file_read, io_enter. apply wp_bind, wp_bind_wget. rewrite A1. apply wp_bind_gets. unfold is_large. rewrite A2, A10.
  apply wp_check_open; [exact A3|]. apply wp_ret. rewrite Hrd. cbn [negb]. apply wp_bind.
  unfold sync_io at 1. apply wp_bind_wget, wp_bind_gets. rewrite A2, (proj1 (A11 eq_refl)), Nat.eqb_refl. apply wp_ret.
  apply wp_bind. eapply wp_conseq; [exact (wp_and _ _ _ _ (wp_flush_app true w o s R D V) (wp_rflush w s))|]. cbv beta.
  intros r s1 [[(-> & Hn)|((-> & V1 & Hf & Hb) & I1)] K]; [left; auto|]. destruct (K w) as [K1 K2].
  apply wp_bind, wp_bind_gets, wp_bind_gets.
  match goal with |- wp ?m s1 _ => apply (wp_conseq m s1 (fun r s' => r = Ok tt /\ iow w s1 s' /\ aview_ true s' w o [] (D ++ R) /\ wr s' w = wr s1 w)) end.
  { assert (Hi : w_obj (wr s1 w) = o) by exact (a_obj _ _ _ _ _ _ V1).
    destruct (c_win (f_cfg s1)); [apply wp_ret; split; [reflexivity|split; [reflexivity|split; [exact V1|reflexivity]]]|].
    apply wp_mod_obj. assert (It : iow w s1 (mod_ob s1 o (fun z => wo_atime z (f_now s1)))) by (apply iow_times; [exact Hi|intros x; destruct x; reflexivity]).
    split; [reflexivity|]. split; [exact It|]. split; [|reflexivity].
    apply (aview_after true s1); [exact V1|exact It|reflexivity|reflexivity|reflexivity|reflexivity| |]; rewrite ob_mod_same; reflexivity. }
  cbv beta. intros r s2 (-> & I2 & V2 & Ew). assert (I02 : iow w s s2) by (etransitivity; eassumption).
  rewrite A6. apply wp_bind_wget. rewrite Ew, K1, K2. apply wp_bind. unfold bseek. apply wp_bind_wget. rewrite Ew, (a_pos _ _ _ _ _ _ V1), Hb.
  fold (apos (D ++ R) (w_rseek (wr s w)) (w_rwhence (wr s w))). destruct (apos _ _ _) as [p|].
  - apply wp_wmod. apply wp_bind_wget. rewrite wr_mod_same. cbn [w_pos w_buf ww_bufpos]. rewrite Ew, Hb. apply wp_bind_wmod, wp_bind_wmod, wp_ret.
    set (s3 := mod_wr _ w _). assert (I3 : iow w s2 s3) by (unfold s3; do 2 (etransitivity; [|apply iow_wmod; reflexivity]); apply iow_wmod; reflexivity).
    right. split; [|etransitivity; eassumption]. split; [|unfold s3; rewrite !wr_mod_same; repeat split; reflexivity].
    apply (aview_after true s2); [exact V2|exact I3| | | | |reflexivity|reflexivity]; unfold s3; rewrite !wr_mod_same; cbn [w_buf w_pos w_fpos w_epoch ww_bufpos ww_rseek]; try reflexivity.
    rewrite (a_pos _ _ _ _ _ _ V2). reflexivity.
  - apply wp_raise. right. split; [|exact I02]. split; [exact V2|]. rewrite Ew. repeat split; congruence.
Qed.
Lemma wp_close_app e w o s R D : aview_ e s w o R D -> w_raw (wr s w) = false -> w_del (wr s w) = false ->
  wp (close_wrapper w) s (fun r s' => (r = nospc /\ ~ roomy s o) \/
    (r = Ok tt /\ exists s1, aview_ true s1 w o [] (D ++ R) /\ iow w s s1 /\ released s1 s')).
Proof.
  intros V Hraw Hdel. pose proof V as [A1 A2 A3 A4 A5 A6 A7 A8 A9 A10 A11].
  unfold close_wrapper. apply wp_bind_wget. rewrite A1. unfold close_file. apply wp_bind_gets. rewrite A3. cbn [negb].
  apply wp_bind_wget. rewrite A5, Hraw, Hdel. cbn [negb andb]. apply wp_bind. apply wp_bind.
  eapply wp_conseq; [apply (wp_flush_app e w o s R D V)|]. cbv beta. intros r s1 [(-> & Hn)|((-> & V1 & _) & I1)]; [left; auto|].
  apply wp_bind_wget. apply wp_bind_gets.
  match goal with |- wp ?m s1 _ => apply (wp_conseq m s1 (fun r s' => r = Ok tt /\ iow w s1 s' /\ aview_ true s' w o [] (D ++ R) /\ wr s' w = wr s1 w)) end.
  { destruct (_ && _); [|apply wp_ret; split; [reflexivity|split; [reflexivity|split; [exact V1|reflexivity]]]].
    rewrite A2. apply wp_bind_gets, wp_mod_obj. assert (It : iow w s1 (mod_ob s1 o (fun z => wo_mtime z (f_now s1)))) by (apply iow_times; [exact (a_obj _ _ _ _ _ _ V1)|intros x; destruct x; reflexivity]).
    split; [reflexivity|]. split; [exact It|]. split; [|reflexivity].
    apply (aview_after true s1); [exact V1|exact It|reflexivity|reflexivity|reflexivity|reflexivity| |]; rewrite ob_mod_same; reflexivity. }
  cbv beta. intros r s2 (-> & I2 & V2 & Ew). assert (I02 : iow w s s2) by (etransitivity; eassumption).
  apply wp_bind.
  pose proof (iow_flags _ _ _ I02) as (_ & _ & _ & _ & Hc & _ & Hfd). rewrite <- Hc, <- Hfd.
  eapply wp_conseq; [apply (wp_release w s2)|]. cbv beta. intros r s3 (-> & Hrel). apply wp_ret. right. split; [reflexivity|].
  exists s2. auto.
Qed.
