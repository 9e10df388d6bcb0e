(** * Text handles: what a text write does to the buffer and the file. *)
From Verif Require Import IoSess Gen Limits IoApp IoFrame GraphIo PropIo.
From Verif Require Export TextModel.
Open Scope nat_scope.

Lemma hs_text_write tm w t : keeps hst (text_write tm w t).
Proof.
  unfold text_write. unfold wget in *. kr; try first [apply hs_wmod; intros; reflexivity|apply hs_io_enter|apply hs_io_raise|apply hs_bwrite|apply hs_bseek|apply hs_btrunc|apply hs_try_flush].
Qed.
Lemma text_write_keeps tm w t : keeps gsame (text_write tm w t).
Proof. unfold text_write. keepsf. Qed.
Lemma rl_text_write tm w t : keeps RL (text_write tm w t).
Proof.
  assert (Hh : forall s s', handles_only s s' -> RL s s') by apply (fp_handles _ _ _ _ (fp_core _ _ _ _ rl_prims)).
  assert (Ht : forall o f, times_only f -> keeps RL (mod_obj o f)) by apply (fp_times _ _ _ _ (fp_core _ _ _ _ rl_prims)).
  assert (Hc : forall o c, keeps RL (set_contents o c)) by apply (gn_set_contents _ _ _ (fp_core _ _ _ _ rl_prims)).
  unfold text_write. unfold wget in *.
  kr; try first [apply (ir_wmod Hh)|apply (ir_io_enter Hh)|apply ir_io_enter|apply ir_io_raise|apply (ir_bwrite Hh)|apply (ir_bseek Hh)|apply (ir_btrunc Hh)|apply (ir_try_flush Hh Ht Hc)].
Qed.
Lemma text_writes_keeps (R : fs -> fs -> Prop) {HR : PreOrder R} tm w : (forall t, keeps R (text_write tm w t)) -> forall ts, keeps R (text_writes tm w ts).
Proof. intros H. induction ts as [|t ts IH]; cbn [text_writes]; kr; [apply H|apply IH]. Qed.

Definition newlines (t : text) : bool := existsb (N.eqb LF) t.

(** a text write through a handle at the end of its buffer *)
Lemma wp_text_write tm w o s B F D t d : view s w o B (length B) F D -> w_update (wr s w) = true -> w_append (wr s w) = false ->
  encode (tm_codec tm) (nl_write (tm_nl tm) t) = Some d ->
  wp (text_write tm w t) s (fun r s' => ends s o w r s' (r = Ok (Z.of_nat (length t)) /\
    exists F' D', view s' w o (B ++ d) (length (B ++ d)) F' D' /\ (tm_line tm = true -> newlines t = true -> D' = B ++ d))).
Proof.
  intros V Hu Ha Hd. unfold text_write. apply (wp_io_enter true w o s B (length B) F D); [exact V|]. rewrite Hu, Ha, Hd. cbn [negb].
  apply (wp_bwrite true w o s B (length B) F D); [exact V|]. intros s1 V1 I1. apply wp_bind_wget.
  pose proof (iow_flags _ _ _ I1) as (F1 & F2 & F3 & F4 & _). rewrite bw_end in V1.
  rewrite (v_pos _ _ _ _ _ _ _ _ V1), (v_fpos _ _ _ _ _ _ _ _ V1), (v_pos _ _ _ _ _ _ _ _ V), F4.
  replace (Z.of_nat (length B + length d) - Z.of_nat (length B))%Z with (Z.of_nat (length d)) by lia.
  rewrite <- app_length in *. fold (newlines t). destruct (tm_line tm && newlines t) eqn:El.
  - rewrite !orb_true_r. apply wp_bind. apply wp_bind, wp_ret. cbv beta iota. apply wp_bind.
    eapply wp_conseq; [apply (wp_try_flush true w o s1 _ _ _ _ _ V1); congruence|]. cbv beta.
    intros r s2 [(-> & Hr)|((-> & V2) & I2)].
    + left. split; [reflexivity|]. intros H; apply Hr, (roomy_iow _ _ _ o I1), H.
    + apply wp_ret. apply wp_bind, wp_ret. cbv beta iota. apply wp_ret. right. split; [|etransitivity; eassumption].
      split; [reflexivity|]. exists (length (B ++ d)), (B ++ d). auto.
  - rewrite !orb_false_r. assert (Hno : tm_line tm = true -> newlines t = true -> False) by (intros A C; rewrite A, C in El; discriminate El).
    destruct (_ <? _ - Z.of_nat F)%Z.
    2:{ apply wp_bind, wp_ret. cbv beta iota. apply wp_bind, wp_ret. cbv beta iota. apply wp_ret. right. split; [|exact I1].
        split; [reflexivity|]. exists F, D. split; [exact V1|]. intros A C. destruct (Hno A C). }
    destruct (_ <? Z.of_nat (length d))%Z.
    + apply wp_bind. apply wp_bind, wp_ret. cbv beta iota. apply wp_bind.
      eapply wp_conseq; [apply (wp_try_flush true w o s1 _ _ _ _ _ V1); congruence|]. cbv beta.
      intros r s2 [(-> & Hr)|((-> & V2) & I2)].
      * left. split; [reflexivity|]. intros H; apply Hr, (roomy_iow _ _ _ o I1), H.
      * apply wp_ret. apply wp_bind, wp_ret. cbv beta iota. apply wp_ret. right. split; [|etransitivity; eassumption].
        split; [reflexivity|]. exists (length (B ++ d)), (B ++ d). auto.
    + apply wp_bind. apply wp_bind. apply (wp_bseek true w o s1 _ _ _ _ _ _ _ _ V1). rewrite bio_seek_set. intros s2 V2 I2.
      rewrite <- (bind_ret_wp (btrunc_here w)). apply (wp_btrunc true w o s2 _ _ _ _ _ _ V2). intros s3 V3 I3. apply wp_ret. cbv beta iota.
      assert (I : iow w s s3) by (etransitivity; [exact I1|etransitivity; eassumption]).
      pose proof (iow_flags _ _ _ I) as (G1 & G2 & _).
      apply wp_bind. eapply wp_conseq; [apply (wp_try_flush true w o s3 _ _ _ _ _ V3); congruence|]. cbv beta.
      intros r s4 [(-> & Hr)|((-> & V4) & I4)].
      * left. split; [reflexivity|]. intros H; apply Hr, (roomy_iow _ _ _ o I), H.
      * rewrite <- (bind_ret_wp (bwrite w d)). apply (wp_bwrite true w o s4 _ _ _ _ _ _ _ V4). intros s5 V5 I5. apply wp_ret. cbv beta iota.
        apply wp_bind, wp_ret. cbv beta iota. apply wp_ret. right.
        split; [|etransitivity; [exact I|etransitivity; eassumption]]. split; [reflexivity|].
        unfold bio_truncate in V5. rewrite firstn_app, firstn_all, Nat.sub_diag, app_nil_r in V5. cbn [firstn] in V5. rewrite bw_end, <- app_length in V5.
        eexists _, _. split; [exact V5|]. intros A C. destruct (Hno A C).
Qed.

Lemma encode_app cd a b : encode cd (a ++ b) = match encode cd a, encode cd b with Some x, Some y => Some (x ++ y) | _, _ => None end.
Proof.
  induction a as [|c a IH]; [cbn [app encode]; destruct (encode cd b); reflexivity|]. cbn [app encode]. rewrite IH.
  destruct (cd_enc cd c); [|reflexivity]. destruct (encode cd a); [|reflexivity]. destruct (encode cd b); [|reflexivity]. rewrite app_assoc. reflexivity.
Qed.
Lemma nl_write_app nl a b : nl_write nl (a ++ b) = nl_write nl a ++ nl_write nl b.
Proof. destruct nl; cbn [nl_write]; [reflexivity|reflexivity|reflexivity|apply map_app|apply flat_map_app]. Qed.
(** the bytes of the texts together are the bytes of each in turn *)
Lemma encode_cons cd nl t ts E : encode cd (nl_write nl (concat (t :: ts))) = Some E ->
  exists d E', encode cd (nl_write nl t) = Some d /\ encode cd (nl_write nl (concat ts)) = Some E' /\ E = d ++ E'.
Proof.
  cbn [concat]. rewrite nl_write_app, encode_app. destruct (encode cd (nl_write nl t)) as [d|]; [|discriminate].
  destruct (encode cd (nl_write nl (concat ts))) as [E'|]; [|discriminate]. intros [= <-]. eauto.
Qed.

(** any number of text writes *)
Lemma text_writes_spec tm w o ts : forall s B F D E, view s w o B (length B) F D -> w_update (wr s w) = true -> w_append (wr s w) = false ->
  encode (tm_codec tm) (nl_write (tm_nl tm) (concat ts)) = Some E ->
  wp (text_writes tm w ts) s (fun r s' => ends s o w r s' (r = Ok (map (fun t => Z.of_nat (length t)) ts) /\
    exists F' D', view s' w o (B ++ E) (length (B ++ E)) F' D')).
Proof.
  induction ts as [|t ts IH]; intros s B F D E V Hu Ha He.
  - cbn [text_writes]. apply wp_ret. right. split; [|reflexivity]. cbn [concat] in He.
    assert (E = []) as -> by (destruct (tm_nl tm); cbn in He; congruence). rewrite app_nil_r. split; [reflexivity|]. exists F, D. exact V.
  - destruct (encode_cons _ _ _ _ _ He) as (d & E' & Hd & He' & ->). cbn [text_writes]. apply wp_bind.
    eapply wp_conseq; [apply (wp_text_write tm w o s B F D t d V Hu Ha Hd)|]. cbv beta.
    intros r s1 [(-> & Hr)|((-> & F1 & D1 & V1 & L1) & I1)]; [left; auto|].
    pose proof (iow_flags _ _ _ I1) as (U1 & A1 & _). apply wp_bind.
    eapply wp_conseq; [apply (IH s1 (B ++ d) F1 D1 E' V1); congruence|]. cbv beta.
    intros r s2 [(-> & Hr)|((-> & F2 & D2 & V2) & I2)].
    + left. split; [reflexivity|]. intros H; apply Hr, (roomy_iow _ _ _ o I1), H.
    + apply wp_ret. right. split; [|etransitivity; eassumption]. split; [reflexivity|]. rewrite <- app_assoc in V2. exists F2, D2. exact V2.
Qed.
(** through a handle opened for appending *)
Lemma wp_text_app tm w o s R D t d : aview_ true s w o R D -> encode (tm_codec tm) (nl_write (tm_nl tm) t) = Some d ->
  wp (text_write tm w t) s (fun r s' => ends s o w r s' (r = Ok (Z.of_nat (length t)) /\
    exists X R', X ++ R' = R ++ d /\ aview_ true s' w o R' (D ++ X) /\ (tm_line tm = true -> newlines t = true -> R' = []))).
Proof.
  intros V Hd. pose proof V as [A1 A2 A3 A4 A5 A6 A7 A8 A9 A10 A11].
  unfold text_write, io_enter. apply wp_bind, wp_bind_wget. rewrite A1. apply wp_bind_gets. unfold is_large. rewrite A2, A10.
  apply wp_check_open; [exact A3|]. apply wp_ret. rewrite A5, A6, Hd. cbn [negb].
  unfold bwrite at 1. apply wp_bind_wmod. set (f := fun x : wrapper => ww_bufpos x (fst (bio_write (w_buf x) (w_pos x) d)) (snd (bio_write (w_buf x) (w_pos x) d))). set (s1 := mod_wr s w f).
  assert (HB : w_buf (f (wr s w)) = w_buf (wr s w) ++ d /\ w_pos (f (wr s w)) = length (w_buf (wr s w)) + length d).
  { unfold f. cbv zeta. cbn [w_buf w_pos ww_bufpos]. rewrite A7, bio_write_pos. fold (bw (w_buf (wr s w)) (length (w_buf (wr s w))) d). rewrite bw_end. auto. }
  destruct HB as [HB HP].
  assert (V1 : aview_ true s1 w o (R ++ d) D).
  { apply (aview_mod true s w o R D f); [exact V|reflexivity|rewrite HB, HP, app_length; reflexivity|rewrite HB, app_length; change (w_fpos (f (wr s w))) with (w_fpos (wr s w)); lia| |intros E; split; [reflexivity|rewrite HB, (proj2 (A11 E)), app_assoc; reflexivity]].
    rewrite HB. change (w_fpos (f (wr s w))) with (w_fpos (wr s w)). rewrite skipn_app, A9.
    replace (w_fpos (wr s w) - length (w_buf (wr s w))) with 0 by lia. reflexivity. }
  assert (I1 : iow w s s1) by (apply iow_wmod; reflexivity).
  assert (Hs1 : wr s1 w = f (wr s w)) by apply wr_mod_same.
  apply wp_bind_wget. rewrite Hs1.
  apply wp_bind.
  match goal with |- wp ?m s1 ?Q => apply (wp_conseq m s1 (fun r s' => ends s o w r s' (r = Ok tt /\ exists X R', X ++ R' = R ++ d /\ aview_ true s' w o R' (D ++ X) /\ (tm_line tm = true -> newlines t = true -> R' = [])))) end.
  2:{ cbv beta. intros r s2 [(-> & Hr)|((-> & X & R' & HX & V2 & L2) & I2)]; [left; auto|].
      apply wp_bind_wmod. apply wp_ret. right. split; [|etransitivity; [exact I2|apply iow_wmod; reflexivity]].
      split; [reflexivity|]. exists X, R'. split; [exact HX|]. split; [|exact L2]. apply (aview_mod true s2 w o R'); [exact V2|reflexivity|exact (a_pos _ _ _ _ _ _ V2)|exact (a_fpos _ _ _ _ _ _ V2)|exact (a_pend _ _ _ _ _ _ V2)|intros E; split; [reflexivity|exact (proj2 (a_sync _ _ _ _ _ _ V2 E))]]. }
  rewrite HP. change (w_fpos (f (wr s w))) with (w_fpos (wr s w)). change (w_bufsize (f (wr s w))) with (w_bufsize (wr s w)).
  fold (newlines t).
  assert (Fin : forall op, wp (try_flush w op) s1 (fun r s' => match r with
      | Ok a => wp ((fun _ : unit => ret tt) a) s' (fun r s' => ends s o w r s' (r = Ok tt /\ exists X R', X ++ R' = R ++ d /\ aview_ true s' w o R' (D ++ X) /\ (tm_line tm = true -> newlines t = true -> R' = [])))
      | Err x => ends s o w (@Err unit x) s' (@Err unit x = Ok tt /\ exists X R', X ++ R' = R ++ d /\ aview_ true s' w o R' (D ++ X) /\ (tm_line tm = true -> newlines t = true -> R' = [])) end)).
  { intros op. eapply wp_conseq; [apply (wp_try_flush_app true w o s1 _ _ op V1)|]. cbv beta.
    intros r s2 [(-> & Hr)|((-> & V2) & I2)].
    + left. split; [reflexivity|]. intros H; apply Hr, (roomy_iow _ _ _ o I1), H.
    + apply wp_ret. right. split; [|etransitivity; eassumption]. split; [reflexivity|]. exists (R ++ d), []. rewrite app_nil_r. split; [reflexivity|]. split; [exact V2|reflexivity]. }
  destruct (tm_line tm && newlines t) eqn:El.
  { rewrite !orb_true_r. apply wp_bind, wp_ret. cbv beta iota. apply wp_bind. apply Fin. }
  rewrite !orb_false_r. assert (Hno : tm_line tm = true -> newlines t = true -> False) by (intros A C; rewrite A, C in El; discriminate El).
  destruct (_ <? _)%Z.
  2:{ apply wp_ret. right. split; [|exact I1]. split; [reflexivity|]. exists [], (R ++ d). rewrite app_nil_r. split; [reflexivity|]. split; [exact V1|]. intros A C. destruct (Hno A C). }
  destruct (_ <? _)%Z.
  - apply wp_bind, wp_ret. cbv beta iota. apply wp_bind. apply Fin.
  - apply wp_bind. apply wp_bind. unfold bseek at 1. apply wp_bind_wget. rewrite bio_seek_set. apply wp_wmod. cbv beta iota.
    set (s2 := mod_wr s1 w _). unfold btrunc_here. apply wp_wmod. set (s3 := mod_wr s2 w _).
    assert (H3 : w_buf (wr s3 w) = w_buf (wr s w) /\ w_pos (wr s3 w) = length (w_buf (wr s w)) /\ w_fpos (wr s3 w) = w_fpos (wr s w)).
    { unfold s3, s2, s1. rewrite !wr_mod_same. cbn [w_buf w_pos w_fpos ww_bufpos]. rewrite HB, A7. unfold bio_truncate. rewrite firstn_app, firstn_all, Nat.sub_diag.
      cbn [firstn]. rewrite app_nil_r. auto. }
    destruct H3 as (H3 & H4 & H5).
    assert (I3 : iow w s s3). { etransitivity; [exact I1|]. unfold s3, s2. etransitivity; [|apply iow_wmod; reflexivity]. apply iow_wmod; reflexivity. }
    assert (V3 : aview s3 w o R D).
    { pose proof (is_open_hst _ _ w (iw_hst _ _ _ I3)) as Ho. pose proof (iow_stat _ _ _ I3) as Hst. unfold wstat in Hst. injection Hst. intros.
      constructor; rewrite ?H3, ?H4, ?H5; auto; try congruence; discriminate. }
    clearbody s3. clear s2 Fin. apply wp_bind. eapply wp_conseq; [apply (wp_try_flush_app false w o s3 _ _ _ V3)|]. cbv beta.
    intros r s4 [(-> & Hr)|((-> & V4) & I4)].
    + left. split; [reflexivity|]. intros H; apply Hr, (roomy_iow _ _ _ o I3), H.
    + unfold bwrite. apply wp_wmod. right. assert (I : iow w s s4) by (etransitivity; eassumption).
      split; [|etransitivity; [exact I|apply iow_wmod; reflexivity]]. split; [reflexivity|]. exists R, d. split; [reflexivity|].
      split; [|intros A C; destruct (Hno A C)].
      pose proof V4 as [_ _ _ _ _ _ C7 C8 C9 _ C11].
      assert (HC : bw (w_buf (wr s4 w)) (w_pos (wr s4 w)) d = w_buf (wr s4 w) ++ d) by (rewrite C7; apply bw_end).
      apply (aview_mod true s4 w o []); [apply aview_any, V4|reflexivity| | | |]; cbv zeta; cbn [w_buf w_pos w_fpos ww_bufpos]; rewrite ?bio_write_pos; fold (bw (w_buf (wr s4 w)) (w_pos (wr s4 w)) d); rewrite HC, ?app_length; try lia.
      * rewrite skipn_app, C9. replace (w_fpos (wr s4 w) - length (w_buf (wr s4 w))) with 0 by lia. reflexivity.
      * intros _. split; [reflexivity|]. rewrite (proj2 (C11 eq_refl)), app_nil_r. reflexivity.
Qed.
Lemma text_app_spec tm w o ts : forall s R D E, aview_ true s w o R D ->
  encode (tm_codec tm) (nl_write (tm_nl tm) (concat ts)) = Some E ->
  wp (text_writes tm w ts) s (fun r s' => ends s o w r s' (r = Ok (map (fun t => Z.of_nat (length t)) ts) /\
    exists X R', X ++ R' = R ++ E /\ aview_ true s' w o R' (D ++ X))).
Proof.
  induction ts as [|t ts IH]; intros s R D E V He.
  - cbn [text_writes]. apply wp_ret. right. split; [|reflexivity]. cbn [concat] in He.
    assert (E = []) as -> by (destruct (tm_nl tm); cbn in He; congruence). split; [reflexivity|]. exists [], R. rewrite !app_nil_r. auto.
  - destruct (encode_cons _ _ _ _ _ He) as (d & E' & Hd & He' & ->). cbn [text_writes]. apply wp_bind.
    eapply wp_conseq; [apply (wp_text_app tm w o s R D t d V Hd)|]. cbv beta.
    intros r s1 [(-> & Hr)|((-> & X1 & R1 & HX1 & V1 & L1) & I1)]; [left; auto|]. apply wp_bind.
    eapply wp_conseq; [apply (IH s1 R1 (D ++ X1) E' V1 He')|]. cbv beta.
    intros r s2 [(-> & Hr)|((-> & X2 & R2 & HX2 & V2) & I2)].
    + left. split; [reflexivity|]. intros H; apply Hr, (roomy_iow _ _ _ o I1), H.
    + apply wp_ret. right. split; [|etransitivity; eassumption]. split; [reflexivity|]. exists (X1 ++ X2), R2. rewrite <- app_assoc in V2. split; [|exact V2].
      rewrite <- app_assoc, HX2, app_assoc, HX1, <- app_assoc. reflexivity.
Qed.
