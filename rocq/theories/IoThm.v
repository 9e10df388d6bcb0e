(** * One open file: what its calls do to its buffer, its position and the file. *)
From Verif Require Export FdThm.

Definition nospc {A} : res A := Err (OSErr ENOSPC).
(** the sizes of the mount points stayed *)
Definition totals_same (ms ms' : list (str * mount)) : Prop :=
  forall dev, option_map m_total (mount_for_dev ms' dev) = option_map m_total (mount_for_dev ms dev).
(** the device of [o] is unlimited *)
Definition roomy (s : fs) (o : oid) : Prop :=
  forall m, mount_for_dev (f_mounts s) (o_dev (ob s o)) = Some m -> m_total m = None.
(** everything about an object but its contents, size, epoch and times *)
Definition meta (x : fobj) := (o_name x, o_mode x, o_ino x, o_dev x, o_nlink x, o_uid x, o_gid x, o_parent x, o_xattr x).

Lemma add_used_totals ms dev z : totals_same ms (add_used ms dev z).
Proof.
  intros d. induction ms as [|[k m] ms IH]; cbn [add_used mount_for_dev]; [reflexivity|].
  destruct (opt_nat_eqb (Some (m_idev m)) dev) eqn:E; cbn [mount_for_dev m_idev].
  - destruct (opt_nat_eqb (Some (m_idev m)) d); reflexivity.
  - destruct (opt_nat_eqb (Some (m_idev m)) d); [reflexivity|exact IH].
Qed.
Lemma totals_refl ms : totals_same ms ms. Proof. intros d; reflexivity. Qed.
Lemma totals_trans a b c : totals_same a b -> totals_same b c -> totals_same a c.
Proof. intros H K d. rewrite K. apply H. Qed.

Lemma wp_cdu z dev s : wp (change_disk_usage z dev) s (fun r s' =>
  (r = nospc /\ s' = s /\ ~ (forall m, mount_for_dev (f_mounts s) dev = Some m -> m_total m = None)) \/
  (r = Ok tt /\ s' = set_mounts s (f_mounts s') /\ totals_same (f_mounts s) (f_mounts s'))).
Proof.
  unfold wp, change_disk_usage. destruct (mount_for_dev (f_mounts s) dev) as [m|] eqn:E.
  2:{ right. split; [reflexivity|]. split; [destruct s; reflexivity|apply totals_refl]. }
  assert (K : Ok tt = Ok tt /\ set_mounts s (add_used (f_mounts s) dev z) = set_mounts s (f_mounts (set_mounts s (add_used (f_mounts s) dev z))) /\
     totals_same (f_mounts s) (f_mounts (set_mounts s (add_used (f_mounts s) dev z)))).
  { split; [reflexivity|]. split; [reflexivity|apply add_used_totals]. }
  destruct (m_total m) as [t|] eqn:Et; [|right; exact K].
  destruct (_ <? _)%Z; [|right; exact K]. left. split; [reflexivity|]. split; [reflexivity|]. intros H. specialize (H m eq_refl). congruence.
Qed.

(** ** Writing the contents of an object *)
Record wrote (o : oid) (c : str) (s s' : fs) : Prop := mkWrote {
  wt_rest : s' = set_mounts (set_heap s (f_heap s')) (f_mounts s');
  wt_other : forall x, x <> o -> ob s' x = ob s x;
  wt_meta : meta (ob s' o) = meta (ob s o);
  wt_times : o_atime (ob s' o) = o_atime (ob s o) /\ o_mtime (ob s' o) = o_mtime (ob s o) /\ o_ctime (ob s' o) = o_ctime (ob s o);
  wt_body : o_body (ob s' o) = BFile (Some c);
  wt_size : o_size (ob s' o) = Z.of_nat (length c);
  wt_epoch : o_epoch (ob s o) < o_epoch (ob s' o);
  wt_tot : totals_same (f_mounts s) (f_mounts s')
}.
Lemma ob_mod_same s o f : ob (mod_ob s o f) o = f (ob s o).
Proof. unfold ob, mod_ob. cbn. unfold upd. rewrite Nat.eqb_refl. reflexivity. Qed.
Lemma ob_mod_other s o f x : x <> o -> ob (mod_ob s o f) x = ob s x.
Proof. intros H. unfold ob, mod_ob. cbn. unfold upd. rewrite (proj2 (Nat.eqb_neq _ _) H). reflexivity. Qed.
Lemma ob_mounts s ms x : ob (set_mounts s ms) x = ob s x. Proof. reflexivity. Qed.
Lemma wp_mod_obj o f s (Q : res unit -> fs -> Prop) : Q (Ok tt) (mod_ob s o f) -> wp (mod_obj o f) s Q.
Proof. exact (fun H => H). Qed.

Lemma wp_set_initial o c s : o <> devnull_oid -> is_dirobj s o = false ->
  wp (set_initial_contents o c) s (fun r s' =>
    (r = nospc /\ ~ roomy s o) \/ (r = Ok (body_neqb (o_body (ob s o)) c) /\ wrote o c s s')).
Proof.
  intros Hn Hd. unfold set_initial_contents. rewrite (proj2 (Nat.eqb_neq _ _) Hn). wstep. wstep. wstep.
  apply wp_bind. eapply wp_conseq; [apply wp_cdu|]. cbv beta. intros r s1 [(-> & -> & Hr)|(-> & Hs1 & Ht1)]; [left; split; [reflexivity|exact Hr]|].
  wstep.
  assert (Hb1 : forall x, ob s1 x = ob s x) by (intros x; rewrite Hs1; reflexivity).
  apply wp_bind.
  match goal with |- wp ?m s1 ?Q => apply (wp_conseq m s1 (fun r s' =>
     (r = nospc /\ ~ roomy s o) \/
     (r = Ok tt /\ s' = set_mounts (set_heap s (f_heap s')) (f_mounts s') /\ (forall x, x <> o -> ob s' x = ob s x) /\
      meta (ob s' o) = meta (ob s o) /\ (o_atime (ob s' o) = o_atime (ob s o) /\ o_mtime (ob s' o) = o_mtime (ob s o) /\ o_ctime (ob s' o) = o_ctime (ob s o)) /\
      o_epoch (ob s o) <= o_epoch (ob s' o) /\ totals_same (f_mounts s) (f_mounts s')))) end.
  { destruct (truthy_contents s1 o) eqn:Et; cbn [when].
    2:{ apply wp_ret. right. split; [reflexivity|]. split; [rewrite Hs1; destruct s; reflexivity|].
        split; [intros x _; apply Hb1|]. rewrite Hb1. split; [reflexivity|]. split; [auto|]. split; [lia|exact Ht1]. }
    unfold set_size. wstep. unfold is_dirobj in Hd. rewrite Hb1.
    destruct (o_body (ob s o)) as [es|data] eqn:Eb; [discriminate|]. cbn [Z.ltb Z.compare]. wstep. wstep.
    apply wp_bind. eapply wp_conseq; [apply wp_cdu|]. cbv beta. intros r s2 [(-> & -> & Hr)|(-> & Hs2 & Ht2)].
    - left. split; [reflexivity|]. intros Hro. apply Hr. intros m Hm. rewrite Hb1 in Hm. specialize (Ht1 (o_dev (ob s o))). rewrite Hm in Ht1.
      unfold roomy in Hro. destruct (mount_for_dev (f_mounts s) (o_dev (ob s o))) as [m0|] eqn:Em; [|discriminate Ht1].
      cbn in Ht1. injection Ht1 as Ht1. rewrite Ht1. apply Hro. reflexivity.
    - assert (Hb2 : forall x, ob s2 x = ob s x) by (intros x; rewrite Hs2; exact (Hb1 x)).
      apply wp_mod_obj. right. split; [reflexivity|]. split.
      { rewrite Hs2, Hs1. destruct s; reflexivity. }
      split. { intros x Hx. rewrite ob_mod_other by exact Hx. apply Hb2. }
      rewrite ob_mod_same, Hb2.
      split; [destruct data as [[|]|]; reflexivity|]. split; [destruct data as [[|]|]; auto|].
      split; [destruct data as [[|]|]; cbn; lia|].
      apply (totals_trans _ _ _ Ht1). intros dev. rewrite <- (Ht2 dev). reflexivity. }
  intros r s2 [(-> & Hr)|(-> & Hr)]; [left; auto|]. destruct Hr as (K1 & K2 & K3 & K4 & K5 & K6).
  apply wp_bind, wp_mod_obj. cbv beta iota. apply wp_ret. right. split; [reflexivity|]. constructor.
  - rewrite K1. destruct s; reflexivity.
  - intros x Hx. rewrite ob_mod_other by exact Hx. auto.
  - rewrite ob_mod_same. exact K3.
  - rewrite ob_mod_same. exact K4.
  - rewrite ob_mod_same. reflexivity.
  - rewrite ob_mod_same. reflexivity.
  - rewrite ob_mod_same. cbn. lia.
  - intros dev. rewrite <- K6. reflexivity.
Qed.

(** ** What a call on the handle [w] may change *)
Record iow (w : wid) (s s' : fs) : Prop := mkIow {
  iw_hst : hst s s';
  iw_env : same_env s s';
  iw_next : f_next s' = f_next s /\ f_ino s' = f_ino s /\ f_dev s' = f_dev s;
  iw_other : forall x, x <> w_obj (wr s w) -> ob s' x = ob s x;
  iw_meta : meta (ob s' (w_obj (wr s w))) = meta (ob s (w_obj (wr s w)));
  iw_dir : is_dirobj s' (w_obj (wr s w)) = is_dirobj s (w_obj (wr s w));
  iw_tot : totals_same (f_mounts s) (f_mounts s');
  iw_wraps : forall v, v <> w -> w_obj (wr s v) <> w_obj (wr s w) -> wr s' v = wr s v;
  iw_raw : w_raw (wr s' w) = w_raw (wr s w)
}.
Lemma stat_obj' x y : wstat x = wstat y -> w_obj x = w_obj y.
Proof. unfold wstat. congruence. Qed.
Lemma hst_obj s s' v : hst s s' -> w_obj (wr s' v) = w_obj (wr s v).
Proof. intros (_ & _ & _ & H). apply stat_obj', H. Qed.
Global Instance iow_pre w : PreOrder (iow w).
Proof.
  split.
  - intros s. constructor; auto; try reflexivity. apply totals_refl.
  - intros a b c [A1 A2 A3 A4 A5 A6 A7 A8 A9] [B1 B2 B3 B4 B5 B6 B7 B8 B9].
    pose proof (fun v => hst_obj _ _ v A1) as Ho. rewrite Ho in *. constructor.
    + etransitivity; eassumption.
    + etransitivity; eassumption.
    + destruct A3 as (? & ? & ?), B3 as (? & ? & ?). repeat split; congruence.
    + intros x Hx. rewrite B4, A4 by exact Hx. reflexivity.
    + congruence.
    + congruence.
    + eapply totals_trans; eassumption.
    + intros v Hv Hn. rewrite B8; [apply A8; auto|exact Hv|rewrite Ho; exact Hn].
    + congruence.
Qed.
Lemma iow_wmod w f s : (forall x, wstat (f x) = wstat x) -> (forall x, w_raw (f x) = w_raw x) -> iow w s (mod_wr s w f).
Proof.
  intros H Hr. constructor; auto; try reflexivity.
  - apply (hs_wmod w f H s).
  - repeat split.
  - apply totals_refl.
  - intros v Hv _. unfold wr, mod_wr. cbn. unfold upd. rewrite (proj2 (Nat.eqb_neq _ _) Hv). reflexivity.
  - unfold wr, mod_wr. cbn. unfold upd. rewrite Nat.eqb_refl. apply Hr.
Qed.
Lemma iow_wrote w o c s s' : w_obj (wr s w) = o -> is_dirobj s o = false -> wrote o c s s' -> iow w s s'.
Proof.
  intros Ho Hd [A B C D E F G H]. constructor.
  - rewrite A. unfold hst. auto.
  - rewrite A. unfold same_env. auto 10.
  - rewrite A. auto.
  - rewrite Ho. exact B.
  - rewrite Ho. exact C.
  - rewrite Ho, Hd. unfold is_dirobj. rewrite E. reflexivity.
  - exact H.
  - intros v _ _. rewrite A. reflexivity.
  - rewrite A. reflexivity.
Qed.
Lemma iow_times w o f s : w_obj (wr s w) = o -> times_only f -> iow w s (mod_ob s o f).
Proof.
  intros Ho Hf. constructor; rewrite ?Ho.
  - unfold hst. auto.
  - unfold same_env; auto 10.
  - auto.
  - intros x Hx. apply ob_mod_other, Hx.
  - rewrite ob_mod_same, Hf. reflexivity.
  - unfold is_dirobj. rewrite ob_mod_same, Hf. reflexivity.
  - apply totals_refl.
  - reflexivity.
  - reflexivity.
Qed.
Lemma roomy_iow w s s' o : iow w s s' -> roomy s o <-> roomy s' o.
Proof.
  intros [A1 A2 A3 A4 A5 A6 A7 A8 A9]. assert (Hd : o_dev (ob s' o) = o_dev (ob s o)).
  { destruct (Nat.eq_dec o (w_obj (wr s w))) as [->|Hn]; [unfold meta in A5; congruence|rewrite A4 by exact Hn; reflexivity]. }
  unfold roomy. rewrite Hd. specialize (A7 (o_dev (ob s o))).
  destruct (mount_for_dev (f_mounts s) _) as [m|], (mount_for_dev (f_mounts s') _) as [m'|]; try discriminate A7.
  - cbn in A7. injection A7 as A7. split; intros H x Hx; injection Hx as <-; [rewrite A7|rewrite <- A7]; apply H; reflexivity.
  - split; intros _ x Hx; discriminate Hx.
Qed.

(** ** The view through a handle: buffer [B], position [P], position [F] of the
    last flush, and contents [D] of the file *)
Record view_ (e : bool) (s : fs) (w : wid) (o : oid) (B : str) (P F : nat) (D : str) : Prop := mkView {
  v_kind : w_kind (wr s w) = WFile;
  v_obj : w_obj (wr s w) = o;
  v_open : is_open s w = true;
  v_null : o <> devnull_oid;
  v_buf : w_buf (wr s w) = B;
  v_pos : w_pos (wr s w) = P;
  v_fpos : w_fpos (wr s w) = F;
  v_epoch : e = true -> w_epoch (wr s w) = o_epoch (ob s o);
  v_data : o_body (ob s o) = BFile (Some D)
}.
(** the handle knows of the last change of the contents *)
Notation view := (view_ true).
Lemma view_weaken s w o B P F D : view s w o B P F D -> view_ false s w o B P F D.
Proof. intros []. constructor; auto. Qed.
Lemma view_dir e s w o B P F D : view_ e s w o B P F D -> is_dirobj s o = false.
Proof. intros V. unfold is_dirobj. rewrite (v_data _ _ _ _ _ _ _ _ V). reflexivity. Qed.
Lemma view_bytes e s w o B P F D : view_ e s w o B P F D -> byte_contents s o = Some D.
Proof. intros V. unfold byte_contents. rewrite (proj2 (Nat.eqb_neq _ _) (v_null _ _ _ _ _ _ _ _ V)), (v_data _ _ _ _ _ _ _ _ V). reflexivity. Qed.
Lemma wr_mod_same s w f : wr (mod_wr s w f) w = f (wr s w).
Proof. unfold wr, mod_wr. cbn. unfold upd. rewrite Nat.eqb_refl. reflexivity. Qed.
Lemma wr_mod_other s w f v : v <> w -> wr (mod_wr s w f) v = wr s v.
Proof. intros H. unfold wr, mod_wr. cbn. unfold upd. rewrite (proj2 (Nat.eqb_neq _ _) H). reflexivity. Qed.
Lemma wp_wmod w f s (Q : res unit -> fs -> Prop) : Q (Ok tt) (mod_wr s w f) -> wp (wmod w f) s Q.
Proof. exact (fun H => H). Qed.
Lemma wp_bind_wmod {B} w f (k : unit -> M B) s (Q : res B -> fs -> Prop) : wp (k tt) (mod_wr s w f) Q -> wp (bind (wmod w f) k) s Q.
Proof. exact (fun H => H). Qed.
Lemma wp_bind_wget {B} w (k : wrapper -> M B) s (Q : res B -> fs -> Prop) : wp (k (wr s w)) s Q -> wp (bind (wget w) k) s Q.
Proof. exact (fun H => H). Qed.
Lemma wp_check_open {B} w (k : unit -> M B) s (Q : res B -> fs -> Prop) : is_open s w = true -> wp (k tt) s Q -> wp (bind (check_open w) k) s Q.
Proof. intros H K. unfold wp, check_open, bind, gets in *. rewrite H. exact K. Qed.
Lemma view_bufpos e s w o B P F D B' P' : view_ e s w o B P F D -> view_ e (mod_wr s w (fun x => ww_bufpos x B' P')) w o B' P' F D.
Proof.
  intros V. pose proof (hs_wmod w (fun x => ww_bufpos x B' P') ltac:(reflexivity) s) as K.
  destruct V. constructor; rewrite ?wr_mod_same; auto. rewrite (is_open_hst _ _ _ K). exact v_open0.
Qed.
Lemma view_set e s w o B P F D f : view_ e s w o B P F D -> (forall x, wstat (f x) = wstat x) -> (forall x, w_epoch (f x) = w_epoch x) ->
  view_ e (mod_wr s w f) w o (w_buf (f (wr s w))) (w_pos (f (wr s w))) (w_fpos (f (wr s w))) D.
Proof.
  intros V Hf He. pose proof (hs_wmod w f Hf s) as K.
  destruct V. constructor; rewrite ?wr_mod_same, ?He; auto.
  - specialize (Hf (wr s w)). unfold wstat in Hf. congruence.
  - rewrite (stat_obj' _ _ (Hf (wr s w))). exact v_obj0.
  - rewrite (is_open_hst _ _ _ K). exact v_open0.
Qed.

Lemma wp_sync_noop w o s B P F D : view s w o B P F D -> sync_io w s = (Ok tt, s).
Proof.
  intros V. unfold sync_io, wget, bind, gets. rewrite (v_obj _ _ _ _ _ _ _ _ V), (v_epoch _ _ _ _ _ _ _ _ V eq_refl), Nat.eqb_refl. reflexivity.
Qed.
(** syncing other handles of the same file *)
Lemma wp_sync_other v s D : byte_contents s (w_obj (wr s v)) = Some D -> wp (sync_io v) s (fun r s' =>
  r = Ok tt /\ hst s s' /\ s' = set_wraps s (f_wraps s') /\ forall u, u <> v -> wr s' u = wr s u).
Proof.
  intros HD. unfold sync_io. apply wp_bind_wget. wstep. destruct (Nat.eqb _ _).
  { apply wp_ret. split; [reflexivity|]. split; [reflexivity|]. split; [destruct s; reflexivity|auto]. }
  wstep. rewrite HD. unfold set_stream_contents. apply wp_bind, wp_bind_wget, wp_bind_wmod, wp_wmod, wp_wmod.
  set (f := fun y => ww_bufpos y [] 0).
  set (s1 := mod_wr s v f). set (g := fun y => ww_bufpos y _ _). set (s2 := mod_wr s1 v g). set (h := fun y => ww_epoch y _).
  assert (K1 : hst s s1) by (apply (hs_wmod v f); reflexivity).
  assert (K2 : hst s1 s2) by (apply (hs_wmod v g); reflexivity).
  assert (K3 : hst s2 (mod_wr s2 v h)) by (apply (hs_wmod v h); reflexivity).
  split; [reflexivity|]. split; [do 2 (etransitivity; [eassumption|]); assumption|]. split; [destruct s; reflexivity|].
  intros u Hu. unfold s2, s1. rewrite !wr_mod_other by exact Hu. reflexivity.
Qed.
Lemma wp_sync_list w o D l : forall s, ~ In w l -> (forall v, In v l -> w_obj (wr s v) = o) -> byte_contents s o = Some D ->
  wp (for_each l sync_io) s (fun r s' => r = Ok tt /\ hst s s' /\ s' = set_wraps s (f_wraps s') /\ forall u, ~ In u l -> wr s' u = wr s u).
Proof.
  induction l as [|v l IH]; intros s Hw Hl HD; cbn [for_each].
  - apply wp_ret. split; [reflexivity|]. split; [reflexivity|]. split; [destruct s; reflexivity|auto].
  - apply wp_bind. eapply wp_conseq; [apply (wp_sync_other v s D); rewrite (Hl v (or_introl eq_refl)); exact HD|]. cbv beta.
    intros r s1 (-> & H1 & H2 & H3). eapply wp_conseq; [apply (IH s1)|].
    + intros Hi; apply Hw; right; exact Hi.
    + intros u Hu. rewrite (hst_obj _ _ u H1). apply Hl. right; exact Hu.
    + rewrite H2. exact HD.
    + cbv beta. intros r s2 (-> & K1 & K2 & K3). split; [reflexivity|]. split; [etransitivity; eassumption|]. split.
      * rewrite K2, H2. reflexivity.
      * intros u Hu. rewrite K3, H3; [reflexivity|intros E; apply Hu; left; auto|intros Hi; apply Hu; right; exact Hi].
Qed.
Lemma related_spec s w app v : In v (related s w app) -> v <> w /\ w_obj (wr s v) = w_obj (wr s w).
Proof.
  intros H. unfold related in H. apply filter_In in H. destruct H as [_ H]. apply andb_true_iff in H. destruct H as [H1 H2].
  split; [apply negb_true_iff, Nat.eqb_neq in H1; exact H1|]. destruct (w_kind (wr s v)); try discriminate.
  apply andb_true_iff in H2. apply Nat.eqb_eq, H2.
Qed.
Lemma iow_sync_list w s s' l : hst s s' -> s' = set_wraps s (f_wraps s') -> (forall u, ~ In u l -> wr s' u = wr s u) ->
  (forall v, In v l -> w_obj (wr s v) = w_obj (wr s w)) -> ~ In w l -> iow w s s'.
Proof.
  intros H1 H2 H3 H4 H5. constructor.
  - exact H1.
  - rewrite H2. unfold same_env; auto 10.
  - rewrite H2; auto.
  - intros x _. rewrite H2; reflexivity.
  - rewrite H2; reflexivity.
  - rewrite H2; reflexivity.
  - rewrite H2. apply totals_refl.
  - intros v _ Hn. apply H3. intros Hi. apply Hn, H4, Hi.
  - rewrite H3 by exact H5. reflexivity.
Qed.

Lemma view_open_hst e s s' w o B P F D : view_ e s w o B P F D -> iow w s s' ->
  w_buf (wr s' w) = B -> w_pos (wr s' w) = P -> w_fpos (wr s' w) = F -> w_epoch (wr s' w) = o_epoch (ob s' o) ->
  forall D', o_body (ob s' o) = BFile (Some D') -> view s' w o B P F D'.
Proof.
  intros V I H1 H2 H3 H4 D' H5. destruct V. pose proof (iw_hst _ _ _ I) as Hh. pose proof Hh as (_ & _ & _ & Hw). specialize (Hw w).
  constructor; auto.
  - unfold wstat in Hw. congruence.
  - rewrite (stat_obj' _ _ Hw). exact v_obj0.
  - rewrite (is_open_hst _ _ _ Hh). exact v_open0.
Qed.
(** the second half of flush *)
Lemma wp_flush_tail e w o s B P F D : view_ e s w o B P F D ->
  wp (changed <- set_contents o B ;;
      (if changed : bool then
         win <- gets (fun s => c_win (f_cfg s)) ;;
         if win : bool then wmod w (fun y => ww_changed y true)
         else now <- gets f_now ;; mod_obj o (fun y => wo_mtime (wo_ctime y now) now)
       else ret tt) ;;;
      ep <- gets (fun s => o_epoch (ob s o)) ;;
      wmod w (fun y => ww_epoch y ep) ;;;
      flush_related w) s
   (fun r s' => (r = nospc /\ ~ roomy s o) \/ (r = Ok tt /\ view s' w o B P F B /\ iow w s s')).
Proof.
  intros V. pose proof (view_dir _ _ _ _ _ _ _ _ V) as Hd. pose proof (v_obj _ _ _ _ _ _ _ _ V) as Ho.
  apply wp_bind. unfold set_contents. wstep. rewrite Hd.
  eapply wp_conseq; [apply wp_set_initial; [exact (v_null _ _ _ _ _ _ _ _ V)|exact Hd]|]. cbv beta.
  intros r s1 [(-> & Hr)|(-> & Hw)]; [left; auto|].
  pose proof (iow_wrote w o B s s1 Ho Hd Hw) as I1. destruct Hw as [W1 W2 W3 W4 W5 W6 W7 W8].
  assert (Hwr1 : forall v, wr s1 v = wr s v) by (intros v; rewrite W1; reflexivity).
  apply wp_bind. match goal with |- wp ?m s1 ?Q => apply (wp_conseq m s1 (fun r s' =>
    r = Ok tt /\ iow w s1 s' /\ w_buf (wr s' w) = B /\ w_pos (wr s' w) = P /\ w_fpos (wr s' w) = F /\ o_body (ob s' o) = BFile (Some B))) end.
  { assert (K0 : w_buf (wr s1 w) = B /\ w_pos (wr s1 w) = P /\ w_fpos (wr s1 w) = F).
    { rewrite Hwr1. destruct V. auto. }
    destruct K0 as (K1 & K2 & K3).
    destruct (body_neqb _ _); [|apply wp_ret; split; [reflexivity|]; split; [reflexivity|]; auto].
    wstep. destruct (c_win _).
    - apply wp_wmod. split; [reflexivity|]. split; [apply iow_wmod; reflexivity|]. rewrite wr_mod_same. auto.
    - wstep. apply wp_mod_obj. split; [reflexivity|]. split.
      + apply iow_times; [rewrite (hst_obj _ _ w (iw_hst _ _ _ I1)); exact Ho|intros y; destruct y; reflexivity].
      + rewrite ob_mod_same. auto. }
  intros r s2 (-> & I2 & K1 & K2 & K3 & K4). wstep. apply wp_bind_wmod. set (s3 := mod_wr s2 w _).
  assert (I3 : iow w s2 s3) by (apply iow_wmod; reflexivity).
  assert (I : iow w s s3) by (etransitivity; [exact I1|etransitivity; eassumption]).
  unfold flush_related. wstep.
  assert (Hlo : forall v, In v (related s3 w false) -> w_obj (wr s3 v) = o).
  { intros v Hv. apply related_spec in Hv. destruct Hv as [_ ->]. rewrite (hst_obj _ _ w (iw_hst _ _ _ I)). exact Ho. }
  assert (Hlw : ~ In w (related s3 w false)) by (intros Hi; apply related_spec in Hi; destruct Hi as [Hi _]; congruence).
  eapply wp_conseq; [apply (wp_sync_list w o B)|].
  - exact Hlw.
  - exact Hlo.
  - unfold byte_contents. rewrite (proj2 (Nat.eqb_neq _ _) (v_null _ _ _ _ _ _ _ _ V)). change (ob s3 o) with (ob s2 o). rewrite K4. reflexivity.
  - cbv beta. intros r s4 (-> & L1 & L2 & L3). right. split; [reflexivity|].
    assert (I4 : iow w s3 s4). { apply (iow_sync_list _ _ _ _ L1 L2 L3); [|exact Hlw]. intros v Hv. rewrite (Hlo v Hv), (hst_obj _ _ w (iw_hst _ _ _ I)). symmetry; exact Ho. }
    assert (I5 : iow w s s4) by (etransitivity; eassumption).
    split; [|exact I5]. apply (view_open_hst e s s4 w o B P F D); auto.
    + rewrite L3 by exact Hlw. unfold s3. rewrite wr_mod_same. exact K1.
    + rewrite L3 by exact Hlw. unfold s3. rewrite wr_mod_same. exact K2.
    + rewrite L3 by exact Hlw. unfold s3. rewrite wr_mod_same. exact K3.
    + rewrite L3 by exact Hlw. unfold s3. rewrite wr_mod_same. rewrite L2. reflexivity.
    + rewrite L2. exact K4.
Qed.
(** flush of a handle that cannot write *)
Lemma flush_readonly w s : is_open s w = true -> w_update (wr s w) = false -> flush w s = (Ok tt, s).
Proof. intros H K. unfold flush, check_open, wget, bind, gets, ret. rewrite H. cbv beta iota. rewrite K. reflexivity. Qed.
(** flush of a random access handle *)
Lemma wp_flush e w o s B P F D : view_ e s w o B P F D -> w_update (wr s w) = true -> w_append (wr s w) = false ->
  wp (flush w) s (fun r s' => (r = nospc /\ ~ roomy s o) \/ (r = Ok tt /\ view s' w o B P P B /\ iow w s s')).
Proof.
  intros V Hu Ha. unfold flush. apply wp_check_open; [exact (v_open _ _ _ _ _ _ _ _ V)|]. apply wp_bind_wget. rewrite Hu, Ha. cbn [negb].
  wstep. unfold update_flush_pos. apply wp_bind_wmod.
  set (s1 := mod_wr s w _). assert (V1 : view_ e s1 w o B P P D).
  { pose proof (view_set _ _ _ _ _ _ _ _ (fun x => ww_fpos x (w_pos x)) V ltac:(reflexivity) ltac:(reflexivity)) as K. cbn in K.
    rewrite (v_buf _ _ _ _ _ _ _ _ V), (v_pos _ _ _ _ _ _ _ _ V) in K. exact K. }
  assert (I1 : iow w s s1) by (apply iow_wmod; reflexivity).
  rewrite (v_obj _ _ _ _ _ _ _ _ V), (v_buf _ _ _ _ _ _ _ _ V).
  eapply wp_conseq; [apply (wp_flush_tail e w o s1 B P P D V1)|]. cbv beta. intros r s2 [(-> & Hr)|(-> & V2 & I2)].
  - left. split; [reflexivity|]. intros H; apply Hr. apply (roomy_iow w s s1 o I1). exact H.
  - right. split; [reflexivity|]. split; [exact V2|etransitivity; eassumption].
Qed.
(** flush of an appending handle *)
Lemma wp_flush_append w o s B P F D : view s w o B P F D -> w_update (wr s w) = true -> w_append (wr s w) = true ->
  wp (flush w) s (fun r s' => (r = nospc /\ ~ roomy s o) \/
     (r = Ok tt /\ let B' := D ++ skipn F B in view s' w o B' (length B') (length B') B' /\ iow w s s')).
Proof.
  intros V Hu Ha. unfold flush. apply wp_check_open; [exact (v_open _ _ _ _ _ _ _ _ V)|]. apply wp_bind_wget. rewrite Hu, Ha. cbn [negb].
  apply wp_bind. apply wp_bind. unfold wp at 1. rewrite (wp_sync_noop _ _ _ _ _ _ _ V). cbn [fst snd].
  rewrite (v_obj _ _ _ _ _ _ _ _ V), (v_buf _ _ _ _ _ _ _ _ V), (v_fpos _ _ _ _ _ _ _ _ V). wstep. rewrite (view_bytes _ _ _ _ _ _ _ _ V).
  unfold set_stream_contents. set (B' := D ++ skipn F B). apply wp_bind, wp_bind_wget, wp_bind_wmod, wp_wmod, wp_ret. rewrite Ha.
  set (s1 := mod_wr s w (fun x => ww_bufpos x [] 0)). set (s2 := mod_wr s1 w (fun y => ww_bufpos y B' (length B'))).
  assert (V2 : view s2 w o B' (length B') F D) by (apply (view_bufpos _ s1 w o [] 0), (view_bufpos _ s w o B P), V).
  assert (I2 : iow w s s2) by (etransitivity; [apply iow_wmod|apply iow_wmod]; reflexivity).
  clearbody s2. clear s1.
  unfold update_flush_pos. apply wp_bind_wmod. set (s3 := mod_wr s2 w _). assert (V3 : view s3 w o B' (length B') (length B') D).
  { pose proof (view_set _ _ _ _ _ _ _ _ (fun x => ww_fpos x (w_pos x)) V2 ltac:(reflexivity) ltac:(reflexivity)) as K. cbn in K.
    rewrite (v_buf _ _ _ _ _ _ _ _ V2), (v_pos _ _ _ _ _ _ _ _ V2) in K. exact K. }
  assert (I3 : iow w s s3) by (etransitivity; [exact I2|apply iow_wmod; reflexivity]).
  eapply wp_conseq; [apply (wp_flush_tail true w o s3 _ _ _ _ V3)|]. cbv beta. intros r s4 [(-> & Hr)|(-> & V4 & I4)].
  - left. split; [reflexivity|]. intros H; apply Hr. apply (roomy_iow w s s3 o I3). exact H.
  - right. split; [reflexivity|]. split; [exact V4|etransitivity; eassumption].
Qed.

(** ** The calls of a random access handle *)
Lemma bind_ret_wp {A} (m : M A) s (Q : res A -> fs -> Prop) : wp (bind m ret) s Q = wp m s Q.
Proof. unfold wp, bind. destruct (m s) as [[a|x] s']; reflexivity. Qed.
Lemma wp_io_enter {A} e w o s B P F D (k : wrapper -> M A) (Q : res A -> fs -> Prop) : view_ e s w o B P F D -> wp (k (wr s w)) s Q -> wp (bind (io_enter w) k) s Q.
Proof.
  intros V K. unfold io_enter. apply wp_bind, wp_bind_wget. rewrite (v_kind _ _ _ _ _ _ _ _ V). wstep.
  unfold is_large. rewrite (v_obj _ _ _ _ _ _ _ _ V), (v_data _ _ _ _ _ _ _ _ V).
  apply wp_check_open; [exact (v_open _ _ _ _ _ _ _ _ V)|]. apply wp_ret. exact K.
Qed.
Lemma iow_stat s s' w : iow w s s' -> wstat (wr s' w) = wstat (wr s w).
Proof. intros I. destruct (iw_hst _ _ _ I) as (_ & _ & _ & H). apply H. Qed.
Lemma iow_flags w s s' : iow w s s' -> w_update (wr s' w) = w_update (wr s w) /\ w_append (wr s' w) = w_append (wr s w) /\
  w_read (wr s' w) = w_read (wr s w) /\ w_bufsize (wr s' w) = w_bufsize (wr s w) /\ w_closefd (wr s' w) = w_closefd (wr s w) /\ w_del (wr s' w) = w_del (wr s w) /\ w_fd (wr s' w) = w_fd (wr s w).
Proof. intros I. pose proof (iow_stat _ _ _ I) as H. unfold wstat in H. injection H. intros. repeat split; assumption. Qed.
Definition bw (B : str) (P : nat) (d : str) : str := fst (bio_write B P d).
Lemma bio_write_pos B P d : snd (bio_write B P d) = P + length d.
Proof. destruct d; cbn; lia. Qed.
Lemma wp_bwrite {A} e w o s B P F D d (k : unit -> M A) (Q : res A -> fs -> Prop) : view_ e s w o B P F D ->
  (forall s', view_ e s' w o (bw B P d) (P + length d) F D -> iow w s s' -> wp (k tt) s' Q) -> wp (bind (bwrite w d) k) s Q.
Proof.
  intros V K. unfold bwrite. apply wp_bind_wmod. apply K; [|apply iow_wmod; reflexivity].
  pose proof (view_set _ _ _ _ _ _ _ _ (fun x => let bp := bio_write (w_buf x) (w_pos x) d in ww_bufpos x (fst bp) (snd bp)) V ltac:(reflexivity) ltac:(reflexivity)) as H.
  cbv beta zeta in H. cbn [w_buf w_pos w_fpos ww_bufpos] in H. rewrite (v_buf _ _ _ _ _ _ _ _ V), (v_pos _ _ _ _ _ _ _ _ V), (v_fpos _ _ _ _ _ _ _ _ V), bio_write_pos in H. exact H.
Qed.
Lemma wp_bseek {A} e w o s B P F D off wh (k : unit -> M A) (Q : res A -> fs -> Prop) : view_ e s w o B P F D ->
  match bio_seek B P off wh with
  | Some p => forall s', view_ e s' w o B p F D -> iow w s s' -> wp (k tt) s' Q
  | None => Q (Err ValueErr) s
  end -> wp (bind (bseek w off wh) k) s Q.
Proof.
  intros V K. unfold bseek. apply wp_bind, wp_bind_wget. rewrite (v_buf _ _ _ _ _ _ _ _ V), (v_pos _ _ _ _ _ _ _ _ V).
  destruct (bio_seek B P off wh) as [p|]; [|exact K]. apply wp_wmod. cbv beta iota. apply K; [|apply iow_wmod; reflexivity].
  pose proof (view_set _ _ _ _ _ _ _ _ (fun x => ww_bufpos x (w_buf x) p) V ltac:(reflexivity) ltac:(reflexivity)) as H.
  cbn [w_buf w_pos w_fpos ww_bufpos] in H. rewrite (v_buf _ _ _ _ _ _ _ _ V), (v_fpos _ _ _ _ _ _ _ _ V) in H. exact H.
Qed.
Lemma bio_seek_set B P n : bio_seek B P (Z.of_nat n) 0 = Some n.
Proof. unfold bio_seek. destruct (_ <? _)%Z eqn:E; [apply Z.ltb_lt in E; lia|]. rewrite Nat2Z.id. reflexivity. Qed.
Lemma wp_btrunc {A} e w o s B P F D (k : unit -> M A) (Q : res A -> fs -> Prop) : view_ e s w o B P F D ->
  (forall s', view_ e s' w o (firstn P B) P F D -> iow w s s' -> wp (k tt) s' Q) -> wp (bind (btrunc_here w) k) s Q.
Proof.
  intros V K. unfold btrunc_here. apply wp_bind_wmod. apply K; [|apply iow_wmod; reflexivity].
  pose proof (view_set _ _ _ _ _ _ _ _ (fun x => ww_bufpos x (bio_truncate (w_buf x) (w_pos x)) (w_pos x)) V ltac:(reflexivity) ltac:(reflexivity)) as H.
  cbn [w_buf w_pos w_fpos ww_bufpos] in H. rewrite (v_buf _ _ _ _ _ _ _ _ V), (v_pos _ _ _ _ _ _ _ _ V), (v_fpos _ _ _ _ _ _ _ _ V) in H. exact H.
Qed.
Lemma wp_bind_catch {A B} (m : M A) h (k : A -> M B) s (Q : res B -> fs -> Prop) : wp (catch m h) s (fun r s' => match r with Ok a => wp (k a) s' Q | Err x => Q (Err x) s' end) -> wp (bind (catch m h) k) s Q.
Proof. apply wp_bind. Qed.

(** [specification of outcomes]: the call fails for lack of space, or ends as [K] says *)
Definition ends {A} (s : fs) (o : oid) (w : wid) (r : res A) (s' : fs) (K : Prop) : Prop :=
  (r = nospc /\ ~ roomy s o) \/ (K /\ iow w s s').

Lemma wp_try_flush e w o s B P F D op : view_ e s w o B P F D -> w_update (wr s w) = true -> w_append (wr s w) = false ->
  wp (try_flush w op) s (fun r s' => ends s o w r s' (r = Ok tt /\ view s' w o B P P B)).
Proof.
  intros V Hu Ha. unfold try_flush. apply wp_bind_wget. apply wp_catch.
  eapply wp_conseq; [apply (wp_flush e w o s B P F D V Hu Ha)|]. cbv beta. intros r s1 [(-> & Hr)|(-> & V1 & I1)].
  - unfold nospc. match goal with |- wp ?m s1 _ => apply (wp_conseq m s1 (fun r _ => r = nospc)) end; [|cbv beta; intros r s2 ->; left; auto].
    unfold bseek. apply wp_bind, wp_bind_wget. rewrite bio_seek_set. apply wp_wmod. cbv beta iota.
    unfold btrunc_here. apply wp_bind_wmod, wp_bind_wmod. reflexivity.
  - right. split; [split; [reflexivity|exact V1]|exact I1].
Qed.
Lemma view_any e s w o B P F D : view s w o B P F D -> view_ e s w o B P F D.
Proof. destruct e; [auto|apply view_weaken]. Qed.
(** the buffer, the position of the last flush and the contents after a write *)
Definition written (bs : Z) (B : str) (P F : nat) (D : str) (d : str) : str * nat * str :=
  if negb (bs <? Z.of_nat (P + length d) - Z.of_nat F)%Z then (bw B P d, F, D)
  else if (bs <? Z.of_nat (length d))%Z then (bw B P d, P + length d, bw B P d)
  else let B1 := firstn P (bw B P d) in (bw B1 P d, P, B1).
Lemma ends_trans {A} s o w s1 (r : res A) s2 (K : Prop) : iow w s s1 -> ends s1 o w r s2 K -> ends s o w r s2 K.
Proof.
  intros I [(H1 & H2)|(H1 & H2)]; [left|right].
  - split; [exact H1|]. intros H; apply H2, (roomy_iow _ _ _ o I), H.
  - split; [exact H1|etransitivity; eassumption].
Qed.
Lemma wp_file_write e w o s B P F D d : view_ e s w o B P F D -> w_update (wr s w) = true -> w_append (wr s w) = false ->
  wp (file_write w d) s (fun r s' => ends s o w r s' (r = Ok (Z.of_nat (length d)) /\
    let '(B', F', D') := written (w_bufsize (wr s w)) B P F D d in view_ e s' w o B' (P + length d) F' D')).
Proof.
  intros V Hu Ha. unfold file_write. apply (wp_io_enter e w o s B P F D); [exact V|]. rewrite Hu, Ha. cbn [negb].
  apply (wp_bwrite e w o s B P F D); [exact V|]. intros s1 V1 I1. apply wp_bind_wget.
  pose proof (iow_flags _ _ _ I1) as (F1 & F2 & F3 & F4 & _).
  rewrite (v_pos _ _ _ _ _ _ _ _ V1), (v_fpos _ _ _ _ _ _ _ _ V1), (v_pos _ _ _ _ _ _ _ _ V), F4.
  replace (Z.of_nat (P + length d) - Z.of_nat P)%Z with (Z.of_nat (length d)) by lia. unfold written.
  destruct (_ <? _ - Z.of_nat F)%Z eqn:E1; cbn [negb].
  2:{ apply wp_bind, wp_ret. cbv beta iota. apply wp_bind, wp_ret. cbv beta iota. apply wp_ret. right. auto. }
  destruct (_ <? Z.of_nat (length d))%Z eqn:E2.
  - apply wp_bind. apply wp_bind, wp_ret. cbv beta iota. apply wp_bind. eapply wp_conseq; [apply (wp_try_flush e w o s1 _ _ _ _ _ V1); congruence|]. cbv beta.
    intros r s2 [(-> & Hr)|((-> & V2) & I2)].
    + left. split; [reflexivity|]. intros H; apply Hr, (roomy_iow _ _ _ o I1), H.
    + apply wp_ret. apply wp_bind, wp_ret. cbv beta iota. apply wp_ret. right. split; [split; [reflexivity|apply view_any; exact V2]|etransitivity; eassumption].
  - apply wp_bind. apply wp_bind. apply (wp_bseek e w o s1 _ _ _ _ _ _ _ _ V1). rewrite bio_seek_set. intros s2 V2 I2.
    rewrite <- (bind_ret_wp (btrunc_here w)). apply (wp_btrunc e w o s2 _ _ _ _ _ _ V2). intros s3 V3 I3. apply wp_ret. cbv beta iota.
    assert (I : iow w s s3) by (etransitivity; [exact I1|etransitivity; eassumption]).
    pose proof (iow_flags _ _ _ I) as (G1 & G2 & _).
    apply wp_bind. eapply wp_conseq; [apply (wp_try_flush e w o s3 _ _ _ _ _ V3); congruence|]. cbv beta.
    intros r s4 [(-> & Hr)|((-> & V4) & I4)].
    + left. split; [reflexivity|]. intros H; apply Hr, (roomy_iow _ _ _ o I), H.
    + rewrite <- (bind_ret_wp (bwrite w d)). apply (wp_bwrite true w o s4 _ _ _ _ _ _ _ V4). intros s5 V5 I5. apply wp_ret. cbv beta iota.
      apply wp_bind, wp_ret. cbv beta iota. apply wp_ret. right.
      split; [split; [reflexivity|apply view_any; exact V5]|]. etransitivity; [exact I|etransitivity; eassumption].
Qed.
Lemma view_times e s w o B P F D f : times_only f -> view_ e s w o B P F D -> view_ e (mod_ob s o f) w o B P F D.
Proof.
  intros Hf V. destruct V. constructor; auto.
  - intros He. rewrite ob_mod_same, Hf. exact (v_epoch0 He).
  - rewrite ob_mod_same, Hf. exact v_data0.
Qed.
(** syncing a random access handle *)
Lemma wp_sync e w o s B P F D : view_ e s w o B P F D -> w_append (wr s w) = false ->
  wp (sync_io w) s (fun r s' => r = Ok tt /\ iow w s s' /\
     ((s' = s /\ view s w o B P F D) \/ (w_epoch (wr s w) <> o_epoch (ob s o) /\ view s' w o D P F D))).
Proof.
  intros V Ha. unfold sync_io. apply wp_bind_wget. wstep. rewrite (v_obj _ _ _ _ _ _ _ _ V).
  destruct (Nat.eqb_spec (w_epoch (wr s w)) (o_epoch (ob s o))) as [E|E].
  { apply wp_ret. split; [reflexivity|]. split; [reflexivity|]. left. split; [reflexivity|]. destruct V. constructor; auto. }
  wstep. rewrite (view_bytes _ _ _ _ _ _ _ _ V). unfold set_stream_contents. apply wp_bind, wp_bind_wget, wp_bind_wmod, wp_wmod, wp_wmod. rewrite Ha.
  rewrite (v_pos _ _ _ _ _ _ _ _ V).
  set (s1 := mod_wr s w (fun x => ww_bufpos x [] 0)). set (s2 := mod_wr s1 w (fun y => ww_bufpos y D P)).
  assert (V2 : view_ e s2 w o D P F D) by (apply (view_bufpos _ s1 w o [] 0), (view_bufpos _ s w o B P), V).
  assert (I2 : iow w s s2) by (etransitivity; [apply iow_wmod|apply iow_wmod]; reflexivity).
  change (o_epoch (ob s o)) with (o_epoch (ob s2 o)).
  split; [reflexivity|]. split; [etransitivity; [exact I2|apply iow_wmod; reflexivity]|]. right. split; [exact E|].
  clearbody s2. destruct V2. constructor; rewrite ?wr_mod_same; auto.
  change (is_open (mod_wr s2 w (fun y => ww_epoch y (o_epoch (ob s2 o)))) w = true).
  rewrite (is_open_hst s2 _ w); [assumption|apply (hs_wmod w (fun y => ww_epoch y (o_epoch (ob s2 o)))); reflexivity].
Qed.
Lemma wp_read_tail e w o s B P F D n : view_ e s w o B P F D -> w_append (wr s w) = false ->
  wp ((win <- gets (fun s => c_win (f_cfg s)) ;; now <- gets f_now ;;
       if win : bool then ret tt else mod_obj o (fun z => wo_atime z now)) ;;;
      y <- wget w ;;
      let rp := bio_read (w_buf y) (w_pos y) n in
      wmod w (fun z => ww_bufpos z (w_buf z) (snd rp)) ;;;
      ret (fst rp)) s
   (fun r s' => let rp := bio_read B P n in r = Ok (fst rp) /\ view_ e s' w o B (snd rp) F D /\ iow w s s').
Proof.
  intros V Ha. apply wp_bind.
  match goal with |- wp ?m s ?Q => apply (wp_conseq m s (fun r s' => r = Ok tt /\ view_ e s' w o B P F D /\ iow w s s')) end.
  { do 2 wstep. destruct (c_win _); [apply wp_ret; split; [reflexivity|]; split; [exact V|reflexivity]|].
    apply wp_mod_obj. assert (Ht : times_only (fun z => wo_atime z (f_now s))) by (intros y; destruct y; reflexivity).
    split; [reflexivity|]. split; [apply view_times; [exact Ht|exact V]|apply iow_times; [apply (v_obj _ _ _ _ _ _ _ _ V)|exact Ht]]. }
  intros r s1 (-> & V1 & I1). apply wp_bind_wget. rewrite (v_buf _ _ _ _ _ _ _ _ V1), (v_pos _ _ _ _ _ _ _ _ V1). cbv zeta.
  apply wp_bind_wmod. apply wp_ret. split; [reflexivity|].
  pose proof (view_set _ _ _ _ _ _ _ _ (fun x => ww_bufpos x (w_buf x) (snd (bio_read B P n))) V1 ltac:(reflexivity) ltac:(reflexivity)) as H.
  cbn [w_buf w_pos w_fpos ww_bufpos] in H. rewrite (v_buf _ _ _ _ _ _ _ _ V1), (v_fpos _ _ _ _ _ _ _ _ V1) in H.
  split; [exact H|]. etransitivity; [exact I1|apply iow_wmod; reflexivity].
Qed.
(** read through a handle that can also write *)
Lemma wp_read_update w o s B P F D n : view s w o B P F D -> w_update (wr s w) = true -> w_append (wr s w) = false -> w_read (wr s w) = true ->
  wp (file_read w n) s (fun r s' => ends s o w r s' (let rp := bio_read B P n in r = Ok (fst rp) /\ view s' w o B (snd rp) P B)).
Proof.
  intros V Hu Ha Hr. unfold file_read. apply (wp_io_enter true w o s B P F D); [exact V|]. rewrite Hr, Ha. cbn [negb].
  apply wp_bind. unfold wp at 1. rewrite (wp_sync_noop _ _ _ _ _ _ _ V). cbn [fst snd].
  apply wp_bind. eapply wp_conseq; [apply (wp_flush true w o s B P F D V Hu Ha)|]. cbv beta. intros r s1 [(-> & Hx)|(-> & V1 & I1)]; [left; auto|].
  rewrite (v_obj _ _ _ _ _ _ _ _ V). pose proof (iow_flags _ _ _ I1) as (_ & G & _).
  eapply wp_conseq; [apply (wp_read_tail true w o s1 _ _ _ _ n V1); congruence|]. cbv beta. intros r s2 (-> & V2 & I2).
  right. split; [split; [reflexivity|exact V2]|etransitivity; eassumption].
Qed.
(** read through a read-only handle: the current contents *)
Lemma wp_read_only e w o s B P F D n : view_ e s w o B P F D -> w_update (wr s w) = false -> w_append (wr s w) = false -> w_read (wr s w) = true ->
  (w_epoch (wr s w) = o_epoch (ob s o) -> B = D) ->
  wp (file_read w n) s (fun r s' => let rp := bio_read D P n in r = Ok (fst rp) /\ view s' w o D (snd rp) F D /\ iow w s s').
Proof.
  intros V Hu Ha Hr HB. unfold file_read. apply (wp_io_enter e w o s B P F D); [exact V|]. rewrite Hr, Ha. cbn [negb].
  apply wp_bind. eapply wp_conseq; [apply (wp_sync e w o s B P F D V Ha)|]. cbv beta. intros r s1 (-> & I1 & K).
  assert (V1 : view s1 w o D P F D).
  { destruct K as [(-> & V1)|(_ & V1)]; [|exact V1]. rewrite <- (HB (v_epoch _ _ _ _ _ _ _ _ V1 eq_refl)) at 1. exact V1. }
  pose proof (iow_flags _ _ _ I1) as (G1 & G2 & _).
  apply wp_bind. unfold wp at 1. rewrite flush_readonly by (first [exact (v_open _ _ _ _ _ _ _ _ V1)|congruence]). cbn [fst snd].
  rewrite (v_obj _ _ _ _ _ _ _ _ V). eapply wp_conseq; [apply (wp_read_tail true w o s1 _ _ _ _ n V1); congruence|]. cbv beta. intros r s2 (-> & V2 & I2).
  split; [reflexivity|]. split; [exact V2|etransitivity; eassumption].
Qed.
(** flush, seek and tell of a handle that can write *)
Lemma wp_seek e w o s B P F D off wh : view_ e s w o B P F D -> w_update (wr s w) = true -> w_append (wr s w) = false ->
  wp (file_seek w off wh) s (fun r s' =>
    match bio_seek B P off wh with
    | None => r = Err ValueErr /\ s' = s
    | Some P' => ends s o w r s' (r = Ok tt /\ view s' w o B P' P' B)
    end).
Proof.
  intros V Hu Ha. unfold file_seek. apply wp_bind_wget. rewrite (v_kind _ _ _ _ _ _ _ _ V), Ha. cbn [negb].
  apply wp_check_open; [exact (v_open _ _ _ _ _ _ _ _ V)|]. apply (wp_bseek e w o s B P F D _ _ _ _ V).
  destruct (bio_seek B P off wh) as [P'|]; [|auto]. intros s1 V1 I1. pose proof (iow_flags _ _ _ I1) as (G1 & G2 & _).
  eapply wp_conseq; [apply (wp_flush e w o s1 _ _ _ _ V1); congruence|]. cbv beta. intros r s2 H. apply (ends_trans _ _ _ _ _ _ _ I1).
  destruct H as [H|(H1 & H2 & H3)]; [left; exact H|right; auto].
Qed.
Lemma wp_seek_ro e w o s B P F D off wh : view_ e s w o B P F D -> w_update (wr s w) = false -> w_append (wr s w) = false ->
  wp (file_seek w off wh) s (fun r s' =>
    match bio_seek B P off wh with
    | None => r = Err ValueErr /\ s' = s
    | Some P' => r = Ok tt /\ view_ e s' w o B P' F D /\ iow w s s'
    end).
Proof.
  intros V Hu Ha. unfold file_seek. apply wp_bind_wget. rewrite (v_kind _ _ _ _ _ _ _ _ V), Ha. cbn [negb].
  apply wp_check_open; [exact (v_open _ _ _ _ _ _ _ _ V)|]. apply (wp_bseek e w o s B P F D _ _ _ _ V).
  destruct (bio_seek B P off wh) as [P'|]; [|auto]. intros s1 V1 I1. pose proof (iow_flags _ _ _ I1) as (G1 & G2 & _).
  unfold wp. rewrite flush_readonly by (first [exact (v_open _ _ _ _ _ _ _ _ V1)|congruence]). cbn [fst snd]. auto.
Qed.
Lemma wp_tell e w o s B P F D : view_ e s w o B P F D -> w_update (wr s w) = true -> w_append (wr s w) = false ->
  wp (file_tell w) s (fun r s' => ends s o w r s' (r = Ok (Z.of_nat P) /\ view s' w o B P P B)).
Proof.
  intros V Hu Ha. unfold file_tell. apply wp_bind_wget. rewrite (v_kind _ _ _ _ _ _ _ _ V).
  apply wp_check_open; [exact (v_open _ _ _ _ _ _ _ _ V)|]. apply wp_bind.
  eapply wp_conseq; [apply (wp_flush e w o s _ _ _ _ V Hu Ha)|]. cbv beta. intros r s1 [(-> & Hr)|(-> & V1 & I1)]; [left; auto|].
  pose proof (iow_flags _ _ _ I1) as (G1 & G2 & _). apply wp_bind_wget. rewrite G2, Ha. cbn [negb]. rewrite (v_pos _ _ _ _ _ _ _ _ V1).
  apply wp_ret. right. auto.
Qed.
Lemma wp_tell_ro e w o s B P F D : view_ e s w o B P F D -> w_update (wr s w) = false -> w_append (wr s w) = false ->
  file_tell w s = (Ok (Z.of_nat P), s).
Proof.
  intros V Hu Ha. unfold file_tell, wget, bind at 1, gets at 1. rewrite (v_kind _ _ _ _ _ _ _ _ V). unfold check_open, bind, gets, ret.
  rewrite (v_open _ _ _ _ _ _ _ _ V), flush_readonly by (first [exact (v_open _ _ _ _ _ _ _ _ V)|congruence]). cbv beta iota.
  rewrite Ha. cbn [negb]. rewrite (v_pos _ _ _ _ _ _ _ _ V). reflexivity.
Qed.
(** ** truncate *)
Lemma wp_set_size e w o s B P F D n : view_ e s w o B P F D -> (0 <= n)%Z ->
  wp (set_size o n) s (fun r s' => ends s o w r s' (r = Ok tt /\ exists D', view_ false s' w o B P F D')).
Proof.
  intros V Hn. unfold set_size. wstep. rewrite (v_data _ _ _ _ _ _ _ _ V), (proj2 (Z.ltb_ge n 0) Hn). wstep. wstep.
  apply wp_bind. eapply wp_conseq; [apply wp_cdu|]. cbv beta. intros r s1 [(-> & -> & Hr)|(-> & Hs1 & Ht1)]; [left; split; [reflexivity|exact Hr]|].
  apply wp_mod_obj. set (f := fun x : fobj => _).
  assert (Hb1 : forall x, ob s1 x = ob s x) by (intros x; rewrite Hs1; reflexivity).
  assert (Hw1 : forall x, wr s1 x = wr s x) by (intros x; rewrite Hs1; reflexivity).
  pose proof (v_obj _ _ _ _ _ _ _ _ V) as Ho.
  assert (I : iow w s (mod_ob s1 o f)).
  { constructor; rewrite ?Ho.
    - rewrite Hs1. unfold hst; auto.
    - rewrite Hs1. unfold same_env; auto 10.
    - rewrite Hs1; auto.
    - intros x Hx. rewrite ob_mod_other by exact Hx. apply Hb1.
    - rewrite ob_mod_same, Hb1. unfold f. destruct D; reflexivity.
    - unfold is_dirobj. rewrite ob_mod_same, Hb1, (v_data _ _ _ _ _ _ _ _ V). unfold f. destruct D; cbn; [rewrite (v_data _ _ _ _ _ _ _ _ V)|]; reflexivity.
    - intros d. rewrite <- Ht1. reflexivity.
    - intros v _ _. apply Hw1.
    - rewrite <- Hw1. reflexivity. }
  right. split; [|exact I]. split; [reflexivity|].
  exists (match D with [] => [] | c :: D' => resize (c :: D') (st_size s o) n end).
  pose proof (iow_stat _ _ _ I) as Hst. pose proof (is_open_hst _ _ w (iw_hst _ _ _ I)) as Hop.
  destruct V. constructor; rewrite ?Hop; change (wr (mod_ob s1 o f) w) with (wr s1 w); rewrite ?Hw1; auto; [discriminate|].
  rewrite ob_mod_same, Hb1. unfold f. destruct D; cbn; [rewrite v_data0|]; reflexivity.
Qed.
Lemma iow_adapt w z : keeps (iow w) (adapt_related w z).
Proof.
  intros s. change (wp (adapt_related w z) s (fun _ s' => iow w s s')). unfold adapt_related. apply wp_bind_gets.
  assert (K : forall l s1, (forall v, In v l -> w_obj (wr s1 v) = w_obj (wr s1 w)) -> wp (for_each l (fun v => wmod v (fun x => ww_rseek x (w_rseek x + z)%Z (w_rwhence x)))) s1
     (fun _ s' => hst s1 s' /\ s' = set_wraps s1 (f_wraps s') /\ forall u, ~ In u l -> wr s' u = wr s1 u)).
  { induction l as [|v l IH]; intros s1 Hl; cbn [for_each].
    - apply wp_ret. split; [reflexivity|]. split; [destruct s1; reflexivity|auto].
    - apply wp_bind_wmod. set (g := fun x : wrapper => _). assert (Hh : hst s1 (mod_wr s1 v g)) by (apply (hs_wmod v g); reflexivity).
      eapply wp_conseq; [apply (IH (mod_wr s1 v g))|].
      + intros u Hu. rewrite !(hst_obj _ _ _ Hh). apply Hl. right; exact Hu.
      + cbv beta. intros _ s2 (K1 & K2 & K3). split; [etransitivity; eassumption|]. split; [rewrite K2; reflexivity|].
        intros u Hu. rewrite K3 by (intros Hi; apply Hu; right; exact Hi). apply wr_mod_other. intros ->. apply Hu. left; reflexivity. }
  assert (Hl : forall v, In v (related s w true) -> w_obj (wr s v) = w_obj (wr s w)) by (intros v Hv; apply related_spec in Hv; apply Hv).
  eapply wp_conseq; [apply (K (related s w true) s Hl)|]. cbv beta. intros r s' (K1 & K2 & K3).
  apply (iow_sync_list _ _ _ _ K1 K2 K3 Hl). intros Hi; apply related_spec in Hi; destruct Hi; congruence.
Qed.
Lemma adapt_ok w z s : fst (adapt_related w z s) = Ok tt.
Proof.
  unfold adapt_related, bind, gets. generalize (related s w true). intros l. revert s.
  induction l as [|v l IH]; intros s; cbn [for_each]; [reflexivity|]. unfold wmod, modify, bind in *. apply IH.
Qed.
Lemma adapt_self w z s : wr (snd (adapt_related w z s)) w = wr s w /\ f_heap (snd (adapt_related w z s)) = f_heap s.
Proof.
  unfold adapt_related, bind, gets. assert (Hw : ~ In w (related s w true)) by (intros Hi; apply related_spec in Hi; destruct Hi; congruence).
  revert Hw. generalize (related s w true) at 1 2 3. intros l. revert s.
  induction l as [|v l IH]; intros s Hw; cbn [for_each]; [auto|]. unfold wmod, modify, bind in *.
  destruct (IH (mod_wr s v (fun x => ww_rseek x (w_rseek x + z)%Z (w_rwhence x)))) as [K1 K2]; [intros Hi; apply Hw; right; exact Hi|].
  rewrite K1, K2. split; [|reflexivity]. apply wr_mod_other. intros ->. apply Hw; left; reflexivity.
Qed.
Lemma firstn_len {A} n (l : list A) : length l <= n -> firstn n l = l.
Proof. apply firstn_all2. Qed.
Lemma bw_end B z : bw B (length B) z = B ++ z.
Proof.
  unfold bw, bio_write. destruct z as [|a z]; [cbn; rewrite app_nil_r; reflexivity|]. cbn [fst].
  rewrite firstn_all, Nat.sub_diag, skipn_all2 by lia. cbn [zeros repeat app]. rewrite app_nil_r. reflexivity.
Qed.
(** the bytes after truncate(n) and the position: extending moves it to the end *)
Definition cut (B : str) (n : nat) : str := firstn n B ++ zeros (n - length B).
Lemma wp_truncate e w o s B P F D size : view_ e s w o B P F D -> w_update (wr s w) = true -> w_append (wr s w) = false ->
  wp (file_truncate w size) s (fun r s' =>
    let n := match size with Some n => n | None => Z.of_nat P end in
    if (n <? 0)%Z then r = Err ValueErr /\ s' = s else
    ends s o w r s' (r = Ok n /\ let P' := if (Z.of_nat (length B) <? n)%Z then Z.to_nat n else P in
       view s' w o (cut B (Z.to_nat n)) P' P' (cut B (Z.to_nat n)))).
Proof.
  intros V Hu Ha. unfold file_truncate. apply (wp_io_enter e w o s B P F D); [exact V|]. rewrite Hu, Ha. cbn [negb].
  apply wp_bind, wp_ret. cbv beta iota. apply wp_bind_wget. rewrite (v_pos _ _ _ _ _ _ _ _ V). cbv zeta.
  set (n := match size with Some n => n | None => Z.of_nat P end). destruct (n <? 0)%Z eqn:En; [apply wp_raise; auto|]. apply Z.ltb_ge in En.
  apply wp_bind_wmod. set (s1 := mod_wr s w _).
  assert (V1 : view_ e s1 w o (firstn (Z.to_nat n) B) P F D).
  { pose proof (view_set _ _ _ _ _ _ _ _ (fun x => ww_bufpos x (bio_truncate (w_buf x) (Z.to_nat n)) (w_pos x)) V ltac:(reflexivity) ltac:(reflexivity)) as H.
    cbn [w_buf w_pos w_fpos ww_bufpos] in H. rewrite (v_buf _ _ _ _ _ _ _ _ V), (v_pos _ _ _ _ _ _ _ _ V), (v_fpos _ _ _ _ _ _ _ _ V) in H. exact H. }
  assert (I1 : iow w s s1) by (apply iow_wmod; reflexivity). clearbody s1.
  pose proof (iow_flags _ _ _ I1) as (G1 & G2 & _).
  apply wp_bind. eapply wp_conseq; [apply (wp_flush e w o s1 _ _ _ _ V1); congruence|]. cbv beta. intros r s2 [(-> & Hr)|(-> & V2 & I2)].
  { left. split; [reflexivity|]. intros H; apply Hr, (roomy_iow _ _ _ o I1), H. }
  assert (J2 : iow w s s2) by (etransitivity; eassumption).
  rewrite (v_obj _ _ _ _ _ _ _ _ V).
  apply wp_bind. eapply wp_conseq; [apply (wp_set_size true w o s2 _ _ _ _ n V2 En)|]. cbv beta. intros r s3 [(-> & Hr)|((-> & D3 & V3) & I3)].
  { left. split; [reflexivity|]. intros H; apply Hr, (roomy_iow _ _ _ o J2), H. }
  assert (J3 : iow w s s3) by (etransitivity; eassumption).
  apply wp_bind_wget. rewrite (v_buf _ _ _ _ _ _ _ _ V3). rewrite firstn_length.
  destruct (_ <? n)%Z eqn:Eb.
  - apply Z.ltb_lt in Eb. assert (Hlt : (Z.of_nat (length B) < n)%Z) by lia. rewrite (proj2 (Z.ltb_lt _ _) Hlt).
    assert (Hmin : Nat.min (Z.to_nat n) (length B) = length B) by lia. rewrite Hmin in *.
    assert (HF : firstn (Z.to_nat n) B = B) by (apply firstn_all2; lia). rewrite HF in *.
    apply wp_bind. apply (wp_bseek false w o s3 _ _ _ _ _ _ _ _ V3). rewrite bio_seek_set. intros s4 V4 I4.
    apply (wp_bwrite false w o s4 _ _ _ _ _ _ _ V4). intros s5 V5 I5. rewrite bw_end in V5.
    assert (Hz : zeros (Z.to_nat (n - Z.of_nat (length B))) = zeros (Z.to_nat n - length B)) by (f_equal; lia). rewrite Hz in V5.
    assert (Hcut : B ++ zeros (Z.to_nat n - length B) = cut B (Z.to_nat n)) by (unfold cut; rewrite HF; reflexivity). rewrite Hcut in V5.
    assert (HP : length B + length (zeros (Z.to_nat n - length B)) = Z.to_nat n) by (unfold zeros; rewrite repeat_length; lia). rewrite HP in V5.
    assert (J5 : iow w s s5) by (etransitivity; [exact J3|etransitivity; eassumption]).
    apply wp_bind_wget. rewrite (v_buf _ _ _ _ _ _ _ _ V5).
    apply wp_bind. unfold set_contents. apply wp_bind_gets. rewrite (view_dir _ _ _ _ _ _ _ _ V5).
    eapply wp_conseq; [apply wp_set_initial; [exact (v_null _ _ _ _ _ _ _ _ V5)|exact (view_dir _ _ _ _ _ _ _ _ V5)]|]. cbv beta.
    intros r s6 [(-> & Hr)|(-> & Hw)]. { left. split; [reflexivity|]. intros H; apply Hr, (roomy_iow _ _ _ o J5), H. }
    assert (J6 : iow w s5 s6) by (apply (iow_wrote w o _ _ _ (v_obj _ _ _ _ _ _ _ _ V5) (view_dir _ _ _ _ _ _ _ _ V5) Hw)).
    assert (Hwr : wr s6 w = wr s5 w) by (rewrite (wt_rest _ _ _ _ Hw); reflexivity).
    apply wp_bind_wmod. set (s7 := mod_wr s6 w _).
    assert (V7 : view_ false s7 w o (cut B (Z.to_nat n)) (Z.to_nat n) (Z.to_nat n) (cut B (Z.to_nat n))).
    { pose proof (is_open_hst _ _ w (iw_hst _ _ _ J6)) as Ho. destruct V5. constructor; unfold s7; rewrite ?wr_mod_same, ?Hwr; auto.
      - rewrite (is_open_hst s6 _ w); [congruence|apply (hs_wmod w (fun z => ww_fpos z (Z.to_nat n))); reflexivity].
      - discriminate.
      - exact (wt_body _ _ _ _ Hw). }
    assert (J7 : iow w s s7) by (etransitivity; [exact J5|etransitivity; [exact J6|apply iow_wmod; reflexivity]]). clearbody s7.
    unfold wp at 1. pose proof (iow_adapt w (n - Z.of_nat (length B)) s7) as A1. pose proof (adapt_ok w (n - Z.of_nat (length B)) s7) as A2.
    pose proof (adapt_self w (n - Z.of_nat (length B)) s7) as A3. unfold wp in A1.
    destruct (adapt_related w (n - Z.of_nat (length B)) s7) as [r8 s8]. cbn [fst snd] in *. subst r8. destruct A3 as [A3 A4].
    assert (V8 : view_ false s8 w o (cut B (Z.to_nat n)) (Z.to_nat n) (Z.to_nat n) (cut B (Z.to_nat n))).
    { pose proof (is_open_hst _ _ w (iw_hst _ _ _ A1)) as Ho. destruct V7. constructor; rewrite ?A3; auto; [congruence|discriminate|].
      unfold ob in *. rewrite A4. exact v_data0. }
    assert (J8 : iow w s s8) by (etransitivity; eassumption). pose proof (iow_flags _ _ _ J8) as (L1 & L2 & _).
    apply wp_bind. eapply wp_conseq; [apply (wp_flush false w o s8 _ _ _ _ V8); congruence|]. cbv beta. intros r s9 [(-> & Hr)|(-> & V9 & I9)].
    { left. split; [reflexivity|]. intros H; apply Hr, (roomy_iow _ _ _ o J8), H. }
    apply wp_ret. right. split; [split; [reflexivity|exact V9]|etransitivity; eassumption].
  - apply Z.ltb_ge in Eb. assert (Hge : (n <= Z.of_nat (length B))%Z) by lia. rewrite (proj2 (Z.ltb_ge _ _) Hge).
    assert (HF : firstn (Z.to_nat n) B = cut B (Z.to_nat n)).
    { unfold cut. replace (Z.to_nat n - length B) with 0 by lia. cbn. rewrite app_nil_r. reflexivity. } rewrite HF in *.
    apply wp_bind, wp_ret. cbv beta iota. pose proof (iow_flags _ _ _ J3) as (L1 & L2 & _).
    apply wp_bind. eapply wp_conseq; [apply (wp_flush false w o s3 _ _ _ _ V3); congruence|]. cbv beta. intros r s9 [(-> & Hr)|(-> & V9 & I9)].
    { left. split; [reflexivity|]. intros H; apply Hr, (roomy_iow _ _ _ o J3), H. }
    apply wp_ret. right. split; [split; [reflexivity|exact V9]|etransitivity; eassumption].
Qed.
(** ** close *)
(** only the table of descriptors changed *)
Definition released (s s' : fs) : Prop := s' = set_free (set_open s (f_open s')) (f_free s').
Lemma wp_release w s : wp (if w_closefd (wr s w) then close_open_file (w_fd (wr s w))
   else modify (fun s1 => match py_index (f_open s1) (w_fd (wr s w)) with
          | Some (Some l) => set_open s1 (py_set (f_open s1) (w_fd (wr s w)) (Some (List.remove Nat.eq_dec w l)))
          | _ => s1 end)) s (fun r s' => r = Ok tt /\ released s s').
Proof.
  destruct (w_closefd _).
  - split; reflexivity.
  - unfold wp, modify. cbn [fst snd]. split; [reflexivity|]. unfold released.
    destruct (py_index _ _) as [[l|]|]; destruct s; reflexivity.
Qed.
Lemma wp_close e w o s B P F D : view_ e s w o B P F D -> w_update (wr s w) = true -> w_append (wr s w) = false ->
  w_raw (wr s w) = false -> w_del (wr s w) = false ->
  wp (close_wrapper w) s (fun r s' => (r = nospc /\ ~ roomy s o) \/
    (r = Ok tt /\ exists s1, view s1 w o B P P B /\ iow w s s1 /\ released s1 s')).
Proof.
  intros V Hu Ha Hr Hd. unfold close_wrapper. apply wp_bind_wget. rewrite (v_kind _ _ _ _ _ _ _ _ V).
  unfold close_file. apply wp_bind_gets. rewrite (v_open _ _ _ _ _ _ _ _ V). cbn [negb]. apply wp_bind_wget. rewrite Hu, Hr. cbn [negb andb].
  apply wp_bind. apply wp_bind. eapply wp_conseq; [apply (wp_flush e w o s _ _ _ _ V Hu Ha)|]. cbv beta. intros r s1 [(-> & Hx)|(-> & V1 & I1)]; [left; auto|].
  apply wp_bind_wget. apply wp_bind_gets.
  match goal with |- wp ?m s1 ?Q => apply (wp_conseq m s1 (fun r s' => r = Ok tt /\ view s' w o B P P B /\ iow w s1 s')) end.
  { destruct (_ && _); [|apply wp_ret; split; [reflexivity|]; split; [exact V1|reflexivity]].
    apply wp_bind_gets. apply wp_mod_obj. rewrite (v_obj _ _ _ _ _ _ _ _ V).
    assert (Ht : times_only (fun z => wo_mtime z (f_now s1))) by (intros y; destruct y; reflexivity).
    split; [reflexivity|]. split; [apply view_times; [exact Ht|exact V1]|]. apply iow_times; [exact (v_obj _ _ _ _ _ _ _ _ V1)|exact Ht]. }
  intros r s2 (-> & V2 & I2). assert (I : iow w s s2) by (etransitivity; eassumption).
  pose proof (iow_flags _ _ _ I) as (_ & _ & _ & _ & G1 & G2 & G3). rewrite <- G1, <- G3.
  apply wp_bind. eapply wp_conseq; [apply wp_release|]. cbv beta. intros r s3 (-> & Hre). rewrite Hd. apply wp_ret. right.
  split; [reflexivity|]. exists s2. auto.
Qed.
(** ** Appending handles *)
