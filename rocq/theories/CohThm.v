(** * Several handles of one file: the contents a handle sees follow the file.

    Every change of the contents of a file raises its epoch ([eds]), so a handle
    whose epoch is the file's holds its bytes ([calm]); every call keeps this,
    but those that leave unwritten data in the handle itself. *)
From Verif Require Import Str PathModel FsModel FsSpec OpsModel IoModel SysModel Wp Frame IoFrame Gen FdThm IoThm.
From Verif Require Import PropFd PropIo PropIo2 IoSess OpenThm.

Definition eds (s s' : fs) : Prop :=
  f_next s <= f_next s' /\ forall o D, o < f_next s -> bytes_of s o D ->
    exists D', bytes_of s' o D' /\ o_epoch (ob s o) <= o_epoch (ob s' o) /\ (o_epoch (ob s' o) = o_epoch (ob s o) -> D' = D).
Global Instance eds_pre : PreOrder eds.
Proof.
  split.
  - intros s. split; [reflexivity|]. intros o D _ H. exists D. auto.
  - intros a b c [H1 H2] [K1 K2]. split; [lia|]. intros o D Ho HD.
    destruct (H2 o D Ho HD) as (D1 & B1 & E1 & F1). destruct (K2 o D1 ltac:(lia) B1) as (D2 & B2 & E2 & F2).
    exists D2. split; [exact B2|]. split; [lia|]. intros E. rewrite F2, F1; [reflexivity|lia|lia].
Qed.
Lemma ed_same s s' : f_next s' = f_next s -> f_heap s' = f_heap s -> eds s s'.
Proof. unfold eds, bytes_of, ob. intros -> ->. split; [reflexivity|]. intros o D _ H. exists D. auto. Qed.
Lemma ed_heap f : (forall s, f_next (f s) = f_next s) -> (forall s, f_heap (f s) = f_heap s) -> keeps eds (modify f).
Proof. intros H K s. apply ed_same; [apply H|apply K]. Qed.
Lemma ed_mod_obj_at o f s : (forall d, bytes_of s o d -> exists d', o_body (f (ob s o)) = BFile (Some d') /\ o_epoch (ob s o) <= o_epoch (f (ob s o)) /\
    (o_epoch (f (ob s o)) = o_epoch (ob s o) -> d' = d)) -> eds s (mod_ob s o f).
Proof.
  intros H. split; [reflexivity|]. intros x D _ Hb. unfold bytes_of. destruct (Nat.eq_dec x o) as [->|N].
  - rewrite ob_mod_same. apply H, Hb.
  - rewrite ob_mod_other by exact N. exists D. auto.
Qed.
Lemma ed_mod_obj o f : (forall x, o_epoch (f x) = o_epoch x) -> (forall x d, o_body x = BFile (Some d) -> o_body (f x) = BFile (Some d)) -> keeps eds (mod_obj o f).
Proof. intros H K s. apply ed_mod_obj_at. intros d Hd. exists d. rewrite H. auto. Qed.
Lemma ed_alloc n m b : keeps eds (alloc n m b).
Proof.
  intros s. unfold alloc. cbn [snd]. split; [cbn; lia|]. intros x D Hx Hb. exists D. unfold bytes_of, ob, upd in *. cbn.
  rewrite (proj2 (Nat.eqb_neq x (f_next s))) by lia. auto.
Qed.
Lemma next_cdu z dv s : f_next (snd (change_disk_usage z dv s)) = f_next s.
Proof. unfold change_disk_usage; destruct (mount_for_dev _ _) as [m|]; auto; destruct (m_total m); try destruct (_ <? _)%Z; auto. Qed.
Lemma ed_cdu z d : keeps eds (change_disk_usage z d).
Proof. intros s. apply ed_same; [apply next_cdu|apply heap_cdu]. Qed.
Ltac ed_body := let y := fresh "y" in let dd := fresh "dd" in let E := fresh "E" in intros y dd E; cbn; rewrite ?E; cbn; try exact E; try reflexivity.
Ltac ed := kr; try first [apply ed_cdu|apply ed_alloc|apply ed_heap; reflexivity|apply ed_mod_obj; [intros; cbn; try (match goal with |- context[o_body ?y] => destruct (o_body y) end); reflexivity|ed_body; fail]].
Lemma ed_rm_loop rm : (forall n, keeps eds (rm n)) -> forall k e, keeps eds (rm_loop rm k e).
Proof. intros H. induction k as [|k IH]; intros e; cbn [rm_loop]; ed; [apply H|apply IH]. Qed.
Lemma ed_remove_entry_n fuel : forall d n r, keeps eds (remove_entry_n fuel d n r).
Proof. induction fuel as [|f IH]; intros d n r; cbn [remove_entry_n]; unfold unlink_obj; ed. apply ed_rm_loop. intros m. apply IH. Qed.
Lemma ed_set_size o n : keeps eds (set_size o n).
Proof.
  intros s. unfold set_size, bind, gets. destruct (o_body (ob s o)) as [es|data] eqn:Eb; [reflexivity|].
  destruct (Z.ltb_spec n 0); [reflexivity|].
  pose proof (heap_cdu (n - st_size s o)%Z (o_dev (ob s o)) s) as [Hh _]. pose proof (next_cdu (n - st_size s o)%Z (o_dev (ob s o)) s) as Hn.
  destruct (change_disk_usage _ _ s) as [[u|e] s1]; cbn [fst snd] in Hh, Hn; [|apply ed_same; assumption].
  cbv beta iota. transitivity s1; [apply ed_same; assumption|]. unfold mod_obj, modify. cbn [snd]. apply ed_mod_obj_at. intros d Hb.
  unfold bytes_of in Hb. assert (Eo : ob s1 o = ob s o) by (unfold ob; rewrite Hh; reflexivity). rewrite Eo in *. rewrite Eb in Hb. injection Hb as ->.
  destruct d as [|c d].
  - exists []. cbn. rewrite Eb. split; [reflexivity|]. split; [lia|]. intros; reflexivity.
  - eexists. split; [reflexivity|]. cbn. split; [lia|]. intros E. exfalso. lia.
Qed.
Lemma ed_set_initial o c : keeps eds (set_initial_contents o c).
Proof.
  unfold set_initial_contents. ed; [apply ed_set_size|]. intros s. apply ed_mod_obj_at. intros d Hb. exists c. cbn.
  split; [reflexivity|]. split; [lia|]. intros E. exfalso. lia.
Qed.
Lemma ed_prims : fs_prims eds (fun _ => True) True False.
Proof.
  split; [split|..].
  - intros n m. apply ed_alloc.
  - intros n m. apply ed_alloc.
  - intros d o. unfold add_entry, link_obj. ed.
  - intros d n r s. apply (ed_remove_entry_n (S (f_next s)) d n r s).
  - intros _ o n. apply ed_set_size.
  - intros o c. apply ed_set_initial.
  - intros [].
  - intros o n. ed.
  - intros o n. ed.
  - apply (register_from _ _ _); [exact Logic.I| |].
    + intros p d t _. ed.
    + ed.
  - ed.
  - intros i. ed.
  - intros o. any_dev. ed.
  - intros o c m t. ed.
  - intros o f Hf. apply ed_mod_obj; intros x; [|intros d E]; rewrite (Hf x); [reflexivity|exact E].
  - intros s s' H. apply ed_same; rewrite H; reflexivity.
  - intros s s' H. apply ed_same; rewrite H; reflexivity.
  - intros o f Hf. apply ed_mod_obj; intros x; [|intros d E]; rewrite (Hf x); [reflexivity|exact E].
  - intros o k v. ed.
  - intros o k. ed.
Qed.
Notation ed_core := (fp_core _ _ _ _ ed_prims).
Lemma ed_step o : large_call o = false -> keeps eds (step o).
Proof.
  intros Hl. destruct o; try (apply (gen_step _ _ _ ed_core ed_prims); [intros; exact Logic.I|intros E; rewrite Hl in E; discriminate E|intros; exact Logic.I|discriminate]).
  cbn [step]. apply gn_outm. apply (gen_set_usage _ _ _ ed_core). intros k m. ed.
Qed.

(** ** A handle with nothing to write *)
(** [st]: it holds no data that is not in the file *)
Record calm (w : wid) (o : oid) (st : Prop) (s : fs) : Prop := mkCalm {
  ca_used : w < f_wnext s;
  ca_kind : w_kind (wr s w) = WFile;
  ca_obj : w_obj (wr s w) = o;
  ca_append : w_append (wr s w) = false;
  ca_old : o < f_next s;
  ca_null : o <> devnull_oid;
  ca_epoch : w_epoch (wr s w) <= o_epoch (ob s o);
  ca_bytes : exists D, bytes_of s o D /\ (st -> w_epoch (wr s w) = o_epoch (ob s o) -> w_buf (wr s w) = D)
}.
Section Calm.
Variables (w : wid) (o : oid) (st mv : Prop).
(** [mv]: the position may move *)
Definition same_h (s s' : fs) : Prop := wstat (wr s' w) = wstat (wr s w) /\ (mv \/ w_pos (wr s' w) = w_pos (wr s w)).
Global Instance same_h_pre : PreOrder same_h.
Proof.
  split; [split; auto|]. intros a b c [A1 P1] [A2 P2]. split; [congruence|]. destruct P1 as [P1|P1]; [auto|]. destruct P2 as [P2|P2]; [auto|]. right. congruence.
Qed.
Definition U (s s' : fs) : Prop := calm w o st s -> calm w o st s' /\ same_h s s'.
Global Instance U_pre : PreOrder U.
Proof.
  split; [intros s H; split; [exact H|reflexivity]|]. intros a b c H K Ha. destruct (H Ha) as [Hb P1]. destruct (K Hb) as [Hc P2]. split; [exact Hc|].
  etransitivity; eassumption.
Qed.
Definition wq (s s' : fs) : Prop := f_wraps s' = f_wraps s /\ f_wnext s' = f_wnext s.
Lemma U_eds s s' : wq s s' -> eds s s' -> U s s'.
Proof.
  intros [W1 W2] [E1 E2] [C1 C2 C3 C4 C5 C6 C7 (D & C8 & C9)].
  assert (Ew : wr s' w = wr s w) by (unfold wr; rewrite W1; reflexivity).
  destruct (E2 o D C5 C8) as (D' & B & L & F).
  split; [|unfold same_h; rewrite Ew; auto]. constructor; rewrite ?Ew; auto; try lia.
  exists D'. split; [exact B|]. intros Hst E. rewrite F by lia. apply C9; [exact Hst|lia].
Qed.
Lemma oo_wq s s' : only_objects s s' -> wq s s'.
Proof. intros ->. split; reflexivity. Qed.
Lemma U_fs {A} (m : M A) : keeps only_objects m -> keeps eds m -> keeps U m.
Proof. intros H K s. apply U_eds; [apply oo_wq, H|apply K]. Qed.
Lemma U_same s s' : wq s s' -> f_heap s' = f_heap s -> f_next s' = f_next s -> U s s'.
Proof. intros H K N. apply U_eds; [exact H|]. apply ed_same; assumption. Qed.
Lemma U_mod f : (forall s, f_wraps (f s) = f_wraps s) -> (forall s, f_wnext (f s) = f_wnext s) -> (forall s, f_heap (f s) = f_heap s) -> (forall s, f_next (f s) = f_next s) -> keeps U (modify f).
Proof. intros H1 H2 H3 H4 s. apply U_same; [split; [apply H1|apply H2]|apply H3|apply H4]. Qed.
Lemma U_wmod u f :
  (u = w -> forall x, wstat (f x) = wstat x /\ (st -> w_buf (f x) = w_buf x) /\ w_epoch (f x) = w_epoch x /\ (mv \/ w_pos (f x) = w_pos x)) -> keeps U (wmod u f).
Proof.
  intros K s [C1 C2 C3 C4 C5 C6 C7 C8]. unfold wmod, modify. cbn [snd]. destruct (Nat.eq_dec w u) as [E|N].
  - subst u. destruct (K eq_refl (wr s w)) as (H & K1 & K2 & K3).
    split; [|split; rewrite wr_mod_same; [exact H|exact K3]].
    unfold wstat in H. injection H as S1 S2 S3 _ _ _ _ _ _. destruct C8 as (D & C8 & C9).
    constructor; rewrite ?wr_mod_same; try assumption; try congruence; rewrite ?K2; try assumption.
    exists D. split; [exact C8|]. intros Hst. rewrite (K1 Hst). apply C9, Hst.
  - assert (Ew : wr (mod_wr s u f) w = wr s w) by (apply wr_mod_other, N).
    split; [constructor; rewrite ?Ew; assumption|unfold same_h; rewrite Ew; auto].
Qed.
Lemma U_alloc x : keeps U (alloc_wrap x).
Proof.
  intros s [C1 C2 C3 C4 C5 C6 C7 C8]. unfold alloc_wrap. cbn [snd].
  assert (Ew : wr (set_wnext (set_wraps s (upd (f_wraps s) (f_wnext s) x)) (S (f_wnext s))) w = wr s w).
  { unfold wr, upd. cbn. rewrite (proj2 (Nat.eqb_neq w (f_wnext s))) by lia. reflexivity. }
  split; [|unfold same_h; rewrite Ew; auto]. constructor; rewrite ?Ew; try assumption. cbn. lia.
Qed.
Lemma U_add_open u : keeps U (add_open_file u).
Proof. intros s. unfold add_open_file. destruct (f_free s); apply U_same; try split; reflexivity. Qed.
Lemma U_close_open u : keeps U (close_open_file u).
Proof. apply U_mod; reflexivity. Qed.
Lemma U_add_wrap x : keeps U (add_wrap x).
Proof.
  intros s H. assert (Hw : f_wnext s <> w) by (pose proof (ca_used _ _ _ _ H); lia). revert H. change (U s (snd (add_wrap x s))).
  unfold add_wrap, bind at 1. cbn [alloc_wrap]. etransitivity; [apply (U_alloc x s)|]. cbn [alloc_wrap snd].
  set (s1 := set_wnext _ _). clearbody s1. revert s1. 
  change (keeps U (fd <- add_open_file (f_wnext s) ;; wmod (f_wnext s) (fun y => ww_fd y fd) ;;; ret (f_wnext s))).
  kr; [apply U_add_open|]. apply U_wmod. intros E. contradiction (Hw E).
Qed.
Lemma U_times x f : times_only f -> keeps U (mod_obj x f).
Proof. intros H. apply U_fs; [apply oo_mod_obj|apply (fp_times _ _ _ _ ed_core), H]. Qed.
Lemma U_set_contents x c : keeps U (set_contents x c).
Proof. apply U_fs; [apply oo_set_contents|apply (gn_set_contents _ _ _ ed_core)]. Qed.
Lemma U_set_size x c : keeps U (set_size x c).
Proof. apply U_fs; [apply oo_set_size|apply ed_set_size]. Qed.
(** a call may change the buffer of the handle *)
Definition loose (v : wid) : Prop := v = w -> ~ st /\ mv.
Lemma loose_mv v : loose v -> v = w -> mv.
Proof. intros H E. apply H, E. Qed.
Ltac uw := apply U_wmod; let E := fresh in intros E; intros; (split; [reflexivity|]); (split; [first [reflexivity|let K := fresh in intros K; exfalso; match goal with H : loose _ |- _ => apply (proj1 (H E)), K end]|]); (split; [reflexivity|]);
  first [right; reflexivity|left; auto; fail|left; match goal with H : loose _ |- _ => apply (proj2 (H E)) end].
Ltac ut := apply U_times; let y := fresh in intros y; destruct y; reflexivity.
Ltac u := unfold wget, update_flush_pos in *; kr; try first [uw; fail|ut|apply U_set_contents|apply U_set_size].
Lemma U_check v : keeps U (check_open v).
Proof. unfold check_open. u. Qed.
Lemma U_bseek v z h : (v = w -> mv) -> keeps U (bseek v z h).
Proof. intros Hm. unfold bseek. u. Qed.
(** a synchronized handle *)
Definition fresh (s : fs) : Prop := w_epoch (wr s w) = o_epoch (ob s o).
Lemma calm_sync s : calm w o st s -> wp (sync_io w) s (fun r s' => r = Ok tt /\ calm w o st s' /\ fresh s' /\ w_pos (wr s' w) = w_pos (wr s w) /\ f_heap s' = f_heap s /\ hst s s').
Proof.
  intros C. pose proof C as [C1 C2 C3 C4 C5 C6 C7 (D & C8 & C9)]. unfold sync_io. apply wp_bind_wget. apply wp_bind_gets. rewrite C3.
  destruct (Nat.eqb_spec (w_epoch (wr s w)) (o_epoch (ob s o))) as [E|E].
  - apply wp_ret. split; [reflexivity|]. split; [exact C|]. split; [exact E|]. split; [reflexivity|]. split; reflexivity.
  - apply wp_bind_gets. assert (Hb : byte_contents s o = Some D).
    { unfold byte_contents. rewrite (proj2 (Nat.eqb_neq _ _) C6), C8. reflexivity. }
    rewrite Hb. unfold set_stream_contents. apply wp_bind, wp_bind_wget, wp_bind_wmod, wp_wmod, wp_wmod. rewrite C4.
    set (f := fun x => ww_epoch (ww_bufpos (ww_bufpos x [] 0) D (w_pos (wr s w))) (o_epoch (ob s o))).
    assert (Ew : forall s3, s3 = mod_wr (mod_wr (mod_wr s w (fun x => ww_bufpos x [] 0)) w (fun y => ww_bufpos y D (w_pos (wr s w)))) w (fun y => ww_epoch y (o_epoch (ob s o))) ->
      wr s3 w = f (wr s w) /\ f_heap s3 = f_heap s /\ f_next s3 = f_next s /\ f_wnext s3 = f_wnext s /\ hst s s3).
    { intros s3 ->. split; [rewrite !wr_mod_same; reflexivity|]. split; [reflexivity|]. split; [reflexivity|]. split; [reflexivity|].
      repeat (etransitivity; [|apply (hs_wmod w); reflexivity]). reflexivity. }
    match goal with |- context[calm w o st ?x] => set (s3 := x); specialize (Ew s3 eq_refl); clearbody s3 end. destruct Ew as (E1 & E2 & E3 & E4 & E5).
    assert (Eo : ob s3 o = ob s o) by (unfold ob; rewrite E2; reflexivity).
    split; [reflexivity|]. split; [|split; [unfold fresh; rewrite E1, Eo; reflexivity|split; [rewrite E1; reflexivity|split; [exact E2|exact E5]]]].
    constructor; rewrite ?E1, ?E3, ?E4, ?Eo; auto. cbn. exists D. split; [|reflexivity]. unfold bytes_of. rewrite Eo. exact C8.
Qed.
Lemma U_stream v c : loose v -> keeps U (set_stream_contents v c).
Proof. intros N. unfold set_stream_contents. u. Qed.
Lemma U_sync v : keeps U (sync_io v).
Proof.
  destruct (Nat.eq_dec v w) as [->|N].
  - intros s H. pose proof (calm_sync s H) as K. unfold wp in K. destruct K as (_ & K1 & _ & K2 & _ & _ & _ & _ & K3). split; [exact K1|]. split; [apply K3|auto].
  - assert (N' : loose v) by (intros E; contradiction (N E)). unfold sync_io. u; [apply U_stream, N'|]. apply U_wmod. intros E. contradiction (N E).
Qed.
Lemma U_for_each l f : (forall x, keeps U (f x)) -> keeps U (for_each l f).
Proof. intros H. induction l as [|x l IH]; cbn [for_each]; u; [apply H|apply IH]. Qed.
Lemma U_flush_related v : keeps U (flush_related v).
Proof. unfold flush_related. u. apply U_for_each, U_sync. Qed.
(** flushing a calm handle writes the bytes it has *)
Lemma U_flush_self : keeps U (flush w).
Proof.
  intros s C0. change (wp (flush w) s (fun _ s' => calm w o st s' /\ same_h s s')).
  assert (R0 : forall x, same_h x x) by reflexivity.
  unfold flush. apply wp_bind. unfold check_open. wstep. destruct (is_open s w); [apply wp_ret|apply wp_raise; auto].
  apply wp_bind_wget. destruct (w_update (wr s w)); cbn [negb]; [|apply wp_ret; auto].
  rewrite (ca_append _ _ _ _ C0), (ca_obj _ _ _ _ C0). wstep. unfold update_flush_pos. apply wp_bind_wmod.
  set (s1 := mod_wr s w _).
  assert (U1 : U s s1) by (apply (U_wmod w (fun x => ww_fpos x (w_pos x))); intros _ x; auto).
  assert (E1 : w_buf (wr s1 w) = w_buf (wr s w)) by (unfold s1; rewrite wr_mod_same; reflexivity).
  destruct (U1 C0) as [C1 P1]. clearbody s1. set (B := w_buf (wr s w)) in *. clearbody B.
  assert (P1' : U s1 s1) by reflexivity.
  apply (wp_conseq _ s1 (fun _ s' => calm w o st s' /\ same_h s1 s')).
  2:{ intros _ s' [H1 H2]. split; [exact H1|]. etransitivity; eassumption. }
  clear P1 P1' U1 C0 s. rename s1 into s. pose proof C1 as [_ _ Co _ _ Cn _ (D & Cb & _)].
  assert (Hd : is_dirobj s o = false) by (unfold is_dirobj; rewrite Cb; reflexivity).
  apply wp_bind. apply (wp_conseq _ s (fun r s1 => U s s1 /\ wr s1 w = wr s w /\ forall x, r = Ok x -> bytes_of s1 o B)).
  { apply wp_and; [apply (U_set_contents o B)|]. apply wp_and; [unfold wp; rewrite (oo_set_contents o B s); reflexivity|].
    unfold set_contents. wstep. rewrite Hd. eapply wp_conseq; [apply IoThm.wp_set_initial; [exact Cn|exact Hd]|]. cbv beta.
    intros r s1 [(-> & _)|(-> & W)] x E; [discriminate E|]. apply (wt_body _ _ _ _ W). }
  intros r s1 (U1 & E2 & Hb). destruct (U1 C1) as [C2 P2]. destruct r as [ch|e]; [|auto]. specialize (Hb ch eq_refl).
  apply wp_bind. apply (wp_conseq _ s1 (fun r s2 => r = Ok tt /\ U s1 s2 /\ w_buf (wr s2 w) = w_buf (wr s1 w) /\ bytes_of s2 o B)).
  { destruct ch; [|apply wp_ret; split; [reflexivity|]; split; [reflexivity|]; auto]. wstep. destruct (c_win _).
    - apply wp_wmod. split; [reflexivity|]. split; [apply (U_wmod w (fun y => ww_changed y true)); auto|]. rewrite wr_mod_same. auto.
    - wstep. apply wp_mod_obj. split; [reflexivity|]. split; [|split; [reflexivity|unfold bytes_of; rewrite ob_mod_same; exact Hb]].
      apply (U_times o (fun y => wo_mtime (wo_ctime y (f_now s1)) (f_now s1))). let y := fresh in intros y; destruct y; reflexivity. }
  intros r s2 (-> & U2 & E3 & Hb2). destruct (U2 C2) as [C3 P3]. wstep. apply wp_bind_wmod. set (s3 := mod_wr s2 w _).
  assert (C4 : calm w o st s3 /\ same_h s2 s3).
  { unfold s3. split; [|unfold same_h; rewrite wr_mod_same; split; [reflexivity|auto]]. destruct C3 as [c1 c2 c3 c4 c5 c6 c7 c8]. constructor; rewrite ?wr_mod_same; auto.
    cbn [ww_epoch w_epoch w_buf]. exists B. split; [exact Hb2|]. intros _ _. congruence. }
  clearbody s3. destruct C4 as [C4 P4].
  destruct (U_flush_related w s3 C4) as [C5 P5]. unfold wp. split; [exact C5|].
  etransitivity; [exact P2|]. etransitivity; [exact P3|]. etransitivity; eassumption.
Qed.
Lemma U_flush v : keeps U (flush v).
Proof.
  destruct (Nat.eq_dec v w) as [->|N]; [apply U_flush_self|]. apply (fun H => H) in N. assert (N' : loose v) by (intros E; contradiction (N E)).
  unfold flush. u; try first [apply U_check|apply U_sync|apply U_stream, N'|apply U_flush_related|apply U_wmod; intros E; contradiction (N E)].
Qed.
Lemma U_btrunc v : loose v -> keeps U (btrunc_here v).
Proof. intros N. unfold btrunc_here. u. Qed.
Lemma U_bwrite v d : loose v -> keeps U (bwrite v d).
Proof. intros N. unfold bwrite. u. Qed.
Lemma U_try_flush v n : loose v -> keeps U (try_flush v n).
Proof. intros N. unfold try_flush. u; first [apply U_flush|apply U_bseek, loose_mv, N|apply U_btrunc, N]. Qed.
Lemma U_io_enter v : keeps U (io_enter v).
Proof. unfold io_enter. u. apply U_check. Qed.
Lemma U_io_raise {A} x : keeps U (@io_raise A x).
Proof. unfold io_raise. u. Qed.
Lemma U_file_write v d : loose v -> keeps U (file_write v d).
Proof.
  intros N. unfold file_write. u; first [apply U_io_enter|apply U_io_raise|apply U_bwrite, N|apply U_bseek, loose_mv, N|apply U_btrunc, N|apply U_try_flush, N].
Qed.
Lemma U_file_read v n : (v = w -> mv) -> keeps U (file_read v n).
Proof. intros N. unfold file_read. u; try first [apply U_io_enter|apply U_io_raise|apply U_sync|apply U_flush|apply U_bseek, N]. Qed.
Lemma U_file_seek v z h : (v = w -> mv) -> keeps U (file_seek v z h).
Proof. intros N. unfold file_seek. u; first [apply U_check|apply U_bseek, N|apply U_flush]. Qed.
Lemma U_file_tell v : (v = w -> mv) -> keeps U (file_tell v).
Proof. intros N. unfold file_tell. u; first [apply U_check|apply U_bseek, N|apply U_flush]. Qed.
Lemma U_adapt v z : keeps U (adapt_related v z).
Proof. unfold adapt_related. u. apply U_for_each. intros y. u. Qed.
Lemma U_file_truncate v n : loose v -> keeps U (file_truncate v n).
Proof. intros N. unfold file_truncate. u; first [apply U_io_enter|apply U_io_raise|apply U_bwrite, N|apply U_bseek, loose_mv, N|apply U_flush|apply U_adapt]. Qed.
Lemma U_flush_wrapper v : keeps U (flush_wrapper v).
Proof. unfold flush_wrapper. u; apply U_flush. Qed.
Lemma U_raw v : keeps U (wmod v (fun x => ww_raw x true)).
Proof. u. Qed.
Lemma U_os_read fd n s : (get_open_file s fd = Ok w -> mv) -> U s (snd (os_read fd n s)).
Proof.
  intros N. unfold os_read, bind at 1, lift. destruct (get_open_file s fd) as [v|e]; [|reflexivity]. cbv beta iota. revert s N.
  assert (K : (v = w -> mv) -> keeps U (wmod v (fun x => ww_raw x true) ;;; x <- wget v ;; match w_kind x with WFile => file_read v n | WPipe => raise NotImpl | _ => raise AttrErr end)).
  { intros N. u. apply U_file_read, N. }
  intros s N. apply K. intros ->. apply N. reflexivity.
Qed.
Lemma U_os_write fd d s : (get_open_file s fd = Ok w -> ~ st /\ mv) -> U s (snd (os_write fd d s)).
Proof.
  intros N. unfold os_write, bind at 1, lift. destruct (get_open_file s fd) as [v|e]; [|reflexivity]. cbv beta iota.
  assert (K : loose v -> keeps U (x <- wget v ;; match w_kind x with WDirW => raise_os EBADF | WPipe => raise NotImpl | WStd => wmod v (fun y => ww_raw y true) ;;; raise AttrErr
     | WFile => wmod v (fun y => ww_raw y true) ;;; sync_io v ;;; update_flush_pos v ;;; file_write v d ;;; flush v ;;; ret (Z.of_nat (length d)) end)).
  { clear N. intros N. u; first [apply U_sync|apply U_file_write, N|apply U_flush]. }
  apply K. intros ->. apply N. reflexivity.
Qed.
Lemma U_remove_object p : keeps U (remove_object p).
Proof. apply U_fs; [apply oo_remove_object|apply (gn_remove_object _ _ _ ed_core)]. Qed.
Lemma U_close v : keeps U (close_wrapper v).
Proof.
  unfold close_wrapper, close_file. u; try first [apply U_flush|apply U_close_open|apply U_remove_object|apply U_mod; intros; try (match goal with |- context[match ?x with _ => _ end] => destruct x as [[|]|] end); reflexivity].
Qed.
Lemma U_init_file fo a b om : keeps U (init_file_object fo a b om).
Proof.
  unfold init_file_object. u. apply U_fs; [apply oo_create_int|]. apply (gn_create_int _ _ _ ed_core). intros H. contradiction H. reflexivity.
Qed.
Lemma U_file_arg a d : keeps U (handle_file_arg a d).
Proof. unfold handle_file_arg. u. Qed.
Lemma U_open_call a om b c r d : keeps U (open_call a om b c r d).
Proof.
  unfold open_call. u; try first [apply U_file_arg|apply U_add_wrap|apply U_alloc|apply U_init_file|apply U_mod; intros; try (match goal with |- context[match ?x with _ => _ end] => destruct x as [[|]|] end); reflexivity].
  apply U_times. let y := fresh in intros y; destruct y; destruct (c_win _); reflexivity.
Qed.
Lemma U_open a m b c : keeps U (open_ a m b c).
Proof. unfold open_. u. apply U_open_call. Qed.
Lemma U_chmod a m f : keeps U (chmod a m f).
Proof. apply U_fs; [apply oo_chmod|apply (gn_chmod _ _ _ ed_core)]. Qed.
Lemma U_os_open p fl m y : keeps U (os_open p fl m y).
Proof. unfold os_open. u; first [apply U_add_wrap|apply U_open_call|apply U_chmod]. Qed.
Lemma U_os_pipe : keeps U os_pipe.
Proof. unfold os_pipe. u; apply U_add_wrap. Qed.
Lemma U_os_close fd : keeps U (os_close fd).
Proof. unfold os_close. u. apply U_close. Qed.
Lemma U_outm {A} (f : A -> out) m : keeps U m -> keeps U (outm f m).
Proof. intros H. unfold outm. u. exact H. Qed.
Global Instance wq_pre : PreOrder wq.
Proof. split; [split; reflexivity|]. intros a b c [H1 H2] [K1 K2]. split; congruence. Qed.
Lemma wq_chdir a : keeps wq (chdir a).
Proof. unfold chdir. kr. intros s. split; reflexivity. Qed.
Lemma wq_env op : env_call op = true -> keeps wq (step op).
Proof. destruct op; try discriminate; intros _; cbn [step]; unfold outm, umask; kr; try apply wq_chdir; intros s; split; reflexivity. Qed.
(** which calls use the handle itself, in a state *)
Definition uses (s : fs) (op : op) : Prop :=
  match op with
  | HRead v _ | HSeek v _ _ | HTell v | HWrite v _ | HTruncate v _ => v = w
  | OsRead fd _ | OsWrite fd _ => get_open_file s fd = Ok w
  | _ => False
  end.
(** ... and leave data in its buffer *)
Definition buffers (s : fs) (op : op) : Prop :=
  match op with
  | HWrite v _ | HTruncate v _ => v = w
  | OsWrite fd _ => get_open_file s fd = Ok w
  | _ => False
  end.
Lemma U_step op s : large_call op = false -> (buffers s op -> ~ st) -> (uses s op -> mv) -> U s (snd (step op s)).
Proof.
  intros Hl Hb Hm. destruct (io_call op) eqn:E.
  - destruct op as [ | | | | | | | | | | | | | | | | | | | | | | | | | | | |a m b cf|p fl m y|fd|fd n|fd d| |v n|v d|v z h|v|v n|v|v| | |]; try discriminate; cbn [step buffers uses] in *.
    + apply U_outm, U_open.
    + apply U_outm, U_os_open.
    + apply U_outm, U_os_close.
    + rewrite outm_eq. apply U_os_read, Hm.
    + rewrite outm_eq. apply U_os_write. intros K. auto.
    + apply U_outm, U_os_pipe.
    + apply U_outm, U_file_read, Hm.
    + apply U_outm, U_file_write. intros K. auto.
    + apply U_outm, U_file_seek, Hm.
    + apply U_outm, U_file_tell, Hm.
    + apply U_outm, U_file_truncate. intros K. auto.
    + apply U_outm, U_flush_wrapper.
    + apply U_outm, U_close.
  - apply U_eds; [|apply ed_step, Hl]. destruct (env_call op) eqn:Ee; [apply wq_env, Ee|].
    apply oo_wq, fs_call_only_objects. destruct op; try reflexivity; discriminate.
Qed.
End Calm.
