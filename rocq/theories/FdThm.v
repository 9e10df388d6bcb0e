(** * The descriptor table: what open, close and the other calls do to it. *)
From Verif Require Export IoFrame.
From Coq Require Import Sorted.

(** the fields of an open file that are fixed when it is opened *)
Definition wstat (x : wrapper) :=
  (w_kind x, w_obj x, w_append x, w_read x, w_update x, w_closefd x, w_del x, w_bufsize x, w_fd x).
(** the table of open files and the fixed fields stayed *)
Definition hst (s s' : fs) : Prop :=
  f_open s' = f_open s /\ f_free s' = f_free s /\ f_wnext s' = f_wnext s /\
  forall w, wstat (wr s' w) = wstat (wr s w).
Global Instance hst_pre : PreOrder hst.
Proof.
  split; [intros s; unfold hst; auto|]. intros a b c (H1 & H2 & H3 & H4) (K1 & K2 & K3 & K4).
  unfold hst. repeat split; try congruence. 
Qed.
Lemma oo_hst s s' : only_objects s s' -> hst s s'.
Proof. intros H. rewrite H. unfold hst. auto. Qed.
Lemma oo_hst_k {A} (m : M A) : keeps only_objects m -> keeps hst m.
Proof. intros H s. apply oo_hst, H. Qed.
Lemma hs_wmod w f : (forall x, wstat (f x) = wstat x) -> keeps hst (wmod w f).
Proof.
  intros H s. unfold wmod, modify, mod_wr. cbn [snd]. unfold hst. cbn. repeat split.
  intros v. unfold wr. cbn. unfold upd. destruct (Nat.eqb v w) eqn:E; [|reflexivity].
  apply Nat.eqb_eq in E. subst v. apply H.
Qed.
Lemma hs_mod_obj o f : keeps hst (mod_obj o f).
Proof. apply oo_hst_k, oo_mod_obj. Qed.
Lemma hs_set_contents o c : keeps hst (set_contents o c).
Proof. apply oo_hst_k, oo_set_contents. Qed.
Lemma hs_set_size o c : keeps hst (set_size o c).
Proof. apply oo_hst_k, oo_set_size. Qed.
Ltac hs := unfold wget in *; kr; try first [apply hs_wmod; intros; reflexivity|apply hs_mod_obj|apply hs_set_contents|apply hs_set_size].
Lemma hs_check w : keeps hst (check_open w).
Proof. unfold check_open. hs. Qed.
Lemma hs_bseek w o h : keeps hst (bseek w o h).
Proof. unfold bseek. hs. Qed.
Lemma hs_bwrite w d : keeps hst (bwrite w d).
Proof. apply hs_wmod; reflexivity. Qed.
Lemma hs_btrunc w : keeps hst (btrunc_here w).
Proof. apply hs_wmod; reflexivity. Qed.
Lemma hs_stream w c : keeps hst (set_stream_contents w c).
Proof. unfold set_stream_contents. hs. Qed.
Lemma hs_sync w : keeps hst (sync_io w).
Proof. unfold sync_io. hs. apply hs_stream. Qed.
Lemma hs_for_each l f : (forall x, keeps hst (f x)) -> keeps hst (for_each l f).
Proof. intros H. induction l as [|x l IH]; cbn [for_each]; hs; auto. Qed.
Lemma hs_flush_related w : keeps hst (flush_related w).
Proof. unfold flush_related. hs. apply hs_for_each, hs_sync. Qed.
Lemma hs_flush w : keeps hst (flush w).
Proof. unfold flush, update_flush_pos. hs; try first [apply hs_check|apply hs_sync|apply hs_stream|apply hs_flush_related]. Qed.
Lemma hs_try_flush w n : keeps hst (try_flush w n).
Proof. unfold try_flush. hs; first [apply hs_flush|apply hs_bseek|apply hs_btrunc]. Qed.
Lemma hs_io_enter w : keeps hst (io_enter w).
Proof. unfold io_enter. hs. apply hs_check. Qed.
Lemma hs_io_raise {A} w : keeps hst (@io_raise A w).
Proof. unfold io_raise. hs. Qed.
Lemma hs_file_write w d : keeps hst (file_write w d).
Proof.
  unfold file_write. hs; first [apply hs_io_enter|apply hs_io_raise|apply hs_bwrite|apply hs_bseek|apply hs_btrunc|apply hs_try_flush].
Qed.
Lemma hs_file_read w n : keeps hst (file_read w n).
Proof. unfold file_read. hs; try first [apply hs_io_enter|apply hs_io_raise|apply hs_sync|apply hs_flush|apply hs_bseek]. Qed.
Lemma hs_file_seek w o h : keeps hst (file_seek w o h).
Proof. unfold file_seek. hs; first [apply hs_check|apply hs_bseek|apply hs_flush]. Qed.
Lemma hs_file_tell w : keeps hst (file_tell w).
Proof. unfold file_tell. hs; first [apply hs_check|apply hs_bseek|apply hs_flush]. Qed.
Lemma hs_adapt w z : keeps hst (adapt_related w z).
Proof. unfold adapt_related. hs. apply hs_for_each. intros v. hs. Qed.
Lemma hs_file_truncate w n : keeps hst (file_truncate w n).
Proof.
  unfold file_truncate. hs; first [apply hs_io_enter|apply hs_io_raise|apply hs_bwrite|apply hs_bseek|apply hs_flush|apply hs_adapt].
Qed.
Lemma hs_flush_wrapper w : keeps hst (flush_wrapper w).
Proof. unfold flush_wrapper. hs; apply hs_flush. Qed.
Lemma hs_os_read fd n : keeps hst (os_read fd n).
Proof. unfold os_read. hs. apply hs_file_read. Qed.
Lemma hs_os_write fd n : keeps hst (os_write fd n).
Proof. unfold os_write, update_flush_pos. hs; first [apply hs_sync|apply hs_file_write|apply hs_flush]. Qed.
Lemma hs_init_file fo a b om : keeps hst (init_file_object fo a b om).
Proof. unfold init_file_object. hs. apply oo_hst_k, oo_create_int. Qed.
Lemma hs_file_arg a d : keeps hst (handle_file_arg a d).
Proof. unfold handle_file_arg. hs. Qed.
Lemma hs_outm {A} (f : A -> out) m : keeps hst m -> keeps hst (outm f m).
Proof. intros H. unfold outm. kr. exact H. Qed.
(** the calls that open or close *)
Definition fd_call (o : op) : bool :=
  match o with Open _ _ _ _ | OsOpen _ _ _ _ | OsClose _ | OsPipe | HClose _ => true | _ => false end.
Lemma hs_chdir a : keeps hst (chdir a).
Proof.
  intros s. assert (K : exists p, snd (chdir a s) = s \/ snd (chdir a s) = set_cwd s p).
  { change (wp (chdir a) s (fun _ s' => exists p, s' = s \/ s' = set_cwd s p)). unfold chdir. wstep. apply wp_bind, wp_catch.
    wstep. destruct (resolve_path_arg s a) as [p|e]; cbv beta iota.
    - wstep. destruct (confirmdir s p); [|exists []; left; reflexivity]. wstep.
      destruct (resolve s p true); [|exists []; left; reflexivity].
      wstep. destruct (_ && _); [exists []; left; reflexivity|]. unfold wp, modify. exists p. right; reflexivity.
    - destruct e as [e| | | | | | | | | |]; try (exists []; left; reflexivity).
      destruct e; try (exists []; left; reflexivity). destruct (c_mac _); exists []; left; reflexivity. }
  destruct K as (p & [-> | ->]); unfold hst; auto.
Qed.
Lemma hs_modify f : (forall s, hst s (f s)) -> keeps hst (modify f).
Proof. intros H s. apply H. Qed.
Lemma hs_step o : fd_call o = false -> keeps hst (step o).
Proof.
  intros H. destruct (io_call o) eqn:E.
  - destruct o; try discriminate; cbn [step]; apply hs_outm;
      [apply hs_os_read|apply hs_os_write|apply hs_file_read|apply hs_file_write|apply hs_file_seek|apply hs_file_tell
      |apply hs_file_truncate|apply hs_flush_wrapper].
  - destruct (env_call o) eqn:Ee.
    + destruct o; try discriminate; cbn [step]; apply hs_outm.
      * intros s. unfold umask. unfold hst; auto.
      * apply hs_chdir.
      * apply hs_modify; intros s; unfold hst; auto.
      * apply hs_modify; intros s; unfold hst; auto.
      * apply hs_modify; intros s; unfold hst; auto.
    + apply oo_hst_k, fs_call_only_objects. destruct o; try reflexivity; discriminate.
Qed.

(** ** Slots *)
Definition slot (s : fs) (fd : Z) : option (option (list wid)) :=
  if (fd <? 0)%Z then None else nth_error (f_open s) (Z.to_nat fd).
(** the descriptor [fd] is in use *)
Definition fd_used (s : fs) (fd : Z) : Prop := exists l, slot s fd = Some (Some l).

Record Finv (s : fs) : Prop := mkFinv {
  fi_sorted : StronglySorted Z.lt (f_free s);
  fi_free : forall fd, In fd (f_free s) <-> slot s fd = Some None;
  fi_fd : forall fd l w, slot s fd = Some (Some l) -> In w l -> w < f_wnext s /\ w_fd (wr s w) = fd
}.

Lemma set_nth_length {A} (l : list A) : forall i v, length (set_nth l i v) = length l.
Proof. induction l as [|x l IH]; intros [|i] v; cbn; auto. Qed.
Lemma set_nth_same {A} (l : list A) : forall i v, i < length l -> nth_error (set_nth l i v) i = Some v.
Proof. induction l as [|x l IH]; intros [|i] v H; cbn in *; try lia; auto. apply IH; lia. Qed.
Lemma set_nth_other {A} (l : list A) : forall i j v, i <> j -> nth_error (set_nth l i v) j = nth_error l j.
Proof. induction l as [|x l IH]; intros [|i] [|j] v H; cbn; auto; try lia.  Qed.

Lemma slot_range s fd v : slot s fd = Some v -> (0 <= fd)%Z /\ Z.to_nat fd < length (f_open s).
Proof.
  unfold slot. destruct (fd <? 0)%Z eqn:E; [discriminate|]. apply Z.ltb_ge in E. intros H. split; [exact E|].
  apply nth_error_Some. rewrite H. discriminate.
Qed.
Lemma slot_py_set s s' fd v : f_open s' = py_set (f_open s) fd v -> (0 <= fd)%Z -> Z.to_nat fd < length (f_open s) ->
  slot s' fd = Some v /\ (forall j, j <> fd -> slot s' j = slot s j).
Proof.
  intros H H0 Hl. unfold slot. rewrite H. unfold py_set, py_pos.
  destruct (fd <? 0)%Z eqn:E; [apply Z.ltb_lt in E; lia|]. split.
  - apply set_nth_same, Hl.
  - intros j Hj. destruct (j <? 0)%Z eqn:Ej; [reflexivity|]. apply Z.ltb_ge in Ej. apply set_nth_other. lia.
Qed.
Lemma slot_app s s' v : f_open s' = f_open s ++ [v] ->
  slot s' (Z.of_nat (length (f_open s))) = Some v /\ (forall j, j <> Z.of_nat (length (f_open s)) -> slot s' j = slot s j).
Proof.
  intros H. unfold slot. rewrite H. split.
  - destruct (_ <? 0)%Z eqn:E; [apply Z.ltb_lt in E; lia|]. rewrite Nat2Z.id, nth_error_app2, Nat.sub_diag by lia. reflexivity.
  - intros j Hj. destruct (j <? 0)%Z eqn:Ej; [reflexivity|]. apply Z.ltb_ge in Ej.
    destruct (Nat.lt_ge_cases (Z.to_nat j) (length (f_open s))) as [Hlt|Hge].
    + apply nth_error_app1, Hlt.
    + transitivity (@None (option (list wid))); [|symmetry]; apply nth_error_None; [rewrite app_length; cbn; lia|lia].
Qed.
Lemma slot_below s j : (0 <= j)%Z -> Z.to_nat j < length (f_open s) -> slot s j <> Some None -> fd_used s j.
Proof.
  intros H0 Hl Hn. unfold fd_used, slot in *. destruct (j <? 0)%Z eqn:E; [apply Z.ltb_lt in E; lia|].
  destruct (nth_error (f_open s) (Z.to_nat j)) as [[l|]|] eqn:En.
  - exists l; reflexivity.
  - congruence.
  - apply nth_error_None in En. lia.
Qed.
Lemma slot_index s fd v : slot s fd = Some v -> py_index (f_open s) fd = Some v.
Proof. unfold slot, py_index. destruct (fd <? 0)%Z; [discriminate|exact (fun H => H)]. Qed.
Lemma index_slot s fd : (0 <= fd)%Z -> py_index (f_open s) fd = slot s fd.
Proof. unfold slot, py_index. intros H. destruct (fd <? 0)%Z eqn:E; [apply Z.ltb_lt in E; lia|reflexivity]. Qed.

Lemma Finv_hst s s' : hst s s' -> Finv s -> Finv s'.
Proof.
  intros (H1 & H2 & H3 & H4) [A B C]. constructor.
  - rewrite H2; exact A.
  - intros fd. rewrite H2. unfold slot. rewrite H1. apply B.
  - intros fd l w. unfold slot. rewrite H1, H3. intros Hs Hi. specialize (C fd l w Hs Hi). specialize (H4 w).
    unfold wstat in H4. injection H4 as _ _ _ _ _ _ _ _ H4. rewrite H4. exact C.
Qed.
Lemma slot_hst s s' : hst s s' -> forall fd, slot s' fd = slot s fd.
Proof. intros (H1 & _) fd. unfold slot. rewrite H1. reflexivity. Qed.
Lemma used_hst s s' : hst s s' -> forall fd, fd_used s' fd <-> fd_used s fd.
Proof. intros H fd. unfold fd_used. rewrite (slot_hst _ _ H). reflexivity. Qed.

(** ** What opening does to the table *)
Record opened (s s' : fs) (w : wid) (fd : Z) : Prop := mkOpened {
  op_new : w = f_wnext s;
  op_next : f_wnext s' = S (f_wnext s);
  op_free : (0 <= fd)%Z /\ ~ fd_used s fd;
  op_least : forall j, (0 <= j < fd)%Z -> fd_used s j;
  op_slot : slot s' fd = Some (Some [w]);
  op_others : forall j, j <> fd -> slot s' j = slot s j;
  op_fd : w_fd (wr s' w) = fd;
  op_wraps : forall v, v <> w -> wstat (wr s' v) = wstat (wr s v);
  op_inv : Finv s'
}.
Lemma opened_hst_l s s1 s' w fd : hst s s1 -> opened s1 s' w fd -> opened s s' w fd.
Proof.
  intros H [A B C D E F G I J]. pose proof H as (H1 & H2 & H3 & H4). constructor; auto.
  - congruence.
  - congruence.
  - rewrite <- (used_hst _ _ H). exact C.
  - intros j Hj. rewrite <- (used_hst _ _ H). auto.
  - intros j Hj. rewrite <- (slot_hst _ _ H). auto.
  - intros v Hv. rewrite <- H4. auto.
Qed.
Lemma opened_hst_r s s1 s' w fd : opened s s1 w fd -> hst s1 s' -> opened s s' w fd.
Proof.
  intros [A B C D E F G I J] H. pose proof H as (H1 & H2 & H3 & H4). constructor; auto.
  - congruence.
  - rewrite (slot_hst _ _ H). exact E.
  - intros j Hj. rewrite (slot_hst _ _ H). auto.
  - specialize (H4 w). unfold wstat in H4. congruence.
  - intros v Hv. rewrite H4. auto.
  - exact (Finv_hst _ _ H J).
Qed.

Lemma add_wrap_opened x s : Finv s ->
  exists fd, opened s (snd (add_wrap x s)) (f_wnext s) fd /\ fst (add_wrap x s) = Ok (f_wnext s) /\
             wr (snd (add_wrap x s)) (f_wnext s) = ww_fd x fd.
Proof.
  intros [A B C].
  assert (Hn : forall fd s', (exists fr, s' = set_free (set_open (set_wnext (set_wraps s (upd (f_wraps s) (f_wnext s) x)) (S (f_wnext s))) (f_open s')) fr) ->
     slot s' fd = Some (Some [f_wnext s]) -> (forall j, j <> fd -> slot s' j = slot s j) ->
     (0 <= fd)%Z -> ~ fd_used s fd -> (forall j, (0 <= j < fd)%Z -> fd_used s j) ->
     StronglySorted Z.lt (f_free s') -> (forall j, In j (f_free s') <-> slot s' j = Some None) ->
     opened s (mod_wr s' (f_wnext s) (fun y => ww_fd y fd)) (f_wnext s) fd /\
     wr (mod_wr s' (f_wnext s) (fun y => ww_fd y fd)) (f_wnext s) = ww_fd x fd).
  { intros fd s' (fr & Hs') Hsl Hot H0 Hu Hle Hso Hfr. split.
    2:{ rewrite Hs'. unfold wr, mod_wr. cbn. unfold upd. rewrite !Nat.eqb_refl. reflexivity. }
    constructor; auto.
    - rewrite Hs'. reflexivity.
    - rewrite Hs'. unfold wr, mod_wr. cbn. unfold upd. rewrite !Nat.eqb_refl. reflexivity.
    - intros v Hv. rewrite Hs'. unfold wr, mod_wr. cbn. unfold upd. rewrite (proj2 (Nat.eqb_neq _ _) Hv). reflexivity.
    - constructor; auto.
      intros j l w Hj Hw. change (slot s' j = Some (Some l)) in Hj.
      destruct (Z.eq_dec j fd) as [->|Hj'].
      + rewrite Hsl in Hj. injection Hj as <-. destruct Hw as [<-|[]]. rewrite Hs'. unfold wr, mod_wr. cbn. split; [lia|].
        unfold upd. rewrite !Nat.eqb_refl. reflexivity.
      + rewrite Hot in Hj by exact Hj'. destruct (C j l w Hj Hw) as [Cw Cf]. rewrite Hs'. unfold wr, mod_wr. cbn. split; [lia|].
        unfold upd. rewrite (proj2 (Nat.eqb_neq w (f_wnext s))) by lia. exact Cf. }
  unfold add_wrap, alloc_wrap, add_open_file, bind, wmod, modify, ret. cbn [fst snd].
  change (f_free (set_wnext (set_wraps s (upd (f_wraps s) (f_wnext s) x)) (S (f_wnext s)))) with (f_free s).
  destruct (f_free s) as [|fd h] eqn:Ef; cbn [fst snd].
  - exists (Z.of_nat (length (f_open s))).
    change (f_open (set_wnext (set_wraps s (upd (f_wraps s) (f_wnext s) x)) (S (f_wnext s)))) with (f_open s).
    set (s' := set_open _ _).
    assert (Hs : forall j, slot s j = Some None -> False).
    { intros j Hj. apply B in Hj. destruct Hj. }
    destruct (slot_app s s' (Some [f_wnext s]) eq_refl) as [K1 K2].
    assert (Hf : f_free s' = []) by exact Ef.
    destruct (Hn (Z.of_nat (length (f_open s))) s') as [R1 R2]; auto.
    + exists []. clear - Ef. subst s'. destruct s; cbn in *; subst; reflexivity.
    + lia.
    + intros (l & Hl). apply slot_range in Hl. lia.
    + intros j Hj. apply slot_below; [lia|lia|]. intros He; eapply Hs, He.
    + rewrite Hf. constructor.
    + rewrite Hf. intros j. split; [intros []|]. intros Hj. destruct (Z.eq_dec j (Z.of_nat (length (f_open s)))) as [->|Hne].
      * rewrite K1 in Hj. discriminate.
      * rewrite K2 in Hj by exact Hne. destruct (Hs _ Hj).
  - exists fd.
    change (f_open (set_wnext (set_wraps s (upd (f_wraps s) (f_wnext s) x)) (S (f_wnext s)))) with (f_open s).
    set (s' := set_free _ _).
    assert (Hfd : slot s fd = Some None) by (apply B; left; reflexivity).
    destruct (slot_range _ _ _ Hfd) as [R0 Rl].
    destruct (slot_py_set s s' fd (Some [f_wnext s]) eq_refl R0 Rl) as [K1 K2].
    apply StronglySorted_inv in A. destruct A as [A1 A2]. rewrite Forall_forall in A2.
    destruct (Hn fd s') as [R1 R2]; auto.
    + exists h. subst s'. destruct s; reflexivity.
    + intros (l & Hl). rewrite Hfd in Hl. discriminate.
    + intros j Hj. apply slot_below; [lia|lia|]. intros He. apply B in He. destruct He as [He|He]; [lia|]. specialize (A2 _ He). lia.
    + change (f_free s') with h. intros j. split.
      * intros Hj. specialize (A2 _ Hj). rewrite K2 by lia. apply B. right; exact Hj.
      * intros Hj. destruct (Z.eq_dec j fd) as [->|Hne]; [rewrite K1 in Hj; discriminate|].
        rewrite K2 in Hj by exact Hne. apply B in Hj. destruct Hj as [Hj|Hj]; [congruence|exact Hj].
Qed.

(** ** What closing does to the table *)
Lemma heap_push_in x h : forall y, In y (heap_push x h) <-> y = x \/ In y h.
Proof.
  induction h as [|z h IH]; intros y; cbn [heap_push].
  - cbn. intuition.
  - destruct (x <=? z)%Z; [cbn; intuition|]. cbn [In]. rewrite IH. intuition.
Qed.
Lemma heap_push_sorted x h : ~ In x h -> StronglySorted Z.lt h -> StronglySorted Z.lt (heap_push x h).
Proof.
  induction h as [|z h IH]; intros Hn Hs; cbn [heap_push].
  - repeat constructor.
  - pose proof Hs as Hs0. apply StronglySorted_inv in Hs. destruct Hs as [H1 H2]. rewrite Forall_forall in H2.
    destruct (x <=? z)%Z eqn:E.
    + apply Z.leb_le in E. assert (x <> z) by (intros ->; apply Hn; left; reflexivity).
      constructor; [exact Hs0|]. rewrite Forall_forall. intros y [<-|Hy]; [lia|]. specialize (H2 _ Hy). lia.
    + apply Z.leb_gt in E. constructor.
      * apply IH; [|exact H1]. intros Hi; apply Hn; right; exact Hi.
      * rewrite Forall_forall. intros y Hy. apply heap_push_in in Hy. destruct Hy as [->|Hy]; [exact E|apply H2, Hy].
Qed.
Record closed_to (s s' : fs) (fd : Z) (v : option (list wid)) : Prop := mkClosed {
  cl_slot : slot s' fd = Some v;
  cl_others : forall j, j <> fd -> slot s' j = slot s j;
  cl_next : f_wnext s' = f_wnext s;
  cl_wraps : forall w, wstat (wr s' w) = wstat (wr s w);
  cl_inv : Finv s'
}.
Lemma closed_hst_l s s1 s' fd v : hst s s1 -> closed_to s1 s' fd v -> closed_to s s' fd v.
Proof.
  intros H [A B C D E]. pose proof H as (H1 & H2 & H3 & H4). constructor; auto.
  - intros j Hj. rewrite <- (slot_hst _ _ H). auto.
  - congruence.
  - intros w. rewrite D. apply H4.
Qed.
Lemma closed_hst_r s s1 s' fd v : closed_to s s1 fd v -> hst s1 s' -> closed_to s s' fd v.
Proof.
  intros [A B C D E] H. pose proof H as (H1 & H2 & H3 & H4). constructor; auto.
  - rewrite (slot_hst _ _ H). exact A.
  - intros j Hj. rewrite (slot_hst _ _ H). auto.
  - congruence.
  - intros w. rewrite H4. apply D.
  - exact (Finv_hst _ _ H E).
Qed.
Lemma close_open_closed s fd l : Finv s -> slot s fd = Some (Some l) -> closed_to s (snd (close_open_file fd s)) fd None.
Proof.
  intros [A B C] Hs. destruct (slot_range _ _ _ Hs) as [H0 Hl]. unfold close_open_file, modify. cbn [snd]. set (s' := set_free _ _).
  destruct (slot_py_set s s' fd None eq_refl H0 Hl) as [K1 K2]. constructor; auto. constructor.
  - apply heap_push_sorted; [|exact A]. intros Hi. apply B in Hi. congruence.
  - intros j. change (f_free s') with (heap_push fd (f_free s)). rewrite heap_push_in, B.
    destruct (Z.eq_dec j fd) as [->|Hj].
    + rewrite K1. intuition.
    + rewrite K2 by exact Hj. intuition.
  - intros j l' w Hj Hw. destruct (Z.eq_dec j fd) as [->|Hne]; [rewrite K1 in Hj; discriminate|].
    rewrite K2 in Hj by exact Hne. exact (C _ _ _ Hj Hw).
Qed.
Lemma shrink_closed s fd l w : Finv s -> slot s fd = Some (Some l) ->
  closed_to s (set_open s (py_set (f_open s) fd (Some (List.remove Nat.eq_dec w l)))) fd (Some (List.remove Nat.eq_dec w l)).
Proof.
  intros [A B C] Hs. destruct (slot_range _ _ _ Hs) as [H0 Hl]. set (s' := set_open _ _).
  destruct (slot_py_set s s' fd (Some (List.remove Nat.eq_dec w l)) eq_refl H0 Hl) as [K1 K2]. constructor; auto. constructor.
  - exact A.
  - intros j. change (f_free s') with (f_free s). rewrite B. destruct (Z.eq_dec j fd) as [->|Hj].
    + rewrite K1, Hs. split; discriminate.
    + rewrite K2 by exact Hj. reflexivity.
  - intros j l' v Hj Hv. destruct (Z.eq_dec j fd) as [->|Hne].
    + rewrite K1 in Hj. injection Hj as <-. apply in_remove in Hv. exact (C _ _ _ Hs (proj1 Hv)).
    + rewrite K2 in Hj by exact Hne. exact (C _ _ _ Hj Hv).
Qed.

Lemma is_open_slot s w : Finv s -> is_open s w = true ->
  exists l, slot s (w_fd (wr s w)) = Some (Some l) /\ In w l.
Proof.
  intros [A B C] H. unfold is_open in H. apply andb_true_iff in H. destruct H as [H1 H2].
  destruct (py_index (f_open s) (w_fd (wr s w))) as [[l|]|] eqn:E; try discriminate.
  apply existsb_exists in H2. destruct H2 as (v & Hv & He). apply Nat.eqb_eq in He. subst v.
  exists l. split; [|exact Hv]. unfold py_index in E. destruct (w_fd (wr s w) <? 0)%Z eqn:En.
  - destruct (_ <? 0)%Z eqn:E2 in E; [discriminate|]. apply Z.ltb_ge in E2. apply Z.ltb_lt in En.
    assert (Hs : slot s (Z.of_nat (length (f_open s)) + w_fd (wr s w))%Z = Some (Some l)).
    { unfold slot. destruct (_ <? 0)%Z eqn:E3; [apply Z.ltb_lt in E3; lia|exact E]. }
    destruct (C _ _ _ Hs Hv) as [_ Cf]. apply slot_range in Hs. lia.
  - unfold slot. rewrite En. exact E.
Qed.
Lemma slot_is_open s w l : slot s (w_fd (wr s w)) = Some (Some l) -> In w l -> is_open s w = true.
Proof.
  intros H Hi. unfold is_open. rewrite (slot_index _ _ _ H). destruct (slot_range _ _ _ H) as [H0 Hl].
  apply andb_true_iff. split; [apply Z.ltb_lt; lia|]. apply existsb_exists. exists w. split; [exact Hi|apply Nat.eqb_refl].
Qed.
Lemma is_open_hst s s' w : hst s s' -> is_open s' w = is_open s w.
Proof.
  intros (H1 & H2 & H3 & H4). unfold is_open. rewrite H1. specialize (H4 w). unfold wstat in H4.
  assert (E : w_fd (wr s' w) = w_fd (wr s w)) by congruence. rewrite E. reflexivity.
Qed.

(** the list left in the slot *)
Definition left_by (x : wrapper) (w : wid) (l : list wid) : option (list wid) :=
  match w_kind x with
  | WPipe => Some (List.remove Nat.eq_dec w l)
  | WFile => if w_closefd x then None else Some (List.remove Nat.eq_dec w l)
  | _ => None
  end.
Lemma wp_hst {A} (m : M A) s : keeps hst m -> wp m s (fun _ s' => hst s s').
Proof. intros H. exact (H s). Qed.
Lemma close_spec w s : Finv s ->
  (w_kind (wr s w) = WDirW -> exists l, slot s (w_fd (wr s w)) = Some (Some l)) ->
  wp (close_wrapper w) s (fun r s' =>
    (hst s s' /\ (r = Ok tt -> w_kind (wr s w) = WStd \/ s' = s /\ is_open s w = false)) \/
    exists l, slot s (w_fd (wr s w)) = Some (Some l) /\ closed_to s s' (w_fd (wr s w)) (left_by (wr s w) w l)).
Proof.
  intros HF Hd. unfold close_wrapper, wget. wstep. unfold left_by. destruct (w_kind (wr s w)) eqn:Ek.
  - (* WStd *) apply wp_ret. left. split; [reflexivity|auto].
  - (* WDirW *)
    destruct (Hd eq_refl) as (l & Hl). right. exists l. split; [exact Hl|]. exact (close_open_closed _ _ _ HF Hl).
  - (* WPipe *)
    wstep. destruct (py_index (f_open s) (w_fd (wr s w))) as [[l|]|] eqn:E.
    2:{ apply wp_raise. left. split; [reflexivity|discriminate]. }
    2:{ apply wp_raise. left. split; [reflexivity|discriminate]. }
    destruct (existsb (Nat.eqb w) l) eqn:Ex.
    2:{ apply wp_raise. left. split; [reflexivity|discriminate]. }
    assert (Hl : slot s (w_fd (wr s w)) = Some (Some l)).
    { destruct (is_open_slot s w HF) as (l' & Hl' & _).
      - unfold is_open. rewrite E, Ex, andb_true_r. apply Z.ltb_lt. unfold py_index in E.
        destruct (_ <? 0)%Z eqn:En; [apply Z.ltb_lt in En; lia|].
        assert (Z.to_nat (w_fd (wr s w)) < length (f_open s)) by (apply nth_error_Some; rewrite E; discriminate). lia.
      - rewrite (slot_index _ _ _ Hl') in E. congruence. }
    apply wp_modify. right. exists l. split; [exact Hl|]. apply shrink_closed; assumption.
  - (* WFile *)
    unfold close_file. wstep. destruct (is_open s w) eqn:Eo; cbn [negb].
    2:{ apply wp_ret. left. split; [reflexivity|]. intros _. right. auto. }
    destruct (is_open_slot _ _ HF Eo) as (l & Hl & Hw).
    unfold wget. wstep. apply wp_bind.
    apply (wp_conseq _ _ (fun r s' => hst s s')).
    { destruct (_ && _); [|apply wp_ret; reflexivity]. apply wp_hst. hs. apply hs_flush. }
    intros r1 s1 H1. destruct r1 as [[]|e].
    2:{ left. split; [exact H1|discriminate]. }
    pose proof (Finv_hst _ _ H1 HF) as HF1. pose proof Hl as Hl1. rewrite <- (slot_hst _ _ H1) in Hl1.
    apply wp_bind.
    apply (wp_conseq _ _ (fun r s' => r = Ok tt /\ closed_to s s' (w_fd (wr s w)) (if w_closefd (wr s w) then None else Some (List.remove Nat.eq_dec w l)))).
    { destruct (w_closefd (wr s w)).
      - split; [reflexivity|]. exact (closed_hst_l _ _ _ _ _ H1 (close_open_closed _ _ _ HF1 Hl1)).
      - apply wp_modify. split; [reflexivity|]. rewrite (slot_index _ _ _ Hl1).
        exact (closed_hst_l _ _ _ _ _ H1 (shrink_closed _ _ _ w HF1 Hl1)). }
    intros r2 s2 (-> & H2). destruct (w_del (wr s w)).
    + apply (wp_conseq _ _ (fun r s' => hst s2 s')).
      { apply wp_hst. hs. apply oo_hst_k, oo_remove_object. }
      intros r3 s3 H3. right. exists l. split; [exact Hl|]. exact (closed_hst_r _ _ _ _ _ H2 H3).
    + apply wp_ret. right. exists l. auto.
Qed.

(** ** fdopen: a second handle on a descriptor *)
Record joined (s s' : fs) (w : wid) (fd : Z) (l : list wid) : Prop := mkJoined {
  jo_new : w = f_wnext s;
  jo_next : f_wnext s' = S (f_wnext s);
  jo_was : slot s fd = Some (Some l);
  jo_slot : slot s' fd = Some (Some (l ++ [w]));
  jo_others : forall j, j <> fd -> slot s' j = slot s j;
  jo_fd : w_fd (wr s' w) = fd;
  jo_wraps : forall v, v <> w -> wstat (wr s' v) = wstat (wr s v);
  jo_inv : Finv s'
}.
Lemma joined_hst_l s s1 s' w fd l : hst s s1 -> joined s1 s' w fd l -> joined s s' w fd l.
Proof.
  intros H [A B C D E F G I]. pose proof H as (H1 & H2 & H3 & H4). constructor; auto.
  - congruence.
  - congruence.
  - rewrite <- (slot_hst _ _ H). exact C.
  - intros j Hj. rewrite <- (slot_hst _ _ H). auto.
  - intros v Hv. rewrite <- H4. auto.
Qed.
Lemma join_joined s fd l x : Finv s -> slot s fd = Some (Some l) ->
  let s1 := snd (alloc_wrap (ww_fd x fd) s) in
  joined s (set_open s1 (py_set (f_open s1) fd (Some (l ++ [f_wnext s])))) (f_wnext s) fd l.
Proof.
  intros [A B C] Hs s1. destruct (slot_range _ _ _ Hs) as [H0 Hl]. set (s' := set_open _ _).
  destruct (slot_py_set s s' fd (Some (l ++ [f_wnext s])) eq_refl H0 Hl) as [K1 K2]. constructor; auto.
  - unfold s', s1, wr, alloc_wrap. cbn. unfold upd. rewrite Nat.eqb_refl. reflexivity.
  - intros v Hv. unfold s', s1, wr, alloc_wrap. cbn. unfold upd. rewrite (proj2 (Nat.eqb_neq _ _) Hv). reflexivity.
  - constructor.
    + exact A.
    + intros j. change (f_free s') with (f_free s). rewrite B. destruct (Z.eq_dec j fd) as [->|Hj].
      * rewrite K1, Hs. split; discriminate.
      * rewrite K2 by exact Hj. reflexivity.
    + intros j l' v Hj Hv. unfold s', s1, wr, alloc_wrap. cbn. unfold upd.
      destruct (Nat.eqb v (f_wnext s)) eqn:Ev.
      * apply Nat.eqb_eq in Ev. subst v. split; [lia|]. cbn. destruct (Z.eq_dec j fd) as [->|Hne]; [reflexivity|].
        rewrite K2 in Hj by exact Hne. destruct (C _ _ _ Hj Hv). lia.
      * destruct (Z.eq_dec j fd) as [->|Hne].
        -- rewrite K1 in Hj. injection Hj as <-. apply in_app_iff in Hv. destruct Hv as [Hv|[Hv|[]]].
           ++ destruct (C _ _ _ Hs Hv) as [C1 C2]. split; [lia|exact C2].
           ++ apply Nat.eqb_neq in Ev. congruence.
        -- rewrite K2 in Hj by exact Hne. destruct (C _ _ _ Hj Hv) as [C1 C2]. split; [lia|exact C2].
Qed.

Definition file_or_pipe (x : wrapper) : Prop := w_kind x = WFile \/ w_kind x = WPipe.
Lemma wp_file_arg_str p d s : wp (handle_file_arg (PStr p) d) s (fun r s' => s' = s /\ forall fa, r = Ok fa -> exists fo, fa = inr fo /\ fa_fd fo = None).
Proof.
  cbn [handle_file_arg]. wstep. destruct (str_eqb _ _).
  - apply wp_ret. split; [reflexivity|]. intros fa E. injection E as <-. eexists; split; reflexivity.
  - wstep. destruct (resolve_path s p); [|split; [reflexivity|discriminate]].
    wstep. destruct (exists_ s p false) as [b|]; [|split; [reflexivity|discriminate]].
    destruct b.
    + wstep. wstep. destruct (get_norm _ _ _ _).
      * wstep. wstep. split; [reflexivity|]. intros fa E. injection E as <-. eexists; split; reflexivity.
      * split; [reflexivity|discriminate].
    + wstep. wstep. split; [reflexivity|]. intros fa E. injection E as <-. eexists; split; reflexivity.
Qed.
Lemma wp_file_arg_fd fd d s : wp (handle_file_arg (PFd fd) d) s (fun r s' => s' = s /\ forall fa, r = Ok fa ->
   (exists w, get_open_file s fd = Ok w) /\ (fa = inl fd \/ exists fo, fa = inr fo /\ fa_fd fo = Some fd)).
Proof.
  cbn [handle_file_arg]. wstep. destruct (get_open_file s fd) as [w|]; [|split; [reflexivity|discriminate]].
  unfold wget. wstep. destruct (w_kind (wr s w)).
  - wstep. split; [reflexivity|discriminate].
  - wstep. split; [reflexivity|discriminate].
  - wstep. split; [reflexivity|]. intros fa E. injection E as <-. eauto.
  - wstep. wstep. split; [reflexivity|]. intros fa E. injection E as <-. split; [eauto|]. right. eexists; split; reflexivity.
Qed.
Lemma get_open_used s fd w : (0 <= fd)%Z -> get_open_file s fd = Ok w -> exists l, slot s fd = Some (Some (w :: l)).
Proof.
  intros H0. unfold get_open_file. destruct (_ <=? _)%Z; [discriminate|]. rewrite index_slot by exact H0.
  destruct (slot s fd) as [[[|v l]|]|]; try discriminate. intros E. injection E as ->. eauto.
Qed.

Lemma open_call_spec a om b cf raw del s : Finv s -> (forall fd, a = PFd fd -> (0 <= fd)%Z) ->
  wp (open_call a om b cf raw del) s (fun r s' =>
    match r with
    | Err _ => hst s s'
    | Ok w => file_or_pipe (wr s' w) /\
              ((exists fd, opened s s' w fd) \/ (exists fd l, a = PFd fd /\ joined s s' w fd l))
    end).
Proof.
  intros HF Ha. unfold open_call. apply wp_bind.
  assert (Hop : forall s1 x, hst s s1 -> file_or_pipe x -> wp (add_wrap x) s1 (fun r s' =>
     match r with Err _ => hst s s' | Ok w => file_or_pipe (wr s' w) /\ ((exists fd, opened s s' w fd) \/ (exists fd l, a = PFd fd /\ joined s s' w fd l)) end)).
  { intros s1 x H1 Hx. destruct (add_wrap_opened x s1 (Finv_hst _ _ H1 HF)) as (fd & K1 & K2 & K3).
    unfold wp. rewrite K2. split.
    - rewrite K3. exact Hx.
    - left. exists fd. exact (opened_hst_l _ _ _ _ _ H1 K1). }
  apply (wp_conseq _ _ (fun r s' => s' = s /\ forall fa, r = Ok fa ->
     match fa with inl _ => True | inr fo => match fa_fd fo with None => True | Some fd => a = PFd fd /\ exists l, slot s fd = Some (Some l) end end)).
  { destruct a as [p|fd].
    - eapply wp_conseq; [apply wp_file_arg_str|]. cbv beta. intros r s1 (-> & H). split; [reflexivity|]. intros fa E.
      destruct (H _ E) as (fo & -> & ->). exact I.
    - eapply wp_conseq; [apply wp_file_arg_fd|]. cbv beta. intros r s1 (-> & H). split; [reflexivity|]. intros fa E.
      destruct (H _ E) as ((w & Hw) & [->|(fo & -> & Ef)]); [exact I|]. rewrite Ef. split; [reflexivity|].
      destruct (get_open_used _ _ _ (Ha _ eq_refl) Hw) as (l & Hl). eauto. }
  intros r s1 (-> & Hfa). destruct r as [fa|e]; [|reflexivity]. specialize (Hfa _ eq_refl).
  destruct fa as [fd|fo]; [apply Hop; [reflexivity|right; reflexivity]|].
  wstep. cbv zeta. apply wp_bind.
  match goal with |- wp ?m s ?Q => apply (wp_conseq m s (fun r s' => s' = s)) end.
  { destruct (om_must_not_exist om); [|reflexivity]. destruct (fa_obj fo); [reflexivity|]. wstep. destruct (islink _ _); reflexivity. }
  intros r s1 ->. destruct r as [[|]|]; [apply wp_raise_os; reflexivity| |reflexivity]. 
  apply wp_bind. eapply wp_conseq; [apply wp_hst, hs_init_file|]. cbv beta. intros r s1 H1.
  destruct r as [o|e]; [|exact H1]. wstep. destruct (S_ISDIR _); [apply wp_raise_os, H1|]. wstep.
  apply wp_bind. eapply wp_conseq; [apply wp_hst|].
  { destruct (om_trunc om); hs. }
  cbv beta. intros r s2 H2'. assert (H2 : hst s s2) by (etransitivity; eassumption). clear H2'.
  destruct r as [_|e]; [|exact H2]. wstep. destruct (is_dirobj _ _); [apply wp_raise, H2|]. wstep. wstep.
  destruct (fa_fd fo) as [fd|].
  - destruct Hfa as (-> & l & Hl). pose proof (Finv_hst _ _ H2 HF) as HF2. pose proof Hl as Hl2. rewrite <- (slot_hst _ _ H2) in Hl2.
    set (x := init_wrapper _ _ _ _ _ _ _ _). pose proof (join_joined s2 fd l x HF2 Hl2) as Hj. cbv zeta in Hj.
    apply wp_bind. unfold wp at 1. cbn [alloc_wrap fst snd]. wstep.
    change (f_open (snd (alloc_wrap (ww_fd x fd) s2))) with (f_open s2) in Hj.
    change (py_index (f_open (set_wnext (set_wraps s2 (upd (f_wraps s2) (f_wnext s2) (ww_fd x fd))) (S (f_wnext s2)))) fd) with (py_index (f_open s2) fd).
    rewrite (slot_index _ _ _ Hl2). apply wp_ret. split.
    + left. unfold wr. cbn. unfold upd. rewrite Nat.eqb_refl. reflexivity.
    + right. exists fd, l. split; [reflexivity|]. exact (joined_hst_l _ _ _ _ _ _ H2 Hj).
  - apply Hop; [exact H2|left; reflexivity].
Qed.

(** ** os.open and os.pipe *)
Lemma os_open_spec p fl m u s : Finv s ->
  wp (os_open p fl m u) s (fun r s' =>
    (hst s s' /\ exists e, r = Err e) \/
    exists w fd, opened s s' w fd /\ (forall n, r = Ok n -> n = fd)).
Proof.
  intros HF. unfold os_open. wstep. wstep. cbv zeta. set (tmp := has_bit fl O_TMPFILE). set (om := mkom _ _ _ _ _ _).
  destruct (om_must_not_exist om && om_must_exist om); [apply wp_raise; left; split; [reflexivity|eauto]|].
  apply wp_bind. match goal with |- wp ?m s ?Q => apply (wp_conseq m s (fun r s' => s' = s)) end.
  { destruct tmp; [|reflexivity]. destruct (joinpaths _ _); reflexivity. }
  intros r s1 ->. destruct r as [p'|e]; [|left; split; [reflexivity|eauto]].
  apply wp_bind.
  match goal with |- wp ?m s ?Q => apply (wp_conseq m s (fun r s' =>
     (hst s s' /\ match r with Ok (Some _) => False | _ => True end) \/
     exists w fd, opened s s' w fd /\ r = Ok (Some w))) end.
  { destruct (c_win _); [apply wp_ret; left; split; [reflexivity|exact I]|].
    wstep. destruct (exists_ s p' false) as [b|e]; [|left; split; [reflexivity|exact I]].
    destruct b; [|apply wp_ret; left; split; [reflexivity|exact I]].
    wstep. destruct (resolve s p' true) as [o|e]; [|left; split; [reflexivity|exact I]].
    wstep. destruct (is_dirobj s o); [|apply wp_ret; left; split; [reflexivity|exact I]].
    destruct (_ || _); [apply wp_raise_os; left; split; [reflexivity|exact I]|].
    set (x := mkwrap _ _ _ _ _ _ _ _ _ _ _ _ _ _ _ _ _).
    destruct (add_wrap_opened x s HF) as (fd & K1 & K2 & K3). apply wp_bind. unfold wp at 1. rewrite K2. apply wp_ret.
    right. exists (f_wnext s), fd. auto. }
  intros r s1 [(H1 & Hr)|(w & fd & Ho & ->)].
  - destruct r as [[w|]|e]; [destruct Hr| |left; split; [exact H1|eauto]].
    apply wp_bind. eapply wp_conseq; [apply open_call_spec; [exact (Finv_hst _ _ H1 HF)|intros fd E; discriminate]|].
    cbv beta. intros r s2 H2. destruct r as [w|e]; [|left; split; [etransitivity; eassumption|eauto]].
    destruct H2 as (_ & [(fd & Ho)|(fd & l & E & _)]); [|discriminate].
    apply (opened_hst_l _ _ _ _ _ H1) in Ho. unfold wget. wstep.
    apply wp_bind. eapply wp_conseq; [apply wp_hst|].
    { hs. apply oo_hst_k, oo_chmod. }
    cbv beta. intros r s3 H3. apply (opened_hst_r _ _ _ _ _ Ho) in H3.
    destruct r as [_|e]; [|right; exists w, fd; split; [exact H3|discriminate]]. wstep. wstep.
    right. exists w, fd. split; [exact H3|].
    intros n E. injection E as <-. exact (op_fd _ _ _ _ H3).
  - cbv beta iota. unfold wget. wstep. wstep. right. exists w, fd. split; [exact Ho|]. intros n E. injection E as <-. exact (op_fd _ _ _ _ Ho).
Qed.
Lemma os_pipe_spec s : Finv s ->
  exists w1 fd1 s1 w2 fd2, opened s s1 w1 fd1 /\ opened s1 (snd (os_pipe s)) w2 fd2 /\ fst (os_pipe s) = Ok (fd1, fd2).
Proof.
  intros HF. destruct (add_wrap_opened pipe_wrap s HF) as (fd1 & K1 & K2 & K3).
  destruct (add_wrap_opened pipe_wrap _ (op_inv _ _ _ _ K1)) as (fd2 & L1 & L2 & L3).
  exists (f_wnext s), fd1, (snd (add_wrap pipe_wrap s)), (f_wnext (snd (add_wrap pipe_wrap s))), fd2.
  split; [exact K1|].
  destruct (add_wrap pipe_wrap s) as [r1 s1] eqn:E1. cbn [fst snd] in *. subst r1.
  destruct (add_wrap pipe_wrap s1) as [r2 s2] eqn:E2. cbn [fst snd] in *. subst r2.
  assert (E : os_pipe s = (Ok (w_fd (wr s2 (f_wnext s)), w_fd (wr s2 (f_wnext s1))), s2)).
  { unfold os_pipe, bind. rewrite E1, E2. reflexivity. }
  rewrite E. cbn [fst snd]. split; [exact L1|].
  rewrite (op_fd _ _ _ _ L1).
  assert (Hw : wstat (wr s2 (f_wnext s)) = wstat (wr s1 (f_wnext s))).
  { apply (op_wraps _ _ _ _ L1). rewrite (op_next _ _ _ _ K1). lia. }
  unfold wstat in Hw. pose proof (op_fd _ _ _ _ K1) as Hf. congruence.
Qed.
Lemma init_Finv c total um uid gid now : Finv (init c total um uid gid now).
Proof.
  constructor.
  - constructor.
  - intros fd. cbn. split; [intros []|]. unfold slot. destruct (fd <? 0)%Z; [discriminate|]. cbn.
    destruct (Z.to_nat fd) as [|[|[|n]]]; cbn; try discriminate. destruct n; discriminate.
  - intros fd l w. unfold slot. destruct (fd <? 0)%Z eqn:E; [discriminate|]. apply Z.ltb_ge in E. cbn.
    destruct (Z.to_nat fd) as [|[|[|n]]] eqn:En; cbn; try (intros H; injection H as <-; intros [<-|[]]; split; [lia|]; cbn; lia).
    destruct n; discriminate.
Qed.
