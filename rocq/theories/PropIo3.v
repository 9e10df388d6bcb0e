(** * C43: several handles of one file. *)
From Verif Require Import Str PathModel FsModel FsSpec OpsModel IoModel SysModel Wp Frame IoFrame Gen FdThm IoThm.
From Verif Require Import ResThm OpsThm PropFd PropIo PropIo2 IoSess OpenThm CohThm CohThm2.

(** ** Specification *)
(** the file a handle is open on, and its position in it *)
Definition file_of (s : fs) (w : wid) : oid := w_obj (wr s w).
Definition offset (s : fs) (w : wid) : nat := w_pos (wr s w).
(** the bytes read(n) returns at the position [P] of a file with the bytes [D] *)
Definition bytes_at (D : str) (P : nat) (n : Z) : str :=
  if (n <? 0)%Z then skipn P D else firstn (Z.to_nat n) (skipn P D).
(** [p] was opened, by open() or os.open(), not for appending: the handle [w],
    that may read ([rd]) and write ([up]) *)
Inductive opens (s : fs) (p : str) : wid -> bool -> bool -> fs -> Prop :=
| by_open m b cf w s' : In m binary_modes -> has "a" m = false ->
    step (Open (PStr p) m b cf) s = (Ok (RHandle w), s') ->
    opens s p w (has "r" m || has "+" m) (negb (has "r" m) || has "+" m) s'
| by_os_open fl mode u fd w s' : has_bit fl O_APPEND = false -> has_bit fl O_TMPFILE = false ->
    step (OsOpen p fl mode u) s = (Ok (RInt fd), s') -> get_open_file s' fd = Ok w ->
    opens s p w (negb (has_bit fl O_WRONLY)) (has_bit fl (N.lor O_RDWR O_WRONLY)) s'.
(** Does [w] hold data that is not in the file?  write() and truncate() put it
    there; flush(), seek() and tell() write it; os.write() does both. *)
Definition ok (r : res out) : bool := match r with Ok _ => true | Err _ => false end.
Definition through (s : fs) (o : op) (w : wid) : bool :=
  match o with
  | HWrite v _ | HTruncate v _ | HSeek v _ _ | HTell v | HFlush v | HRead v _ => Nat.eqb v w
  | OsWrite fd _ | OsRead fd _ => match get_open_file s fd with Ok v => Nat.eqb v w | Err _ => false end
  | _ => false
  end.
Definition after (w : wid) (clean : bool) (s : fs) (o : op) : bool :=
  if through s o w then
    match o with
    | HWrite _ _ => false
    | HTruncate _ _ | OsWrite _ _ => ok (fst (step o s))
    | HFlush _ | HSeek _ _ _ | HTell _ => clean || ok (fst (step o s))
    | _ => clean
    end
  else clean.
Fixpoint settled (w : wid) (clean : bool) (s : fs) (l : list op) : bool :=
  match l with [] => clean | o :: l' => settled w (after w clean s o) (snd (step o s)) l' end.
(** no file of unlimited ("large") contents is created *)
Definition no_large (l : list op) : Prop := Forall (fun o => large_call o = false) l.

(** ** Opening gives a calm handle *)
Definition strict (w : wid) (clean : bool) (s : fs) : Prop := clean = true \/ w_update (wr s w) = false.
Definition Inv (w : wid) (o : oid) (clean : bool) (s : fs) : Prop := calm w o (strict w clean s) s.
Lemma handle_calm s s' w o om b raw del D : handle_on s s' w o om b raw del -> o <> devnull_oid -> bytes_of s' o D -> o < f_next s' -> om_append om = false ->
  (forall st, calm w o st s') /\ fresh w o s' /\ w_pos (wr s' w) = 0 /\ flags_are s' w om b raw del.
Proof.
  intros H Hn HD Hlt Ha. destruct (handle_view _ _ _ _ _ _ _ _ _ H Hn HD) as (V & Fl). rewrite Ha, andb_false_r in V.
  destruct (ho_fd _ _ _ _ _ _ _ _ H) as [fd Hfd].
  split; [|split; [apply (v_epoch _ _ _ _ _ _ _ _ V eq_refl)|split; [apply (v_pos _ _ _ _ _ _ _ _ V)|exact Fl]]].
  intros st. destruct V. destruct Fl. constructor; auto.
  - rewrite (op_new _ _ _ _ Hfd), (op_next _ _ _ _ Hfd). lia.
  - congruence.
  - rewrite v_epoch; auto.
  - exists D. auto.
Qed.
Lemma opened_lt s s' p w o om b raw del : Ginv s -> opened_file s s' p w o om b raw del -> o < f_next s'.
Proof.
  intros HG O. destruct (of_how _ _ _ _ _ _ _ _ _ O) as [(_ & E2 & _ & K & _)|(_ & Eo & _ & _ & _ & s1 & d & n & OM & BN & _ & K & _)].
  - destruct (kp_next _ _ _ K) as (-> & _). destruct (OpsThm6.resolve_in_tree s p false o HG E2 (of_null _ _ _ _ _ _ _ _ _ O)) as (rr & Hr). apply (OpsThm6.at_names_lt s rr o HG Hr).
  - destruct (kp_next _ _ _ K) as (-> & _). rewrite (proj2 (bn_new _ _ _ _ BN)). lia.
Qed.
Lemma step_ok o s r s' : step o s = (r, s') -> fst (step o s) = r /\ snd (step o s) = s'.
Proof. intros ->. auto. Qed.
Lemma chmod_epoch a md f s o : o_epoch (ob (snd (chmod a md f s)) o) = o_epoch (ob s o).
Proof.
  assert (K : keeps (fun s s' : fs => forall o, o_epoch (ob s' o) = o_epoch (ob s o)) (chmod a md f)); [|apply K].
  assert (PreOrder (fun s s' : fs => forall o, o_epoch (ob s' o) = o_epoch (ob s o))).
  { split; [intros x y; reflexivity|intros x y z E1 E2 i; rewrite E2, E1; reflexivity]. }
  unfold chmod. kr. intros sy i. unfold mod_obj, modify. cbn [snd]. destruct (Nat.eq_dec i x0) as [->|N]; [rewrite ob_mod_same; reflexivity|rewrite ob_mod_other by exact N; reflexivity].
Qed.
Lemma opens_calm c s hs p w rd up s1 D : linux_like c -> c_sep c = slash -> session natural_fds c s hs -> within_limits s -> not_devnull s p -> held s p D ->
  opens s p w rd up s1 -> exists o, (exists_ s p false = Ok true -> resolve s p false = Ok o) /\ (forall st, calm w o st s1) /\ offset s1 w = 0 /\ w_read (wr s1 w) = rd /\ w_update (wr s1 w) = up /\ is_open s1 w = true /\ fresh w o s1.
Proof.
  intros Hl Hs HS HL Hn HD H. destruct (session_Ginv _ _ _ _ Hl HS) as [HG Hc].
  pose proof (session_Sinv natural_fds c s hs ltac:(auto) HS) as HSi.
  assert (Hbytes : forall s' o om b raw del, opened_file s s' p w o om b raw del -> exists D', bytes_of s' o D').
  { intros s' o om b raw del O. destruct (of_how _ _ _ _ _ _ _ _ _ O) as [(E1 & E2 & _ & _ & E)|(_ & _ & _ & E & _)]; [|eauto].
    unfold bytes_of. rewrite E. destruct (_ && _); [eauto|]. destruct HD as [[_ HD]|[HD _]]; [exists D; apply HD, E2|congruence]. }
  assert (Hpath : forall s' o om b raw del, opened_file s s' p w o om b raw del -> exists_ s p false = Ok true -> resolve s p false = Ok o).
  { intros s' o om b raw del O E. destruct (of_how _ _ _ _ _ _ _ _ _ O) as [(_ & E2 & _)|(E1 & _)]; [exact E2|congruence]. }
  destruct H as [m b cf w s' Hm Ha H|fl mode u fd w s' Ha Ht H Hw].
  - destruct (binary_mode_spec m Hm) as (om & M1 & M2 & M3 & M4 & M5 & M6 & M7 & M8).
    destruct (session_open c s hs p m _ b cf w s' Hl Hs HS HL Hn M1 M2 H) as (_ & _ & o & O). exists o.
    destruct (Hbytes _ _ _ _ _ _ O) as (D' & HD'). pose proof (opened_lt _ _ _ _ _ _ _ _ _ HG O) as Hlt.
    destruct (handle_calm _ _ _ _ _ _ _ _ _ (of_handle _ _ _ _ _ _ _ _ _ O) (of_null _ _ _ _ _ _ _ _ _ O) HD' Hlt ltac:(congruence)) as (C & F & P & [F1 F2 F3 F4 F5 F6 F7]).
    split; [apply (Hpath _ _ _ _ _ _ O)|]. split; [exact C|]. split; [exact P|]. split; [congruence|]. split; [congruence|].
    destruct (ho_fd _ _ _ _ _ _ _ _ (of_handle _ _ _ _ _ _ _ _ _ O)) as [fd Hfd]. split; [apply (opened_open _ _ _ _ Hfd)|exact F].
  - cbn [step] in H. apply is_open_ok in H. destruct H as (fd' & H & E). injection E as ->.
    set (om := mkom (negb (has_bit fl O_CREAT) && negb false) (negb (has_bit fl O_WRONLY)) (has_bit fl (N.lor O_RDWR O_WRONLY)) (has_bit fl O_TRUNC) (has_bit fl O_APPEND) (has_bit fl O_EXCL)).
    assert (K : exists w1 sm md o, opened_file s sm p w1 o om (-1) true false /\ w_fd (wr sm w1) = fd /\ s' = snd (chmod (PStr p) md true sm)).
    { assert (W : wp (os_open p fl mode u) s (fun r sf => r = Ok fd -> exists w1 sm md o, opened_file s sm p w1 o om (-1) true false /\ w_fd (wr sm w1) = fd /\ sf = snd (chmod (PStr p) md true sm))).
      2:{ apply (wp_elim _ _ _ _ _ W H). reflexivity. }
      unfold os_open. rewrite Ht. wstep. wstep. cbv zeta. fold om. destruct (om_must_not_exist om && om_must_exist om); [apply wp_raise; discriminate|]. wstep.
      apply wp_bind. apply (wp_conseq _ s (fun r sx => sx = s /\ forall w1, r <> Ok (Some w1))).
      { destruct (c_win _); [wstep; split; [reflexivity|discriminate]|]. wstep. destruct (exists_ s p false) as [[|]|e] eqn:Ee; try (wstep; split; [reflexivity|discriminate]); [|split; [reflexivity|discriminate]].
        wstep. destruct (resolve s p true) as [o|e] eqn:Er; [|split; [reflexivity|discriminate]]. wstep.
        apply (resolve_true_false s p o (Ginv_good _ HG)) in Er. destruct HD as [[_ HD]|[HD _]]; [|congruence].
        assert (Hd : is_dirobj s o = false) by (unfold is_dirobj; rewrite (HD o Er); reflexivity). rewrite Hd. wstep. split; [reflexivity|discriminate]. }
      intros r sx (-> & Hr). destruct r as [[w1|]|e]; [contradiction (Hr w1 eq_refl)| |discriminate].
      apply wp_bind. apply wp_intro. intros r sm Ho. destruct r as [w1|e]; [|discriminate].
      destruct (open_str_done s p om (-1) true true false w1 sm HG ltac:(congruence) HL (si_f _ _ HSi) Hn Ho) as (o & O).
      apply wp_bind_wget. destruct (ho_wrap _ _ _ _ _ _ _ _ (of_handle _ _ _ _ _ _ _ _ _ O)) as (fd2 & Ew).
      assert (Eo : w_obj (wr sm w1) = o) by (rewrite Ew; reflexivity). rewrite Eo, (proj2 (Nat.eqb_neq _ _) (of_null _ _ _ _ _ _ _ _ _ O)).
      match goal with |- context[chmod (PStr p) ?md true] => set (mdv := md) end.
      apply wp_bind. apply wp_intro. intros r sf Hc2. destruct r as [[]|e]; [|discriminate]. apply wp_bind_wget, wp_ret. intros Ef. injection Ef as Ef.
      exists w1, sm, mdv, o. split; [exact O|]. split; [|rewrite Hc2; reflexivity]. rewrite <- Ef. pose proof (oo_chmod (PStr p) mdv true sm) as Hoo. rewrite Hc2 in Hoo. cbn [snd] in Hoo. rewrite Hoo. reflexivity. }
    destruct K as (w1 & sm & md & o & O & Ef & Es).
    assert (HU : forall st, U w1 o st False sm s') by (intros st; rewrite Es; apply U_chmod).
    assert (HH : hst sm s') by (rewrite Es; apply oo_hst_k, oo_chmod).
    destruct (ho_fd _ _ _ _ _ _ _ _ (of_handle _ _ _ _ _ _ _ _ _ O)) as [fd2 Hfd]. pose proof (op_fd _ _ _ _ Hfd) as Efd. rewrite Ef in Efd. subst fd2.
    assert (w = w1).
    { destruct (get_open_used s' fd w (proj1 (op_free _ _ _ _ Hfd)) Hw) as (l & Hsl). rewrite (slot_hst _ _ HH), (op_slot _ _ _ _ Hfd) in Hsl. congruence. }
    subst w1. exists o. destruct (Hbytes _ _ _ _ _ _ O) as (D' & HD'). pose proof (opened_lt _ _ _ _ _ _ _ _ _ HG O) as Hlt.
    destruct (handle_calm _ _ _ _ _ _ _ _ _ (of_handle _ _ _ _ _ _ _ _ _ O) (of_null _ _ _ _ _ _ _ _ _ O) HD' Hlt Ha) as (C & F & P & [F1 F2 F3 F4 F5 F6 F7]).
    destruct (HU True (C True)) as [_ [Hst [[]|Hpos]]]. destruct (stat_flags _ _ Hst) as (G1 & G2 & _).
    split; [apply (Hpath _ _ _ _ _ _ O)|]. split; [intros st; apply (HU st (C st))|]. split; [unfold offset; congruence|]. split; [rewrite G2, F3; reflexivity|]. split; [rewrite G1, F1; reflexivity|].
    rewrite (is_open_hst _ _ w HH). split; [apply (opened_open _ _ _ _ Hfd)|].
    unfold fresh in *. rewrite Es, chmod_epoch. pose proof (oo_chmod (PStr p) md true sm) as Hoo. unfold only_objects in Hoo.
    assert (Ew : wr (snd (chmod (PStr p) md true sm)) w = wr sm w) by (rewrite Hoo; reflexivity). rewrite Ew. exact F.
Qed.

(** ** Every call keeps it *)
Lemma not_open_write w d s : is_open s w = false -> fst (os_write_to w d s) <> Ok (Z.of_nat (length d)).
Proof.
  intros Ho. change (wp (os_write_to w d) s (fun r _ => r <> Ok (Z.of_nat (length d)))).
  assert (B : forall A C (m : M A) (k : A -> M C) s1 x, hst s s1 -> keeps hst m -> (forall a s2, hst s s2 -> wp (k a) s2 (fun r _ => r <> Ok x)) -> wp (bind m k) s1 (fun r _ => r <> Ok x)).
  { intros A C m k s1 x H1 Hm Hk. apply wp_bind. unfold wp. destruct (fst (m s1)); [apply Hk; etransitivity; [exact H1|apply Hm]|discriminate]. }
  unfold os_write_to, update_flush_pos.
  apply B; [reflexivity|apply hs_wmod; reflexivity|]. intros _ s1 H1. apply B; [exact H1|apply hs_sync|]. intros _ s2 H2.
  apply B; [exact H2|apply hs_wmod; reflexivity|]. intros _ s3 H3. apply B; [exact H3|apply hs_file_write|]. intros _ s4 H4.
  apply wp_bind. unfold wp. destruct (fst (flush w s4)) as [[]|e] eqn:E; [|discriminate]. apply flush_open in E. rewrite (is_open_hst s s4 w H4) in E. congruence.
Qed.
Lemma Inv_update w o clean' s s' : wstat (wr s' w) = wstat (wr s w) -> calm w o (strict w clean' s) s' -> Inv w o clean' s'.
Proof.
  intros E C. unfold Inv. eapply calm_weaken; [|exact C]. unfold strict. destruct (stat_flags _ _ E) as (-> & _). exact (fun H => H).
Qed.
Lemma outm_ok {A} (f : A -> out) m s : ok (fst (outm f m s)) = true -> exists a, fst (m s) = Ok a.
Proof. rewrite outm_eq. destruct (fst (m s)); [eauto|discriminate]. Qed.
Lemma seek_ok w o st st' s z h : calm w o st s -> w_update (wr s w) = true -> fst (file_seek w z h s) = Ok tt -> calm w o st' (snd (file_seek w z h s)).
Proof.
  intros C Hu Hok. destruct (is_open s w) eqn:Ho.
  - destruct (calm_view _ _ _ _ C Ho) as (D & _ & V & _). pose proof (wp_seek _ _ _ _ _ _ _ _ z h V Hu (ca_append _ _ _ _ C)) as K. unfold wp in K.
    destruct (U_file_seek w o st True w z h ltac:(auto) s C) as [C' _]. destruct (bio_seek _ _ _ _); [|destruct K as [K _]; rewrite Hok in K; discriminate K].
    destruct K as [(E & _)|((_ & V') & _)]; [rewrite Hok in E; discriminate E|]. apply (view_calm _ _ _ _ _ _ _ _ C' V').
  - exfalso. revert Hok. unfold file_seek, check_open, wget, bind, gets. rewrite (ca_kind _ _ _ _ C), Ho. discriminate.
Qed.
Lemma tell_ok w o st st' s z : calm w o st s -> w_update (wr s w) = true -> fst (file_tell w s) = Ok z -> calm w o st' (snd (file_tell w s)).
Proof.
  intros C Hu Hok. destruct (is_open s w) eqn:Ho.
  - destruct (calm_view _ _ _ _ C Ho) as (D & _ & V & _). pose proof (wp_tell _ _ _ _ _ _ _ _ V Hu (ca_append _ _ _ _ C)) as K. unfold wp in K.
    destruct (U_file_tell w o st True w ltac:(auto) s C) as [C' _].
    destruct K as [(E & _)|((_ & V') & _)]; [rewrite Hok in E; discriminate E|]. apply (view_calm _ _ _ _ _ _ _ _ C' V').
  - exfalso. revert Hok. unfold file_tell, check_open, wget, bind, gets. rewrite (ca_kind _ _ _ _ C), Ho. discriminate.
Qed.
Lemma truncate_ok w o st st' s n z : calm w o st s -> w_update (wr s w) = true -> fst (file_truncate w n s) = Ok z -> calm w o st' (snd (file_truncate w n s)).
Proof.
  intros C Hu Hok. destruct (is_open s w) eqn:Ho.
  - destruct (calm_view _ _ _ _ C Ho) as (D & _ & V & _). pose proof (wp_truncate _ _ _ _ _ _ _ _ n V Hu (ca_append _ _ _ _ C)) as K. unfold wp in K.
    destruct (U_file_truncate w o False True w n ltac:(intros _; auto) s) as [C' _]; [eapply calm_weaken; [|exact C]; intros []|].
    cbv zeta in K. destruct (_ <? 0)%Z; [destruct K as [K _]; rewrite Hok in K; discriminate K|].
    destruct K as [(E & _)|((_ & V') & _)]; [rewrite Hok in E; discriminate E|]. apply (view_calm _ _ _ _ _ _ _ _ C' V').
  - exfalso. revert Hok. unfold file_truncate, io_enter, check_open, wget, bind, gets. rewrite (ca_kind _ _ _ _ C). destruct (is_large s _); [discriminate|]. rewrite Ho. discriminate.
Qed.
Lemma os_write_ok w o st st' s d z : calm w o st s -> w_update (wr s w) = true -> fst (os_write_to w d s) = Ok z -> calm w o st' (snd (os_write_to w d s)).
Proof.
  intros C Hu Hok. assert (Ez : z = Z.of_nat (length d)).
  { assert (K : wp (os_write_to w d) s (fun r _ => forall z, r = Ok z -> z = Z.of_nat (length d))).
    { unfold os_write_to. do 5 (apply wp_bind; unfold wp at 1; match goal with |- context[fst ?x] => destruct (fst x) end; [|discriminate]). apply wp_ret. intros y E. injection E as <-. reflexivity. }
    exact (K z Hok). }
  subst z. destruct (is_open s w) eqn:Ho; [|contradiction (not_open_write w d s Ho Hok)].
  pose proof (wp_os_write w o st s d C Ho Hu) as K. unfold wp in K. destruct K as [(E & _)|(_ & B & _ & V)]; [rewrite Hok in E; discriminate E|].
  assert (C' : calm w o False (snd (os_write_to w d s))).
  { assert (C0 : calm w o False s) by (eapply calm_weaken; [|exact C]; intros []).
    assert (UU : keeps (U w o False True) (os_write_to w d)).
    { assert (NL : loose w False True w) by (intros _; auto). unfold os_write_to, update_flush_pos, wget.
      kr; first [apply U_raw|apply U_sync|apply U_file_write, NL|apply U_flush|apply U_wmod; intros _ ?; (split; [reflexivity|split; [reflexivity|split; [reflexivity|right; reflexivity]]])]. }
    apply (UU s C0). }
  apply (view_calm _ _ _ _ _ _ _ _ C' V).
Qed.
Lemma sub_ro w o st s : calm w o st s -> w_update (wr s w) = false -> forall fd d, get_open_file s fd = Ok w -> calm w o st (snd (step (OsWrite fd d) s)) /\ wstat (wr (snd (step (OsWrite fd d) s)) w) = wstat (wr s w).
Proof.
  intros C Hu fd d Hw. cbn [step]. rewrite outm_eq. cbn [snd]. rewrite (os_write_eq fd d s w Hw (ca_kind _ _ _ _ C)).
  change (wp (os_write_to w d) s (fun _ s' => calm w o st s' /\ wstat (wr s' w) = wstat (wr s w))). unfold os_write_to.
  assert (B : forall A C (m : M A) (k : A -> M C) s1, (calm w o st s1 /\ wstat (wr s1 w) = wstat (wr s w)) -> keeps (U w o st True) m ->
    (forall a s2, calm w o st s2 /\ wstat (wr s2 w) = wstat (wr s w) -> wp (k a) s2 (fun _ s' => calm w o st s' /\ wstat (wr s' w) = wstat (wr s w))) ->
    wp (bind m k) s1 (fun _ s' => calm w o st s' /\ wstat (wr s' w) = wstat (wr s w))).
  { intros A X m k s1 [H1 H2] Hm Hk. assert (H3 : calm w o st (snd (m s1)) /\ wstat (wr (snd (m s1)) w) = wstat (wr s w)).
    { destruct (Hm s1 H1) as [K1 [K2 _]]. split; [exact K1|congruence]. }
    apply wp_bind. unfold wp. destruct (fst (m s1)); [apply Hk, H3|exact H3]. }
  apply B; [auto|apply U_raw|]. intros _ s1 H1. apply B; [exact H1|apply U_sync|]. intros _ s2 H2.
  apply B; [exact H2|apply U_wmod; intros _ x; (split; [reflexivity|split; [reflexivity|split; [reflexivity|right; reflexivity]]])|]. intros _ s3 H3. apply wp_bind. unfold wp at 1.
  rewrite (file_write_ro w d s3); [|destruct H3 as [_ H3]; destruct (stat_flags _ _ H3) as (-> & _); exact Hu].
  destruct (fst (file_write w d s3)); [|exact H3]. apply B; [exact H3|apply U_flush|]. intros _ s4 H4. apply wp_ret. exact H4.
Qed.
Lemma Inv_step w o clean s op : large_call op = false -> Inv w o clean s ->
  Inv w o (after w clean s op) (snd (step op s)) /\ wstat (wr (snd (step op s)) w) = wstat (wr s w).
Proof.
  intros Hl C. unfold after.
  (* the general case: nothing is left in the handle *)
  assert (G : ~ buffers w s op -> Inv w o clean (snd (step op s)) /\ wstat (wr (snd (step op s)) w) = wstat (wr s w)).
  { intros Nb. destruct (U_step w o (strict w clean s) True op s Hl ltac:(tauto) ltac:(auto) C) as [C' [E _]].
    split; [apply (Inv_update w o clean s _ E C')|exact E]. }
  (* something may be left *)
  assert (L : Inv w o false (snd (step op s)) \/ w_update (wr s w) = false).
  { destruct (w_update (wr s w)) eqn:Hu; [left|auto].
    destruct (U_step w o False True op s Hl ltac:(tauto) ltac:(auto)) as [C' [E _]]; [eapply calm_weaken; [|exact C]; intros []|].
    apply (Inv_update w o false s _ E). eapply calm_weaken; [|exact C']. intros [H|H]; [discriminate H|congruence]. }
  assert (E : wstat (wr (snd (step op s)) w) = wstat (wr s w)).
  { destruct (U_step w o False True op s Hl ltac:(tauto) ltac:(auto)) as [C' [E _]]; [eapply calm_weaken; [|exact C]; intros []|exact E]. }
  (* not updatable *)
  assert (RO : w_update (wr s w) = false -> forall cl, (calm w o True s -> calm w o True (snd (step op s))) -> Inv w o cl (snd (step op s)) /\ wstat (wr (snd (step op s)) w) = wstat (wr s w)).
  { intros Hu cl K. split; [|exact E]. unfold Inv. eapply calm_weaken; [|apply K]; [auto|]. eapply calm_weaken; [|exact C]. intros _. right. exact Hu. }
  assert (KE : forall cl, calm w o True (snd (step op s)) -> Inv w o cl (snd (step op s)) /\ wstat (wr (snd (step op s)) w) = wstat (wr s w)).
  { intros cl K. split; [|exact E]. eapply calm_weaken; [|exact K]; auto. }
  destruct (through s op w) eqn:T.
  2:{ apply G. destruct op; cbn [through buffers] in *; try tauto; try (apply Nat.eqb_neq; exact T).
      intros Hf. rewrite Hf, Nat.eqb_refl in T. discriminate T. }
  destruct op; try discriminate T; cbn [through] in T; try (apply Nat.eqb_eq in T; subst w0).
  - (* OsRead *) apply G. tauto.
  - (* OsWrite *)
    destruct (get_open_file s fd) as [v|e] eqn:Hw; [|discriminate T]. apply Nat.eqb_eq in T. subst v.
    destruct (w_update (wr s w)) eqn:Hu.
    + destruct (ok (fst (step (OsWrite fd data) s))) eqn:Hok; [|destruct L as [L|L]; [split; assumption|congruence]].
      apply KE. cbn [step] in *. apply outm_ok in Hok. destruct Hok as (z & Hz). rewrite outm_eq. cbn [snd].
      rewrite (os_write_eq fd data s w Hw (ca_kind _ _ _ _ C)) in *. apply (os_write_ok w o _ _ s data z C Hu Hz).
    + apply RO; [first [exact Hu|reflexivity]|]. intros K. apply (sub_ro w o True s K Hu fd data Hw).
  - (* HRead *) apply G. tauto.
  - (* HWrite *)
    destruct (w_update (wr s w)) eqn:Hu; [destruct L as [L|L]; [split; assumption|congruence]|].
    apply RO; [first [exact Hu|reflexivity]|]. cbn [step]. rewrite outm_eq. cbn [snd]. rewrite (file_write_ro w data s Hu). auto.
  - (* HSeek *)
    destruct (ok (fst (step (HSeek w off whence) s))) eqn:Hok; [|rewrite orb_false_r; apply G; tauto]. rewrite orb_true_r.
    destruct (w_update (wr s w)) eqn:Hu.
    + apply KE. cbn [step] in *. apply outm_ok in Hok. destruct Hok as ([] & Hz). rewrite outm_eq. cbn [snd]. apply (seek_ok w o _ _ s _ _ C Hu Hz).
    + apply RO; [first [exact Hu|reflexivity]|]. intros K. cbn [step]. rewrite outm_eq. apply (U_file_seek w o True True w off whence ltac:(auto) s K).
  - (* HTell *)
    destruct (ok (fst (step (HTell w) s))) eqn:Hok; [|rewrite orb_false_r; apply G; tauto]. rewrite orb_true_r.
    destruct (w_update (wr s w)) eqn:Hu.
    + apply KE. cbn [step] in *. apply outm_ok in Hok. destruct Hok as (z & Hz). rewrite outm_eq. cbn [snd]. apply (tell_ok w o _ _ s z C Hu Hz).
    + apply RO; [first [exact Hu|reflexivity]|]. intros K. cbn [step]. rewrite outm_eq. apply (U_file_tell w o True True w ltac:(auto) s K).
  - (* HTruncate *)
    destruct (w_update (wr s w)) eqn:Hu.
    + destruct (ok (fst (step (HTruncate w n) s))) eqn:Hok; [|destruct L as [L|L]; [split; assumption|congruence]].
      apply KE. cbn [step] in *. apply outm_ok in Hok. destruct Hok as (z & Hz). rewrite outm_eq. cbn [snd]. apply (truncate_ok w o _ _ s n z C Hu Hz).
    + apply RO; [first [exact Hu|reflexivity]|]. cbn [step]. rewrite outm_eq. cbn [snd]. rewrite (file_truncate_ro w n s Hu). auto.
  - (* HFlush *)
    destruct (ok (fst (step (HFlush w) s))) eqn:Hok; [|rewrite orb_false_r; apply G; tauto]. rewrite orb_true_r.
    assert (Ef : flush_wrapper w s = flush w s) by (unfold flush_wrapper, bind, wget, gets; rewrite (ca_kind _ _ _ _ C); reflexivity).
    destruct (w_update (wr s w)) eqn:Hu.
    + apply KE. cbn [step] in *. apply outm_ok in Hok. destruct Hok as ([] & Hz). rewrite outm_eq. cbn [snd]. rewrite Ef in *. apply (flush_ok w o _ _ s C Hu Hz).
    + apply RO; [first [exact Hu|reflexivity]|]. intros K. cbn [step]. rewrite outm_eq. cbn [snd]. rewrite Ef. apply (U_flush w o True True w s K).
Qed.
Lemma Inv_run w o l : forall clean s, no_large l -> Inv w o clean s -> Inv w o (settled w clean s l) (run s l) /\ wstat (wr (run s l) w) = wstat (wr s w).
Proof.
  induction l as [|x l IH]; intros clean s Hl C; [split; [exact C|reflexivity]|]. apply Forall_cons_iff in Hl. destruct Hl as [Hx Hl]. cbn [settled run].
  destruct (Inv_step w o clean s x Hx C) as [C1 E1]. destruct (IH _ _ Hl C1) as [C2 E2]. split; [exact C2|congruence].
Qed.

(** ** Reading through a settled handle *)
Lemma bio_read_at D P n : fst (bio_read D P n) = bytes_at D P n.
Proof. reflexivity. Qed.
Lemma wp_read_calm w o s D n : calm w o True s -> is_open s w = true -> w_read (wr s w) = true -> bytes_of s o D ->
  wp (file_read w n) s (fun r s' => ends s o w r s' (let P := w_pos (wr s w) in
     r = Ok (bytes_at D P n) /\ w_pos (wr s' w) = P + length (bytes_at D P n) /\ bytes_of s' o D)).
Proof.
  intros C Ho Hr HD. destruct (calm_view _ _ _ _ C Ho) as (D' & HD' & V & HB). unfold bytes_of in *. rewrite HD in HD'. injection HD' as <-. specialize (HB Logic.I).
  pose proof (ca_append _ _ _ _ C) as Ha. set (B := w_buf (wr s w)) in *. set (P := w_pos (wr s w)) in *. set (F := w_fpos (wr s w)) in *.
  destruct (w_update (wr s w)) eqn:Hu.
  - unfold file_read. apply (wp_io_enter false w o s B P F D); [exact V|]. rewrite Hr, Ha. cbn [negb].
    apply wp_bind. eapply wp_conseq; [apply (wp_sync false w o s B P F D V Ha)|]. cbv beta. intros r s1 (-> & I1 & K).
    assert (V1 : view s1 w o D P F D).
    { destruct K as [(-> & V1)|(_ & V1)]; [|exact V1]. rewrite <- HB at 1; [exact V1|]. exact (v_epoch _ _ _ _ _ _ _ _ V1 eq_refl). }
    pose proof (iow_flags _ _ _ I1) as (G1 & G2 & _). apply wp_bind.
    eapply wp_conseq; [apply (wp_flush true w o s1 _ _ _ _ V1); congruence|]. cbv beta. intros r s2 H. destruct H as [(-> & Hx)|(-> & V2 & I2)].
    { left. split; [reflexivity|]. intros K2. apply Hx, (roomy_iow _ _ _ o I1), K2. }
    rewrite (v_obj _ _ _ _ _ _ _ _ V). pose proof (iow_flags _ _ _ I2) as (_ & G3 & _).
    eapply wp_conseq; [apply (wp_read_tail true w o s2 _ _ _ _ n V2); congruence|]. cbv beta. intros r s3 (-> & V3 & I3).
    right. split; [|etransitivity; [exact I1|etransitivity; eassumption]]. split; [reflexivity|]. split; [apply (v_pos _ _ _ _ _ _ _ _ V3)|apply (v_data _ _ _ _ _ _ _ _ V3)].
  - eapply wp_conseq; [apply (wp_read_only false w o s B P F D n V Hu Ha Hr HB)|]. cbv beta zeta. intros r s1 (-> & V1 & I1).
    right. split; [|exact I1]. split; [reflexivity|]. split; [apply (v_pos _ _ _ _ _ _ _ _ V1)|apply (v_data _ _ _ _ _ _ _ _ V1)].
Qed.
Lemma unlimited_any s o : unlimited s -> roomy s o.
Proof. intros H. apply (unlimited_roomy s s o H). intros dev. reflexivity. Qed.

(** ** C43 *)
(** In [s] the handle [w] is open; it was made by open() or os.open() in some
    history, and since then anything may have happened, through this handle
    and others.  [clean]: the handle has no data that was not written. *)
Definition an_open_handle (w : wid) (rd up clean : bool) (s : fs) : Prop :=
  exists c s0 hs p D s1 l, linux_like c /\ c_sep c = slash /\ session natural_fds c s0 hs /\ within_limits s0 /\ not_devnull s0 p /\ held s0 p D /\
    opens s0 p w rd up s1 /\ no_large l /\ s = run s1 l /\ settled w true s1 l = clean /\ is_open s w = true.
Lemma handle_Inv w rd up clean s : an_open_handle w rd up clean s ->
  exists o, Inv w o clean s /\ file_of s w = o /\ w_read (wr s w) = rd /\ w_update (wr s w) = up /\ is_open s w = true.
Proof.
  intros (c & s0 & hs & p & D & s1 & l & Hl & Hs & HS & HL & Hn & HD & HO & Nl & -> & Hset & Hop).
  destruct (opens_calm c s0 hs p w rd up s1 D Hl Hs HS HL Hn HD HO) as (o & _ & C & P & Fr & Fu & _).
  destruct (Inv_run w o l true s1 Nl (C _)) as [I E]. rewrite Hset in I. destruct (stat_flags _ _ E) as (G1 & G2 & _).
  exists o. split; [exact I|]. split; [apply (ca_obj _ _ _ _ I)|]. split; [congruence|]. split; [congruence|exact Hop].
Qed.
(** the file of a handle is the one its path named, for ever *)
Theorem C43_file : forall c s hs p w rd up s1 D l, linux_like c -> c_sep c = slash -> session natural_fds c s hs -> within_limits s -> not_devnull s p -> held s p D ->
  opens s p w rd up s1 -> no_large l ->
  file_of (run s1 l) w = file_of s1 w /\ (forall o, exists_ s p false = Ok true -> resolve s p false = Ok o -> file_of s1 w = o) /\ offset s1 w = 0.
Proof.
  intros c s hs p w rd up s1 D l Hl Hs HS HL Hn HD HO Nl.
  destruct (opens_calm c s hs p w rd up s1 D Hl Hs HS HL Hn HD HO) as (o & Hp & C & P & Fr & Fu & _).
  destruct (Inv_run w o l true s1 Nl (C _)) as [I E]. pose proof (ca_obj _ _ _ _ I) as E1. pose proof (ca_obj _ _ _ _ (C True)) as E2.
  unfold file_of. split; [congruence|]. split; [|exact P]. intros o2 Ex Er. rewrite (Hp Ex) in Er. congruence.
Qed.
(** A handle without unwritten data reads the bytes that are in the file now,
    whatever has happened: at its position, which moves behind them.  Reading
    can fail for lack of space only where the disk is limited. *)
Definition reads_bytes (o : op) (w : wid) (n : Z) (s : fs) : Prop :=
  exists B, bytes_of s (file_of s w) B /\
  let r := fst (step o s) in let s' := snd (step o s) in let got := bytes_at B (offset s w) n in
  (r = Ok (RBytes got) /\ offset s' w = offset s w + length got /\ bytes_of s' (file_of s w) B) \/
  (r = Err (OSErr ENOSPC) /\ ~ unlimited s).
Theorem C43_read_partial : forall w up clean s n, an_open_handle w true up clean s -> clean = true \/ up = false ->
  reads_bytes (HRead w n) w n s /\ forall fd, get_open_file s fd = Ok w -> reads_bytes (OsRead fd n) w n s.
Proof.
  intros w up clean s n H Hc. destruct (handle_Inv _ _ _ _ _ H) as (o & I & Ef & Fr & Fu & Ho).
  assert (C : calm w o True s). { eapply calm_weaken; [|exact I]. intros _. unfold strict. rewrite Fu. exact Hc. }
  destruct (ca_bytes _ _ _ _ C) as (B & HB & _).
  assert (G : forall sx, calm w o True sx -> hst s sx -> bytes_of sx o B -> offset sx w = offset s w -> (unlimited s -> roomy sx o) ->
    let r := fst (file_read w n sx) in let s' := snd (file_read w n sx) in let got := bytes_at B (offset s w) n in
    (r = Ok got /\ offset s' w = offset s w + length got /\ bytes_of s' o B) \/ (r = Err (OSErr ENOSPC) /\ ~ unlimited s)).
  { intros sx Cx Hx Bx Px Rx r s' got. destruct (stat_flags _ _ (wr_hst _ _ w Hx)) as (_ & G2 & _).
    pose proof (wp_read_calm w o sx B n Cx ltac:(rewrite (is_open_hst s sx w Hx); exact Ho) ltac:(congruence) Bx) as K. unfold wp in K. fold r s' in K.
    change (w_pos (wr sx w)) with (offset sx w) in K. rewrite Px in K.
    destruct K as [(K1 & K2)|((K1 & K2 & K3) & _)]; [right; split; [exact K1|intros U0; apply K2, Rx, U0]|left; auto]. }
  split.
  - exists B. rewrite Ef. split; [exact HB|]. specialize (G s C ltac:(reflexivity) HB eq_refl (unlimited_any s o)). cbv zeta in *. cbn [step]. rewrite outm_eq. cbn [fst snd].
    destruct G as [(G1 & G2 & G3)|(G1 & G2)]; rewrite G1; auto.
  - intros fd Hw. exists B. rewrite Ef. split; [exact HB|]. cbn [step]. cbv zeta. rewrite outm_eq. cbn [fst snd].
    assert (Eq : os_read fd n s = file_read w n (mod_wr s w (fun x => ww_raw x true))).
    { unfold os_read, bind at 1, lift. rewrite Hw. cbv beta iota. unfold bind at 1, wmod, modify. cbv beta iota. unfold bind, wget, gets. cbv beta iota.
      rewrite wr_mod_same. change (w_kind (ww_raw (wr s w) true)) with (w_kind (wr s w)). rewrite (ca_kind _ _ _ _ C). reflexivity. }
    rewrite Eq. set (sx := mod_wr s w _).
    specialize (G sx (calm_raw _ _ _ _ C) ltac:(apply (hs_wmod w (fun y => ww_raw y true)); reflexivity) HB). cbv zeta in G.
    destruct G as [(G1 & G2 & G3)|(G1 & G2)]; [unfold offset, sx; rewrite wr_mod_same; reflexivity|apply (unlimited_any s o)| |]; rewrite G1; auto.
Qed.
(** os.write through a handle without unwritten data replaces the bytes at the
    position of the handle in the file as it is now *)
Theorem C43_os_write_partial : forall w rd s fd d, an_open_handle w rd true true s -> get_open_file s fd = Ok w ->
  exists B, bytes_of s (file_of s w) B /\
  let r := fst (step (OsWrite fd d) s) in let s' := snd (step (OsWrite fd d) s) in
  (r = Ok (RInt (Z.of_nat (length d))) /\ bytes_of s' (file_of s w) (overwrite B (offset s w) d) /\ offset s' w = offset s w + length d) \/
  (r = Err (OSErr ENOSPC) /\ ~ unlimited s).
Proof.
  intros w rd s fd d H Hw. destruct (handle_Inv _ _ _ _ _ H) as (o & I & Ef & Fr & Fu & Ho).
  assert (C : calm w o True s) by (eapply calm_weaken; [|exact I]; intros _; left; reflexivity).
  destruct (ca_bytes _ _ _ _ C) as (B & HB & _). exists B. rewrite Ef. split; [exact HB|]. cbn [step]. cbv zeta. rewrite outm_eq. cbn [fst snd].
  rewrite (os_write_eq fd d s w Hw (ca_kind _ _ _ _ C)). pose proof (wp_os_write w o True s d C Ho Fu) as K. unfold wp in K.
  destruct K as [(K1 & K2)|(K1 & B' & K2 & V)]; rewrite K1; [right; split; [reflexivity|intros U0; apply K2, unlimited_any, U0]|left].
  specialize (K2 Logic.I). unfold bytes_of in K2, HB. rewrite HB in K2. injection K2 as <-.
  split; [reflexivity|]. split; [apply (v_data _ _ _ _ _ _ _ _ V)|apply (v_pos _ _ _ _ _ _ _ _ V)].
Qed.
(** The position of a handle is its own: no call through another handle, and
    no call on the file system, moves it, and tell() returns it. *)
Theorem C43_position : forall w rd up clean s, an_open_handle w rd up clean s ->
  (forall o, large_call o = false -> through s o w = false -> offset (snd (step o s)) w = offset s w) /\
  (fst (step (HTell w) s) = Ok (RInt (Z.of_nat (offset s w))) \/ (fst (step (HTell w) s) = Err (OSErr ENOSPC) /\ ~ unlimited s)).
Proof.
  intros w rd up clean s H. destruct (handle_Inv _ _ _ _ _ H) as (o & I & Ef & Fr & Fu & Ho). split.
  - intros x Hl T. destruct (U_step w o False False x s Hl ltac:(tauto)) as [_ [_ K]]; [|eapply calm_weaken; [|exact I]; intros []|destruct K as [[]|K]; exact K].
    intros Hu. destruct x; cbn [uses through] in *; try contradiction; try (subst w0; rewrite Nat.eqb_refl in T; discriminate T); rewrite Hu, Nat.eqb_refl in T; discriminate T.
  - destruct (calm_view _ _ _ _ I Ho) as (D & HD & V & _). pose proof (ca_append _ _ _ _ I) as Ha. cbn [step]. rewrite outm_eq. cbn [fst]. destruct (w_update (wr s w)) eqn:Hu.
    + pose proof (wp_tell _ _ _ _ _ _ _ _ V Hu Ha) as K. unfold wp in K. destruct K as [(E & N)|((E & _) & _)]; rewrite E; [right|left; reflexivity].
      split; [reflexivity|]. intros U0. apply N, unlimited_any, U0.
    + pose proof (wp_tell_ro _ _ _ _ _ _ _ _ V Hu Ha) as K. rewrite K. left. reflexivity.
Qed.
Lemma overwrite_read B P d : bytes_at (overwrite B P d) P (Z.of_nat (length d)) = d.
Proof.
  unfold bytes_at. rewrite (proj2 (Z.ltb_ge _ _)) by lia. rewrite Nat2Z.id. destruct d as [|x d]; [reflexivity|]. unfold overwrite.
  rewrite app_assoc. set (pre := firstn P B ++ _). assert (E : length pre = P) by (unfold pre; rewrite app_length, firstn_length, repeat_length; lia).
  rewrite <- E at 1. rewrite skipn_app, skipn_all, Nat.sub_diag. cbn [app skipn].
  change (x :: d ++ skipn (P + length (x :: d)) B) with ((x :: d) ++ skipn (P + length (x :: d)) B). rewrite firstn_app, firstn_all, Nat.sub_diag. cbn [firstn]. apply app_nil_r.
Qed.
Lemma open_related s w1 w2 o st st' : calm w1 o st s -> calm w2 o st' s -> w1 <> w2 -> is_open s w2 = true -> (3 <= fileno s w2)%Z -> In w2 (related s w1 false).
Proof.
  intros C1 C2 N Ho Hf. unfold related. apply filter_In. split.
  - unfold is_open in Ho. unfold fileno in Hf. apply andb_true_iff in Ho. destruct Ho as [Hlt Ho]. unfold py_index in Ho.
    destruct (_ <? 0)%Z eqn:E in Ho; [apply Z.ltb_lt in E; lia|]. 
    destruct (nth_error (f_open s) (Z.to_nat (w_fd (wr s w2)))) as [[l|]|] eqn:En; try discriminate Ho.
    apply existsb_exists in Ho. destruct Ho as (x & Hx & Ex). apply Nat.eqb_eq in Ex. subst x. apply in_flat_map. exists (Some l). split; [|exact Hx].
    replace (Z.to_nat (w_fd (wr s w2))) with (3 + (Z.to_nat (w_fd (wr s w2)) - 3)) in En by lia.
    rewrite <- (firstn_skipn 3 (f_open s)) in En. pose proof (firstn_le_length 3 (f_open s)).
    destruct (Nat.le_gt_cases (length (f_open s)) 3) as [K|K].
    + exfalso. apply Z.ltb_lt in Hlt. lia.
    + rewrite nth_error_app2 in En by (rewrite firstn_length; lia). eapply nth_error_In, En.
  - rewrite (proj2 (Nat.eqb_neq w2 w1)) by auto. cbn [negb andb]. rewrite (ca_kind _ _ _ _ C2), (ca_obj _ _ _ _ C2), (ca_obj _ _ _ _ C1), (ca_append _ _ _ _ C2), Nat.eqb_refl. reflexivity.
Qed.
(** What os.write has written through one handle, every other handle without
    unwritten data finds at that place: at its own position (C43_os_write and
    C43_read together), and after seeking there. *)
Theorem C43_write_then_read_partial : forall w1 w2 rd1 up2 s fd d,
  an_open_handle w1 rd1 true true s -> an_open_handle w2 true up2 true s -> w1 <> w2 -> file_of s w1 = file_of s w2 -> unlimited s ->
  get_open_file s fd = Ok w1 -> (3 <= fileno s w2)%Z ->
  let P := Z.of_nat (offset s w1) in let n := Z.of_nat (length d) in
  outs s [OsWrite fd d; HSeek w2 P 0; HRead w2 n] = [Ok (RInt n); Ok RUnit; Ok (RBytes d)].
Proof.
  intros w1 w2 rd1 up2 s fd d H1 H2 N Hf U0 Hw H3 P n.
  destruct (handle_Inv _ _ _ _ _ H1) as (o & I1 & Ef1 & Fr1 & Fu1 & Ho1). destruct (handle_Inv _ _ _ _ _ H2) as (o2 & I2 & Ef2 & Fr2 & Fu2 & Ho2).
  assert (Eo : o2 = o) by congruence. rewrite Eo in *. clear Eo o2.
  assert (C1 : calm w1 o True s) by (eapply calm_weaken; [|exact I1]; intros _; left; reflexivity).
  assert (C2 : calm w2 o True s) by (eapply calm_weaken; [|exact I2]; intros _; left; reflexivity).
  pose proof (open_related s w1 w2 o _ _ C1 C2 N Ho2 H3) as Hin.
  destruct (C43_os_write_partial _ _ _ fd d H1 Hw) as (B & HB & K). cbv zeta in K. destruct K as [(K1 & K2 & _)|(_ & K)]; [|contradiction].
  cbn [outs]. rewrite K1. set (s1 := snd (step (OsWrite fd d) s)) in *. rewrite Ef1 in *.
  destruct (U_step w2 o True False (OsWrite fd d) s eq_refl) as [C3 [E3 _]]; [cbn [buffers]; congruence|cbn [uses]; congruence|exact C2|].
  assert (F3 : fresh w2 o s1 /\ hst s s1).
  { assert (Hh : hst s s1) by (apply hs_step; reflexivity). split; [|exact Hh].
    revert K1. unfold s1. cbn [step]. rewrite outm_eq. cbn [fst snd]. rewrite (os_write_eq fd d s w1 Hw (ca_kind _ _ _ _ C1)).
    pose proof (os_write_fresh w2 o True w1 d s N C2 Fu1 Hin) as K. unfold wp in K. destruct (fst (os_write_to w1 d s)) as [z|e]; [|discriminate]. intros E. injection E as ->. apply K. reflexivity. }
  destruct F3 as [F3 Hh]. fold s1 in C3, E3. destruct (stat_flags _ _ E3) as (G1 & G2 & _).
  assert (Ho3 : is_open s1 w2 = true) by (rewrite (is_open_hst s s1 w2 Hh); exact Ho2).
  destruct (calm_view _ _ _ _ C3 Ho3) as (D & HD & V & HBD). specialize (HBD Logic.I F3). unfold bytes_of in K2, HD. rewrite K2 in HD. injection HD as <-.
  rewrite HBD in V. set (B' := overwrite B (offset s w1) d) in *. pose proof (ca_append _ _ _ _ C3) as Ha.
  assert (U1 : unlimited s1) by (apply (unlimited_step s (OsWrite fd d)); [discriminate|discriminate|exact U0]).
  assert (S : fst (step (HSeek w2 P 0) s1) = Ok RUnit /\ let s2 := snd (step (HSeek w2 P 0) s1) in
     calm w2 o True s2 /\ offset s2 w2 = offset s w1 /\ bytes_of s2 o B' /\ is_open s2 w2 = true /\ w_read (wr s2 w2) = true).
  { assert (C4 : calm w2 o True (snd (step (HSeek w2 P 0) s1)) /\ wstat (wr (snd (step (HSeek w2 P 0) s1)) w2) = wstat (wr s1 w2)).
    { destruct (U_step w2 o True True (HSeek w2 P 0) s1 eq_refl) as [C4 [E4 _]]; [intros []|auto|exact C3|]. auto. }
    destruct C4 as [C4 E4]. destruct (stat_flags _ _ E4) as (G3 & G4 & _). 
    assert (Hb : bio_seek B' (w_pos (wr s1 w2)) P 0 = Some (offset s w1)).
    { unfold bio_seek, P. cbn. rewrite (proj2 (Z.ltb_ge _ _)) by lia. rewrite Nat2Z.id. reflexivity. }
    assert (X : fst (step (HSeek w2 P 0) s1) = Ok RUnit /\ exists F D, view_ false (snd (step (HSeek w2 P 0) s1)) w2 o B' (offset s w1) F D /\ D = B').
    { cbn [step]. rewrite outm_eq. cbn [fst snd]. destruct (w_update (wr s1 w2)) eqn:Hu.
      - pose proof (wp_seek _ _ _ _ _ _ _ _ P 0 V Hu Ha) as K. unfold wp in K. rewrite Hb in K.
        destruct K as [(_ & K)|((K & V2) & _)]; [contradiction K; apply unlimited_any, U1|]. rewrite K. split; [reflexivity|]. exists (offset s w1), B'. split; [|reflexivity]. destruct V2; constructor; auto.
      - pose proof (wp_seek_ro _ _ _ _ _ _ _ _ P 0 V Hu Ha) as K. unfold wp in K. rewrite Hb in K. destruct K as (K & V2 & _). rewrite K. split; [reflexivity|]. eexists _, _. split; [exact V2|reflexivity]. }
    destruct X as [X (F & D & V2 & ->)]. split; [exact X|]. cbv zeta. split; [exact C4|]. split; [apply (v_pos _ _ _ _ _ _ _ _ V2)|]. split; [apply (v_data _ _ _ _ _ _ _ _ V2)|]. split; [apply (v_open _ _ _ _ _ _ _ _ V2)|congruence]. }
  destruct S as (S1 & C4 & P4 & B4 & O4 & R4). rewrite S1. set (s2 := snd (step (HSeek w2 P 0) s1)) in *.
  pose proof (wp_read_calm w2 o s2 B' n C4 O4 R4 B4) as K. unfold wp in K. change (w_pos (wr s2 w2)) with (offset s2 w2) in K. rewrite P4 in K.
  assert (U2 : unlimited s2) by (apply (unlimited_step s1 (HSeek w2 P 0)); [discriminate|discriminate|exact U1]).
  destruct K as [(_ & K)|((K & _) & _)]; [contradiction K; apply unlimited_any, U2|].
  cbn [step]. rewrite outm_eq. cbn [fst]. rewrite K. unfold B'. rewrite overwrite_read. reflexivity.
Qed.
(** A concrete case: descriptor 3 of os.open reads and writes /f, handle 4 reads it through the link /l *)
Definition c43_os : op := OsOpen (L "/f") O_RDWR None [].
Definition c43_rb : op := Open (PStr (L "/l")) (L "rb") (-1) true.
Definition c43_s1 : fs := snd (step c43_os io_state).
Definition c43_s2 : fs := snd (step c43_rb c43_s1).
Lemma c43_session : session natural_fds posix_cfg c43_s1 (all_handles fd_init [] io_ops ++ returned (fst (step c43_os io_state))).
Proof. apply session_step; [apply io_session|exact Logic.I|]. intros w E. discriminate E. Qed.
Lemma c43_free s : map (fun km => m_total (snd km)) (f_mounts s) = [None] -> unlimited s /\ within_limits s.
Proof.
  intros E. assert (U : unlimited s).
  { intros k m Hin. apply (in_map (fun km => m_total (snd km))) in Hin. rewrite E in Hin. destruct Hin as [Ex|[]]. symmetry. exact Ex. }
  split; [exact U|]. intros k m t Hin Ht. rewrite (U _ _ Hin) in Ht. discriminate Ht.
Qed.
Lemma c43_held s p : exists_ s p false = Ok true -> resolve s p false = Ok 2 -> bytes_of s 2 (L "123456") -> held s p (L "123456").
Proof. intros H1 H2 H3. left. split; [exact H1|]. intros o H. rewrite H2 in H. injection H as <-. exact H3. Qed.
Lemma c43_null s p : resolve s p false = Ok 2 -> str_eqb p (devnull_name s) = false -> not_devnull s p.
Proof. intros H K. split; [intros E; rewrite E, str_eqb_refl in K; discriminate K|rewrite H; intros Q; discriminate Q]. Qed.
Example C43_case : an_open_handle 3 true true true c43_s2 /\ an_open_handle 4 true false true c43_s2 /\ file_of c43_s2 3 = file_of c43_s2 4 /\ unlimited c43_s2 /\
  get_open_file c43_s2 3 = Ok 3 /\ fileno c43_s2 4 = 4%Z /\
  outs c43_s2 [OsWrite 3 (L "ab"); HRead 4 3; OsWrite 3 (L "cdefg"); HSeek 4 0 0; HRead 4 (-1)] =
  [Ok (RInt 2); Ok (RBytes (L "ab3")); Ok (RInt 5); Ok RUnit; Ok (RBytes (L "abcdefg"))].
Proof.
  split; [|split; [|split; [vm_compute; reflexivity|split; [apply c43_free; vm_compute; reflexivity|split; [vm_compute; reflexivity|split; vm_compute; reflexivity]]]]].
  - exists posix_cfg, io_state, (all_handles fd_init [] io_ops), (L "/f"), (L "123456"), c43_s1, [c43_rb].
    destruct (io_ok (L "/f") eq_refl ltac:(left; vm_compute; reflexivity)) as (H1 & H2 & H3 & H4 & _ & H5).
    split; [exact H1|]. split; [exact H2|]. split; [exact H3|]. split; [exact H4|]. split; [exact H5|]. split; [apply C42_case|].
    split; [|split; [constructor; [exact eq_refl|constructor]|split; [unfold c43_s2; reflexivity|split; vm_compute; reflexivity]]].
    apply (by_os_open io_state (L "/f") O_RDWR None [] 3%Z 3 c43_s1); [reflexivity|reflexivity| |vm_compute; reflexivity].
    unfold c43_s1. apply pair_eq; vm_compute; reflexivity.
  - exists posix_cfg, c43_s1, (all_handles fd_init [] io_ops ++ returned (fst (step c43_os io_state))), (L "/l"), (L "123456"), c43_s2, [].
    split; [apply posix_cfg_linux|]. split; [reflexivity|]. split; [apply c43_session|]. split; [apply c43_free; vm_compute; reflexivity|].
    split; [apply c43_null; vm_compute; reflexivity|]. split; [apply c43_held; vm_compute; reflexivity|].
    split; [|split; [constructor|split; [reflexivity|split; [reflexivity|vm_compute; reflexivity]]]].
    apply (by_open c43_s1 (L "/l") (L "rb") (-1) true 4 c43_s2); [cbn; tauto|reflexivity|].
    unfold c43_s2. apply pair_eq; vm_compute; reflexivity.
Qed.
(** What is missing: handles that hold unwritten data, and append handles.
    Flushing one handle drops what another one has not yet written, although
    its own flush() succeeds later. *)
Definition c43_two (m1 m2 : string) : fs := run io_state [Open (PStr (L "/f")) (L m1) (-1) true; Open (PStr (L "/f")) (L m2) (-1) true].
Theorem C43_unwritten_refuted : let l := [HWrite 3 (L "AB"); HSeek 4 4 0; HWrite 4 (L "x"); HFlush 4; HFlush 3] in
  outs (c43_two "r+b" "r+b") l = [Ok (RInt 2); Ok RUnit; Ok (RInt 1); Ok RUnit; Ok RUnit] /\
  bytes_of (run (c43_two "r+b" "r+b") l) 2 (L "1234x6").
Proof. split; vm_compute; reflexivity. Qed.
(** reading through an append handle writes again what another one has appended *)
Theorem C43_append_refuted : let l := [HWrite 4 (L "x"); HFlush 4; HRead 3 3] in
  outs (c43_two "a+b" "ab") l = [Ok (RInt 1); Ok RUnit; Ok (RBytes (L "xx"))] /\
  bytes_of (run (c43_two "a+b" "ab") l) 2 (L "123456xx").
Proof. split; vm_compute; reflexivity. Qed.
(** tell() of a handle undoes a truncation by path *)
Theorem C43_truncate_refuted : let l := [Truncate (PStr (L "/f")) 2] in
  bytes_of (run (c43_two "r+b" "rb") l) 2 (L "12") /\ bytes_of (run (c43_two "r+b" "rb") (l ++ [HTell 3])) 2 (L "123456").
Proof. split; vm_compute; reflexivity. Qed.

Print Assumptions C43_file.
Print Assumptions C43_read_partial.
Print Assumptions C43_os_write_partial.
Print Assumptions C43_position.
Print Assumptions C43_write_then_read_partial.
Print Assumptions C43_unwritten_refuted.
Print Assumptions C43_append_refuted.
Print Assumptions C43_truncate_refuted.
