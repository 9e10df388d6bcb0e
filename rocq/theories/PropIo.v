(** * Reading and writing files: C36, C40 - C45. *)
From Verif Require Import IoSess Gen Limits.

(** ** Vocabulary *)
(** the calls did not raise *)
Definition all_ok (rs : list (res out)) : Prop := Forall (fun r => exists x, r = Ok x) rs.
(** the bytes of the file [o] *)
Definition bytes_of (s : fs) (o : oid) (c : str) : Prop := o_body (ob s o) = BFile (Some c).
(** what successive read(n) calls return from the bytes [c]; a negative n reads everything *)
Fixpoint slices (c : str) (sizes : list Z) : list str :=
  match sizes with
  | [] => []
  | n :: rest => let x := if (n <? 0)%Z then c else firstn (Z.to_nat n) c in x :: slices (skipn (length x) c) rest
  end.

(** ** From an open to the handle *)
Definition bufsize_of (b : Z) : Z := if Z.eqb b (-1) then 8192%Z else b.
Record flags_are (s : fs) (w : wid) (om : open_modes) (b : Z) (raw del : bool) : Prop := mkFlags {
  fl_upd : w_update (wr s w) = om_write om;
  fl_app : w_append (wr s w) = om_append om;
  fl_read : w_read (wr s w) = om_read om;
  fl_raw : w_raw (wr s w) = raw;
  fl_del : w_del (wr s w) = del;
  fl_buf : w_bufsize (wr s w) = bufsize_of b;
  fl_closefd : w_closefd (wr s w) = true
}.
Lemma flags_iow s s' w v om b raw del : flags_are s w om b raw del -> iow v s s' -> w_raw (wr s' w) = w_raw (wr s w) -> flags_are s' w om b raw del.
Proof.
  intros [] I Hr. pose proof (proj2 (proj2 (proj2 (iw_hst _ _ _ I))) w) as E. unfold wstat in E. injection E as E1 E2 E3 E4 E5 E6 E7 E8 E9.
  constructor; congruence.
Qed.
Lemma handle_view s s' w o om b raw del D : handle_on s s' w o om b raw del -> o <> devnull_oid -> bytes_of s' o D ->
  view s' w o D (if nonempty D && om_write om && om_append om then length D else 0) (length D) D /\ flags_are s' w om b raw del.
Proof.
  intros [[fd Hfd] [fd2 Hw] _] Hn Hb. pose proof (opened_open _ _ _ _ Hfd) as Ho. unfold byte_contents in Hw. rewrite Hb, (proj2 (Nat.eqb_neq _ _) Hn) in Hw.
  split; constructor; rewrite ?Hw; auto.
Qed.
Lemma is_open_ok {A} (m : M A) f s s' x : outm f m s = (Ok x, s') -> exists a, m s = (Ok a, s') /\ f a = x.
Proof. rewrite outm_eq. destruct (m s) as [[a|e] s2]; cbn; intros H; [|discriminate]. injection H as <- <-. eauto. Qed.

(** an open, and calls on handles, keep the disks within their limits *)
Definition limits_op (o : op) : Prop := match o with Open _ _ _ _ => True | _ => exists w, handle_of o = Some w end.
Lemma limits_step s o : limits_op o -> within_limits s -> within_limits (snd (step o s)).
Proof.
  intros H W. assert (Hm : forall p t, o <> AddMount p t) by (intros p t ->; destruct H as [? H]; discriminate H).
  assert (Hu : forall t p, o <> SetDiskUsage t p) by (intros p t ->; destruct H as [? H]; discriminate H).
  apply (gen_step _ _ _ (fp_core _ _ _ _ rl_prims) rl_prims o); [intros; exact Logic.I|intros; exact Logic.I|intros p t E; destruct (Hm _ _ E)|exact Hu|exact W].
Qed.
Lemma limits_run ops : forall s, Forall limits_op ops -> within_limits s -> within_limits (run s ops).
Proof. induction ops as [|o ops IH]; intros s H W; [exact W|]. inversion H; subst. cbn [run]. apply IH; [assumption|]. apply limits_step; assumption. Qed.
Lemma session_run (A : op -> Prop) c ops : forall s hs, session A c s hs -> okops A s hs ops -> session A c (run s ops) (all_handles s hs ops).
Proof.
  induction ops as [|o ops IH]; intros s hs H Hok; [exact H|]. destruct Hok as (H1 & H2 & H3). cbn [run all_handles].
  apply IH; [|exact H3]. apply session_step; assumption.
Qed.
Lemma session_Ginv (A : op -> Prop) c s hs : linux_like c -> session A c s hs -> Ginv s /\ f_cfg s = c.
Proof.
  intros Hl H. apply session_reachable in H. split; [apply (reachable_Ginv c s Hl H)|apply (reachable_cfg c s H)].
Qed.
Lemma open_bin p m b cf s w s' om : parse_mode m = Ok om -> has_char "b"%char m = true ->
  step (Open (PStr p) m b cf) s = (Ok (RHandle w), s') -> open_call (PStr p) om b cf false false s = (Ok w, s').
Proof.
  intros Hm Hb H. cbn [step] in H. apply is_open_ok in H. destruct H as (a & H & E). injection E as ->. unfold open_ in H. rewrite Hm, Hb in H. exact H.
Qed.
(** a successful open in a session *)
Lemma session_open c s hs p m om b cf w s' : linux_like c -> c_sep c = slash -> session natural_fds c s hs -> within_limits s -> not_devnull s p ->
  parse_mode m = Ok om -> has_char "b"%char m = true ->
  step (Open (PStr p) m b cf) s = (Ok (RHandle w), s') ->
  session natural_fds c s' (hs ++ [w]) /\ within_limits s' /\ exists o, opened_file s s' p w o om b false false.
Proof.
  intros Hl Hs HS HL Hn Hm Hb H. destruct (session_Ginv _ _ _ _ Hl HS) as [HG Hc].
  pose proof (session_step _ _ _ _ (Open (PStr p) m b cf) HS I) as K. rewrite H in K. cbn [fst snd returned] in K.
  split; [apply K; intros x E; discriminate E|].
  pose proof (limits_step s (Open (PStr p) m b cf) I HL) as L1. rewrite H in L1. split; [exact L1|].
  apply (open_str_done s p om b cf false false w s' HG); auto; [congruence| |apply (open_bin _ _ _ _ _ _ _ _ Hm Hb H)].
  apply (si_f _ hs). apply (session_Sinv natural_fds c); auto.
Qed.
Lemma writes_spec w o chunks : forall s B F D, view_ true s w o B (length B) F D -> w_update (wr s w) = true -> w_append (wr s w) = false ->
  (roomy s o \/ all_ok (outs s (map (HWrite w) chunks))) ->
  outs s (map (HWrite w) chunks) = map (fun d => Ok (RInt (Z.of_nat (length d)))) chunks /\
  iow w s (run s (map (HWrite w) chunks)) /\
  exists F' D', let B' := B ++ concat chunks in view (run s (map (HWrite w) chunks)) w o B' (length B') F' D'.
Proof.
  induction chunks as [|d chunks IH]; intros s B F D V Hu Ha Hr; cbn [map outs run concat].
  - split; [reflexivity|]. split; [reflexivity|]. exists F, D. cbv zeta. rewrite app_nil_r. exact V.
  - pose proof (wp_file_write true w o s B _ F D d V Hu Ha) as K. unfold wp in K. cbn [step map outs] in *. rewrite outm_eq in *. cbn [fst snd] in *.
    destruct (file_write w d s) as [r s1] eqn:Ew. cbn [fst snd] in *.
    destruct K as [(-> & K)|((-> & K) & I)].
    { exfalso. destruct Hr as [Hr|Hr]; [exact (K Hr)|]. inversion Hr as [|? ? [x Hx]]; subst. discriminate. }
    pose proof (iow_flags _ _ _ I) as (U & A & _).
    assert (E : exists F' D', view s1 w o (B ++ d) (length (B ++ d)) F' D').
    { revert K. unfold written. rewrite app_length, !bw_end. 
      destruct (negb _); [intros K; eauto|]. destruct (_ <? _)%Z; [intros K; eauto|].
      rewrite firstn_app, firstn_all, Nat.sub_diag, app_nil_r. cbn [firstn]. rewrite bw_end. intros K. eauto. }
    destruct E as (F' & D' & V1).
    destruct (IH s1 (B ++ d) F' D' V1) as (E1 & E2 & E3); [congruence|congruence| |].
    { destruct Hr as [Hr|Hr]; [left; apply (roomy_iow _ _ _ o I); exact Hr|]. right. inversion Hr; assumption. }
    split; [|split].
    + rewrite E1. reflexivity.
    + etransitivity; [exact I|exact E2].
    + rewrite <- app_assoc in E3. exact E3.
Qed.

Lemma skipn_add {A} a : forall b (l : list A), skipn a (skipn b l) = skipn (b + a) l.
Proof. intros b. revert a. induction b as [|b IH]; intros a l; [reflexivity|]. destruct l as [|x l]; [rewrite !skipn_nil; reflexivity|]. exact (IH a l). Qed.
Lemma reads_spec w o sizes : forall s P F D, view s w o D P F D -> w_update (wr s w) = false -> w_append (wr s w) = false -> w_read (wr s w) = true ->
  P <= length D ->
  outs s (map (HRead w) sizes) = map (fun x => Ok (RBytes x)) (slices (skipn P D) sizes).
Proof.
  induction sizes as [|n sizes IH]; intros s P F D V Hu Ha Hr Hp; [reflexivity|].
  pose proof (wp_read_only true w o s D P F D n V Hu Ha Hr ltac:(auto)) as K. unfold wp in K. cbn [step map outs slices] in *. rewrite outm_eq in *. cbn [fst snd] in *.
  destruct (file_read w n s) as [r s1]. cbn [fst snd] in *. destruct K as (-> & V1 & I). pose proof (iow_flags _ _ _ I) as (U & A & R & _).
  unfold bio_read in *. cbn [fst snd] in *.
  rewrite (IH _ _ _ _ V1); try congruence.
  - f_equal. f_equal. f_equal. rewrite skipn_add. reflexivity.
  - pose proof (skipn_length P D) as E. destruct (n <? 0)%Z; [lia|]. rewrite firstn_length. lia.
Qed.

(** writing chunks and closing, through a handle at the end of its file *)
Lemma write_close_spec w o chunks s B F D : view s w o B (length B) F D -> w_update (wr s w) = true -> w_append (wr s w) = false ->
  w_raw (wr s w) = false -> w_del (wr s w) = false ->
  let ops := map (HWrite w) chunks ++ [HClose w] in
  (roomy s o \/ all_ok (outs s ops)) ->
  outs s ops = map (fun d => Ok (RInt (Z.of_nat (length d)))) chunks ++ [Ok RUnit] /\
  kept o s (run s ops) /\ bytes_of (run s ops) o (B ++ concat chunks).
Proof.
  intros V Hu Ha Hraw Hdel ops Hr.
  assert (E : outs s ops = outs s (map (HWrite w) chunks) ++ outs (run s (map (HWrite w) chunks)) [HClose w] /\
              run s ops = run (run s (map (HWrite w) chunks)) [HClose w]).
  { subst ops. clear. generalize (map (HWrite w) chunks) as l. intros l. revert s. induction l as [|x l IH]; intros s; [split; reflexivity|].
    cbn [outs run app]. destruct (IH (snd (step x s))) as [E1 E2]. rewrite E1, E2. split; reflexivity. }
  destruct E as [Eo Er]. rewrite Eo, Er in *.
  destruct (writes_spec w o chunks s B F D V Hu Ha) as (W1 & W2 & F' & D' & W3).
  { destruct Hr as [Hr|Hr]; [left; exact Hr|right]. apply Forall_app in Hr. apply Hr. }
  set (s1 := run s (map (HWrite w) chunks)) in *. pose proof (iow_flags _ _ _ W2) as (U & A & _ & _ & _ & Dl & _).
  pose proof (wp_close true w o s1 _ _ _ _ W3 ltac:(congruence) ltac:(congruence)) as K. rewrite (iw_raw _ _ _ W2), Dl in K. specialize (K Hraw Hdel).
  unfold wp in K. cbn [outs run] in *. cbn [step] in *. rewrite outm_eq in *. destruct (close_wrapper w s1) as [r s2]. cbn [fst snd] in *.
  destruct K as [(-> & K)|(-> & s3 & V3 & I3 & R3)].
  - exfalso. destruct Hr as [Hr|Hr]; [apply K, (roomy_iow _ _ _ o W2), Hr|]. apply Forall_app in Hr. destruct Hr as [_ Hr]. inversion Hr as [|? ? [x Hx]]; discriminate.
  - rewrite W1. split; [reflexivity|]. pose proof (v_obj _ _ _ _ _ _ _ _ V) as Ev. pose proof (v_obj _ _ _ _ _ _ _ _ W3) as Ev1.
    split.
    + apply (kept_trans o s s1); [rewrite <- Ev; apply iow_kept, W2|]. apply (kept_trans o s1 s3); [rewrite <- Ev1; apply iow_kept, I3|].
      apply released_kept, R3.
    + unfold bytes_of. rewrite R3. exact (v_data _ _ _ _ _ _ _ _ V3).
Qed.


Lemma okops_handle w l hs : In w hs -> Forall (fun o => handle_of o = Some w) l -> forall s, okops natural_fds s hs l.
Proof.
  intros Hin H. revert hs Hin. induction H as [|o l Ho Hl IH]; intros hs Hin s; [exact Logic.I|].
  split; [destruct o; try exact Logic.I; discriminate Ho|]. split; [intros x E; congruence|]. apply IH. apply in_or_app. left. exact Hin.
Qed.
Lemma limits_handle w l : Forall (fun o => handle_of o = Some w) l -> Forall limits_op l.
Proof. apply Forall_impl. intros o H. unfold limits_op. destruct o; eauto. Qed.
(** a session that opened the file [o] under the name [p] and then used the handle *)
Lemma session_used c s hs p m om b cf w s1 o ops : linux_like c -> session natural_fds c s hs -> within_limits s -> not_devnull s p ->
  step (Open (PStr p) m b cf) s = (Ok (RHandle w), s1) -> opened_file s s1 p w o om b false false ->
  Forall (fun o => handle_of o = Some w) ops -> kept o s1 (run s1 ops) ->
  let s2 := run s1 ops in exists hs2, session natural_fds c s2 hs2 /\ within_limits s2 /\ not_devnull s2 p /\
    resolve s2 p false = resolve s1 p false /\ same_env s s2.
Proof.
  intros Hl HS HL Hn H O Hops K s2.
  pose proof (session_step _ _ _ _ (Open (PStr p) m b cf) HS I ltac:(intros x E; discriminate E)) as HS1.
  pose proof (limits_step s (Open (PStr p) m b cf) I HL) as HL1.
  pose proof (call_env (Open (PStr p) m b cf) eq_refl s) as HE1. rewrite H in HS1, HL1, HE1. cbn [fst snd returned] in *.
  assert (Hin : In w (hs ++ [w])) by (apply in_or_app; right; left; reflexivity).
  assert (ER : resolve s2 p false = resolve s1 p false) by (apply (kept_resolve o); [exact K|apply O|apply O]).
  exists (all_handles s1 (hs ++ [w]) ops).
  split; [apply session_run; [exact HS1|apply (okops_handle w); assumption]|].
  split; [apply limits_run; [apply (limits_handle w), Hops|exact HL1]|].
  split; [|split; [exact ER|etransitivity; [exact HE1|apply K]]].
  destruct Hn as [N1 N2]. split; [unfold s2; rewrite (kept_null _ _ _ K), (of_name _ _ _ _ _ _ _ _ _ O); exact N1|].
  rewrite ER. intros E. apply (of_null _ _ _ _ _ _ _ _ _ O). symmetry. exact (of_path _ _ _ _ _ _ _ _ _ O _ E).
Qed.
Lemma write_ops w chunks : Forall (fun o => handle_of o = Some w) (map (HWrite w) chunks ++ [HClose w]).
Proof. apply Forall_app. split; [|repeat constructor]. apply Forall_forall. intros x Hx. apply in_map_iff in Hx. destruct Hx as (d & <- & _). reflexivity. Qed.
Lemma unlimited_open s p m b cf w s1 : unlimited s -> step (Open (PStr p) m b cf) s = (Ok (RHandle w), s1) -> forall o, roomy s1 o.
Proof.
  intros Hr H o. apply (unlimited_roomy s1); [|apply totals_refl].
  pose proof (unlimited_step s (Open (PStr p) m b cf) ltac:(intros; discriminate) ltac:(discriminate) Hr) as K. rewrite H in K. exact K.
Qed.
(** the modes that start with an empty file *)
Definition write_mode (m : str) : Prop := In m [L "wb"; L "w+b"; L "xb"; L "x+b"; L "wb+"; L "xb+"].
Lemma write_mode_spec m : write_mode m -> exists om, parse_mode m = Ok om /\ has_char "b"%char m = true /\ om_write om = true /\ om_append om = false /\
  (om_trunc om = true \/ om_must_not_exist om = true).
Proof. intros [<-|[<-|[<-|[<-|[<-|[<-|[]]]]]]]; eexists; (split; [reflexivity|]); repeat split; auto. Qed.
(** writing a file *)
Lemma wb_session c s hs p m b cf w s1 chunks :
  linux_like c -> c_sep c = slash -> session natural_fds c s hs -> within_limits s -> not_devnull s p ->
  write_mode m -> step (Open (PStr p) m b cf) s = (Ok (RHandle w), s1) ->
  let ops := map (HWrite w) chunks ++ [HClose w] in
  unlimited s \/ all_ok (outs s1 ops) ->
  outs s1 ops = map (fun d => Ok (RInt (Z.of_nat (length d)))) chunks ++ [Ok RUnit] /\
  exists o hs2 om, opened_file s s1 p w o om b false false /\ kept o s1 (run s1 ops) /\
    bytes_of (run s1 ops) o (concat chunks) /\ session natural_fds c (run s1 ops) hs2 /\ within_limits (run s1 ops) /\
    not_devnull (run s1 ops) p /\ resolve (run s1 ops) p false = resolve s1 p false /\ same_env s (run s1 ops).
Proof.
  intros Hl Hs HS HL Hn Hm H ops Hr. destruct (write_mode_spec m Hm) as (om & M1 & M2 & M3 & M4 & M5).
  destruct (session_open c s hs p m _ b cf w s1 Hl Hs HS HL Hn M1 M2 H) as (_ & _ & o & O).
  assert (B0 : bytes_of s1 o []).
  { destruct (of_how _ _ _ _ _ _ _ _ _ O) as [(_ & _ & Ex & _ & E)|(_ & _ & _ & E & _)]; [|exact E]. unfold bytes_of. rewrite E, M3.
    destruct M5 as [->|M5]; [reflexivity|congruence]. }
  destruct (handle_view _ _ _ _ _ _ _ _ _ (of_handle _ _ _ _ _ _ _ _ _ O) (of_null _ _ _ _ _ _ _ _ _ O) B0) as (V & [F1 F2 F3 F4 F5 F6 F7]).
  cbn in V. rewrite M3 in F1. rewrite M4 in F2.
  destruct (write_close_spec w o chunks s1 [] _ _ V F1 F2 F4 F5) as (W1 & W2 & W3).
  { destruct Hr as [Hr|Hr]; [left|right; exact Hr]. apply (unlimited_open _ _ _ _ _ _ _ Hr H). }
  fold ops in W1, W2, W3. cbn [app] in W3. split; [exact W1|].
  destruct (session_used _ _ _ _ _ _ _ _ _ _ _ ops Hl HS HL Hn H O (write_ops w chunks) W2) as (hs2 & K). exists o, hs2, om. auto.
Qed.

(** ** C40: what was written is what is read *)
(** [open(p, 'wb', b)] (or w+b, xb, x+b), any writes, close, [open(p, 'rb', b2)], any reads. *)
Theorem C40_written_is_read : forall c s hs p m b cf w s1,
  linux_like c -> c_sep c = slash -> session natural_fds c s hs -> within_limits s -> not_devnull s p ->
  write_mode m -> step (Open (PStr p) m b cf) s = (Ok (RHandle w), s1) ->
  forall chunks, let ops := map (HWrite w) chunks ++ [HClose w] in
  unlimited s \/ all_ok (outs s1 ops) ->
  outs s1 ops = map (fun d => Ok (RInt (Z.of_nat (length d)))) chunks ++ [Ok RUnit] /\
  (forall o, resolve (run s1 ops) p false = Ok o -> bytes_of (run s1 ops) o (concat chunks)) /\
  forall b2 cf2 v s3 sizes,
    step (Open (PStr p) (L "rb") b2 cf2) (run s1 ops) = (Ok (RHandle v), s3) ->
    outs s3 (map (HRead v) sizes) = map (fun x => Ok (RBytes x)) (slices (concat chunks) sizes).
Proof.
  intros c s hs p m b cf w s1 Hl Hs HS HL Hn Hm H chunks ops Hr.
  destruct (wb_session c s hs p m b cf w s1 chunks Hl Hs HS HL Hn Hm H Hr) as (W1 & o & hs2 & om & O & K & W3 & HS2 & HL2 & Hn2 & ER & _). fold ops in W1, K, W3, HS2, HL2, Hn2, ER.
  split; [exact W1|]. split.
  - intros o2 Ho2. rewrite ER in Ho2. rewrite (of_path _ _ _ _ _ _ _ _ _ O _ Ho2). exact W3.
  - intros b2 cf2 v s3 sizes H2.
    destruct (session_open c _ _ p (L "rb") _ b2 cf2 v s3 Hl Hs HS2 HL2 Hn2 eq_refl eq_refl H2) as (HS3 & HL3 & o3 & O3).
    assert (E : o3 = o /\ bytes_of s3 o (concat chunks)).
    { destruct (of_how _ _ _ _ _ _ _ _ _ O3) as [(_ & E1 & _ & _ & E)|(_ & _ & E & _)]; [|discriminate].
      rewrite ER in E1. pose proof (of_path _ _ _ _ _ _ _ _ _ O _ E1) as ->. split; [reflexivity|]. unfold bytes_of. rewrite E. exact W3. }
    destruct E as [-> B3].
    destruct (handle_view _ _ _ _ _ _ _ _ _ (of_handle _ _ _ _ _ _ _ _ _ O3) (of_null _ _ _ _ _ _ _ _ _ O3) B3) as (V3 & [G1 G2 G3 G4 G5 G6 G7]).
    cbn in V3, G1, G2, G3. rewrite andb_false_r in V3. cbn in V3.
    rewrite (reads_spec v o sizes s3 _ _ _ V3 G1 G2 G3 ltac:(lia)). reflexivity.
Qed.
(** opening an existing file, not a directory, by a name that finds it *)
Lemma open_succeeds s p m om b cf o : Ginv s -> Finv s -> p <> devnull_name s -> is_root s = true -> parse_mode m = Ok om -> has_char "b"%char m = true ->
  om_must_not_exist om = false -> (om_write om && om_trunc om = false \/ roomy s o) ->
  resolve s p false = Ok o -> o <> devnull_oid -> is_dirm s o = false -> is_dirobj s o = false -> ends_with_path_separator (f_cfg s) p = false ->
  exists w s', step (Open (PStr p) m b cf) s = (Ok (RHandle w), s').
Proof.
  intros HG HF Hp Hroot Hm Hb Hx Ht Hres Hn Hdm Hd Hsep.
  assert (Hrp : exists rp, resolve_path s p = Ok rp /\ rp <> devnull_name s).
  { pose proof Hres as E. unfold resolve, resolve_ in E. fold (resolve_path s p) in E. destruct (resolve_path s p) as [rp|e] eqn:Erp; [|discriminate].
    exists rp. split; [reflexivity|]. intros ->. cbn [rbind] in E. unfold get_norm in E. rewrite str_eqb_refl in E.
    destruct (str_eqb _ _); injection E as <-; [|contradiction]. rewrite (gi_root _ HG) in Hd. discriminate. }
  destruct Hrp as (rp & Erp & Hrp).
  assert (Hex : exists_ s p false = Ok true).
  { apply (found_exists s p false o HG Hres); [congruence|]. unfold raise_for_sep, raise_for_sep_. rewrite Hsep. reflexivity. }
  pose proof (wp_open_found s p rp om b false false o HF Hdm Hd Hn) as K. unfold wp in K. rewrite Hx in K.
  cbn [step]. rewrite outm_eq. unfold open_. rewrite Hm, Hb.
  rewrite (open_call_str _ _ _ _ _ _ _ Hp), Erp, Hex, (proj2 (get_norm_resolve _ _ _ _ _ HG Erp) Hres).
  destruct K as [(_ & _ & K)|[(_ & K1 & K2)|(w & K & _)]]; [congruence|exfalso; destruct Ht; [congruence|exact (K1 H)]|].
  rewrite K. cbn [fst snd]. eauto.
Qed.
(** root can open the file again, when the path denoted a place in the tree *)
Theorem C40_reopens : forall c s hs p m b cf w s1,
  linux_like c -> c_sep c = slash -> session natural_fds c s hs -> within_limits s -> not_devnull s p -> is_root s = true ->
  ends_with_path_separator c p = false ->
  (exists names, resolve_path s p = Ok (abs_path slash names) /\ Forall (ordinary slash) names) ->
  write_mode m -> step (Open (PStr p) m b cf) s = (Ok (RHandle w), s1) ->
  forall chunks, let ops := map (HWrite w) chunks ++ [HClose w] in
  unlimited s \/ all_ok (outs s1 ops) ->
  forall b2 cf2, exists v s3, step (Open (PStr p) (L "rb") b2 cf2) (run s1 ops) = (Ok (RHandle v), s3).
Proof.
  intros c s hs p m b cf w s1 Hl Hs HS HL Hn Hroot Hsep (names & Hnm & Hord) Hm H chunks ops Hr b2 cf2.
  destruct (wb_session c s hs p m b cf w s1 chunks Hl Hs HS HL Hn Hm H Hr) as (W1 & o & hs2 & om & O & K & W3 & HS2 & HL2 & Hn2 & ER & HE). fold ops in W1, K, W3, HS2, HL2, Hn2, ER, HE.
  destruct (session_Ginv _ _ _ _ Hl HS) as [HG Hc]. destruct (session_Ginv _ _ _ _ Hl HS2) as [HG2 Hc2].
  assert (Hres : resolve s1 p false = Ok o).
  { apply (of_found _ _ _ _ _ _ _ _ _ O). intros rr E Hcl. rewrite Hnm in E. assert (E2 : abs_path slash names = abs_path (sepc s) rr) by (exact (f_equal (fun r => match r with Ok x => x | Err _ => [] end) E)).
    clear E. assert (Es : sepc s = slash) by (change (c_sep (f_cfg s) = slash); rewrite Hc; exact Hs). rewrite Es in *.
    assert (names = rr) as <-; [|exact Hord].
    apply (abs_path_clean_inj c Hl); rewrite ?Hs; auto. eapply Forall_impl; [|exact Hord]. intros a Ha. split; apply Ha. }
  eapply (open_succeeds _ p (L "rb") _ b2 cf2 o HG2); try reflexivity.
  - apply (si_f _ hs2), (session_Sinv natural_fds c); auto.
  - apply Hn2.
  - unfold is_root. destruct HE as (_ & _ & _ & _ & -> & _). exact Hroot.
  - left. reflexivity.
  - rewrite ER. exact Hres.
  - apply O.
  - unfold is_dirm. rewrite (kept_mode _ _ _ _ K). apply (of_mode _ _ _ _ _ _ _ _ _ O).
  - rewrite (kept_dirobj _ _ _ _ K). apply O.
  - rewrite Hc2. exact Hsep.
Qed.

(** ** C42: an append handle only extends the file *)
(** the calls of C42 on the handle [w]: write, seek, tell, flush, read *)
Definition append_use (w : wid) (o : op) : Prop :=
  handle_of o = Some w /\ match o with HWrite _ _ | HSeek _ _ _ | HTell _ | HFlush _ | HRead _ _ => True | _ => False end.
(** the data of the write calls, in order *)
Fixpoint writes (l : list op) : list str :=
  match l with [] => [] | HWrite _ d :: l' => d :: writes l' | _ :: l' => writes l' end.
(** no call failed for lack of disk space *)
Definition space_enough (rs : list (res out)) : Prop := Forall (fun r => r <> os_err ENOSPC) rs.
(** every write call returned the number of bytes given *)
Definition writes_ok (l : list op) (rs : list (res out)) : Prop :=
  Forall2 (fun o r => match o with HWrite _ d => r = Ok (RInt (Z.of_nat (length d))) | _ => True end) l rs.

Lemma aview_enter {A} e w o s R D (k : wrapper -> M A) (Q : res A -> fs -> Prop) : aview_ e s w o R D -> wp (k (wr s w)) s Q -> wp (bind (io_enter w) k) s Q.
Proof.
  intros V. apply (wp_io_enter false w o s (w_buf (wr s w)) (w_pos (wr s w)) (w_fpos (wr s w)) D). constructor; try reflexivity; try apply V. discriminate.
Qed.
Lemma append_use_step w o op s R D : aview_ true s w o R D -> append_use w op ->
  (roomy s o \/ fst (step op s) <> os_err ENOSPC) ->
  iow w s (snd (step op s)) /\
  (match op with HWrite _ d => fst (step op s) = Ok (RInt (Z.of_nat (length d))) | _ => True end) /\
  exists X R', X ++ R' = R ++ concat (writes [op]) /\ aview_ true (snd (step op s)) w o R' (D ++ X).
Proof.
  intros V [Hw Hop] Hr. destruct op; try contradiction; cbn [handle_of] in Hw; injection Hw as ->; cbn [step] in *; rewrite outm_eq in *; cbn [fst snd writes concat] in *; rewrite ?app_nil_r.
  - destruct (w_read (wr s w)) eqn:Er.
    + pose proof (wp_read_app w o s R D n V Er) as K. unfold wp in K. destruct (file_read w n s) as [r s1]. cbn [fst snd] in *.
      destruct K as [(-> & K)|((K & _) & I)]; [exfalso; destruct Hr as [Hr|Hr]; [exact (K Hr)|apply Hr; reflexivity]|].
      split; [exact I|]. split; [exact Logic.I|]. exists R, []. rewrite app_nil_r. auto.
    + assert (K : wp (file_read w n) s (fun r s' => s' = s)).
      { unfold file_read. apply (aview_enter true w o s R D); [exact V|]. rewrite Er. cbn [negb]. wstep.
        destruct (_ && _ && _); [apply wp_ret; reflexivity|]. unfold io_raise. destruct (w_raw _); [apply wp_raise; reflexivity|apply wp_raise; reflexivity]. }
      unfold wp in K. rewrite K. split; [reflexivity|]. split; [exact Logic.I|]. exists [], R. rewrite !app_nil_r. auto.
  - pose proof (wp_write_app true w o s R D data V) as K. unfold wp in K. destruct (file_write w data s) as [r s1]. cbn [fst snd] in *.
    destruct K as [(-> & K)|((-> & X & R' & K1 & K2) & I)]; [exfalso; destruct Hr as [Hr|Hr]; [exact (K Hr)|apply Hr; reflexivity]|].
    split; [exact I|]. split; [reflexivity|]. exists X, R'. auto.
  - pose proof (wp_seek_app true w o s R D off whence V) as K. unfold wp in K. destruct (file_seek w off whence s) as [r s1]. cbn [fst snd] in *.
    destruct K as [(-> & K)|((-> & K & _) & I)]; [exfalso; destruct Hr as [Hr|Hr]; [exact (K Hr)|apply Hr; reflexivity]|].
    split; [exact I|]. split; [exact Logic.I|]. exists R, []. rewrite app_nil_r. auto.
  - pose proof (wp_tell_app true w o s R D V) as K. unfold wp in K. destruct (file_tell w s) as [r s1]. cbn [fst snd] in *.
    destruct K as [(-> & K)|((K & _) & I)]; [exfalso; destruct Hr as [Hr|Hr]; [exact (K Hr)|apply Hr; reflexivity]|].
    split; [exact I|]. split; [exact Logic.I|]. exists R, []. rewrite app_nil_r. auto.
  - assert (K : wp (flush_wrapper w) s (fun r s' => ends s o w r s' (r = Ok tt /\ aview_ true s' w o [] (D ++ R)))).
    { unfold flush_wrapper. apply wp_bind_wget. rewrite (a_kind _ _ _ _ _ _ V). eapply wp_conseq; [apply (wp_flush_app true w o s R D V)|].
      cbv beta. intros r s' [K|((K1 & K2 & _) & K3)]; [left; exact K|right; auto]. }
    unfold wp in K. destruct (flush_wrapper w s) as [r s1]. cbn [fst snd] in *.
    destruct K as [(-> & K)|((-> & K) & I)]; [exfalso; destruct Hr as [Hr|Hr]; [exact (K Hr)|apply Hr; reflexivity]|].
    split; [exact I|]. split; [exact Logic.I|]. exists R, []. rewrite app_nil_r. auto.
Qed.
Lemma append_use_run w o l : forall s R D, aview_ true s w o R D -> Forall (append_use w) l ->
  (roomy s o \/ space_enough (outs s l)) ->
  iow w s (run s l) /\ writes_ok l (outs s l) /\
  exists X R', X ++ R' = R ++ concat (writes l) /\ aview_ true (run s l) w o R' (D ++ X).
Proof.
  induction l as [|op l IH]; intros s R D V Hl Hr.
  - split; [reflexivity|]. split; [constructor|]. exists [], R. cbn. rewrite !app_nil_r. auto.
  - inversion Hl as [|? ? H1 H2]; subst. cbn [outs run] in *.
    destruct (append_use_step w o op s R D V H1) as (S1 & S2 & X & R' & S3 & S4).
    { destruct Hr as [Hr|Hr]; [left; exact Hr|right]. inversion Hr; assumption. }
    destruct (IH _ R' (D ++ X) S4 H2) as (T1 & T2 & X2 & R2 & T3 & T4).
    { destruct Hr as [Hr|Hr]; [left; apply (roomy_iow _ _ _ o S1), Hr|right]. inversion Hr; assumption. }
    split; [etransitivity; eassumption|]. split; [constructor; assumption|].
    exists (X ++ X2), R2. rewrite <- app_assoc in T4 |- *. split; [|exact T4].
    rewrite T3, app_assoc, S3, <- app_assoc. f_equal. destruct op; cbn [writes concat]; rewrite ?app_nil_r; reflexivity.
Qed.
Lemma outs_app l1 : forall s l2, outs s (l1 ++ l2) = outs s l1 ++ outs (run s l1) l2.
Proof. induction l1 as [|x l1 IH]; intros s l2; [reflexivity|]. cbn [app outs run]. rewrite IH. reflexivity. Qed.
Lemma run_app l1 : forall s l2, run s (l1 ++ l2) = run (run s l1) l2.
Proof. induction l1 as [|x l1 IH]; intros s l2; [reflexivity|]. cbn [app run]. apply IH. Qed.

(** [p] is a file with the bytes [D], or missing and [D] is empty *)
Definition held (s : fs) (p : str) (D : str) : Prop :=
  (exists_ s p false = Ok true /\ forall o, resolve s p false = Ok o -> bytes_of s o D) \/
  (exists_ s p false = Ok false /\ D = []).
(** if [p] is found, its bytes are [D] *)
Definition holds (s : fs) (p : str) (D : str) : Prop := forall o, resolve s p false = Ok o -> bytes_of s o D.

Theorem C42_append_only : forall c s hs p m b cf w s1 D,
  linux_like c -> c_sep c = slash -> session natural_fds c s hs -> within_limits s -> not_devnull s p -> held s p D ->
  In m [L "ab"; L "a+b"; L "ab+"] -> step (Open (PStr p) m b cf) s = (Ok (RHandle w), s1) ->
  forall l, Forall (append_use w) l ->
  (unlimited s \/ space_enough (outs s1 (l ++ [HClose w]))) ->
  writes_ok l (outs s1 l) /\
  (exists X R, X ++ R = concat (writes l) /\ holds (run s1 l) p (D ++ X)) /\
  fst (step (HClose w) (run s1 l)) = Ok RUnit /\
  holds (run s1 (l ++ [HClose w])) p (D ++ concat (writes l)).
Proof.
  intros c s hs p m b cf w s1 D Hl Hs HS HL Hn HD Hm H l Hu Hr.
  assert (Hmode : exists om, parse_mode m = Ok om /\ has_char "b"%char m = true /\ om_write om = true /\ om_append om = true /\ om_trunc om = false).
  { destruct Hm as [<-|[<-|[<-|[]]]]; eexists; (split; [reflexivity|]); repeat split. }
  destruct Hmode as (om & M1 & M2 & M3 & M4 & M5).
  destruct (session_open c s hs p m _ b cf w s1 Hl Hs HS HL Hn M1 M2 H) as (_ & _ & o & O).
  assert (B0 : bytes_of s1 o D).
  { destruct (of_how _ _ _ _ _ _ _ _ _ O) as [(E1 & E2 & Ex & _ & E)|(E1 & _ & _ & E & _)].
    - unfold bytes_of. rewrite E, M5, andb_false_r. destruct HD as [[_ HD]|[HD _]]; [apply HD, E2|congruence].
    - destruct HD as [[HD _]|[_ ->]]; [congruence|exact E]. }
  destruct (handle_view _ _ _ _ _ _ _ _ _ (of_handle _ _ _ _ _ _ _ _ _ O) (of_null _ _ _ _ _ _ _ _ _ O) B0) as (V & [F1 F2 F3 F4 F5 F6 F7]).
  rewrite M3 in F1, V. rewrite M4 in F2, V.
  assert (AV : aview_ true s1 w o [] D).
  { constructor; try apply V; auto.
    - rewrite (v_pos _ _ _ _ _ _ _ _ V), (v_buf _ _ _ _ _ _ _ _ V). destruct D; reflexivity.
    - rewrite (v_fpos _ _ _ _ _ _ _ _ V), (v_buf _ _ _ _ _ _ _ _ V). apply le_n.
    - rewrite (v_fpos _ _ _ _ _ _ _ _ V), (v_buf _ _ _ _ _ _ _ _ V). apply skipn_all.
    - intros _. rewrite (v_buf _ _ _ _ _ _ _ _ V), app_nil_r. split; [apply V; reflexivity|reflexivity]. }
  assert (Hr1 : roomy s1 o \/ space_enough (outs s1 (l ++ [HClose w]))).
  { destruct Hr as [Hr|Hr]; [left; apply (unlimited_open _ _ _ _ _ _ _ Hr H)|right; exact Hr]. }
  rewrite outs_app in Hr1.
  destruct (append_use_run w o l s1 [] D AV Hu) as (T1 & T2 & X & R & T3 & T4).
  { destruct Hr1 as [Hr1|Hr1]; [left; exact Hr1|right]. apply Forall_app in Hr1. apply Hr1. }
  cbn [app] in T3. split; [exact T2|].
  assert (HP : forall s2, kept o s1 s2 -> resolve s2 p false = resolve s1 p false).
  { intros s2 K. apply (kept_resolve o); [exact K|apply O|apply O]. }
  assert (K1 : kept o s1 (run s1 l)) by (rewrite <- (a_obj _ _ _ _ _ _ AV); apply iow_kept, T1).
  split.
  { exists X, R. split; [exact T3|]. intros o2. rewrite (HP _ K1). intros E. rewrite (of_path _ _ _ _ _ _ _ _ _ O _ E). apply T4. }
  rewrite run_app. cbn [run outs] in *. pose proof (iow_flags _ _ _ T1) as (_ & _ & _ & _ & _ & Dl & _).
  pose proof (wp_close_app true w o (run s1 l) R (D ++ X) T4) as K. rewrite (iw_raw _ _ _ T1), Dl in K. specialize (K F4 F5).
  unfold wp in K. cbn [step] in *. rewrite outm_eq in *. destruct (close_wrapper w (run s1 l)) as [r s2]. cbn [fst snd] in *.
  destruct K as [(-> & K)|(-> & s3 & V3 & I3 & R3)].
  { exfalso. destruct Hr1 as [Hr1|Hr1]; [apply K, (roomy_iow _ _ _ o T1), Hr1|]. apply Forall_app in Hr1. destruct Hr1 as [_ Hr1]. inversion Hr1 as [|? ? K1']. apply K1'. reflexivity. }
  split; [reflexivity|].
  assert (K2 : kept o s1 s2).
  { apply (kept_trans o _ _ _ K1). apply (kept_trans o _ s3); [rewrite <- (a_obj _ _ _ _ _ _ T4); apply iow_kept, I3|]. apply released_kept, R3. }
  intros o2. rewrite (HP _ K2). intros E. rewrite (of_path _ _ _ _ _ _ _ _ _ O _ E). unfold bytes_of. rewrite R3.
  pose proof (a_data _ _ _ _ _ _ V3) as E3. rewrite <- app_assoc, T3 in E3. exact E3.
Qed.

(** ** C41: one random access handle is a byte array with a cursor *)
(** The reference: bytes and a position.  A write puts its data at the
    position, filling a gap with NUL bytes; read(n) takes up to n bytes from
    the position; truncate(n) cuts or pads with NUL bytes and does not move. *)
Definition overwrite (B : str) (P : nat) (d : str) : str :=
  match d with
  | [] => B
  | _ => firstn P B ++ repeat Ascii.zero (P - length B) ++ d ++ skipn (P + length d) B
  end.
Definition ref_step (o : op) (st : str * nat) : res out * (str * nat) :=
  let (B, P) := st in
  match o with
  | HWrite _ d => (Ok (RInt (Z.of_nat (length d))), (overwrite B P d, P + length d))
  | HRead _ n => let x := if (n <? 0)%Z then skipn P B else firstn (Z.to_nat n) (skipn P B) in
                 (Ok (RBytes x), (B, P + length x))
  | HSeek _ off wh =>
      match wh with
      | 0 => if (off <? 0)%Z then (Err ValueErr, st) else (Ok RUnit, (B, Z.to_nat off))
      | 1 => (Ok RUnit, (B, Z.to_nat (Z.of_nat P + off)))
      | 2 => (Ok RUnit, (B, Z.to_nat (Z.of_nat (length B) + off)))
      | _ => (Err ValueErr, st)
      end
  | HTell _ => (Ok (RInt (Z.of_nat P)), st)
  | HTruncate _ size =>
      let n := match size with Some n => n | None => Z.of_nat P end in
      if (n <? 0)%Z then (Err ValueErr, st)
      else (Ok (RInt n), (firstn (Z.to_nat n) B ++ repeat Ascii.zero (Z.to_nat n - length B), P))
  | _ => (Ok RUnit, st)
  end.
Fixpoint ref_outs (l : list op) (st : str * nat) : list (res out) :=
  match l with [] => [] | o :: l' => fst (ref_step o st) :: ref_outs l' (snd (ref_step o st)) end.
Fixpoint ref_run (l : list op) (st : str * nat) : str * nat :=
  match l with [] => st | o :: l' => ref_run l' (snd (ref_step o st)) end.
(** the calls of C41 on the handle [w] *)
Definition random_use (w : wid) (o : op) : Prop :=
  handle_of o = Some w /\ o <> HClose w.
(** Where the code follows the reference.  [F] is the position of the last
    flush; a write that ends inside the file, more than the buffer size
    behind [F], and not longer than the buffer, cuts off the rest of the file
    (C41_overwrite_refuted); truncate(n) beyond the end moves the position to
    n (C41_truncate_refuted). *)
Definition synced (bs : Z) (o : op) (B : str) (P F : nat) : nat :=
  match o with
  | HWrite _ d => if (Z.of_nat (P + length d) - Z.of_nat F <=? bs)%Z then F
                  else if (bs <? Z.of_nat (length d))%Z then P + length d else P
  | HSeek _ _ _ | HTruncate _ _ => match ref_step o (B, P) with (Ok _, (_, P')) => P' | _ => F end
  | _ => P
  end.
Definition safe_op (bs : Z) (o : op) (B : str) (P F : nat) : Prop :=
  match o with
  | HWrite _ d => length B <= P + length d \/ (bs < Z.of_nat (length d))%Z \/ (Z.of_nat (P + length d) - Z.of_nat F <= bs)%Z
  | HTruncate _ (Some n) => (n <= Z.of_nat (length B) \/ n = Z.of_nat P)%Z
  | _ => True
  end.
Fixpoint safe_run (bs : Z) (l : list op) (B : str) (P F : nat) : Prop :=
  match l with
  | [] => True
  | o :: l' => safe_op bs o B P F /\ let '(B', P') := snd (ref_step o (B, P)) in safe_run bs l' B' P' (synced bs o B P F)
  end.

Lemma overwrite_bw B P d : overwrite B P d = bw B P d.
Proof. unfold overwrite, bw, bio_write, zeros. destruct d; reflexivity. Qed.
Lemma cut_ref B n : firstn n B ++ repeat Ascii.zero (n - length B) = cut B n.
Proof. reflexivity. Qed.
Lemma bw_tail B P d : length B <= P + length d -> bw (firstn P (bw B P d)) P d = bw B P d.
Proof.
  intros H. unfold bw, bio_write. destruct d as [|x d]; [cbn [fst]; rewrite firstn_len; [reflexivity|cbn in H; lia]|].
  cbn [fst]. rewrite (skipn_all2 B) by exact H.
  assert (E : firstn P (firstn P B ++ zeros (P - length B) ++ (x :: d) ++ []) = firstn P B ++ zeros (P - length B)).
  { rewrite app_assoc, firstn_app. unfold zeros. rewrite app_length, repeat_length, firstn_length.
    replace (P - (Nat.min P (length B) + (P - length B))) with 0 by lia. cbn [firstn]. rewrite app_nil_r.
    apply firstn_len. rewrite app_length, repeat_length, firstn_length. lia. }
  rewrite E. assert (El : length (firstn P B ++ zeros (P - length B)) = P) by (unfold zeros; rewrite app_length, repeat_length, firstn_length; lia).
  rewrite (firstn_len P) by lia. rewrite El, Nat.sub_diag, skipn_all2 by lia. cbn [zeros repeat app]. rewrite !app_assoc. reflexivity.
Qed.
Lemma written_safe bs B P F D d : safe_op bs (HWrite 0 d) B P F -> exists D',
  written bs B P F D d = (overwrite B P d, synced bs (HWrite 0 d) B P F, D').
Proof.
  intros H. cbn [safe_op synced] in *. rewrite overwrite_bw. unfold written.
  destruct (Z.leb_spec (Z.of_nat (P + length d) - Z.of_nat F) bs) as [E|E]; destruct (Z.ltb_spec bs (Z.of_nat (P + length d) - Z.of_nat F)); try lia; cbn [negb].
  - eauto.
  - destruct (Z.ltb_spec bs (Z.of_nat (length d))); [eauto|]. rewrite bw_tail by lia. eauto.
Qed.
Lemma random_step w o op s B P F D : view s w o B P F D -> w_update (wr s w) = true -> w_append (wr s w) = false -> w_read (wr s w) = true ->
  random_use w op -> safe_op (w_bufsize (wr s w)) op B P F ->
  (roomy s o \/ fst (step op s) <> os_err ENOSPC) ->
  iow w s (snd (step op s)) /\ fst (step op s) = fst (ref_step op (B, P)) /\
  exists D', let '(B', P') := snd (ref_step op (B, P)) in
    view (snd (step op s)) w o B' P' (synced (w_bufsize (wr s w)) op B P F) D'.
Proof.
  intros V Hu Ha Hrd [Hw Hc] Hsafe Hr.
  destruct op; try discriminate Hw; cbn [handle_of] in Hw; injection Hw as ->; try contradiction; cbn [step] in *; rewrite outm_eq in *; cbn [fst snd ref_step] in *.
  - pose proof (wp_read_update w o s B P F D n V Hu Ha Hrd) as K. unfold wp in K. destruct (file_read w n s) as [r s1]. cbn [fst snd] in *.
    destruct K as [(-> & K)|((-> & V1) & I)]; [exfalso; destruct Hr as [Hr|Hr]; [exact (K Hr)|apply Hr; reflexivity]|].
    split; [exact I|]. split; [reflexivity|]. exists B. exact V1.
  - pose proof (wp_file_write true w o s B P F D data V Hu Ha) as K. unfold wp in K. destruct (file_write w data s) as [r s1]. cbn [fst snd] in *.
    destruct K as [(-> & K)|((-> & V1) & I)]; [exfalso; destruct Hr as [Hr|Hr]; [exact (K Hr)|apply Hr; reflexivity]|].
    split; [exact I|]. split; [reflexivity|]. destruct (written_safe _ B P F D data Hsafe) as [D' E]. rewrite E in V1. exists D'. exact V1.
  - pose proof (wp_seek true w o s B P F D off whence V Hu Ha) as K. unfold wp in K. destruct (file_seek w off whence s) as [r s1]. cbn [fst snd] in *.
    unfold bio_seek in K. destruct whence as [|[|[|k]]]; cbn [fst snd synced ref_step] in *.
    + destruct (off <? 0)%Z; cbn [fst snd] in *.
      * destruct K as [-> ->]. split; [reflexivity|]. split; [reflexivity|]. exists D. exact V.
      * destruct K as [(-> & K)|((-> & V1) & I)]; [exfalso; destruct Hr as [Hr|Hr]; [exact (K Hr)|apply Hr; reflexivity]|].
        split; [exact I|]. split; [reflexivity|]. exists B. exact V1.
    + destruct K as [(-> & K)|((-> & V1) & I)]; [exfalso; destruct Hr as [Hr|Hr]; [exact (K Hr)|apply Hr; reflexivity]|].
      split; [exact I|]. split; [reflexivity|]. exists B. rewrite Z2Nat.inj_max in V1. exact V1.
    + destruct K as [(-> & K)|((-> & V1) & I)]; [exfalso; destruct Hr as [Hr|Hr]; [exact (K Hr)|apply Hr; reflexivity]|].
      split; [exact I|]. split; [reflexivity|]. exists B. rewrite Z2Nat.inj_max in V1. exact V1.
    + destruct K as [-> ->]. split; [reflexivity|]. split; [reflexivity|]. exists D. exact V.
  - pose proof (wp_tell true w o s B P F D V Hu Ha) as K. unfold wp in K. destruct (file_tell w s) as [r s1]. cbn [fst snd] in *.
    destruct K as [(-> & K)|((-> & V1) & I)]; [exfalso; destruct Hr as [Hr|Hr]; [exact (K Hr)|apply Hr; reflexivity]|].
    split; [exact I|]. split; [reflexivity|]. exists B. exact V1.
  - pose proof (wp_truncate true w o s B P F D n V Hu Ha) as K. unfold wp in K. destruct (file_truncate w n s) as [r s1]. cbn [fst snd synced ref_step] in *.
    set (k := match n with Some n => n | None => Z.of_nat P end) in *. destruct (Z.ltb_spec k 0); cbn [fst snd].
    + destruct K as [-> ->]. split; [reflexivity|]. split; [reflexivity|]. exists D. exact V.
    + destruct K as [(-> & K)|((-> & V1) & I)]; [exfalso; destruct Hr as [Hr|Hr]; [exact (K Hr)|apply Hr; reflexivity]|].
      split; [exact I|]. split; [reflexivity|]. exists (cut B (Z.to_nat k)). rewrite cut_ref.
      replace (if (Z.of_nat (length B) <? k)%Z then Z.to_nat k else P) with P in V1; [exact V1|].
      destruct (Z.ltb_spec (Z.of_nat (length B)) k); [|reflexivity]. subst k. destruct n as [n|]; [cbn in Hsafe|]; lia.
  - assert (K : wp (flush_wrapper w) s (fun r s' => ends s o w r s' (r = Ok tt /\ view s' w o B P P B))).
    { unfold flush_wrapper. apply wp_bind_wget. rewrite (v_kind _ _ _ _ _ _ _ _ V). eapply wp_conseq; [apply (wp_flush true w o s B P F D V Hu Ha)|].
      cbv beta. intros r s' [K|(K1 & K2 & K3)]; [left; exact K|right; auto]. }
    unfold wp in K. destruct (flush_wrapper w s) as [r s1]. cbn [fst snd] in *.
    destruct K as [(-> & K)|((-> & V1) & I)]; [exfalso; destruct Hr as [Hr|Hr]; [exact (K Hr)|apply Hr; reflexivity]|].
    split; [exact I|]. split; [reflexivity|]. exists B. exact V1.
Qed.
Lemma random_run w o l : forall s B P F D, view s w o B P F D -> w_update (wr s w) = true -> w_append (wr s w) = false -> w_read (wr s w) = true ->
  Forall (random_use w) l -> safe_run (w_bufsize (wr s w)) l B P F ->
  (roomy s o \/ space_enough (outs s l)) ->
  iow w s (run s l) /\ outs s l = ref_outs l (B, P) /\
  exists F' D', view (run s l) w o (fst (ref_run l (B, P))) (snd (ref_run l (B, P))) F' D'.
Proof.
  induction l as [|op l IH]; intros s B P F D V Hu Ha Hrd Hl Hsafe Hr.
  - split; [reflexivity|]. split; [reflexivity|]. exists F, D. exact V.
  - inversion Hl as [|? ? H1 H2]; subst. cbn [outs run safe_run ref_outs ref_run] in *. destruct Hsafe as [Hs1 Hs2].
    destruct (random_step w o op s B P F D V Hu Ha Hrd H1 Hs1) as (S1 & S2 & D' & S3).
    { destruct Hr as [Hr|Hr]; [left; exact Hr|right]. inversion Hr; assumption. }
    destruct (snd (ref_step op (B, P))) as [B' P'] eqn:E. pose proof (iow_flags _ _ _ S1) as (G1 & G2 & G3 & G4 & _).
    destruct (IH _ B' P' _ D' S3) as (T1 & T2 & T3); try congruence; try assumption.
    { destruct Hr as [Hr|Hr]; [left; apply (roomy_iow _ _ _ o S1), Hr|right]. inversion Hr; assumption. }
    split; [etransitivity; eassumption|]. split; [rewrite S2, T2; reflexivity|exact T3].
Qed.

Definition random_mode (m : str) : Prop := In m [L "r+b"; L "rb+"; L "w+b"; L "wb+"; L "x+b"; L "xb+"].
(** the bytes a handle of mode [m] starts with: r+ keeps the file, w+ and x+ start empty *)
Definition start_bytes (m D : str) : str := match m with c :: _ => if Ascii.eqb c "r"%char then D else [] | [] => [] end.

Theorem C41_random_access_partial : forall c s hs p m b cf w s1 D,
  linux_like c -> c_sep c = slash -> session natural_fds c s hs -> within_limits s -> not_devnull s p -> held s p D ->
  random_mode m -> step (Open (PStr p) m b cf) s = (Ok (RHandle w), s1) ->
  let B := start_bytes m D in
  forall l, Forall (random_use w) l -> safe_run (bufsize_of b) l B 0 (length B) ->
  (unlimited s \/ space_enough (outs s1 (l ++ [HClose w]))) ->
  outs s1 (l ++ [HClose w]) = ref_outs l (B, 0) ++ [Ok RUnit] /\
  holds (run s1 (l ++ [HClose w])) p (fst (ref_run l (B, 0))).
Proof.
  intros c s hs p m b cf w s1 D Hl Hs HS HL Hn HD Hm H B l Hu Hsafe Hr.
  assert (Hmode : exists om, parse_mode m = Ok om /\ has_char "b"%char m = true /\ om_write om = true /\ om_append om = false /\ om_read om = true /\
     (om_must_not_exist om = false -> (if om_write om && om_trunc om then [] else D) = B) /\ (om_must_exist om = false -> B = [])).
  { subst B. destruct Hm as [<-|[<-|[<-|[<-|[<-|[<-|[]]]]]]]; eexists; (split; [reflexivity|]); repeat split; discriminate. }
  destruct Hmode as (om & M1 & M2 & M3 & M4 & M5 & M6 & M7).
  destruct (session_open c s hs p m _ b cf w s1 Hl Hs HS HL Hn M1 M2 H) as (_ & _ & o & O).
  assert (B0 : bytes_of s1 o B).
  { destruct (of_how _ _ _ _ _ _ _ _ _ O) as [(E1 & E2 & Ex & _ & E)|(E1 & _ & Ex & E & _)].
    - unfold bytes_of. rewrite E, <- (M6 Ex). destruct (_ && _); [reflexivity|]. destruct HD as [[_ HD]|[HD _]]; [apply HD, E2|congruence].
    - rewrite (M7 Ex). exact E. }
  destruct (handle_view _ _ _ _ _ _ _ _ _ (of_handle _ _ _ _ _ _ _ _ _ O) (of_null _ _ _ _ _ _ _ _ _ O) B0) as (V & [F1 F2 F3 F4 F5 F6 F7]).
  rewrite M4, andb_false_r in V. rewrite M3 in F1. rewrite M4 in F2. rewrite M5 in F3. rewrite <- F6 in Hsafe.
  assert (Hr1 : roomy s1 o \/ space_enough (outs s1 (l ++ [HClose w]))).
  { destruct Hr as [Hr|Hr]; [left; apply (unlimited_open _ _ _ _ _ _ _ Hr H)|right; exact Hr]. }
  rewrite outs_app in Hr1 |- *.
  destruct (random_run w o l s1 B 0 (length B) B V F1 F2 F3 Hu Hsafe) as (T1 & T2 & F' & D' & T3).
  { destruct Hr1 as [Hr1|Hr1]; [left; exact Hr1|right]. apply Forall_app in Hr1. apply Hr1. }
  rewrite run_app, T2. cbn [run outs] in *. pose proof (iow_flags _ _ _ T1) as (G1 & G2 & _ & _ & _ & G6 & _).
  pose proof (wp_close true w o (run s1 l) _ _ _ _ T3 ltac:(congruence) ltac:(congruence)) as K. rewrite (iw_raw _ _ _ T1), G6 in K. specialize (K F4 F5).
  unfold wp in K. cbn [step] in *. rewrite outm_eq in *. destruct (close_wrapper w (run s1 l)) as [r s2]. cbn [fst snd] in *.
  destruct K as [(-> & K)|(-> & s3 & V3 & I3 & R3)].
  { exfalso. destruct Hr1 as [Hr1|Hr1]; [apply K, (roomy_iow _ _ _ o T1), Hr1|]. apply Forall_app in Hr1. destruct Hr1 as [_ Hr1]. inversion Hr1 as [|? ? K1']. apply K1'. reflexivity. }
  split; [reflexivity|].
  assert (K2 : kept o s1 s2).
  { apply (kept_trans o _ (run s1 l)); [rewrite <- (v_obj _ _ _ _ _ _ _ _ V); apply iow_kept, T1|].
    apply (kept_trans o _ s3); [rewrite <- (v_obj _ _ _ _ _ _ _ _ T3); apply iow_kept, I3|]. apply released_kept, R3. }
  intros o2. rewrite (kept_resolve o _ _ _ K2 (of_file _ _ _ _ _ _ _ _ _ O) (of_link _ _ _ _ _ _ _ _ _ O)).
  intros E. rewrite (of_path _ _ _ _ _ _ _ _ _ O _ E). unfold bytes_of. rewrite R3. exact (v_data _ _ _ _ _ _ _ _ V3).
Qed.

(** A condition on the calls alone: every write comes directly after the open
    or after a seek, tell, flush or truncate(), and truncate has no argument. *)
Fixpoint positioned (fresh : bool) (l : list op) : Prop :=
  match l with
  | [] => True
  | HWrite _ _ :: l' => fresh = true /\ positioned false l'
  | HSeek _ off wh :: l' => positioned (match wh with 0 => fresh || (0 <=? off)%Z | 1 | 2 => true | _ => fresh end) l'
  | HTell _ :: l' | HFlush _ :: l' | HTruncate _ None :: l' => positioned true l'
  | HTruncate _ (Some _) :: _ => False
  | _ :: l' => positioned false l'
  end.
Lemma positioned_safe bs l : forall fresh B P F, positioned fresh l -> (fresh = true -> P <= F) -> Forall (fun o => exists w, random_use w o) l -> safe_run bs l B P F.
Proof.
  induction l as [|op l IH]; intros fresh B P F Hp Hf Hl; [exact Logic.I|]. inversion Hl as [|? ? [w [H1 H2]] H3]; subst. cbn [safe_run].
  destruct op; try discriminate H1; cbn [positioned safe_op snd ref_step synced] in *.
  - split; [exact Logic.I|]. apply (IH false); auto. discriminate.
  - destruct Hp as [-> Hp]. split; [|apply (IH false); auto; discriminate]. specialize (Hf eq_refl). lia.
  - split; [exact Logic.I|]. destruct whence as [|[|[|k]]]; cbn [snd].
    + destruct (Z.ltb_spec off 0) as [E|E]; cbn [snd]; apply (IH _ _ _ _ Hp); auto.
      intros E2. apply orb_prop in E2. destruct E2 as [E2|E2]; [auto|]. apply Z.leb_le in E2. lia.
    + apply (IH _ _ _ _ Hp); auto.
    + apply (IH _ _ _ _ Hp); auto.
    + apply (IH _ _ _ _ Hp); auto.
  - split; [exact Logic.I|]. apply (IH _ _ _ _ Hp); auto.
  - destruct n; [contradiction|]. split; [exact Logic.I|]. destruct (Z.ltb_spec (Z.of_nat P) 0); [lia|]. cbn [snd]. apply (IH _ _ _ _ Hp); auto.
  - split; [exact Logic.I|]. apply (IH _ _ _ _ Hp); auto.
  - exfalso. apply H2. cbn [handle_of] in H1. congruence.
Qed.
Theorem C41_positioned_partial : forall c s hs p m b cf w s1 D,
  linux_like c -> c_sep c = slash -> session natural_fds c s hs -> within_limits s -> not_devnull s p -> held s p D ->
  random_mode m -> step (Open (PStr p) m b cf) s = (Ok (RHandle w), s1) -> unlimited s ->
  let B := start_bytes m D in
  forall l, Forall (random_use w) l -> positioned true l ->
  outs s1 (l ++ [HClose w]) = ref_outs l (B, 0) ++ [Ok RUnit] /\
  holds (run s1 (l ++ [HClose w])) p (fst (ref_run l (B, 0))).
Proof.
  intros c s hs p m b cf w s1 D Hl Hs HS HL Hn HD Hm H Hun B l Hu Hp.
  apply (C41_random_access_partial c s hs p m b cf w s1 D); auto.
  apply (positioned_safe _ l true); auto; [intros _; apply Nat.le_0_l|]. eapply Forall_impl; [|exact Hu]. eauto.
Qed.

(** A concrete session *)
Definition io_ops : list op := [CreateFile (L "/f") 33188 (Some (L "123456")) None true true; CreateSymlink (L "/l") (L "/f") true].
Definition io_state : fs := run fd_init io_ops.
Lemma io_session : session natural_fds posix_cfg io_state (all_handles fd_init [] io_ops).
Proof. exists None, 18%N, 0%Z, 0%Z, 0%Z. apply continues_ops. okgo. Qed.
Lemma io_mounts : map (fun km => m_total (snd km)) (f_mounts io_state) = [None].
Proof. vm_compute. reflexivity. Qed.
Lemma io_limits : within_limits io_state /\ unlimited io_state.
Proof.
  assert (U : unlimited io_state).
  { intros k m Hin. apply (in_map (fun km => m_total (snd km))) in Hin. rewrite io_mounts in Hin. destruct Hin as [E|[]]. symmetry. exact E. }
  split; [|exact U]. intros k m t Hin Ht. rewrite (U _ _ Hin) in Ht. discriminate Ht.
Qed.
Lemma io_not_null p : str_eqb p (L "/dev/null") = false -> resolve io_state p false = Ok 2 \/ (exists e, resolve io_state p false = Err e) -> not_devnull io_state p.
Proof.
  intros H K. split.
  - intros E. assert (E2 : devnull_name io_state = L "/dev/null") by (vm_compute; reflexivity). rewrite E2 in E. rewrite E in H. rewrite str_eqb_refl in H. discriminate H.
  - destruct K as [K|[e K]]; rewrite K; intros Q; discriminate Q.
Qed.
Lemma pair_ok {A B} (x : A * B) a b : fst x = a -> snd x = b -> x = (a, b).
Proof. destruct x; cbn; intros -> ->; reflexivity. Qed.
Lemma io_ok p : str_eqb p (L "/dev/null") = false -> resolve io_state p false = Ok 2 \/ (exists e, resolve io_state p false = Err e) ->
  linux_like posix_cfg /\ c_sep posix_cfg = slash /\ session natural_fds posix_cfg io_state (all_handles fd_init [] io_ops) /\
  within_limits io_state /\ unlimited io_state /\ not_devnull io_state p.
Proof.
  intros H1 H2. split; [apply posix_cfg_linux|]. split; [reflexivity|]. split; [apply io_session|]. split; [apply io_limits|]. split; [apply io_limits|].
  apply io_not_null; assumption.
Qed.
(** the hypotheses of C40 through a symbolic link, with a buffer of 3 bytes *)
Definition c40_open : op := Open (PStr (L "/l")) (L "wb") 3 true.
Definition c40_state : fs := snd (step c40_open io_state).
Example C40_case : step c40_open io_state = (Ok (RHandle 3), c40_state) /\ not_devnull io_state (L "/l") /\ is_root io_state = true /\
  resolve_path io_state (L "/l") = Ok (abs_path slash [L "f"]) /\
  outs c40_state [HWrite 3 (L "ab"); HWrite 3 (L "cdefg"); HWrite 3 []; HWrite 3 (L "h"); HClose 3;
                  Open (PStr (L "/l")) (L "rb") 0 true; HRead 4 1; HRead 4 3; HRead 4 0; HRead 4 (-1); HRead 4 5] =
  [Ok (RInt 2); Ok (RInt 5); Ok (RInt 0); Ok (RInt 1); Ok RUnit;
   Ok (RHandle 4); Ok (RBytes (L "a")); Ok (RBytes (L "bcd")); Ok (RBytes []); Ok (RBytes (L "efgh")); Ok (RBytes [])].
Proof.
  split; [unfold c40_state; apply pair_eq; vm_compute; reflexivity|]. split; [apply io_not_null; [reflexivity|left; vm_compute; reflexivity]|].
  split; [vm_compute; reflexivity|]. split; vm_compute; reflexivity.
Qed.
(** C42: reads and seeks between the writes of an a+b handle *)
Definition c42_open : op := Open (PStr (L "/f")) (L "a+b") 2 true.
Definition c42_state : fs := snd (step c42_open io_state).
Example C42_case : step c42_open io_state = (Ok (RHandle 3), c42_state) /\ held io_state (L "/f") (L "123456") /\
  outs c42_state [HWrite 3 (L "a"); HSeek 3 2 0; HRead 3 2; HWrite 3 (L "bcd"); HSeek 3 0 0; HWrite 3 (L "e"); HClose 3;
                  Open (PStr (L "/f")) (L "rb") (-1) true; HRead 4 (-1)] =
  [Ok (RInt 1); Ok RUnit; Ok (RBytes (L "34")); Ok (RInt 3); Ok RUnit; Ok (RInt 1); Ok RUnit; Ok (RHandle 4); Ok (RBytes (L "123456abcde"))].
Proof.
  split; [unfold c42_state; apply pair_eq; vm_compute; reflexivity|]. split.
  - left. split; [vm_compute; reflexivity|]. intros o H. assert (E : resolve io_state (L "/f") false = Ok 2) by (vm_compute; reflexivity).
    rewrite E in H. injection H as <-. vm_compute. reflexivity.
  - vm_compute. reflexivity.
Qed.
(** C41: a session within the conditions; the buffer holds 4 bytes *)
Definition c41_open : op := Open (PStr (L "/f")) (L "r+b") 4 true.
Definition c41_state : fs := snd (step c41_open io_state).
Definition c41_uses : list op :=
  [HWrite 3 (L "AB"); HRead 3 2; HSeek 3 (-3) 1; HWrite 3 (L "xyz"); HTell 3; HSeek 3 8 0; HWrite 3 (L "end"); HSeek 3 (-1) 0; HFlush 3; HSeek 3 5 0; HTruncate 3 None; HRead 3 (-1)].
Example C41_case : step c41_open io_state = (Ok (RHandle 3), c41_state) /\ Forall (random_use 3) c41_uses /\ positioned true c41_uses /\
  outs c41_state c41_uses = ref_outs c41_uses (L "123456", 0) /\
  ref_outs c41_uses (L "123456", 0) =
    [Ok (RInt 2); Ok (RBytes (L "34")); Ok RUnit; Ok (RInt 3); Ok (RInt 4); Ok RUnit; Ok (RInt 3); Err ValueErr; Ok RUnit; Ok RUnit; Ok (RInt 5); Ok (RBytes [])] /\
  ref_run c41_uses (L "123456", 0) = (L "Axyz5", 5).
Proof.
  split; [unfold c41_state; apply pair_eq; vm_compute; reflexivity|]. split; [repeat constructor; try (intros E; discriminate E)|].
  split; [cbn; repeat split|]. split; [vm_compute; reflexivity|]. split; vm_compute; reflexivity.
Qed.
(** Outside of them: with a buffer of 2 bytes the second write ends inside
    the file, 3 bytes after the last flush, and the rest of the file is lost. *)
Definition c41b_open : op := Open (PStr (L "/f")) (L "r+b") 2 true.
Definition c41b_state : fs := snd (step c41b_open io_state).
Definition c41b_uses : list op := [HSeek 3 0 0; HWrite 3 (L "ab"); HWrite 3 (L "c")].
Theorem C41_overwrite_refuted :
  step c41b_open io_state = (Ok (RHandle 3), c41b_state) /\ Forall (random_use 3) c41b_uses /\
  outs c41b_state c41b_uses = ref_outs c41b_uses (L "123456", 0) /\
  bytes_of (run c41b_state (c41b_uses ++ [HClose 3])) 2 (L "abc") /\ ref_run c41b_uses (L "123456", 0) = (L "abc456", 3).
Proof.
  split; [unfold c41b_state; apply pair_eq; vm_compute; reflexivity|]. split; [repeat constructor; intros E; discriminate E|].
  split; [vm_compute; reflexivity|]. split; vm_compute; reflexivity.
Qed.
(** truncate(n) beyond the end moves the position *)
Theorem C41_truncate_refuted :
  step c41_open io_state = (Ok (RHandle 3), c41_state) /\
  outs c41_state [HTruncate 3 (Some 8%Z); HTell 3] = [Ok (RInt 8); Ok (RInt 8)] /\
  ref_outs [HTruncate 3 (Some 8%Z); HTell 3] (L "123456", 0) = [Ok (RInt 8); Ok (RInt 0)].
Proof. split; [unfold c41_state; apply pair_eq; vm_compute; reflexivity|]. split; vm_compute; reflexivity. Qed.

Print Assumptions C40_written_is_read.
Print Assumptions C40_reopens.
Print Assumptions C42_append_only.
Print Assumptions C41_random_access_partial.
Print Assumptions C41_positioned_partial.
Print Assumptions C41_overwrite_refuted.
Print Assumptions C41_truncate_refuted.
