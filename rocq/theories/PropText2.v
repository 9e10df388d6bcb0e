(** * C81: Path.write_text and Path.read_text *)
From Verif Require Import PathlibTextModel PropPathlib PropReal PropIo PropIo2 PropFd IoThm IoSess OpenThm FdThm IoApp IoFrame Gen Limits GraphIo.
From Verif Require Export PropText.
From Coq Require Import List Bool ZArith Lia Ascii.
Import ListNotations.
Open Scope nat_scope.

(** C76 with the file object named *)
Lemma text_done c s hs p m cf w s1 tm ts B r s2 :
  linux_like c -> c_sep c = slash -> session natural_fds c s hs -> within_limits s -> not_devnull s p ->
  text_write_mode m -> open_text (PStr p) m cf s = (Ok w, s1) ->
  stands_for tm ts B ->
  text_session tm w ts s1 = (r, s2) -> (unlimited s \/ exists l, r = Ok l) ->
  r = Ok (counts ts) /\ exists o om, opened_file s s1 p w o om (-1) false false /\ kept o s1 s2 /\ usable c s2 /\ bytes_of s2 o B.
Proof.
  intros Hl Hs HS HL Hn Hm H HB Hr Hroom.
  pose proof (session_usable _ _ _ Hl HS HL) as U. destruct (write_mode_om m Hm) as (om & M1 & M2 & M3 & M4).
  destruct (open_usable c s p m om cf w s1 Hl Hs U Hn M1 H) as (U1 & _ & Hun & o & O).
  assert (B0 : bytes_of s1 o []).
  { destruct (of_how _ _ _ _ _ _ _ _ _ O) as [(_ & _ & Ex & _ & E)|(_ & _ & _ & E & _)]; [|exact E]. unfold bytes_of. rewrite E, M2.
    destruct M4 as [->|M4]; [reflexivity|congruence]. }
  destruct (handle_view _ _ _ _ _ _ _ _ _ (of_handle _ _ _ _ _ _ _ _ _ O) (of_null _ _ _ _ _ _ _ _ _ O) B0) as (V & [F1 F2 F3 F4 F5 F6 F7]).
  cbn in V. rewrite M2 in F1. rewrite M3 in F2.
  assert (Hro : (roomy s1 o) \/ exists l, r = Ok l) by (destruct Hroom as [Hu|Hu]; [left; apply (unlimited_roomy s1); [exact (Hun Hu)|apply totals_refl]|right; exact Hu]).
  pose proof (text_writes_spec tm w o ts s1 [] _ _ B V F1 F2 HB) as W. unfold wp in W. cbn [app] in W.
  destruct (text_writes tm w ts s1) as [r1 s11] eqn:E1. cbn [fst snd] in W.
  destruct W as [(-> & Hno)|((-> & F' & D' & V1) & I1)].
  { exfalso. rewrite (text_session_err _ _ _ _ _ _ E1) in Hr. injection Hr as <- <-. destruct Hro as [K|[l K]]; [exact (Hno K)|discriminate]. }
  pose proof (iow_flags _ _ _ I1) as (Uf & A & _ & _ & _ & Dl & _).
  pose proof (wp_close true w o s11 _ _ _ _ V1 ltac:(congruence) ltac:(congruence)) as K. rewrite (iw_raw _ _ _ I1), Dl in K. specialize (K F4 F5).
  unfold wp in K. destruct (close_wrapper w s11) as [r2 s12] eqn:E2. cbn [fst snd] in K. rewrite (text_session_eq _ _ _ _ _ _ _ _ E1 E2) in Hr.
  destruct K as [(-> & K)|(-> & s13 & V3 & I3 & R3)].
  { exfalso. injection Hr as <- <-. destruct Hro as [K2|[l K2]]; [apply K, (roomy_iow _ _ _ o I1), K2|discriminate]. }
  injection Hr as <- <-. split; [reflexivity|].
  pose proof (v_obj _ _ _ _ _ _ _ _ V) as Ev. pose proof (v_obj _ _ _ _ _ _ _ _ V1) as Ev1.
  assert (K1 : kept o s1 s11) by (rewrite <- Ev; apply iow_kept, I1).
  assert (K2 : kept o s11 s12) by (apply (kept_trans o s11 s13); [rewrite <- Ev1; apply iow_kept, I3|apply released_kept, R3]).
  exists o, om. split; [exact O|]. split; [apply (kept_trans o s1 s11); assumption|]. split.
  - apply (close_usable c s11 w (Ok tt) s12); [|apply K2|exact (v_kind _ _ _ _ _ _ _ _ V1)|exact E2].
    apply (writes_usable c s1 w tm ts _ s11 U1 (kp_env _ _ _ K1) E1).
  - unfold bytes_of. rewrite R3. exact (v_data _ _ _ _ _ _ _ _ V3).
Qed.


Lemma kept_not_devnull s s1 s2 p w o om b : not_devnull s p -> opened_file s s1 p w o om b false false -> kept o s1 s2 -> not_devnull s2 p.
Proof.
  intros [N1 N2] O K. assert (ER : resolve s2 p false = resolve s1 p false) by (apply (kept_resolve o); [exact K|apply O|apply O]).
  split; [rewrite (kept_null _ _ _ K), (of_name _ _ _ _ _ _ _ _ _ O); exact N1|].
  rewrite ER. intros E. apply (of_null _ _ _ _ _ _ _ _ _ O). symmetry. exact (of_path _ _ _ _ _ _ _ _ _ O _ E).
Qed.

(** what an open for writing and a read afterwards do for a user who may do everything *)
Lemma text_reopens c s s1 s2 p w o om b cd B : linux_like c -> c_sep c = slash -> usable c s -> not_devnull s p ->
  opened_file s s1 p w o om b false false -> kept o s1 s2 -> usable c s2 -> bytes_of s2 o B ->
  is_root s2 = true -> ends_with_path_separator c p = false ->
  (exists names, resolve_path s p = Ok (abs_path slash names) /\ Forall (ordinary slash) names) ->
  fst (plib_read_text cd p s2) = read_as (plib_mode cd) B.
Proof.
  intros Hl Hs U0 Hn O K U HB Hroot Hsep (names & Hnm & Hord).
  pose proof (us_g _ _ U) as HG2. pose proof (us_c _ _ U) as Hc2. pose proof (us_c _ _ U0) as Hc.
  assert (ER : resolve s2 p false = resolve s1 p false) by (apply (kept_resolve o); [exact K|apply O|apply O]).
  assert (Hres : resolve s1 p false = Ok o).
  { apply (of_found _ _ _ _ _ _ _ _ _ O). intros rr E Hcl. rewrite Hnm in E. assert (E2 : abs_path slash names = abs_path (sepc s) rr) by (exact (f_equal (fun r => match r with Ok x => x | Err _ => [] end) E)).
    clear E. assert (Es : sepc s = slash) by (change (c_sep (f_cfg s) = slash); rewrite Hc; exact Hs). rewrite Es in *.
    assert (names = rr) as <-; [|exact Hord].
    apply (abs_path_clean_inj c Hl); rewrite ?Hs; auto. eapply Forall_impl; [|exact Hord]. intros a Ha. split; apply Ha. }
  pose proof (kept_not_devnull _ _ _ _ _ _ _ _ Hn O K) as Hn2.
  assert (Q : exists v s3, step (Open (PStr p) (L "rb") (-1) true) s2 = (Ok (RHandle v), s3)).
  { eapply (open_succeeds _ p (L "rb") _ (-1)%Z true o HG2); try reflexivity.
    - apply (us_f _ _ U).
    - apply Hn2.
    - exact Hroot.
    - left. reflexivity.
    - rewrite ER. exact Hres.
    - apply O.
    - unfold is_dirm. rewrite (kept_mode _ _ _ _ K). apply (of_mode _ _ _ _ _ _ _ _ _ O).
    - rewrite (kept_dirobj _ _ _ _ K). apply O.
    - rewrite Hc2. exact Hsep. }
  destruct Q as (v & s3 & St).
  assert (Eo2 : open_text (PStr p) (L "r") true s2 = (Ok v, s3)).
  { change (open_text (PStr p) (L "r") true s2) with (open_ (PStr p) (L "rb") (-1) true s2).
    cbn [step] in St. rewrite outm_eq in St. destruct (open_ _ _ _ _ s2) as [[v'|e] s4]; cbn [fst snd] in St; [|discriminate]. injection St as -> ->. reflexivity. }
  assert (Hm : om_text (L "r") (mkom true true false false false false)) by (split; [reflexivity|split; [reflexivity|exists (L "rb"); split; reflexivity]]).
  destruct (open_usable c s2 p (L "r") _ true v s3 Hl Hs U Hn2 Hm Eo2) as (U3 & _ & _ & o3 & O3).
  assert (E : o3 = o /\ bytes_of s3 o B).
  { destruct (of_how _ _ _ _ _ _ _ _ _ O3) as [(_ & E1 & _ & _ & E)|(_ & _ & E & _)]; [|discriminate].
    rewrite ER in E1. pose proof (of_path _ _ _ _ _ _ _ _ _ O _ E1) as ->. split; [reflexivity|]. unfold bytes_of. rewrite E. exact HB. }
  destruct E as [-> B3].
  destruct (handle_view _ _ _ _ _ _ _ _ _ (of_handle _ _ _ _ _ _ _ _ _ O3) (of_null _ _ _ _ _ _ _ _ _ O3) B3) as (V3 & [G1 G2 G3 G4 G5 G6 G7]).
  cbn in V3, G1, G2, G3. rewrite andb_false_r in V3. cbn in V3.
  pose proof (wp_read_only true v o s3 B 0 _ B (-1) V3 G1 G2 G3 ltac:(auto)) as R. unfold wp in R.
  unfold plib_read_text. rewrite (bind_ok _ _ _ _ _ Eo2). unfold with_file, text_read.
  destruct (file_read v (-1) s3) as [r5 s5] eqn:E5. cbn [fst snd] in R. destruct R as (-> & V5 & I5).
  rewrite (bind_ok _ _ _ _ _ E5).
  pose proof (iow_flags _ _ _ I5) as (Ux & _ & _ & _ & _ & U5 & _).
  pose proof (close_ro _ _ _ _ _ _ _ _ V5 ltac:(congruence)) as KC. specialize (KC ltac:(congruence)).
  change (fst (bio_read B 0 (-1))) with B. unfold read_as. destruct (cd_dec _ B) as [t2|]; cbn [raise ret];
  destruct (close_wrapper v s5) as [r6 s6]; cbn [fst] in *; rewrite KC; reflexivity.
Qed.

Lemma om_text_w : om_text (L "w") (mkom false false true true false false).
Proof. split; [reflexivity|]. split; [reflexivity|]. exists (L "wb"). split; reflexivity. Qed.
Lemma encode_refused tm w o s B P F D t e : view_ e s w o B P F D -> w_update (wr s w) = true ->
  encode (tm_codec tm) (nl_write (tm_nl tm) t) = None -> text_write tm w t s = (Err ValueErr, s).
Proof.
  intros V Hu H.
  assert (W : wp (text_write tm w t) s (fun r s' => r = Err ValueErr /\ s' = s)).
  { unfold text_write. eapply wp_io_enter; [exact V|]. rewrite Hu. cbn [negb]. rewrite H. split; reflexivity. }
  unfold wp in W. destruct (text_write tm w t s) as [r s']. cbn [fst snd] in W. destruct W as [-> ->]. reflexivity.
Qed.

(** Path(p).write_text(t, encoding): if it succeeds it returns the number of
    characters and leaves exactly the encoded text in the file [p] leads to, a
    new one if there was none, and no other file or link changes; a
    read_text(encoding2) of [p] that succeeds then gives the decoded bytes with
    '\r\n' and '\r' turned into '\n' ([read_as]), and for root this is what it
    does.  With room on the disk it fails only if open fails, or if the text
    cannot be encoded: then UnicodeEncodeError is raised and the file is left
    empty. *)
Theorem C81_write_text : forall c s hs p cd t r s',
  linux_like c -> c_sep c = slash -> session natural_fds c s hs -> within_limits s -> not_devnull s p ->
  plib_write_text cd p t s = (r, s') ->
  (forall n, r = Ok n ->
     n = Z.of_nat (length t) /\ exists B, encode cd t = Some B /\
     (exists o, bytes_of s' o B /\ (forall o2, resolve s' p false = Ok o2 -> o2 = o) /\
        (exists_ s p false = Ok true /\ resolve s p false = Ok o /\ (forall x, x <> o -> ob s' x = ob s x) \/
         exists_ s p false = Ok false /\ o = f_next s /\ forall x, (x < f_next s)%nat -> is_dirobj s x = false -> ob s' x = ob s x)) /\
     (forall cd2 t2 s2, plib_read_text cd2 p s' = (Ok t2, s2) -> read_as (plib_mode cd2) B = Ok t2) /\
     (is_root s = true -> ends_with_path_separator c p = false ->
      (exists names, resolve_path s p = Ok (abs_path slash names) /\ Forall (ordinary slash) names) ->
      forall cd2, fst (plib_read_text cd2 p s') = read_as (plib_mode cd2) B)) /\
  (forall e, r = Err e -> unlimited s ->
     open_text (PStr p) (L "w") true s = (Err e, s') \/
     encode cd t = None /\ e = ValueErr /\ holds s' p []).
Proof.
  intros c s hs p cd t r s' Hl Hs HS HL Hn E. unfold plib_write_text in E.
  pose proof (session_usable _ _ _ Hl HS HL) as U0.
  destruct (open_text (PStr p) (L "w") true s) as [[w|e] s1] eqn:Eo.
  2:{ rewrite (bind_err _ _ _ _ _ Eo) in E. injection E as <- <-. split; [discriminate|]. intros e' [= <-] _. left. reflexivity. }
  rewrite (bind_ok _ _ _ _ _ Eo) in E. unfold with_file in E.
  assert (Hm : text_write_mode (L "w")) by (left; reflexivity).
  destruct (encode cd t) as [B|] eqn:EB.
  - assert (HB : stands_for (plib_mode cd) [t] B).
    { unfold stands_for. cbn [concat plib_mode tm_codec tm_nl nl_write]. rewrite app_nil_r. exact EB. }
    destruct (text_write (plib_mode cd) w t s1) as [r1 s2] eqn:Ew. destruct (close_wrapper w s2) as [r2 s3] eqn:Ec. injection E as <- <-.
    assert (Ets : text_session (plib_mode cd) w [t] s1 =
      (match r1 with Ok n => match r2 with Ok _ => Ok [n] | Err e => Err e end | Err e => Err e end, match r1 with Ok _ => s3 | Err _ => s2 end)).
    { destruct r1 as [n|e].
      - assert (Q : text_writes (plib_mode cd) w [t] s1 = (Ok [n], s2)) by (cbn [text_writes]; rewrite (bind_ok _ _ _ _ _ Ew); reflexivity).
        apply (text_session_eq _ _ _ _ _ _ _ _ Q Ec).
      - apply text_session_err. cbn [text_writes]. apply (bind_err _ _ _ _ _ Ew). }
    split.
    + intros n Er. destruct r2 as [u|e2]; [|discriminate]. subst r1. cbn beta iota in Ets.
      destruct (text_done c s hs p (L "w") true w s1 _ _ B _ _ Hl Hs HS HL Hn Hm Eo HB Ets (or_intror (ex_intro _ _ eq_refl))) as (W1 & o & om & O & K & U & W3).
      split. { injection W1 as ->. reflexivity. }
      exists B. split; [reflexivity|].
      assert (ER : resolve s3 p false = resolve s1 p false) by (apply (kept_resolve o); [exact K|apply O|apply O]).
      split; [|split].
      * exists o. split; [exact W3|]. split; [intros o2 Ho; rewrite ER in Ho; apply (of_path _ _ _ _ _ _ _ _ _ O _ Ho)|].
        destruct (of_how _ _ _ _ _ _ _ _ _ O) as [(Ex & Er & _ & K1 & _)|(Ex & -> & _ & _ & _ & s0 & d & nm & OM & BN & _ & K1 & _)].
        -- left. split; [exact Ex|]. split; [exact Er|]. intros x Hx. rewrite (kp_other _ _ _ K x Hx). apply (kp_other _ _ _ K1 x Hx).
        -- right. split; [exact Ex|]. split; [reflexivity|]. intros x Hx Hd. rewrite (kp_other _ _ _ K x ltac:(lia)), (kp_other _ _ _ K1 x ltac:(lia)).
           destruct (Nat.eq_dec x d) as [->|Hxd]; [|apply OM; [exact Hxd|lia]].
           exfalso. rewrite (om_isdir _ _ _ _ _ OM) in Hd. discriminate.
      * intros cd2 t2 s4 Er. unfold plib_read_text in Er. destruct (open_text (PStr p) (L "r") true s3) as [[v|e] s5] eqn:Eo2.
        2:{ rewrite (bind_err _ _ _ _ _ Eo2) in Er. discriminate. }
        rewrite (bind_ok _ _ _ _ _ Eo2) in Er. unfold with_file in Er.
        destruct (reopened c s s1 s3 p w o om (-1) B Hl Hs Hn O K U W3) as (_ & Q). specialize (Q (plib_mode cd2) true v s5 Eo2).
        destruct (text_read (plib_mode cd2) v s5) as [r6 s6]. destruct (close_wrapper v s6) as [[u7|e] s7]; [|discriminate]. cbn [fst] in Q.
        injection Er as -> <-. symmetry. exact Q.
      * intros Hroot Hsep Hnm cd2. apply (text_reopens c s s1 s3 p w o om (-1) cd2 B Hl Hs U0 Hn O K U W3); auto.
        destruct (open_usable c s p (L "w") _ true w s1 Hl Hs U0 Hn om_text_w Eo) as (_ & E0 & _).
        unfold is_root in *. destruct (kp_env _ _ _ K) as (_ & _ & _ & _ & -> & _). destruct E0 as (_ & _ & _ & _ & -> & _). exact Hroot.
    + intros e Er Hun. exfalso.
      destruct (text_done c s hs p (L "w") true w s1 _ _ B _ _ Hl Hs HS HL Hn Hm Eo HB Ets (or_introl Hun)) as (W1 & _).
      destruct r1 as [n|e1], r2 as [u|e2]; discriminate.
  - destruct (open_usable c s p (L "w") _ true w s1 Hl Hs U0 Hn om_text_w Eo) as (U1 & _ & Hun & o & O).
    assert (B0 : bytes_of s1 o []).
    { destruct (of_how _ _ _ _ _ _ _ _ _ O) as [(_ & _ & Ex & _ & Eb)|(_ & _ & _ & Eb & _)]; exact Eb. }
    destruct (handle_view _ _ _ _ _ _ _ _ _ (of_handle _ _ _ _ _ _ _ _ _ O) (of_null _ _ _ _ _ _ _ _ _ O) B0) as (V & [F1 F2 F3 F4 F5 F6 F7]).
    cbn in F1. rewrite (encode_refused (plib_mode cd) _ _ _ _ _ _ _ t _ V F1 EB) in E.
    destruct (close_wrapper w s1) as [r2 s3] eqn:Ec. injection E as <- <-.
    assert (Q : text_writes (plib_mode cd) w [] s1 = (Ok [], s1)) by reflexivity.
    pose proof (text_session_eq _ _ _ _ _ _ _ _ Q Ec) as Ets.
    assert (HB : stands_for (plib_mode cd) [] []) by reflexivity.
    split; [intros n Er; destruct r2; discriminate|]. intros e Er Hunl. right.
    destruct (text_done c s hs p (L "w") true w s1 _ _ [] _ _ Hl Hs HS HL Hn Hm Eo HB Ets (or_introl Hunl)) as (W1 & o2 & om & O2 & K & U & W3).
    destruct r2 as [u|e2]; [|discriminate]. injection Er as <-. split; [reflexivity|]. split; [reflexivity|].
    apply (reopened c s s1 s3 p w o2 om (-1) [] Hl Hs Hn O2 K U W3).
Qed.
Print Assumptions C81_write_text.

(** The text comes back: any text that can be encoded and has no '\r', for
    every codec that decodes what it encodes (UTF-8 and Latin-1 do,
    [utf8_good], [latin1_good]) *)
Corollary C81_text_comes_back : forall c s hs p cd t n s',
  linux_like c -> c_sep c = slash -> session natural_fds c s hs -> within_limits s -> not_devnull s p ->
  good_codec cd -> ~ In CR t ->
  plib_write_text cd p t s = (Ok n, s') ->
  (forall t2 s2, plib_read_text cd p s' = (Ok t2, s2) -> t2 = t) /\
  (is_root s = true -> ends_with_path_separator c p = false ->
   (exists names, resolve_path s p = Ok (abs_path slash names) /\ Forall (ordinary slash) names) ->
   fst (plib_read_text cd p s') = Ok t).
Proof.
  intros c s hs p cd t n s' Hl Hs HS HL Hn Hg Hcr E.
  destruct (C81_write_text c s hs p cd t _ s' Hl Hs HS HL Hn E) as (K & _).
  destruct (K n eq_refl) as (_ & B & EB & _ & K2 & K3).
  assert (R : read_as (plib_mode cd) B = Ok t).
  { unfold read_as, plib_mode. cbn [tm_codec tm_nl nl_read]. rewrite (Hg _ _ EB). f_equal. apply universal_plain, Hcr. }
  split.
  - intros t2 s2 Er. specialize (K2 cd t2 s2 Er). rewrite R in K2. injection K2 as ->. reflexivity.
  - intros H1 H2 H3. rewrite (K3 H1 H2 H3 cd). exact R.
Qed.
Print Assumptions C81_text_comes_back.

(** through a link, a new file, a text that cannot be encoded, and a text with '\r' *)
Definition c81_t : text := [97; 233; 10; 8364]%N.
Example C81_nonvacuous :
  linux_like posix_cfg /\ c_sep posix_cfg = slash /\ session natural_fds posix_cfg io_state (all_handles fd_init [] io_ops) /\
  within_limits io_state /\ unlimited io_state /\ not_devnull io_state (L "/l") /\ not_devnull io_state (L "/new") /\
  fst (plib_write_text utf8 (L "/l") c81_t io_state) = Ok 4%Z /\
  fst (plib_read_text utf8 (L "/f") (snd (plib_write_text utf8 (L "/l") c81_t io_state))) = Ok c81_t /\
  fst (plib_read_bytes (L "/f") (snd (plib_write_text utf8 (L "/l") c81_t io_state))) = Ok (L "a" ++ map ascii_of_N [195; 169; 10; 226; 130; 172]%N) /\
  fst (plib_write_text latin1 (L "/l") c81_t io_state) = Err ValueErr /\
  fst (plib_read_text utf8 (L "/f") io_state) = Ok (map N_of_ascii (L "123456")) /\
  fst (plib_read_text utf8 (L "/f") (snd (plib_write_text latin1 (L "/l") c81_t io_state))) = Ok [] /\
  fst (plib_write_text utf8 (L "/new") [97]%N io_state) = Ok 1%Z /\
  fst (plib_read_text utf8 (L "/new") (snd (plib_write_text utf8 (L "/new") [97; 13; 10]%N io_state))) = Ok [97; 10]%N /\
  fst (plib_write_text utf8 (L "/no/new") [97]%N io_state) = Err (OSErr ENOENT).
Proof.
  split; [exact posix_cfg_linux|]. split; [reflexivity|]. split; [exact io_session|]. split; [apply io_limits|]. split; [apply io_limits|].
  split; [apply io_not_null; [vm_compute; reflexivity|left; vm_compute; reflexivity]|].
  split; [apply io_not_null; [vm_compute; reflexivity|right; exists (OSErr ENOENT); vm_compute; reflexivity]|].
  repeat (split; [vm_compute; reflexivity|]). vm_compute. reflexivity.
Qed.
