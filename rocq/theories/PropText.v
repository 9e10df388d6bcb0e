(** * C76: text files. *)
From Verif Require Import IoSess Gen Limits IoApp IoFrame GraphIo PropIo GraphOps3.
From Verif Require Export TextThm.
From Coq Require Import ZifyN ZifyBool Zify.
Open Scope nat_scope.

(** ** Specification *)
(** decoding gives back every text that can be encoded *)
Definition good_codec (cd : codec) : Prop := forall t b, encode cd t = Some b -> cd_dec cd b = Some t.
(** the modes that start with an empty file, and the modes that append *)
Definition text_write_mode (m : str) : Prop := In m [L "w"; L "w+"; L "x"; L "x+"; L "wt"; L "xt"; L "w+t"; L "x+t"; L "wt+"; L "xt+"].
Definition text_append_mode (m : str) : Prop := In m [L "a"; L "a+"; L "at"; L "a+t"; L "at+"].
(** [f.write(t1); f.write(t2); ...; f.close()] *)
Definition text_session (tm : tmode) (w : wid) (ts : list text) : M (list Z) :=
  l <- text_writes tm w ts ;; close_wrapper w ;;; ret l.
(** the number of characters of each text *)
Definition counts (ts : list text) : list Z := map (fun t => Z.of_nat (length t)) ts.
(** the bytes that stand for the texts written through [tm] *)
Definition stands_for (tm : tmode) (ts : list text) (B : str) : Prop :=
  encode (tm_codec tm) (nl_write (tm_nl tm) (concat ts)) = Some B.
(** the result of reading the bytes [B] through [tm] *)
Definition read_as (tm : tmode) (B : str) : res text :=
  match cd_dec (tm_codec tm) B with Some t => Ok (nl_read (tm_nl tm) t) | None => Err ValueErr end.
(** a code point that is a character: not a surrogate, below 0x110000 *)
Definition character (c : N) : Prop := (c < 1114112)%N /\ ~ (55296 <= c <= 57343)%N.

(** ** Codecs *)
Lemma latin1_good : good_codec latin1.
Proof.
  intros t. induction t as [|c t IH]; intros b H; [injection H as <-; reflexivity|]. cbn [encode latin1 cd_enc] in H.
  destruct (c <? 256)%N eqn:Hc; [|discriminate]. destruct (encode latin1 t) as [b'|]; [|discriminate]. injection H as <-.
  specialize (IH b' eq_refl). cbn [latin1 cd_dec] in IH |- *. injection IH as IH. cbn [app map]. rewrite IH, N_ascii_embedding by lia. reflexivity.
Qed.
Lemma byte_N n : (n < 256)%N -> N_of_ascii (byte n) = n.
Proof. apply N_ascii_embedding. Qed.
Lemma Some_inj {A} (a b : A) : Some a = Some b -> b = a.
Proof. congruence. Qed.
Lemma utf8_step c b r : utf8_enc c = Some b -> utf8_dec (b ++ r) = ocons c (utf8_dec r).
Proof.
  unfold utf8_enc. destruct (c <? 128)%N eqn:H1.
  { intros E; apply Some_inj in E; subst b. cbn [app utf8_dec]. rewrite byte_N by lia. rewrite H1. reflexivity. }
  destruct (c <? 2048)%N eqn:H2.
  { intros E; apply Some_inj in E; subst b. cbn [app utf8_dec]. unfold cont, low6.
    assert (D : (c = 64 * (c / 64) + c mod 64 /\ c mod 64 < 64)%N) by (split; [apply N.div_mod|apply N.mod_lt]; lia).
    set (q := (c / 64)%N) in *. set (m := (c mod 64)%N) in *. clearbody q m. rewrite !byte_N by lia. cbv zeta.
    replace (192 + q <? 128)%N with false by lia. replace (192 + q <? 192)%N with false by lia. replace (192 + q <? 224)%N with true by lia.
    replace ((192 + q - 192) * 64 + (128 + m - 128))%N with c by lia.
    replace (128 <=? 128 + m)%N with true by lia. replace (128 + m <? 192)%N with true by lia. replace (128 <=? c)%N with true by lia. reflexivity. }
  destruct (c <? 65536)%N eqn:H3.
  { destruct (surrogate c) eqn:Hs; [discriminate|]. intros E; apply Some_inj in E; subst b. cbn [app utf8_dec]. unfold cont, low6.
    assert (D : (c = 64 * (c / 64) + c mod 64 /\ c mod 64 < 64)%N) by (split; [apply N.div_mod|apply N.mod_lt]; lia).
    replace (c / 4096)%N with (c / 64 / 64)%N by (rewrite N.div_div by lia; reflexivity).
    assert (D2 : (c / 64 = 64 * (c / 64 / 64) + c / 64 mod 64 /\ c / 64 mod 64 < 64)%N) by (split; [apply N.div_mod|apply N.mod_lt]; lia).
    set (q := (c / 64)%N) in *. set (m := (c mod 64)%N) in *. set (q2 := (q / 64)%N) in *. set (m2 := (q mod 64)%N) in *. clearbody q m q2 m2. rewrite !byte_N by lia. cbv zeta.
    replace (224 + q2 <? 128)%N with false by lia. replace (224 + q2 <? 192)%N with false by lia. replace (224 + q2 <? 224)%N with false by lia. replace (224 + q2 <? 240)%N with true by lia.
    replace ((224 + q2 - 224) * 4096 + (128 + m2 - 128) * 64 + (128 + m - 128))%N with c by lia. rewrite Hs.
    replace (128 <=? 128 + m)%N with true by lia. replace (128 + m <? 192)%N with true by lia. replace (128 <=? 128 + m2)%N with true by lia. replace (128 + m2 <? 192)%N with true by lia.
    replace (2048 <=? c)%N with true by lia. reflexivity. }
  destruct (c <? 1114112)%N eqn:H4; [|discriminate].
  intros E; apply Some_inj in E; subst b. cbn [app utf8_dec]. unfold cont, low6.
  assert (D : (c = 64 * (c / 64) + c mod 64 /\ c mod 64 < 64)%N) by (split; [apply N.div_mod|apply N.mod_lt]; lia).
  replace (c / 4096)%N with (c / 64 / 64)%N by (rewrite N.div_div by lia; reflexivity).
  replace (c / 262144)%N with (c / 64 / 64 / 64)%N by (rewrite !N.div_div by lia; reflexivity).
  assert (D2 : (c / 64 = 64 * (c / 64 / 64) + c / 64 mod 64 /\ c / 64 mod 64 < 64)%N) by (split; [apply N.div_mod|apply N.mod_lt]; lia).
  assert (D3 : (c / 64 / 64 = 64 * (c / 64 / 64 / 64) + c / 64 / 64 mod 64 /\ c / 64 / 64 mod 64 < 64)%N) by (split; [apply N.div_mod|apply N.mod_lt]; lia).
  set (q := (c / 64)%N) in *. set (m := (c mod 64)%N) in *. set (q2 := (q / 64)%N) in *. set (m2 := (q mod 64)%N) in *. set (q3 := (q2 / 64)%N) in *. set (m3 := (q2 mod 64)%N) in *. clearbody q m q2 m2 q3 m3. rewrite !byte_N by lia. cbv zeta.
  replace (240 + q3 <? 128)%N with false by lia. replace (240 + q3 <? 192)%N with false by lia. replace (240 + q3 <? 224)%N with false by lia. replace (240 + q3 <? 240)%N with false by lia.
  replace (240 + q3 <? 245)%N with true by lia.
  replace ((240 + q3 - 240) * 262144 + (128 + m3 - 128) * 4096 + (128 + m2 - 128) * 64 + (128 + m - 128))%N with c by lia. rewrite H4.
  replace (128 <=? 128 + m)%N with true by lia. replace (128 + m <? 192)%N with true by lia. replace (128 <=? 128 + m2)%N with true by lia. replace (128 + m2 <? 192)%N with true by lia.
  replace (128 <=? 128 + m3)%N with true by lia. replace (128 + m3 <? 192)%N with true by lia.
  replace (65536 <=? c)%N with true by lia. reflexivity.
Qed.
Lemma utf8_good : good_codec utf8.
Proof.
  intros t. induction t as [|c t IH]; intros b H; [injection H as <-; reflexivity|]. cbn [encode] in H.
  destruct (cd_enc utf8 c) as [x|] eqn:Hc; [|discriminate]. destruct (encode utf8 t) as [b'|]; [|discriminate]. injection H as <-.
  specialize (IH b' eq_refl). cbn [utf8 cd_dec cd_enc] in *. rewrite (utf8_step _ _ _ Hc), IH. reflexivity.
Qed.
(** UTF-8 encodes every text of characters, and nothing else *)
Lemma utf8_chars t : (exists b, encode utf8 t = Some b) <-> Forall character t.
Proof.
  induction t as [|c t IH]; [split; [constructor|intros _; exists []; reflexivity]|]. cbn [encode].
  assert (Hc : (exists x, cd_enc utf8 c = Some x) <-> character c).
  { unfold character. cbn [utf8 cd_enc]. unfold utf8_enc, surrogate. destruct (c <? 128)%N eqn:H1; [split; [lia|eauto]|]. destruct (c <? 2048)%N eqn:H2; [split; [lia|eauto]|].
    destruct (c <? 65536)%N eqn:H3.
    - destruct (_ && _)%bool eqn:Hs; split; intros K; [destruct K; discriminate|lia|lia|eauto].
    - destruct (c <? 1114112)%N eqn:H4; split; intros K; [lia|eauto|destruct K; discriminate|lia]. }
  split.
  - intros [b H]. destruct (cd_enc utf8 c) as [x|]; [|discriminate]. destruct (encode utf8 t) as [y|]; [|discriminate]. constructor; [apply Hc; eauto|apply IH; eauto].
  - intros H. inversion H as [|? ? K1 K2]; subst. apply Hc in K1. apply IH in K2. destruct K1 as [x ->], K2 as [y ->]. eauto.
Qed.

(** ** Newlines *)
Lemma universal_plain t : ~ In CR t -> universal t = t.
Proof.
  induction t as [|c t IH]; intros H; [reflexivity|]. cbn [universal]. destruct (N.eqb_spec c CR); [destruct H; left; auto|].
  rewrite IH; [reflexivity|]. intros K; apply H; right; exact K.
Qed.
Lemma universal_cr t : ~ In CR t -> universal (nl_write NlCr t) = t.
Proof.
  induction t as [|c t IH]; intros H; [reflexivity|]. cbn [nl_write map].
  assert (Hc : c <> CR) by (intros ->; apply H; left; reflexivity). assert (Ht : ~ In CR t) by (intros K; apply H; right; exact K).
  specialize (IH Ht). cbn [nl_write] in IH. destruct (N.eqb_spec c LF) as [->|].
  - cbn [universal]. change (N.eqb CR CR) with true. cbv iota. f_equal. destruct t as [|d t]; [reflexivity|]. cbn [map] in *.
    assert (E : N.eqb (if N.eqb d LF then CR else d) LF = false).
    { destruct (N.eqb_spec d LF); [reflexivity|]. apply N.eqb_neq. assumption. }
    rewrite E. exact IH.
  - cbn [universal]. destruct (N.eqb_spec c CR); [contradiction|]. f_equal. exact IH.
Qed.
Lemma universal_crlf t : ~ In CR t -> universal (nl_write NlCrLf t) = t.
Proof.
  induction t as [|c t IH]; intros H; [reflexivity|]. cbn [nl_write flat_map].
  assert (Hc : c <> CR) by (intros ->; apply H; left; reflexivity). assert (Ht : ~ In CR t) by (intros K; apply H; right; exact K).
  specialize (IH Ht). cbn [nl_write] in IH. destruct (N.eqb_spec c LF) as [->|]; cbn [app].
  - cbn [universal]. change (N.eqb CR CR) with true. change (N.eqb LF LF) with true. cbv iota. f_equal. exact IH.
  - cbn [universal]. destruct (N.eqb_spec c CR); [contradiction|]. f_equal. exact IH.
Qed.

(** ** Handles *)
(** a text mode opens the file like the binary mode of the same letters *)
Definition om_text (m : str) (om : open_modes) : Prop := parse_mode m = Ok om /\ has_char "b"%char m = false /\
  exists mb, parse_mode mb = Ok om /\ has_char "b"%char mb = true.
Ltac twin := repeat match goal with
  | H : In _ (_ :: _) |- _ => destruct H as [<-|H]
  | H : In _ [] |- _ => destruct H
  end; match goal with
  | |- context [om_text (L ?x) _] => eexists; split; [split; [reflexivity|split; [reflexivity|exists (filter (fun a => negb (Ascii.eqb a "t"%char)) (L x) ++ L "b"); split; reflexivity]]|]; repeat split; auto
  end.
Lemma write_mode_om m : text_write_mode m -> exists om, om_text m om /\ om_write om = true /\ om_append om = false /\ (om_trunc om = true \/ om_must_not_exist om = true).
Proof. unfold text_write_mode. intros H. twin. Qed.
Lemma append_mode_om m : text_append_mode m -> exists om, om_text m om /\ om_write om = true /\ om_append om = true /\ om_trunc om = false.
Proof. unfold text_append_mode. intros H. twin. Qed.
(** what the theorems need of a state *)
Record usable (c : cfg) (s : fs) : Prop := mkUsable { us_g : Ginv s; us_f : Finv s; us_l : within_limits s; us_c : f_cfg s = c }.
Lemma session_usable c s hs : linux_like c -> session natural_fds c s hs -> within_limits s -> usable c s.
Proof.
  intros Hl HS HL. destruct (session_Ginv _ _ _ _ Hl HS). constructor; auto. apply (si_f _ hs), (session_Sinv natural_fds c); auto.
Qed.
Lemma open_twin s p m om cf w s1 : om_text m om -> open_text (PStr p) m cf s = (Ok w, s1) ->
  open_call (PStr p) om (-1) cf false false s = (Ok w, s1) /\
  exists mb, step (Open (PStr p) mb (-1) cf) s = (Ok (RHandle w), s1).
Proof.
  intros (M1 & M2 & mb & M3 & M4) H. unfold open_text in H. rewrite M1, M2 in H. split; [exact H|]. exists mb. cbn [step]. rewrite outm_eq.
  unfold open_. rewrite M3, M4, H. reflexivity.
Qed.
Lemma open_usable c s p m om cf w s1 : linux_like c -> c_sep c = slash -> usable c s -> not_devnull s p -> om_text m om ->
  open_text (PStr p) m cf s = (Ok w, s1) ->
  usable c s1 /\ same_env s s1 /\ (unlimited s -> unlimited s1) /\ exists o, opened_file s s1 p w o om (-1) false false.
Proof.
  intros Hl Hs [G F Li C] Hn Hm H. destruct (open_twin _ _ _ _ _ _ _ Hm H) as (H1 & mb & H2).
  pose proof (call_env (Open (PStr p) mb (-1) cf) eq_refl s) as HE. rewrite H2 in HE. cbn [snd] in HE.
  split; [|split; [exact HE|split]].
  - constructor.
    + pose proof (open_call_pres (PStr p) om (-1) cf false false s G) as K. unfold wp in K. rewrite H1 in K. exact K.
    + pose proof (open_call_spec (PStr p) om (-1) cf false false s F ltac:(discriminate)) as K. unfold wp in K. rewrite H1 in K. cbn [fst snd] in K.
      destruct K as (_ & [(fd & K)|(fd & l & E & _)]); [apply K|discriminate].
    + pose proof (limits_step s (Open (PStr p) mb (-1) cf) I Li) as K. rewrite H2 in K. exact K.
    + destruct HE as [HE _]. congruence.
  - intros U. pose proof (unlimited_step s (Open (PStr p) mb (-1) cf) ltac:(intros; discriminate) ltac:(discriminate) U) as K. rewrite H2 in K. exact K.
  - apply (open_str_done s p om (-1) cf false false w s1 G); auto. congruence.
Qed.
Lemma gs_text_writes tm w : forall ts, keeps gsame (text_writes tm w ts).
Proof. induction ts as [|t ts IH]; cbn [text_writes]; keepsf; [apply text_write_keeps|apply IH]. Qed.
(** a state after text writes and after closing *)
Lemma writes_usable c s w tm ts r s' : usable c s -> same_env s s' -> text_writes tm w ts s = (r, s') -> usable c s'.
Proof.
  intros [G F Li C] [HE _] H. constructor.
  - pose proof (gs_text_writes tm w ts s) as K. rewrite H in K. exact (gsame_Ginv _ _ K G).
  - pose proof (text_writes_keeps hst tm w (hs_text_write tm w) ts s) as K. rewrite H in K. exact (Finv_hst _ _ K F).
  - pose proof (text_writes_keeps RL tm w (rl_text_write tm w) ts s) as K. rewrite H in K. exact (K Li).
  - congruence.
Qed.
Lemma close_usable c s w r s' : usable c s -> same_env s s' -> w_kind (wr s w) = WFile -> close_wrapper w s = (r, s') -> usable c s'.
Proof.
  intros [G F Li C] [HE _] Hk H. constructor.
  - pose proof (close_wrapper_pres w s G) as K. unfold wp in K. rewrite H in K. exact K.
  - pose proof (close_spec w s F ltac:(congruence)) as K. unfold wp in K. rewrite H in K. cbn [fst snd] in K.
    destruct K as [[K _]|(l & _ & K)]; [exact (Finv_hst _ _ K F)|apply K].
  - pose proof (limits_step s (HClose w) ltac:(exists w; reflexivity) Li) as K. cbn [step] in K. rewrite outm_eq in K. rewrite H in K. exact K.
  - congruence.
Qed.
(** after the session: the bytes, and what a later reader gets *)
Lemma reopened c s s1 s2 p w o om b B : linux_like c -> c_sep c = slash -> not_devnull s p -> opened_file s s1 p w o om b false false ->
  kept o s1 s2 -> usable c s2 -> bytes_of s2 o B ->
  holds s2 p B /\ forall tm2 cf2 v s3, open_text (PStr p) (L "r") cf2 s2 = (Ok v, s3) -> fst (text_read tm2 v s3) = read_as tm2 B.
Proof.
  intros Hl Hs Hn O K U HB.
  assert (ER : resolve s2 p false = resolve s1 p false) by (apply (kept_resolve o); [exact K|apply O|apply O]).
  split.
  { intros o2 E. rewrite ER in E. rewrite (of_path _ _ _ _ _ _ _ _ _ O _ E). exact HB. }
  intros tm2 cf2 v s3 H.
  assert (Hn2 : not_devnull s2 p).
  { destruct Hn as [N1 N2]. split; [rewrite (kept_null _ _ _ K), (of_name _ _ _ _ _ _ _ _ _ O); exact N1|].
    rewrite ER. intros E. apply (of_null _ _ _ _ _ _ _ _ _ O). symmetry. exact (of_path _ _ _ _ _ _ _ _ _ O _ E). }
  assert (Hm : om_text (L "r") (mkom true true false false false false)) by (split; [reflexivity|split; [reflexivity|exists (L "rb"); split; reflexivity]]).
  destruct (open_usable c s2 p (L "r") _ cf2 v s3 Hl Hs U Hn2 Hm H) as (U3 & _ & _ & o3 & O3).
  assert (E : o3 = o /\ bytes_of s3 o B).
  { destruct (of_how _ _ _ _ _ _ _ _ _ O3) as [(_ & E1 & _ & _ & E)|(_ & _ & E & _)]; [|discriminate].
    rewrite ER in E1. pose proof (of_path _ _ _ _ _ _ _ _ _ O _ E1) as ->. split; [reflexivity|]. unfold bytes_of. rewrite E. exact HB. }
  destruct E as [-> B3].
  destruct (handle_view _ _ _ _ _ _ _ _ _ (of_handle _ _ _ _ _ _ _ _ _ O3) (of_null _ _ _ _ _ _ _ _ _ O3) B3) as (V3 & [G1 G2 G3 G4 G5 G6 G7]).
  cbn in V3, G1, G2, G3. rewrite andb_false_r in V3. cbn in V3.
  pose proof (wp_read_only true v o s3 B 0 _ B (-1) V3 G1 G2 G3 ltac:(auto)) as R. unfold wp in R.
  unfold text_read, bind. destruct (file_read v (-1) s3) as [r s4]. cbn [fst snd] in R. destruct R as (-> & _). unfold read_as.
  change (fst (bio_read B 0 (-1))) with B. destruct (cd_dec _ B); reflexivity.
Qed.
Lemma bind_err {A B} (m : M A) (k : A -> M B) s e s' : m s = (Err e, s') -> bind m k s = (Err e, s').
Proof. intros E. unfold bind. rewrite E. reflexivity. Qed.
Lemma bind_ok {A B} (m : M A) (k : A -> M B) s x s' : m s = (Ok x, s') -> bind m k s = k x s'.
Proof. intros E. unfold bind. rewrite E. reflexivity. Qed.
Lemma text_session_eq tm w ts s l s2 s' r : text_writes tm w ts s = (Ok l, s2) -> close_wrapper w s2 = (r, s') ->
  text_session tm w ts s = (match r with Ok _ => Ok l | Err e => Err e end, s').
Proof. intros E1 E2. unfold text_session. rewrite (bind_ok _ _ _ _ _ E1). unfold bind. rewrite E2. destruct r; reflexivity. Qed.
Lemma text_session_err tm w ts s e s2 : text_writes tm w ts s = (Err e, s2) -> text_session tm w ts s = (Err e, s2).
Proof. intros E. unfold text_session. rewrite (bind_err _ _ _ _ _ E). reflexivity. Qed.

(** ** The theorems *)
(** [with open(p, m, newline=, encoding=) as f: f.write(...)...]: if the disk has
    room, or nothing was raised, each call returns its number of characters,
    the file holds exactly the bytes that stand for the texts, and opening it
    for reading - with any encoding and newline argument - reads them all *)
Theorem C76_text_is_read : forall c s hs p m cf w s1 tm ts B r s2,
  linux_like c -> c_sep c = slash -> session natural_fds c s hs -> within_limits s -> not_devnull s p ->
  text_write_mode m -> open_text (PStr p) m cf s = (Ok w, s1) ->
  stands_for tm ts B ->
  text_session tm w ts s1 = (r, s2) -> (unlimited s \/ exists l, r = Ok l) ->
  r = Ok (counts ts) /\ holds s2 p B /\
  forall tm2 cf2 v s3, open_text (PStr p) (L "r") cf2 s2 = (Ok v, s3) -> fst (text_read tm2 v s3) = read_as tm2 B.
Proof.
  intros c s hs p m cf w s1 tm ts B r s2 Hl Hs HS HL Hn Hm H HB Hr Hroom.
  pose proof (session_usable _ _ _ Hl HS HL) as U. destruct (write_mode_om m Hm) as (om & M1 & M2 & M3 & M4).
  destruct (open_usable c s p m om cf w s1 Hl Hs U Hn M1 H) as (U1 & _ & Hun & o & O).
  assert (B0 : bytes_of s1 o []).
  { destruct (of_how _ _ _ _ _ _ _ _ _ O) as [(_ & _ & Ex & _ & E)|(_ & _ & _ & E & _)]; [|exact E]. unfold bytes_of. rewrite E, M2.
    destruct M4 as [->|M4]; [reflexivity|congruence]. }
  destruct (handle_view _ _ _ _ _ _ _ _ _ (of_handle _ _ _ _ _ _ _ _ _ O) (of_null _ _ _ _ _ _ _ _ _ O) B0) as (V & [F1 F2 F3 F4 F5 F6 F7]).
  cbn in V. rewrite M2 in F1. rewrite M3 in F2.
  assert (Hro : (roomy s1 o) \/ exists l, r = Ok l) by (destruct Hroom as [Hu|Hu]; [left; apply (unlimited_roomy s1); [exact (Hun Hu)|apply totals_refl]|right; exact Hu]).
  pose proof (text_writes_spec tm w o ts s1 [] _ _ B V F1 F2 HB) as W. unfold wp in W. cbn [app] in W.
  destruct (text_writes tm w ts s1) as [r1 s11] eqn:E1. cbn [fst snd] in W.
  destruct W as [(-> & Hno)|((-> & F' & D' & V1) & I1)].
  { exfalso. rewrite (text_session_err _ _ _ _ _ _ E1) in Hr. injection Hr as <- <-. destruct Hro as [K|[l K]]; [exact (Hno K)|discriminate]. }
  pose proof (iow_flags _ _ _ I1) as (Uf & A & _ & _ & _ & Dl & _).
  pose proof (wp_close true w o s11 _ _ _ _ V1 ltac:(congruence) ltac:(congruence)) as K. rewrite (iw_raw _ _ _ I1), Dl in K. specialize (K F4 F5).
  unfold wp in K. destruct (close_wrapper w s11) as [r2 s12] eqn:E2. cbn [fst snd] in K. rewrite (text_session_eq _ _ _ _ _ _ _ _ E1 E2) in Hr.
  destruct K as [(-> & K)|(-> & s13 & V3 & I3 & R3)].
  { exfalso. injection Hr as <- <-. destruct Hro as [K2|[l K2]]; [apply K, (roomy_iow _ _ _ o I1), K2|discriminate]. }
  injection Hr as <- <-. split; [reflexivity|].
  pose proof (v_obj _ _ _ _ _ _ _ _ V) as Ev. pose proof (v_obj _ _ _ _ _ _ _ _ V1) as Ev1.
  assert (K1 : kept o s1 s11) by (rewrite <- Ev; apply iow_kept, I1).
  assert (K2 : kept o s11 s12) by (apply (kept_trans o s11 s13); [rewrite <- Ev1; apply iow_kept, I3|apply released_kept, R3]).
  apply (reopened c s s1 s12 p w o om (-1) B Hl Hs Hn O).
  - apply (kept_trans o s1 s11); assumption.
  - apply (close_usable c s11 w (Ok tt) s12); [|apply K2|exact (v_kind _ _ _ _ _ _ _ _ V1)|exact E2].
    apply (writes_usable c s1 w tm ts _ s11 U1 (kp_env _ _ _ K1) E1).
  - unfold bytes_of. rewrite R3. exact (v_data _ _ _ _ _ _ _ _ V3).
Qed.
(** Writing and reading with the same, sound encoding: the text comes back,
    if reading with [newline=None] it contains no '\r', and otherwise if it
    was not translated on writing *)
Corollary C76_same_text : forall c s hs p m cf w s1 tm nl2 line2 ts B r s2,
  linux_like c -> c_sep c = slash -> session natural_fds c s hs -> within_limits s -> not_devnull s p ->
  text_write_mode m -> open_text (PStr p) m cf s = (Ok w, s1) ->
  stands_for tm ts B -> good_codec (tm_codec tm) ->
  (nl2 = NlNone /\ ~ In CR (concat ts) \/ nl2 <> NlNone /\ In (tm_nl tm) [NlNone; NlEmpty; NlLf]) ->
  text_session tm w ts s1 = (r, s2) -> (unlimited s \/ exists l, r = Ok l) ->
  forall cf2 v s3, open_text (PStr p) (L "r") cf2 s2 = (Ok v, s3) ->
  fst (text_read (mktm (tm_codec tm) nl2 line2) v s3) = Ok (concat ts).
Proof.
  intros c s hs p m cf w s1 tm nl2 line2 ts B r s2 Hl Hs HS HL Hn Hm H HB Hg Hnl Hr Hroom cf2 v s3 H2.
  destruct (C76_text_is_read c s hs p m cf w s1 tm ts B r s2 Hl Hs HS HL Hn Hm H HB Hr Hroom) as (_ & _ & K).
  rewrite (K _ _ _ _ H2). unfold read_as. cbn [tm_codec tm_nl]. rewrite (Hg _ _ HB). f_equal.
  destruct Hnl as [[-> Hc]|[Hn2 Hin]].
  - cbn [nl_read]. destruct (tm_nl tm); cbn [nl_write]; try apply universal_plain, Hc; [apply universal_cr, Hc|apply universal_crlf, Hc].
  - assert (E : nl_write (tm_nl tm) (concat ts) = concat ts) by (destruct Hin as [<-|[<-|[<-|[]]]]; reflexivity). rewrite E.
    destruct nl2; [contradiction|reflexivity..].
Qed.
(** In particular UTF-8: any texts of characters *)
Corollary C76_utf8 : forall c s hs p m cf w s1 ts line nl1,
  linux_like c -> c_sep c = slash -> session natural_fds c s hs -> within_limits s -> not_devnull s p -> unlimited s ->
  text_write_mode m -> open_text (PStr p) m cf s = (Ok w, s1) ->
  Forall character (concat ts) -> ~ In CR (concat ts) -> In nl1 [NlNone; NlEmpty; NlLf] ->
  let s2 := snd (text_session (mktm utf8 nl1 line) w ts s1) in
  fst (text_session (mktm utf8 nl1 line) w ts s1) = Ok (counts ts) /\
  forall nl2 line2 cf2 v s3, open_text (PStr p) (L "r") cf2 s2 = (Ok v, s3) ->
  fst (text_read (mktm utf8 nl2 line2) v s3) = Ok (concat ts).
Proof.
  intros c s hs p m cf w s1 ts line nl1 Hl Hs HS HL Hn Hu Hm H Hch Hcr Hnl s2.
  destruct (proj2 (utf8_chars (concat ts)) Hch) as [B HB].
  assert (HB2 : stands_for (mktm utf8 nl1 line) ts B).
  { unfold stands_for. cbn [tm_codec tm_nl]. destruct Hnl as [<-|[<-|[<-|[]]]]; exact HB. }
  assert (Hr : text_session (mktm utf8 nl1 line) w ts s1 = (fst (text_session (mktm utf8 nl1 line) w ts s1), s2)) by apply surjective_pairing.
  split; [apply (C76_text_is_read c s hs p m cf w s1 _ ts B _ s2 Hl Hs HS HL Hn Hm H HB2 Hr (or_introl Hu))|].
  intros nl2 line2 cf2 v s3 H3.
  apply (C76_same_text c s hs p m cf w s1 (mktm utf8 nl1 line) nl2 line2 ts B (fst (text_session (mktm utf8 nl1 line) w ts s1)) s2 Hl Hs HS HL Hn Hm H HB2 utf8_good) with (cf2 := cf2); auto.
  destruct nl2; [left; auto|right; split; [discriminate|exact Hnl]..].
Qed.
(** Appending: the bytes that stand for the texts come after those the file had *)
Theorem C76_append_text : forall c s hs p m cf w s1 D tm ts B r s2,
  linux_like c -> c_sep c = slash -> session natural_fds c s hs -> within_limits s -> not_devnull s p -> held s p D ->
  text_append_mode m -> open_text (PStr p) m cf s = (Ok w, s1) ->
  stands_for tm ts B ->
  text_session tm w ts s1 = (r, s2) -> (unlimited s \/ exists l, r = Ok l) ->
  r = Ok (counts ts) /\ holds s2 p (D ++ B) /\
  forall tm2 cf2 v s3, open_text (PStr p) (L "r") cf2 s2 = (Ok v, s3) -> fst (text_read tm2 v s3) = read_as tm2 (D ++ B).
Proof.
  intros c s hs p m cf w s1 D tm ts B r s2 Hl Hs HS HL Hn HD Hm H HB Hr Hroom.
  pose proof (session_usable _ _ _ Hl HS HL) as U. destruct (append_mode_om m Hm) as (om & M1 & M2 & M3 & M4).
  destruct (open_usable c s p m om cf w s1 Hl Hs U Hn M1 H) as (U1 & _ & Hun & o & O).
  assert (B0 : bytes_of s1 o D).
  { destruct (of_how _ _ _ _ _ _ _ _ _ O) as [(E1 & E2 & Ex & _ & E)|(E1 & _ & _ & E & _)].
    - unfold bytes_of. rewrite E, M4, andb_false_r. destruct HD as [[_ HD]|[HD _]]; [apply HD, E2|congruence].
    - destruct HD as [[HD _]|[_ ->]]; [congruence|exact E]. }
  destruct (handle_view _ _ _ _ _ _ _ _ _ (of_handle _ _ _ _ _ _ _ _ _ O) (of_null _ _ _ _ _ _ _ _ _ O) B0) as (V & [F1 F2 F3 F4 F5 F6 F7]).
  rewrite M2 in F1, V. rewrite M3 in F2, V.
  assert (AV : aview_ true s1 w o [] D).
  { constructor; try apply V; auto.
    - rewrite (v_pos _ _ _ _ _ _ _ _ V), (v_buf _ _ _ _ _ _ _ _ V). destruct D; reflexivity.
    - rewrite (v_fpos _ _ _ _ _ _ _ _ V), (v_buf _ _ _ _ _ _ _ _ V). apply le_n.
    - rewrite (v_fpos _ _ _ _ _ _ _ _ V), (v_buf _ _ _ _ _ _ _ _ V). apply skipn_all.
    - intros _. rewrite (v_buf _ _ _ _ _ _ _ _ V), app_nil_r. split; [apply V; reflexivity|reflexivity]. }
  assert (Hro : (roomy s1 o) \/ exists l, r = Ok l) by (destruct Hroom as [Hu|Hu]; [left; apply (unlimited_roomy s1); [exact (Hun Hu)|apply totals_refl]|right; exact Hu]).
  pose proof (text_app_spec tm w o ts s1 [] D B AV HB) as W. unfold wp in W. cbn [app] in W.
  destruct (text_writes tm w ts s1) as [r1 s11] eqn:E1. cbn [fst snd] in W.
  destruct W as [(-> & Hno)|((-> & X & R & HX & V1) & I1)].
  { exfalso. rewrite (text_session_err _ _ _ _ _ _ E1) in Hr. injection Hr as <- <-. destruct Hro as [K|[l K]]; [exact (Hno K)|discriminate]. }
  pose proof (iow_flags _ _ _ I1) as (Uf & A & _ & _ & _ & Dl & _).
  pose proof (wp_close_app true w o s11 _ _ V1) as K. rewrite (iw_raw _ _ _ I1), Dl in K. specialize (K F4 F5).
  unfold wp in K. destruct (close_wrapper w s11) as [r2 s12] eqn:E2. cbn [fst snd] in K. rewrite (text_session_eq _ _ _ _ _ _ _ _ E1 E2) in Hr.
  destruct K as [(-> & K)|(-> & s13 & V3 & I3 & R3)].
  { exfalso. injection Hr as <- <-. destruct Hro as [K2|[l K2]]; [apply K, (roomy_iow _ _ _ o I1), K2|discriminate]. }
  injection Hr as <- <-. split; [reflexivity|].
  pose proof (a_obj _ _ _ _ _ _ AV) as Ev. pose proof (a_obj _ _ _ _ _ _ V1) as Ev1.
  assert (K1 : kept o s1 s11) by (rewrite <- Ev; apply iow_kept, I1).
  assert (K2 : kept o s11 s12) by (apply (kept_trans o s11 s13); [rewrite <- Ev1; apply iow_kept, I3|apply released_kept, R3]).
  apply (reopened c s s1 s12 p w o om (-1) (D ++ B) Hl Hs Hn O).
  - apply (kept_trans o s1 s11); assumption.
  - apply (close_usable c s11 w (Ok tt) s12); [|apply K2|exact (a_kind _ _ _ _ _ _ V1)|exact E2].
    apply (writes_usable c s1 w tm ts _ s11 U1 (kp_env _ _ _ K1) E1).
  - unfold bytes_of. rewrite R3. pose proof (a_data _ _ _ _ _ _ V3) as E3. rewrite <- app_assoc, HX in E3. exact E3.
Qed.
(** Line buffering ([buffering=1]): after writing a text with a newline,
    everything written so far is in the file, before any flush or close *)
Theorem C76_line_buffered : forall c s hs p m cf w s1 tm ts t B l s2 n s3,
  linux_like c -> c_sep c = slash -> session natural_fds c s hs -> within_limits s -> not_devnull s p ->
  text_write_mode m -> open_text (PStr p) m cf s = (Ok w, s1) ->
  stands_for tm (ts ++ [t]) B -> tm_line tm = true -> In LF t ->
  text_writes tm w ts s1 = (Ok l, s2) -> text_write tm w t s2 = (Ok n, s3) ->
  holds s3 p B.
Proof.
  intros c s hs p m cf w s1 tm ts t B l s2 n s3 Hl Hs HS HL Hn Hm H HB Hline Hlf E1 E2.
  pose proof (session_usable _ _ _ Hl HS HL) as U. destruct (write_mode_om m Hm) as (om & M1 & M2 & M3 & M4).
  destruct (open_usable c s p m om cf w s1 Hl Hs U Hn M1 H) as (U1 & _ & Hun & o & O).
  assert (B0 : bytes_of s1 o []).
  { destruct (of_how _ _ _ _ _ _ _ _ _ O) as [(_ & _ & Ex & _ & E)|(_ & _ & _ & E & _)]; [|exact E]. unfold bytes_of. rewrite E, M2.
    destruct M4 as [->|M4]; [reflexivity|congruence]. }
  destruct (handle_view _ _ _ _ _ _ _ _ _ (of_handle _ _ _ _ _ _ _ _ _ O) (of_null _ _ _ _ _ _ _ _ _ O) B0) as (V & [F1 F2 F3 F4 F5 F6 F7]).
  cbn in V. rewrite M2 in F1. rewrite M3 in F2.
  unfold stands_for in HB. rewrite concat_app, nl_write_app, encode_app in HB. cbn [concat] in HB. rewrite app_nil_r in HB.
  destruct (encode _ (nl_write _ (concat ts))) as [E|] eqn:Ee; [|discriminate]. destruct (encode _ (nl_write _ t)) as [d|] eqn:Ed; [|discriminate]. injection HB as <-.
  pose proof (text_writes_spec tm w o ts s1 [] _ _ E V F1 F2 Ee) as W. unfold wp in W. cbn [app] in W. rewrite E1 in W. cbn [fst snd] in W.
  destruct W as [(W & _)|((_ & F' & D' & V1) & I1)]; [discriminate|]. pose proof (iow_flags _ _ _ I1) as (Uf & A & _).
  pose proof (wp_text_write tm w o s2 E F' D' t d V1 ltac:(congruence) ltac:(congruence) Ed) as W. unfold wp in W. rewrite E2 in W. cbn [fst snd] in W.
  destruct W as [(W & _)|((_ & F2' & D2 & V2 & Hd) & I2)]; [discriminate|].
  assert (Hnl : newlines t = true) by (apply existsb_exists; exists LF; split; [exact Hlf|reflexivity]).
  specialize (Hd Hline Hnl). rewrite Hd in V2.
  assert (K : kept o s1 s3).
  { pose proof (v_obj _ _ _ _ _ _ _ _ V) as Ev. pose proof (v_obj _ _ _ _ _ _ _ _ V1) as Ev1. apply (kept_trans o s1 s2); [rewrite <- Ev; apply iow_kept, I1|rewrite <- Ev1; apply iow_kept, I2]. }
  intros o2 E0. rewrite (kept_resolve o s1 s3 p K (of_file _ _ _ _ _ _ _ _ _ O) (of_link _ _ _ _ _ _ _ _ _ O)) in E0. rewrite (of_path _ _ _ _ _ _ _ _ _ O _ E0). exact (v_data _ _ _ _ _ _ _ _ V2).
Qed.
(** A text that the encoding cannot express is refused without any effect *)
Theorem C76_refused : forall tm w t s, encode (tm_codec tm) (nl_write (tm_nl tm) t) = None ->
  exists e, text_write tm w t s = (Err e, s).
Proof.
  intros tm w t s H. unfold text_write.
  assert (P : forall (k : wrapper -> M Z), (forall x, exists e, k x s = (Err e, s)) -> exists e, bind (io_enter w) k s = (Err e, s)).
  { intros k Hk. unfold bind. assert (K : snd (io_enter w s) = s).
    { unfold io_enter, wget, bind, gets. cbn [fst snd]. destruct (w_kind _); try reflexivity. destruct (is_large _ _); [reflexivity|].
      unfold check_open, bind, gets. destruct (is_open _ _); reflexivity. }
     destruct (io_enter w s) as [[x|e] s'] eqn:E; cbn in K; subst s'; [apply Hk|eauto]. }
  apply P. intros x. destruct (negb (w_update x)); [|rewrite H; eexists; reflexivity]. unfold io_raise. destruct (w_raw x); eexists; reflexivity.
Qed.

(** ** Cases *)
(** open('/f', 'w', newline='\r\n'), two writes with 'é' and a newline, read back *)
Definition c76_tm : tmode := mktm utf8 NlCrLf false.
Definition c76_ts : list text := [[97; 233; 10]; [98]]%N.
Definition c76_open : fs := snd (open_text (PStr (L "/f")) (L "w") true io_state).
Definition c76_done : fs := snd (text_session c76_tm 3 c76_ts c76_open).
Example C76_case :
  open_text (PStr (L "/f")) (L "w") true io_state = (Ok 3, c76_open) /\ text_write_mode (L "w") /\
  stands_for c76_tm c76_ts (map ascii_of_N [97; 195; 169; 13; 10; 98]%N) /\ good_codec (tm_codec c76_tm) /\ ~ In CR (concat c76_ts) /\
  text_session c76_tm 3 c76_ts c76_open = (Ok [3; 1]%Z, c76_done) /\
  fst (open_text (PStr (L "/f")) (L "r") true c76_done) = Ok 4 /\
  fst (text_read (mktm utf8 NlNone false) 4 (snd (open_text (PStr (L "/f")) (L "r") true c76_done))) = Ok [97; 233; 10; 98]%N /\
  fst (text_read (mktm utf8 NlEmpty false) 4 (snd (open_text (PStr (L "/f")) (L "r") true c76_done))) = Ok [97; 233; 13; 10; 98]%N /\
  fst (text_read (mktm latin1 NlNone false) 4 (snd (open_text (PStr (L "/f")) (L "r") true c76_done))) = Ok [97; 195; 169; 10; 98]%N.
Proof.
  split; [unfold c76_open; apply pair_eq; vm_compute; reflexivity|]. split; [left; reflexivity|]. split; [vm_compute; reflexivity|]. split; [apply utf8_good|].
  split; [cbn; intros K; repeat (destruct K as [K|K]; [discriminate K|]); exact K|]. split; [unfold c76_done; apply pair_eq; vm_compute; reflexivity|].
  split; [vm_compute; reflexivity|]. split; [vm_compute; reflexivity|]. split; vm_compute; reflexivity.
Qed.
(** appending to "123456" *)
Definition c76_app : fs := snd (open_text (PStr (L "/f")) (L "a") true io_state).
Example C76_append_case :
  open_text (PStr (L "/f")) (L "a") true io_state = (Ok 3, c76_app) /\ text_append_mode (L "a") /\ held io_state (L "/f") (L "123456") /\
  resolve (snd (text_session c76_tm 3 c76_ts c76_app)) (L "/f") false = Ok 2 /\
  o_body (ob (snd (text_session c76_tm 3 c76_ts c76_app)) 2) = BFile (Some (L "123456" ++ map ascii_of_N [97; 195; 169; 13; 10; 98]%N)).
Proof.
  split; [unfold c76_app; apply pair_eq; vm_compute; reflexivity|]. split; [left; reflexivity|]. split; [|split; vm_compute; reflexivity].
  left. split; [vm_compute; reflexivity|]. intros o H. assert (E : resolve io_state (L "/f") false = Ok 2) by (vm_compute; reflexivity).
  rewrite E in H. injection H as <-. vm_compute. reflexivity.
Qed.
(** line buffering: the line is in the file, and without it is not *)
Definition c76_line (b : bool) : fs := snd (text_write (mktm utf8 NlNone b) 3 [97; 10]%N c76_open).
Example C76_line_case :
  fst (text_write (mktm utf8 NlNone true) 3 [97; 10]%N c76_open) = Ok 2%Z /\
  o_body (ob (c76_line true) 2) = BFile (Some (map ascii_of_N [97; 10]%N)) /\ o_body (ob (c76_line false) 2) = BFile (Some []).
Proof. split; [vm_compute; reflexivity|]. split; vm_compute; reflexivity. Qed.
(** a surrogate, and a euro sign in Latin-1, are refused *)
Example C76_refused_case : encode utf8 [97; 55296]%N = None /\ encode latin1 [8364]%N = None /\ utf8_dec (map ascii_of_N [192; 128]%N) = None /\
  encode utf8 [8364; 128512]%N = Some (map ascii_of_N [226; 130; 172; 240; 159; 152; 128]%N).
Proof. vm_compute. repeat split; reflexivity. Qed.
(** With [newline=None] a '\r' in the text is not read back: Python's universal newlines *)
Definition c76_back (t : text) : res text :=
  fst (text_read (mktm utf8 NlNone false) 4 (snd (open_text (PStr (L "/f")) (L "r") true (snd (text_session (mktm utf8 NlNone false) 3 [t] c76_open))))).
Theorem C76_carriage_return_lost : exists t, c76_back t <> Ok t.
Proof. exists [97; 13; 98]%N. assert (E : c76_back [97; 13; 98]%N = Ok [97; 10; 98]%N) by (vm_compute; reflexivity). rewrite E. discriminate. Qed.

Print Assumptions C76_text_is_read.
Print Assumptions C76_same_text.
Print Assumptions C76_utf8.
Print Assumptions C76_append_text.
Print Assumptions C76_line_buffered.
Print Assumptions C76_refused.
Print Assumptions C76_carriage_return_lost.
