(** * Lines: what the read calls of LineModel.v do *)
From Verif Require Import GraphIo IoThm IoSess PropFd PropIo PropIo2 CohThm CohThm2 PropIo3.
From Verif Require Export LineModel.
From Coq Require Import Lia ZifyBool.

(** ** Vocabulary *)
(** [l] is the first line of [c], [rest] what follows it: it ends with the first
    newline, or is everything if there is none *)
Definition next_line (c l rest : str) : Prop :=
  c = l ++ rest /\ ~ In newline (removelast l) /\ (rest = [] \/ exists l0, l = l0 ++ [newline]) /\ (l = [] -> c = []).
(** [c] begins with the lines [ls], and goes on with [rest] *)
Inductive line_split : str -> list str -> str -> Prop :=
  | ls_none c : line_split c [] c
  | ls_line c l r ls rest : next_line c l r -> l <> [] -> line_split r ls rest -> line_split c (l :: ls) rest.

Lemma removelast_cons {A} (x : A) l : l <> [] -> removelast (x :: l) = x :: removelast l.
Proof. destruct l; [congruence|reflexivity]. Qed.
Lemma first_line_spec c : next_line c (first_line c) (skipn (length (first_line c)) c).
Proof.
  induction c as [|x r IH]; [split; [reflexivity|split; [intros []|split; auto]]|]. cbn [first_line].
  destruct (Ascii.eqb x newline) eqn:E.
  - apply Ascii.eqb_eq in E as ->. split; [reflexivity|]. split; [intros []|]. split; [right; exists []; reflexivity|discriminate].
  - destruct IH as (I1 & I2 & I3 & I4). set (l := first_line r) in *. cbn [length skipn].
    split; [cbn; f_equal; exact I1|]. split; [|split; [|discriminate]].
    + destruct l as [|y l']; [intros []|]. rewrite removelast_cons by discriminate. intros [->|K]; [rewrite Ascii.eqb_refl in E; discriminate|auto].
    + destruct I3 as [I3|(l0 & I3)]; [left; exact I3|right; exists (x :: l0); rewrite I3; reflexivity].
Qed.
Lemma next_line_unique c l r l' r' : next_line c l r -> next_line c l' r' -> l = l' /\ r = r'.
Proof.
  intros (E & N & K & Z) (E' & N' & K' & Z').
  destruct l as [|a l0]; [rewrite (Z eq_refl) in E, E'; destruct l' as [|a' l']; [|discriminate E']; split; [reflexivity|]; cbn in E, E'; congruence|].
  destruct l' as [|a' l0']; [rewrite (Z' eq_refl) in E, E'; discriminate E|].
  clear Z Z'. set (x := a :: l0) in *. set (x' := a' :: l0') in *. assert (X : x <> []) by discriminate. assert (X' : x' <> []) by discriminate. clearbody x x'.
  assert (G : forall u v p q, u ++ p = v ++ q -> u <> [] -> ~ In newline (removelast u) -> ~ In newline (removelast v) ->
    (p = [] \/ exists l0, u = l0 ++ [newline]) -> (q = [] \/ exists l0, v = l0 ++ [newline]) -> length u < length v -> False).
  { intros u v p q H Hu N1 N2 K1 K2 Hl.
    assert (exists t, v = u ++ t /\ t <> []) as (t & -> & Ht).
    { destruct (app_eq_app _ _ _ _ H) as (t & [(A1 & A2)|(A1 & A2)]).
      - rewrite A1, app_length in Hl. lia.
      - exists t. split; [exact A1|]. intros ->. rewrite app_nil_r in A1. subst v. lia. }
    rewrite removelast_app in N2 by exact Ht. destruct K1 as [->|(l1 & ->)].
    - rewrite app_nil_r in H. apply (f_equal (@length _)) in H. rewrite !app_length in H. destruct t; [congruence|cbn in H; lia].
    - apply N2, in_or_app. left. apply in_or_app. right. left. reflexivity. }
  assert (length x = length x') as Hl.
  { destruct (Nat.lt_trichotomy (length x) (length x')) as [H|[H|H]]; [|exact H|]; exfalso.
    - apply (G x x' r r'); congruence || auto.
    - apply (G x' x r' r); congruence || auto. }
  assert (x = x') as ->. { apply (f_equal (firstn (length x))) in E. rewrite E' in E at 1. rewrite Hl in E at 1. rewrite !firstn_app, Hl, !Nat.sub_diag, !firstn_O, !app_nil_r in E. rewrite firstn_all in E. rewrite <- Hl in E. rewrite firstn_all in E. congruence. }
  split; [reflexivity|]. rewrite E' in E. apply app_inv_head in E. congruence.
Qed.
Lemma line_split_concat c ls rest : line_split c ls rest -> c = concat ls ++ rest.
Proof. induction 1 as [|c l r ls rest (E & _) _ _ IH]; [reflexivity|]. cbn. rewrite <- app_assoc, <- IH. exact E. Qed.
Lemma line_split_unique c ls : line_split c ls [] -> forall ls', line_split c ls' [] -> ls = ls'.
Proof.
  remember [] as e eqn:He. induction 1 as [|c l r ls rest N X _ IH]; intros ls' H'; subst.
  - inversion H'; [reflexivity|]. subst. destruct H as (E & _). symmetry in E. apply app_eq_nil in E as (-> & _). congruence.
  - inversion H' as [|c' l' r' ls'' rest' N' X' S']; subst.
    + destruct N as (E & _). symmetry in E. apply app_eq_nil in E as (-> & _). congruence.
    + destruct (next_line_unique _ _ _ _ _ N N') as (-> & ->). f_equal. apply IH; auto.
Qed.

Definition all_lines (ls : list str) (hint : Z) (size : nat) (rest : str) : Prop :=
  if (0 <? hint)%Z then
    (rest = [] \/ (hint <= Z.of_nat (size + length (concat ls)))%Z) /\ (ls = [] \/ Z.of_nat (size + length (concat (removelast ls))) < hint)%Z
  else rest = [].
Lemma concat_len (l : str) ls : length (concat (l :: ls)) = length l + length (concat ls).
Proof. cbn. apply app_length. Qed.
Lemma lines_loop_spec hint buf fuel : forall size pos, length (skipn pos buf) < fuel -> ((0 < hint)%Z -> (Z.of_nat size < hint)%Z) ->
  let rp := lines_loop fuel hint size buf pos in exists rest,
  line_split (skipn pos buf) (fst rp) rest /\ snd rp = pos + length (concat (fst rp)) /\ rest = skipn (snd rp) buf /\ all_lines (fst rp) hint size rest.
Proof.
  induction fuel as [|k IH]; intros size pos Hf Hh; [lia|]. cbn [lines_loop]. cbv zeta.
  change (bio_readline (-1) buf pos) with (first_line (skipn pos buf), pos + length (first_line (skipn pos buf))). cbn [fst snd].
  pose proof (first_line_spec (skipn pos buf)) as N. set (l := first_line (skipn pos buf)) in *.
  assert (Hsk : skipn (length l) (skipn pos buf) = skipn (pos + length l) buf) by apply skipn_add.
  rewrite Hsk in N. destruct l as [|a l0] eqn:El.
  - cbn [fst snd concat length]. exists (skipn pos buf). split; [constructor|]. split; [lia|]. split; [reflexivity|].
    destruct N as (_ & _ & _ & Z). rewrite (Z eq_refl). unfold all_lines. destruct (0 <? hint)%Z; auto.
  - set (x := a :: l0) in *. assert (X : x <> []) by discriminate.
    assert (Hlen : length (skipn pos buf) = length x + length (skipn (pos + length x) buf)).
    { destruct N as (E & _). rewrite E at 1. apply app_length. }
    assert (Hx : 0 < length x) by (subst x; cbn; lia). clearbody x. clear El l.
    destruct ((0 <? hint)%Z && (hint <=? Z.of_nat (size + length x))%Z) eqn:Eb; cbn [fst snd].
    + exists (skipn (pos + length x) buf). split; [eapply ls_line; [exact N|exact X|constructor]|]. cbn [concat]. rewrite app_nil_r.
      split; [reflexivity|]. split; [reflexivity|]. unfold all_lines. destruct (0 <? hint)%Z eqn:E0; [|discriminate]. cbn [concat removelast]. rewrite app_nil_r. cbn [length andb] in *.
      split; [right; lia|right]. specialize (Hh ltac:(lia)). lia.
    + destruct (IH (size + length x) (pos + length x)) as (rest & R1 & R2 & R3 & R4); [lia| |].
      { intros H0. lia. }
      cbv zeta in *. set (rp := lines_loop k hint (size + length x) buf (pos + length x)) in *. clearbody rp. exists rest.
      split; [eapply ls_line; eassumption|]. rewrite concat_len. split; [lia|]. split; [exact R3|].
      unfold all_lines in *. destruct (0 <? hint)%Z eqn:E0; [|exact R4]. rewrite concat_len. destruct R4 as (R4 & R5).
      split; [destruct R4 as [R4|R4]; [left; exact R4|right; lia]|right].
      destruct (fst rp) as [|y t] eqn:Ey; [cbn [removelast concat length]; specialize (Hh ltac:(lia)); lia|].
      rewrite removelast_cons by discriminate. rewrite concat_len. destruct R5 as [R5|R5]; [discriminate|lia].
Qed.
Lemma readlines_spec hint buf pos : let rp := bio_readlines hint buf pos in exists rest,
  line_split (skipn pos buf) (fst rp) rest /\ snd rp = pos + length (concat (fst rp)) /\ all_lines (fst rp) hint 0 rest.
Proof.
  destruct (lines_loop_spec hint buf (S (length buf)) 0 pos) as (rest & H1 & H2 & _ & H3); [rewrite skipn_length; lia|lia|]. exists rest. auto.
Qed.

(** ** The read calls *)
Lemma wp_reading_tail {A} e w o s B P F D (f : str -> nat -> A * nat) : view_ e s w o B P F D -> w_append (wr s w) = false ->
  wp ((win <- gets (fun s => c_win (f_cfg s)) ;; now <- gets f_now ;;
       if win : bool then ret tt else mod_obj o (fun z => wo_atime z now)) ;;;
      y <- wget w ;;
      let rp := f (w_buf y) (w_pos y) in
      wmod w (fun z => ww_bufpos z (w_buf z) (snd rp)) ;;;
      ret (fst rp)) s
   (fun r s' => let rp := f B P in r = Ok (fst rp) /\ view_ e s' w o B (snd rp) F D /\ iow w s s').
Proof.
  intros V Ha. apply wp_bind.
  match goal with |- wp ?m s ?Q => apply (wp_conseq m s (fun r s' => r = Ok tt /\ view_ e s' w o B P F D /\ iow w s s')) end.
  { do 2 wstep. destruct (c_win _); [apply wp_ret; split; [reflexivity|]; split; [exact V|reflexivity]|].
    apply wp_mod_obj. assert (Ht : times_only (fun z => wo_atime z (f_now s))) by (intros y; destruct y; reflexivity).
    split; [reflexivity|]. split; [apply view_times; [exact Ht|exact V]|apply iow_times; [apply (v_obj _ _ _ _ _ _ _ _ V)|exact Ht]]. }
  intros r s1 (-> & V1 & I1). apply wp_bind_wget. rewrite (v_buf _ _ _ _ _ _ _ _ V1), (v_pos _ _ _ _ _ _ _ _ V1). cbv zeta.
  apply wp_bind_wmod. apply wp_ret. split; [reflexivity|].
  pose proof (view_set _ _ _ _ _ _ _ _ (fun x => ww_bufpos x (w_buf x) (snd (f B P))) V1 ltac:(reflexivity) ltac:(reflexivity)) as H.
  cbn [w_buf w_pos w_fpos ww_bufpos] in H. rewrite (v_buf _ _ _ _ _ _ _ _ V1), (v_fpos _ _ _ _ _ _ _ _ V1) in H.
  split; [exact H|]. etransitivity; [exact I1|apply iow_wmod; reflexivity].
Qed.
(** a read call through a handle without unwritten data: from the file as it is *)
Lemma wp_reading_calm {A} w o s D z (a : A) f : calm w o True s -> is_open s w = true -> w_read (wr s w) = true -> bytes_of s o D ->
  wp (reading w z a f) s (fun r s' => ends s o w r s' (let rp := f D (w_pos (wr s w)) in
     r = Ok (fst rp) /\ exists F, view s' w o D (snd rp) F D)).
Proof.
  intros C Ho Hr HD. destruct (calm_view _ _ _ _ C Ho) as (D' & HD' & V & HB). unfold bytes_of in *. rewrite HD in HD'. injection HD' as <-. specialize (HB Logic.I).
  pose proof (ca_append _ _ _ _ C) as Ha. set (B := w_buf (wr s w)) in *. set (P := w_pos (wr s w)) in *. set (F := w_fpos (wr s w)) in *.
  unfold reading. apply (wp_io_enter false w o s B P F D); [exact V|]. rewrite Hr, Ha. cbn [negb].
  apply wp_bind. eapply wp_conseq; [apply (wp_sync false w o s B P F D V Ha)|]. cbv beta. intros r s1 (-> & I1 & K).
  assert (V1 : view s1 w o D P F D).
  { destruct K as [(-> & V1)|(_ & V1)]; [|exact V1]. rewrite <- HB at 1; [exact V1|]. exact (v_epoch _ _ _ _ _ _ _ _ V1 eq_refl). }
  pose proof (iow_flags _ _ _ I1) as (G1 & G2 & _). apply wp_bind. rewrite (v_obj _ _ _ _ _ _ _ _ V).
  destruct (w_update (wr s w)) eqn:Hu.
  - eapply wp_conseq; [apply (wp_flush true w o s1 _ _ _ _ V1); congruence|]. cbv beta. intros r s2 H. destruct H as [(-> & Hx)|(-> & V2 & I2)].
    { left. split; [reflexivity|]. intros K2. apply Hx, (roomy_iow _ _ _ o I1), K2. }
    pose proof (iow_flags _ _ _ I2) as (_ & G3 & _).
    eapply wp_conseq; [apply (wp_reading_tail true w o s2 _ _ _ _ f V2); congruence|]. cbv beta. intros r s3 (-> & V3 & I3).
    right. split; [|etransitivity; [exact I1|etransitivity; eassumption]]. split; [reflexivity|]. eauto.
  - unfold wp at 1. rewrite flush_readonly by (first [exact (v_open _ _ _ _ _ _ _ _ V1)|congruence]). cbn [fst snd].
    eapply wp_conseq; [apply (wp_reading_tail true w o s1 _ _ _ _ f V1); congruence|]. cbv beta. intros r s2 (-> & V2 & I2).
    right. split; [|etransitivity; eassumption]. split; [reflexivity|]. eauto.
Qed.
Lemma io_next_eq w s : io_next w s = (Ok (match first_line (skipn (w_pos (wr s w)) (w_buf (wr s w))) with [] => None | l => Some l end),
  mod_wr s w (fun z => ww_bufpos z (w_buf z) (w_pos (wr s w) + length (first_line (skipn (w_pos (wr s w)) (w_buf (wr s w))))))).
Proof. reflexivity. Qed.
Lemma line_bind {A B} (m : M A) (k : A -> M B) s x s' : m s = (Ok x, s') -> bind m k s = k x s'.
Proof. intros H. unfold bind. rewrite H. reflexivity. Qed.
Lemma wp_next_loop w o fuel : forall s B P F D, view s w o B P F D -> length (skipn P B) < fuel ->
  exists ls, fst (next_loop fuel w s) = Ok ls /\ line_split (skipn P B) ls [] /\ view (snd (next_loop fuel w s)) w o B (P + length (concat ls)) F D.
Proof.
  induction fuel as [|k IH]; intros s B P F D V Hf; [lia|]. cbn [next_loop]. rewrite (line_bind _ _ _ _ _ (io_next_eq w s)).
  rewrite (v_buf _ _ _ _ _ _ _ _ V), (v_pos _ _ _ _ _ _ _ _ V).
  pose proof (first_line_spec (skipn P B)) as N. set (l := first_line (skipn P B)) in *. rewrite skipn_add in N.
  pose proof (view_set _ _ _ _ _ _ _ _ (fun z => ww_bufpos z (w_buf z) (P + length l)) V ltac:(reflexivity) ltac:(reflexivity)) as V1.
  cbn [w_buf w_pos w_fpos ww_bufpos] in V1. rewrite (v_buf _ _ _ _ _ _ _ _ V), (v_fpos _ _ _ _ _ _ _ _ V) in V1.
  destruct l as [|a l0] eqn:El.
  - cbn [fst snd]. exists []. split; [reflexivity|]. destruct N as (_ & _ & _ & Z). rewrite (Z eq_refl). split; [apply ls_none|exact V1].
  - set (x := a :: l0) in *. assert (X : x <> []) by discriminate.
    assert (Hlen : length (skipn P B) = length x + length (skipn (P + length x) B)).
    { destruct N as (E & _). rewrite E at 1. apply app_length. }
    assert (Hx : 0 < length x) by (subst x; cbn; lia). clearbody x. clear El l.
    destruct (IH _ _ _ _ _ V1 ltac:(lia)) as (ls & E1 & E2 & E3). cbv beta iota.
    match goal with |- context [bind (next_loop k w) ?kk ?ss] => set (s1 := ss) in * end.
    assert (E : bind (next_loop k w) (fun r => ret (x :: r)) s1 = (Ok (x :: ls), snd (next_loop k w s1))).
    { unfold bind. destruct (next_loop k w s1) as [r s2]. cbn [fst snd] in *. rewrite E1. reflexivity. }
    rewrite E. cbn [fst snd]. exists (x :: ls). split; [reflexivity|]. split; [eapply ls_line; eassumption|]. rewrite concat_len, Nat.add_assoc. exact E3.
Qed.
