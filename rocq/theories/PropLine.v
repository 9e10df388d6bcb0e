(** * C78: reading a file line by line

    [next_line] and [line_split] of LineThm.v say what lines are.  Handles are
    those of C43 ([an_open_handle]): opened at some point of a history, used
    and followed by any calls, and open still. *)
From Verif Require Import GraphIo IoFrame IoThm IoSess OpenThm PropFd PropIo PropIo2 CohThm CohThm2 PropIo3.
From Verif Require Export LineThm.
From Coq Require Import Lia ZifyBool.
Import ListNotations.
Open Scope string_scope.
Open Scope list_scope.

(** The lines are determined by the bytes, and together they are the bytes. *)
Theorem C78_lines_are_bytes : forall c ls, line_split c ls [] -> concat ls = c /\ forall ls', line_split c ls' [] -> ls' = ls.
Proof.
  intros c ls H. split; [rewrite (line_split_concat _ _ _ H), app_nil_r; reflexivity|]. intros ls' H'. symmetry. exact (line_split_unique _ _ H _ H').
Qed.

(** What a call that reads through [w] must do: give [x], go on by [n] bytes, and
    leave the file with its bytes [B]; or find the disk full *)
Definition reads_out {A} (w : wid) (B : str) (s : fs) (q : res A * fs) (x : A) (n : nat) : Prop :=
  (fst q = Ok x /\ offset (snd q) w = offset s w + n /\ bytes_of (snd q) (file_of s w) B) \/
  (fst q = Err (OSErr ENOSPC) /\ ~ unlimited s).

Lemma reading_out {A} w up clean s z (a : A) f : an_open_handle w true up clean s -> clean = true \/ up = false ->
  exists B, bytes_of s (file_of s w) B /\
  let rp := f B (offset s w) in let q := reading w z a f s in
  (fst q = Ok (fst rp) /\ exists F, view (snd q) w (file_of s w) B (snd rp) F B /\ w_read (wr (snd q) w) = true) \/ (fst q = Err (OSErr ENOSPC) /\ ~ unlimited s).
Proof.
  intros H Hc. destruct (handle_Inv _ _ _ _ _ H) as (o & I & Ef & Fr & Fu & Ho).
  assert (C : calm w o True s). { eapply calm_weaken; [|exact I]. intros _. unfold strict. rewrite Fu. exact Hc. }
  destruct (ca_bytes _ _ _ _ C) as (B & HB & _). exists B. rewrite Ef. split; [exact HB|]. cbv zeta.
  pose proof (wp_reading_calm w o s B z a f C Ho Fr HB) as K. unfold wp in K.
  destruct K as [(K1 & K2)|((K1 & F & K2) & K3)].
  - right. split; [exact K1|]. intros U0. apply K2, unlimited_any, U0.
  - left. split; [exact K1|]. exists F. split; [exact K2|]. destruct (iow_flags _ _ _ K3) as (_ & _ & G & _). congruence.
Qed.

(** readline(n): the next line of the file at the handle's position, cut after n
    bytes unless n is negative. *)
Theorem C78_readline_partial : forall w up clean s n, an_open_handle w true up clean s -> clean = true \/ up = false ->
  exists B line rest, bytes_of s (file_of s w) B /\ next_line (skipn (offset s w) B) line rest /\
  let got := if (n <? 0)%Z then line else firstn (Z.to_nat n) line in
  reads_out w B s (file_readline w n s) got (length got).
Proof.
  intros w up clean s n H Hc. destruct (reading_out w up clean s (Z.eqb n 0) [] (bio_readline n) H Hc) as (B & HB & K).
  exists B. pose proof (first_line_spec (skipn (offset s w) B)) as N. do 2 eexists. split; [exact HB|]. split; [exact N|]. cbv zeta in *. unfold reads_out.
  change (reading w (Z.eqb n 0) [] (bio_readline n) s) with (file_readline w n s) in K.
  destruct K as [(K1 & F & V & _)|K]; [left|right; exact K]. split; [exact K1|]. split; [exact (v_pos _ _ _ _ _ _ _ _ V)|exact (v_data _ _ _ _ _ _ _ _ V)].
Qed.
(** readlines(hint): all lines from there on; with a positive hint, no more than
    needed to have this many bytes. *)
Definition enough (hint : Z) (ls : list str) (rest : str) : Prop :=
  ((hint <= 0)%Z -> rest = []) /\
  ((0 < hint)%Z -> (rest = [] \/ (hint <= Z.of_nat (length (concat ls)))%Z) /\ (ls = [] \/ (Z.of_nat (length (concat (removelast ls))) < hint)%Z)).
Theorem C78_readlines_partial : forall w up clean s hint, an_open_handle w true up clean s -> clean = true \/ up = false ->
  exists B ls rest, bytes_of s (file_of s w) B /\ line_split (skipn (offset s w) B) ls rest /\ enough hint ls rest /\
  reads_out w B s (file_readlines w hint s) ls (length (concat ls)).
Proof.
  intros w up clean s n H Hc. destruct (reading_out w up clean s (Z.eqb n 0) [] (bio_readlines n) H Hc) as (B & HB & K).
  destruct (readlines_spec n B (offset s w)) as (rest & R1 & R2 & R3). cbv zeta in *.
  exists B, (fst (bio_readlines n B (offset s w))), rest. split; [exact HB|]. split; [exact R1|]. split.
  { unfold all_lines in R3. unfold enough. destruct (0 <? n)%Z eqn:E; split; intros E'; try lia; [exact R3|exact R3]. }
  unfold reads_out. change (reading w (Z.eqb n 0) [] (bio_readlines n) s) with (file_readlines w n s) in K.
  destruct K as [(K1 & F & V & _)|K]; [left|right; exact K]. split; [exact K1|]. split; [rewrite <- R2; exact (v_pos _ _ _ _ _ _ _ _ V)|exact (v_data _ _ _ _ _ _ _ _ V)].
Qed.
(** readinto(a buffer of n bytes) reads as read(n) does. *)
Theorem C78_readinto_partial : forall w up clean s n, an_open_handle w true up clean s -> clean = true \/ up = false ->
  exists B, bytes_of s (file_of s w) B /\
  let got := firstn n (skipn (offset s w) B) in reads_out w B s (file_readinto w n s) got (length got).
Proof.
  intros w up clean s n H Hc. destruct (reading_out w up clean s false [] (fun b p => bio_read b p (Z.of_nat n)) H Hc) as (B & HB & K).
  exists B. split; [exact HB|]. cbv zeta in *. unfold reads_out.
  change (reading w false [] (fun b p => bio_read b p (Z.of_nat n)) s) with (file_readinto w n s) in K.
  assert (E : bio_read B (offset s w) (Z.of_nat n) = (firstn n (skipn (offset s w) B), offset s w + length (firstn n (skipn (offset s w) B)))).
  { unfold bio_read. destruct (Z.of_nat n <? 0)%Z eqn:E; [lia|]. rewrite Nat2Z.id. reflexivity. }
  rewrite E in K. cbn [fst snd] in K.
  destruct K as [(K1 & F & V & _)|K]; [left|right; exact K]. split; [exact K1|]. split; [exact (v_pos _ _ _ _ _ _ _ _ V)|exact (v_data _ _ _ _ _ _ _ _ V)].
Qed.

(** Iterating does not look at the file again: [current w s], the handle was just
    opened, or the last call was a read through it. *)
Inductive current (w : wid) : fs -> Prop :=
| cur_open c s hs p m b cf D s1 : linux_like c -> c_sep c = slash -> session natural_fds c s hs -> within_limits s -> not_devnull s p -> held s p D ->
    In m binary_modes -> has "a" m = false -> has "r" m || has "+" m = true ->
    step (Open (PStr p) m b cf) s = (Ok (RHandle w), s1) -> current w s1
| cur_read up clean s n x s1 : an_open_handle w true up clean s -> clean = true \/ up = false -> step (HRead w n) s = (Ok x, s1) -> current w s1
| cur_readline up clean s n x s1 : an_open_handle w true up clean s -> clean = true \/ up = false -> file_readline w n s = (Ok x, s1) -> current w s1
| cur_next s x s1 : current w s -> file_next w s = (Ok x, s1) -> current w s1.

Lemma next_view s w o B P F D : view s w o B P F D -> w_read (wr s w) = true ->
  let l := first_line (skipn P B) in
  file_next w s = (Ok (match l with [] => None | _ => Some l end), mod_wr s w (fun z => ww_bufpos z (w_buf z) (P + length l))) /\
  view (snd (file_next w s)) w o B (P + length l) F D /\ w_read (wr (snd (file_next w s)) w) = true.
Proof.
  intros V Hr. cbv zeta. set (l := first_line (skipn P B)).
  assert (E : file_next w s = (Ok (match l with [] => None | _ => Some l end), mod_wr s w (fun z => ww_bufpos z (w_buf z) (P + length l)))).
  { unfold file_next, bind, wget, gets. rewrite (v_kind _ _ _ _ _ _ _ _ V), Hr. cbn [negb]. rewrite io_next_eq, (v_buf _ _ _ _ _ _ _ _ V), (v_pos _ _ _ _ _ _ _ _ V). fold l. destruct l; reflexivity. }
  split; [exact E|]. rewrite E. cbn [snd].
  pose proof (view_set _ _ _ _ _ _ _ _ (fun z => ww_bufpos z (w_buf z) (P + length l)) V ltac:(reflexivity) ltac:(reflexivity)) as V1.
  cbn [w_buf w_pos w_fpos ww_bufpos] in V1. rewrite (v_buf _ _ _ _ _ _ _ _ V), (v_fpos _ _ _ _ _ _ _ _ V) in V1. split; [exact V1|].
  rewrite wr_mod_same. exact Hr.
Qed.
Lemma current_view w s : current w s -> exists o B P F, view s w o B P F B /\ w_read (wr s w) = true.
Proof.
  induction 1 as [c s hs p m b cf D s1 Hl Hs HS HL Hn HD Hm Ha Hrd H|up clean s n x s1 H Hc E|up clean s n x s1 H Hc E|s x s1 H (o & B & P & F & V & Hr) E].
  - destruct (binary_mode_spec m Hm) as (om & M1 & M2 & M3 & M4 & M5 & M6 & M7 & M8).
    destruct (session_open c s hs p m _ b cf w s1 Hl Hs HS HL Hn M1 M2 H) as (_ & _ & o & O).
    assert (exists D', bytes_of s1 o D') as (D' & HD').
    { destruct (of_how _ _ _ _ _ _ _ _ _ O) as [(E1 & E2 & _ & _ & E)|(_ & _ & _ & E & _)]; [|eauto].
      unfold bytes_of. rewrite E. destruct (_ && _); [eauto|]. destruct HD as [[_ HD]|[HD _]]; [exists D; apply HD, E2|congruence]. }
    destruct (handle_view _ _ _ _ _ _ _ _ _ (of_handle _ _ _ _ _ _ _ _ _ O) (of_null _ _ _ _ _ _ _ _ _ O) HD') as (V & [F1 F2 F3 F4 F5 F6 F7]).
    exists o, D'. do 2 eexists. split; [exact V|]. congruence.
  - destruct (reading_out w up clean s (Z.eqb n 0) [] (fun b p => bio_read b p n) H Hc) as (B & HB & K). rewrite <- reading_read in K. cbv zeta in K.
    cbn [step] in E. apply is_open_ok in E. destruct E as (a & E & _). rewrite E in K. cbn [fst snd] in K.
    destruct K as [(_ & F & V & Hr)|(K & _)]; [|discriminate]. do 4 eexists. split; eassumption.
  - destruct (reading_out w up clean s (Z.eqb n 0) [] (bio_readline n) H Hc) as (B & HB & K). cbv zeta in K.
    change (reading w (Z.eqb n 0) [] (bio_readline n) s) with (file_readline w n s) in K. rewrite E in K. cbn [fst snd] in K.
    destruct K as [(_ & F & V & Hr)|(K & _)]; [|discriminate]. do 4 eexists. split; eassumption.
  - destruct (next_view _ _ _ _ _ _ _ V Hr) as (_ & V1 & Hr1). rewrite E in V1, Hr1. cbn [snd] in *. do 4 eexists. split; eassumption.
Qed.
(** next(f): the next line, or StopIteration (None) at the end of the file. *)
Theorem C78_next_partial : forall w s, current w s -> exists B line rest s', bytes_of s (file_of s w) B /\ next_line (skipn (offset s w) B) line rest /\
  file_next w s = (Ok (if nonempty line then Some line else None), s') /\ (line = [] <-> length B <= offset s w) /\
  offset s' w = offset s w + length line /\ bytes_of s' (file_of s w) B.
Proof.
  intros w s H. destruct (current_view w s H) as (o & B & P & F & V & Hr). destruct (next_view _ _ _ _ _ _ _ V Hr) as (E & V1 & _).
  pose proof (first_line_spec (skipn P B)) as N. set (l := first_line (skipn P B)) in *. unfold file_of, offset. rewrite (v_obj _ _ _ _ _ _ _ _ V), (v_pos _ _ _ _ _ _ _ _ V).
  exists B, l, (skipn (length l) (skipn P B)), (snd (file_next w s)). split; [exact (v_data _ _ _ _ _ _ _ _ V)|]. split; [exact N|].
  split; [rewrite E; cbn [snd]; destruct l; reflexivity|]. split; [|split; [exact (v_pos _ _ _ _ _ _ _ _ V1)|exact (v_data _ _ _ _ _ _ _ _ V1)]].
  destruct N as (N1 & _ & _ & N4). split.
  - intros K. specialize (N4 K). apply (f_equal (@length _)) in N4. rewrite skipn_length in N4. cbn in N4. lia.
  - intros K. apply (f_equal (@length _)) in N1. rewrite app_length, skipn_length in N1. destruct l; [reflexivity|cbn in N1; lia].
Qed.
(** list(f), for line in f: all lines from the handle's position on. *)
Theorem C78_iterate_partial : forall w s, current w s -> exists B ls s', bytes_of s (file_of s w) B /\
  file_list w s = (Ok ls, s') /\ line_split (skipn (offset s w) B) ls [] /\
  offset s' w = offset s w + length (concat ls) /\ bytes_of s' (file_of s w) B.
Proof.
  intros w s H. destruct (current_view w s H) as (o & B & P & F & V & Hr).
  destruct (wp_next_loop w o (S (length B)) s B P F B V ltac:(rewrite skipn_length; lia)) as (ls & E1 & E2 & V1).
  assert (E : file_list w s = next_loop (S (length B)) w s).
  { unfold file_list, bind, wget, gets. rewrite (v_kind _ _ _ _ _ _ _ _ V), Hr, (v_buf _ _ _ _ _ _ _ _ V). reflexivity. }
  unfold file_of, offset. rewrite (v_obj _ _ _ _ _ _ _ _ V), (v_pos _ _ _ _ _ _ _ _ V).
  exists B, ls, (snd (next_loop (S (length B)) w s)). split; [exact (v_data _ _ _ _ _ _ _ _ V)|]. split; [rewrite E, <- E1; apply surjective_pairing|].
  split; [exact E2|]. split; [exact (v_pos _ _ _ _ _ _ _ _ V1)|exact (v_data _ _ _ _ _ _ _ _ V1)].
Qed.
(** A handle not opened for reading refuses all of them, without any effect. *)
Theorem C78_not_readable : forall w up clean s, an_open_handle w false up clean s ->
  exists e, (e = Unsupported \/ e = OSErr EBADF) /\
  (forall n, file_readline w n s = (Err e, s)) /\ (forall n, file_readlines w n s = (Err e, s)) /\ (forall n, file_readinto w n s = (Err e, s)) /\
  file_next w s = (Err e, s) /\ file_list w s = (Err e, s).
Proof.
  intros w up clean s H. assert (Hw : c_win (f_cfg s) = false).
  { destruct H as (c & s0 & hs & p & D & s1 & l & Hl & _ & HS & _ & _ & _ & HO & _ & -> & _).
    destruct (session_Ginv _ _ _ _ Hl HS) as [_ Hc0].
    assert (Hc1 : f_cfg s1 = f_cfg s0) by (destruct HO as [m b cf w s1 _ _ E|fl md u fd w s1 _ _ E _]; match type of E with step ?oo _ = _ => rewrite <- (call_cfg oo s0), E; reflexivity end).
    assert (R : forall l s, f_cfg (run s l) = f_cfg s) by (intros l0; induction l0 as [|x l0 IH]; intros s2; [reflexivity|cbn [run]; rewrite IH; apply call_cfg]).
    rewrite R, Hc1, Hc0. apply Hl. }
  destruct (handle_Inv _ _ _ _ _ H) as (o & I & Ef & Fr & Fu & Ho).
  exists (if w_raw (wr s w) then OSErr EBADF else Unsupported). split; [destruct (w_raw _); auto|].
  assert (R : forall A z (a : A) f, reading w z a f s = (Err (if w_raw (wr s w) then OSErr EBADF else Unsupported), s)).
  { intros A z a f. unfold reading.
    assert (E : io_enter w s = (Ok (wr s w), s)).
    { destruct (ca_bytes _ _ _ _ I) as (D & HD & _). unfold io_enter, bind, wget, gets. rewrite (ca_kind _ _ _ _ I), (ca_obj _ _ _ _ I). unfold is_large. rewrite HD.
      unfold check_open, bind, gets. rewrite Ho. reflexivity. }
    rewrite (line_bind _ _ _ _ _ E), Fr. cbn [negb]. unfold bind, gets. rewrite Hw, Bool.andb_false_r. cbn [andb]. unfold io_raise, raise_os, raise. destruct (w_raw _); reflexivity. }
  split; [intros n; apply R|]. split; [intros n; apply R|]. split; [intros n; apply R|].
  unfold file_next, file_list, bind, wget, gets. rewrite (ca_kind _ _ _ _ I), Fr. cbn [negb]. unfold io_raise, raise_os, raise. destruct (w_raw _); auto.
Qed.
(** After close() the read calls fail; what iterating does is C78_closed_refuted. *)
Theorem C78_closed : forall w s, w_kind (wr s w) = WFile -> is_open s w = false -> is_large s (w_obj (wr s w)) = false ->
  (forall n, file_readline w n s = (Err ValueErr, s)) /\ (forall n, file_readlines w n s = (Err ValueErr, s)) /\ (forall n, file_readinto w n s = (Err ValueErr, s)).
Proof.
  intros w s Hk Ho Hl. assert (R : forall A z (a : A) f, reading w z a f s = (Err ValueErr, s)).
  { intros A z a f. unfold reading, io_enter, wget, check_open, bind, gets. rewrite Hk, Hl, Ho. reflexivity. }
  split; [intros n; apply R|]. split; intros n; apply R.
Qed.

(** ** A case *)
Definition lines3 : str := L "one" ++ [newline] ++ L "two" ++ [newline] ++ [newline] ++ L "x".
Definition c78_ops : list op := [CreateFile (L "/f") 33188 (Some lines3) None true true].
Definition c78_state : fs := run fd_init c78_ops.
Definition c78_open : op := Open (PStr (L "/f")) (L "rb") (-1) true.
Definition c78_s1 : fs := snd (step c78_open c78_state).
Definition c78_s2 : fs := snd (step (HRead 3 1) c78_s1).
Lemma c78_held : session natural_fds posix_cfg c78_state (all_handles fd_init [] c78_ops) /\ within_limits c78_state /\ unlimited c78_state /\
  not_devnull c78_state (L "/f") /\ held c78_state (L "/f") lines3 /\ step c78_open c78_state = (Ok (RHandle 3), c78_s1).
Proof.
  assert (E : resolve c78_state (L "/f") false = Ok 2) by (vm_compute; reflexivity).
  split; [exists None, 18%N, 0%Z, 0%Z, 0%Z; apply continues_ops; okgo|].
  split; [apply c43_free; vm_compute; reflexivity|]. split; [apply c43_free; vm_compute; reflexivity|].
  split; [apply c43_null; [exact E|vm_compute; reflexivity]|].
  split; [|unfold c78_s1; apply pair_eq; vm_compute; reflexivity].
  left. split; [vm_compute; reflexivity|]. intros o H. rewrite E in H. injection H as <-. vm_compute. reflexivity.
Qed.
Lemma c78_handle : an_open_handle 3 true false true c78_s1.
Proof.
  destruct c78_held as (H1 & H2 & H3 & H4 & H5 & H6).
  exists posix_cfg, c78_state, (all_handles fd_init [] c78_ops), (L "/f"), lines3, c78_s1, [].
  split; [apply posix_cfg_linux|]. split; [reflexivity|]. split; [exact H1|]. split; [exact H2|]. split; [exact H4|]. split; [exact H5|].
  split; [|split; [constructor|split; [reflexivity|split; [reflexivity|vm_compute; reflexivity]]]].
  apply (by_open c78_state (L "/f") (L "rb") (-1) true 3 c78_s1); [cbn; tauto|reflexivity|exact H6].
Qed.
Example C78_case : an_open_handle 3 true false true c78_s1 /\ current 3 c78_s1 /\ current 3 c78_s2 /\
  fst (file_readline 3 2 c78_s1) = Ok (L "on") /\ fst (file_readline 3 (-1) c78_s1) = Ok (L "one" ++ [newline]) /\
  fst (file_readlines 3 5 c78_s1) = Ok [L "one" ++ [newline]; L "two" ++ [newline]] /\
  fst (file_list 3 c78_s2) = Ok [L "ne" ++ [newline]; L "two" ++ [newline]; [newline]; L "x"] /\
  fst (file_next 3 (snd (file_list 3 c78_s2))) = Ok None.
Proof.
  split; [exact c78_handle|]. split.
  { destruct c78_held as (H1 & H2 & H3 & H4 & H5 & H6). apply (cur_open 3 posix_cfg c78_state (all_handles fd_init [] c78_ops) (L "/f") (L "rb") (-1) true lines3); auto.
    - apply posix_cfg_linux.
    - cbn. tauto. }
  split. { apply (cur_read 3 false true c78_s1 1 (RBytes (L "o"))); [exact c78_handle|auto|]. unfold c78_s2. apply pair_eq; vm_compute; reflexivity. }
  split; [vm_compute; reflexivity|]. split; [vm_compute; reflexivity|]. split; [vm_compute; reflexivity|]. split; vm_compute; reflexivity.
Qed.

(** ** What does not hold *)
Definition c78_two (m : string) : fs := run c78_state [Open (PStr (L "/f")) (L m) (-1) true; Open (PStr (L "/f")) (L "r+b") (-1) true].
(** a handle in append mode iterates from the end of the file, whatever seek() said;
    readline() does not *)
Theorem C78_append_refuted : exists s, s = run (c78_two "a+b") [HSeek 3 0 0] /\
  bytes_of s (file_of s 3) lines3 /\ fst (step (HTell 3) s) = Ok (RInt 0) /\
  fst (file_readline 3 (-1) s) = Ok (L "one" ++ [newline]) /\ fst (file_list 3 s) = Ok [] /\ fst (file_next 3 s) = Ok None.
Proof. eexists. split; [reflexivity|]. split; [vm_compute; reflexivity|]. split; [vm_compute; reflexivity|]. split; [vm_compute; reflexivity|]. split; vm_compute; reflexivity. Qed.
(** a closed handle can be iterated over *)
Theorem C78_closed_refuted : exists s, s = run (c78_two "rb") [HClose 3] /\
  is_open s 3 = false /\ fst (step (HRead 3 1) s) = Err ValueErr /\ fst (file_next 3 s) = Ok (Some (L "one" ++ [newline])).
Proof. eexists. split; [reflexivity|]. split; [vm_compute; reflexivity|]. split; vm_compute; reflexivity. Qed.
(** iterating shows the file as it was when the handle was opened or read last *)
Theorem C78_stale_refuted : exists s, s = run (c78_two "rb") [HWrite 4 (L "ONE"); HClose 4; Truncate (PStr (L "/f")) 3] /\
  bytes_of s (file_of s 3) (L "ONE") /\ fst (file_readlines 3 (-1) s) = Ok [L "ONE"] /\
  fst (file_list 3 s) <> Ok [L "ONE"] /\ fst (file_next 3 (run (c78_two "rb") [Truncate (PStr (L "/f")) 2])) = Ok (Some (L "one" ++ [newline])).
Proof. eexists. split; [reflexivity|]. split; [vm_compute; reflexivity|]. split; [vm_compute; reflexivity|]. split; [vm_compute; discriminate|vm_compute; reflexivity]. Qed.

Print Assumptions C78_lines_are_bytes.
Print Assumptions C78_readline_partial.
Print Assumptions C78_readlines_partial.
Print Assumptions C78_readinto_partial.
Print Assumptions C78_next_partial.
Print Assumptions C78_iterate_partial.
Print Assumptions C78_not_readable.
Print Assumptions C78_closed.
Print Assumptions C78_append_refuted.
Print Assumptions C78_closed_refuted.
Print Assumptions C78_stale_refuted.
