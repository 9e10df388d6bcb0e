(** * C62-...: pathlib. *)
From Verif Require Import PathlibModel PathlibSpec PathlibThm PropReal PropHist PropIo PropIo2 PropFd IoThm IoSess OpenThm AttrThm PropAttr FdThm.
From Coq Require Import List Bool ZArith Lia Ascii.
Import ListNotations.

Lemma realx_weaken s strict pos comps r : realx s strict pos comps r -> realx s false pos comps r.
Proof.
  induction 1 as [pos|pos w rest r Hw _ IH|pos rest r _ IH|pos w rest r Ho Hl Ht _ IH|pos w rest t m r Ho Hl _ IH1 _ IH2].
  - constructor.
  - apply rx_stay; assumption.
  - apply rx_up; assumption.
  - apply rx_name; try assumption. discriminate.
  - apply (rx_link s false pos w rest t m r); assumption.
Qed.
Lemma realx_real s pos comps r : realx s false pos comps r <-> real s pos comps r.
Proof.
  split.
  - induction 1 as [pos|pos w rest r Hw _ IH|pos rest r _ IH|pos w rest r Ho Hl Ht _ IH|pos w rest t m r Ho Hl _ IH1 _ IH2];
      [constructor|apply real_stay; assumption|apply real_up; assumption|apply real_name; assumption|apply (real_link s pos w rest t m r); assumption].
  - induction 1 as [pos|pos w rest r Hw _ IH|pos rest r _ IH|pos w rest r Ho Hl _ IH|pos w rest t m r Ho Hl _ IH1 _ IH2];
      [constructor|apply rx_stay; assumption|apply rx_up; assumption|apply rx_name; try assumption; discriminate|apply (rx_link s false pos w rest t m r); assumption].
Qed.
Lemma at_tl s pos o : at_names s (rev pos) = Some o -> exists o', at_names s (rev (tl pos)) = Some o'.
Proof.
  destruct pos as [|w pos]; cbn [tl]; [intros E; exists o; exact E|]. cbn [rev]. unfold at_names. rewrite tree_at_app. destruct (tree_at s root_oid (rev pos)) as [d|]; [|discriminate]. intros _. exists d. reflexivity.
Qed.
Lemma realx_there s pos comps r : realx s true pos comps r -> (exists o, at_names s (rev pos) = Some o) -> exists o, at_names s (rev r) = Some o.
Proof.
  induction 1 as [pos|pos w rest r Hw _ IH|pos rest r _ IH|pos w rest r Ho Hl Ht _ IH|pos w rest t m r Ho Hl _ IH1 _ IH2]; intros Hp.
  - exact Hp.
  - apply IH, Hp.
  - apply IH. destruct Hp as [o Hp]. apply (at_tl s pos o Hp).
  - apply IH, Ht. reflexivity.
  - apply IH2, IH1. destruct (is_abs (sepc s) t); [exists root_oid; reflexivity|exact Hp].
Qed.

(** The current directory is the path [from], which has no link on it. *)
Definition cwd_at (s : fs) (from : list str) : Prop :=
  f_cwd s = abs_path (sepc s) from /\ Forall (ordinary (sepc s)) from /\
  forall pre n l rest, ~ meets_link s from pre n l rest.

(** ** C62 *)

(** Path(p).resolve(strict), absolute or relative: when following the links
    comes to an end (and, if strict, all that is met exists), the answer is the
    path arrived at, and it has no link on it; with strict it exists.  Otherwise
    the call raises RuntimeError or, only if strict, OSError.  ([fuel] bounds the
    depth of the recursion; any bound above twice the number of directory entries
    will do.) *)
Theorem C62_resolve_partial : forall c s, linux_like c -> reachable c s ->
  honest_dirs s -> honest_links s -> null_free s -> open_dirs s ->
  forall from, cwd_at s from -> forall p strict fuel, 2 * count_entries s (f_next s) < fuel ->
    (forall names, leads_from s strict from p names -> plib_resolve fuel s p strict = POk (abs_path (c_sep c) names)) /\
    (forall q, plib_resolve fuel s p strict = POk q -> exists names,
       q = abs_path (c_sep c) names /\ leads_from s strict from p names /\
       (forall pre n l rest, ~ meets_link s names pre n l rest) /\
       (strict = true -> (is_abs (c_sep c) p = true \/ exists o, at_names s from = Some o) -> exists_ s q false = Ok true)) /\
    ((forall names, ~ leads_from s strict from p names) ->
       plib_resolve fuel s p strict = PRuntime \/ strict = true /\ exists e, plib_resolve fuel s p strict = PErr (OSErr e)).
Proof.
  intros c s Hc Hr HD HL HN HO from (Ew & Hfo & Hfl) p strict fuel Hfu. destruct (reachable_GP c s Hc Hr) as [HG _].
  assert (Ec : f_cfg s = c) by (apply (reachable_cfg c s Hr)). assert (Es : c_sep c = sepc s) by (unfold sepc; rewrite Ec; reflexivity). rewrite Es in *.
  assert (Hf : LF s (rev from)) by (split; rewrite rev_involutive; assumption).
  assert (Hcwd : is_abs (sepc s) p = false -> f_cwd s = rep s (match from with [] => true | _ => false end) (rev from)).
  { intros _. rewrite Ew. unfold rep. destruct from as [|a from]; [reflexivity|]. destruct (rev (a :: from)) as [|x y] eqn:E; [apply (f_equal (@length _)) in E; rewrite rev_length in E; discriminate|].
    cbn [app]. rewrite <- E, rev_involutive. reflexivity. }
  assert (Q := resolvex s HG HL HD HN HO strict fuel p _ (rev from) Hf Hcwd Hfu).
  change (base s (rev from) p) with (if is_abs (sepc s) p then [] else rev from) in Q.
  split; [|split].
  - intros names Hn. unfold leads_from in Hn. destruct (plib_resolve fuel s p strict) as [q| |e].
    + destruct Q as (pos & -> & _ & Hp). assert (K : pos = rev names) by (apply (realx_det s HL strict _ _ _ _ Hp Hn)). subst pos. rewrite rev_involutive. reflexivity.
    + exfalso. apply (Q _ Hn).
    + exfalso. destruct Q as (_ & _ & Q). apply (Q _ Hn).
  - intros q Eq. rewrite Eq in Q. destruct Q as (pos & -> & [Ho Hl] & Hp). exists (rev pos). split; [reflexivity|]. unfold leads_from. rewrite rev_involutive. split; [exact Hp|].
    split; [exact Hl|]. intros -> Hex.
    assert (K : exists o, at_names s (rev pos) = Some o).
    { apply (realx_there s _ _ _ Hp). destruct (is_abs (sepc s) p); [exists root_oid; reflexivity|]. rewrite rev_involutive. destruct Hex as [K|K]; [discriminate|exact K]. }
    destruct K as [o K]. apply (exists_names s (Ginv_good s HG)); [exact Ho|]. right. exists (rev pos), o.
    split; [apply (linkfree_resolve_path s HG _ _ o (le_n _) K Hl)|]. split; [apply Forall_clean, Ho|exact K].
  - intros Hno. destruct (plib_resolve fuel s p strict) as [q| |e].
    + exfalso. destruct Q as (pos & _ & _ & Hp). apply (Hno (rev pos)). unfold leads_from. rewrite rev_involutive. exact Hp.
    + left. reflexivity.
    + right. destruct Q as (-> & (e' & ->) & _). split; [reflexivity|]. exists e'. reflexivity.
Qed.
Print Assumptions C62_resolve_partial.

(** What strict resolving answers, plain resolving answers too. *)
Theorem C62_strict_partial : forall c s, linux_like c -> reachable c s ->
  honest_dirs s -> honest_links s -> null_free s -> open_dirs s ->
  forall from, cwd_at s from -> forall p q fuel, 2 * count_entries s (f_next s) < fuel ->
  plib_resolve fuel s p true = POk q -> plib_resolve fuel s p false = POk q.
Proof.
  intros c s Hc Hr HD HL HN HO from Hcw p q fuel Hfu E.
  destruct (C62_resolve_partial c s Hc Hr HD HL HN HO from Hcw p true fuel Hfu) as (_ & H & _). destruct (H q E) as (names & -> & Hl & _).
  destruct (C62_resolve_partial c s Hc Hr HD HL HN HO from Hcw p false fuel Hfu) as (K & _ & _). apply K. unfold leads_from in *. apply (realx_weaken s true), Hl.
Qed.
Print Assumptions C62_strict_partial.

(** For an absolute path Path.resolve, if it does not raise RuntimeError, is
    os.path.realpath; and it raises RuntimeError only when following the links
    never ends. *)
Theorem C62_realpath_partial : forall c s, linux_like c -> reachable c s ->
  honest_dirs s -> honest_links s -> null_free s -> open_dirs s ->
  forall from, cwd_at s from -> forall p fuel, is_abs (c_sep c) p = true -> 2 * count_entries s (f_next s) < fuel ->
  (forall q, plib_resolve fuel s p false = POk q -> realpath_n fuel s p = Ok q) /\
  (plib_resolve fuel s p false = PRuntime <-> forall names, ~ real_path s p names).
Proof.
  intros c s Hc Hr HD HL HN HO from Hcw p fuel Hp Hfu.
  destruct (C62_resolve_partial c s Hc Hr HD HL HN HO from Hcw p false fuel Hfu) as (H1 & H2 & H3).
  assert (Ec : f_cfg s = c) by (apply (reachable_cfg c s Hr)). assert (Es : c_sep c = sepc s) by (unfold sepc; rewrite Ec; reflexivity).
  assert (Hx : forall names, leads_from s false from p names <-> real_path s p names).
  { intros names. unfold leads_from, real_path. rewrite <- Es, Hp, Es. apply realx_real. }
  destruct (C56_realpath_partial c s Hc Hr HD HL HN HO p Hp) as (q' & A & _ & _ & B). split.
  - intros q Eq. destruct (H2 q Eq) as (names & -> & Hn & _). apply Hx in Hn. destruct (B names Hn) as (<- & _). apply A. lia.
  - split.
    + intros E names Hn. apply Hx in Hn. rewrite (H1 names Hn) in E. discriminate.
    + intros Hno. destruct H3 as [K|[K _]]; [intros names Hn; apply (Hno names), Hx, Hn|exact K|discriminate].
Qed.
Print Assumptions C62_realpath_partial.

Definition c62_fuel := S (2 * count_entries c56_state (f_next c56_state)).
Lemma c62_cwd : cwd_at c56_state [].
Proof. split; [vm_compute; reflexivity|]. split; [constructor|]. intros pre n l rest (E & _). destruct pre; discriminate. Qed.
(** relative and absolute, through two links, missing names, and the loop *)
Example C62_resolve_partial_nonvacuous :
  linux_like posix_cfg /\ reachable posix_cfg c56_state /\ honest_dirs c56_state /\ honest_links c56_state /\ null_free c56_state /\ open_dirs c56_state /\
  cwd_at c56_state [] /\ leads_from c56_state true [] (L "l/.././n/f") [L "a"; L "b"; L "f"] /\
  leads_from c56_state false [] (L "l/no/x") [L "a"; L "b"; L "no"; L "x"] /\
  plib_resolve c62_fuel c56_state (L "l/.././n/f") true = POk (L "/a/b/f") /\
  plib_resolve c62_fuel c56_state (L "l/no/x") true = PErr (OSErr ENOENT) /\
  plib_resolve c62_fuel c56_state (L "l/no/x") false = POk (L "/a/b/no/x") /\
  plib_resolve c62_fuel c56_state (L "/loop/y") false = PRuntime.
Proof.
  split; [exact posix_cfg_linux|]. split; [exact c56_reachable|]. split; [exact c56_HD|]. split; [exact c56_HL|]. split; [exact c56_HN|]. split; [exact c56_HO|].
  split; [exact c62_cwd|]. split; [|split; [|repeat (split; [vm_compute; reflexivity|]); vm_compute; reflexivity]].
  - unfold leads_from. apply (xv_realx c56_state c56_HL true 5); [|vm_compute; reflexivity]. intros w Hw. apply (split_on_clean _ _ _ Hw).
  - unfold leads_from. apply (xv_realx c56_state c56_HL false 5); [|vm_compute; reflexivity]. intros w Hw. apply (split_on_clean _ _ _ Hw).
Qed.
Example C62_strict_partial_nonvacuous : plib_resolve c62_fuel c56_state (L "/l/f") true = POk (L "/a/b/f").
Proof. vm_compute. reflexivity. Qed.
Example C62_realpath_partial_nonvacuous : plib_resolve c62_fuel c56_state (L "/l/../x") false = POk (L "/a/x") /\ realpath_n c62_fuel c56_state (L "/l/../x") = Ok (L "/a/x").
Proof. split; vm_compute; reflexivity. Qed.

(** Not for directories without read permission, even for root: the link in one
    is not followed, or strict resolving refused, though stat follows it. *)
Definition c62_ops := [Mkdir (L "/d") 511; CreateFile (L "/f") 33188 (Some (L "x")) None true true;
  CreateSymlink (L "/d/l") (L "/f") true; Chmod (PStr (L "/d")) 192 true].
Definition c62_state := run (init posix_cfg None 18 0 0 0) c62_ops.
Theorem C62_unreadable_refuted : reachable posix_cfg c62_state /\ is_root c62_state = true /\
  leads_from c62_state true [] (L "/d/l") [L "f"] /\
  (exists st, stat c62_state (PStr (L "/d/l")) true = Ok st /\ stat c62_state (PStr (L "/f")) true = Ok st) /\
  plib_resolve 20 c62_state (L "/d/l") false = POk (L "/d/l") /\
  plib_resolve 20 c62_state (L "/d/l") true = PErr (OSErr EACCES) /\
  realpath_n 20 c62_state (L "/d/l") = Ok (L "/d/l").
Proof.
  split; [exists None, 18%N, 0%Z, 0%Z, 0%Z, c62_ops; reflexivity|]. split; [vm_compute; reflexivity|]. split.
  { assert (HL : honest_links c62_state).
    { intros d n o _. do 5 (destruct o as [|o]; [vm_compute; first [intros K; discriminate K|intros _; eexists; reflexivity]|]). vm_compute. intros K; discriminate K. }
    unfold leads_from. apply (xv_realx c62_state HL true 5); [|vm_compute; reflexivity]. intros w Hw. apply (split_on_clean _ _ _ Hw). }
  split; [eexists; split; vm_compute; reflexivity|]. split; [vm_compute; reflexivity|]. split; vm_compute; reflexivity.
Qed.
Print Assumptions C62_unreadable_refuted.

(** ** C63 *)

Lemma close_ro e w o s B P F D : view_ e s w o B P F D -> w_update (wr s w) = false -> w_del (wr s w) = false ->
  fst (close_wrapper w s) = Ok tt.
Proof.
  intros V Hu Hd. change (wp (close_wrapper w) s (fun r _ => r = Ok tt)). unfold close_wrapper. apply wp_bind_wget. rewrite (v_kind _ _ _ _ _ _ _ _ V).
  unfold close_file. apply wp_bind_gets. rewrite (v_open _ _ _ _ _ _ _ _ V). cbn [negb]. apply wp_bind_wget. rewrite Hu. cbn [andb].
  apply wp_bind. apply wp_ret. cbv beta. apply wp_bind. eapply wp_conseq; [apply wp_release|]. cbv beta. intros r s3 (-> & _). rewrite Hd. reflexivity.
Qed.
Lemma write_bytes_inv p data s r s' : plib_write_bytes p data s = (r, s') ->
  (exists e, r = Err e /\ step (Open (PStr p) (L "wb") (-1) true) s = (Err e, s')) \/
  exists w s1, step (Open (PStr p) (L "wb") (-1) true) s = (Ok (RHandle w), s1) /\ s' = run s1 [HWrite w data; HClose w] /\
    (all_ok (outs s1 [HWrite w data; HClose w]) -> exists n, r = Ok n /\ outs s1 [HWrite w data; HClose w] = [Ok (RInt n); Ok RUnit]) /\
    (forall n, r = Ok n -> outs s1 [HWrite w data; HClose w] = [Ok (RInt n); Ok RUnit]).
Proof.
  intros E. unfold plib_write_bytes, bind in E. cbn [step]. rewrite outm_eq. destruct (open_ _ _ _ _ s) as [[w|e] s1] eqn:Eo.
  2:{ left. injection E as <- <-. exists e. auto. }
  right. exists w, s1. cbn [fst snd]. split; [reflexivity|]. unfold with_file in E. cbn [outs run step]. rewrite !outm_eq. cbn [fst snd].
  destruct (file_write w data s1) as [r1 s2]. cbn [fst snd]. destruct (close_wrapper w s2) as [r2 s3]. cbn [fst snd]. injection E as <- <-.
  split; [reflexivity|]. destruct r2 as [[]|e2], r1 as [n1|e1]; cbn beta iota; split.
  - intros _. exists n1. auto.
  - intros n [= ->]. reflexivity.
  - intros H. inversion_clear H as [|x l [y K] _]. discriminate K.
  - discriminate.
  - intros H. inversion_clear H as [|x l _ H2]. inversion_clear H2 as [|x l [y K] _]. discriminate K.
  - discriminate.
  - intros H. inversion_clear H as [|x l [y K] _]. discriminate K.
  - discriminate.
Qed.

(** Path(p).write_bytes(data), when it succeeds, returns the number of bytes and
    puts exactly [data] into the file [p] leads to, a new one if there was none;
    no other file or link changes; any read_bytes of [p] that succeeds then gives
    [data] back, and for root it does succeed.  If there is room, write_bytes
    fails only if open does. *)
Theorem C63_bytes : forall c s hs p data r s',
  linux_like c -> c_sep c = slash -> session natural_fds c s hs -> within_limits s -> not_devnull s p ->
  plib_write_bytes p data s = (r, s') ->
  (forall n, r = Ok n ->
     n = Z.of_nat (length data) /\
     (exists o, bytes_of s' o data /\ (forall o2, resolve s' p false = Ok o2 -> o2 = o) /\
        (exists_ s p false = Ok true /\ resolve s p false = Ok o /\ (forall x, x <> o -> ob s' x = ob s x) \/
         exists_ s p false = Ok false /\ o = f_next s /\ forall x, (x < f_next s)%nat -> is_dirobj s x = false -> ob s' x = ob s x)) /\
     (forall d s2, plib_read_bytes p s' = (Ok d, s2) -> d = data) /\
     (is_root s = true -> ends_with_path_separator c p = false ->
      (exists names, resolve_path s p = Ok (abs_path slash names) /\ Forall (ordinary slash) names) ->
      fst (plib_read_bytes p s') = Ok data) /\
     (exists hs', session natural_fds c s' hs') /\ within_limits s') /\
  (forall e, r = Err e -> unlimited s -> step (Open (PStr p) (L "wb") (-1) true) s = (Err e, s')).
Proof.
  intros c s hs p data r s' Hl Hs HS HL Hn E.
  destruct (write_bytes_inv p data s r s' E) as [(e & -> & Eo)|(w & s1 & Eo & -> & Hall & Hok)].
  { split; [discriminate|]. intros e' [= <-] _. exact Eo. }
  assert (Hm : write_mode (L "wb")) by (left; reflexivity).
  set (ops := [HWrite w data; HClose w]) in *. change ops with (map (HWrite w) [data] ++ [HClose w]) in *.
  split.
  2:{ intros e -> Hun. exfalso. destruct (C40_written_is_read c s hs p _ _ _ w s1 Hl Hs HS HL Hn Hm Eo [data] (or_introl Hun)) as (W & _).
      destruct Hall as (n & K & _); [|discriminate K]. rewrite W. repeat constructor; eexists; reflexivity. }
  intros n ->. specialize (Hok n eq_refl).
  assert (Hr : all_ok (outs s1 (map (HWrite w) [data] ++ [HClose w]))) by (rewrite Hok; repeat constructor; eexists; reflexivity).
  destruct (wb_session c s hs p _ _ _ w s1 [data] Hl Hs HS HL Hn Hm Eo (or_intror Hr)) as (W1 & o & hs2 & om & O & K & W3 & HS2 & HL2 & Hn2 & ER & HE).
  assert (Ed : concat [data] = data) by (cbn [concat]; apply app_nil_r). rewrite Ed in W3.
  split. { rewrite W1 in Hok. injection Hok as ->. reflexivity. }
  set (s2 := run s1 (map (HWrite w) [data] ++ [HClose w])) in *.
  assert (HR : forall d s3, plib_read_bytes p s2 = (Ok d, s3) -> d = data).
  { intros d s3 Er. unfold plib_read_bytes, bind in Er. destruct (open_ (PStr p) (L "rb") (-1) true s2) as [[v|e] s4] eqn:Eo2; [|discriminate].
    assert (St : step (Open (PStr p) (L "rb") (-1) true) s2 = (Ok (RHandle v), s4)) by (cbn [step]; rewrite outm_eq, Eo2; reflexivity).
    destruct (C40_written_is_read c s hs p _ _ _ w s1 Hl Hs HS HL Hn Hm Eo [data] (or_intror Hr)) as (_ & _ & Q).
    specialize (Q (-1)%Z true v s4 [(-1)%Z] St). rewrite Ed in Q. cbn [map outs step slices] in Q. rewrite outm_eq in Q. cbn [fst] in Q.
    unfold with_file in Er. destruct (file_read v (-1) s4) as [r5 s5]. destruct (close_wrapper v s5) as [[u|e] s6]; [|discriminate]. cbn [fst] in Q.
    injection Er as -> <-. injection Q as ->. reflexivity. }
  split.
  { exists o. split; [exact W3|]. split; [intros o2 Ho; rewrite ER in Ho; apply (of_path _ _ _ _ _ _ _ _ _ O _ Ho)|].
    destruct (of_how _ _ _ _ _ _ _ _ _ O) as [(Ex & Er & _ & K1 & _)|(Ex & -> & _ & _ & _ & s0 & d & nm & OM & BN & _ & K1 & _)].
    - left. split; [exact Ex|]. split; [exact Er|]. intros x Hx. rewrite (kp_other _ _ _ K x Hx). apply (kp_other _ _ _ K1 x Hx).
    - right. split; [exact Ex|]. split; [reflexivity|]. intros x Hx Hd. rewrite (kp_other _ _ _ K x ltac:(lia)), (kp_other _ _ _ K1 x ltac:(lia)).
      destruct (Nat.eq_dec x d) as [->|Hxd]; [|apply OM; [exact Hxd|lia]].
      exfalso. rewrite (om_isdir _ _ _ _ _ OM) in Hd. discriminate. }
  split; [exact HR|]. split; [|split; [exists hs2; exact HS2|exact HL2]].
  intros Hroot Hsep Hnm.
  destruct (C40_reopens c s hs p _ _ _ w s1 Hl Hs HS HL Hn Hroot Hsep Hnm Hm Eo [data] (or_intror Hr) (-1)%Z true) as (v & s3 & St). fold s2 in St.
  assert (Eo2 : open_ (PStr p) (L "rb") (-1) true s2 = (Ok v, s3)).
  { cbn [step] in St. rewrite outm_eq in St. destruct (open_ _ _ _ _ s2) as [[v'|e] s4]; cbn [fst snd] in St; [|discriminate]. injection St as -> ->. reflexivity. }
  destruct (session_open c _ _ p (L "rb") _ (-1)%Z true v s3 Hl Hs HS2 HL2 Hn2 eq_refl eq_refl St) as (HS3 & HL3 & o3 & O3).
  assert (Eb : o3 = o /\ bytes_of s3 o data).
  { destruct (of_how _ _ _ _ _ _ _ _ _ O3) as [(_ & E1 & _ & _ & Eb)|(_ & _ & Eb & _)]; [|discriminate].
    rewrite ER in E1. pose proof (of_path _ _ _ _ _ _ _ _ _ O _ E1) as ->. split; [reflexivity|]. unfold bytes_of. rewrite Eb. exact W3. }
  destruct Eb as [-> B3].
  destruct (handle_view _ _ _ _ _ _ _ _ _ (of_handle _ _ _ _ _ _ _ _ _ O3) (of_null _ _ _ _ _ _ _ _ _ O3) B3) as (V3 & [G1 G2 G3 G4 G5 G6 G7]).
  cbn in V3, G1, G2, G3. rewrite andb_false_r in V3. cbn in V3.
  pose proof (wp_read_only true v o s3 data 0 _ data (-1) V3 G1 G2 G3 ltac:(auto)) as KR. unfold wp in KR.
  unfold plib_read_bytes, bind. rewrite Eo2. unfold with_file. destruct (file_read v (-1) s3) as [r5 s5]. cbn [fst snd] in KR. destruct KR as (-> & V5 & I5).
  pose proof (iow_flags _ _ _ I5) as (U & _ & _ & _ & _ & U5 & _).
  pose proof (close_ro _ _ _ _ _ _ _ _ V5 ltac:(congruence)) as KC. 
  destruct (close_wrapper v s5) as [r6 s6]. cbn [fst] in *. rewrite KC; [reflexivity|congruence].
Qed.
Print Assumptions C63_bytes.

(** through a link, and a new file *)
Example C63_bytes_nonvacuous :
  linux_like posix_cfg /\ c_sep posix_cfg = slash /\ session natural_fds posix_cfg io_state (all_handles fd_init [] io_ops) /\
  within_limits io_state /\ unlimited io_state /\ not_devnull io_state (L "/l") /\ not_devnull io_state (L "/new") /\
  fst (plib_write_bytes (L "/l") (L "xyz") io_state) = Ok 3%Z /\
  fst (plib_read_bytes (L "/l") (snd (plib_write_bytes (L "/l") (L "xyz") io_state))) = Ok (L "xyz") /\
  fst (plib_read_bytes (L "/f") (snd (plib_write_bytes (L "/l") (L "xyz") io_state))) = Ok (L "xyz") /\
  fst (plib_write_bytes (L "/new") (L "ab") io_state) = Ok 2%Z /\
  fst (plib_read_bytes (L "/new") (snd (plib_write_bytes (L "/new") (L "ab") io_state))) = Ok (L "ab") /\
  fst (plib_write_bytes (L "/no/new") (L "ab") io_state) = Err (OSErr ENOENT).
Proof.
  split; [exact posix_cfg_linux|]. split; [reflexivity|]. split; [exact io_session|]. split; [apply io_limits|]. split; [apply io_limits|].
  split; [apply io_not_null; [vm_compute; reflexivity|left; vm_compute; reflexivity]|].
  split; [apply io_not_null; [vm_compute; reflexivity|right; exists (OSErr ENOENT); vm_compute; reflexivity]|].
  repeat (split; [vm_compute; reflexivity|]). vm_compute. reflexivity.
Qed.

(** ** C64 *)

(** Path(p).touch(mode, exist_ok) of something that exists (stat succeeds) *)
Theorem C64_existing : forall s p mode st, stat s (PStr p) true = Ok st ->
  plib_touch p mode false s = (Err (OSErr EEXIST), s) /\
  forall r s', plib_touch p mode true s = (r, s') ->
    (exists e, r = Err e /\ is_root s = false /\ s' = s) \/
    r = Ok tt /\ exists o, resolve s p true = Ok o /\ touched s s' o (fun x => wo_mtime (wo_atime x (f_now s)) (f_now s)) /\
      (is_root s = true -> stat_of s o = st /\ exists st', stat s' (PStr p) true = Ok st' /\ ss_atime st' = f_now s /\ ss_mtime st' = f_now s /\
         ss_size st' = ss_size st /\ ss_mode st' = ss_mode st /\ ss_ino st' = ss_ino st).
Proof.
  intros s p mode st Est. unfold plib_touch, bind, lift, plib_exists. rewrite Est. split; [reflexivity|].
  intros r s' E. destruct (C33_utime s (PStr p) None None true r s' E) as [(K & _)|[(_ & K & _)|[(e & -> & Er & ->)|(-> & o & at_ & mt & Er & Ht & T & Hst)]]].
  - contradiction.
  - destruct K as [K|K]; destruct K.
  - left. exists e. split; [reflexivity|]. split; [|reflexivity]. destruct (is_root s) eqn:Hr; [|reflexivity]. exfalso.
    unfold stat, stat_obj in Est. unfold resolve_arg, resolve_follow, resolve_any in *. fold (resolve s p false) in Est. fold (resolve s p true) in Er.
    rewrite (resolve_root_check s p Hr) in Er. rewrite Er in Est. discriminate.
  - right. split; [reflexivity|]. exists o. assert (Er0 : resolve s p true = Ok o) by exact Er. split; [exact Er0|].
    assert (E2 : at_ = f_now s /\ mt = f_now s).
    { exact Ht. }
    destruct E2 as [-> ->]. split; [exact T|]. intros Hr.
    assert (Eo : stat_obj s (PStr p) true = Ok o).
    { unfold stat in Est. destruct (stat_obj s (PStr p) true) as [o2|e] eqn:E2; [|discriminate]. f_equal.
      unfold stat_obj in E2. unfold resolve_arg, resolve_follow, resolve_any in E2. fold (resolve s p false) in E2. rewrite <- (resolve_root_check s p Hr), Er0 in E2. cbn [rbind] in E2.
      rewrite Hr in E2. cbn [negb rbind] in E2. destruct (raise_for_sep _ _ _ _ _) as [u|e]; [|discriminate]. injection E2 as <-. reflexivity. }
    unfold stat in Est |- *. rewrite Eo in Est. rewrite Hst, Eo. cbn [rbind] in *. injection Est as <-. split; [reflexivity|].
    eexists. split; [reflexivity|]. unfold stat_of. cbn [ss_atime ss_mtime ss_size ss_mode ss_ino]. rewrite (to_obj _ _ _ _ T).
    split; [reflexivity|]. split; [reflexivity|]. split; [|split; reflexivity]. unfold st_size. rewrite (to_obj _ _ _ _ T), (to_rest _ _ _ _ T). reflexivity.
Qed.

(** Path(p).touch(mode) of something missing, by root: if it succeeds [p] is a
    new, empty, regular file with the permission bits [mode]; nothing else
    changes but the directory it was put into. *)
Theorem C64_missing_partial : forall c s hs p mode ok e s',
  linux_like c -> c_sep c = slash -> session natural_fds c s hs -> within_limits s -> not_devnull s p -> is_root s = true ->
  ends_with_path_separator c p = false ->
  (exists names, resolve_path s p = Ok (abs_path slash names) /\ Forall (ordinary slash) names) ->
  stat s (PStr p) true = Err e -> plib_touch p mode ok s = (Ok tt, s') ->
  exists o d, o = f_next s /\ resolve s' p false = Ok o /\ bytes_of s' o [] /\ o_size (ob s' o) = 0%Z /\
    ((f_umask s < 4096)%N -> S_IFMT (o_mode (ob s' o)) = S_IFREG) /\
    (forall i, (i < 12)%N -> N.testbit (o_mode (ob s' o)) i = N.testbit mode i) /\
    (o_uid (ob s' o) = f_uid s /\ o_gid (ob s' o) = f_gid s) /\
    (exists n, entry s d n = None /\ ob s' d = wo_nlink (wo_body (ob s d) (BDir (ents s d ++ [(n, o)]))) (o_nlink (ob s d) + 1)) /\
    (forall x, x <> o -> x <> d -> ob s' x = ob s x).
Proof.
  intros c s hs p mode ok e s' Hl Hs HS HL Hn Hroot Hsep (names & Hnm & Hord) Est E. destruct (session_Ginv _ _ _ _ Hl HS) as [HG Hc].
  assert (Hex : plib_exists s p = Ok false).
  { unfold plib_touch, bind, lift in E. destruct (plib_exists s p) as [b|e2] eqn:K; [|discriminate]. f_equal. unfold plib_exists in K. rewrite Est in K.
    destruct e as [err| | | | | | | | | |]; try discriminate. destruct (ignored_errno err); [|discriminate]. injection K as <-. reflexivity. }
  unfold plib_touch, bind, lift in E. rewrite Hex in E. cbn beta iota in E.
  destruct (open_ (PStr p) (L "wb") (-1) true s) as [[w|e1] s1] eqn:Eo; [|discriminate].
  destruct (close_wrapper w s1) as [[[]|e2] s2] eqn:Ec; [|discriminate].
  assert (St : step (Open (PStr p) (L "wb") (-1) true) s = (Ok (RHandle w), s1)) by (cbn [step]; rewrite outm_eq, Eo; reflexivity).
  assert (Er : run s1 (map (HWrite w) [] ++ [HClose w]) = s2) by (cbn [map app run step]; rewrite outm_eq, Ec; reflexivity).
  assert (Hr : all_ok (outs s1 (map (HWrite w) [] ++ [HClose w]))) by (cbn [map app outs step]; rewrite outm_eq, Ec; repeat constructor; eexists; reflexivity).
  assert (Hm : write_mode (L "wb")) by (left; reflexivity).
  destruct (wb_session c s hs p _ _ _ w s1 [] Hl Hs HS HL Hn Hm St (or_intror Hr)) as (_ & o & hs2 & om & O & K & W3 & HS2 & HL2 & Hn2 & ER & HE).
  rewrite Er in *. destruct (session_Ginv _ _ _ _ Hl HS2) as [HG2 Hc2].
  destruct (of_how _ _ _ _ _ _ _ _ _ O) as [(_ & Eres & _)|(Ex & Eo2 & _ & Eb & Esz & s0 & d & nm & OM & BN & Emode & K1 & _)].
  { exfalso. unfold stat, stat_obj, resolve_arg, resolve_follow, resolve_any in Est. fold (resolve s p false) in Est. rewrite Eres in Est. cbn [rbind] in Est. rewrite Hroot in Est. cbn [negb rbind] in Est.
    unfold raise_for_sep, raise_for_sep_ in Est. rewrite Hc, Hsep in Est. discriminate. }
  assert (Hres : resolve s1 p false = Ok o).
  { apply (of_found _ _ _ _ _ _ _ _ _ O). intros rr E3 Hcl. rewrite Hnm in E3. assert (E2 : abs_path slash names = abs_path (sepc s) rr) by (exact (f_equal (fun r => match r with Ok x => x | Err _ => [] end) E3)).
    clear E3. assert (Es : sepc s = slash) by (change (c_sep (f_cfg s) = slash); rewrite Hc; exact Hs). rewrite Es in *.
    assert (names = rr) as <-; [|exact Hord].
    apply (abs_path_clean_inj c Hl); rewrite ?Hs; auto. eapply Forall_impl; [|exact Hord]. intros a Ha. split; apply Ha. }
  assert (Hroot2 : is_root s2 = true) by (unfold is_root; destruct HE as (_ & _ & _ & _ & -> & _); exact Hroot).
  destruct (C27_chmod s2 (PStr p) mode true _ _ E) as [(e2 & K2 & _)|(_ & o2 & Er2 & T & Hfmt & Hbits & _)]; [discriminate|].
  assert (o2 = o) as ->.
  { unfold resolve_arg, resolve_follow, resolve_any in Er2. fold (resolve s2 p true) in Er2. rewrite (resolve_root_check s2 p Hroot2), ER, Hres in Er2. injection Er2 as <-. reflexivity. }
  pose proof (C27_chmod_seen s2 (PStr p) mode true s' E Hroot2) as (Sr & _).
  assert (Eo' : ob s' o = wo_ctime (wo_mode (ob s2 o) (o_mode (ob s' o))) (f_now s2)) by apply T.
  assert (Hod : o <> d).
  { intros ->. pose proof (om_isdir _ _ _ _ _ OM) as Kd. rewrite (gi_new s HG) in Kd; [discriminate|rewrite Eo2; lia]. }
  destruct (session_open c s hs p (L "wb") _ _ _ w s1 Hl Hs HS HL Hn eq_refl eq_refl St) as (HS1 & _).
  assert (Hsz : o_size (ob s2 o) = 0%Z).
  { pose proof (sized_session (fun _ => True) natural_fds c s1 _ (fun _ _ _ _ => Logic.I) HS1) as Sz.
    assert (Sz1 : PropIo2.sized (fun x => x <> o) s1).
    { intros Hw x D HD Hx. destruct (Nat.eq_dec x o) as [->|Hxo].
      - unfold bytes_of in HD. rewrite Eb in HD. injection HD as <-. exact Esz.
      - apply (Sz Hw x D HD). intros _. apply (Hx Hxo). }
    pose proof (sz_step (fun x => x <> o) (HClose w) ltac:(discriminate) s1 Sz1) as Sz2. cbn [step] in Sz2. rewrite outm_eq, Ec in Sz2. cbn [snd] in Sz2.
    apply (Sz2 ltac:(rewrite Hc2; apply Hl) o [] W3). intros K2. contradiction. }
  exists o, d. split; [exact Eo2|]. split; [rewrite Sr, ER; exact Hres|].
  split; [unfold bytes_of; rewrite Eo'; exact W3|].
  split. { rewrite Eo'. exact Hsz. }
  split.
  { intros Hum. rewrite Hfmt, (kept_mode _ _ _ _ K), (kept_mode _ _ _ _ K1), Emode. unfold open_mode_bits, S_IFMT. apply N.bits_inj. intros i. rewrite N.land_spec, N.ldiff_spec.
    destruct (N.ltb_spec i 12) as [Hi|Hi].
    - assert (Kt : N.testbit S_IFMT_mask i = false /\ N.testbit S_IFREG i = false).
      { assert (Q : In i [0;1;2;3;4;5;6;7;8;9;10;11]%N) by (cbn [In]; lia). cbn [In] in Q. repeat (destruct Q as [<-|Q]; [split; reflexivity|]). destruct Q. }
      destruct Kt as [Kt1 Kt2]. rewrite Kt1, Kt2. apply andb_false_r.
    - assert (Ku : N.testbit (f_umask s) i = false).
      { destruct (N.eq_dec (f_umask s) 0) as [->|Hz]; [apply N.bits_0|]. apply N.bits_above_log2. apply N.log2_lt_pow2; [lia|]. eapply N.lt_le_trans; [exact Hum|]. change 4096%N with (2 ^ 12)%N. apply N.pow_le_mono_r; lia. }
      rewrite Ku. cbn [negb]. rewrite andb_true_r. rewrite <- N.land_spec. reflexivity. }
  split. { intros i Hi. rewrite (Hbits ltac:(rewrite Hc2; apply Hl) i). apply N.ltb_lt in Hi. rewrite Hi. reflexivity. }
  assert (Hmeta : o_uid (ob s2 o) = o_uid (ob s0 o) /\ o_gid (ob s2 o) = o_gid (ob s0 o)).
  { pose proof (kp_meta _ _ _ K) as M1. pose proof (kp_meta _ _ _ K1) as M2. unfold meta in M1, M2. split; congruence. }
  split. { rewrite Eo'. cbn [o_uid o_gid wo_ctime wo_mode]. destruct Hmeta as [-> ->]. split; apply BN. }
  assert (Hrest : forall x, x <> o -> ob s' x = ob s0 x).
  { intros x Hx. rewrite (to_other _ _ _ _ T x Hx), (kp_other _ _ _ K x Hx). apply (kp_other _ _ _ K1 x Hx). }
  split.
  - exists nm. split; [apply OM|]. rewrite (Hrest d (not_eq_sym Hod)). apply OM.
  - intros x Hx Hxd. rewrite (Hrest x Hx). apply OM; assumption.
Qed.
Print Assumptions C64_existing.
Print Assumptions C64_missing_partial.

(** touch(mode) does not apply the umask to the mode of a new file; pathlib, which
    creates it with os.open, does. *)
Theorem C64_umask_refuted :
  reachable posix_cfg io_state /\ f_umask io_state = 18%N (* 0o022 *) /\
  let s' := snd (plib_touch (L "/new") 511 true io_state) in
  exists st, stat s' (PStr (L "/new")) true = Ok st /\ ss_mode st = 33279%N (* 0o100777 *).
Proof.
  split; [apply (session_reachable natural_fds _ _ _ io_session)|]. split; [vm_compute; reflexivity|].
  eexists. split; vm_compute; reflexivity.
Qed.
Print Assumptions C64_umask_refuted.

Example C64_existing_nonvacuous :
  (exists st, stat io_state (PStr (L "/l")) true = Ok st) /\ is_root io_state = true /\
  fst (plib_touch (L "/l") 420 false io_state) = Err (OSErr EEXIST) /\ fst (plib_touch (L "/l") 420 true io_state) = Ok tt.
Proof. split; [eexists; vm_compute; reflexivity|]. repeat (split; [vm_compute; reflexivity|]). vm_compute. reflexivity. Qed.
Example C64_missing_partial_nonvacuous :
  linux_like posix_cfg /\ session natural_fds posix_cfg io_state (all_handles fd_init [] io_ops) /\
  within_limits io_state /\ not_devnull io_state (L "/new") /\ is_root io_state = true /\ ends_with_path_separator posix_cfg (L "/new") = false /\
  resolve_path io_state (L "/new") = Ok (abs_path slash [L "new"]) /\ Forall (ordinary slash) [L "new"] /\
  stat io_state (PStr (L "/new")) true = Err (OSErr ENOENT) /\ fst (plib_touch (L "/new") 384 true io_state) = Ok tt.
Proof.
  split; [exact posix_cfg_linux|]. split; [exact io_session|]. split; [apply io_limits|].
  split; [apply io_not_null; [vm_compute; reflexivity|right; exists (OSErr ENOENT); vm_compute; reflexivity]|].
  repeat (split; [vm_compute; reflexivity|]). split; [repeat constructor; try (intros K; discriminate K); intros K; cbn in K; repeat (destruct K as [K|K]; [discriminate K|]); exact K|].
  split; vm_compute; reflexivity.
Qed.
