(** * C84: os.path.getsize, getmtime, getatime and getctime against os.stat;
    Path.samefile. *)
From Verif Require Import SysModel FsSpec RealpathModel FsExtraModel ResThm GraphInv OpsThm TreeThm PropTree PropOps PropHist HistThm PropFd.

Lemma getx_ok (f : fobj -> Z) s p t : or_enoent (let* o := resolve s p true in Ok (f (ob s o))) = Ok t ->
  exists o, resolve s p true = Ok o /\ t = f (ob s o).
Proof.
  destruct (resolve s p true) as [o|[]]; cbn; intros K; try discriminate. injection K as <-. exists o. split; reflexivity.
Qed.

Lemma stat_resolves s p st : stat s (PStr p) true = Ok st -> exists o, resolve s p false = Ok o /\ st = stat_of s o /\
  raise_for_sep s p o true false = Ok tt.
Proof.
  unfold stat, stat_obj, resolve_arg, resolve_follow, resolve_any. fold (resolve s p false).
  destruct (resolve s p false) as [o|e]; cbn [rbind]; [|discriminate].
  destruct (if negb (is_root s) then _ else _) as [u|e]; cbn [rbind]; [|discriminate].
  destruct (raise_for_sep s p o true false) as [v|e] eqn:E; cbn [rbind]; [|discriminate].
  intros K. injection K as <-. exists o. destruct v. auto.
Qed.

(** What a getter returns is the field of the stat result, whoever asks. *)
Theorem C84_getters_agree_with_stat : forall c s, linux_like c -> reachable c s ->
  forall p st, stat s (PStr p) true = Ok st ->
  (forall n, getsize s p = Ok n -> n = ss_size st) /\
  (forall t, getmtime s p = Ok t -> t = ss_mtime st) /\
  (forall t, getatime s p = Ok t -> t = ss_atime st) /\
  (forall t, getctime s p = Ok t -> t = ss_ctime st).
Proof.
  intros c s Hc Hr p st E. destruct (reachable_GP c s Hc Hr) as [HG _].
  destruct (stat_resolves s p st E) as (o & Eo & -> & _).
  assert (X : forall o', resolve s p true = Ok o' -> o' = o).
  { intros o' K. apply (resolve_true_false s p o' (Ginv_good s HG)) in K. congruence. }
  repeat split.
  - intros n K. unfold getsize in K. destruct (resolve s p true) as [o'|] eqn:K2; cbn [rbind] in K; [|discriminate].
    destruct (_ && _); [discriminate|]. injection K as <-. rewrite (X o' eq_refl). reflexivity.
  - intros t K. apply getx_ok in K as (o' & K & ->). rewrite (X o' K). reflexivity.
  - intros t K. apply getx_ok in K as (o' & K & ->). rewrite (X o' K). reflexivity.
  - intros t K. apply getx_ok in K as (o' & K & ->). rewrite (X o' K). reflexivity.
Qed.
Print Assumptions C84_getters_agree_with_stat.

(** For root os.path.getsize is os.stat's size, errors included. *)
Theorem C84_root_getsize : forall s p, c_win (f_cfg s) = false -> is_root s = true ->
  getsize s p = (let* st := stat s (PStr p) true in Ok (ss_size st)).
Proof.
  intros s p Hw Hr. unfold getsize, stat, stat_obj, resolve_arg, resolve_follow, resolve_any. fold (resolve s p false).
  rewrite <- (resolve_root_check s p Hr). destruct (resolve s p true) as [o|e] eqn:E; cbn [rbind]; [|reflexivity].
  rewrite Hr. cbn [negb rbind]. unfold raise_for_sep, raise_for_sep_. fold (resolve s p true). rewrite E, Hw.
  rewrite andb_false_r. unfold S_ISDIR. cbn [negb orb].
  destruct (ends_with_path_separator (f_cfg s) p); cbn [andb rbind].
  - assert (X : (if c_mac (f_cfg s) then o else o) = o) by (destruct (c_mac _); reflexivity). rewrite X.
    destruct (S_ISLNK (o_mode (ob s o))); destruct (N.eqb (S_IFMT (o_mode (ob s o))) S_IFDIR); reflexivity.
  - reflexivity.
Qed.
Print Assumptions C84_root_getsize.

(** For root the times are there whenever os.stat succeeds ... *)
Theorem C84_root_times : forall s p st, is_root s = true -> stat s (PStr p) true = Ok st ->
  getmtime s p = Ok (ss_mtime st) /\ getatime s p = Ok (ss_atime st) /\ getctime s p = Ok (ss_ctime st).
Proof.
  intros s p st Hr E. destruct (stat_resolves s p st E) as (o & Eo & -> & _). rewrite <- (resolve_root_check s p Hr) in Eo.
  unfold getmtime, getatime, getctime. rewrite Eo. repeat split.
Qed.
Print Assumptions C84_root_times.

(** ... and a path without a trailing separator that os.stat refuses has no
    times: the error is always ENOENT. *)
Theorem C84_root_no_times : forall s p e, is_root s = true -> ends_with_path_separator (f_cfg s) p = false ->
  stat s (PStr p) true = Err (OSErr e) ->
  getmtime s p = Err (OSErr ENOENT) /\ getatime s p = Err (OSErr ENOENT) /\ getctime s p = Err (OSErr ENOENT).
Proof.
  intros s p e Hr Hs E. unfold stat, stat_obj, resolve_arg, resolve_follow, resolve_any in E. fold (resolve s p false) in E.
  rewrite <- (resolve_root_check s p Hr), Hr in E. unfold getmtime, getatime, getctime.
  destruct (resolve s p true) as [o|e'] eqn:Eo; cbn [rbind negb] in E.
  - exfalso. unfold raise_for_sep, raise_for_sep_ in E. rewrite Hs in E. discriminate.
  - injection E as ->. repeat split.
Qed.
Print Assumptions C84_root_no_times.

(** No other exception than FileNotFoundError comes out of the three time
    getters, and os.path.getsize raises OSError only. *)
Theorem C84_errors : forall c s, linux_like c -> proper_history True c s -> forall p,
  only_os (getsize s p) /\
  (forall e, getmtime s p = Err e -> e = OSErr ENOENT) /\
  (forall e, getatime s p = Err e -> e = OSErr ENOENT) /\
  (forall e, getctime s p = Err e -> e = OSErr ENOENT).
Proof.
  intros c s Hc HH p. destruct (C59_lookups_raise_only_oserror c s Hc HH p true true 0%N) as (_ & K & _).
  unfold resolve_follow, resolve_any in K. fold (resolve s p true) in K.
  unfold getsize, getmtime, getatime, getctime. destruct (resolve s p true) as [o|e]; cbn [rbind or_enoent].
  - repeat split; try (intros e0 K2; discriminate). destruct (_ && _); [right; eexists; reflexivity|left; eexists; reflexivity].
  - destruct K as [[x K]|[e' K]]; [discriminate|]. injection K as ->. cbn [or_enoent].
    repeat split; try (intros e0 K2; injection K2 as <-; reflexivity). right. eexists. reflexivity.
Qed.
Print Assumptions C84_errors.

(** Path.samefile is os.path.samefile (C15): the same object or not. *)
Theorem C84_samefile : forall c s, linux_like c -> reachable c s -> forall p q,
  plib_samefile s p q = samefile s p q /\
  forall b, plib_samefile s p q = Ok b ->
  exists x y, resolve s p false = Ok x /\ resolve s q false = Ok y /\ (b = true <-> x = y).
Proof.
  intros c s Hc Hr p q. split; [reflexivity|]. intros b. apply (samefile_object c s Hc Hr p q b).
Qed.
Print Assumptions C84_samefile.

(** A file with contents, a link to it, a directory, a loop, a file that only
    root may read (created at different times). *)
Definition c84_ops : list op :=
  [CreateFile (L "/f") 33206 (Some (L "hello")) None false false; Tick 5%Z; CreateDir (L "/d") 511;
   CreateSymlink (L "/d/l") (L "../f") false; Utime (PStr (L "/f")) None (Some [3%Z; 4%Z]) true;
   CreateSymlink (L "/a") (L "/b") false; CreateSymlink (L "/b") (L "/a") false;
   CreateFile (L "/w") 32896 (Some (L "secret")) None false false].
Definition c84_state (uid : Z) : fs := run fd_init (c84_ops ++ [SetUid uid]).
Lemma c84_reachable uid : reachable posix_cfg (c84_state uid).
Proof. exists None, 18%N, 0%Z, 0%Z, 0%Z, (c84_ops ++ [SetUid uid]). reflexivity. Qed.

Definition stat_times (r : res stat_result) : res (Z * Z * Z * Z) :=
  let* st := r in Ok (ss_size st, ss_mtime st, ss_atime st, ss_ctime st).
Example C84_case :
  stat_times (stat (c84_state 0) (PStr (L "/d/l")) true) = Ok (5, 4, 3, 0)%Z /\
  getsize (c84_state 1000) (L "/d/l") = Ok 5%Z /\ getmtime (c84_state 1000) (L "/d/l") = Ok 4%Z /\
  getatime (c84_state 1000) (L "/d/l") = Ok 3%Z /\ getctime (c84_state 1000) (L "/d/l") = Ok 0%Z /\
  getctime (c84_state 0) (L "/d") = Ok 5%Z /\ getsize (c84_state 0) (L "/f/") = Err (OSErr ENOTDIR) /\
  getmtime (c84_state 0) (L "/zz") = Err (OSErr ENOENT) /\ plib_samefile (c84_state 0) (L "/d/l") (L "/f") = Ok true.
Proof. repeat split; vm_compute; reflexivity. Qed.

(** finding: os.stat needs no permission for the file itself, the getters
    refuse a file that the user may not read, and the times say it is missing *)
Theorem C84_unreadable_refuted : reachable posix_cfg (c84_state 1000) /\ is_root (c84_state 1000) = false /\
  stat_times (stat (c84_state 1000) (PStr (L "/w")) true) = Ok (6, 5, 5, 5)%Z /\
  getsize (c84_state 1000) (L "/w") = Err (OSErr EACCES) /\ getmtime (c84_state 1000) (L "/w") = Err (OSErr ENOENT) /\
  exists_ (c84_state 1000) (L "/w") false = Ok true.
Proof. split; [apply c84_reachable|]. repeat split; vm_compute; reflexivity. Qed.
Print Assumptions C84_unreadable_refuted.

(** finding: a loop of links is reported as a missing file *)
Theorem C84_loop_refuted : reachable posix_cfg (c84_state 0) /\
  stat (c84_state 0) (PStr (L "/a")) true = Err (OSErr ELOOP) /\ getsize (c84_state 0) (L "/a") = Err (OSErr ELOOP) /\
  getmtime (c84_state 0) (L "/a") = Err (OSErr ENOENT).
Proof. split; [apply c84_reachable|]. repeat split; vm_compute; reflexivity. Qed.
Print Assumptions C84_loop_refuted.

(** finding: the times ignore a trailing separator *)
Theorem C84_separator_refuted : reachable posix_cfg (c84_state 0) /\
  stat (c84_state 0) (PStr (L "/f/")) true = Err (OSErr ENOTDIR) /\ getmtime (c84_state 0) (L "/f/") = Ok 4%Z.
Proof. split; [apply c84_reachable|]. repeat split; vm_compute; reflexivity. Qed.
Print Assumptions C84_separator_refuted.
