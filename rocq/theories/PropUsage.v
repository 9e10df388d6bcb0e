(** * C35: disk usage is the sum of the file sizes. *)
From Verif Require Import Str PathModel PathSpec FsModel FsSpec OpsModel IoModel SysModel UsageSpec.
From Verif Require Import Wp IoFrame ResProofs ResProofs2 GraphInv GraphIo MountThm UsageThm.
Open Scope Z_scope.

(** After every history of tidy calls (UsageSpec) each mount point has in use
    what the files of its device take.  Missing for the full property: the
    calls that are not tidy, see the refutations below. *)
Theorem C35_used_partial : forall c total um uid gid now ops, linux_like c ->
  let s0 := init c total um uid gid now in
  all_tidy s0 ops ->
  forall k m, In (k, m) (f_mounts (run s0 ops)) -> m_used m = file_sizes (run s0 ops) (m_idev m).
Proof.
  intros c total um uid gid now ops L s0 T k m Hin.
  assert (U : exact_usage (run s0 ops)) by (apply usage_run; [apply Ginv_init, L|exact T|apply init_usage, L]).
  pose proof (us_bal _ _ U k m Hin) as E. cbv beta in E. rewrite Z.add_0_r in E. exact E.
Qed.
Print Assumptions C35_used_partial.

(** What the user sees: the second number that get_disk_usage returns for a
    path on a disk with a size. *)
Theorem C35_get_disk_usage_partial : forall c total um uid gid now ops, linux_like c -> c_sep c = slash ->
  let s0 := init c total um uid gid now in let s := run s0 ops in
  all_tidy s0 ops ->
  forall p names, p <> [] -> names_of s p names ->
  exists k m, In (k, m) (f_mounts s) /\ starts_with k (abs_path slash names) = true /\
    (forall t, m_total m = Some t ->
       get_disk_usage (Some p) s = (Ok (t, file_sizes s (m_idev m), t - file_sizes s (m_idev m)), s)).
Proof.
  intros c total um uid gid now ops L Hs s0 s T p names Hp Hn.
  assert (R : reachable c s) by (exists total, um, uid, gid, now, ops; reflexivity).
  assert (G : Ginv s) by (apply (reachable_Ginv c s L R)).
  destruct (mount_found s p names G (keys_reachable c s L R) Hp Hn) as (k & m & E1 & E2 & E3 & _).
  assert (Es : sepc s = slash) by (unfold sepc; rewrite (reachable_cfg c s R); exact Hs).
  exists k, m. split; [apply assoc_In, E2|]. split.
  - destruct E3 as [->|[_ E3]]; [|rewrite <- Es; exact E3]. rewrite Es. apply starts_with_spec. exists []. rewrite app_nil_r. reflexivity.
  - intros t Et. unfold get_disk_usage. unfold bind at 1. rewrite E1. unfold bind, gets, ret. rewrite E2. unfold disk_usage_of. rewrite Et.
    pose proof (C35_used_partial c total um uid gid now ops L T k m (assoc_In _ _ _ E2)) as K. fold s0 s in K. rewrite K. reflexivity.
Qed.
Print Assumptions C35_get_disk_usage_partial.

(** Deleting everything: when no file with a name is left on the device, nothing is in use. *)
Theorem C35_all_deleted_partial : forall c total um uid gid now ops, linux_like c ->
  let s0 := init c total um uid gid now in
  all_tidy s0 ops ->
  forall k m, In (k, m) (f_mounts (run s0 ops)) -> dev_empty (run s0 ops) (m_idev m) -> m_used m = 0.
Proof.
  intros c total um uid gid now ops L s0 T k m Hin De.
  rewrite (C35_used_partial c total um uid gid now ops L T k m Hin). fold s0. unfold file_sizes.
  rewrite (sumz_ext _ _ (fun _ => 0)); [apply sumz_zero|]. intros x Hx. unfold weight.
  destruct (is_dirobj (run s0 ops) x) eqn:Dx; [reflexivity|]. destruct (Z.ltb_spec 0 (o_nlink (ob (run s0 ops) x))) as [Hl|Hl]; [|reflexivity].
  destruct (opt_nat_eqb (Some (m_idev m)) (o_dev (ob (run s0 ops) x))) eqn:E; [|reflexivity].
  exfalso. apply (De x Hx Dx Hl). apply opt_nat_eqb_eq, E.
Qed.
Print Assumptions C35_all_deleted_partial.

(** A tidy history: two disks, files, a link, a rename, a file written through
    a handle, a removal and a truncation. *)
Definition c35_ops : list op :=
  [CreateDir (L "/d") 511; CreateFile (L "/d/f") 33206 (Some (L "12345")) None true false; Link (L "/d/f") (L "/g");
   AddMount (L "/m") (Some 50); CreateFile (L "/m/x") 33206 (Some (L "123")) None true false;
   Open (PStr (L "/m/y")) (L "wb") (-1) true; HWrite 3%nat (L "1234567"); HClose 3%nat;
   Rename (L "/d") (L "/e") false; Remove (L "/g"); Truncate (PStr (L "/e/f")) 2; Remove (L "/m/x")].
Definition c35_state : fs := run (init posix_cfg (Some 100) 18 0 0 0) c35_ops.
(** decision of [once] and [devs_kept] *)
Fixpoint all_below (n : nat) (f : nat -> bool) : bool := match n with O => true | S k => all_below k f && f k end.
Lemma all_below_spec n f : all_below n f = true -> forall x, (x < n)%nat -> f x = true.
Proof.
  induction n as [|n IH]; intros H x Hx; [lia|]. cbn in H. apply Bool.andb_true_iff in H. destruct H as [H1 H2].
  destruct (Nat.eq_dec x n) as [->|]; [exact H2|]. apply IH; [exact H1|lia].
Qed.
Definition onceb (s s' : fs) : bool := all_below (f_next s) (fun o =>
  Nat.eqb (o_epoch (ob s' o)) (o_epoch (ob s o)) || (Nat.eqb (o_epoch (ob s' o)) (S (o_epoch (ob s o))) && (0 <? o_nlink (ob s o)))).
Lemma onceb_ok s s' : onceb s s' = true -> once s s'.
Proof.
  intros H o Ho. pose proof (all_below_spec _ _ H o Ho) as K. cbv beta in K. apply Bool.orb_true_iff in K. destruct K as [K|K].
  - left. apply Nat.eqb_eq, K.
  - right. apply Bool.andb_true_iff in K. destruct K as [K1 K2]. split; [apply Nat.eqb_eq, K1|apply Z.ltb_lt, K2].
Qed.
Definition same_dev (a b : option nat) : bool := match a, b with Some x, Some y => Nat.eqb x y | None, None => true | _, _ => false end.
Definition devsb (s s' : fs) : bool := all_below (f_next s) (fun o => is_dirobj s o || negb (0 <? o_nlink (ob s o)) || same_dev (o_dev (ob s' o)) (o_dev (ob s o))).
Lemma devsb_ok s s' : devsb s s' = true -> devs_kept s s'.
Proof.
  intros H o Ho Hd Hl. pose proof (all_below_spec _ _ H o Ho) as K. cbv beta in K. rewrite Hd in K. assert (E : (0 <? o_nlink (ob s o)) = true) by (apply Z.ltb_lt, Hl).
  rewrite E in K. cbn in K. unfold same_dev in K. destruct (o_dev (ob s' o)), (o_dev (ob s o)); try discriminate; [apply Nat.eqb_eq in K; congruence|reflexivity].
Qed.
Definition emptyb (s : fs) (d : nat) : bool := all_below (f_next s) (fun o => is_dirobj s o || negb (0 <? o_nlink (ob s o)) || negb (same_dev (o_dev (ob s o)) (Some d))).
Lemma emptyb_ok s d : emptyb s d = true -> dev_empty s d.
Proof.
  intros H o Ho Hd Hl K. pose proof (all_below_spec _ _ H o Ho) as X. cbv beta in X. rewrite Hd, K in X. assert (E : (0 <? o_nlink (ob s o)) = true) by (apply Z.ltb_lt, Hl).
  rewrite E in X. cbn in X. rewrite Nat.eqb_refl in X. discriminate.
Qed.
Definition is_nospc (r : res out) : bool := match r with Err (OSErr ENOSPC) => true | _ => false end.
Lemma is_nospc_ok r : is_nospc r = false -> r <> os_err ENOSPC.
Proof. intros H ->. discriminate. Qed.
Definition tidyb (o : op) (s : fs) : bool :=
  let r := fst (step o s) in let s' := snd (step o s) in
  match o with
  | Link _ _ | Rename _ _ _ => negb (is_nospc r) && devsb s s'
  | CreateLink _ _ _ missing => negb missing && negb (is_nospc r) && devsb s s'
  | AddMount _ _ => emptyb s' (f_dev s')
  | Truncate _ _ | Ftruncate _ _ | SetContents _ _
  | Open _ _ _ _ | OsOpen _ _ _ _ | OsClose _ | OsRead _ _ | OsWrite _ _ | OsPipe
  | HRead _ _ | HWrite _ _ | HSeek _ _ _ | HTell _ | HTruncate _ _ | HFlush _ | HClose _ => onceb s s'
  | _ => true
  end.
Lemma tidyb_ok o s : tidyb o s = true -> tidy o s.
Proof.
  unfold tidyb, tidy. cbv zeta.
  destruct o; intros H; try exact Logic.I; try (apply onceb_ok, H); try (apply Bool.andb_true_iff in H; destruct H as [H1 H2]).
  - apply Bool.andb_true_iff in H1. destruct H1 as [H0 H1]. apply Bool.negb_true_iff in H0, H1. split; [exact H0|]. split; [apply is_nospc_ok, H1|apply devsb_ok, H2].
  - apply Bool.negb_true_iff in H1. split; [apply is_nospc_ok, H1|apply devsb_ok, H2].
  - apply Bool.negb_true_iff in H1. split; [apply is_nospc_ok, H1|apply devsb_ok, H2].
  - intros _ _. apply emptyb_ok, H.
Qed.
Fixpoint all_tidyb (s : fs) (ops : list op) : bool :=
  match ops with [] => true | o :: l => tidyb o s && all_tidyb (snd (step o s)) l end.
Lemma all_tidyb_ok ops : forall s, all_tidyb s ops = true -> all_tidy s ops.
Proof.
  induction ops as [|o l IH]; intros s H; [exact Logic.I|]. cbn in H. apply Bool.andb_true_iff in H. destruct H as [H1 H2]. split; [apply tidyb_ok, H1|apply IH, H2].
Qed.
Example C35_case_tidy : all_tidy (init posix_cfg (Some 100) 18 0 0 0) c35_ops.
Proof. apply all_tidyb_ok. vm_compute. reflexivity. Qed.
(** ... at the end of which 2 bytes are in use on one disk and 7 on the other *)
Example C35_case_result : forallb (fun r => match r with Ok _ => true | Err _ => false end) (outs (init posix_cfg (Some 100) 18 0 0 0) c35_ops) = true /\
  fst (step (GetDiskUsage (Some (L "/e"))) c35_state) = Ok (RUsage (100, 2, 98)) /\
  fst (step (GetDiskUsage (Some (L "/m/y"))) c35_state) = Ok (RUsage (50, 7, 43)) /\
  file_sizes c35_state 1 = 2 /\ file_sizes c35_state 2 = 7.
Proof. split; [|split; [|split; [|split]]]; vm_compute; reflexivity. Qed.
Example C35_deleted_case : all_tidy (init posix_cfg (Some 100) 18 0 0 0) (c35_ops ++ [RemoveObject (L "/e"); Remove (L "/m/y")]) /\
  fst (step (GetDiskUsage (Some (L "/"))) (run (init posix_cfg (Some 100) 18 0 0 0) (c35_ops ++ [RemoveObject (L "/e"); Remove (L "/m/y")]))) = Ok (RUsage (100, 0, 100)).
Proof. split; [apply all_tidyb_ok|]; vm_compute; reflexivity. Qed.

(** The full property fails.  Replacing contents that are not empty frees the
    old size twice: *)
Definition c35_over : list op := [CreateFile (L "/f") 33206 (Some (L "12345")) None true false; SetContents (L "/f") (L "1")].
Theorem C35_overwrite_refuted : exists ops, let s := run (init posix_cfg (Some 100) 18 0 0 0) ops in
  file_sizes s 1 = 1 /\ fst (step (GetDiskUsage (Some (L "/"))) s) = Ok (RUsage (100, -4, 104)).
Proof. exists c35_over. split; vm_compute; reflexivity. Qed.
Print Assumptions C35_overwrite_refuted.
(** the same through open, write, flush and close *)
Theorem C35_flush_refuted : exists ops, let s := run (init posix_cfg (Some 100) 18 0 0 0) ops in
  file_sizes s 1 = 5 /\ fst (step (GetDiskUsage (Some (L "/"))) s) = Ok (RUsage (100, 0, 100)).
Proof.
  exists [Open (PStr (L "/f")) (L "wb") (-1) true; HWrite 3%nat (L "12345"); HFlush 3%nat; HClose 3%nat]. split; vm_compute; reflexivity.
Qed.
Print Assumptions C35_flush_refuted.
(** A file that has no name any more is resized: *)
Theorem C35_unlinked_refuted : exists ops, let s := run (init posix_cfg (Some 100) 18 0 0 0) ops in
  file_sizes s 1 = 0 /\ fst (step (GetDiskUsage (Some (L "/"))) s) = Ok (RUsage (100, -3, 103)).
Proof.
  exists [CreateFile (L "/f") 33206 (Some (L "12345")) None true false; Open (PStr (L "/f")) (L "r+b") (-1) true; Remove (L "/f"); Ftruncate 3 2].
  split; vm_compute; reflexivity.
Qed.
Print Assumptions C35_unlinked_refuted.
(** A hard link on another disk takes the file along, but not its size: *)
Theorem C35_link_refuted : exists ops, let s := run (init posix_cfg (Some 100) 18 0 0 0) ops in
  file_sizes s 1 = 0 /\ fst (step (GetDiskUsage (Some (L "/"))) s) = Ok (RUsage (100, 5, 95)) /\
  file_sizes s 2 = 5 /\ fst (step (GetDiskUsage (Some (L "/m"))) s) = Ok (RUsage (50, 0, 50)).
Proof.
  exists [CreateFile (L "/f") 33206 (Some (L "12345")) None true false; AddMount (L "/m") (Some 50); Link (L "/f") (L "/m/g")].
  split; [|split; [|split]]; vm_compute; reflexivity.
Qed.
Print Assumptions C35_link_refuted.
