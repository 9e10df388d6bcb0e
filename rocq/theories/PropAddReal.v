(** * Property C73: fs.add_real_file.

    [rstat] and [data] are what os.stat and reading say about the real file.
    [parents s s1 pre] (PropMake.v): [s1] is [s] with the missing directories of
    the path made.  The other words are in FsSpec.v. *)
From Verif Require Import SysModel FsSpec OpsThm6 PropTree PropOps PropMake AddRealModel AddRealThm.

Theorem C73_add_real_file_partial : forall c s, linux_like c -> reachable c s -> within_limits s -> c_sep c = slash ->
  forall p st data read_only o s', add_real_file p st data read_only s = (Ok o, s') ->
  exists s1 pre n d, names_of s p (pre ++ [n]) /\
    (* the missing directories, then one new file, and nothing else *)
    parents s s1 pre /\ resolve s1 (abs_path (sepc s) pre) true = Ok d /\ one_more s1 s' d n o /\ still_there s s' /\
    (* its bytes and attributes are those of the real file *)
    o_body (ob s' o) = BFile (Some data) /\
    ss_size (stat_of s' o) = r_size st /\ ss_uid (stat_of s' o) = r_uid st /\ ss_gid (stat_of s' o) = r_gid st /\
    ss_atime (stat_of s' o) = r_atime st /\ ss_mtime (stat_of s' o) = r_mtime st /\ ss_ctime (stat_of s' o) = r_ctime st /\
    ss_nlink (stat_of s' o) = 1%Z /\
    (* read_only takes away the write and execute bits, and nothing else *)
    (read_only = false -> ss_mode (stat_of s' o) = r_mode st) /\
    (read_only = true -> N.land (ss_mode (stat_of s' o)) 219 = 0%N /\
       N.land (ss_mode (stat_of s' o)) 261924 = N.land (r_mode st) 261924) /\
    (* the space it takes is counted *)
    f_mounts s' = add_used (f_mounts s) (o_dev (ob s1 d)) (r_size st) /\
    (* the path leads to it *)
    (is_link s' o = false -> ~ null_clash s1 d n -> resolve s' (abs_path (sepc s) (pre ++ [n])) false = Ok o).
Proof.
  intros c s Hl Hr W Hs p st data ro o s' E. destruct (reachable_GP c s Hl Hr) as [H _].
  assert (Hsp : sepc s = slash) by (rewrite (reachable_cfg c s Hr); exact Hs).
  pose proof (wp_elim _ _ _ _ _ (wp_add_real_file s p st data ro H W Hsp) E) as (H' & _ & K).
  destruct K as [(e & s1 & K & _)|(s1 & pre & n & d & o' & RF & [(K & _)|(K & Hms)])]; [discriminate|discriminate|]. injection K as <-.
  destruct RF as [A1 A2 A3 A4 A5 A6 A7 A8 A9 A10 ra_mode0 A12 ra_size0 ra_ids0 ra_times0 A16 A17 A18 A19].
  destruct ra_ids0 as [I1 I2]. destruct ra_times0 as (T1 & T2 & T3).
  exists s1, pre, n, d. do 6 (split; [assumption|]).
  split; [cbn [stat_of ss_size]; unfold st_size; rewrite (Ginv_win s' H'); exact ra_size0|].
  do 6 (split; [cbn [stat_of ss_uid ss_gid ss_atime ss_mtime ss_ctime ss_nlink]; assumption|]).
  cbn [stat_of ss_mode]. split; [intros ->; exact ra_mode0|]. split.
  { intros ->. rewrite ra_mode0. rewrite <- !N.land_assoc. split; [change (N.land 261924 219) with 0%N; apply N.land_0_r|].
    rewrite N.land_diag. reflexivity. }
  split; assumption.
Qed.
Print Assumptions C73_add_real_file_partial.

(** if it raises and there was space for the file, at most directories were made *)
Theorem C73_failed_partial : forall c s, linux_like c -> reachable c s -> within_limits s -> c_sep c = slash ->
  (forall k m, In (k, m) (f_mounts s) -> m_total m = None) ->
  forall p st data read_only e s', (0 <= r_size st)%Z -> add_real_file p st data read_only s = (Err e, s') ->
  exists s1, (unseen s s1 \/ exists pre, parents s s1 pre) /\ unseen s1 s'.
Proof.
  intros c s Hl Hr W Hs HU p st data ro e s' Hz E. destruct (reachable_GP c s Hl Hr) as [H _].
  assert (Hsp : sepc s = slash) by (rewrite (reachable_cfg c s Hr); exact Hs).
  pose proof (wp_elim _ _ _ _ _ (wp_add_real_file s p st data ro H W Hsp) E) as (H' & _ & K).
  destruct K as [(e' & s1 & K & K1)|(s1 & pre & n & d & o' & RF & [(K & [K2|(m & t & Em & Et & _)] & _)|(K & _)])]; [eauto|lia| |discriminate].
  exfalso. apply mount_for_dev_in in Em. destruct Em as (k & Hk & _).
  assert (K3 : f_mounts s1 = f_mounts s).
  { destruct (ra_par _ _ _ _ _ _ _ _ _ _ _ RF) as [->|(a & x & rest & y & _ & _ & DM & _)]; [reflexivity|]. rewrite (dm_rest _ _ _ _ _ DM). reflexivity. }
  rewrite K3 in Hk. rewrite (HU k m Hk) in Et. discriminate.
Qed.
Print Assumptions C73_failed_partial.

Definition c73_stat (size : Z) : rstat := mkrstat 33261 1000 1000 size 5 6 7.
Example C73_case : fst (add_real_file (L "/new/dir/f") (c73_stat 3) (L "abc") true tree_state) = Ok 8 /\ within_limits tree_state /\
  (let s' := snd (add_real_file (L "/new/dir/f") (c73_stat 3) (L "abc") true tree_state) in
   listdir s' (PStr (L "/new/dir")) = Ok [L "f"] /\ ss_mode (stat_of s' 8) = 33060%N).
Proof. split; [vm_compute; reflexivity|]. split; [exact tree_state_limits|]. cbv zeta. split; vm_compute; reflexivity. Qed.

(** on a full disk the call fails, but the file is there *)
Definition c73_ops : list op := [].
Definition c73_state : fs := run (init posix_cfg (Some 2%Z) 18 0 0 0) c73_ops.
Theorem C73_full_disk_refuted : exists s, reachable posix_cfg s /\ within_limits s /\
  fst (add_real_file (L "/f") (c73_stat 3) (L "abc") true s) = os_err ENOSPC /\
  listdir s (PStr (L "/")) = Ok [] /\
  listdir (snd (add_real_file (L "/f") (c73_stat 3) (L "abc") true s)) (PStr (L "/")) = Ok [L "f"].
Proof.
  exists c73_state. split; [exists (Some 2%Z), 18%N, 0%Z, 0%Z, 0%Z, c73_ops; reflexivity|]. split.
  { intros k m t Hin Ht. assert (E : f_mounts c73_state = [([slash], {| m_idev := 1; m_total := Some 2%Z; m_used := 0 |})]) by (vm_compute; reflexivity).
    rewrite E in Hin. destruct Hin as [K|[]]. injection K as <- <-. injection Ht as <-. cbn. lia. }
  split; [vm_compute; reflexivity|]. split; vm_compute; reflexivity.
Qed.

(** with another path separator the file gets the whole path as its name *)
Definition bang_cfg : cfg := mkcfg false false true "!"%char None.
Theorem C73_separator_refuted : exists s, reachable bang_cfg s /\
  fst (add_real_file (L "!d!f") (c73_stat 3) (L "abc") true s) = Ok 3 /\
  listdir (snd (add_real_file (L "!d!f") (c73_stat 3) (L "abc") true s)) (PStr (L "!d")) = Ok [L "!d!f"].
Proof.
  exists (init bang_cfg None 18 0 0 0). split; [exists None, 18%N, 0%Z, 0%Z, 0%Z, []; reflexivity|]. split; vm_compute; reflexivity.
Qed.

(** a real file that is truncated before its contents were asked for keeps them *)
Theorem C73_truncate_refuted : exists data n f, f = rf_set_size (rf_new data) n /\ rf_size f = n /\ (0 <= n < Z.of_nat (length data))%Z /\
  fst (rf_contents f) = Some data.
Proof. exists (L "abcdef"), 3%Z, (rf_set_size (rf_new (L "abcdef")) 3). split; [reflexivity|]. split; [reflexivity|]. split; [cbn; lia|reflexivity]. Qed.
(** otherwise reading late makes no difference: once it was read, it behaves as
    the bytes it had *)
Theorem C73_read_late : forall data n, (0 <= n)%Z -> data <> [] ->
  fst (rf_contents (rf_set_size (snd (rf_contents (rf_new data))) n)) = Some (resize data (Z.of_nat (length data)) n) /\
  fst (rf_contents (rf_new data)) = Some data.
Proof. intros data n Hn Hd. destruct data as [|x data]; [contradiction|]. split; reflexivity. Qed.
Print Assumptions C73_read_late.
