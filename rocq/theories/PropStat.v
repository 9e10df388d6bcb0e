(** * C75: the result of os.stat *)
From Coq Require Import ZArith QArith Qabs Qpower Lqa Lia List Bool.
From Verif Require Import FsModel StatModel FloatThm.
Open Scope Z_scope.

(** Specification: [FloatThm.double] are the binary64 numbers, [nearest] says
    which of them is the result of an operation ([rnd_nearest]: [rnd] gives it). *)
Definition giga : Z := 1000000000.
(** the index of a time in the tuple *)
Definition index (w : which) : Z := match w with Atime => 7 | Mtime => 8 | Ctime => 9 end.
(** A Python number with the value [t] *)
Definition is_number (v : pynum) (t : Z) : Prop := v = PInt t \/ exists q, v = PFloat q /\ (q == inject_Z t)%Q.
(** A value read from a stat result that is [t], as int or as float *)
Definition reads_as (v : pyval) (t : Z) : Prop := v = VInt t \/ exists q, v = VFloat q /\ (q == inject_Z t)%Q.

Lemma double_whole t : Z.abs t < 2 ^ 53 -> double (inject_Z t).
Proof. intros H. exists t, 0. split; [exact H|]. split; [lia|]. change (2 ^ 0)%Q with 1%Q. ring. Qed.
Lemma double_giga t : Z.abs t <= 4611686018 -> double (inject_Z (t * giga)).
Proof.
  intros H. exists (t * 1953125), 9. split; [lia|]. split; [lia|].
  unfold giga. change (2 ^ 9)%Q with (inject_Z 512). rewrite <- inject_Z_mult.
  replace (t * 1953125 * 512) with (t * 1000000000) by lia. reflexivity.
Qed.
Lemma small_lt (q : Q) : (Qabs q <= inject_Z (2 ^ 100) -> Qabs q < 2 ^ 1023)%Q.
Proof. intros H. eapply Qle_lt_trans; [exact H|]. reflexivity. Qed.
Lemma rnd_exact q : (Qabs q <= inject_Z (2 ^ 100))%Q -> double q -> (rnd q == q)%Q.
Proof. intros H D. apply (nearest_exact q); [apply rnd_nearest, small_lt, H|exact D]. Qed.
Lemma abs_Z_le z b : Z.abs z <= b -> (Qabs (inject_Z z) <= inject_Z b)%Q.
Proof. intros H. rewrite <- inj_abs. apply inj_le, H. Qed.
Lemma giga_div t : (inject_Z (t * giga) / inject_Z giga == inject_Z t)%Q.
Proof. rewrite inject_Z_mult. field. discriminate. Qed.

Lemma rnd_wd a b : (a == b)%Q -> (Qabs a <= inject_Z (2 ^ 100))%Q -> double a -> (rnd b == a)%Q.
Proof. intros E H D. rewrite E. apply rnd_exact; [rewrite <- E; exact H|exact (double_eq _ _ E D)]. Qed.

Lemma seconds_whole t : Z.abs t <= 4611686018 -> (seconds (t * giga) == inject_Z t)%Q.
Proof.
  intros H. unfold seconds. fold giga.
  assert (E : (rnd (inject_Z (t * giga)) == inject_Z (t * giga))%Q).
  { apply rnd_exact; [|apply double_giga, H]. apply abs_Z_le. unfold giga. lia. }
  apply rnd_wd.
  - rewrite E. symmetry. apply giga_div.
  - apply abs_Z_le. lia.
  - apply double_whole. lia.
Qed.
Lemma ns_of_whole v t : Z.abs t <= 4611686018 -> is_number v t -> ns_of v = t * giga.
Proof.
  intros H V. unfold ns_of. rewrite <- (trunc_Z (t * giga)). apply trunc_eq. fold giga.
  assert (F : (to_float v == inject_Z t)%Q).
  { destruct V as [->|(q & -> & E)]; [|exact E]. apply rnd_exact; [apply abs_Z_le; lia|apply double_whole; lia]. }
  apply rnd_wd; [rewrite F, inject_Z_mult; reflexivity|apply abs_Z_le; unfold giga; lia|apply double_giga, H].
Qed.

(** Whole seconds up to the year 2116 are kept exactly. *)
Theorem C75_whole_seconds st w v t cls : Z.abs t <= 4611686018 -> is_number v t ->
  let st' := set_time st w v in
  time_ns st' w = t * 1000000000 /\ reads_as (get_time cls st' w) t /\ getitem cls st' (index w) = Some t /\
  (forall w', w' <> w -> time_ns st' w' = time_ns st w').
Proof.
  intros H V. cbv zeta. pose proof (ns_of_whole v t H V) as E. pose proof (seconds_whole t H) as S.
  assert (T : time_ns (set_time st w v) w = t * giga) by (destruct w; exact E).
  split; [exact T|]. unfold get_time. rewrite T.
  assert (I : trunc (seconds (t * giga)) = t) by (rewrite (trunc_eq _ _ S); apply trunc_Z).
  split. { destruct (use_float cls (set_time st w v)); [right; eexists; split; [reflexivity|exact S]|left; rewrite I; reflexivity]. }
  split.
  - assert (G : int_of (get_time cls (set_time st w v) w) = t).
    { unfold get_time. rewrite T. destruct (use_float cls (set_time st w v)); exact I. }
    destruct w; cbn [index]; unfold getitem; cbn [Z.eqb Pos.eqb]; rewrite G; reflexivity.
  - intros w' D. destruct w, w'; try reflexivity; exfalso; apply D; reflexivity.
Qed.
Print Assumptions C75_whole_seconds.

(** What is read as a float is the time to within 1.5 microseconds, up to the year 2262. *)
Lemma seconds_close ns : Z.abs ns <= 2 ^ 63 -> (Qabs (seconds ns - inject_Z ns / inject_Z giga) <= 15 # 10000000)%Q /\ double (seconds ns).
Proof.
  intros H. unfold seconds. fold giga. set (n := rnd (inject_Z ns)).
  assert (N1 : nearest (inject_Z ns) n).
  { apply rnd_nearest, small_lt. apply abs_Z_le. eapply Z.le_trans; [exact H|]. discriminate. }
  assert (C1 : (Qabs (inject_Z ns - n) <= 2 ^ (10 - 1))%Q).
  { apply nearest_close; [exact N1|lia|]. change (inject_Z (2 ^ 53) * 2 ^ 10)%Q with (inject_Z (2 ^ 63)). apply abs_Z_le, H. }
  assert (B1 : (Qabs n <= inject_Z (2 ^ 63))%Q).
  { assert (D : double (inject_Z (2 ^ 63))) by (exists 1, 63; split; [reflexivity|]; split; [lia|reflexivity]).
    apply Z.abs_le in H. destruct H as [H1 H2]. apply inj_le in H1, H2. rewrite inject_Z_opp in H1.
    apply Qabs_Qle_condition. split.
    - apply (nearest_above _ _ _ N1 (double_opp _ D) H1).
    - apply (nearest_below _ _ _ N1 D H2). }
  assert (B2 : (Qabs (n / inject_Z giga) <= inject_Z (2 ^ 53) * 2 ^ (-19))%Q).
  { apply Qabs_Qle_condition in B1. change (inject_Z (2 ^ 53) * 2 ^ (-19))%Q with (2 ^ 53 # 524288)%Q.
    apply Qabs_Qle_condition. change (inject_Z (2 ^ 63)) with (9223372036854775808 # 1)%Q in B1.
    setoid_replace (n / inject_Z giga)%Q with (n * (1 # 1000000000))%Q by (unfold Qdiv; reflexivity).
    change (2 ^ 53 # 524288)%Q with (9007199254740992 # 524288)%Q. lra. }
  assert (N2 : nearest (n / inject_Z giga) (rnd (n / inject_Z giga))).
  { apply rnd_nearest, small_lt. eapply Qle_trans; [exact B2|]. discriminate. }
  pose proof (nearest_close _ _ (-19) N2 ltac:(lia) B2) as C2.
  split; [|exact (proj1 N2)].
  set (f := rnd (n / inject_Z giga)) in *. clearbody f n.
  setoid_replace (n / inject_Z giga)%Q with (n * (1 # 1000000000))%Q in C2 by (unfold Qdiv; reflexivity).
  setoid_replace (inject_Z ns / inject_Z giga)%Q with (inject_Z ns * (1 # 1000000000))%Q by (unfold Qdiv; reflexivity).
  change (2 ^ (10 - 1))%Q with (512 # 1)%Q in C1. change (2 ^ (-19 - 1))%Q with (1 # 1048576)%Q in C2.
  apply Qabs_Qle_condition in C1, C2. apply Qabs_Qle_condition. lra.
Qed.
Theorem C75_read_time cls st w : Z.abs (time_ns st w) <= 2 ^ 63 -> use_float cls st = true ->
  exists q, get_time cls st w = VFloat q /\ double q /\
    (Qabs (q - inject_Z (time_ns st w) / inject_Z 1000000000) <= 15 # 10000000)%Q.
Proof.
  intros H F. unfold get_time. rewrite F. eexists. split; [reflexivity|]. destruct (seconds_close _ H) as [A B]. split; [exact B|exact A].
Qed.
Print Assumptions C75_read_time.

(** Reading a time as an int, [st[7]] to [st[9]] or with int times, gives the
    whole seconds or one more... *)
Lemma seconds_floor ns : 0 <= ns < 4611686018 * giga ->
  (inject_Z (ns / giga) <= seconds ns)%Q /\ (seconds ns <= inject_Z (ns / giga + 1))%Q /\
  (Qabs (seconds ns - inject_Z ns / inject_Z giga) <= 733 # 1000000000)%Q.
Proof.
  intros H. set (t := ns / giga).
  assert (T : t * giga <= ns < (t + 1) * giga /\ 0 <= t < 4611686018).
  { unfold t. pose proof (Z.div_mod ns giga ltac:(discriminate)). pose proof (Z.mod_pos_bound ns giga eq_refl). unfold giga in *. lia. }
  unfold seconds. fold giga. set (n := rnd (inject_Z ns)).
  assert (N1 : nearest (inject_Z ns) n) by (apply rnd_nearest, small_lt, abs_Z_le; unfold giga in *; lia).
  assert (C1 : (Qabs (inject_Z ns - n) <= 2 ^ (9 - 1))%Q).
  { apply nearest_close; [exact N1|lia|]. change (inject_Z (2 ^ 53) * 2 ^ 9)%Q with (inject_Z (2 ^ 62)). apply abs_Z_le. unfold giga in *. lia. }
  assert (L1 : (inject_Z (t * giga) <= n)%Q) by (apply (nearest_above _ _ _ N1); [apply double_giga; lia|apply inj_le; lia]).
  assert (U1 : (n <= inject_Z ((t + 1) * giga))%Q) by (apply (nearest_below _ _ _ N1); [apply double_giga; lia|apply inj_le; lia]).
  assert (L2 : (inject_Z t <= n / inject_Z giga)%Q).
  { apply Qle_shift_div_l; [reflexivity|]. rewrite <- inject_Z_mult. exact L1. }
  assert (U2 : (n / inject_Z giga <= inject_Z (t + 1))%Q).
  { apply Qle_shift_div_r; [reflexivity|]. rewrite <- inject_Z_mult. exact U1. }
  assert (B2 : (Qabs (n / inject_Z giga) <= inject_Z (2 ^ 53) * 2 ^ (-20))%Q).
  { rewrite Qabs_pos; [|eapply Qle_trans; [apply (inj_le 0 t); lia|exact L2]].
    eapply Qle_trans; [exact U2|]. change (inject_Z (2 ^ 53) * 2 ^ (-20))%Q with (9007199254740992 # 1048576)%Q.
    apply (Qle_trans _ (inject_Z 4611686018)); [apply inj_le; lia|discriminate]. }
  assert (N2 : nearest (n / inject_Z giga) (rnd (n / inject_Z giga))).
  { apply rnd_nearest, small_lt. eapply Qle_trans; [exact B2|]. discriminate. }
  split; [apply (nearest_above _ _ _ N2); [apply double_whole; lia|exact L2]|].
  split; [apply (nearest_below _ _ _ N2); [apply double_whole; lia|exact U2]|].
  pose proof (nearest_close _ _ (-20) N2 ltac:(lia) B2) as C2.
  set (f := rnd (n / inject_Z giga)) in *. clearbody f n.
  setoid_replace (n / inject_Z giga)%Q with (n * (1 # 1000000000))%Q in C2 by (unfold Qdiv; reflexivity).
  setoid_replace (inject_Z ns / inject_Z giga)%Q with (inject_Z ns * (1 # 1000000000))%Q by (unfold Qdiv; reflexivity).
  change (2 ^ (9 - 1))%Q with (256 # 1)%Q in C1. change (2 ^ (-20 - 1))%Q with (1 # 2097152)%Q in C2.
  apply Qabs_Qle_condition in C1, C2. apply Qabs_Qle_condition. lra.
Qed.
Theorem C75_read_int_partial cls st w : 0 <= time_ns st w < 4611686018 * 1000000000 ->
  exists t, getitem cls st (index w) = Some t /\ (use_float cls st = false -> get_time cls st w = VInt t) /\
    (t = time_ns st w / 1000000000 \/ t = time_ns st w / 1000000000 + 1) /\
    (time_ns st w mod 1000000000 < 1000000000 - 733 -> t = time_ns st w / 1000000000).
Proof.
  intros H. exists (trunc (seconds (time_ns st w))).
  assert (G : int_of (get_time cls st w) = trunc (seconds (time_ns st w))) by (unfold get_time; destruct (use_float cls st); reflexivity).
  split. { destruct w; cbn [index]; unfold getitem; cbn [Z.eqb Pos.eqb]; rewrite G; reflexivity. }
  split. { intros F. unfold get_time. rewrite F. reflexivity. }
  destruct (seconds_floor _ H) as (L & U & C). set (f := seconds _) in *. clearbody f. set (ns := time_ns st w) in *. fold giga in *.
  pose proof (Z.div_mod ns giga ltac:(discriminate)) as E. pose proof (Z.mod_pos_bound ns giga eq_refl) as M.
  assert (T0 : 0 <= ns / giga) by (apply Z.div_pos; [lia|reflexivity]).
  set (t := ns / giga) in *. rewrite inject_Z_plus in U. change (inject_Z 1) with (1#1)%Q in U.
  split.
  - destruct (Qlt_le_dec f (inject_Z t + 1)) as [K|K].
    + left. apply trunc_floor; assumption.
    + right. apply trunc_floor; [rewrite inject_Z_plus; change (inject_Z 1) with (1#1)%Q; lra|rewrite inject_Z_plus; change (inject_Z 1) with (1#1)%Q; lra|lia].
  - intros K. apply trunc_floor; [exact L| |exact T0].
    assert (X : (inject_Z ns < inject_Z (t * giga + (giga - 733)))%Q) by (apply inj_lt; lia).
    unfold giga in X at 2. rewrite inject_Z_plus, inject_Z_mult in X. change (inject_Z (1000000000 - 733)) with (999999267#1)%Q in X.
    setoid_replace (inject_Z ns / inject_Z giga)%Q with (inject_Z ns * (1 # 1000000000))%Q in C by (unfold Qdiv; reflexivity).
    change (inject_Z giga) with (1000000000#1)%Q in X. apply Qabs_Qle_condition in C. lra.
Qed.
Print Assumptions C75_read_int_partial.
(** ...and one more does happen: one nanosecond before 1600000000 s, [st[8]] is
    1600000000.  (The real os.stat rounds down.) *)
Theorem C75_read_int_refuted : exists st,
  time_ns st Mtime = 1599999999999999999 /\ forall cls, getitem cls st 8 = Some 1600000000.
Proof.
  exists (mkst None 33188 1 1 1 0 0 0 false 0 1599999999999999999 0). split; [reflexivity|]. intros [|]; vm_compute; reflexivity.
Qed.
Print Assumptions C75_read_int_refuted.

(** Setting a time from a float is right to 257 nanoseconds. *)
Theorem C75_set_float st w q : (Qabs q <= 4611686018 # 1)%Q ->
  (Qabs (inject_Z (time_ns (set_time st w (PFloat q)) w) - q * inject_Z 1000000000) <= 257 # 1)%Q.
Proof.
  intros H. assert (T : time_ns (set_time st w (PFloat q)) w = trunc (rnd (q * inject_Z giga))) by (destruct w; reflexivity). rewrite T.
  assert (B : (Qabs (q * inject_Z giga) <= inject_Z (2 ^ 53) * 2 ^ 9)%Q).
  { change (inject_Z (2 ^ 53) * 2 ^ 9)%Q with (4611686018427387904 # 1)%Q. change (inject_Z giga) with (1000000000#1)%Q.
    apply Qabs_Qle_condition in H. apply Qabs_Qle_condition. lra. }
  assert (N : nearest (q * inject_Z giga) (rnd (q * inject_Z giga))).
  { apply rnd_nearest, small_lt. eapply Qle_trans; [exact B|]. discriminate. }
  pose proof (nearest_close _ _ 9 N ltac:(lia) B) as C. pose proof (trunc_close (rnd (q * inject_Z giga))) as D.
  fold giga. set (p := rnd _) in *. clearbody p. set (z := (q * inject_Z giga)%Q) in *. clearbody z. change (2 ^ (9 - 1))%Q with (256#1)%Q in C.
  set (i := inject_Z (trunc p)) in *. clearbody i. apply Qabs_Qle_condition in C. apply Qabs_Qlt_condition in D. apply Qabs_Qle_condition. lra.
Qed.
Print Assumptions C75_set_float.
(** Copying a time through floats (read st_mtime, set st_mtime) changes it by less
    than a microsecond... *)
Theorem C75_copy_time st w st' w' cls q : 0 <= time_ns st w < 4611686018 * 1000000000 ->
  get_time cls st w = VFloat q ->
  Z.abs (time_ns (set_time st' w' (PFloat q)) w' - time_ns st w) < 1000.
Proof.
  intros H G. assert (Q0 : q = seconds (time_ns st w)).
  { unfold get_time in G. destruct (use_float cls st); [|discriminate G]. injection G as <-. reflexivity. }
  destruct (seconds_floor _ H) as (L & U & C). rewrite <- Q0 in *. clear G Q0. set (ns := time_ns st w) in *.
  assert (T0 : 0 <= ns / giga < 4611686018).
  { pose proof (Z.div_mod ns giga ltac:(discriminate)). pose proof (Z.mod_pos_bound ns giga eq_refl). unfold giga in *. lia. }
  assert (B : (Qabs q <= 4611686018 # 1)%Q).
  { rewrite Qabs_pos; [|eapply Qle_trans; [apply (inj_le 0 (ns / giga)); lia|exact L]].
    eapply Qle_trans; [exact U|]. apply (Qle_trans _ (inject_Z 4611686018)); [apply inj_le; lia|discriminate]. }
  pose proof (C75_set_float st' w' q B) as S. set (x := time_ns (set_time st' w' (PFloat q)) w') in *. clearbody x ns.
  setoid_replace (inject_Z ns / inject_Z giga)%Q with (inject_Z ns * (1 # 1000000000))%Q in C by (unfold Qdiv; reflexivity).
  apply Qabs_Qle_condition in S, C. change (inject_Z 1000000000) with (1000000000#1)%Q in S.
  assert (X : (inject_Z (x - ns) == inject_Z x - inject_Z ns)%Q) by (unfold Zminus; rewrite inject_Z_plus, inject_Z_opp; ring).
  apply Z.abs_lt. split; rewrite Zlt_Qlt, X; [change (inject_Z (- (1000))) with (-1000#1)%Q|change (inject_Z 1000) with (1000#1)%Q]; lra.
Qed.
Print Assumptions C75_copy_time.
(** ...but it is not exact *)
Theorem C75_copy_time_refuted : exists st q, get_time true st Mtime = VFloat q /\
  time_ns (set_time st Mtime (PFloat q)) Mtime <> time_ns st Mtime.
Proof.
  exists (mkst None 33188 1 1 1 0 0 0 false 0 1600000000000000001 0), (seconds 1600000000000000001).
  split; [reflexivity|]. vm_compute. discriminate.
Qed.
Print Assumptions C75_copy_time_refuted.
(** Setting the nanoseconds is exact. *)
Theorem C75_set_ns st w z : time_ns (set_ns st w z) w = z /\ forall w', w' <> w -> time_ns (set_ns st w z) w' = time_ns st w'.
Proof. split; [destruct w; reflexivity|]. intros w' D. destruct w, w'; try reflexivity; exfalso; apply D; reflexivity. Qed.
Print Assumptions C75_set_ns.

(** ** The other fields *)
Theorem C75_items cls st i :
  (exists v, getitem cls st i = Some v) <-> 0 <= i <= 9.
Proof.
  unfold getitem. split.
  - intros [v H]. repeat match type of H with (if i =? ?n then _ else _) = _ => destruct (Z.eqb_spec i n) as [E|_]; [lia|] end. discriminate H.
  - intros H. assert (C : i = 0 \/ i = 1 \/ i = 2 \/ i = 3 \/ i = 4 \/ i = 5 \/ i = 6 \/ i = 7 \/ i = 8 \/ i = 9) by lia.
    repeat (destruct C as [->|C]; [eexists; reflexivity|]). rewrite C. eexists. reflexivity.
Qed.
Print Assumptions C75_items.
(** The first seven, in the order of the stat tuple; the last three are the
    times in whole seconds. *)
Theorem C75_item_fields cls st :
  map (getitem cls st) [0; 1; 2; 3; 4; 5; 6] =
    map Some [Z.of_N (t_mode st); t_ino st; t_dev st; t_nlink st; t_uid st; t_gid st;
              if t_win st && N.eqb (N.land (t_mode st) S_IFLNK) S_IFLNK then 0 else t_size st] /\
  (forall w, getitem cls st (index w) = Some (trunc (seconds (time_ns st w)))) /\
  map index [Atime; Mtime; Ctime] = [7; 8; 9].
Proof.
  split; [|split; [|reflexivity]].
  - cbn [map]. unfold getitem, get_size. cbn [Z.eqb Pos.eqb]. rewrite (andb_comm (t_win st)). reflexivity.
  - intros w. unfold getitem, get_time. destruct w; cbn [index Z.eqb Pos.eqb]; destruct (use_float cls st); reflexivity.
Qed.
Print Assumptions C75_item_fields.
(** What os.stat has returned does not change its form later. *)
Theorem C75_frozen cls st hist w i :
  let cls' := fold_left stat_float_times hist cls in
  get_time cls' (copy cls st) w = get_time cls st w /\ getitem cls' (copy cls st) i = getitem cls st i.
Proof.
  cbv zeta. set (c := fold_left stat_float_times hist cls). clearbody c.
  assert (A : forall w, get_time c (copy cls st) w = get_time cls st w) by (intros []; reflexivity).
  split; [apply A|]. unfold getitem. rewrite !A. reflexivity.
Qed.
Print Assumptions C75_frozen.
(** Two results are equal when all their fields are, with times compared by the nanosecond. *)
Theorem C75_equal a b : stat_eq a b = true <->
  (forall w, time_ns a w = time_ns b w) /\ (forall cls i, 0 <= i <= 6 -> getitem cls a i = getitem cls b i).
Proof.
  unfold stat_eq. rewrite !andb_true_iff, !Z.eqb_eq, N.eqb_eq. split.
  - intros (((((((((A & C) & M) & S) & G) & U) & L) & D) & I) & Md). split; [intros []; assumption|].
    intros cls i Hi. assert (K : i = 0 \/ i = 1 \/ i = 2 \/ i = 3 \/ i = 4 \/ i = 5 \/ i = 6) by lia.
    unfold getitem. destruct K as [->|[->|[->|[->|[->|[->| ->]]]]]]; cbn [Z.eqb Pos.eqb]; congruence.
  - intros [T F]. pose proof (T Atime). pose proof (T Mtime). pose proof (T Ctime).
    pose proof (F true 0 ltac:(lia)) as F0. pose proof (F true 1 ltac:(lia)) as F1. pose proof (F true 2 ltac:(lia)) as F2.
    pose proof (F true 3 ltac:(lia)) as F3. pose proof (F true 4 ltac:(lia)) as F4. pose proof (F true 5 ltac:(lia)) as F5. pose proof (F true 6 ltac:(lia)) as F6.
    unfold getitem in F0, F1, F2, F3, F4, F5, F6. cbn [Z.eqb Pos.eqb] in F0, F1, F2, F3, F4, F5, F6.
    injection F0 as F0. apply N2Z.inj in F0. injection F1 as F1. injection F2 as F2. injection F3 as F3. injection F4 as F4. injection F5 as F5. injection F6 as F6.
    cbn [time_ns] in *. repeat split; assumption.
Qed.
Print Assumptions C75_equal.

(** st_file_attributes and st_reparse_tag exist on Windows only; the directory
    attribute tells directories from files and links... *)
Lemma any_bit_type m x : N.land S_IFMT_mask x = x -> any_bit m x = any_bit (S_IFMT m) x.
Proof. intros H. unfold any_bit, S_IFMT. rewrite <- N.land_assoc, H. reflexivity. Qed.
Theorem C75_directory_attribute st a :
  S_IFMT (t_mode st) = S_IFREG \/ S_IFMT (t_mode st) = S_IFDIR \/ S_IFMT (t_mode st) = S_IFLNK ->
  (file_attributes st = Some a -> t_win st = true /\ (any_bit a A_DIRECTORY = true <-> S_ISDIR (t_mode st) = true)) /\
  (t_win st = false -> file_attributes st = None /\ reparse_tag st = None).
Proof.
  intros H. unfold file_attributes, reparse_tag. split; [|intros ->; split; reflexivity].
  destruct (t_win st); cbn [negb]; [|discriminate]. intros [= <-]. split; [reflexivity|].
  rewrite !(any_bit_type (t_mode st)) by reflexivity. unfold S_ISDIR. destruct H as [->|[->| ->]]; vm_compute; split; discriminate || reflexivity.
Qed.
Print Assumptions C75_directory_attribute.
(** ...but every regular file is reported as a symbolic link, and every
    directory as a device (single bits of the type field are tested). *)
Theorem C75_attributes_refuted st : t_win st = true ->
  (S_IFMT (t_mode st) = S_IFREG -> file_attributes st = Some (N.lor A_NORMAL A_REPARSE) /\ reparse_tag st = Some IO_REPARSE_TAG_SYMLINK) /\
  (S_IFMT (t_mode st) = S_IFDIR -> file_attributes st = Some (N.lor A_DIRECTORY A_DEVICE)).
Proof.
  intros W. unfold file_attributes, reparse_tag. rewrite W. cbn [negb]. rewrite !(any_bit_type (t_mode st)) by reflexivity.
  split; intros ->; [split|]; vm_compute; reflexivity.
Qed.
Print Assumptions C75_attributes_refuted.

(** ** The hypotheses are met *)
Definition c75_stat : stat := mkst (Some true) 33188 7 1 1 0 0 42 true 0 1599999999123456789 0.
Example C75_values :
  ns_of (PInt 1600000000) = 1600000000000000000 /\
  ns_of (PFloat (rnd (16000000001 # 10))) = 1600000000100000000 /\
  getitem false c75_stat 8 = Some 1599999999 /\ getitem false c75_stat 6 = Some 42 /\
  file_attributes c75_stat = Some 1152%N /\ stat_eq (copy false c75_stat) c75_stat = true.
Proof. repeat split; vm_compute; reflexivity. Qed.
