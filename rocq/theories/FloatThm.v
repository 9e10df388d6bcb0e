(** * Rounding to binary64: [StatModel.rnd] gives the nearest double. *)
From Coq Require Import ZArith QArith Qabs Qpower Qround Lqa Lia List Bool.
From Verif Require Import StatModel.
Open Scope Z_scope.

(** ** What a double is, and which one is nearest *)
Definition double (x : Q) : Prop :=
  exists m e, Z.abs m < 2 ^ 53 /\ -1074 <= e <= 971 /\ (x == inject_Z m * 2 ^ e)%Q.
Definition nearest (q x : Q) : Prop :=
  double x /\ forall y, double y -> (Qabs (q - x) <= Qabs (q - y))%Q.

(** ** Integers *)
Lemma near_best n d j : 0 < d -> 0 <= n -> Z.abs (n - near n d * d) <= Z.abs (n - j * d).
Proof.
  intros Hd Hn. unfold near. pose proof (Z.div_mod n d ltac:(lia)) as E. pose proof (Z.mod_pos_bound n d Hd) as B.
  set (m := n / d) in *. set (r := n mod d) in *. clearbody m r.
  assert (C : Z.abs (n - m * d) <= Z.abs (n - j * d) /\ 2 * r <= d \/ Z.abs (n - (m + 1) * d) <= Z.abs (n - j * d) /\ d <= 2 * r).
  { replace (n - m * d) with r by nia. replace (n - (m + 1) * d) with (r - d) by nia.
    replace (n - j * d) with (r + (m - j) * d) by nia.
    destruct (Z_le_gt_dec (m - j) (-1)) as [L|L].
    - assert ((m - j) * d <= - d) by nia. destruct (Z_le_gt_dec (2 * r) d); [left|right]; lia.
    - destruct (Z_le_gt_dec 0 (m - j)) as [L'|L']; [|lia].
      assert (0 <= (m - j) * d) by nia. destruct (Z_le_gt_dec (2 * r) d); [left|right]; lia. }
  destruct (Z.compare_spec (2 * r) d) as [K|K|K].
  - destruct (Z.even m).
    + destruct C as [[C _]|[C _]]; [exact C|]. replace (n - (m + 1) * d) with (- (n - m * d)) in C by nia. rewrite Z.abs_opp in C. exact C.
    + destruct C as [[C _]|[C _]]; [|exact C]. replace (n - m * d) with (- (n - (m + 1) * d)) in C by nia. rewrite Z.abs_opp in C. exact C.
  - destruct C as [[C _]|[_ C]]; [exact C|lia].
  - destruct C as [[_ C]|[C _]]; [lia|exact C].
Qed.
Lemma near_lt n d b : 0 < d -> 0 <= n -> n < b * d -> 0 <= near n d <= b.
Proof.
  intros Hd Hn H. assert (n / d < b) by (apply Z.div_lt_upper_bound; lia). assert (0 <= n / d) by (apply Z.div_pos; lia).
  unfold near. destruct (Z.compare _ _); try destruct (Z.even _); lia.
Qed.

(** 2^k <= n/d < 2^(k+1) *)
Lemma qlog2_spec n d : 0 < n -> 0 < d ->
  let k := qlog2 n d in
  (0 <= k -> d * 2 ^ k <= n < d * 2 ^ (k + 1)) /\ (k < 0 -> d <= n * 2 ^ (- k) /\ n * 2 ^ (- k - 1) < d).
Proof.
  intros Hn Hd. cbv zeta. unfold qlog2. destruct (Z.leb_spec d n) as [L|L].
  - assert (P : 0 < n / d) by (apply Z.div_str_pos; lia).
    pose proof (Z.log2_spec _ P) as [A B]. pose proof (Z.log2_nonneg (n / d)). split; [intros _|lia].
    pose proof (Z.div_mod n d ltac:(lia)). pose proof (Z.mod_pos_bound n d Hd). split; [nia|].
    rewrite Z.add_1_r in *. nia.
  - assert (P : 1 < - ((- d) / n)).
    { assert ((- d) / n < -1); [|lia]. apply Z.div_lt_upper_bound; lia. }
    pose proof (Z.log2_up_spec _ P) as [A B]. pose proof (Z.log2_up_pos _ P).
    set (c := - ((- d) / n)) in *. assert (C : c * n >= d /\ (c - 1) * n < d).
    { pose proof (Z.div_mod (- d) n ltac:(lia)). pose proof (Z.mod_pos_bound (- d) n Hn). unfold c. nia. }
    split; [lia|]. intros _. rewrite Z.opp_involutive. split; [nia|].
    replace (Z.log2_up c - 1) with (Z.pred (Z.log2_up c)) by lia. nia.
Qed.

(** ** Powers of two in Q *)
Open Scope Q_scope.
Lemma two_neq : ~ 2 == 0. Proof. intros K. discriminate K. Qed.
Lemma pow_pos (e : Z) : 0 < 2 ^ e.
Proof. apply Qpower_0_lt. reflexivity. Qed.
Lemma pow_plus (a b : Z) : 2 ^ (a + b) == 2 ^ a * 2 ^ b.
Proof. apply Qpower_plus, two_neq. Qed.
Lemma pow_Z (e : Z) : (0 <= e)%Z -> 2 ^ e == inject_Z (2 ^ e)%Z.
Proof. intros H. rewrite Zpower_Qpower by exact H. reflexivity. Qed.
Lemma pow_neg (e : Z) : (e < 0)%Z -> 2 ^ e * inject_Z (2 ^ (- e))%Z == 1.
Proof.
  intros H. rewrite <- pow_Z by lia. rewrite <- pow_plus. replace (e + - e)%Z with 0%Z by lia. reflexivity.
Qed.
Lemma pow_le (a b : Z) : (a <= b)%Z -> 2 ^ a <= 2 ^ b.
Proof. intros H. apply Qpower_le_compat_l; [exact H|]. discriminate. Qed.

Lemma inj_abs z : inject_Z (Z.abs z) == Qabs (inject_Z z).
Proof. reflexivity. Qed.
Lemma inj_le a b : (a <= b)%Z -> inject_Z a <= inject_Z b.
Proof. intros H. rewrite <- Zle_Qle. exact H. Qed.
Lemma inj_lt a b : (a < b)%Z -> inject_Z a < inject_Z b.
Proof. intros H. rewrite <- Zlt_Qlt. exact H. Qed.

Lemma double_opp x : double x -> double (- x).
Proof.
  intros (m & e & M & E & V). exists (- m)%Z, e. split; [lia|]. split; [exact E|]. rewrite V, inject_Z_opp. ring.
Qed.
Lemma double_eq x y : x == y -> double x -> double y.
Proof. intros E (m & e & M & X & V). exists m, e. split; [exact M|]. split; [exact X|]. rewrite <- E. exact V. Qed.
Lemma nearest_opp q x : nearest q x -> nearest (- q) (- x).
Proof.
  intros [D N]. split; [apply double_opp, D|]. intros y Y. pose proof (N (- y) (double_opp _ Y)) as H.
  assert (E1 : Qabs (- q - - x) == Qabs (q - x)) by (rewrite <- Qabs_opp; apply Qabs_wd; ring).
  assert (E2 : Qabs (- q - y) == Qabs (q - - y)) by (rewrite <- Qabs_opp; apply Qabs_wd; ring).
  rewrite E1, E2. exact H.
Qed.
Lemma nearest_eq q q' x x' : q == q' -> x == x' -> nearest q x -> nearest q' x'.
Proof.
  intros E E' [D N]. split; [exact (double_eq _ _ E' D)|]. intros y Y. rewrite <- E, <- E'. apply N, Y.
Qed.

(** The value [n/d] is [N/D] units of [2^e]. *)
Lemma scaled_nearest (q : Q) (N D e : Z) : (0 < D)%Z -> (0 <= N)%Z -> q * inject_Z D == inject_Z N * 2 ^ e ->
  (-1074 <= e <= 970)%Z -> (N < 2 ^ 53 * D)%Z -> (e = -1074 \/ 2 ^ 52 * D <= N)%Z ->
  nearest q (inject_Z (near N D) * 2 ^ e).
Proof.
  intros HD HN EQ HE HU HL. pose proof (near_lt N D (2 ^ 53) HD HN HU) as [M0 M1].
  assert (HDq : 0 < inject_Z D) by (apply (inj_lt 0); exact HD).
  pose proof (pow_pos e) as P.
  assert (Best : forall j : Z, Qabs (q - inject_Z (near N D) * 2 ^ e) <= Qabs (q - inject_Z j * 2 ^ e)).
  { intros j. apply (Qmult_le_r _ _ (inject_Z D) HDq).
    assert (G : forall i : Z, Qabs (q - inject_Z i * 2 ^ e) * inject_Z D == inject_Z (Z.abs (N - i * D)) * 2 ^ e).
    { intros i. rewrite inj_abs. rewrite <- (Qabs_pos (inject_Z D)) at 1 by lra. rewrite <- (Qabs_pos (2 ^ e)) at 2 by lra.
      rewrite <- !Qabs_Qmult. apply Qabs_wd. unfold Zminus. rewrite inject_Z_plus, inject_Z_opp, inject_Z_mult.
      setoid_replace ((q - inject_Z i * 2 ^ e) * inject_Z D) with (q * inject_Z D - inject_Z i * 2 ^ e * inject_Z D) by ring.
      rewrite EQ. ring. }
    rewrite !G. apply Qmult_le_compat_r; [|lra]. apply inj_le. apply near_best; lia. }
  split.
  - destruct (Z.eq_dec (near N D) (2 ^ 53)) as [K|K].
    + exists (2 ^ 52)%Z, (e + 1)%Z. split; [reflexivity|]. split; [lia|]. rewrite K, pow_plus.
      change (inject_Z (2 ^ 53)) with (inject_Z (2 ^ 52) * 2 ^ 1). ring.
    + exists (near N D), e. split; [lia|]. split; [lia|reflexivity].
  - intros y (m & e2 & M & E2 & V). destruct (Z_le_gt_dec e e2) as [L|L].
    + assert (Y : y == inject_Z (m * 2 ^ (e2 - e)) * 2 ^ e).
      { rewrite V, inject_Z_mult, <- pow_Z by lia. replace e2 with ((e2 - e) + e)%Z at 1 by lia. rewrite pow_plus. ring. }
      rewrite Y. apply Best.
    + destruct HL as [HL|HL]; [lia|].
      eapply Qle_trans; [apply (Best (2 ^ 52)%Z)|].
      assert (A : inject_Z (2 ^ 52) * 2 ^ e <= q).
      { apply (Qmult_le_r _ _ (inject_Z D) HDq). rewrite EQ.
        setoid_replace (inject_Z (2 ^ 52) * 2 ^ e * inject_Z D) with (inject_Z (2 ^ 52 * D) * 2 ^ e) by (rewrite inject_Z_mult; ring).
        apply Qmult_le_compat_r; [apply inj_le, HL|lra]. }
      assert (B : y <= inject_Z (2 ^ 52) * 2 ^ e).
      { assert (W : inject_Z (2 ^ 52) * 2 ^ e == inject_Z (2 ^ 53) * 2 ^ (e - 1)).
        { replace e with ((e - 1) + 1)%Z at 1 by lia. rewrite pow_plus. change (inject_Z (2 ^ 53)) with (inject_Z (2 ^ 52) * 2 ^ 1). ring. }
        rewrite W, V. pose proof (pow_pos e2). apply (Qle_trans _ (inject_Z (2 ^ 53) * 2 ^ e2)).
        - apply Qmult_le_compat_r; [apply inj_le; lia|lra].
        - rewrite !(Qmult_comm (inject_Z (2 ^ 53))). apply Qmult_le_compat_r; [apply pow_le; lia|]. discriminate. }
      rewrite (Qabs_pos (q - _)) by lra. rewrite Qabs_pos by lra. lra.
Qed.

Lemma rnd_pos_nearest (n d : positive) : (Zpos n < Zpos d * 2 ^ 1023)%Z -> nearest (Zpos n # d) (rnd_pos (Zpos n) (Zpos d)).
Proof.
  intros HB. unfold rnd_pos. cbv zeta. pose proof (qlog2_spec (Zpos n) (Zpos d) eq_refl eq_refl) as [K1 K2]. cbv zeta in K1, K2.
  set (k := qlog2 (Zpos n) (Zpos d)) in *. clearbody k. set (e := Z.max (-1074) (k - 52)). assert (He : e = Z.max (-1074) (k - 52)) by reflexivity. clearbody e.
  assert (Kk : (k <= 1022)%Z).
  { destruct (Z_le_gt_dec k 1022) as [L|L]; [exact L|]. exfalso. destruct (K1 ltac:(lia)) as [A _].
    assert ((2 ^ 1023 <= 2 ^ k)%Z) by (apply Z.pow_le_mono_r; lia). set (P := (2 ^ 1023)%Z) in *. clearbody P. nia. }
  assert (V : (Zpos n # d) * inject_Z (Zpos d) == inject_Z (Zpos n)).
  { unfold Qeq, Qmult, inject_Z. cbn [Qnum Qden]. rewrite Pos2Z.inj_mul. ring. }
  assert (Hn := Pos2Z.is_pos n). assert (Hd := Pos2Z.is_pos d).
  set (Nz := Zpos n) in *. set (Dz := Zpos d) in *.
  destruct (Z.ltb_spec e 0) as [L|L].
  - assert (P : (0 < 2 ^ (- e))%Z) by (apply Z.pow_pos_nonneg; lia).
    assert (X : (near (Nz * 2 ^ (- e)) Dz # Z.to_pos (2 ^ (- e))) == inject_Z (near (Nz * 2 ^ (- e)) Dz) * 2 ^ e).
    { apply (Qmult_inj_r _ _ (inject_Z (2 ^ (- e)))); [intros K; apply (inj_lt 0) in P; change (inject_Z 0) with 0 in P; lra|].
      rewrite <- Qmult_assoc, pow_neg by lia. rewrite Qmult_1_r. unfold Qeq, Qmult, inject_Z. cbn [Qnum Qden].
      rewrite Pos2Z.inj_mul, Z2Pos.id by exact P. ring. }
    apply (nearest_eq (Nz # d) _ _ _ (Qeq_refl _) (Qeq_sym _ _ X)).
    assert (GU : (Nz * 2 ^ (- e) < 2 ^ 53 * Dz)%Z).
    { destruct (Z_le_gt_dec 0 k) as [G|G].
      - destruct (K1 G) as [_ B]. assert (Ee : (e = k - 52)%Z) by lia.
        apply (Z.lt_le_trans _ (Dz * 2 ^ (k + 1) * 2 ^ (- e))); [apply Z.mul_lt_mono_pos_r; assumption|].
        rewrite <- Z.mul_assoc, <- Z.pow_add_r by lia. replace (k + 1 + - e)%Z with 53%Z by lia. lia.
      - destruct (K2 ltac:(lia)) as [_ B].
        assert (E3 : (2 ^ (- e) <= 2 ^ (- k - 1) * 2 ^ 53)%Z) by (rewrite <- Z.pow_add_r by lia; apply Z.pow_le_mono_r; lia).
        apply (Z.le_lt_trans _ (Nz * (2 ^ (- k - 1) * 2 ^ 53))); [apply Z.mul_le_mono_nonneg_l; lia|].
        rewrite Z.mul_assoc, (Z.mul_comm (2 ^ 53)). apply Z.mul_lt_mono_pos_r; [reflexivity|exact B]. }
    apply scaled_nearest; try lia.
    + rewrite V, inject_Z_mult. rewrite <- Qmult_assoc, (Qmult_comm (inject_Z (2 ^ (- e)))), pow_neg by lia. ring.
    + destruct (Z.eq_dec e (-1074)) as [E0|E0]; [left; exact E0|right]. assert (Ee : (e = k - 52)%Z) by lia.
      destruct (Z_le_gt_dec 0 k) as [G|G].
      * destruct (K1 G) as [B _]. apply (Z.le_trans _ (Dz * 2 ^ k * 2 ^ (- e))); [|apply Z.mul_le_mono_nonneg_r; lia].
        rewrite <- Z.mul_assoc, <- Z.pow_add_r by lia. replace (k + - e)%Z with 52%Z by lia. lia.
      * destruct (K2 ltac:(lia)) as [B _]. replace (- e)%Z with (- k + 52)%Z by lia. rewrite Z.pow_add_r by lia.
        rewrite Z.mul_assoc. rewrite (Z.mul_comm (2 ^ 52)). apply Z.mul_le_mono_nonneg_r; [lia|exact B].
  - assert (Ee : (e = k - 52)%Z) by lia. destruct (K1 ltac:(lia)) as [B1 B2].
    assert (P : (0 < 2 ^ e)%Z) by (apply Z.pow_pos_nonneg; lia).
    assert (X : inject_Z (near Nz (Dz * 2 ^ e) * 2 ^ e) == inject_Z (near Nz (Dz * 2 ^ e)) * 2 ^ e) by (rewrite inject_Z_mult, (pow_Z e) by lia; reflexivity).
    apply (nearest_eq (Nz # d) _ _ _ (Qeq_refl _) (Qeq_sym _ _ X)).
    apply scaled_nearest; try lia.
    + rewrite inject_Z_mult, <- pow_Z by lia. rewrite Qmult_assoc, V. ring.
    + replace (k + 1)%Z with (e + 53)%Z in B2 by lia. rewrite Z.pow_add_r in B2 by lia. nia.
    + right. replace k with (e + 52)%Z in B1 by lia. rewrite Z.pow_add_r in B1 by lia. nia.
Qed.

Lemma double_zero : double 0.
Proof. exists 0%Z, 0%Z. repeat split; discriminate || lia. Qed.

(** [rnd] gives a nearest double. *)
Lemma rnd_nearest q : Qabs q < 2 ^ 1023 -> nearest q (rnd q).
Proof.
  destruct q as [n d]. intros H.
  assert (Hz : (Z.abs n < Zpos d * 2 ^ 1023)%Z).
  { rewrite (pow_Z 1023) in H by lia. unfold Qlt, Qabs, inject_Z in H. cbn [Qnum Qden] in H. lia. }
  unfold rnd. cbn [Qnum Qden]. destruct n as [|n|n].
  - split; [exact double_zero|]. intros y _. assert (E : Qabs ((0 # d) - 0) == 0).
    { setoid_replace ((0 # d) - 0) with 0; [reflexivity|]. unfold Qeq. cbn. reflexivity. }
    rewrite E. apply Qabs_nonneg.
  - apply rnd_pos_nearest. exact Hz.
  - apply (nearest_opp (Zpos n # d)). apply rnd_pos_nearest. exact Hz.
Qed.

(** ** Consequences *)
Lemma nearest_exact q x : nearest q x -> double q -> x == q.
Proof.
  intros [_ N] D. pose proof (N q D) as H. assert (E : Qabs (q - q) == 0) by (setoid_replace (q - q) with 0 by ring; reflexivity).
  rewrite E in H. apply Qabs_Qle_condition in H. lra.
Qed.
(** Not across a double. *)
Lemma nearest_above q x d : nearest q x -> double d -> d <= q -> d <= x.
Proof.
  intros [_ N] D H. pose proof (N d D) as K. apply Qabs_Qle_condition in K. rewrite (Qabs_pos (q - d)) in K by lra.
  destruct (Qlt_le_dec x d) as [L|L]; [|exact L]. exfalso. lra.
Qed.
Lemma nearest_below q x d : nearest q x -> double d -> q <= d -> x <= d.
Proof.
  intros N D H. apply nearest_opp in N. apply double_opp in D. pose proof (nearest_above _ _ _ N D). lra.
Qed.
(** Below [2^(e+53)] the doubles are at most [2^e] apart. *)
Lemma nearest_close (q x : Q) (e : Z) : nearest q x -> (-1074 <= e <= 970)%Z -> Qabs q <= inject_Z (2 ^ 53) * 2 ^ e ->
  Qabs (q - x) <= 2 ^ (e - 1).
Proof.
  intros [_ N] HE HQ. pose proof (pow_pos e) as P.
  assert (W : 2 ^ e == 2 * 2 ^ (e - 1)). { replace e with ((e - 1) + 1)%Z at 1 by lia. rewrite pow_plus. change (2 ^ 1) with (2#1). ring. }
  set (z := q / 2 ^ e). set (j := Qfloor z).
  assert (Z1 : inject_Z j <= z) by apply Qfloor_le.
  assert (Z2 : z < inject_Z (j + 1)) by apply Qlt_floor.
  assert (Zq : q == z * 2 ^ e). { unfold z. field. intros K. lra. }
  rewrite inject_Z_plus in Z2. change (inject_Z 1) with (1#1) in Z2.
  assert (DD : forall i : Z, (Z.abs i <= 2 ^ 53)%Z -> double (inject_Z i * 2 ^ e)).
  { intros i Hi. destruct (Z.eq_dec (Z.abs i) (2 ^ 53)) as [K|K].
    - assert (C : double (inject_Z (2 ^ 53) * 2 ^ e)).
      { exists (2 ^ 52)%Z, (e + 1)%Z. split; [reflexivity|]. split; [lia|]. rewrite pow_plus. change (inject_Z (2 ^ 53)) with (inject_Z (2 ^ 52) * 2 ^ 1). ring. }
      destruct (Z.abs_eq_cases i (2 ^ 53) K) as [->| ->]; [exact C|].
      apply double_opp in C. eapply double_eq; [|exact C]. rewrite inject_Z_opp. ring.
    - exists i, e. split; [lia|]. split; [lia|reflexivity]. }
  assert (B : (- 2 ^ 53 <= j < 2 ^ 53)%Z \/ j = (2 ^ 53)%Z).
  { apply Qabs_Qle_condition in HQ. destruct HQ as [Q1 Q2].
    assert (A1 : - inject_Z (2 ^ 53) <= z). { apply (Qmult_le_r _ _ (2 ^ e) P). rewrite <- Zq. lra. }
    assert (A2 : z <= inject_Z (2 ^ 53)). { apply (Qmult_le_r _ _ (2 ^ e) P). rewrite <- Zq. lra. }
    assert (C1 : (j <= 2 ^ 53)%Z). { rewrite Zle_Qle. lra. }
    assert (C2 : (- 2 ^ 53 <= j)%Z).
    { assert ((- 2 ^ 53 < j + 1)%Z); [|lia]. rewrite Zlt_Qlt. rewrite inject_Z_plus, inject_Z_opp. change (inject_Z 1) with (1#1). lra. }
    lia. }
  destruct B as [B|B].
  - destruct (Qlt_le_dec (z - inject_Z j) (1#2)) as [L|L].
    + eapply Qle_trans; [apply (N _ (DD j ltac:(lia)))|].
      rewrite Zq at 1. rewrite Qabs_pos.
      * setoid_replace (z * 2 ^ e - inject_Z j * 2 ^ e) with ((z - inject_Z j) * 2 ^ e) by ring.
        apply (Qle_trans _ ((1#2) * 2 ^ e)); [apply Qmult_le_compat_r; lra|]. rewrite W. lra.
      * setoid_replace (z * 2 ^ e - inject_Z j * 2 ^ e) with ((z - inject_Z j) * 2 ^ e) by ring. apply Qmult_le_0_compat; lra.
    + eapply Qle_trans; [apply (N _ (DD (j + 1)%Z ltac:(lia)))|].
      rewrite Zq at 1. rewrite <- Qabs_opp, Qabs_pos.
      * setoid_replace (- (z * 2 ^ e - inject_Z (j + 1) * 2 ^ e)) with ((inject_Z j + 1 - z) * 2 ^ e) by (rewrite inject_Z_plus; change (inject_Z 1) with (1#1); ring).
        apply (Qle_trans _ ((1#2) * 2 ^ e)); [apply Qmult_le_compat_r; lra|]. rewrite W. lra.
      * setoid_replace (- (z * 2 ^ e - inject_Z (j + 1) * 2 ^ e)) with ((inject_Z j + 1 - z) * 2 ^ e) by (rewrite inject_Z_plus; change (inject_Z 1) with (1#1); ring).
        apply Qmult_le_0_compat; lra.
  - assert (E : q == inject_Z j * 2 ^ e).
    { apply Qabs_Qle_condition in HQ. destruct HQ as [_ Q2]. rewrite Zq in *. apply Qle_antisym; [rewrite B; exact Q2|].
      apply Qmult_le_compat_r; [exact Z1|lra]. }
    eapply Qle_trans; [apply (N _ (DD j ltac:(lia)))|]. rewrite E at 1.
    setoid_replace (inject_Z j * 2 ^ e - inject_Z j * 2 ^ e) with 0 by ring. pose proof (pow_pos (e - 1)). rewrite Qabs_pos; lra.
Qed.

(** int() *)
Lemma trunc_eq a b : a == b -> trunc a = trunc b.
Proof.
  destruct a as [n d], b as [n' d']. unfold Qeq, trunc. cbn [Qnum Qden]. intros E.
  rewrite <- (Z.quot_mul_cancel_r n (Zpos d) (Zpos d')) by lia. rewrite <- (Z.quot_mul_cancel_r n' (Zpos d') (Zpos d)) by lia.
  rewrite E. f_equal. lia.
Qed.
Lemma trunc_Z z : trunc (inject_Z z) = z.
Proof. unfold trunc, inject_Z. cbn [Qnum Qden]. apply Z.quot_1_r. Qed.
Lemma trunc_floor q z : inject_Z z <= q -> q < inject_Z z + 1 -> (0 <= z)%Z -> trunc q = z.
Proof.
  destruct q as [n d]. intros A B Hz. unfold trunc. cbn [Qnum Qden].
  unfold Qle, Qlt, Qplus, inject_Z in A, B. cbn [Qnum Qden] in A, B.
  symmetry. apply (Z.quot_unique _ _ _ (n - Zpos d * z)); lia.
Qed.
Lemma trunc_close q : Qabs (inject_Z (trunc q) - q) < 1.
Proof.
  destruct q as [n d]. unfold trunc. cbn [Qnum Qden].
  pose proof (Z.quot_rem' n (Zpos d)) as E. pose proof (Z.rem_bound_abs n (Zpos d) ltac:(lia)) as B.
  unfold Qlt, Qabs, Qminus, Qplus, Qopp, inject_Z. cbn [Qnum Qden].
  replace (Z.quot n (Zpos d) * Zpos d + - n * 1)%Z with (- Z.rem n (Zpos d))%Z by lia.
  rewrite Z.abs_opp. lia.
Qed.
