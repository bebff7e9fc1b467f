(* round64 is a rounding. *)
From Coq Require Import ZArith QArith Qround Qabs Qpower Lia Lqa.
From Verif Require Import ModelFloat SpecFloat64.
Open Scope Z_scope.

Lemma pow2_pos k : (0 < pow2 k)%Q.
Proof. apply Qpower_0_lt. reflexivity. Qed.
Lemma pow2_plus a b : (pow2 (a + b) == pow2 a * pow2 b)%Q.
Proof. apply Qpower_plus. discriminate. Qed.
Lemma pow2_Z k : 0 <= k -> (pow2 k == inject_Z (2 ^ k))%Q.
Proof. intros K. unfold pow2. rewrite (Zpower_Qpower 2 k K). reflexivity. Qed.
Lemma pow2_le a b : a <= b -> (pow2 a <= pow2 b)%Q.
Proof. intros L. apply Qpower_le_compat_l; [exact L|]. discriminate. Qed.
Lemma pow2_0 : (pow2 0 == 1)%Q.
Proof. reflexivity. Qed.

(* ---- half_even ---- *)
Lemma half_even_cases q : let f := Qfloor q in (inject_Z f <= q)%Q /\ (q < inject_Z f + 1)%Q /\
  ((half_even q = f /\ (q - inject_Z f <= 1 # 2)%Q) \/ (half_even q = f + 1 /\ ((1 # 2) <= q - inject_Z f)%Q)).
Proof.
  cbv zeta. split; [apply Qfloor_le|]. split. { pose proof (Qlt_floor q) as L. rewrite inject_Z_plus in L. exact L. }
  unfold half_even. destruct (Qcompare_spec (q - inject_Z (Qfloor q)) (1 # 2)) as [E|E|E].
  - destruct (Z.even _); [left|right]; (split; [reflexivity|rewrite E; lra]).
  - left. split; [reflexivity|lra].
  - right. split; [reflexivity|lra].
Qed.
Lemma half_even_error q : (Qabs (inject_Z (half_even q) - q) <= 1 # 2)%Q.
Proof.
  destruct (half_even_cases q) as (A & B & [[-> E]|[-> E]]); apply Qabs_Qle_condition; rewrite ?inject_Z_plus; change (inject_Z 1) with 1%Q; split; lra.
Qed.
Lemma half_even_Z z q : (q == inject_Z z)%Q -> half_even q = z.
Proof.
  intros E. assert (F : Qfloor q = z) by (rewrite E; apply Qfloor_Z).
  destruct (half_even_cases q) as (A & B & [[-> X]|[-> X]]); [exact F|]. exfalso. rewrite F, E in X. lra.
Qed.
Lemma half_even_mono x y : (x <= y)%Q -> half_even x <= half_even y.
Proof.
  intros L. pose proof (Qfloor_resp_le x y L) as LF. destruct (half_even_cases x) as (A & B & X), (half_even_cases y) as (C & D & Y).
  destruct (Z.eq_dec (Qfloor x) (Qfloor y)) as [E|N].
  - (* same floor *)
    destruct X as [[-> X]|[EX X]], Y as [[EY Y]|[-> Y]]; rewrite ?EX, ?EY; try lia.
    (* x rounded up, y down: both are half way *)
    assert (XY : (x == y)%Q). { rewrite E in X. lra. }
    assert (CE : Qcompare (x - inject_Z (Qfloor y)) (1 # 2) = Qcompare (y - inject_Z (Qfloor y)) (1 # 2)) by (rewrite XY; reflexivity).
    unfold half_even in EX, EY. rewrite E in EX. rewrite CE in EX. revert EX EY.
    intros EX EY. lia.
  - destruct X as [[-> _]|[-> _]], Y as [[-> _]|[-> _]]; lia.
Qed.

(* ---- exponent ---- *)
Lemma exponent_spec q : (0 < q)%Q -> (pow2 (exponent q) <= q)%Q /\ (q < pow2 (exponent q + 1))%Q.
Proof.
  intros P. destruct q as [n d]. assert (N : 0 < n) by (unfold Qlt in P; cbn in P; lia).
  pose proof (Z.log2_spec n N) as [L1 L2]. pose proof (Z.log2_spec (Z.pos d) eq_refl) as [M1 M2].
  pose proof (Z.log2_nonneg n) as LN. pose proof (Z.log2_nonneg (Z.pos d)) as MN.
  unfold exponent. cbn [Qnum Qden]. set (a := Z.log2 n) in *. set (b := Z.log2 (Z.pos d)) in *.
  assert (EQ : ((n # d) * inject_Z (Z.pos d) == inject_Z n)%Q) by (unfold Qeq; cbn; lia).
  assert (PD : (0 < inject_Z (Z.pos d))%Q) by reflexivity.
  assert (A1 : (pow2 a <= inject_Z n)%Q) by (rewrite pow2_Z by lia; rewrite <- Zle_Qle; lia).
  assert (A2 : (inject_Z n < pow2 (a + 1))%Q) by (rewrite pow2_Z by lia; rewrite <- Zlt_Qlt; replace (a + 1) with (Z.succ a) by lia; lia).
  assert (B1 : (pow2 b <= inject_Z (Z.pos d))%Q) by (rewrite pow2_Z by lia; rewrite <- Zle_Qle; lia).
  assert (B2 : (inject_Z (Z.pos d) < pow2 (b + 1))%Q) by (rewrite pow2_Z by lia; rewrite <- Zlt_Qlt; replace (b + 1) with (Z.succ b) by lia; lia).
  assert (UP : (n # d < pow2 (a - b + 1))%Q).
  { apply (Qmult_lt_r _ _ (inject_Z (Z.pos d)) PD). rewrite EQ. eapply Qlt_le_trans; [exact A2|].
    setoid_replace (pow2 (a + 1)) with (pow2 (a - b + 1) * pow2 b)%Q by (rewrite <- pow2_plus; replace (a - b + 1 + b) with (a + 1) by lia; reflexivity).
    apply Qmult_le_l; [apply pow2_pos|exact B1]. }
  assert (LO : (pow2 (a - b - 1) <= n # d)%Q).
  { apply (Qmult_le_r _ _ (inject_Z (Z.pos d)) PD). rewrite EQ. eapply Qle_trans; [|exact A1].
    setoid_replace (pow2 a) with (pow2 (a - b - 1) * pow2 (b + 1))%Q by (rewrite <- pow2_plus; replace (a - b - 1 + (b + 1)) with a by lia; reflexivity).
    apply Qmult_le_l; [apply pow2_pos|apply Qlt_le_weak, B2]. }
  destruct (Qle_bool (pow2 (a - b)) (n # d)) eqn:E.
  - apply Qle_bool_iff in E. split; assumption.
  - split; [exact LO|]. replace (a - b - 1 + 1) with (a - b) by lia. apply Qnot_le_lt. intros F. apply Qle_bool_iff in F. congruence.
Qed.
Lemma exponent_le q e : (0 < q)%Q -> (pow2 e <= q)%Q -> e <= exponent q.
Proof.
  intros P L. destruct (exponent_spec q P) as [_ U]. destruct (Z.le_gt_cases e (exponent q)) as [|G]; [assumption|exfalso].
  pose proof (pow2_le (exponent q + 1) e ltac:(lia)). lra.
Qed.
Lemma exponent_lt q e : (0 < q)%Q -> (q < pow2 e)%Q -> exponent q < e.
Proof.
  intros P L. destruct (exponent_spec q P) as [U _]. destruct (Z.lt_ge_cases (exponent q) e) as [|G]; [assumption|exfalso].
  pose proof (pow2_le e (exponent q) ltac:(lia)). lra.
Qed.
Lemma exponent_mono x y : (0 < x)%Q -> (x <= y)%Q -> exponent x <= exponent y.
Proof. intros P L. apply exponent_le; [lra|]. destruct (exponent_spec x P). lra. Qed.

(* ---- round_pos ---- *)
Definition expo (q : Q) : Z := Z.max (exponent q - 52) (-1074).
Lemma div_pow2 q k : (q / pow2 k * pow2 k == q)%Q.
Proof. field. intros E. pose proof (pow2_pos k). lra. Qed.
Lemma div_pow2_le x y k : (x <= y)%Q -> (x / pow2 k <= y / pow2 k)%Q.
Proof. intros L. apply (Qmult_le_r _ _ (pow2 k) (pow2_pos k)). rewrite !div_pow2. exact L. Qed.

(* at most 2^53 units *)
Lemma units_bound q : (0 < q)%Q -> 0 <= half_even (q / pow2 (expo q)) <= 2 ^ 53.
Proof.
  intros P. set (k := expo q). assert (K : exponent q - 52 <= k /\ -1074 <= k) by (unfold k, expo; lia). split.
  - rewrite <- (half_even_Z 0 0 ltac:(reflexivity)) at 1. apply half_even_mono. setoid_replace 0%Q with (0 / pow2 k)%Q by (unfold Qdiv; ring). apply div_pow2_le. lra.
  - rewrite <- (half_even_Z (2 ^ 53) (inject_Z (2 ^ 53)) ltac:(reflexivity)). apply half_even_mono.
    apply (Qmult_le_r _ _ (pow2 k) (pow2_pos k)). rewrite div_pow2. destruct (exponent_spec q P) as [_ U].
    rewrite <- (pow2_Z 53) by lia. rewrite <- pow2_plus. pose proof (pow2_le (exponent q + 1) (53 + k) ltac:(lia)). lra.
Qed.
Lemma round_pos_float q : (0 < q)%Q -> float64 (round_pos q).
Proof.
  intros P. pose proof (units_bound q P) as B. exists (half_even (q / pow2 (expo q))), (expo q). split; [lia|]. split; [unfold expo; lia|]. reflexivity.
Qed.
Lemma round_pos_error q : (0 < q)%Q -> (Qabs (round_pos q - q) <= q * pow2 (-52) + pow2 (-1074))%Q.
Proof.
  intros P. unfold round_pos. fold (expo q). cbv zeta. set (k := expo q). destruct (exponent_spec q P) as [LO _].
  setoid_replace (inject_Z (half_even (q / pow2 k)) * pow2 k - q)%Q with ((inject_Z (half_even (q / pow2 k)) - q / pow2 k) * pow2 k)%Q
    by (transitivity (inject_Z (half_even (q / pow2 k)) * pow2 k - q / pow2 k * pow2 k)%Q; [rewrite div_pow2; reflexivity|ring]).
  rewrite Qabs_Qmult, (Qabs_pos (pow2 k)) by (apply Qlt_le_weak, pow2_pos). pose proof (half_even_error (q / pow2 k)) as HE.
  assert (U : (pow2 k <= q * pow2 (-52) + pow2 (-1074))%Q).
  { pose proof (pow2_pos (-52)). pose proof (pow2_pos (-1074)).
    assert (k = exponent q - 52 \/ k = -1074) as [-> | ->] by (unfold k, expo; lia).
    - setoid_replace (pow2 (exponent q - 52)) with (pow2 (exponent q) * pow2 (-52))%Q by (rewrite <- pow2_plus; reflexivity).
      assert (pow2 (exponent q) * pow2 (-52) <= q * pow2 (-52))%Q by (apply Qmult_le_compat_r; lra). lra.
    - assert (0 <= q * pow2 (-52))%Q by (apply Qmult_le_0_compat; lra). lra. }
  pose proof (pow2_pos k). apply Qle_trans with ((1 # 2) * pow2 k)%Q; [apply Qmult_le_compat_r; [exact HE|lra]|]. lra.
Qed.
Lemma round_pos_mono x y : (0 < x)%Q -> (x <= y)%Q -> (round_pos x <= round_pos y)%Q.
Proof.
  intros P L. pose proof (exponent_mono x y P L) as EM. unfold round_pos. fold (expo x) (expo y). cbv zeta.
  destruct (Z.eq_dec (expo x) (expo y)) as [->|N].
  - apply Qmult_le_compat_r; [|apply Qlt_le_weak, pow2_pos]. rewrite <- Zle_Qle. apply half_even_mono, div_pow2_le, L.
  - assert (KY : expo y = exponent y - 52 /\ expo x < expo y) by (unfold expo in *; lia). destruct KY as [KY KL].
    apply Qle_trans with (inject_Z (2 ^ 53) * pow2 (expo x))%Q.
    + apply Qmult_le_compat_r; [|apply Qlt_le_weak, pow2_pos]. rewrite <- Zle_Qle. apply units_bound, P.
    + rewrite <- (pow2_Z 53) by lia. rewrite <- pow2_plus.
      apply Qle_trans with (inject_Z (2 ^ 52) * pow2 (expo y))%Q.
      * rewrite <- (pow2_Z 52) by lia. rewrite <- pow2_plus. apply pow2_le. lia.
      * apply Qmult_le_compat_r; [|apply Qlt_le_weak, pow2_pos]. rewrite <- Zle_Qle.
        rewrite <- (half_even_Z (2 ^ 52) (inject_Z (2 ^ 52)) ltac:(reflexivity)) at 1. apply half_even_mono.
        apply (Qmult_le_r _ _ (pow2 (expo y)) (pow2_pos _)). rewrite div_pow2. rewrite <- (pow2_Z 52) by lia. rewrite <- pow2_plus, KY.
        replace (52 + (exponent y - 52)) with (exponent y) by lia. apply exponent_spec. lra.
Qed.
Lemma round_pos_id q : (0 < q)%Q -> float64 q -> (round_pos q == q)%Q.
Proof.
  intros P (m & k & BM & BK & EQ).
  assert (PM : 0 < m). { destruct (Z.lt_ge_cases 0 m) as [|G]; [assumption|exfalso]. assert (inject_Z m <= 0)%Q by (change 0%Q with (inject_Z 0); rewrite <- Zle_Qle; lia).
    pose proof (pow2_pos k). assert (inject_Z m * pow2 k <= 0 * pow2 k)%Q by (apply Qmult_le_compat_r; lra). lra. }
  assert (K : forall m k, 0 < m < 2 ^ 53 -> -1074 <= k -> (q == inject_Z m * pow2 k)%Q -> (round_pos q == q)%Q).
  { clear m k BM BK EQ PM. intros m k BM BK EQ.
    assert (EL : exponent q < 53 + k). { apply exponent_lt; [exact P|]. rewrite EQ, pow2_plus. apply Qmult_lt_compat_r; [apply pow2_pos|]. rewrite pow2_Z by lia. rewrite <- Zlt_Qlt. lia. }
    assert (EK : expo q <= k) by (unfold expo; lia).
    unfold round_pos. fold (expo q). cbv zeta. set (e := expo q) in *. clearbody e. rewrite (half_even_Z (m * 2 ^ (k - e))).
    - rewrite inject_Z_mult, <- pow2_Z by lia. rewrite <- Qmult_assoc, <- pow2_plus. replace (k - e + e) with k by lia. symmetry. exact EQ.
    - rewrite inject_Z_mult, <- pow2_Z by lia. rewrite EQ. pose proof (pow2_pos e).
      setoid_replace (pow2 k) with (pow2 (k - e) * pow2 e)%Q by (rewrite <- pow2_plus; replace (k - e + e) with k by lia; reflexivity).
      field. lra. }
  destruct (Z.eq_dec m (2 ^ 53)) as [EM|NM]; [|apply (K m k); [lia|exact BK|exact EQ]].
  apply (K (2 ^ 52) (k + 1)); [lia|lia|]. rewrite EQ, EM, pow2_plus. change (pow2 1) with 2%Q. change (2 ^ 53) with (2 ^ 52 * 2). rewrite inject_Z_mult. change (inject_Z 2) with 2%Q. ring.
Qed.

(* ---- round64 ---- *)
Lemma round64_cases q : ((q == 0)%Q /\ round64 q = 0%Q) \/ ((0 < q)%Q /\ round64 q = round_pos q) \/ ((q < 0)%Q /\ round64 q = - round_pos (- q))%Q.
Proof. unfold round64. destruct (Qcompare_spec q 0) as [E|E|E]; auto. Qed.
Lemma round_pos_nonneg q : (0 < q)%Q -> (0 <= round_pos q)%Q.
Proof.
  intros P. unfold round_pos. fold (expo q). cbv zeta. apply Qmult_le_0_compat; [|apply Qlt_le_weak, pow2_pos].
  change 0%Q with (inject_Z 0). rewrite <- Zle_Qle. apply units_bound, P.
Qed.
Lemma float64_opp q : float64 q -> float64 (- q).
Proof. intros (m & k & A & B & E). exists (- m), k. split; [rewrite Z.abs_opp; exact A|]. split; [exact B|]. rewrite E, inject_Z_opp. ring. Qed.
Lemma float64_0 : float64 0.
Proof. exists 0, 0. split; [cbn; lia|]. split; [lia|reflexivity]. Qed.

Theorem round64_rounding : rounding round64.
Proof.
  constructor.
  - intros x. destruct (round64_cases x) as [[E ->]|[[P ->]|[N ->]]]; [apply float64_0|apply round_pos_float, P|]. apply float64_opp, round_pos_float. lra.
  - intros x F. destruct (round64_cases x) as [[E ->]|[[P ->]|[N ->]]]; [rewrite E; reflexivity|apply round_pos_id; assumption|].
    rewrite (round_pos_id (- x)); [ring|lra|apply float64_opp, F].
  - intros x y L. destruct (round64_cases x) as [[E ->]|[[P ->]|[N ->]]], (round64_cases y) as [[E' ->]|[[P' ->]|[N' ->]]]; try lra.
    + apply round_pos_nonneg, P'.
    + apply round_pos_mono; assumption.
    + pose proof (round_pos_nonneg (- x) ltac:(lra)). lra.
    + pose proof (round_pos_nonneg (- x) ltac:(lra)). pose proof (round_pos_nonneg y P'). lra.
    + pose proof (round_pos_mono (- y) (- x) ltac:(lra) ltac:(lra)). lra.
  - intros x. pose proof (pow2_pos (-52)). pose proof (pow2_pos (-1074)). destruct (round64_cases x) as [[E ->]|[[P ->]|[N ->]]].
    + rewrite E. change (Qabs (0 - 0)) with 0%Q. change (Qabs 0) with 0%Q. lra.
    + rewrite (Qabs_pos x) by lra. apply round_pos_error, P.
    + rewrite (Qabs_neg x) by lra. setoid_replace (- round_pos (- x) - x)%Q with (- (round_pos (- x) - (- x)))%Q by ring. rewrite Qabs_opp. apply round_pos_error. lra.
Qed.
