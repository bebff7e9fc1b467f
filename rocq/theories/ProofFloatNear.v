(* round64 rounds to a nearest float64 value. *)
From Coq Require Import Lia.
From Verif Require Import ModelBase ModelFloat SpecFloat64 ProofFloat ModelShapes64 SpecShapes64.
From Coq Require Import QArith Qround Qabs Lqa Lia.
Open Scope Z_scope.

Lemma abs_le a b : (- b <= a -> a <= b -> Qabs a <= b)%Q.
Proof. intros. apply Qabs_Qle_condition. split; assumption. Qed.
Lemma abs_both a : (a <= Qabs a /\ - a <= Qabs a)%Q.
Proof. split; [apply Qle_Qabs|]. rewrite <- Qabs_opp. apply Qle_Qabs. Qed.
(* no whole number is nearer than half_even *)
Lemma half_even_near q z : (Qabs (inject_Z (half_even q) - q) <= Qabs (inject_Z z - q))%Q.
Proof.
  pose proof (half_even_error q) as HE. destruct (Z.eq_dec z (half_even q)) as [->|N]; [lra|].
  assert (D : (inject_Z z <= inject_Z (half_even q) - 1 \/ inject_Z (half_even q) + 1 <= inject_Z z)%Q).
  { change 1%Q with (inject_Z 1). unfold Qminus. rewrite <- inject_Z_opp, <- !inject_Z_plus, <- !Zle_Qle. lia. }
  pose proof (abs_both (inject_Z z - q)) as [A1 A2]. pose proof (abs_both (inject_Z (half_even q) - q)) as [B1 B2]. destruct D; lra.
Qed.
Lemma half_even_grid q z k : (Qabs (inject_Z (half_even (q / pow2 k)) * pow2 k - q) <= Qabs (inject_Z z * pow2 k - q))%Q.
Proof.
  assert (E : forall u, (Qabs (u * pow2 k - q) == Qabs (u - q / pow2 k) * pow2 k)%Q).
  { intros u. rewrite <- (Qabs_pos (pow2 k)) at 3 by (apply Qlt_le_weak, pow2_pos). rewrite <- Qabs_Qmult. apply Qabs_wd.
    transitivity (u * pow2 k - q / pow2 k * pow2 k)%Q; [rewrite div_pow2; reflexivity|ring]. }
  rewrite !E. apply Qmult_le_compat_r; [apply half_even_near|apply Qlt_le_weak, pow2_pos].
Qed.
Lemma round_pos_near x y : (0 < x)%Q -> float64 y -> (Qabs (round_pos x - x) <= Qabs (y - x))%Q.
Proof.
  intros P (m & j & BM & BJ & EY). unfold round_pos. fold (expo x). cbv zeta. set (k := expo x).
  destruct (Z.le_gt_cases k j) as [KJ|KJ].
  - assert (E : (y == inject_Z (m * 2 ^ (j - k)) * pow2 k)%Q).
    { rewrite EY, inject_Z_mult, <- pow2_Z by lia. rewrite <- Qmult_assoc, <- pow2_plus. replace (j - k + k) with j by lia. reflexivity. }
    rewrite E. apply half_even_grid.
  - assert (KE : k = exponent x - 52) by (unfold k, expo in *; lia). destruct (exponent_spec x P) as [LO _].
    assert (EG : (pow2 (exponent x) == inject_Z (2 ^ 52) * pow2 k)%Q) by (rewrite <- (pow2_Z 52) by lia; rewrite <- pow2_plus; replace (52 + k) with (exponent x) by lia; reflexivity).
    assert (YB : (y <= pow2 (exponent x))%Q).
    { rewrite EY. replace (exponent x) with (53 + (k - 1)) by lia. rewrite pow2_plus. pose proof (pow2_pos j). pose proof (pow2_le j (k - 1) ltac:(lia)).
      assert (M : (inject_Z m <= pow2 53)%Q) by (rewrite (pow2_Z 53) by lia; rewrite <- Zle_Qle; lia). pose proof (pow2_pos 53).
      apply Qle_trans with (pow2 53 * pow2 j)%Q; [apply Qmult_le_compat_r; [exact M|lra]|]. rewrite !(Qmult_comm (pow2 53)). apply Qmult_le_compat_r; lra. }
    eapply Qle_trans; [apply (half_even_grid x (2 ^ 52) k)|]. rewrite <- EG.
    pose proof (abs_both (y - x)) as [A1 A2]. apply abs_le; lra.
Qed.
Theorem round64_nearest : round_nearest round64.
Proof.
  split; [apply round64_rounding|]. intros x y F. destruct (round64_cases x) as [[E ->]|[[P ->]|[N ->]]].
  - apply Qle_trans with 0%Q; [rewrite E; cbn; lra|apply Qabs_nonneg].
  - apply round_pos_near; assumption.
  - pose proof (round_pos_near (- x) (- y) ltac:(lra) (float64_opp y F)) as A.
    setoid_replace (- round_pos (- x) - x)%Q with (- (round_pos (- x) - - x))%Q by ring. rewrite Qabs_opp.
    setoid_replace (y - x)%Q with (- (- y - - x))%Q by ring. rewrite Qabs_opp. exact A.
Qed.
