From Coq Require Import Lia.
From Verif Require Import ModelBase ModelStandard ModelFloat ModelExample SpecStandard SpecShape SpecFloat64 ProofBase ProofStandard ProofShape ProofFloat.
From Coq Require Import QArith Qabs Lqa.
Open Scope Z_scope.

Lemma to_int_floor v n : 0 <= n -> (inject_Z n <= v)%Q -> n <= to_int v.
Proof.
  unfold Qle, to_int, inject_Z. cbn [Qnum Qden]. intros N HL. rewrite Z.quot_div_nonneg by nia. apply Z.div_le_lower_bound; lia.
Qed.
Lemma to_int_above v n : 0 <= n -> (0 <= v)%Q -> (v <= inject_Z n)%Q -> to_int v <= n.
Proof.
  unfold Qle, to_int, inject_Z. cbn [Qnum Qden]. intros N H0 HL. rewrite Z.quot_div_nonneg by nia. apply Z.div_le_upper_bound; lia.
Qed.
Lemma to_int_small v : (0 <= v)%Q -> (v < 1)%Q -> to_int v = 0.
Proof. unfold Qle, Qlt, to_int. cbn [Qnum Qden]. intros. rewrite Z.quot_small; lia. Qed.

Lemma small_float z : Z.abs z <= 2 ^ 53 -> float64 (inject_Z z).
Proof. intros. exists z, 0. split; [assumption|]. split; [lia|]. unfold pow2. cbn [Qpower]. ring. Qed.

Lemma inject_le a b : a <= b -> (inject_Z a <= inject_Z b)%Q.
Proof. unfold Qle, inject_Z. cbn [Qnum Qden]. lia. Qed.

(* the radius lies between 0 and that of the full circle, and is at least n if the exact product is *)
Lemma radius_range percent k : (0 <= percent)%Q -> (percent <= 1)%Q -> 0 <= circle_radius k <= 2 ^ 53 ->
  0 <= smaller_radius percent k <= circle_radius k /\
  forall n, 0 <= n -> n <= 2 ^ 53 -> (inject_Z n <= inject_Z (circle_radius k) * percent)%Q -> n <= smaller_radius percent k.
Proof.
  intros P0 P1 R. unfold smaller_radius. pose proof round64_rounding as RR. set (r := circle_radius k) in *.
  assert (IR : (0 <= inject_Z r)%Q) by (apply (inject_le 0); lia).
  assert (LO : forall n, 0 <= n -> n <= 2 ^ 53 -> (inject_Z n <= inject_Z r * percent)%Q -> n <= to_int (round64 (inject_Z r * percent))).
  { intros n N0 N1 HL. apply to_int_floor; [exact N0|]. pose proof (r_mono _ RR _ _ HL) as MO. pose proof (r_id _ RR (inject_Z n) (small_float n ltac:(lia))) as E. lra. }
  assert (Z0 : (inject_Z 0 <= inject_Z r * percent)%Q) by (change (inject_Z 0) with 0%Q; nra).
  split; [|exact LO]. split; [apply LO; [lia|lia|exact Z0]|].
  apply to_int_above; [lia| |].
  - pose proof (r_mono _ RR _ _ Z0) as MO. pose proof (r_id _ RR (inject_Z 0) (small_float 0 ltac:(lia))) as E. change (inject_Z 0) with 0%Q in *. lra.
  - apply Qle_trans with (round64 (inject_Z r)); [apply (r_mono _ RR); nra|]. pose proof (r_id _ RR (inject_Z r) (small_float r ltac:(lia))) as E. lra.
Qed.
Lemma full_radius k : 0 <= circle_radius k <= 2 ^ 53 -> smaller_radius 1 k = circle_radius k.
Proof.
  intros R. destruct (radius_range 1 k ltac:(lra) ltac:(lra) R) as [B G]. specialize (G (circle_radius k) ltac:(lia) ltac:(lia)).
  assert (X : (inject_Z (circle_radius k) <= inject_Z (circle_radius k) * 1)%Q) by lra. specialize (G X). lia.
Qed.

(* a disc that is large enough to cover the pixel in the middle *)
Lemma disc_proper edge bw r cv k : 0 < bw -> k_tx k = 0 -> k_ty k = 0 -> k_w k = bw -> k_h k = bw -> 0 <= r <= bw / 2 ->
  2 <= r \/ (r = 1 /\ bw mod 2 = 1) ->
  (forall px py, ~ in_box k px py -> disc_fill edge r cv k px py = cv px py) /\
  disc_fill edge r cv k (k_x k + bw / 2) (k_y k + bw / 2) = over (cv (k_x k + bw / 2) (k_y k + bw / 2)) (k_color k).
Proof.
  intros HB TX TY EW EH HR BIG. unfold disc_fill.
  pose proof (Z.div_mod bw 2 ltac:(lia)) as DM. pose proof (Z.mod_pos_bound bw 2 ltac:(lia)) as MM. set (d := bw / 2) in *.
  destruct (Z.eqb_spec r 0); [lia|]. cbn [orb]. assert (AR : Z.abs r = r) by lia.
  assert (CX : circle_cx6 k = 6 * k_x k + 3 * bw) by (unfold circle_cx6; lia). assert (CY : circle_cy6 k = 6 * k_y k + 3 * bw) by (unfold circle_cy6; lia). split.
  - intros px py HN. assert (EO : disc_outside r k px py = true).
    { unfold disc_outside. rewrite CX, CY, AR. unfold in_box in HN. rewrite EW, EH in HN. rewrite !orb_true_iff, !Z.leb_le. lia. }
    rewrite EO. reflexivity.
  - assert (EO : disc_outside r k (k_x k + d) (k_y k + d) = false).
    { unfold disc_outside. rewrite CX, CY, AR. cbv zeta.
      replace (Z.max 0 (Z.max (6 * (k_x k + d) - (6 * k_x k + 3 * bw)) (6 * k_x k + 3 * bw - 6 * (k_x k + d) - 6))) with 0 by lia.
      replace (Z.max 0 (Z.max (6 * (k_y k + d) - (6 * k_y k + 3 * bw)) (6 * k_y k + 3 * bw - 6 * (k_y k + d) - 6))) with 0 by lia.
      rewrite !orb_false_iff, !Z.leb_gt. repeat split; try nia. }
    assert (EI : disc_inside r k (k_x k + d) (k_y k + d) = true).
    { unfold disc_inside. rewrite CX, CY. cbn [forallb]. rewrite !andb_true_iff, !Z.leb_le.
      set (e := bw mod 2) in *. replace (3 * bw) with (6 * d + 3 * e) by lia.
      assert (e = 0 \/ e = 1) as [E | E] by lia; rewrite E.
      - assert (2 <= r) by lia. repeat split; try reflexivity;
        match goal with |- 100 * (?u * ?u + ?v * ?v) <= _ => assert (-6 <= u <= 6) by lia; assert (-6 <= v <= 6) by lia; assert (u * u <= 36) by nia; assert (v * v <= 36) by nia; nia end.
      - repeat split; try reflexivity;
        match goal with |- 100 * (?u * ?u + ?v * ?v) <= _ => assert (-3 <= u <= 3) by lia; assert (-3 <= v <= 3) by lia; assert (u * u <= 9) by nia; assert (v * v <= 9) by nia; nia end. }
    rewrite EO, EI. reflexivity.
Qed.

Lemma square_radius k bw : 0 <= bw -> k_w k = bw -> k_h k = bw -> circle_radius k = bw / 2.
Proof. intros B EW EH. unfold circle_radius. rewrite EW, EH, Z.leb_refl. apply Z.quot_div_nonneg; lia. Qed.

Lemma smaller_proper edge percent bw : (0 <= percent)%Q -> (percent <= 1)%Q -> 3 <= bw <= 2 ^ 53 ->
  (2 <= inject_Z (bw / 2) * percent)%Q \/ ((1 <= inject_Z (bw / 2) * percent)%Q /\ bw mod 2 = 1) ->
  proper_shape (smaller_shape edge percent) bw (bw / 2).
Proof.
  intros P0 P1 HB BIG cv k TX TY EW EH. unfold smaller_shape, smaller_Draw.
  pose proof (square_radius k bw ltac:(lia) EW EH) as CR. assert (D : 0 <= bw / 2 <= 2 ^ 53) by (split; [apply Z.div_pos; lia|apply Z.div_le_upper_bound; lia]).
  assert (RR : exists p, (if k_finder k then 1%Q else percent) = p /\ (0 <= p)%Q /\ (p <= 1)%Q /\
    ((2 <= inject_Z (bw / 2) * p)%Q \/ ((1 <= inject_Z (bw / 2) * p)%Q /\ bw mod 2 = 1))).
  { destruct (k_finder k); [|exists percent; repeat split; assumption]. exists 1%Q. split; [reflexivity|]. split; [lra|]. split; [lra|].
    assert (IR : (0 <= inject_Z (bw / 2))%Q) by (apply (inject_le 0); lia).
    destruct BIG as [B|[B O]]; [left|right; split; [|exact O]]; nra. }
  destruct RR as (p & -> & Q0 & Q1 & BG). rewrite <- CR in D. destruct (radius_range p k Q0 Q1 D) as [[RA RB] RG].
  rewrite CR in *.
  apply disc_proper; try assumption; try lia.
  destruct BG as [B|[B O]].
  - left. apply RG; [lia|lia|]. exact B.
  - specialize (RG 1 ltac:(lia) ltac:(lia) B). destruct (Z.eq_dec (smaller_radius p k) 1); [right; split; assumption|left; lia].
Qed.

(* when the exact product is below 1 by more than the rounding error, nothing is drawn *)
Lemma calls_pure edge percent ks cv : fold_left (smaller_call edge) ks (percent, cv) = (percent, fold_left (smaller_shape edge percent) ks cv).
Proof.
  revert cv. induction ks as [|k ks IH]; intros cv; [reflexivity|]. cbn [fold_left]. rewrite <- IH. f_equal. unfold smaller_call, smaller_shape. destruct (k_finder k); reflexivity.
Qed.
