(* Circles drawn with float64 coordinates. *)
From Coq Require Import Lia.
From Verif Require Import ModelBase ModelMatrix ModelFloat ModelStandard ModelExample ModelHalftone64.
From Verif Require Import SpecMatrix SpecStandard SpecMedium SpecFloat64 SpecShape SpecShapes SpecCombine.
From Verif Require Import ProofBase ProofMatrix ProofStandard ProofFloat ProofShape ProofLinks ProofShapes64 ProofHalftone64.
From Coq Require Import QArith Qabs Lqa Lia.
Open Scope Z_scope.

Section Float.
Context (rnd : Q -> Q) (fused : bool) (RR : rounding rnd) (edge : call_f -> Z -> Z -> rgba -> rgba).
Local Notation keep := (keep rnd). Local Notation as_call := (as_call rnd fused).

(* one axis *)
Lemma centre_axis z block i w : in_range z -> 1 <= block <= 255 -> 0 <= i <= 2 -> 0 <= w <= 255 ->
  let c := keep (sub_at rnd fused (keep (inject_Z z)) i (halftoneW rnd block) + keep (keep (inject_Z w) / 2)) in
  (Qabs (c - (inject_Z z + inject_Z (i * block) * (1 # 3) + inject_Z w * (1 # 2))) <= 1 # 100000)%Q /\
  (i = 0 \/ block mod 3 = 0 -> (c == inject_Z z + inject_Z (i * block) * (1 # 3) + inject_Z w * (1 # 2))%Q).
Proof.
  intros RZ HB HI HW. cbv zeta. pose proof (keep_int rnd RR w ltac:(unfold in_range; lia)) as KW.
  assert (KH : (keep (keep (inject_Z w) / 2) == inject_Z w * (1 # 2))%Q).
  { rewrite keep_q, (rq rnd RR _ (inject_Z w * (1 # 2))) by (rewrite KW; field). apply (r_id _ RR). exists w, (-1). split; [lia|]. split; [lia|reflexivity]. }
  pose proof (sub_q64 rnd fused RR z block i RZ HB HI) as E. set (v := sub_at _ _ _ _ _) in *. rewrite keep_q, (rq rnd RR _ (v + inject_Z w * (1 # 2))) by (rewrite KH; reflexivity).
  destruct (range_q z RZ) as [Z1 Z2]. apply abs_le_iff in E as [E1 E2]. assert (W1 : (0 <= inject_Z w)%Q) by (apply (zq 0); lia). assert (W2 : (inject_Z w <= 255)%Q) by (apply (zq _ 255); lia).
  assert (IB : (0 <= inject_Z (i * block) /\ inject_Z (i * block) <= 510)%Q) by (split; [apply (zq 0)|apply (zq _ 510)]; nia). destruct IB as [IB1 IB2]. split.
  - assert (A : (Qabs (v + inject_Z w * (1 # 2)) <= 4294968000)%Q) by (apply abs_le_iff; lra). pose proof (error_bound rnd RR _ _ A) as EB. apply abs_le_iff in EB as [EB1 EB2]. apply abs_le_iff. lra.
  - intros HX. assert (V : exists u, 0 <= u <= 510 /\ (v == inject_Z (z + u))%Q /\ (inject_Z (i * block) * (1 # 3) == inject_Z u)%Q).
    { destruct HX as [-> | HM].
      - exists 0. split; [lia|]. split; [unfold v; rewrite sub_zero, (keep_int rnd RR z RZ), Z.add_0_r by exact RR; reflexivity|reflexivity].
      - pose proof (Z.div_mod block 3 ltac:(lia)) as DM. exists (i * (block / 3)). split; [nia|]. split; [apply sub_exact; assumption|]. rewrite !inject_Z_mult. rewrite DM at 1. rewrite HM, inject_Z_plus, inject_Z_mult. change (inject_Z 3) with 3%Q. change (inject_Z 0) with 0%Q. field. }
    destruct V as (u & U & EV & EU). rewrite EU.
    assert (F : float64 (v + inject_Z w * (1 # 2))).
    { exists (2 * (z + u) + w), (-1). split; [unfold in_range in RZ; lia|]. split; [lia|]. rewrite EV. rewrite !inject_Z_plus, inject_Z_mult, inject_Z_plus. change (pow2 (-1)) with (1 # 2)%Q. change (inject_Z 2) with 2%Q. field. }
    rewrite (r_id _ RR _ F), EV, inject_Z_plus. reflexivity.
Qed.

Lemma circle_paints_f cv k px py r (e : Q) : radius_f k = r -> ((e <= 1 # 2)%Q /\ 1 <= r) \/ ((e <= 101 # 100)%Q /\ 2 <= r) ->
  (Qabs (inject_Z px - centre_x rnd k) <= e)%Q -> (Qabs (inject_Z (px + 1) - centre_x rnd k) <= e)%Q -> (Qabs (inject_Z py - centre_y rnd k) <= e)%Q -> (Qabs (inject_Z (py + 1) - centre_y rnd k) <= e)%Q ->
  circle_f rnd edge cv k px py = over (cv px py) (f_color k).
Proof.
  intros ER HE X1 X2 Y1 Y2. unfold circle_f. rewrite ER. assert (R1 : 1 <= r) by lia. destruct (Z.eqb_spec r 0); [lia|]. cbn [orb].
  set (cx := centre_x rnd k) in *. set (cy := centre_y rnd k) in *. apply abs_le_iff in X1, X2, Y1, Y2.
  assert (RQ : ((e <= 1 # 2 /\ 1 <= inject_Z r) \/ (e <= 101 # 100 /\ 2 <= inject_Z r))%Q) by (destruct HE as [[A B]|[A B]]; [left|right]; split; auto; [apply (zq 1)|apply (zq 2)]; exact B).
  assert (EL : (e < inject_Z r)%Q) by (destruct RQ as [[A B]|[A B]]; lra).
  assert (P1 : (inject_Z (px + 1) == inject_Z px + 1)%Q) by (rewrite inject_Z_plus; reflexivity). assert (P2 : (inject_Z (py + 1) == inject_Z py + 1)%Q) by (rewrite inject_Z_plus; reflexivity).
  assert (R2 : (inject_Z (r * r) == inject_Z r * inject_Z r)%Q) by (rewrite inject_Z_mult; reflexivity).
  assert (SQ : forall u, (- e <= u /\ u <= e -> u * u <= e * e)%Q) by (intros u U; nra).
  assert (EO : outside_f rnd k px py = false).
  { unfold outside_f. rewrite ER. fold cx cy. cbv zeta. rewrite !orb_false_iff.
    assert (NB : forall a b, (b < a)%Q -> Qle_bool a b = false) by (intros a b L; destruct (Qle_bool a b) eqn:EB; [apply Qle_bool_iff in EB; lra|reflexivity]).
    repeat split; try (apply NB; lra). apply NB. rewrite R2.
    assert (BE : forall p c, (- e <= inject_Z p - c /\ inject_Z p - c <= e)%Q -> (- e <= inject_Z (p + 1) - c /\ inject_Z (p + 1) - c <= e)%Q -> (beyond p c * beyond p c <= e * e)%Q).
    { intros p c A B. unfold beyond. destruct (Qle_bool c (inject_Z p)); [apply SQ; lra|]. destruct (Qle_bool _ c); [apply SQ; lra|]. nra. }
    pose proof (BE px cx X1 X2). pose proof (BE py cy Y1 Y2). destruct RQ as [[A B]|[A B]]; nra. }
  assert (EI : inside_f rnd k px py = true).
  { unfold inside_f. rewrite ER. fold cx cy. cbn [forallb]. rewrite !andb_true_iff, !Qle_bool_iff, !Z.add_0_r, R2.
    pose proof (SQ _ X1). pose proof (SQ _ X2). pose proof (SQ _ Y1). pose proof (SQ _ Y2).
    assert (B2 : (2 * (e * e) <= (81 # 100) * (inject_Z r * inject_Z r))%Q) by (destruct RQ as [[A B]|[A B]]; nra).
    repeat split; try reflexivity; lra. }
  rewrite EO, EI. reflexivity.
Qed.
Lemma circle_misses_f cv k px py :
  (inject_Z (px + 1) <= centre_x rnd k - inject_Z (radius_f k) \/ centre_x rnd k + inject_Z (radius_f k) <= inject_Z px \/
   inject_Z (py + 1) <= centre_y rnd k - inject_Z (radius_f k) \/ centre_y rnd k + inject_Z (radius_f k) <= inject_Z py)%Q -> circle_f rnd edge cv k px py = cv px py.
Proof.
  intros HO. unfold circle_f. replace (outside_f rnd k px py) with true; [rewrite orb_true_r; reflexivity|]. symmetry. unfold outside_f. rewrite !orb_true_iff, !Qle_bool_iff. tauto.
Qed.
Lemma radius_half_f block k w : k_w k = w -> k_h k = w -> 0 <= w -> radius_f (as_call block k) = w / 2.
Proof. intros EW EH W. unfold radius_f, ProofHalftone64.as_call. cbn [f_w f_h]. rewrite EW, EH, Z.leb_refl. apply Z.quot_div_nonneg; lia. Qed.

(* pixels and numbers *)
Ltac push := repeat first [rewrite inject_Z_plus|rewrite inject_Z_mult|rewrite inject_Z_opp].
Lemma zq_iff6 a b : (6 * a <= b)%Z -> (inject_Z a <= inject_Z b * (1 # 6))%Q.
Proof. intros L. apply zq in L. rewrite inject_Z_mult in L. change (inject_Z 6) with 6%Q in L. lra. Qed.
Lemma zq_iff6' a b : (a <= 6 * b)%Z -> (inject_Z a * (1 # 6) <= inject_Z b)%Q.
Proof. intros L. apply zq in L. rewrite inject_Z_mult in L. change (inject_Z 6) with 6%Q in L. lra. Qed.

Lemma circle_plain bw cv k : 3 <= bw <= 255 -> in_range (k_x k) -> in_range (k_y k) -> k_tx k = 0 -> k_ty k = 0 -> k_w k = bw -> k_h k = bw ->
  let d := (bw - 1) / 2 in
  (forall px py, ~ in_box k px py -> circle_f rnd edge cv (as_call bw k) px py = cv px py) /\
  circle_f rnd edge cv (as_call bw k) (k_x k + d) (k_y k + d) = over (cv (k_x k + d) (k_y k + d)) (k_color k).
Proof.
  intros HB RX RY TX TY EW EH d. pose proof (radius_half_f bw k bw EW EH ltac:(lia)) as ER.
  pose proof (Z.div_mod bw 2 ltac:(lia)) as DM. pose proof (Z.mod_pos_bound bw 2 ltac:(lia)) as MM.
  pose proof (Z.div_mod (bw - 1) 2 ltac:(lia)) as DM'. pose proof (Z.mod_pos_bound (bw - 1) 2 ltac:(lia)) as MM'. fold d in DM'. set (r := bw / 2) in *.
  destruct (centre_axis (k_x k) bw 0 bw RX ltac:(lia) ltac:(lia) ltac:(lia)) as [_ CX]. specialize (CX (or_introl eq_refl)).
  destruct (centre_axis (k_y k) bw 0 bw RY ltac:(lia) ltac:(lia) ltac:(lia)) as [_ CY]. specialize (CY (or_introl eq_refl)).
  assert (CX' : (centre_x rnd (as_call bw k) == inject_Z (2 * k_x k + bw) * (1 # 2))%Q).
  { unfold centre_x, ProofHalftone64.as_call. cbn [f_x f_w]. rewrite EW, TX, Z.div_0_l by lia. rewrite CX. change (inject_Z (0 * bw)) with 0%Q. rewrite inject_Z_plus, inject_Z_mult. change (inject_Z 2) with 2%Q. field. }
  assert (CY' : (centre_y rnd (as_call bw k) == inject_Z (2 * k_y k + bw) * (1 # 2))%Q).
  { unfold centre_y, ProofHalftone64.as_call. cbn [f_y f_h]. rewrite EH, TY, Z.div_0_l by lia. rewrite CY. change (inject_Z (0 * bw)) with 0%Q. rewrite inject_Z_plus, inject_Z_mult. change (inject_Z 2) with 2%Q. field. }
  clear CX CY.
  assert (QL : forall a b, 2 * a <= b -> (inject_Z a <= inject_Z b * (1 # 2))%Q) by (intros a b L; apply zq in L; rewrite inject_Z_mult in L; change (inject_Z 2) with 2%Q in L; lra).
  assert (QG : forall a b, b <= 2 * a -> (inject_Z b * (1 # 2) <= inject_Z a)%Q) by (intros a b L; apply zq in L; rewrite inject_Z_mult in L; change (inject_Z 2) with 2%Q in L; lra).
  split.
  - intros px py HN. apply circle_misses_f. rewrite ER, CX', CY'. unfold in_box in HN. rewrite EW, EH in HN.
    assert (C : px + 1 <= k_x k \/ k_x k + bw <= px \/ py + 1 <= k_y k \/ k_y k + bw <= py) by lia.
    destruct C as [C|[C|[C|C]]]; [left|right; left|right; right; left|right; right; right].
    + pose proof (QL (px + 1 + r) (2 * k_x k + bw) ltac:(lia)) as L. rewrite inject_Z_plus in L. lra.
    + pose proof (QG (px - r) (2 * k_x k + bw) ltac:(lia)) as L. unfold Z.sub in L. rewrite (inject_Z_plus px), inject_Z_opp in L. lra.
    + pose proof (QL (py + 1 + r) (2 * k_y k + bw) ltac:(lia)) as L. rewrite inject_Z_plus in L. lra.
    + pose proof (QG (py - r) (2 * k_y k + bw) ltac:(lia)) as L. unfold Z.sub in L. rewrite (inject_Z_plus py), inject_Z_opp in L. lra.
  - assert (AB : forall z p e, (e = 1 \/ e = 2) -> (2 * z + bw - e <= 2 * p <= 2 * z + bw + e)%Z -> (Qabs (inject_Z p - inject_Z (2 * z + bw) * (1 # 2)) <= inject_Z e * (1 # 2))%Q).
    { intros z p e HE [L1 L2]. apply zq in L1, L2. unfold Z.sub in L1. rewrite (inject_Z_plus _ (- e)), inject_Z_opp, (inject_Z_mult 2 p) in L1. rewrite (inject_Z_plus _ e), (inject_Z_mult 2 p) in L2. change (inject_Z 2) with 2%Q in L1, L2. apply abs_le_iff. lra. }
    destruct (Z.eq_dec (bw mod 2) 1) as [OD|EV].
    + assert (K : circle_f rnd edge cv (as_call bw k) (k_x k + d) (k_y k + d) = over (cv (k_x k + d) (k_y k + d)) (f_color (as_call bw k))); [|exact K].
      apply (circle_paints_f cv _ _ _ r (inject_Z 1 * (1 # 2))%Q ER); [left; split; [vm_compute; discriminate|lia]|rewrite CX'|rewrite CX'|rewrite CY'|rewrite CY']; apply (AB _ _ 1); lia.
    + assert (K : circle_f rnd edge cv (as_call bw k) (k_x k + d) (k_y k + d) = over (cv (k_x k + d) (k_y k + d)) (f_color (as_call bw k))); [|exact K].
      apply (circle_paints_f cv _ _ _ r (inject_Z 2 * (1 # 2))%Q ER); [right; split; [vm_compute; discriminate|lia]|rewrite CX'|rewrite CX'|rewrite CY'|rewrite CY']; apply (AB _ _ 2); lia.
Qed.

(* sub-blocks *)
Lemma circle_sub_f bw cv k i j : halftone_circle_width bw -> bw <= 255 -> in_range (k_x k) -> in_range (k_y k) -> sub_block k bw i j ->
  let d := (bw - 1) / 2 in
  (forall a b, ~ (i = 1 /\ j = 1 /\ a = 0 /\ b = 0) -> let px := k_x k + a * bw + d in let py := k_y k + b * bw + d in circle_f rnd edge cv (as_call bw k) px py = cv px py) /\
  (i = 1 -> j = 1 -> circle_f rnd edge cv (as_call bw k) (k_x k + d) (k_y k + d) = over (cv (k_x k + d) (k_y k + d)) (k_color k)).
Proof.
  intros HW B255 RX RY (HI & HJ & _ & TX & TY & KW & KH & _) d. assert (B3 : 9 <= bw) by (unfold halftone_circle_width in HW; lia).
  pose proof (Z.div_mod bw 3 ltac:(lia)) as DM. pose proof (Z.mod_pos_bound bw 3 ltac:(lia)) as MM. set (h := bw / 3) in *.
  pose proof (radius_half_f bw k h KW KH ltac:(lia)) as ER. pose proof (Z.div_mod h 2 ltac:(lia)) as DH. pose proof (Z.mod_pos_bound h 2 ltac:(lia)) as MH. set (r := h / 2) in *.
  pose proof (Z.div_mod (bw - 1) 2 ltac:(lia)) as DM'. pose proof (Z.mod_pos_bound (bw - 1) 2 ltac:(lia)) as MM'. fold d in DM'.
  destruct (centre_axis (k_x k) bw i h RX ltac:(lia) HI ltac:(lia)) as [CX CX0]. destruct (centre_axis (k_y k) bw j h RY ltac:(lia) HJ ltac:(lia)) as [CY CY0].
  assert (EX : centre_x rnd (as_call bw k) = keep (sub_at rnd fused (keep (inject_Z (k_x k))) i (halftoneW rnd bw) + keep (keep (inject_Z h) / 2))).
  { unfold centre_x, ProofHalftone64.as_call. cbn [f_x f_w]. rewrite KW, TX, Z.div_mul by lia. reflexivity. }
  assert (EY : centre_y rnd (as_call bw k) = keep (sub_at rnd fused (keep (inject_Z (k_y k))) j (halftoneW rnd bw) + keep (keep (inject_Z h) / 2))).
  { unfold centre_y, ProofHalftone64.as_call. cbn [f_y f_h]. rewrite KH, TY, Z.div_mul by lia. reflexivity. }
  rewrite <- EX in CX, CX0. rewrite <- EY in CY, CY0. clear EX EY. set (cx := centre_x rnd (as_call bw k)) in *. set (cy := centre_y rnd (as_call bw k)) in *.
  assert (E6 : forall z i, (inject_Z z + inject_Z (i * bw) * (1 # 3) + inject_Z h * (1 # 2) == inject_Z (6 * z + 2 * (i * bw) + 3 * h) * (1 # 6))%Q).
  { intros z i0. rewrite !inject_Z_plus, !(inject_Z_mult 6), !(inject_Z_mult 2), !(inject_Z_mult 3). change (inject_Z 6) with 6%Q. change (inject_Z 2) with 2%Q. change (inject_Z 3) with 3%Q. field. }
  rewrite E6 in CX, CX0, CY, CY0. apply abs_le_iff in CX as [CX1 CX2], CY as [CY1 CY2].
  set (X6 := 6 * k_x k + 2 * (i * bw) + 3 * h) in *. set (Y6 := 6 * k_y k + 2 * (j * bw) + 3 * h) in *.
  (* for integers apart by 1/6 pixel and more the rounding does not matter *)
  assert (LO : forall p c C6, (- (1 # 100000) <= c - inject_Z C6 * (1 # 6))%Q -> 6 * p + 1 <= C6 - 6 * r -> (inject_Z p <= c - inject_Z r)%Q).
  { intros p c C6 HC L. pose proof (zq_iff6' (6 * p + 1) p) as _. apply zq in L. unfold Z.sub in L. rewrite !inject_Z_plus, inject_Z_opp, !inject_Z_mult in L. change (inject_Z 6) with 6%Q in L. change (inject_Z 1) with 1%Q in L. lra. }
  assert (HIq : forall p c C6, (c - inject_Z C6 * (1 # 6) <= 1 # 100000)%Q -> C6 + 6 * r + 1 <= 6 * p -> (c + inject_Z r <= inject_Z p)%Q).
  { intros p c C6 HC L. apply zq in L. rewrite !inject_Z_plus, !inject_Z_mult in L. change (inject_Z 6) with 6%Q in L. change (inject_Z 1) with 1%Q in L. lra. }
  split.
  - intros a b NE. cbv zeta. apply circle_misses_f. rewrite ER. fold cx cy.
    assert (S : (6 * (k_x k + a * bw + d + 1) + 1 <= X6 - 6 * r \/ X6 + 6 * r + 1 <= 6 * (k_x k + a * bw + d)) \/
                (6 * (k_y k + b * bw + d + 1) + 1 <= Y6 - 6 * r \/ Y6 + 6 * r + 1 <= 6 * (k_y k + b * bw + d))).
    { unfold X6, Y6. assert (C : i <> 1 \/ a <> 0 \/ (j <> 1 \/ b <> 0)) by lia. destruct C as [C|[C|C]].
      - left. destruct (Z.eq_dec a 0) as [->|NA]; [|nia]. assert (i = 0 \/ i = 2) as [-> | ->] by lia; lia.
      - left. nia.
      - right. destruct (Z.eq_dec b 0) as [->|NB]; [|nia]. destruct C as [C|C]; [|lia]. assert (j = 0 \/ j = 2) as [-> | ->] by lia; lia. }
    destruct S as [[S|S]|[S|S]]; [left|right; left|right; right; left|right; right; right]; eauto.
  - intros -> ->. unfold X6, Y6 in *. rewrite !Z.mul_1_l in *.
    assert (K : circle_f rnd edge cv (as_call bw k) (k_x k + d) (k_y k + d) = over (cv (k_x k + d) (k_y k + d)) (f_color (as_call bw k))); [|exact K].
    assert (ED : forall z p c e E6', (- (e) <= c - inject_Z (6 * z + 2 * bw + 3 * h) * (1 # 6))%Q -> (c - inject_Z (6 * z + 2 * bw + 3 * h) * (1 # 6) <= e)%Q ->
        6 * z + 2 * bw + 3 * h - E6' <= 6 * p <= 6 * z + 2 * bw + 3 * h + E6' -> (Qabs (inject_Z p - c) <= inject_Z E6' * (1 # 6) + e)%Q).
    { intros z p c e E6' C1 C2 [L1 L2]. apply zq in L1, L2. unfold Z.sub in L1. rewrite inject_Z_plus, inject_Z_opp, (inject_Z_mult 6 p) in L1. rewrite (inject_Z_plus _ E6'), (inject_Z_mult 6 p) in L2. change (inject_Z 6) with 6%Q in L1, L2. apply abs_le_iff. lra. }
    destruct HW as [E9|HW].
    + assert (M0 : bw mod 3 = 0) by (rewrite E9; reflexivity). specialize (CX0 (or_intror M0)). specialize (CY0 (or_intror M0)).
      apply (circle_paints_f cv _ _ _ r (1 # 2) ER); [left; split; [apply Qle_refl|lia]| | | |]; fold cx cy.
      * eapply Qle_trans; [apply (ED (k_x k) _ _ 0%Q 3); [lra|lra|lia]|]. vm_compute. discriminate.
      * eapply Qle_trans; [apply (ED (k_x k) _ _ 0%Q 3); [lra|lra|lia]|]. vm_compute. discriminate.
      * eapply Qle_trans; [apply (ED (k_y k) _ _ 0%Q 3); [lra|lra|lia]|]. vm_compute. discriminate.
      * eapply Qle_trans; [apply (ED (k_y k) _ _ 0%Q 3); [lra|lra|lia]|]. vm_compute. discriminate.
    + apply (circle_paints_f cv _ _ _ r (101 # 100) ER); [right; split; [apply Qle_refl|lia]| | | |]; fold cx cy.
      * eapply Qle_trans; [apply (ED (k_x k) _ _ (1 # 100000)%Q 6); [exact CX1|exact CX2|lia]|]. vm_compute. discriminate.
      * eapply Qle_trans; [apply (ED (k_x k) _ _ (1 # 100000)%Q 6); [exact CX1|exact CX2|lia]|]. vm_compute. discriminate.
      * eapply Qle_trans; [apply (ED (k_y k) _ _ (1 # 100000)%Q 6); [exact CY1|exact CY2|lia]|]. vm_compute. discriminate.
      * eapply Qle_trans; [apply (ED (k_y k) _ _ (1 # 100000)%Q 6); [exact CY1|exact CY2|lia]|]. vm_compute. discriminate.
Qed.
End Float.
