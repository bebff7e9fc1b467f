(* Which shapes can be read under a halftone picture. *)
From Coq Require Import Lia.
From Verif Require Import ModelBase ModelMatrix ModelStandard ModelShapes.
From Verif Require Import SpecReader SpecMatrix SpecStandard SpecMedium SpecShape SpecShapes SpecCombine.
From Verif Require Import ProofBase ProofMatrix ProofStandard ProofShape ProofLinks ProofShapes PropsShapes ProofCombine.
From Coq Require Import QArith Qabs Lqa Lia.
Open Scope Z_scope.

Local Notation Add := ModelShapes.Add.

(* ---- squares ---- *)
Lemma squares_halftone bw : halftone_width bw -> halftone_shape rectangle_draw bw ((bw - 1) / 2).
Proof.
  intros HW cv k i j (HI & HJ & _ & TX & TY & KW & KH & _).
  assert (B3 : 3 <= bw) by (unfold halftone_width in HW; lia).
  destruct (middle_sub bw HW) as (_ & M1 & M2). set (d := (bw - 1) / 2) in *.
  pose proof (Z.div_mod bw 3 ltac:(lia)) as DM. pose proof (Z.mod_pos_bound bw 3 ltac:(lia)) as MM. set (h := bw / 3) in *. unfold rectangle_draw. split.
  - intros a b NE. cbv zeta. rewrite area_none; [reflexivity|]. rewrite TX, TY, KW, KH.
    assert (C : i <> 1 \/ a <> 0 \/ (j <> 1 \/ b <> 0)) by lia.
    destruct C as [C|[C|C]].
    + destruct (Z.eq_dec a 0) as [->|NA]; [|nia]. assert (i = 0 \/ i = 2) as [-> | ->] by lia; lia.
    + nia.
    + right. right. destruct (Z.eq_dec b 0) as [->|NB]; [|nia]. destruct C as [C|C]; [|lia]. assert (j = 0 \/ j = 2) as [-> | ->] by lia; lia.
  - intros -> ->. cbv zeta. rewrite area_full by lia. change (64 * 64 =? 0) with false. cbn iota. rewrite over_full. split; [apply tinted_over|].
    intros [O A] G. apply over_opaque; assumption.
Qed.

(* ---- circles ---- *)
Lemma circle_paints edge cv k px py r e : circle_radius k = r -> (e = 3 /\ 1 <= r) \/ (e = 6 /\ 2 <= r) ->
  circle_cx6 k - e <= 6 * px -> 6 * px + 6 <= circle_cx6 k + e -> circle_cy6 k - e <= 6 * py -> 6 * py + 6 <= circle_cy6 k + e ->
  circle_draw edge cv k px py = over (cv px py) (k_color k).
Proof.
  intros ER HE X1 X2 Y1 Y2. unfold circle_draw. rewrite ER. assert (R1 : 1 <= r) by lia. destruct (Z.eqb_spec r 0); [lia|]. cbn [orb].
  assert (EO : circle_outside k px py = false).
  { unfold circle_outside. rewrite ER. cbv zeta.
    replace (Z.max 0 (Z.max (6 * px - circle_cx6 k) (circle_cx6 k - 6 * px - 6))) with 0 by lia.
    replace (Z.max 0 (Z.max (6 * py - circle_cy6 k) (circle_cy6 k - 6 * py - 6))) with 0 by lia.
    rewrite !orb_false_iff, !Z.leb_gt. repeat split; try lia. }
  assert (EI : circle_inside k px py = true).
  { unfold circle_inside. rewrite ER. cbn [forallb]. rewrite !andb_true_iff, !Z.leb_le. clear EO.
    assert (SQ : forall u, - e <= u <= e -> u * u <= e * e) by (intros u U; nia).
    pose proof (SQ (6 * px + 0 - circle_cx6 k) ltac:(lia)). pose proof (SQ (6 * px + 6 - circle_cx6 k) ltac:(lia)).
    pose proof (SQ (6 * py + 0 - circle_cy6 k) ltac:(lia)). pose proof (SQ (6 * py + 6 - circle_cy6 k) ltac:(lia)).
    assert (RR : 200 * (e * e) <= 81 * 36 * (r * r)) by (destruct HE as [[-> ?]|[-> ?]]; nia).
    repeat split; try reflexivity; lia. }
  rewrite EO, EI. reflexivity.
Qed.
Lemma circle_misses edge cv k px py : 
  6 * px + 6 <= circle_cx6 k - 6 * circle_radius k \/ circle_cx6 k + 6 * circle_radius k <= 6 * px \/
  6 * py + 6 <= circle_cy6 k - 6 * circle_radius k \/ circle_cy6 k + 6 * circle_radius k <= 6 * py -> circle_draw edge cv k px py = cv px py.
Proof.
  intros HO. unfold circle_draw. replace (circle_outside k px py) with true; [rewrite orb_true_r; reflexivity|]. symmetry. unfold circle_outside. rewrite !orb_true_iff, !Z.leb_le. tauto.
Qed.
Lemma radius_half k w : k_w k = w -> k_h k = w -> 0 <= w -> circle_radius k = w / 2.
Proof. intros EW EH W. unfold circle_radius. rewrite EW, EH, Z.leb_refl. apply Z.quot_div_nonneg; lia. Qed.

Lemma circle_left edge bw : 3 <= bw -> proper_shape (circle_draw edge) bw ((bw - 1) / 2).
Proof.
  intros HB cv k TX TY EW EH. pose proof (radius_half k bw EW EH ltac:(lia)) as ER.
  pose proof (Z.div_mod bw 2 ltac:(lia)) as DM. pose proof (Z.mod_pos_bound bw 2 ltac:(lia)) as MM.
  pose proof (Z.div_mod (bw - 1) 2 ltac:(lia)) as DM'. pose proof (Z.mod_pos_bound (bw - 1) 2 ltac:(lia)) as MM'.
  assert (CX : circle_cx6 k = 6 * k_x k + 3 * bw) by (unfold circle_cx6; lia). assert (CY : circle_cy6 k = 6 * k_y k + 3 * bw) by (unfold circle_cy6; lia). split.
  - intros px py HN. apply circle_misses. rewrite CX, CY, ER. unfold in_box in HN. rewrite EW, EH in HN. lia.
  - destruct (Z.eq_dec (bw mod 2) 1).
    + apply (circle_paints edge cv k _ _ (bw / 2) 3 ER); lia.
    + apply (circle_paints edge cv k _ _ (bw / 2) 6 ER); lia.
Qed.

Lemma circles_halftone edge bw : halftone_circle_width bw -> halftone_shape (circle_draw edge) bw ((bw - 1) / 2).
Proof.
  intros HW cv k i j (HI & HJ & _ & TX & TY & KW & KH & _).
  assert (B3 : 9 <= bw) by (unfold halftone_circle_width in HW; lia).
  pose proof (Z.div_mod bw 3 ltac:(lia)) as DM. pose proof (Z.mod_pos_bound bw 3 ltac:(lia)) as MM. set (h := bw / 3) in *.
  pose proof (radius_half k h KW KH ltac:(lia)) as ER. pose proof (Z.div_mod h 2 ltac:(lia)) as DH. pose proof (Z.mod_pos_bound h 2 ltac:(lia)) as MH. set (r := h / 2) in *.
  pose proof (Z.div_mod (bw - 1) 2 ltac:(lia)) as DM'. pose proof (Z.mod_pos_bound (bw - 1) 2 ltac:(lia)) as MM'. set (d := (bw - 1) / 2) in *.
  assert (CX : circle_cx6 k = 6 * k_x k + 2 * (i * bw) + 3 * h) by (unfold circle_cx6; lia). assert (CY : circle_cy6 k = 6 * k_y k + 2 * (j * bw) + 3 * h) by (unfold circle_cy6; lia). split.
  - intros a b NE. cbv zeta. apply circle_misses. rewrite CX, CY, ER.
    assert (C : i <> 1 \/ a <> 0 \/ (j <> 1 \/ b <> 0)) by lia.
    destruct C as [C|[C|C]].
    + destruct (Z.eq_dec a 0) as [->|NA]; [|nia]. assert (i = 0 \/ i = 2) as [-> | ->] by lia; lia.
    + nia.
    + right. right. destruct (Z.eq_dec b 0) as [->|NB]; [|nia]. destruct C as [C|C]; [|lia]. assert (j = 0 \/ j = 2) as [-> | ->] by lia; lia.
  - intros -> ->. cbv zeta. rewrite !Z.mul_1_l in *.
    assert (E : circle_draw edge cv k (k_x k + d) (k_y k + d) = over (cv (k_x k + d) (k_y k + d)) (k_color k)).
    { destruct HW as [->|HW]; [apply (circle_paints edge cv k _ _ r 3 ER)|apply (circle_paints edge cv k _ _ r 6 ER)]; lia. }
    rewrite E. split; [apply tinted_over|]. intros [O A] G. apply over_opaque; assumption.
Qed.

(* ---- the shapes of the package: a sub-block has no neighbours, so it is one circle or one square ---- *)
Section Sub.
Context (bw : Z) (k : call) (i j : Z) (SB : sub_block k bw i j) (B6 : 6 <= bw).

Lemma sub_q : exists w3 m3, (ul_x k == qpx (k_x k) + inject_Z i * w3 /\ ul_y k == qpx (k_y k) + inject_Z j * w3 /\ inject_Z bw == 3 * w3 /\
  edge_w k == w3 - m3 /\ edge_h k == w3 - m3 /\ edge_w k == inject_Z (bw / 3) /\ 0 <= m3 /\ m3 <= 2 # 3 /\ 2 <= inject_Z (bw / 3))%Q.
Proof.
  destruct SB as (_ & _ & _ & TX & TY & KW & KH & _). pose proof (Z.div_mod bw 3 ltac:(lia)) as DM. pose proof (Z.mod_pos_bound bw 3 ltac:(lia)) as MM.
  set (h := bw / 3) in *. set (m := bw mod 3) in *.
  exists (inject_Z bw / 3)%Q, (inject_Z m / 3)%Q. unfold ul_x, ul_y, edge_w, edge_h, qpx. rewrite TX, TY, KW, KH.
  assert (E : (inject_Z bw == 3 * inject_Z h + inject_Z m)%Q) by (rewrite DM at 1; rewrite inject_Z_plus, inject_Z_mult; reflexivity).
  assert (M0 : (0 <= inject_Z m)%Q) by (change 0%Q with (inject_Z 0); rewrite <- Zle_Qle; lia).
  assert (M2 : (inject_Z m <= 2)%Q) by (change 2%Q with (inject_Z 2); rewrite <- Zle_Qle; lia).
  assert (H2 : (2 <= inject_Z h)%Q) by (change 2%Q with (inject_Z 2); rewrite <- Zle_Qle; lia).
  rewrite !inject_Z_mult. unfold Qdiv. change (/ 3)%Q with (1 # 3)%Q.
  do 2 (split; [ring|]). split; [lra|]. split; [lra|]. split; [lra|]. split; [reflexivity|]. split; [lra|]. split; [lra|exact H2].
Qed.

(* a piece within the sub-block: its sides *)
Lemma sub_missed_x a : ~ (i = 1 /\ a = 0) -> let px := k_x k + a * bw + bw / 2 in (qpx px + 1 <= ul_x k)%Q \/ (ul_x k + edge_w k <= qpx px)%Q.
Proof.
  intros NE. cbv zeta. destruct sub_q as (w & m & EX & _ & EB & EW & _ & _ & M0 & M2 & H2). destruct (middle_q bw ltac:(lia)) as [D1 D2].
  pose proof (sample_q (k_x k) a bw (bw / 2)) as PX. assert (Q6 : (6 <= inject_Z bw)%Q) by (change 6%Q with (inject_Z 6); rewrite <- Zle_Qle; lia).
  destruct SB as (HI & _). assert (CI : i = 0 \/ i = 1 \/ i = 2) by lia.
  destruct (step_q a bw ltac:(lia)) as [[A S]|[[A S]|[[A S]|[[A S]|[A S]]]]]; destruct CI as [-> |[-> | ->]];
    change (inject_Z 0) with 0%Q in EX; change (inject_Z 1) with 1%Q in EX; change (inject_Z 2) with 2%Q in EX; try (exfalso; lia); first [left; lra|right; lra].
Qed.
Lemma sub_missed_y b : ~ (j = 1 /\ b = 0) -> let py := k_y k + b * bw + bw / 2 in (qpx py + 1 <= ul_y k)%Q \/ (ul_y k + edge_h k <= qpx py)%Q.
Proof.
  intros NE. cbv zeta. destruct sub_q as (w & m & _ & EX & EB & _ & EW & _ & M0 & M2 & H2). destruct (middle_q bw ltac:(lia)) as [D1 D2].
  pose proof (sample_q (k_y k) b bw (bw / 2)) as PX. assert (Q6 : (6 <= inject_Z bw)%Q) by (change 6%Q with (inject_Z 6); rewrite <- Zle_Qle; lia).
  destruct SB as (_ & HI & _). assert (CI : j = 0 \/ j = 1 \/ j = 2) by lia.
  destruct (step_q b bw ltac:(lia)) as [[A S]|[[A S]|[[A S]|[[A S]|[A S]]]]]; destruct CI as [-> |[-> | ->]];
    change (inject_Z 0) with 0%Q in EX; change (inject_Z 1) with 1%Q in EX; change (inject_Z 2) with 2%Q in EX; try (exfalso; lia); first [left; lra|right; lra].
Qed.
Lemma sub_sides a b : ~ (i = 1 /\ j = 1 /\ a = 0 /\ b = 0) -> let px := k_x k + a * bw + bw / 2 in let py := k_y k + b * bw + bw / 2 in
  (qpx px + 1 <= ul_x k \/ ul_x k + edge_w k <= qpx px \/ qpx py + 1 <= ul_y k \/ ul_y k + edge_h k <= qpx py)%Q.
Proof.
  intros NE. cbv zeta. assert (C : ~ (i = 1 /\ a = 0) \/ ~ (j = 1 /\ b = 0)) by lia.
  destruct C as [C|C]; [destruct (sub_missed_x a C)|destruct (sub_missed_y b C)]; auto.
Qed.

Lemma sub_disc_missed s cx cy r : (0 <= s -> s <= 1 -> cx == ul_x k + edge_w k * (1 # 2) -> cy == ul_y k + edge_h k * (1 # 2) -> 2 * r == edge_w k * s)%Q ->
  (cx == ul_x k + edge_w k * (1 # 2))%Q -> (cy == ul_y k + edge_h k * (1 # 2))%Q -> (0 <= s)%Q -> (s <= 1)%Q ->
  forall a b, ~ (i = 1 /\ j = 1 /\ a = 0 /\ b = 0) -> missed (k_x k + a * bw + bw / 2) (k_y k + b * bw + bw / 2) (Disc cx cy r).
Proof.
  intros R CX CY S0 S1 a b NE. specialize (R S0 S1 CX CY). destruct sub_q as (w & m & EX & EY & EB & EW & EH & EQ & M0 & M2 & H2).
  destruct (part_q (edge_w k) s) as [P0 P1]; [lra..|]. unfold missed.
  destruct (sub_sides a b NE) as [C|[C|[C|C]]]; cbv zeta in C; [apply disc_left|apply disc_right|apply disc_above|apply disc_below]; lra.
Qed.
Lemma sub_rect_missed s x y w h : (x == ul_x k + edge_w k * (1 # 2) - w * (1 # 2))%Q -> (y == ul_y k + edge_h k * (1 # 2) - h * (1 # 2))%Q ->
  (w == edge_w k * s)%Q -> (h == edge_h k * s)%Q -> (0 <= s)%Q -> (s <= 1)%Q ->
  forall a b, ~ (i = 1 /\ j = 1 /\ a = 0 /\ b = 0) -> missed (k_x k + a * bw + bw / 2) (k_y k + b * bw + bw / 2) (Rect x y w h).
Proof.
  intros EX' EY' EW' EH' S0 S1 a b NE. destruct sub_q as (w3 & m & EX & EY & EB & EW & EH & EQ & M0 & M2 & H2).
  destruct (part_q (edge_w k) s) as [P0 P1]; [lra..|]. destruct (part_q (edge_h k) s) as [P0' P1']; [lra..|]. unfold missed.
  destruct (sub_sides a b NE) as [C|[C|[C|C]]]; cbv zeta in C; [apply rect_left|apply rect_right|apply rect_above|apply rect_below]; lra.
Qed.

Lemma sub_centre : i = 1 -> j = 1 -> forall e, (e = 4 # 3 \/ (Z.odd bw = true /\ e = 5 # 6))%Q ->
  let cx := (ul_x k + edge_w k * (1 # 2))%Q in let cy := (ul_y k + edge_h k * (1 # 2))%Q in let px := k_x k + bw / 2 in let py := k_y k + bw / 2 in
  (cx - e <= qpx px /\ qpx px + 1 <= cx + e /\ cy - e <= qpx py /\ qpx py + 1 <= cy + e)%Q.
Proof.
  intros I J e HE. cbv zeta. destruct sub_q as (w3 & m & EX & EY & EB & EW & EH & EQ & M0 & M2 & H2). rewrite I in EX. rewrite J in EY. change (inject_Z 1) with 1%Q in EX, EY.
  destruct (middle_q bw ltac:(lia)) as [D1 D2]. pose proof (own_q (k_x k) (bw / 2)) as PX. pose proof (own_q (k_y k) (bw / 2)) as PY.
  destruct HE as [-> |[O ->]]; [repeat split; lra|]. pose proof (odd_middle bw O) as OM. repeat split; lra.
Qed.
Lemma sub_disc_solid s cx cy r : i = 1 -> j = 1 -> (cx == ul_x k + edge_w k * (1 # 2))%Q -> (cy == ul_y k + edge_h k * (1 # 2))%Q ->
  (2 * r == edge_w k * s)%Q -> sub_circle bw s -> solid (k_x k + bw / 2) (k_y k + bw / 2) (Disc cx cy r).
Proof.
  intros I J CX CY R HW. destruct sub_q as (_ & _ & _ & _ & _ & _ & _ & EW & _). rewrite EW in R. destruct HW as [HW|[O HW]].
  - destruct (sub_centre I J (4 # 3)%Q (or_introl eq_refl)) as (A1 & A2 & A3 & A4). cbv zeta in A1, A2, A3, A4.
    assert (RR : (21 # 10 <= r)%Q) by lra. apply (disc_solid _ _ _ (4 # 3)); try lra. nra.
  - destruct (sub_centre I J (5 # 6)%Q (or_intror (conj O eq_refl))) as (A1 & A2 & A3 & A4). cbv zeta in A1, A2, A3, A4.
    assert (RR : (21 # 16 <= r)%Q) by lra. apply (disc_solid _ _ _ (5 # 6)); try lra. nra.
Qed.
Lemma sub_rect_solid s x y w h : i = 1 -> j = 1 -> (x == ul_x k + edge_w k * (1 # 2) - w * (1 # 2))%Q -> (y == ul_y k + edge_h k * (1 # 2) - h * (1 # 2))%Q ->
  (w == edge_w k * s)%Q -> (h == edge_h k * s)%Q -> sub_square bw s -> solid (k_x k + bw / 2) (k_y k + bw / 2) (Rect x y w h).
Proof.
  intros I J EX EY EW' EH' HW. destruct sub_q as (w3 & m & _ & _ & _ & EW3 & EH3 & EW & _).
  assert (EHW : (edge_h k == edge_w k)%Q) by lra. rewrite EHW, EW in EH'. rewrite EW in EW'. destruct HW as [HW|[O HW]].
  - destruct (sub_centre I J (4 # 3)%Q (or_introl eq_refl)) as (A1 & A2 & A3 & A4). cbv zeta in A1, A2, A3, A4. apply rect_solid; lra.
  - destruct (sub_centre I J (5 # 6)%Q (or_intror (conj O eq_refl))) as (A1 & A2 & A3 & A4). cbv zeta in A1, A2, A3, A4. apply rect_solid; lra.
Qed.
End Sub.

Lemma one_piece cover f bw : 
  (forall k i j, sub_block k bw i j -> exists g, f k = [Add g; Fill] /\
     (forall a b, ~ (i = 1 /\ j = 1 /\ a = 0 /\ b = 0) -> missed (k_x k + a * bw + bw / 2) (k_y k + b * bw + bw / 2) g) /\
     (i = 1 -> j = 1 -> solid (k_x k + bw / 2) (k_y k + bw / 2) g)) -> halftone_shape (draw_ops cover f) bw (bw / 2).
Proof.
  intros HF cv k i j SB. destruct (HF k i j SB) as (g & EF & HM & HS). unfold draw_ops. rewrite EF. split.
  - intros a b NE. cbv zeta. apply ops_missed; [constructor|]. intros g' I. cbn [In] in I. destruct I as [I|[I|[]]]; [|discriminate I]. injection I as <-. apply HM, NE.
  - intros I J. cbv zeta. split; [apply ops_tinted|]. intros O G. apply (ops_paint cover _ _ _ g [Fill] (HS I J) (or_introl eq_refl) O [] [] cv G).
Qed.

Lemma sub_wide bw s : (0 <= s)%Q -> (s <= 1)%Q -> sub_circle bw s \/ sub_square bw s -> 3 <= bw -> 6 <= bw.
Proof.
  intros S0 S1 HW B3. destruct (Z_le_gt_dec 6 bw) as [C|C]; [exact C|exfalso].
  assert (E : bw / 3 = 1) by (assert (D : bw = 3 \/ bw = 4 \/ bw = 5) by lia; destruct D as [-> |[-> | ->]]; reflexivity).
  unfold sub_circle, sub_square in HW. rewrite E in HW. change (inject_Z 1) with 1%Q in HW. destruct HW as [[HW|[_ HW]]|[HW|[_ HW]]]; lra.
Qed.

Ltac one_disc s := intros k i j SB; pose proof SB as (_ & _ & _ & _ & _ & _ & _ & NB); eexists; split;
  [unfold LiquidBlock, ChainBlock, VChainBlock, HChainBlock, HStripeBlock, VStripeBlock, CircleBlocks; try rewrite NB; cbv zeta; cbn [app when]; reflexivity|]; split;
  [apply (sub_disc_missed _ k i j SB ltac:(assumption) s); try (intros _ _ _ _; field); try field; try lra|intros I J; apply (sub_disc_solid _ k i j SB ltac:(assumption) s); try assumption; field].
Ltac one_rect s := intros k i j SB; eexists; split; [unfold SquareBlocks, rect; cbv zeta; reflexivity|]; split;
  [apply (sub_rect_missed _ k i j SB ltac:(assumption) s); try field; try lra|intros I J; apply (sub_rect_solid _ k i j SB ltac:(assumption) s); try assumption; field].

Lemma block_halftone cover bw b : 3 <= bw -> halftone_block bw b -> halftone_shape (draw_ops cover b) bw (bw / 2).
Proof.
  intros B3 HB. apply one_piece. destruct HB as [W|W|W|W|r W|r R1 R2 W|r R W|s S1 S2 W|s S W|s S1 S2 W|s S W].
  - assert (B6 : 6 <= bw) by (eapply (sub_wide bw 1); [lra|lra|left; exact W|exact B3]). one_disc 1%Q.
  - assert (B6 : 6 <= bw) by (eapply (sub_wide bw (9 # 10)); [lra|lra|left; exact W|exact B3]). one_disc (9 # 10)%Q.
  - assert (B6 : 6 <= bw) by (eapply (sub_wide bw (85 # 100)); [lra|lra|left; exact W|exact B3]). one_disc (85 # 100)%Q.
  - assert (B6 : 6 <= bw) by (eapply (sub_wide bw (85 # 100)); [lra|lra|left; exact W|exact B3]). one_disc (85 # 100)%Q.
  - assert (B6 : 6 <= bw) by (eapply (sub_wide bw (9 # 10)); [lra|lra|left; exact W|exact B3]). one_disc (9 # 10)%Q.
  - assert (B6 : 6 <= bw) by (eapply (sub_wide bw r); [lra|lra|left; exact W|exact B3]). pose proof (ratio_kept r R1 R2) as ER. unfold VStripeBlock. rewrite ER. one_disc r.
  - assert (B6 : 6 <= bw) by (eapply (sub_wide bw (85 # 100)); [lra|lra|left; exact W|exact B3]). pose proof (ratio_default r R) as ER. unfold VStripeBlock. rewrite ER. one_disc (85 # 100)%Q.
  - assert (B6 : 6 <= bw) by (eapply (sub_wide bw s); [lra|lra|right; exact W|exact B3]). pose proof (size_kept s S1 S2) as ER. unfold SquareBlocks. rewrite ER. one_rect s.
  - assert (B6 : 6 <= bw) by (eapply (sub_wide bw 1); [lra|lra|right; exact W|exact B3]). pose proof (clamped_size s S) as ER. unfold SquareBlocks. rewrite ER. one_rect 1%Q.
  - assert (B6 : 6 <= bw) by (eapply (sub_wide bw s); [lra|lra|left; exact W|exact B3]). pose proof (size_kept s S1 S2) as ER. unfold CircleBlocks. rewrite ER. one_disc s.
  - assert (B6 : 6 <= bw) by (eapply (sub_wide bw 1); [lra|lra|left; exact W|exact B3]). pose proof (clamped_size s S) as ER. unfold CircleBlocks. rewrite ER. one_disc 1%Q.
Qed.

Lemma assemble_halftone cover f b bw d : halftone_shape (draw_ops cover b) bw d -> halftone_shape (Assemble cover f b) bw d.
Proof. intros HS cv k i j SB. unfold Assemble. pose proof SB as (_ & _ & -> & _). apply HS, SB. Qed.

(* ---- circles in small blocks: the sub-blocks have radius 0 ---- *)
Lemma circle_box edge cv k bw px py : k_tx k = 0 -> k_ty k = 0 -> k_w k = bw -> k_h k = bw -> 0 <= bw -> ~ in_box k px py -> circle_draw edge cv k px py = cv px py.
Proof.
  intros TX TY EW EH HB HN. apply circle_misses. pose proof (radius_half k bw EW EH HB) as ER. pose proof (Z.div_mod bw 2 ltac:(lia)). pose proof (Z.mod_pos_bound bw 2 ltac:(lia)).
  assert (CX : circle_cx6 k = 6 * k_x k + 3 * bw) by (unfold circle_cx6; lia). assert (CY : circle_cy6 k = 6 * k_y k + 3 * bw) by (unfold circle_cy6; lia).
  rewrite CX, CY, ER. unfold in_box in HN. rewrite EW, EH in HN. lia.
Qed.
Lemma circle_sub edge cv k bw i j px py : sub_block k bw i j -> 0 <= bw <= 5 -> circle_draw edge cv k px py = cv px py.
Proof.
  intros (_ & _ & _ & _ & _ & EW & EH & _) HB.
  assert (B3 : 0 <= bw / 3 <= 1) by (pose proof (Z.div_mod bw 3 ltac:(lia)); pose proof (Z.mod_pos_bound bw 3 ltac:(lia)); lia).
  pose proof (radius_half k (bw / 3) EW EH ltac:(lia)) as ER. unfold circle_draw. rewrite ER.
  replace (bw / 3 / 2) with 0 by (assert (C : bw / 3 = 0 \/ bw / 3 = 1) by lia; destruct C as [-> | ->]; reflexivity). reflexivity.
Qed.

Lemma circle_calls edge scale o n t m x y px py cv : qrBlockWidth o <= 5 -> o_halftone o <> None -> data_module m x y \/ ~ in_module o x y px py ->
  fold_left (circle_draw edge) (calls_at scale o n t m x y) cv px py = cv px py.
Proof.
  intros B5 HH C. pose proof (block_width_range o) as B1.
  assert (SUB : forall l c, (forall k, In k l -> exists i j, sub_block k (qrBlockWidth o) i j) -> fold_left (circle_draw edge) l c px py = c px py).
  { induction l as [|k l IH]; intros c HL; [reflexivity|]. cbn [fold_left]. rewrite IH by (intros k' I; apply HL; right; exact I).
    destruct (HL k (or_introl eq_refl)) as (i & j & SB). apply (circle_sub edge c k _ i j px py SB). lia. }
  assert (HT : forall i, fold_left (circle_draw edge) (halftone_calls (scale i (n * 3)) (o_bgTransparent o) (qrBlockWidth o) x y (x * qrBlockWidth o + b_left o) (y * qrBlockWidth o + b_top o)
                 (if qrbool (rawget m x y) then o_qrColor o else light o)) cv px py = cv px py).
  { intros im. apply SUB. intros k I. unfold halftone_calls in I. apply in_flat_map in I as (i & Ii & I). apply in_map_iff in I as (j & <- & Ij). apply in_zseq in Ii, Ij.
    exists i, j. unfold sub_block. cbn [k_finder k_x k_tx k_y k_ty k_w k_h k_neighbours]. rewrite Z.quot_div_nonneg by lia. repeat split; lia. }
  destruct C as [D|N].
  - unfold calls_at, module_calls. destruct (safe_b o n x y && qrbool (rawget m x y)); [reflexivity|]. cbv zeta. rewrite D. change (QRType_DATA =? QRType_FINDER) with false. change (QRType_DATA =? QRType_DATA) with true. cbn iota.
    destruct (o_halftone o) as [im|]; [|contradiction HH; reflexivity]. apply HT.
  - destruct (calls_form scale o n t m x y) as [->|[->|(im & _ & ->)]]; [reflexivity| |apply HT]. cbn [fold_left].
    apply (circle_box edge cv _ (qrBlockWidth o)); cbn [k_tx k_ty k_w k_h]; try reflexivity; [lia|]. intros F. apply N. unfold in_box, in_module in *. cbn [k_x k_y k_w k_h] in F. lia.
Qed.

Lemma small_circles edge scale n m o : square n m -> chosen_shape (fun _ => circle_draw edge) o = circle_draw edge -> qrBlockWidth o <= 5 -> o_halftone o <> None -> o_logo o = None ->
  painter_colors o -> 0 <= b_left o -> 0 <= b_right o -> 0 <= b_top o -> 0 <= b_bottom o -> o_gradient o = None ->
  exists cv o', draw (fun _ => circle_draw edge) scale m o = Some (img_w o n, img_h o n, cv, o') /\
    forall x y px py, 0 <= x < n -> 0 <= y < n -> data_module m x y -> in_module o x y px py -> is_light o (cv px py).
Proof.
  intros HS CS B5 HH EL HC B1 B2 B3 B4 EG. pose proof (block_width_range o) as BW. pose proof HS as ((N1 & N2 & _) & EW & _).
  destruct (draw_shape_spec (fun _ => circle_draw edge) scale n m o HS) as (t & o' & E & _). rewrite E, CS, EG. cbv zeta.
  assert (LP : logo_place o n = None) by (unfold logo_place; rewrite EL; reflexivity). rewrite LP.
  eexists. exists o'. rewrite !Z.abs_eq by (unfold img_w, img_h; nia). split; [reflexivity|].
  intros x y px py X Y D IM.
  assert (G : forall coords cv, (forall a b, In (a, b) coords -> (a, b) = (x, y) \/ ~ in_module o a b px py) ->
    fold_left (circle_draw edge) (flat_map (fun '(a, b) => calls_at scale o n t m a b) coords) cv px py = cv px py).
  { induction coords as [|[a b] l IH]; intros cv HL; [reflexivity|]. cbn [flat_map]. rewrite fold_left_app, IH by (intros; apply HL; right; assumption).
    apply circle_calls; auto. destruct (HL a b (or_introl eq_refl)) as [F|F]; [injection F as -> ->; left; exact D|right; exact F]. }
  rewrite G.
  - rewrite blank_pixel; [apply border_light|unfold in_module in IM; unfold img_w; nia|unfold in_module in IM; unfold img_h; nia|apply good_border; apply HC].
  - intros a b _. destruct (Z.eq_dec a x) as [->|NA]; [destruct (Z.eq_dec b y) as [->|NB]; [left; reflexivity|right]|right]; unfold in_module in *; nia.
Qed.
