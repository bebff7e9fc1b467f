(* The drawing functions of the shapes package, in float64 arithmetic. *)
From Coq Require Import Lia.
From Verif Require Import ModelBase ModelMatrix ModelStandard ModelFloat ModelShapes ModelShapes64.
From Verif Require Import SpecReader SpecMatrix SpecStandard SpecFloat64 SpecShape SpecShapes SpecShapes64 ProofStandard ProofLinks ProofFloat ProofFloatNear ProofShapes.
From Coq Require Import QArith Qabs Lqa Lia.
Open Scope Z_scope.

Local Notation Add := ModelShapes.Add.

Lemma zq a b : a <= b -> (inject_Z a <= inject_Z b)%Q.
Proof. rewrite <- Zle_Qle. auto. Qed.
Lemma zqm z : (0 <= z)%Z -> (0 <= inject_Z z)%Q.
Proof. intros. change 0%Q with (inject_Z 0). apply zq. assumption. Qed.

Section Rounding.
Context (rnd : Q -> Q) (RN : round_nearest rnd).
Let RR : rounding rnd := rn_rounding rnd RN.

Lemma rnd_q a b : (a == b)%Q -> (rnd a == rnd b)%Q.
Proof. intros E. apply Qle_antisym; apply (r_mono rnd RR); rewrite E; apply Qle_refl. Qed.
Lemma float_q a b : (a == b)%Q -> float64 a -> float64 b.
Proof. intros E (m & k & A & B & C). exists m, k. split; [exact A|]. split; [exact B|]. rewrite <- E. exact C. Qed.
(* whole numbers and their halves *)
Definition half (B : Z) (q : Q) : Prop := exists z, Z.abs z <= B /\ (q == inject_Z z * (1 # 2))%Q.
Lemma half_float B q : half B q -> B <= 2 ^ 53 -> float64 q.
Proof. intros (z & A & E) HB. exists z, (-1). split; [lia|]. split; [lia|]. exact E. Qed.
Lemma half_id B q : half B q -> B <= 2 ^ 53 -> (rnd q == q)%Q.
Proof. intros HH HB. apply (r_id rnd RR). eapply half_float; eauto. Qed.
Lemma half_q B a b : (a == b)%Q -> half B a -> half B b.
Proof. intros E (z & A & C). exists z. split; [exact A|]. rewrite <- E. exact C. Qed.
Lemma half_add A B a b : half A a -> half B b -> half (A + B) (a + b)%Q.
Proof. intros (x & X & EX) (y & Y & EY). exists (x + y). split; [lia|]. rewrite EX, EY, inject_Z_plus. ring. Qed.
Lemma half_sub A B a b : half A a -> half B b -> half (A + B) (a - b)%Q.
Proof. intros (x & X & EX) (y & Y & EY). exists (x - y). split; [lia|]. unfold Z.sub. rewrite EX, EY, inject_Z_plus, inject_Z_opp. ring. Qed.
Lemma half_Z B z : Z.abs z <= B -> half (2 * B) (inject_Z z).
Proof. intros A. exists (2 * z). split; [lia|]. rewrite inject_Z_mult. change (inject_Z 2) with 2%Q. ring. Qed.
Lemma half_Z2 B z : Z.abs z <= B -> half B (inject_Z z * (1 # 2))%Q.
Proof. intros A. exists z. split; [lia|]. reflexivity. Qed.

Lemma rnd_low q : (1 # 4 <= q)%Q -> ((999 # 1000) * q <= rnd q)%Q.
Proof.
  intros L. pose proof (r_error rnd RR q) as E. rewrite (Qabs_pos q) in E by lra. destruct (abs_both (rnd q - q)) as [_ A].
  assert (P1 : (pow2 (-52) <= 1 # 4000)%Q) by (vm_compute; discriminate). assert (P2 : (pow2 (-1074) <= 1 # 10000)%Q) by (vm_compute; discriminate).
  assert (M : (q * pow2 (-52) <= q * (1 # 4000))%Q) by (rewrite !(Qmult_comm q); apply Qmult_le_compat_r; lra). lra.
Qed.
Lemma float_half q : float64 q -> (1 # 32 <= q)%Q -> float64 (q * (1 # 2)).
Proof.
  intros (m & k & A & B & E) L. exists m, (k - 1). split; [exact A|]. split.
  - destruct (Z.eq_dec k (-1074)) as [->|N]; [exfalso|lia].
    assert (M : (inject_Z m * pow2 (-1074) <= inject_Z (2 ^ 53) * pow2 (-1074))%Q) by (apply Qmult_le_compat_r; [apply zq; lia|apply Qlt_le_weak, pow2_pos]).
    assert (V : (inject_Z (2 ^ 53) * pow2 (-1074) <= 1 # 1000)%Q) by (vm_compute; discriminate). lra.
  - rewrite E. replace (k - 1) with (k + -1) by lia. rewrite pow2_plus. change (pow2 (-1)) with (1 # 2)%Q. ring.
Qed.
Lemma float_double q : float64 q -> float64 (2 * q).
Proof. intros (m & k & A & B & E). exists m, (k + 1). split; [exact A|]. split; [lia|]. rewrite E, pow2_plus. change (pow2 1) with 2%Q. ring. Qed.

(* ---- one axis of a box: from X, W long, both whole numbers; the middle is c ---- *)
Section Axis.
Context (v w : Z) (RV : picture_range v) (RW : picture_range w).
Let X : Q := inject_Z v.
Let W : Q := inject_Z w.
Lemma W0 : (0 <= W)%Q. Proof. apply zqm. unfold picture_range in RW. lia. Qed.
Lemma pow32 : 2 ^ 32 = 4294967296. Proof. reflexivity. Qed.
Lemma pow53 : 2 ^ 53 = 9007199254740992. Proof. reflexivity. Qed.
Lemma hX : half 8589934592 X. Proof. apply (half_Z 4294967296). unfold picture_range in RV. rewrite pow32 in RV. lia. Qed.
Lemma hW : half 8589934592 W. Proof. apply (half_Z 4294967296). unfold picture_range in RW. rewrite pow32 in RW. lia. Qed.
Lemma hW2 : half 4294967296 (W * (1 # 2)). Proof. apply (half_Z2 4294967296). unfold picture_range in RW. rewrite pow32 in RW. lia. Qed.
Lemma rX : (rnd X == X)%Q. Proof. apply (half_id _ _ hX). rewrite pow53. lia. Qed.
Lemma rW : (rnd W == W)%Q. Proof. apply (half_id _ _ hW). rewrite pow53. lia. Qed.
Lemma rW2 : (rnd (W * (1 # 2)) == W * (1 # 2))%Q. Proof. apply (half_id _ _ hW2). rewrite pow53. lia. Qed.
Lemma hC : half 12884901888 (X + W * (1 # 2)). Proof. apply (half_add _ _ _ _ hX hW2). Qed.
Lemma rC : (rnd (X + W * (1 # 2)) == X + W * (1 # 2))%Q. Proof. apply (half_id _ _ hC). rewrite pow53. lia. Qed.
Lemma hR : half 17179869184 (X + W). Proof. apply (half_add _ _ _ _ hX hW). Qed.
Lemma rR : (rnd (X + W) == X + W)%Q. Proof. apply (half_id _ _ hR). rewrite pow53. lia. Qed.

(* the numbers the program computes *)
Context (x fw c : Q) (Ex : (x == X)%Q) (Ew : (fw == W)%Q) (Ec : (c == X + W * (1 # 2))%Q).
Definition spans (a len : Q) : Prop := (X <= a /\ fadd rnd a len <= X + W)%Q.
Lemma e_half : (fdiv rnd fw 2 == W * (1 # 2))%Q.
Proof. unfold fdiv. rewrite (rnd_q _ (W * (1 # 2))); [apply rW2|]. rewrite Ew. field. Qed.
Lemma e_middle : (fadd rnd x (fdiv rnd fw 2) == X + W * (1 # 2))%Q.
Proof. unfold fadd. rewrite (rnd_q _ (X + W * (1 # 2))); [apply rC|]. rewrite Ex, e_half. reflexivity. Qed.
Lemma spans_whole : spans x fw.
Proof. split; [rewrite Ex; apply Qle_refl|]. unfold fadd. rewrite (rnd_q _ (X + W)) by (rewrite Ex, Ew; reflexivity). rewrite rR. apply Qle_refl. Qed.
Lemma spans_first : spans x (fdiv rnd fw 2).
Proof.
  pose proof W0. split; [rewrite Ex; apply Qle_refl|]. unfold fadd. rewrite (rnd_q _ (X + W * (1 # 2))) by (rewrite Ex, e_half; reflexivity).
  rewrite rC. lra.
Qed.
Lemma spans_second : spans c (fdiv rnd fw 2).
Proof.
  pose proof W0. split; [lra|]. unfold fadd. rewrite (rnd_q _ (X + W)) by (rewrite Ec, e_half; ring). rewrite rR. apply Qle_refl.
Qed.
(* h to both sides of the middle *)
Lemma spans_around h : float64 h -> (0 <= h)%Q -> (h <= W * (1 # 2))%Q -> (X <= fsub rnd c h /\ fsub rnd c h + 2 * h <= X + W)%Q.
Proof.
  intros FH H0 H1. unfold fsub. split.
  - rewrite <- rX. apply (r_mono rnd RR). lra.
  - assert (FX : float64 X) by (apply (half_float _ _ hX); rewrite pow53; lia).
    pose proof (rn_nearest rnd RN (c - h) X FX) as NE. rewrite (Qabs_neg (X - (c - h))) in NE by lra. destruct (abs_both (rnd (c - h) - (c - h))) as [A _]. lra.
Qed.
Lemma spans_radius h : float64 h -> (0 <= h)%Q -> (h <= W * (1 # 2))%Q -> spans (fsub rnd c h) (fmul rnd 2 h).
Proof.
  intros FH H0 H1. destruct (spans_around h FH H0 H1) as [A B]. split; [exact A|]. unfold fadd, fmul. rewrite <- rR. apply (r_mono rnd RR).
  rewrite (r_id rnd RR) by (apply float_double; exact FH). exact B.
Qed.
(* a square of side s *)
Lemma spans_square s : float64 s -> (1 # 32 <= s)%Q -> (s <= W)%Q -> spans (fsub rnd c (fdiv rnd s 2)) s.
Proof.
  intros FS S0 S1. assert (FH : float64 (s * (1 # 2))) by (apply float_half; assumption).
  assert (EH : (fdiv rnd s 2 == s * (1 # 2))%Q) by (unfold fdiv; rewrite (rnd_q _ (s * (1 # 2))) by field; apply (r_id rnd RR), FH).
  destruct (spans_around (fdiv rnd s 2)) as [A B]; [eapply float_q; [symmetry; exact EH|exact FH]|lra|lra|].
  split; [exact A|]. unfold fadd. rewrite <- rR. apply (r_mono rnd RR). lra.
Qed.
(* ... and it covers what lies strictly in its middle *)
Lemma square_covers s p e : float64 s -> (1 # 32 <= s)%Q -> (2 * e <= s)%Q -> float64 p -> float64 (p + 2 * e) -> (c == p + e)%Q ->
  (fsub rnd c (fdiv rnd s 2) <= p /\ p + 2 * e <= fadd rnd (fsub rnd c (fdiv rnd s 2)) s)%Q.
Proof.
  intros FS S0 SE FP FQ EC. assert (FH : float64 (s * (1 # 2))) by (apply float_half; assumption).
  assert (EH : (fdiv rnd s 2 == s * (1 # 2))%Q) by (unfold fdiv; rewrite (rnd_q _ (s * (1 # 2))) by field; apply (r_id rnd RR), FH).
  set (h := fdiv rnd s 2) in *. unfold fsub. split.
  - rewrite <- (r_id rnd RR p FP). apply (r_mono rnd RR). lra.
  - unfold fadd. rewrite <- (r_id rnd RR _ FQ). apply (r_mono rnd RR).
    pose proof (rn_nearest rnd RN (c - h) p FP) as NE. rewrite (Qabs_pos (p - (c - h))) in NE by lra. destruct (abs_both (rnd (c - h) - (c - h))) as [_ A]. lra.
Qed.
(* a link: l = r/5 to both sides *)
Lemma fifth : (0 <= lit rnd (2 # 10) /\ lit rnd (2 # 10) <= 1 # 4)%Q.
Proof.
  unfold lit. assert (F0 : float64 0) by apply float64_0. assert (F4 : float64 (1 # 4)) by (exists 1, (-2); split; [cbn; lia|]; split; [lia|reflexivity]).
  split; [rewrite <- (r_id rnd RR _ F0)|rewrite <- (r_id rnd RR _ F4)]; apply (r_mono rnd RR); lra.
Qed.
Lemma spans_link fused r : (0 <= r)%Q -> (r <= W * (1 # 2))%Q -> spans (minus_link rnd fused c r) (fmul rnd 2 (fmul rnd r (lit rnd (2 # 10)))).
Proof.
  intros R0 R1. destruct fifth as [P0 P1]. set (p := lit rnd (2 # 10)) in *.
  assert (LP : (0 <= r * p /\ r * p <= W * (1 # 4))%Q) by (pose proof W0; split; nra). destruct LP as [L0 L1].
  assert (FQ : float64 (W * (1 # 4))) by (exists w, (-2); split; [unfold picture_range in RW; rewrite pow32 in RW; rewrite pow53; lia|]; split; [lia|reflexivity]).
  assert (LL : (0 <= fmul rnd r p /\ fmul rnd r p <= W * (1 # 4))%Q).
  { unfold fmul. split; [rewrite <- (r_id rnd RR 0 float64_0)|rewrite <- (r_id rnd RR _ FQ)]; apply (r_mono rnd RR); lra. }
  destruct LL as [M0 M1].
  assert (A : forall u, (0 <= u)%Q -> (u <= W * (1 # 4))%Q -> (X <= rnd (c - u) /\ rnd (c - u) <= X + W * (1 # 2))%Q).
  { intros u U0 U1. pose proof W0. split; [rewrite <- rX|rewrite <- rC]; apply (r_mono rnd RR); lra. }
  assert (B : (X <= minus_link rnd fused c r /\ minus_link rnd fused c r <= X + W * (1 # 2))%Q) by (unfold minus_link, fsub; destruct fused; apply A; assumption).
  destruct B as [B0 B1]. split; [exact B0|]. unfold fadd. rewrite <- rR. apply (r_mono rnd RR).
  assert (D : (fmul rnd 2 (fmul rnd r p) <= W * (1 # 2))%Q) by (unfold fmul at 1; rewrite <- rW2; apply (r_mono rnd RR); lra). lra.
Qed.
(* the radius: a part of half the box *)
Lemma radius_range q : (0 <= q)%Q -> (q <= 1)%Q -> (0 <= fdiv rnd (fmul rnd fw q) 2 /\ fdiv rnd (fmul rnd fw q) 2 <= W * (1 # 2))%Q.
Proof.
  intros Q0 Q1. pose proof W0. assert (P : (0 <= fw * q /\ fw * q <= W)%Q) by (rewrite Ew; split; nra). destruct P as [P0 P1].
  assert (M : (0 <= fmul rnd fw q /\ fmul rnd fw q <= W)%Q) by (unfold fmul; split; [rewrite <- (r_id rnd RR 0 float64_0)|rewrite <- rW]; apply (r_mono rnd RR); lra).
  destruct M as [M0 M1]. unfold fdiv, Qdiv. change (/ 2)%Q with (1 # 2)%Q. split; [rewrite <- (r_id rnd RR 0 float64_0)|rewrite <- rW2]; apply (r_mono rnd RR); lra.
Qed.
Lemma radius_low q : (1 <= W * q)%Q -> ((499 # 1000) * (W * q) <= fdiv rnd (fmul rnd fw q) 2)%Q.
Proof.
  intros L. assert (E : (fw * q == W * q)%Q) by (rewrite Ew; reflexivity). pose proof (rnd_low (fw * q) ltac:(lra)) as M. fold (fmul rnd fw q) in M.
  assert (E2 : (fmul rnd fw q / 2 == fmul rnd fw q * (1 # 2))%Q) by field. pose proof (rnd_low (fmul rnd fw q / 2) ltac:(lra)) as N. unfold fdiv. lra.
Qed.
Lemma side_range q : (0 <= q)%Q -> (q <= 1)%Q -> (0 <= fmul rnd fw q /\ fmul rnd fw q <= W)%Q.
Proof.
  intros Q0 Q1. pose proof W0. assert (P : (0 <= fw * q /\ fw * q <= W)%Q) by (rewrite Ew; split; nra). destruct P as [P0 P1].
  unfold fmul; split; [rewrite <- (r_id rnd RR 0 float64_0)|rewrite <- rW]; apply (r_mono rnd RR); lra.
Qed.
(* CircleBlocks multiplies in the other order *)
Lemma radius2_range q : (0 <= q)%Q -> (q <= 1)%Q -> (0 <= fmul rnd (fdiv rnd fw 2) q /\ fmul rnd (fdiv rnd fw 2) q <= W * (1 # 2))%Q.
Proof.
  intros Q0 Q1. pose proof W0. pose proof e_half as E. unfold fmul. assert (P : (0 <= fdiv rnd fw 2 * q /\ fdiv rnd fw 2 * q <= W * (1 # 2))%Q) by (rewrite E; split; nra).
  destruct P as [P0 P1]. split; [rewrite <- (r_id rnd RR 0 float64_0)|rewrite <- rW2]; apply (r_mono rnd RR); lra.
Qed.
Lemma radius2_low q : (1 <= W * q)%Q -> ((499 # 1000) * (W * q) <= fmul rnd (fdiv rnd fw 2) q)%Q.
Proof.
  intros L. assert (E : (fdiv rnd fw 2 * q == (1 # 2) * (W * q))%Q) by (rewrite e_half; ring). pose proof (rnd_low (fdiv rnd fw 2 * q) ltac:(lra)) as M. unfold fmul. lra.
Qed.
End Axis.

(* ---- a piece in the box of a call ---- *)
Definition inb (k : call) (g : piece) : Prop :=
  let X := inject_Z (k_x k) in let Y := inject_Z (k_y k) in let W := inject_Z (k_w k) in let H := inject_Z (k_h k) in
  match g with
  | Rect x y w h => (X <= x /\ x + w <= X + W /\ Y <= y /\ y + h <= Y + H)%Q
  | Disc cx cy r => (X <= cx - r /\ cx + r <= X + W /\ Y <= cy - r /\ cy + r <= Y + H)%Q
  | Curve _ _ => False
  end.
Lemma inb_none k g px py : inb k g -> ~ in_box k px py -> none g px py = true.
Proof.
  intros IB HN. unfold in_box in HN.
  assert (C : px + 1 <= k_x k \/ k_x k + k_w k <= px \/ py + 1 <= k_y k \/ k_y k + k_h k <= py) by lia.
  rewrite !Zle_Qle, !inject_Z_plus in C. change (inject_Z 1) with 1%Q in C.
  destruct g as [x y w h|cx cy r|ps core]; [| |destruct IB]; cbn [inb] in IB; destruct IB as (A1 & A2 & A3 & A4); destruct C as [C|[C|[C|C]]].
  - apply rect_left. unfold qpx. lra.
  - apply rect_right. unfold qpx. lra.
  - apply rect_above. unfold qpx. lra.
  - apply rect_below. unfold qpx. lra.
  - apply disc_left. unfold qpx. lra.
  - apply disc_right. unfold qpx. lra.
  - apply disc_above. unfold qpx. lra.
  - apply disc_below. unfold qpx. lra.
Qed.

Section Call.
Context (k : call) (RK : call_in_range k) (EH : k_h k = k_w k).
Let X := inject_Z (k_x k). Let Y := inject_Z (k_y k). Let W := inject_Z (k_w k).
Let RX : picture_range (k_x k) := proj1 RK.
Let RY : picture_range (k_y k) := proj1 (proj2 RK).
Let RW : picture_range (k_w k) := proj1 (proj2 (proj2 RK)).
Let RH : picture_range (k_h k) := proj2 (proj2 (proj2 RK)).
Lemma x64 : (ul_x64 rnd k == X)%Q. Proof. unfold ul_x64. apply rX. exact RX. Qed.
Lemma y64 : (ul_y64 rnd k == Y)%Q. Proof. unfold ul_y64. apply rX. exact RY. Qed.
Lemma w64 : (edge_w64 rnd k == W)%Q. Proof. unfold edge_w64. apply rW. exact RW. Qed.
Lemma h64 : (edge_h64 rnd k == W)%Q. Proof. unfold edge_h64. rewrite EH. apply rW. exact RW. Qed.
Let cx := fadd rnd (ul_x64 rnd k) (fdiv rnd (edge_w64 rnd k) 2).
Let cy := fadd rnd (ul_y64 rnd k) (fdiv rnd (edge_h64 rnd k) 2).
Lemma cx64 : (cx == X + W * (1 # 2))%Q. Proof. apply (e_middle (k_x k) (k_w k)); [exact RX|exact RW|exact x64|exact w64]. Qed.
Lemma cy64 : (cy == Y + W * (1 # 2))%Q. Proof. apply (e_middle (k_y k) (k_w k)); [exact RY|exact RW|exact y64|exact h64]. Qed.

Lemma inb_rect a b w h : spans (k_x k) (k_w k) a w -> spans (k_y k) (k_w k) b h -> inb k (rect64 rnd a b w h).
Proof. intros [A1 A2] [B1 B2]. cbn [inb rect64]. rewrite EH. repeat split; lra. Qed.
Lemma inb_disc r : (0 <= r)%Q -> (r <= W * (1 # 2))%Q -> inb k (Disc cx cy r).
Proof. intros R0 R1. pose proof cx64. pose proof cy64. cbn [inb]. rewrite EH. fold X Y W. repeat split; lra. Qed.

(* the spans, horizontally and vertically *)
Lemma hx_first : spans (k_x k) (k_w k) (ul_x64 rnd k) (fdiv rnd (edge_w64 rnd k) 2).
Proof. apply spans_first; [exact RX|exact RW|exact x64|exact w64]. Qed.
Lemma hx_second : spans (k_x k) (k_w k) cx (fdiv rnd (edge_w64 rnd k) 2).
Proof. apply spans_second; [exact RX|exact RW|exact w64|exact cx64]. Qed.
Lemma hx_whole : spans (k_x k) (k_w k) (ul_x64 rnd k) (edge_w64 rnd k).
Proof. apply spans_whole; [exact RX|exact RW|exact x64|exact w64]. Qed.
Lemma hx_radius r : float64 r -> (0 <= r)%Q -> (r <= W * (1 # 2))%Q -> spans (k_x k) (k_w k) (fsub rnd cx r) (fmul rnd 2 r).
Proof. apply spans_radius; [exact RX|exact RW|exact cx64]. Qed.
Lemma hx_link fused r : (0 <= r)%Q -> (r <= W * (1 # 2))%Q -> spans (k_x k) (k_w k) (minus_link rnd fused cx r) (fmul rnd 2 (fmul rnd r (lit rnd (2 # 10)))).
Proof. apply spans_link; [exact RX|exact RW|exact cx64]. Qed.
Lemma vy_first : spans (k_y k) (k_w k) (ul_y64 rnd k) (fdiv rnd (edge_h64 rnd k) 2).
Proof. apply spans_first; [exact RY|exact RW|exact y64|exact h64]. Qed.
Lemma vy_second : spans (k_y k) (k_w k) cy (fdiv rnd (edge_h64 rnd k) 2).
Proof. apply spans_second; [exact RY|exact RW|exact h64|exact cy64]. Qed.
Lemma vy_whole : spans (k_y k) (k_w k) (ul_y64 rnd k) (edge_h64 rnd k).
Proof. apply spans_whole; [exact RY|exact RW|exact y64|exact h64]. Qed.
Lemma vy_radius r : float64 r -> (0 <= r)%Q -> (r <= W * (1 # 2))%Q -> spans (k_y k) (k_w k) (fsub rnd cy r) (fmul rnd 2 r).
Proof. apply spans_radius; [exact RY|exact RW|exact cy64]. Qed.
Lemma vy_link fused r : (0 <= r)%Q -> (r <= W * (1 # 2))%Q -> spans (k_y k) (k_w k) (minus_link rnd fused cy r) (fmul rnd 2 (fmul rnd r (lit rnd (2 # 10)))).
Proof. apply spans_link; [exact RY|exact RW|exact cy64]. Qed.
Lemma r_range q : (0 <= q)%Q -> (q <= 1)%Q -> (0 <= fdiv rnd (fmul rnd (edge_w64 rnd k) q) 2 /\ fdiv rnd (fmul rnd (edge_w64 rnd k) q) 2 <= W * (1 # 2))%Q.
Proof. apply radius_range; [exact RW|exact w64]. Qed.
Lemma r_float64 q : float64 (fdiv rnd (fmul rnd (edge_w64 rnd k) q) 2).
Proof. apply (r_float rnd RR). Qed.

Lemma lit_range q : (0 <= q)%Q -> (q <= 1)%Q -> (0 <= lit rnd q /\ lit rnd q <= 1)%Q.
Proof.
  assert (F1 : float64 1) by (exists 1, 0; split; [cbn; lia|]; split; [lia|reflexivity]).
  intros Q0 Q1. unfold lit. split; [rewrite <- (r_id rnd RR 0 float64_0)|rewrite <- (r_id rnd RR 1 F1)]; apply (r_mono rnd RR); lra.
Qed.
Lemma ratio64_range s : (0 <= stripe_ratio64 rnd s /\ stripe_ratio64 rnd s <= 1)%Q.
Proof.
  unfold stripe_ratio64. destruct (lit_range (85 # 100) ltac:(lra) ltac:(lra)) as [A1 A2]. destruct (lit_range (6 # 10) ltac:(lra) ltac:(lra)) as [B1 B2].
  destruct (Qle_bool (lit rnd (6 # 10)) s) eqn:E1; cbn [negb orb]; [|split; assumption].
  destruct (Qle_bool s 1) eqn:E2; cbn [negb]; [|split; assumption]. apply Qle_bool_iff in E1, E2. split; lra.
Qed.
Lemma size64_range s : (9 # 100 <= block_size64 rnd s /\ block_size64 rnd s <= 1)%Q.
Proof.
  assert (B : (9 # 100 <= lit rnd (1 # 10))%Q).
  { assert (F : float64 (25 # 256)) by (exists 25, (-8); split; [cbn; lia|]; split; [lia|reflexivity]). unfold lit.
    pose proof (r_mono rnd RR (25 # 256) (1 # 10) ltac:(lra)) as M. rewrite (r_id rnd RR _ F) in M. lra. }
  unfold block_size64. destruct (Qle_bool (lit rnd (1 # 10)) s) eqn:E1; cbn [negb orb]; [|split; lra].
  destruct (Qle_bool s 1) eqn:E2; cbn [negb]; [|split; lra]. apply Qle_bool_iff in E1, E2. split; lra.
Qed.

Ltac ranges q R := let R1 := fresh "R" in let R2 := fresh "R" in destruct R as [R1 R2];
  let A := fresh "A" in let B := fresh "B" in destruct (r_range q R1 R2) as [A B]; pose proof (r_float64 q).
Ltac all_in I := repeat add_in I; fold cx cy; first [apply inb_disc; assumption|apply inb_rect];
  first [apply hx_first|apply hx_second|apply hx_whole|apply hx_radius; assumption|apply hx_link; assumption
        |apply vy_first|apply vy_second|apply vy_whole|apply vy_radius; assumption|apply vy_link; assumption].
Lemma chain_in fused g : In (Add g) (ChainBlock64 rnd fused k) -> inb k g.
Proof. intros I. ranges (lit rnd (9 # 10)) (lit_range (9 # 10) ltac:(lra) ltac:(lra)). unfold ChainBlock64, drawRect64 in I. cbv zeta in I. all_in I. Qed.
Lemma vchain_in fused g : In (Add g) (VChainBlock64 rnd fused k) -> inb k g.
Proof. intros I. ranges (lit rnd (85 # 100)) (lit_range (85 # 100) ltac:(lra) ltac:(lra)). unfold VChainBlock64, drawRect64 in I. cbv zeta in I. all_in I. Qed.
Lemma hchain_in fused g : In (Add g) (HChainBlock64 rnd fused k) -> inb k g.
Proof. intros I. ranges (lit rnd (85 # 100)) (lit_range (85 # 100) ltac:(lra) ltac:(lra)). unfold HChainBlock64, drawRect64 in I. cbv zeta in I. all_in I. Qed.
Lemma hstripe_in s g : In (Add g) (HStripeBlock64 rnd s k) -> inb k g.
Proof. intros I. ranges (lit rnd (9 # 10)) (lit_range (9 # 10) ltac:(lra) ltac:(lra)). unfold HStripeBlock64, drawRect64 in I. cbv zeta in I. all_in I. Qed.
Lemma vstripe_in s g : In (Add g) (VStripeBlock64 rnd s k) -> inb k g.
Proof. intros I. ranges (stripe_ratio64 rnd s) (ratio64_range s). unfold VStripeBlock64, drawRect64 in I. cbv zeta in I. all_in I. Qed.
Lemma square_finder_in g : In (Add g) (SquareFinder64 rnd k) -> inb k g.
Proof. intros I. unfold SquareFinder64, drawRect64 in I. all_in I. Qed.
Lemma circles_in s g : In (Add g) (CircleBlocks64 rnd s k) -> inb k g.
Proof.
  intros I. unfold CircleBlocks64 in I. cbv zeta in I. repeat add_in I. fold cx cy. destruct (size64_range s) as [S0 S1].
  destruct (radius2_range (k_w k) RW (edge_w64 rnd k) w64 (block_size64 rnd s) ltac:(lra) S1) as [A B]. apply inb_disc; assumption.
Qed.
Lemma squares_in s g : 1 <= k_w k -> In (Add g) (SquareBlocks64 rnd s k) -> inb k g.
Proof.
  intros W1 I. unfold SquareBlocks64, drawRect64 in I. cbv zeta in I. repeat add_in I. fold cx cy. destruct (size64_range s) as [S0 S1].
  assert (QW : (1 <= W)%Q) by (change 1%Q with (inject_Z 1); apply zq; exact W1).
  assert (PR : (9 # 100 <= W * block_size64 rnd s)%Q) by nra.
  assert (L : forall fw, (fw == W)%Q -> float64 (fmul rnd fw (block_size64 rnd s)) /\ (1 # 32 <= fmul rnd fw (block_size64 rnd s))%Q /\ (fmul rnd fw (block_size64 rnd s) <= W)%Q).
  { intros fw EF. split; [apply (r_float rnd RR)|]. destruct (side_range (k_w k) RW fw EF (block_size64 rnd s) ltac:(lra) S1) as [_ U]. split; [|exact U].
    assert (F : float64 (1 # 32)) by (exists 1, (-5); split; [cbn; lia|]; split; [lia|reflexivity]). unfold fmul. rewrite <- (r_id rnd RR _ F). apply (r_mono rnd RR). rewrite EF. lra. }
  destruct (L _ w64) as (F1 & A1 & B1). destruct (L _ h64) as (F2 & A2 & B2).
  apply inb_rect; [apply (spans_square (k_x k) (k_w k) RX RW cx cx64)|apply (spans_square (k_y k) (k_w k) RY RW cy cy64)]; assumption.
Qed.

(* ---- the sampled pixel ---- *)
Let bw := k_w k.
Let d := bw / 2.
Lemma solid_disc r : (8 # 5 <= r)%Q \/ (Z.odd bw = true /\ (79 # 100 <= r)%Q) -> solid (k_x k + d) (k_y k + d) (Disc cx cy r).
Proof.
  intros R. pose proof cx64 as CX. pose proof cy64 as CY. assert (B0 : 0 <= bw) by (unfold bw; destruct RW; assumption).
  destruct (middle_q bw B0) as [D1 D2]. pose proof (own_q (k_x k) d) as PX. pose proof (own_q (k_y k) d) as PY. unfold qpx in PX, PY. fold X in PX. fold Y in PY.
  change W with (inject_Z bw) in CX, CY. fold d in D1, D2. destruct R as [R|[O R]].
  - apply (disc_solid _ _ _ 1); unfold qpx; try lra. nra.
  - pose proof (odd_middle bw O) as OM. fold d in OM. apply (disc_solid _ _ _ (1 # 2)); unfold qpx; try lra. nra.
Qed.
Lemma wide_radius q r : wide_circle bw q -> ((1 <= W * q)%Q -> ((499 # 1000) * (W * q) <= r)%Q) -> (8 # 5 <= r)%Q \/ (Z.odd bw = true /\ (79 # 100 <= r)%Q).
Proof.
  intros [L|[O L]] R; change (inject_Z bw) with W in L; specialize (R ltac:(lra)); [left|right; split; [exact O|]]; lra.
Qed.
Lemma solid_part q : wide_circle bw q -> solid (k_x k + d) (k_y k + d) (Disc cx cy (fdiv rnd (fmul rnd (edge_w64 rnd k) q) 2)).
Proof. intros L. apply solid_disc. apply (wide_radius q); [exact L|]. apply radius_low. exact w64. Qed.
Lemma lit_low q : (1 # 4 <= q)%Q -> ((999 # 1000) * q <= lit rnd q)%Q.
Proof. apply rnd_low. Qed.
Lemma wide_lit q : 3 <= bw -> (84 # 100 <= q)%Q -> wide_circle bw q.
Proof.
  intros HB L. assert (B0 : (0 <= inject_Z bw)%Q) by (apply zqm; lia).
  destruct (Z.eq_dec bw 3) as [E|N]; [right; rewrite E; split; [reflexivity|change (inject_Z 3) with 3%Q; lra]|left].
  assert (Q4 : (4 <= inject_Z bw)%Q) by (change 4%Q with (inject_Z 4); apply zq; lia). nra.
Qed.
Ltac a_disc := intros _; eexists [], _, _; split; [reflexivity|]; split; [first [fills|left; reflexivity]|]; fold cx cy.
Lemma chain_solid fused : 3 <= bw -> call_solid (ChainBlock64 rnd fused) d k.
Proof. intros HB. unfold call_solid, ChainBlock64. cbv zeta. cbn [app]. a_disc. apply solid_part. apply wide_lit; [exact HB|]. pose proof (lit_low (9 # 10) ltac:(lra)). lra. Qed.
Lemma vchain_solid fused : 3 <= bw -> call_solid (VChainBlock64 rnd fused) d k.
Proof. intros HB. unfold call_solid, VChainBlock64. cbv zeta. cbn [app]. a_disc. apply solid_part. apply wide_lit; [exact HB|]. pose proof (lit_low (85 # 100) ltac:(lra)). lra. Qed.
Lemma hchain_solid fused : 3 <= bw -> call_solid (HChainBlock64 rnd fused) d k.
Proof. intros HB. unfold call_solid, HChainBlock64. cbv zeta. cbn [app]. a_disc. apply solid_part. apply wide_lit; [exact HB|]. pose proof (lit_low (85 # 100) ltac:(lra)). lra. Qed.
Lemma hstripe_solid s : 3 <= bw -> call_solid (HStripeBlock64 rnd s) d k.
Proof. intros HB. unfold call_solid, HStripeBlock64. cbv zeta. cbn [app]. a_disc. apply solid_part. apply wide_lit; [exact HB|]. pose proof (lit_low (9 # 10) ltac:(lra)). lra. Qed.
Lemma vstripe_solid s : 3 <= bw -> bw <> 4 \/ (s < lit rnd (6 # 10))%Q \/ (84 # 100 <= s)%Q -> call_solid (VStripeBlock64 rnd s) d k.
Proof.
  intros HB C. unfold call_solid, VStripeBlock64. cbv zeta. cbn [app]. a_disc. apply solid_part.
  pose proof (lit_low (6 # 10) ltac:(lra)) as L6. pose proof (lit_low (85 # 100) ltac:(lra)) as L8.
  assert (K : (84 # 100 <= stripe_ratio64 rnd s)%Q \/ (bw <> 4 /\ (59 # 100 <= stripe_ratio64 rnd s)%Q)).
  { unfold stripe_ratio64. destruct (Qle_bool (lit rnd (6 # 10)) s) eqn:E1; cbn [negb orb]; [|left; lra].
    destruct (Qle_bool s 1) eqn:E2; cbn [negb]; [|left; lra]. apply Qle_bool_iff in E1, E2. destruct C as [C|[C|C]]; [right; split; [exact C|lra]|lra|left; exact C]. }
  destruct K as [K|[N4 K]]; [apply wide_lit; assumption|].
  destruct (Z.eq_dec bw 3) as [E|N3]; [right; rewrite E; split; [reflexivity|change (inject_Z 3) with 3%Q; lra]|].
  destruct (Z.eq_dec bw 5) as [E|N5]; [right; rewrite E; split; [reflexivity|change (inject_Z 5) with 5%Q; lra]|].
  left. assert (Q6 : (6 <= inject_Z bw)%Q) by (change 6%Q with (inject_Z 6); apply zq; lia). nra.
Qed.
Lemma size64_cases s : (s < lit rnd (1 # 10))%Q \/ (1 < s)%Q -> block_size64 rnd s = 1%Q.
Proof.
  intros [L|L]; unfold block_size64.
  - rewrite (qnl _ s L). reflexivity.
  - rewrite (qnl s 1 L). destruct (Qle_bool (lit rnd (1 # 10)) s); reflexivity.
Qed.
Lemma size64_or s : block_size64 rnd s = 1%Q \/ (block_size64 rnd s = s /\ (lit rnd (1 # 10) <= s)%Q /\ (s <= 1)%Q).
Proof.
  unfold block_size64. destruct (Qle_bool (lit rnd (1 # 10)) s) eqn:E1; cbn [negb orb]; [|left; reflexivity].
  destruct (Qle_bool s 1) eqn:E2; cbn [negb]; [|left; reflexivity]. apply Qle_bool_iff in E1, E2. right. auto.
Qed.
Lemma circles_solid s : 3 <= bw -> wide_circle bw s \/ (s < lit rnd (1 # 10))%Q \/ (1 < s)%Q -> call_solid (CircleBlocks64 rnd s) d k.
Proof.
  intros HB C. unfold call_solid, CircleBlocks64. cbv zeta. a_disc. apply solid_disc. apply (wide_radius (block_size64 rnd s)); [|apply (radius2_low (k_w k) RW); exact w64].
  destruct C as [C|C]; [|rewrite size64_cases by exact C; apply wide_lit; [exact HB|lra]].
  destruct (size64_or s) as [-> | [-> _]]; [apply wide_lit; [exact HB|lra]|exact C].
Qed.
Lemma float_one : float64 1. Proof. exists 1, 0. split; [cbn; lia|]. split; [lia|reflexivity]. Qed.
(* whole numbers around the box *)
Lemma near_float v z : picture_range v -> picture_range z -> float64 (inject_Z v + inject_Z z) /\ float64 (inject_Z v + inject_Z z + 1) /\ float64 (inject_Z v + inject_Z z - 1).
Proof.
  unfold picture_range. rewrite pow32. intros A B.
  assert (F : forall u, Z.abs u <= 9007199254740992 -> float64 (inject_Z u)).
  { intros u U. exists u, 0. split; [rewrite pow53; exact U|]. split; [lia|]. rewrite pow2_0. ring. }
  split; [|split].
  - apply (float_q (inject_Z (v + z))); [rewrite inject_Z_plus; reflexivity|]. apply F. lia.
  - apply (float_q (inject_Z (v + z + 1))); [rewrite !inject_Z_plus; reflexivity|]. apply F. lia.
  - apply (float_q (inject_Z (v + z + -1))); [rewrite !inject_Z_plus; reflexivity|]. apply F. lia.
Qed.
Lemma squares_solid s : 1 <= bw -> wide_square bw s \/ (s < lit rnd (1 # 10))%Q \/ (1 < s)%Q -> call_solid (SquareBlocks64 rnd s) d k.
Proof.
  intros HB C _. unfold SquareBlocks64, drawRect64. cbv zeta. eexists [], _, _. split; [reflexivity|]. split; [left; reflexivity|]. fold cx cy.
  set (q := block_size64 rnd s).
  assert (QB : (1 <= W)%Q) by (change 1%Q with (inject_Z 1); apply zq; exact HB).
  assert (WS : wide_square bw q).
  { assert (W1 : wide_square bw 1).
    { destruct (Z.eq_dec bw 1) as [E|N]; [right; rewrite E; split; [reflexivity|change (inject_Z 1) with 1%Q; lra]|left].
      assert (Q2 : (2 <= inject_Z bw)%Q) by (change 2%Q with (inject_Z 2); apply zq; lia). lra. }
    unfold q. destruct C as [C|C]; [|rewrite size64_cases by exact C; exact W1]. destruct (size64_or s) as [-> | [-> _]]; [exact W1|exact C]. }
  pose proof cx64 as CX. pose proof cy64 as CY. destruct (middle_q bw ltac:(lia)) as [D1 D2]. fold d in D1, D2. change (inject_Z bw) with W in D1, D2.
  pose proof (own_q (k_x k) d) as PX. pose proof (own_q (k_y k) d) as PY. unfold qpx in PX, PY. fold X in PX. fold Y in PY.
  assert (RD : picture_range d). { pose proof RW as P. unfold picture_range in *. fold bw in P. unfold d. pose proof (Z.div_mod bw 2). pose proof (Z.mod_pos_bound bw 2). lia. }
  (* p is the left edge of the pixel, or one less where the middle falls on an edge *)
  assert (KEY : exists u e : Q, (u == inject_Z d \/ u == inject_Z d - 1)%Q /\ (u <= inject_Z d)%Q /\ (inject_Z d + 1 <= u + 2 * e)%Q /\ (W * (1 # 2) == u + e)%Q /\ (2 * e <= W * q)%Q /\ (1 <= 2 * e)%Q /\
            ((u + 2 * e == inject_Z d)%Q \/ (u + 2 * e == inject_Z d + 1)%Q) /\ (2 * e == 1 \/ 2 * e == 2)%Q).
  { destruct (Z.odd bw) eqn:O.
    - pose proof (odd_middle bw O) as OM. fold d in OM. change (inject_Z bw) with W in OM. exists (inject_Z d), (1 # 2).
      assert (L : (1 <= W * q)%Q) by (destruct WS as [L|[_ L]]; change (inject_Z bw) with W in L; lra).
      repeat apply conj; lra.
    - destruct WS as [L|[F _]]; [|rewrite O in F; discriminate F]. change (inject_Z bw) with W in L.
      assert (EV : (2 * inject_Z d == W)%Q).
      { change 2%Q with (inject_Z 2). rewrite <- inject_Z_mult. unfold W, d. fold bw. pose proof (Z.div_mod bw 2 ltac:(lia)) as E. rewrite (Zmod_odd bw), O in E. replace (2 * (bw / 2)) with bw by lia. reflexivity. }
      exists (inject_Z d - 1)%Q, 1%Q. repeat apply conj; lra. }
  destruct KEY as (u & e & U1 & U2 & U3 & U4 & U5 & U6 & U7 & U8).
  assert (FE : float64 (2 * e)).
  { destruct U8 as [U8|U8]; [apply (float_q 1); [symmetry; exact U8|apply float_one]|apply (float_q 2); [symmetry; exact U8|]]. exists 1, 1. split; [cbn; lia|]. split; [lia|reflexivity]. }
  assert (SIDE : forall fw, (fw == W)%Q -> float64 (fmul rnd fw q) /\ (1 # 32 <= fmul rnd fw q)%Q /\ (2 * e <= fmul rnd fw q)%Q).
  { intros fw EF. split; [apply (r_float rnd RR)|]. assert (L : (2 * e <= fmul rnd fw q)%Q) by (unfold fmul; rewrite <- (r_id rnd RR _ FE); apply (r_mono rnd RR); rewrite EF; exact U5).
    split; [lra|exact L]. }
  assert (FL : forall v, picture_range v -> float64 (inject_Z v + u) /\ float64 (inject_Z v + u + 2 * e)).
  { intros v RV. destruct (near_float v d RV RD) as (F0 & F1 & F2). split.
    - destruct U1 as [U1|U1]; [apply (float_q (inject_Z v + inject_Z d))|apply (float_q (inject_Z v + inject_Z d - 1))]; auto; lra.
    - destruct U7 as [U7|U7]; [apply (float_q (inject_Z v + inject_Z d))|apply (float_q (inject_Z v + inject_Z d + 1))]; auto; lra. }
  destruct (SIDE _ w64) as (A1 & A2 & A3). destruct (SIDE _ h64) as (B1 & B2 & B3). destruct (FL _ RX) as [FX1 FX2]. destruct (FL _ RY) as [FY1 FY2].
  destruct (square_covers cx _ (X + u) e A1 A2 A3 FX1 FX2 ltac:(lra)) as [P1 P2]. destruct (square_covers cy _ (Y + u) e B1 B2 B3 FY1 FY2 ltac:(lra)) as [P3 P4].
  unfold rect64. apply rect_solid; unfold qpx; lra.
Qed.
Lemma square_finder_solid : 1 <= bw -> call_solid (SquareFinder64 rnd) d k.
Proof.
  intros HB _. unfold SquareFinder64, drawRect64. eexists [], _, _. split; [reflexivity|]. split; [left; reflexivity|].
  assert (EX : (fadd rnd (ul_x64 rnd k) (edge_w64 rnd k) == X + W)%Q) by (unfold fadd; rewrite (rnd_q _ (X + W)) by (rewrite x64, w64; reflexivity); apply (rR (k_x k) (k_w k)); [exact RX|exact RW]).
  assert (EY : (fadd rnd (ul_y64 rnd k) (edge_h64 rnd k) == Y + W)%Q) by (unfold fadd; rewrite (rnd_q _ (Y + W)) by (rewrite y64, h64; reflexivity); apply (rR (k_y k) (k_w k)); [exact RY|exact RW]).
  pose proof x64 as E1. pose proof y64 as E2. destruct (middle_q bw ltac:(lia)) as [D1 D2]. fold d in D1, D2. change (inject_Z bw) with W in D1, D2.
  pose proof (own_q (k_x k) d) as PX. pose proof (own_q (k_y k) d) as PY. unfold qpx in PX, PY. fold X in PX. fold Y in PY.
  assert (D3 : (0 <= inject_Z d /\ inject_Z d + 1 <= W)%Q).
  { split; [apply zqm|change 1%Q with (inject_Z 1); rewrite <- inject_Z_plus; apply zq]; unfold d; pose proof (Z.div_mod bw 2); pose proof (Z.mod_pos_bound bw 2); fold bw; lia. }
  unfold rect64. apply rect_solid; unfold qpx; lra.
Qed.
End Call.
End Rounding.
