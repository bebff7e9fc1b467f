(* Gradients in float64 arithmetic. *)
From Verif Require Import ModelBase ModelMatrix ModelStandard ModelFloat ModelGradient ModelGradient64.
From Verif Require Import SpecReader SpecMatrix SpecStandard SpecMedium SpecShape SpecFloat64 SpecGradient SpecGradient64.
From Verif Require Import ProofStandard ProofMedium ProofShape ProofFloat ProofGradient.
From Coq Require Import Lia QArith Qround Qminmax Qabs Lqa.
Open Scope Z_scope.

Local Notation U := (1 # 4503599627370496)%Q.
Local Notation T := (1 # 20282409603651670423947251286016)%Q.

Definition near (e a b : Q) : Prop := (- e <= a - b)%Q /\ (a - b <= e)%Q.
Lemma near_abs e a b : near e a b <-> (Qabs (a - b) <= e)%Q.
Proof. symmetry. apply Qabs_Qle_condition. Qed.

Lemma pow2_U : (pow2 (-52) == U)%Q. Proof. vm_compute. reflexivity. Qed.
Lemma pow2_T : (pow2 (-1074) <= T)%Q.
Proof. apply (Qle_trans _ (pow2 (-104))); [apply pow2_le; lia|]. apply Qle_bool_iff. vm_compute. reflexivity. Qed.

Section Rounding.
Context (rnd : Q -> Q) (HR : rounding rnd).

Lemma rnd_near x m : (- m <= x)%Q -> (x <= m)%Q -> near (m * U + T) (rnd x) x.
Proof.
  intros L1 L2. apply near_abs. eapply Qle_trans; [apply (r_error _ HR)|]. rewrite pow2_U. pose proof pow2_T.
  assert (A : (Qabs x <= m)%Q) by (apply Qabs_Qle_condition; auto). lra.
Qed.
Lemma float64_Z z : Z.abs z <= 2 ^ 53 -> float64 (inject_Z z).
Proof. intros H. exists z, 0. split; [exact H|]. split; [lia|]. rewrite pow2_0. ring. Qed.
Lemma rnd_0 : (rnd 0 == 0)%Q. Proof. apply (r_id _ HR). apply (float64_Z 0). lia. Qed.
Lemma rnd_1 : (rnd 1 == 1)%Q. Proof. apply (r_id _ HR). apply (float64_Z 1). lia. Qed.
Lemma rnd_nonneg x : (0 <= x)%Q -> (0 <= rnd x)%Q.
Proof. intros L. rewrite <- rnd_0. apply (r_mono _ HR), L. Qed.
Lemma rnd_le_1 x : (x <= 1)%Q -> (rnd x <= 1)%Q.
Proof. intros L. rewrite <- rnd_1. apply (r_mono _ HR), L. Qed.

(* the difference of two float64 values has no absolute error *)
Lemma float64_multiple q : float64 q -> exists z, (q == inject_Z z * pow2 (-1074))%Q.
Proof.
  intros (m & k & _ & K & E). exists (m * 2 ^ (k + 1074)). rewrite E, inject_Z_mult, <- pow2_Z by lia.
  setoid_replace (pow2 k) with (pow2 (k + 1074) * pow2 (-1074))%Q; [ring|]. rewrite <- pow2_plus. replace (k + 1074 + -1074) with k by lia. reflexivity.
Qed.
Lemma rnd_sub a b : float64 a -> float64 b -> (b <= a)%Q -> near ((a - b) * (2 * U)) (rnd (a - b)) (a - b).
Proof.
  intros FA FB L. destruct (float64_multiple a FA) as (za & EA), (float64_multiple b FB) as (zb & EB).
  assert (E : (a - b == inject_Z (za - zb) * pow2 (-1074))%Q). { rewrite EA, EB. unfold Zminus. rewrite inject_Z_plus, inject_Z_opp. ring. }
  pose proof (pow2_pos (-1074)) as P.
  destruct (Z_le_gt_dec (Z.abs (za - zb)) (2 ^ 53)) as [S|S].
  - assert (F : (rnd (a - b) == a - b)%Q). { apply (r_id _ HR). exists (za - zb), (-1074). split; [exact S|]. split; [lia|exact E]. }
    split; rewrite F; lra.
  - assert (G : (pow2 (-1074) * inject_Z (2 ^ 53) <= a - b)%Q).
    { assert (Z0 : 0 <= za - zb). { rewrite Zle_Qle. change (inject_Z 0) with 0%Q. nra. }
      rewrite E, Qmult_comm. apply Qmult_le_compat_r; [rewrite <- Zle_Qle; lia|lra]. }
    change (inject_Z (2 ^ 53)) with 9007199254740992%Q in G.
    apply near_abs. eapply Qle_trans; [apply (r_error _ HR)|]. rewrite pow2_U, Qabs_pos by lra. lra.
Qed.

(* x*y + z*w *)
Lemma madd_near f x y z w A B : (- A <= x * y)%Q -> (x * y <= A)%Q -> (- B <= z * w)%Q -> (z * w <= B)%Q -> ((1 # 2) <= A + B)%Q ->
  near ((A + B) * (3 * U)) (madd rnd f x y z w) (x * y + z * w).
Proof.
  intros P1 P2 Q1 Q2 S. unfold madd. set (p := (x * y)%Q) in *. set (q := (z * w)%Q) in *. clearbody p q.
  destruct (rnd_near p A P1 P2) as [E1 E2]. destruct (rnd_near q B Q1 Q2) as [F1 F2].
  destruct f.
  - destruct (rnd_near (rnd p + rnd q)%Q ((A + B) * (1 + U) + 2 * T)%Q) as [G1 G2]; [lra|lra|]. split; lra.
  - destruct (rnd_near (p + rnd q)%Q ((A + B) * (1 + U) + 2 * T)%Q) as [G1 G2]; [lra|lra|]. split; lra.
  - destruct (rnd_near (rnd p + q)%Q ((A + B) * (1 + U) + 2 * T)%Q) as [G1 G2]; [lra|lra|]. split; lra.
Qed.
Lemma madd_nonneg f x y z w : (0 <= x * y)%Q -> (0 <= z * w)%Q -> (0 <= madd rnd f x y z w)%Q.
Proof.
  intros P1 P2. unfold madd. pose proof (rnd_nonneg _ P1). pose proof (rnd_nonneg _ P2). destruct f; apply rnd_nonneg; lra.
Qed.

(* ---- the factor ---- *)
Lemma factor_near t t0 t1 : float64 t -> float64 t0 -> float64 t1 -> (t0 < t)%Q -> (t <= t1)%Q ->
  (0 <= factor64 rnd t t0 t1)%Q /\ (factor64 rnd t t0 t1 <= 1)%Q /\ near (8 * U) (factor64 rnd t t0 t1) ((t - t0) / (t1 - t0)).
Proof.
  intros F F0 F1 L0 L1. unfold factor64. destruct (rnd_sub t t0 F F0 ltac:(lra)) as [N1 N2]. destruct (rnd_sub t1 t0 F1 F0 ltac:(lra)) as [D1 D2].
  assert (ND : (rnd (t - t0) <= rnd (t1 - t0))%Q) by (apply (r_mono _ HR); lra).
  set (n' := rnd (t - t0)%Q) in *. set (d' := rnd (t1 - t0)%Q) in *. clearbody n' d'.
  assert (N0 : (0 < t - t0)%Q) by lra. assert (D0 : (t - t0 <= t1 - t0)%Q) by lra.
  set (n := (t - t0)%Q) in *. set (d := (t1 - t0)%Q) in *. clearbody n d. clear F F0 F1 L0 L1.
  assert (N' : (0 < n')%Q) by lra. assert (D' : (0 < d')%Q) by lra. assert (DP : (0 < d)%Q) by lra.
  assert (G0 : (0 <= n' / d')%Q) by (apply Qle_shift_div_l; lra). assert (G1 : (n' / d' <= 1)%Q) by (apply Qle_shift_div_r; lra).
  assert (H0 : (0 <= n / d)%Q) by (apply Qle_shift_div_l; lra). assert (H1 : (n / d <= 1)%Q) by (apply Qle_shift_div_r; lra).
  split; [apply rnd_nonneg, G0|]. split; [apply rnd_le_1, G1|].
  destruct (rnd_near (n' / d')%Q 1) as [R1 R2]; [lra|lra|].
  assert (EN : (n / d * d == n)%Q) by (field; lra).
  assert (A1 : (n' / d' <= n / d + 5 * U)%Q). { apply Qle_shift_div_r; [lra|]. set (r := (n / d)%Q) in *. clearbody r.
    assert (X1 : (n' <= n * (1 + 2 * U))%Q) by lra. assert (X2 : (d * (1 - 2 * U) <= d')%Q) by lra.
    assert (X3 : ((r + 5 * U) * (d * (1 - 2 * U)) <= (r + 5 * U) * d')%Q) by (apply Qmult_le_l; lra).
    assert (X4 : (r * d <= d)%Q) by (rewrite EN; lra). lra. }
  assert (A2 : (n / d - 5 * U <= n' / d')%Q). { apply Qle_shift_div_l; [lra|]. set (r := (n / d)%Q) in *. clearbody r.
    assert (X1 : (n * (1 - 2 * U) <= n')%Q) by lra. assert (X2 : (d' <= d * (1 + 2 * U))%Q) by lra.
    assert (X3 : (r * d' <= r * (d * (1 + 2 * U)))%Q). { rewrite (Qmult_comm r d'), (Qmult_comm r). apply Qmult_le_compat_r; lra. }
    assert (X4 : (r * d <= d)%Q) by (rewrite EN; lra). lra. }
  split; lra.
Qed.

(* ---- a channel ---- *)
Lemma channel_near f a b (g g' : Q) : byte a -> byte b -> (0 <= g')%Q -> (g' <= 1)%Q -> near (8 * U) g' g ->
  exists q, (Qabs (q - (inject_Z a + (inject_Z b - inject_Z a) * g)) <= pow2 (-36))%Q /\ rounds_down q (blend_channel64 rnd f a b g') /\ byte (blend_channel64 rnd f a b g').
Proof.
  intros [A1 A2] [B1 B2] G0 G1 [N1 N2]. unfold blend_channel64.
  assert (A1' : (0 <= inject_Z a)%Q) by (rewrite <- (Zle_Qle 0); lia). assert (B1' : (0 <= inject_Z b)%Q) by (rewrite <- (Zle_Qle 0); lia).
  assert (A2' : (inject_Z a <= 255)%Q) by (change 255%Q with (inject_Z 255); rewrite <- Zle_Qle; lia).
  assert (B2' : (inject_Z b <= 255)%Q) by (change 255%Q with (inject_Z 255); rewrite <- Zle_Qle; lia).
  pose proof (rnd_nonneg (1 - g')%Q ltac:(lra)) as H0. pose proof (rnd_le_1 (1 - g')%Q ltac:(lra)) as H1.
  destruct (rnd_near (1 - g')%Q 1 ltac:(lra) ltac:(lra)) as [M1 M2].
  set (h' := rnd (1 - g')%Q) in *. clearbody h'. set (a' := inject_Z a) in *. set (b' := inject_Z b) in *.
  assert (P0 : (0 <= a' * h')%Q) by nra. assert (P1 : (a' * h' <= 255)%Q) by nra.
  assert (Q0 : (0 <= b' * g')%Q) by nra. assert (Q1 : (b' * g' <= 255)%Q) by nra.
  destruct (madd_near f a' h' b' g' 255 255) as [E1 E2]; [lra..|]. pose proof (madd_nonneg f a' h' b' g' P0 Q0) as M0.
  set (m := madd rnd f a' h' b' g') in *. clearbody m.
  (* a (1 - g) and a h' *)
  assert (AH1 : (a' * h' <= a' * (1 - g + 10 * U))%Q). { rewrite (Qmult_comm a' h'), (Qmult_comm a'). apply Qmult_le_compat_r; lra. }
  assert (AH2 : (a' * (1 - g - 10 * U) <= a' * h')%Q). { rewrite (Qmult_comm a' h'), (Qmult_comm a'). apply Qmult_le_compat_r; lra. }
  assert (BG1 : (b' * g' <= b' * (g + 8 * U))%Q). { rewrite (Qmult_comm b' g'), (Qmult_comm b'). apply Qmult_le_compat_r; lra. }
  assert (BG2 : (b' * (g - 8 * U) <= b' * g')%Q). { rewrite (Qmult_comm b' g'), (Qmult_comm b'). apply Qmult_le_compat_r; lra. }
  assert (S1 : (a' * h' + b' * g' <= 255 * (1 + T + U))%Q).
  { assert (X1 : (a' * h' <= 255 * h')%Q) by (apply Qmult_le_compat_r; lra). assert (X2 : (b' * g' <= 255 * g')%Q) by (apply Qmult_le_compat_r; lra). lra. }
  assert (MB : (m < 256)%Q) by lra.
  exists m. split.
  - setoid_replace (pow2 (-36)) with (1 # 68719476736)%Q by (vm_compute; reflexivity).
    apply Qabs_Qle_condition. split; lra.
  - pose proof (Qfloor_le m) as L1. pose proof (Qlt_floor m) as L2.
    assert (R0 : 0 <= Qfloor m). { change 0 with (Qfloor (inject_Z 0)). apply Qfloor_resp_le. exact M0. }
    assert (R1 : Qfloor m < 256). { rewrite Zlt_Qlt. eapply Qle_lt_trans; [exact L1|exact MB]. }
    rewrite Z.mod_small by lia. unfold rounds_down, byte. rewrite inject_Z_plus in L2. split; [split; [exact L1|exact L2]|lia].
Qed.

Lemma blend_near fuse s e t : good (s_color s) -> good (s_color e) -> float64 t -> float64 (s_T s) -> float64 (s_T e) -> (s_T s < t)%Q -> (t <= s_T e)%Q ->
  nearly_mixed (pow2 (-36)) s e t (blendColors64 rnd fuse (s_color s) (s_color e) (factor64 rnd t (s_T s) (s_T e))).
Proof.
  intros (S1 & S2 & S3 & S4) (E1 & E2 & E3 & E4) F FS FE H1 H2. destruct (factor_near t (s_T s) (s_T e) F FS FE H1 H2) as (G0 & G1 & GN).
  split; [reflexivity|]. unfold line. intros ch [<- | [<- | [<- | []]]]; cbn [c_r c_g c_b blendColors64].
  - destruct (channel_near (fuse AtR) (c_r (s_color s)) (c_r (s_color e)) _ _ S1 E1 G0 G1 GN) as (q & A & B & _). exists q. auto.
  - destruct (channel_near (fuse AtG) (c_g (s_color s)) (c_g (s_color e)) _ _ S2 E2 G0 G1 GN) as (q & A & B & _). exists q. auto.
  - destruct (channel_near (fuse AtB) (c_b (s_color s)) (c_b (s_color e)) _ _ S3 E3 G0 G1 GN) as (q & A & B & _). exists q. auto.
Qed.

Lemma loop64_spec fuse t : forall stops first r, stops = first :: r -> (s_T first < t)%Q -> (t < s_T (last stops first))%Q ->
  exists l s e r', stops = l ++ s :: e :: r' /\ (s_T s < t)%Q /\ (t <= s_T e)%Q /\
    interpolate_loop64 rnd fuse stops t = Some (blendColors64 rnd fuse (s_color s) (s_color e) (factor64 rnd t (s_T s) (s_T e))).
Proof.
  induction stops as [|s0 stops IH]; intros first r ES HF HL; [discriminate ES|]. injection ES as -> _.
  destruct stops as [|s1 r1]; [exfalso; cbn in HL; lra|]. cbn [interpolate_loop64].
  assert (E0 : Qle_bool (s_T first) t = true) by (apply Qle_bool_iff; lra). rewrite E0. cbn [andb].
  destruct (Qle_bool t (s_T s1)) eqn:E1.
  - apply Qle_bool_iff in E1. exists [], first, s1, r1. auto.
  - apply Qle_bool_false in E1. destruct (IH s1 r1 eq_refl E1) as (l & s & e & r' & ES & A).
    { change (last (first :: s1 :: r1) first) with (last (s1 :: r1) first) in HL.
      rewrite (last_default (s1 :: r1) s1 first) by discriminate. exact HL. }
    exists (first :: l), s, e, r'. split; [rewrite ES; reflexivity|exact A].
Qed.

Lemma interpolate64_spec fuse stops t : stops <> [] -> good_stops stops -> float_stops stops -> float64 t ->
  exists c, interpolateColor64 rnd fuse stops t = Some c /\ near_color (pow2 (-36)) stops t c.
Proof.
  intros HN HG HF FT. unfold interpolateColor64. destruct stops as [|first r]; [contradiction HN; reflexivity|].
  destruct (Qle_bool t (s_T first)) eqn:E0.
  { apply Qle_bool_iff in E0. eexists. split; [reflexivity|]. eapply near_first; eauto. }
  apply Qle_bool_false in E0. destruct (Qle_bool (s_T (last (first :: r) first)) t) eqn:E1.
  { apply Qle_bool_iff in E1. eexists. split; [reflexivity|]. destruct (last_app (first :: r) first HN) as [l' EL]. eapply near_last; eauto. }
  apply Qle_bool_false in E1. destruct (loop64_spec fuse t _ first r eq_refl E0 E1) as (l & s & e & r' & ES & H1 & H2 & ->).
  eexists. split; [reflexivity|]. assert (IS : In s (first :: r)) by (rewrite ES; apply in_app_iff; right; left; reflexivity).
  assert (IE : In e (first :: r)) by (rewrite ES; apply in_app_iff; right; right; left; reflexivity).
  eapply near_between; eauto. apply blend_near; auto.
Qed.

(* ---- position ---- *)
Lemma Qmin_near e a b a' b' : near e a' a -> near e b' b -> near e (Qmin a' b') (Qmin a b).
Proof.
  unfold near. intros [A1 A2] [B1 B2].
  destruct (Q.min_spec a b) as [[D1 ->]|[D1 ->]]; destruct (Q.min_spec a' b') as [[D2 ->]|[D2 ->]]; split; lra.
Qed.
Lemma Qmax_near e a b a' b' : near e a' a -> near e b' b -> near e (Qmax a' b') (Qmax a b).
Proof.
  unfold near. intros [A1 A2] [B1 B2].
  destruct (Q.max_spec a b) as [[D1 ->]|[D1 ->]]; destruct (Q.max_spec a' b') as [[D2 ->]|[D2 ->]]; split; lra.
Qed.
Lemma near_comp e a a' b b' : (a == a')%Q -> (b == b')%Q -> near e a b -> near e a' b'.
Proof. unfold near. intros -> ->. auto. Qed.

Definition span (dx dy : Q) (w h : Z) : Q := (inject_Z w * Qabs dx + inject_Z h * Qabs dy)%Q.
Lemma proj_near f dx dy w h x y : 0 <= x <= w -> 0 <= y <= h -> ((1 # 2) <= span dx dy w h)%Q ->
  near (span dx dy w h * (3 * U)) (proj64 rnd f dx dy x y) (proj dx dy x y) /\ (- span dx dy w h <= proj dx dy x y)%Q /\ (proj dx dy x y <= span dx dy w h)%Q.
Proof.
  intros HX HY HS. unfold proj64, proj.
  assert (A : forall d u v, 0 <= u <= v -> (- (inject_Z v * Qabs d) <= inject_Z u * d)%Q /\ (inject_Z u * d <= inject_Z v * Qabs d)%Q).
  { intros d u v [U1 U2]. assert (P : (0 <= inject_Z u)%Q) by (rewrite <- (Zle_Qle 0); lia). assert (V : (inject_Z u <= inject_Z v)%Q) by (rewrite <- Zle_Qle; lia).
    destruct (Qlt_le_dec d 0) as [D|D]; [rewrite Qabs_neg by lra|rewrite Qabs_pos by lra]; nra. }
  destruct (A dx x w HX), (A dy y h HY). unfold span in *. split; [|split; lra]. apply madd_near; lra.
Qed.
Lemma min_near f dx dy w h : 0 <= w -> 0 <= h -> ((1 # 2) <= span dx dy w h)%Q -> near (span dx dy w h * (3 * U)) (minProj64 rnd f dx dy w h) (minProj dx dy w h).
Proof.
  intros HW HH HS. unfold minProj64, minProj, corners. cbn [map fold_left].
  eapply near_comp; [symmetry; rewrite !min_step; reflexivity|symmetry; rewrite !min_step; reflexivity|].
  repeat apply Qmin_near; apply proj_near; auto; lia.
Qed.
Lemma max_near f dx dy w h : 0 <= w -> 0 <= h -> ((1 # 2) <= span dx dy w h)%Q -> near (span dx dy w h * (3 * U)) (maxProj64 rnd f dx dy w h) (maxProj dx dy w h).
Proof.
  intros HW HH HS. unfold maxProj64, maxProj, corners. cbn [map fold_left].
  eapply near_comp; [symmetry; rewrite !max_step; reflexivity|symmetry; rewrite !max_step; reflexivity|].
  repeat apply Qmax_near; apply proj_near; auto; lia.
Qed.

Lemma position_near fuse dx dy w h x y : 0 < w -> 0 < h -> ((1 # 2) <= Qabs dx + Qabs dy)%Q -> 0 <= x <= w -> 0 <= y <= h ->
  float64 (position64 rnd fuse dx dy w h x y) /\ near (pow2 (-47)) (position64 rnd fuse dx dy w h x y) (along dx dy w h x y).
Proof.
  intros HW HH HD HX HY. assert (W : (1 <= inject_Z w)%Q) by (rewrite <- (Zle_Qle 1); lia). assert (HQ : (1 <= inject_Z h)%Q) by (rewrite <- (Zle_Qle 1); lia).
  assert (HS : ((1 # 2) <= span dx dy w h)%Q). { unfold span. pose proof (Qabs_nonneg dx). pose proof (Qabs_nonneg dy). nra. }
  split; [apply (r_float _ HR)|]. unfold position64. cbv zeta.
  assert (ND : ~ (dx == 0 /\ dy == 0)%Q). { intros [E1 E2]. rewrite E1, E2 in HD. cbn in HD. lra. }
  destruct (proj_near (fuse AtPixel) dx dy w h x y HX HY HS) as ([P1 P2] & _).
  destruct (min_near (fuse AtCorner) dx dy w h ltac:(lia) ltac:(lia) HS) as [M1 M2]. destruct (max_near (fuse AtCorner) dx dy w h ltac:(lia) ltac:(lia) HS) as [X1 X2].
  destruct (along_range dx dy w h x y HW HH ND HX HY) as [R0 R1].
  assert (ED : (maxProj dx dy w h - minProj dx dy w h == span dx dy w h)%Q). { rewrite max_spec, min_spec by lia. unfold span. rewrite !abs_split. ring. }
  assert (EN : (proj dx dy x y - minProj dx dy w h == along dx dy w h x y * span dx dy w h)%Q).
  { rewrite <- position_along by lia. unfold position. rewrite ED. field. lra. }
  set (al := along dx dy w h x y) in *. set (S := span dx dy w h) in *. clearbody al.
  set (p' := proj64 rnd (fuse AtPixel) dx dy x y) in *. set (lo' := minProj64 rnd (fuse AtCorner) dx dy w h) in *. set (hi' := maxProj64 rnd (fuse AtCorner) dx dy w h) in *.
  clearbody p' lo' hi' S. set (p := proj dx dy x y) in *. set (lo := minProj dx dy w h) in *. set (hi := maxProj dx dy w h) in *. clearbody p lo hi. clear - HR HS P1 P2 M1 M2 X1 X2 R0 R1 ED EN.
  assert (AS : (al * S <= S)%Q) by nra. assert (AS0 : (0 <= al * S)%Q) by nra.
  destruct (rnd_near (p' - lo')%Q (S * (1 + 6 * U))%Q) as [N1 N2]; [lra|lra|]. destruct (rnd_near (hi' - lo')%Q (S * (1 + 6 * U))%Q) as [D1 D2]; [lra|lra|].
  set (n' := rnd (p' - lo')%Q) in *. set (d' := rnd (hi' - lo')%Q) in *. clearbody n' d'.
  assert (N1' : (al * S - S * (8 * U) <= n')%Q) by lra. assert (N2' : (n' <= al * S + S * (8 * U))%Q) by lra.
  assert (D1' : (S * (1 - 8 * U) <= d')%Q) by lra. assert (D2' : (d' <= S * (1 + 8 * U))%Q) by lra.
  assert (DP : (0 < d')%Q) by lra.
  assert (A1 : (n' / d' <= al + 17 * U)%Q). { apply Qle_shift_div_r; [lra|].
    assert (X3 : ((al + 17 * U) * (S * (1 - 8 * U)) <= (al + 17 * U) * d')%Q) by (apply Qmult_le_l; lra). lra. }
  assert (A2 : (al - 17 * U <= n' / d')%Q). { apply Qle_shift_div_l; [lra|].
    assert (X3 : (al * d' <= al * (S * (1 + 8 * U)))%Q). { rewrite (Qmult_comm al d'), (Qmult_comm al). apply Qmult_le_compat_r; lra. } lra. }
  destruct (rnd_near (n' / d')%Q 2) as [G1 G2]; [lra|lra|].
  assert (EP : (pow2 (-47) == 32 * U)%Q) by (vm_compute; reflexivity). split; rewrite EP; lra.
Qed.
End Rounding.

Lemma pow2_36 : (pow2 (-36) == 1 # 68719476736)%Q. Proof. vm_compute. reflexivity. Qed.
Lemma rounds_near a b (f q : Q) v : (0 <= f)%Q -> (f <= 1)%Q -> (Qabs (q - (inject_Z a + (inject_Z b - inject_Z a) * f)) <= pow2 (-36))%Q -> rounds_down q v ->
  Z.min a b - 1 <= v <= Z.max a b.
Proof.
  intros F0 F1 HQ [R1 R2]. rewrite pow2_36 in HQ. apply Qabs_Qle_condition in HQ as [L1 L2].
  assert (M1 : (inject_Z (Z.min a b) <= inject_Z a)%Q) by (rewrite <- Zle_Qle; lia). assert (M2 : (inject_Z (Z.min a b) <= inject_Z b)%Q) by (rewrite <- Zle_Qle; lia).
  assert (N1 : (inject_Z a <= inject_Z (Z.max a b))%Q) by (rewrite <- Zle_Qle; lia). assert (N2 : (inject_Z b <= inject_Z (Z.max a b))%Q) by (rewrite <- Zle_Qle; lia).
  set (l := (inject_Z a + (inject_Z b - inject_Z a) * f)%Q) in *.
  assert (P1 : (inject_Z (Z.min a b) <= l)%Q) by (unfold l; nra). assert (P2 : (l <= inject_Z (Z.max a b))%Q) by (unfold l; nra). clearbody l.
  assert (L : (inject_Z (Z.min a b) < inject_Z v + 2)%Q) by lra. assert (V : (inject_Z v < inject_Z (Z.max a b) + 1)%Q) by lra.
  change 1%Q with (inject_Z 1) in V. change 2%Q with (inject_Z 2) in L. rewrite <- inject_Z_plus, <- Zlt_Qlt in V, L. lia.
Qed.

Lemma near_range stops t c ch lo hi : near_color (pow2 (-36)) stops t c -> In ch color_channels ->
  (forall s, In s stops -> lo <= ch (s_color s) <= hi) -> lo - 1 <= ch c <= hi.
Proof.
  intros HC IC HS. destruct HC as [s r -> _ -> | s l -> _ -> | s e l r -> H1 H2 [_ M]].
  - pose proof (HS s ltac:(left; reflexivity)). lia.
  - pose proof (HS s ltac:(apply in_app_iff; right; left; reflexivity)). lia.
  - destruct (factor_range s e t H1 H2) as [F0 F1]. destruct (M ch IC) as (q & A & B). unfold line in A. pose proof (rounds_near _ _ _ q (ch c) F0 F1 A B).
    pose proof (HS s ltac:(apply in_app_iff; right; left; reflexivity)). pose proof (HS e ltac:(apply in_app_iff; right; right; left; reflexivity)). lia.
Qed.

Lemma near_clear stops t c bg : near_color (pow2 (-36)) stops t c -> clear_contrast stops bg -> c <> bg.
Proof.
  intros HC (ch & IC & [HS|HS]) ->.
  - cut (ch bg <= ch bg - 1); [lia|]. destruct HC as [s r -> _ -> | s l -> _ -> | s e l r -> H1 H2 [_ M]].
    + pose proof (HS s ltac:(left; reflexivity)). lia.
    + pose proof (HS s ltac:(apply in_app_iff; right; left; reflexivity)). lia.
    + destruct (factor_range s e t H1 H2) as [F0 F1]. destruct (M ch IC) as (q & A & B). unfold line in A. pose proof (rounds_near _ _ _ q _ F0 F1 A B).
      pose proof (HS s ltac:(apply in_app_iff; right; left; reflexivity)). pose proof (HS e ltac:(apply in_app_iff; right; right; left; reflexivity)). lia.
  - cut (ch bg + 1 <= ch bg); [lia|]. destruct HC as [s r -> _ -> | s l -> _ -> | s e l r -> H1 H2 [_ M]].
    + pose proof (HS s ltac:(left; reflexivity)). lia.
    + pose proof (HS s ltac:(apply in_app_iff; right; left; reflexivity)). lia.
    + destruct (factor_range s e t H1 H2) as [F0 F1]. destruct (M ch IC) as (q & A & B). unfold line in A. pose proof (rounds_near _ _ _ q _ F0 F1 A B).
      pose proof (HS s ltac:(apply in_app_iff; right; left; reflexivity)). pose proof (HS e ltac:(apply in_app_iff; right; right; left; reflexivity)). lia.
Qed.

(* opaque whatever the position, also for stops that are not float64 values *)
Lemma blend_byte64 rnd f a b t : byte (blend_channel64 rnd f a b t).
Proof. unfold byte, blend_channel64. pose proof (Z.mod_pos_bound (Qfloor (madd rnd f (inject_Z a) (rnd (1 - t)%Q) (inject_Z b) t)) 256 ltac:(lia)). lia. Qed.
Lemma loop_opaque64 rnd fuse stops t c : interpolate_loop64 rnd fuse stops t = Some c -> opaque c.
Proof.
  induction stops as [|s [|e r] IH]; [discriminate|discriminate|]. cbn [interpolate_loop64]. destruct (_ && _); [|exact IH].
  intros E. injection E as <-. split; [|reflexivity]. repeat split; cbn [c_r c_g c_b c_a blendColors64]; try apply blend_byte64; lia.
Qed.
Lemma color_opaque64 rnd fuse stops t c : opaque_stops stops -> interpolateColor64 rnd fuse stops t = Some c -> opaque c.
Proof.
  intros HO. unfold interpolateColor64. destruct stops as [|first r]; [discriminate|].
  destruct (Qle_bool _ _). { intros E. injection E as <-. apply HO. left. reflexivity. }
  destruct (Qle_bool _ _). { intros E. injection E as <-. cut (In (last (first :: r) first) (first :: r)); [intros I; exact (HO _ I)|]. destruct (last_app (first :: r) first ltac:(discriminate)) as [l' EL]. set (x := last (first :: r) first) in *. clearbody x. rewrite EL. apply in_app_iff. right. left. reflexivity. }
  destruct (interpolate_loop64 rnd fuse (first :: r) t) as [c'|] eqn:EL.
  - intros E. injection E as <-. eapply loop_opaque64; exact EL.
  - intros E. injection E as <-. unfold opaque, good, byte. cbn. lia.
Qed.
Lemma gradient_opaque64 rnd fuse stops dx dy w h x y : stops <> [] -> opaque_stops stops -> opaque (gradient_at64 rnd fuse stops dx dy w h x y).
Proof.
  intros HN HO. unfold gradient_at64. destruct (interpolateColor64 rnd fuse stops _) as [c|] eqn:E; [eapply color_opaque64; eauto|].
  exfalso. unfold interpolateColor64 in E. destruct stops; [contradiction HN; reflexivity|]. do 2 (destruct (Qle_bool _ _); [discriminate E|]). discriminate E.
Qed.

Lemma gradient_at64_spec rnd fuse stops dx dy w h x y : rounding rnd -> stops <> [] -> good_stops stops -> float_stops stops ->
  0 < w -> 0 < h -> ((1 # 2) <= Qabs dx + Qabs dy)%Q -> 0 <= x <= w -> 0 <= y <= h ->
  exists t, (Qabs (t - along dx dy w h x y) <= pow2 (-47))%Q /\ near_color (pow2 (-36)) stops t (gradient_at64 rnd fuse stops dx dy w h x y).
Proof.
  intros HR HN HG HF HW HH HD HX HY. destruct (position_near rnd HR fuse dx dy w h x y HW HH HD HX HY) as [F NE].
  exists (position64 rnd fuse dx dy w h x y). split; [apply near_abs; exact NE|]. unfold gradient_at64.
  destruct (interpolate64_spec rnd HR fuse stops _ HN HG HF F) as (c & -> & HC). exact HC.
Qed.

(* the picture, for any function of the pixel's place *)
Lemma any_gradient_samples others scale n m o d g : square n m -> proper_shape (chosen_shape others o) (qrBlockWidth o) d -> 0 <= d < qrBlockWidth o ->
  o_halftone o = None -> o_gradient o = Some g -> (forall px py, opaque (g px py)) ->
  painter_colors o -> (o_bgTransparent o = false -> o_bgColor o <> o_qrColor o) -> proper_logo o -> (forall i, o_logo o = Some i -> i_x0 i = 0 /\ i_y0 i = 0) ->
  exists cv o', draw others scale m o = Some (Z.abs (img_w o n), Z.abs (img_h o n), cv, o') /\
    forall px py, 0 <= px < img_w o n -> 0 <= py < img_h o n ->
    (forall i, o_logo o = Some i -> logo_fits o (img_w o n) (img_h o n) i -> ~ in_logo (img_w o n) (img_h o n) i px py) ->
    (forall x y, 0 <= x < n -> 0 <= y < n -> px = sample_x o d x -> py = sample_y o d y ->
       (module_at (m_bitmap m) x y = true -> ~ in_safe_zone o (img_w o n) (img_h o n) x y -> cv px py = g px py) /\
       (module_at (m_bitmap m) x y = false \/ in_safe_zone o (img_w o n) (img_h o n) x y -> is_light o (cv px py))) /\
    (~ in_symbol o n px py -> is_light o (cv px py)).
Proof.
  intros HS PS HD EH EG OS HC DIFF HP H0.
  destruct (draw_shape_spec others scale n m o HS) as (t & o' & E & ST & _). rewrite E, EG. cbv zeta. eexists. exists o'. split; [reflexivity|].
  intros px py Hx Hy HL. rewrite logo_out by assumption. fold (shape_base others scale n t m o).
  destruct (shape_base_samples others scale n t m o d HS PS HD EH HC HP px py Hx Hy) as [P1 P2]. set (cv := shape_base others scale n t m o) in *.
  pose proof HC as (HF & HG & HB). pose proof (good_border o HG) as GB.
  assert (LIGHT : cv px py = border_color o -> is_light o (apply_gradient cv (o_qrColor o) g px py)).
  { intros EV. destruct (gradient_pixel cv (o_qrColor o) g px py) as [_ K]; [rewrite EV; exact GB|]. rewrite K.
    - rewrite EV. apply border_light.
    - rewrite EV. unfold border_color. destruct (o_bgTransparent o) eqn:ET; [|apply DIFF; reflexivity]. intros F. destruct HF as [_ HF]. rewrite <- F in HF. discriminate HF.
    - rewrite EV. unfold border_color. destruct (o_bgTransparent o) eqn:ET; [right; reflexivity|left; apply HB; reflexivity]. }
  split; [|intros HN; apply LIGHT, P2, HN]. intros x y Rx Ry EX EY. destruct (P1 x y Rx Ry EX EY) as [Q1 Q2]. split; [|intros F; apply LIGHT, Q2, F].
  intros M1 M2. destruct (gradient_pixel cv (o_qrColor o) g px py) as [K _]; [rewrite (Q1 M1 M2); apply HF|]. apply K; auto.
Qed.
