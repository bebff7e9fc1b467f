(* The float64 drawing loop against the exact one. *)
From Coq Require Import Lia.
From Verif Require Import ModelBase ModelMatrix ModelFloat ModelStandard ModelExample ModelHalftone64.
From Verif Require Import SpecMatrix SpecStandard SpecFloat64 SpecCombine.
From Verif Require Import ProofBase ProofMatrix ProofStandard ProofFloat ProofShapes64.
From Coq Require Import QArith Qabs Lqa Lia.
Open Scope Z_scope.

(* ---- to_int ---- *)
Lemma to_int_at v n : 0 <= n -> (inject_Z n <= v)%Q -> (v < inject_Z n + 1)%Q -> to_int v = n.
Proof.
  intros N A B. unfold to_int. unfold Qle, Qlt, Qplus, inject_Z in *. cbn [Qnum Qden] in *. rewrite !Pos.mul_1_r in *. rewrite Z.quot_div_nonneg by nia.
  symmetry. apply Z.div_unique with (r := Qnum v - n * Zpos (Qden v)); nia.
Qed.
Lemma to_int_opp v : to_int (- v) = - to_int v.
Proof. unfold to_int. cbn [Qopp Qnum Qden]. apply Z.quot_opp_l. lia. Qed.
Lemma to_int_neg v n : n <= 0 -> (v <= inject_Z n)%Q -> (inject_Z n - 1 < v)%Q -> to_int v = n.
Proof.
  intros N A B. rewrite <- (Z.opp_involutive n). rewrite <- (to_int_at (- v) (- n)); [rewrite to_int_opp; lia|lia| |]; rewrite inject_Z_opp; lra.
Qed.
Lemma to_int_Q a b : (a == b)%Q -> to_int a = to_int b.
Proof.
  intros E. destruct (Qlt_le_dec a 0) as [HN|HP].
  - assert (K : to_int (- a) = to_int (- b)).
    { symmetry. apply to_int_at.
      - unfold to_int. unfold Qlt in HN. cbn [Qnum Qden Qopp] in *. rewrite Z.quot_div_nonneg by nia. apply Z.div_pos; nia.
      - rewrite <- E. unfold to_int, Qle, Qlt, inject_Z in *. cbn [Qnum Qden Qopp] in *. rewrite Z.quot_div_nonneg by nia. pose proof (Z.mul_div_le (- Qnum a) (Zpos (Qden a)) ltac:(lia)). nia.
      - rewrite <- E. unfold to_int, Qle, Qlt, Qplus, inject_Z in *. cbn [Qnum Qden Qopp] in *. rewrite Z.quot_div_nonneg by nia. pose proof (Z.mul_succ_div_gt (- Qnum a) (Zpos (Qden a)) ltac:(lia)). nia. }
    rewrite !to_int_opp in K. lia.
  - symmetry. apply to_int_at.
    + unfold to_int. unfold Qle in HP. cbn [Qnum Qden] in *. rewrite Z.quot_div_nonneg by nia. apply Z.div_pos; nia.
    + rewrite <- E. unfold to_int, Qle, Qlt, inject_Z in *. cbn [Qnum Qden] in *. rewrite Z.quot_div_nonneg by nia. pose proof (Z.mul_div_le (Qnum a) (Zpos (Qden a)) ltac:(lia)). nia.
    + rewrite <- E. unfold to_int, Qle, Qlt, Qplus, inject_Z in *. cbn [Qnum Qden] in *. rewrite Z.quot_div_nonneg by nia. pose proof (Z.mul_succ_div_gt (Qnum a) (Zpos (Qden a)) ltac:(lia)). nia.
Qed.

Section Float.
Context (rnd : Q -> Q) (fused : bool) (RR : rounding rnd).
Local Notation keep := (keep rnd). Local Notation sub_at := (sub_at rnd fused). Local Notation halftoneW := (halftoneW rnd).

Lemma keep_q a : (keep a == rnd a)%Q. Proof. apply Qred_correct. Qed.
Lemma rq a b : (a == b)%Q -> (rnd a == rnd b)%Q.
Proof. intros E. apply Qle_antisym; apply (r_mono _ RR); rewrite E; apply Qle_refl. Qed.
Lemma keep_same a b : (a == b)%Q -> keep a = keep b.
Proof. intros E. apply Qred_complete, rq, E. Qed.
Lemma float_keep a : float64 (keep a).
Proof. destruct (r_float _ RR a) as (m & k & A & B & E). exists m, k. repeat split; auto. rewrite keep_q. exact E. Qed.
Lemma keep_keep a : keep (keep a) = keep a.
Proof. unfold ModelHalftone64.keep. apply Qred_complete. fold (keep a). rewrite (r_id _ RR _ (float_keep a)). apply keep_q. Qed.
Lemma keep_id a : float64 a -> (keep a == a)%Q.
Proof. intros F. rewrite keep_q. apply (r_id _ RR). exact F. Qed.
Lemma keep_zero : (keep 0 == 0)%Q.
Proof. apply keep_id, float64_0. Qed.

Lemma sub_zero x hw : sub_at (keep x) 0 hw = keep x.
Proof.
  unfold ModelHalftone64.sub_at. change (inject_Z 0) with 0%Q. pose proof keep_zero as K0.
  destruct fused; rewrite <- (keep_keep x) at 2; apply keep_same.
  - rewrite K0. ring.
  - assert (E : (keep (keep 0 * hw) == 0)%Q) by (rewrite (keep_same (keep 0 * hw) 0); [exact K0|rewrite K0; ring]). rewrite E. ring.
Qed.

Lemma pow2_small : (0 < pow2 (-52) /\ pow2 (-52) <= 1 # 4000000000000000 /\ 0 < pow2 (-1074) /\ pow2 (-1074) <= 1 # 4000000000000000)%Q.
Proof. split; [apply pow2_pos|]. split; [vm_compute; discriminate|]. split; [apply pow2_pos|vm_compute; discriminate]. Qed.
(* the rounding error of a number up to B *)
Lemma error_bound q B : (Qabs q <= B)%Q -> (Qabs (rnd q - q) <= (B + 1) * (1 # 4000000000000000))%Q.
Proof.
  intros L. pose proof (r_error _ RR q) as E. destruct pow2_small as (P1 & P2 & P3 & P4). pose proof (Qabs_nonneg q).
  assert (M : (Qabs q * pow2 (-52) <= B * (1 # 4000000000000000))%Q) by (apply Qle_trans with (B * pow2 (-52))%Q; [apply Qmult_le_compat_r; lra|rewrite !(Qmult_comm B); apply Qmult_le_compat_r; lra]). lra.
Qed.
Lemma abs_le_iff a b : (Qabs a <= b)%Q <-> (- b <= a /\ a <= b)%Q.
Proof. apply Qabs_Qle_condition. Qed.

Lemma int_float z : Z.abs z <= 2 ^ 53 -> float64 (inject_Z z).
Proof. intros A. exists z, 0. split; [exact A|]. split; [lia|]. rewrite pow2_0. ring. Qed.

(* ---- the third of a block ---- *)
Lemma third_q block : 1 <= block <= 255 -> (Qabs (halftoneW block - inject_Z block / 3) <= 1 # 40000000000000)%Q.
Proof.
  intros HB. unfold ModelHalftone64.halftoneW. assert (K : (keep (inject_Z block) == inject_Z block)%Q) by (apply keep_id, int_float; lia).
  rewrite keep_q. assert (R : (rnd (keep (inject_Z block) / 3) == rnd (inject_Z block / 3))%Q) by (apply rq; rewrite K; reflexivity). rewrite R.
  assert (B1 : (1 <= inject_Z block)%Q) by (apply (zq 1); lia). assert (B2 : (inject_Z block <= 255)%Q) by (apply (zq _ 255); lia).
  assert (E : (inject_Z block / 3 == inject_Z block * (1 # 3))%Q) by (field).
  assert (A : (Qabs (inject_Z block / 3) <= 85)%Q) by (rewrite E; apply abs_le_iff; lra).
  pose proof (error_bound _ _ A). lra.
Qed.
Lemma third_exact block : 1 <= block <= 255 -> block mod 3 = 0 -> (halftoneW block == inject_Z (block / 3))%Q.
Proof.
  intros HB HM. unfold ModelHalftone64.halftoneW. assert (K : (keep (inject_Z block) == inject_Z block)%Q) by (apply keep_id, int_float; lia).
  assert (E : (inject_Z block / 3 == inject_Z (block / 3))%Q).
  { pose proof (Z.div_mod block 3 ltac:(lia)) as DM. rewrite HM in DM. rewrite DM at 1. rewrite inject_Z_plus, inject_Z_mult. field. }
  rewrite keep_q. rewrite (rq _ (inject_Z (block / 3))); [|rewrite K; exact E]. apply (r_id _ RR), int_float. pose proof (Z.div_le_upper_bound block 3 255 ltac:(lia) ltac:(lia)). pose proof (Z.div_pos block 3). lia.
Qed.
Lemma third_int block : 1 <= block <= 255 -> to_int (halftoneW block) = Z.quot block 3.
Proof.
  intros HB. rewrite Z.quot_div_nonneg by lia. destruct (Z.eq_dec (block mod 3) 0) as [HM|HM].
  - pose proof (third_exact block HB HM) as E. apply to_int_at; [apply Z.div_pos; lia|rewrite E; apply Qle_refl|rewrite E; lra].
  - pose proof (third_q block HB) as E. apply abs_le_iff in E as [E1 E2]. pose proof (Z.div_mod block 3 ltac:(lia)) as DM. pose proof (Z.mod_pos_bound block 3 ltac:(lia)).
    assert (Q1 : (inject_Z block / 3 == inject_Z (block / 3) + inject_Z (block mod 3) * (1 # 3))%Q) by (rewrite DM at 1; rewrite inject_Z_plus, inject_Z_mult; field).
    assert (M1 : (1 <= inject_Z (block mod 3))%Q) by (apply (zq 1); lia). assert (M2 : (inject_Z (block mod 3) <= 2)%Q) by (apply (zq _ 2); lia).
    apply to_int_at; [apply Z.div_pos; lia|lra|lra].
Qed.

(* ---- a sub-block ---- *)
Definition in_range (z : Z) : Prop := Z.abs z <= 2 ^ 32.
Lemma range_q z : in_range z -> (- (4294967296) <= inject_Z z /\ inject_Z z <= 4294967296)%Q.
Proof. intros R. unfold in_range in R. change (2 ^ 32) with 4294967296 in R. split; [apply (zq (-4294967296))|apply (zq _ 4294967296)]; lia. Qed.
Lemma keep_int z : in_range z -> (keep (inject_Z z) == inject_Z z)%Q.
Proof. intros R. apply keep_id, int_float. unfold in_range in R. lia. Qed.
Lemma index_q i : 0 <= i <= 2 -> (0 <= inject_Z i /\ inject_Z i <= 2)%Q.
Proof. intros HI. split; [apply (zq 0)|apply (zq _ 2)]; lia. Qed.

Lemma sub_q64 z block i : in_range z -> 1 <= block <= 255 -> 0 <= i <= 2 ->
  (Qabs (sub_at (keep (inject_Z z)) i (halftoneW block) - (inject_Z z + inject_Z (i * block) * (1 # 3))) <= 1 # 400000)%Q.
Proof.
  intros RZ HB HI. pose proof (third_q block HB) as T. set (hw := halftoneW block) in *. apply abs_le_iff in T as [T1 T2].
  pose proof (keep_int z RZ) as KZ. destruct (range_q z RZ) as [Z1 Z2].
  assert (KI : (keep (inject_Z i) == inject_Z i)%Q) by (apply keep_id, int_float; lia).
  assert (B1 : (1 <= inject_Z block)%Q) by (apply (zq 1); lia). assert (B2 : (inject_Z block <= 255)%Q) by (apply (zq _ 255); lia).
  assert (EB : (inject_Z block / 3 == inject_Z block * (1 # 3))%Q) by field. rewrite EB in T1, T2.
  assert (IH : (Qabs (inject_Z i * hw - inject_Z (i * block) * (1 # 3)) <= 1 # 20000000000000 /\ Qabs (inject_Z i * hw) <= 171)%Q).
  { rewrite inject_Z_mult. assert (i = 0 \/ i = 1 \/ i = 2) as [-> | [-> | ->]] by lia.
    - change (inject_Z 0) with 0%Q. split; apply abs_le_iff; lra.
    - change (inject_Z 1) with 1%Q. split; apply abs_le_iff; lra.
    - change (inject_Z 2) with 2%Q. split; apply abs_le_iff; lra. }
  destruct IH as [IH1 IH2]. apply abs_le_iff in IH1 as [IL IU]. pose proof (error_bound _ _ IH2) as EP. apply abs_le_iff in EP as [EP1 EP2].
  set (p := (inject_Z i * hw)%Q) in *. set (q := (inject_Z (i * block) * (1 # 3))%Q) in *.
  assert (F : forall s, (inject_Z z + s - (1 # 1000) <= p + inject_Z z)%Q -> True) by auto. clear F.
  unfold ModelHalftone64.sub_at. apply abs_le_iff in IH2 as [P1 P2]. destruct fused.
  - rewrite keep_q. rewrite (rq _ (inject_Z z + p)); [|rewrite KZ, KI; reflexivity].
    assert (A : (Qabs (inject_Z z + p) <= 4294968000)%Q) by (apply abs_le_iff; lra). pose proof (error_bound _ _ A) as E. apply abs_le_iff in E as [E1 E2]. apply abs_le_iff. lra.
  - assert (KP : (keep (keep (inject_Z i) * hw) == rnd p)%Q) by (rewrite keep_q; apply rq; rewrite KI; reflexivity).
    rewrite keep_q. rewrite (rq _ (inject_Z z + rnd p)); [|rewrite KZ, KP; reflexivity].
    assert (A : (Qabs (inject_Z z + rnd p) <= 4294968000)%Q) by (apply abs_le_iff; lra). pose proof (error_bound _ _ A) as E. apply abs_le_iff in E as [E1 E2]. apply abs_le_iff. lra.
Qed.
Lemma sub_exact z block i : in_range z -> 1 <= block <= 255 -> 0 <= i <= 2 -> block mod 3 = 0 ->
  (sub_at (keep (inject_Z z)) i (halftoneW block) == inject_Z (z + i * (block / 3)))%Q.
Proof.
  intros RZ HB HI HM. pose proof (third_exact block HB HM) as T. pose proof (keep_int z RZ) as KZ.
  assert (KI : (keep (inject_Z i) == inject_Z i)%Q) by (apply keep_id, int_float; lia).
  pose proof (Z.div_pos block 3 ltac:(lia) ltac:(lia)). pose proof (Z.div_le_upper_bound block 3 255 ltac:(lia) ltac:(lia)).
  assert (FS : float64 (inject_Z (z + i * (block / 3)))) by (apply int_float; unfold in_range in RZ; nia).
  assert (FP : float64 (inject_Z (i * (block / 3)))) by (apply int_float; nia).
  unfold ModelHalftone64.sub_at. destruct fused.
  - rewrite keep_q, (rq _ (inject_Z (z + i * (block / 3)))); [apply (r_id _ RR), FS|]. rewrite KZ, KI, T, inject_Z_plus, inject_Z_mult. reflexivity.
  - assert (KP : (keep (keep (inject_Z i) * halftoneW block) == inject_Z (i * (block / 3)))%Q).
    { rewrite keep_q, (rq _ (inject_Z (i * (block / 3)))); [apply (r_id _ RR), FP|]. rewrite KI, T, inject_Z_mult. reflexivity. }
    rewrite keep_q, (rq _ (inject_Z (z + i * (block / 3)))); [apply (r_id _ RR), FS|]. rewrite KZ, KP, inject_Z_plus. reflexivity.
Qed.

(* ---- the calls ---- *)
(* the context of the float64 program for a call of the exact one *)
Definition as_call (block : Z) (k : call) : call_f :=
  mkCallF (k_finder k) (sub_at (keep (inject_Z (k_x k))) (k_tx k / block) (halftoneW block)) (sub_at (keep (inject_Z (k_y k))) (k_ty k / block) (halftoneW block))
          (k_w k) (k_h k) (k_color k) (k_neighbours k).
Lemma halftone_calls_same grey tr block x y cx cy color : 1 <= block <= 255 ->
  halftone_calls_f rnd fused grey tr block x y (keep (inject_Z cx)) (keep (inject_Z cy)) color = map (as_call block) (halftone_calls grey tr block x y cx cy color).
Proof.
  intros HB. unfold halftone_calls_f, halftone_calls. rewrite (third_int block HB).
  assert (D : forall i, i * block / block = i) by (intros i; apply Z.div_mul; lia).
  change (zseq 0 3) with [0; 1; 2]. cbn [flat_map map app]. unfold as_call. cbn [k_finder k_x k_tx k_y k_ty k_w k_h k_color k_neighbours]. rewrite !D. reflexivity.
Qed.
Lemma module_same halftone bm safe block left_ top s x y v : 1 <= block <= 255 ->
  draw_module_f rnd fused halftone bm safe block left_ top (map (as_call block) (fst s), snd s) x y v =
  (map (as_call block) (fst (draw_module halftone bm safe block left_ top s x y v)), snd (draw_module halftone bm safe block left_ top s x y v)).
Proof.
  intros HB. destruct s as [calls o]. cbn [fst snd]. unfold draw_module_f, draw_module. destruct (safe x y && qrbool v); [reflexivity|].
  destruct (translateToRGBA o v) as [color o']. cbn [fst snd]. rewrite map_app. f_equal. f_equal.
  assert (P : forall b, [mkCallF b (keep (inject_Z (x * block + left_))) (keep (inject_Z (y * block + top))) block block color (getNeighbours bm x y)] =
                        map (as_call block) [mkCall b (x * block + left_) 0 (y * block + top) 0 block block color (getNeighbours bm x y)]).
  { intros b. cbn [map]. unfold as_call. cbn [k_finder k_x k_tx k_y k_ty k_w k_h k_color k_neighbours]. rewrite Z.div_0_l by lia. rewrite !sub_zero. reflexivity. }
  destruct (qrtype v =? QRType_FINDER); [apply P|]. destruct (qrtype v =? QRType_DATA); [|apply P]. destruct halftone; [|apply P]. apply halftone_calls_same, HB.
Qed.
Lemma fold_map {A B C} (f : A -> C -> A) (g : B -> C) l : forall a, fold_left f (map g l) a = fold_left (fun a b => f a (g b)) l a.
Proof. induction l as [|b l IH]; intros a; [reflexivity|]. cbn [map fold_left]. apply IH. Qed.

(* the float64 loop is the exact loop with a shape that is given the float64 contexts *)
Lemma draw_f_exact s scale m o : draw_f rnd fused s scale m o = draw_with (fun cv k => s cv (as_call (qrBlockWidth o) k)) scale m o.
Proof.
  pose proof (block_width_range o) as BW. unfold draw_f, draw_with, draw_plan. destruct (o_borders o) as [[[top right_] bottom] left_]. destruct (backgroundColor o) as [bg o1].
  cbv zeta. destruct (logo_info o1 _ _) as [[lv lw] lh].
  match goal with |- match ?b with _ => _ end = _ => destruct b as [t|] end; [|reflexivity].
  set (bw := qrBlockWidth o) in *. set (ht := match o_halftone o1 with Some i => _ | None => _ end).
  set (sf := fun x y => lv && o_safeZone o1 && _).
  assert (E : forall l s0, fold_left (fun s '(x, y) => draw_module_f rnd fused ht t sf bw left_ top s x y (rawget m x y)) l (map (as_call bw) (fst s0), snd s0) =
     (map (as_call bw) (fst (fold_left (fun s '(x, y) => draw_module ht t sf bw left_ top s x y (rawget m x y)) l s0)),
      snd (fold_left (fun s '(x, y) => draw_module ht t sf bw left_ top s x y (rawget m x y)) l s0))).
  { induction l as [|[x y] l IH]; intros s0; [reflexivity|]. cbn [fold_left]. rewrite module_same by exact BW. apply IH. }
  unfold m_iter. specialize (E (iter_coords IterDirection_ROW (mwidth m) (mheight m)) ([], o1)). cbn [fst snd map] in E. rewrite E. clear E.
  destruct (fold_left _ _ ([], o1)) as [calls o2]. cbn [fst snd p_w p_h p_bg p_logo p_calls p_options]. rewrite fold_map.
  destruct (o_logo o2); [|reflexivity]. destruct lv; reflexivity.
Qed.

(* ---- squares: the same pixels ---- *)
Lemma fix_same v z t : float64 v -> in_range z -> (Qabs (v - (inject_Z z + inject_Z t * (1 # 3))) <= 1 # 200000)%Q -> (t mod 3 = 0 -> (v == inject_Z z + inject_Z t * (1 # 3))%Q) ->
  fix_f rnd v = fix26_6 z t.
Proof.
  intros FV RZ E EX. unfold fix_f, fix26_6.
  assert (F64 : float64 (v * 64)).
  { destruct FV as (m & k & A & B & EV). exists m, (k + 6). repeat split; [exact A|lia|]. rewrite EV, pow2_plus. change (pow2 6) with 64%Q. ring. }
  pose proof (keep_id _ F64) as K. apply abs_le_iff in E as [E1 E2].
  set (N := 64 * (3 * z + t)). assert (NQ : (inject_Z z + inject_Z t * (1 # 3) == inject_Z N * (1 # 192))%Q).
  { unfold N. rewrite !inject_Z_mult, inject_Z_plus, inject_Z_mult. change (inject_Z 64) with 64%Q. change (inject_Z 3) with 3%Q. field. }
  pose proof (Z.quot_rem' N 3) as QR. pose proof (Z.rem_bound_abs N 3 ltac:(lia)) as RB. set (q := Z.quot N 3) in *. set (r := Z.rem N 3) in *.
  assert (NE : (inject_Z N == 3 * inject_Z q + inject_Z r)%Q) by (rewrite QR at 1; rewrite inject_Z_plus, inject_Z_mult; reflexivity).
  destruct (Z.eq_dec r 0) as [R0|R0].
  - assert (T0 : t mod 3 = 0).
    { assert (D : (3 | N)) by (exists q; lia). apply Z.mod_divide; [lia|]. assert (D2 : (3 | 64 * t)) by (replace (64 * t) with (N - 3 * (64 * z)) by (unfold N; lia); apply Z.divide_sub_r; [exact D|exists (64 * z); lia]).
      apply (Z.gauss 3 64 t D2). reflexivity. }
    specialize (EX T0). rewrite R0 in NE. change (inject_Z 0) with 0%Q in NE.
    assert (V : (keep (v * 64) == inject_Z q)%Q) by (rewrite K, EX, NQ, NE; field).
    rewrite (to_int_Q _ _ V). unfold to_int, inject_Z. cbn [Qnum Qden]. apply Z.quot_1_r.
  - assert (SG : 0 <= N /\ 0 <= q /\ 1 <= r <= 2 \/ N <= 0 /\ q <= 0 /\ -2 <= r <= -1).
    { destruct (Z.le_ge_cases 0 N) as [P|P]; [left|right]; split; try exact P.
      - pose proof (Z.rem_nonneg N 3 ltac:(lia) P). split; [apply Z.quot_pos; lia|]. fold r in H. lia.
      - pose proof (Z.rem_nonpos N 3 ltac:(lia) P). fold r in H. lia. }
    assert (V : (Qabs (keep (v * 64) - (inject_Z q + inject_Z r * (1 # 3))) <= 1 # 3000)%Q).
    { apply abs_le_iff. rewrite K. rewrite NQ, NE in E1, E2. lra. }
    apply abs_le_iff in V as [V1 V2]. destruct SG as [(_ & Q0 & R1 & R2)|(_ & Q0 & R1 & R2)].
    + apply to_int_at; [exact Q0| |]; pose proof (zq 1 r R1) as A1; pose proof (zq r 2 R2) as A2; change (inject_Z 1) with 1%Q in A1; change (inject_Z 2) with 2%Q in A2; lra.
    + apply to_int_neg; [exact Q0| |]; pose proof (zq _ r R1) as A1; pose proof (zq r _ R2) as A2; change (inject_Z (-2)) with (-2)%Q in A1; change (inject_Z (-1)) with (-1)%Q in A2; lra.
Qed.
Lemma low_side z block i : in_range z -> 1 <= block <= 255 -> 0 <= i <= 2 -> fix_f rnd (sub_at (keep (inject_Z z)) i (halftoneW block)) = fix26_6 z (i * block).
Proof.
  intros RZ HB HI. apply fix_same; [unfold ModelHalftone64.sub_at; destruct fused; apply float_keep|exact RZ| |].
  - pose proof (sub_q64 z block i RZ HB HI) as E. apply abs_le_iff in E. apply abs_le_iff. lra.
  - intros HT. pose proof (Z.div_mod block 3 ltac:(lia)) as DM. pose proof (Z.mod_pos_bound block 3 ltac:(lia)) as MB.
    assert (i = 0 \/ block mod 3 = 0) as [-> | HM].
    { assert (i = 0 \/ i = 1 \/ i = 2) as [-> | [-> | ->]] by lia; [left; reflexivity|right; rewrite Z.mul_1_l in HT; exact HT|right].
      pose proof (Z.div_mod (2 * block) 3 ltac:(lia)). lia. }
    + rewrite sub_zero, (keep_int z RZ). change (inject_Z (0 * block)) with 0%Q. ring.
    + rewrite (sub_exact z block i RZ HB HI HM), inject_Z_plus, !inject_Z_mult. rewrite DM at 2. rewrite HM, inject_Z_plus, inject_Z_mult. change (inject_Z 3) with 3%Q. change (inject_Z 0) with 0%Q. field.
Qed.
Lemma high_side z block i w : in_range z -> in_range (z + w) -> 1 <= block <= 255 -> 0 <= i <= 2 -> 0 <= w <= 255 ->
  fix_f rnd (keep (sub_at (keep (inject_Z z)) i (halftoneW block) + keep (inject_Z w))) = fix26_6 (z + w) (i * block).
Proof.
  intros RZ RZW HB HI HW. pose proof (keep_int w ltac:(unfold in_range; lia)) as KW. pose proof (sub_q64 z block i RZ HB HI) as E. set (v := sub_at (keep (inject_Z z)) i (halftoneW block)) in *.
  destruct (range_q z RZ) as [Z1 Z2]. apply abs_le_iff in E as [E1 E2]. assert (W1 : (0 <= inject_Z w)%Q) by (apply (zq 0); lia). assert (W2 : (inject_Z w <= 255)%Q) by (apply (zq _ 255); lia).
  assert (IB : (0 <= inject_Z (i * block) /\ inject_Z (i * block) <= 510)%Q) by (split; [apply (zq 0)|apply (zq _ 510)]; nia). destruct IB as [IB1 IB2].
  apply fix_same; [apply float_keep|exact RZW| |].
  - rewrite keep_q, (rq _ (v + inject_Z w)) by (rewrite KW; reflexivity).
    assert (A : (Qabs (v + inject_Z w) <= 4294968000)%Q) by (apply abs_le_iff; lra). pose proof (error_bound _ _ A) as EB. apply abs_le_iff in EB as [EB1 EB2].
    rewrite inject_Z_plus. apply abs_le_iff. lra.
  - intros HT. pose proof (Z.div_mod block 3 ltac:(lia)) as DM. pose proof (Z.mod_pos_bound block 3 ltac:(lia)) as MB.
    assert (V : exists u, 0 <= u <= 510 /\ (v == inject_Z (z + u))%Q /\ (inject_Z (i * block) * (1 # 3) == inject_Z u)%Q).
    { assert (i = 0 \/ block mod 3 = 0) as [-> | HM].
      { assert (i = 0 \/ i = 1 \/ i = 2) as [-> | [-> | ->]] by lia; [left; reflexivity|right; rewrite Z.mul_1_l in HT; exact HT|right].
        pose proof (Z.div_mod (2 * block) 3 ltac:(lia)). lia. }
      - exists 0. split; [lia|]. split; [unfold v; rewrite sub_zero, (keep_int z RZ), Z.add_0_r; reflexivity|reflexivity].
      - exists (i * (block / 3)). split; [nia|]. split; [apply sub_exact; assumption|]. rewrite !inject_Z_mult. rewrite DM at 1. rewrite HM, inject_Z_plus, inject_Z_mult. change (inject_Z 3) with 3%Q. change (inject_Z 0) with 0%Q. field. }
    destruct V as (u & U & EV & EU). rewrite keep_q, (rq _ (inject_Z (z + u + w))) by (rewrite KW, EV, <- inject_Z_plus; reflexivity).
    rewrite (r_id _ RR) by (apply int_float; unfold in_range in RZ; lia). rewrite EU, !inject_Z_plus. ring.
Qed.

Definition call_range (block : Z) (k : call) : Prop :=
  in_range (k_x k) /\ in_range (k_y k) /\ in_range (k_x k + k_w k) /\ in_range (k_y k + k_h k) /\ 0 <= k_w k <= 255 /\ 0 <= k_h k <= 255 /\
  exists i j, 0 <= i <= 2 /\ 0 <= j <= 2 /\ k_tx k = i * block /\ k_ty k = j * block.
Lemma rectangle_same block k : 1 <= block <= 255 -> call_range block k -> forall cv px py, rectangle_f rnd cv (as_call block k) px py = rectangle_draw cv k px py.
Proof.
  intros HB (RX & RY & RXW & RYH & W & Hh & i & j & HI & HJ & EI & EJ) cv px py.
  assert (A : area_f rnd (as_call block k) px py = k_area k px py).
  { unfold area_f, k_area, as_call. cbn [f_x f_y f_w f_h]. rewrite EI, EJ, !Z.div_mul by lia. rewrite !low_side, !high_side by assumption. reflexivity. }
  unfold rectangle_f, rectangle_draw. rewrite A. reflexivity.
Qed.
End Float.
