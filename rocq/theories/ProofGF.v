(* GF(256). *)
From Coq Require Import Lia.
From Verif Require Import ModelBase ModelBinary ModelRS SpecIso SpecRS ProofBase ProofBits.


Lemma forallb_byte2 (f : Z -> Z -> bool) :
  forallb (fun a => forallb (f a) (upto 256)) (upto 256) = true ->
  forall a b, is_byte a -> is_byte b -> f a b = true.
Proof.
  intros S a b Ha Hb. pose proof (forallb_upto _ _ S a Ha) as S1. cbv beta in S1.
  exact (forallb_upto _ _ S1 b Hb).
Qed.

Lemma byte_lxor a b : is_byte a -> is_byte b -> is_byte (Z.lxor a b).
Proof.
  unfold is_byte. intros Ha Hb. split; [apply Z.lxor_nonneg; lia|].
  destruct (Z.eq_dec (Z.lxor a b) 0) as [->|N]; [lia|].
  change 256 with (2 ^ 8). apply Z.log2_lt_pow2; [pose proof (Z.lxor_nonneg a b); lia|].
  eapply Z.le_lt_trans; [apply Z.log2_lxor; lia|].
  assert (L : forall x, 0 <= x < 256 -> Z.log2 x < 8).
  { intros x Hx. destruct (Z.eq_dec x 0) as [->|]; [simpl; lia|]. apply Z.log2_lt_pow2; change (2 ^ 8) with 256; lia. }
  apply Z.max_lub_lt; apply L; auto.
Qed.
Lemma byte_0 : is_byte 0. Proof. unfold is_byte; lia. Qed.
Lemma byte_1 : is_byte 1. Proof. unfold is_byte; lia. Qed.
#[export] Hint Resolve byte_lxor byte_0 byte_1 : gf.

Lemma xtime_byte a : is_byte a -> is_byte (gf_xtime a).
Proof.
  intros Ha. assert (S : forallb (fun a => (0 <=? gf_xtime a) && (gf_xtime a <? 256)) (upto 256) = true) by (vm_compute; reflexivity).
  pose proof (forallb_upto _ _ S a Ha) as S'. cbv beta in S'. rewrite andb_true_iff, Z.leb_le, Z.ltb_lt in S'. exact S'.
Qed.

Lemma gf_mul_byte a b : is_byte a -> is_byte (gf_mul a b).
Proof.
  unfold gf_mul. generalize 8%nat. intros n. revert a b. induction n as [|n IH]; intros a b Ha; cbn [gf_mul_loop]; auto with gf.
  apply byte_lxor; [destruct (Z.odd b); auto with gf|]. apply IH. apply xtime_byte; auto.
Qed.
#[export] Hint Resolve gf_mul_byte : gf.

Lemma gf_mul_0_r a : gf_mul a 0 = 0.
Proof. unfold gf_mul. generalize 8%nat. intros n. revert a. induction n as [|n IH]; intros; cbn [gf_mul_loop]; auto. simpl Z.odd. simpl Z.div2. rewrite IH. reflexivity. Qed.

Lemma gf_mul_distr_r a b c : gf_mul a (Z.lxor b c) = Z.lxor (gf_mul a b) (gf_mul a c).
Proof.
  unfold gf_mul. generalize 8%nat. intros n. revert a b c. induction n as [|n IH]; intros; cbn [gf_mul_loop]; auto.
  assert (D : Z.div2 (Z.lxor b c) = Z.lxor (Z.div2 b) (Z.div2 c)) by (rewrite !Z.div2_spec; apply Z.shiftr_lxor).
  assert (O : Z.odd (Z.lxor b c) = xorb (Z.odd b) (Z.odd c)) by (rewrite <- !Z.bit0_odd; apply Z.lxor_spec).
  rewrite D, IH, O. set (p := gf_mul_loop n _ _). set (q := gf_mul_loop n _ _).
  apply Z.bits_inj'. intros i Hi. rewrite !Z.lxor_spec.
  destruct (Z.odd b), (Z.odd c); simpl xorb; rewrite ?Z.bits_0;
    destruct (Z.testbit a i), (Z.testbit p i), (Z.testbit q i); reflexivity.
Qed.

(* ---- everything below is additive in each argument, so it is enough to check the eight basis bytes ---- *)
Lemma byte_bits a : is_byte a ->
  a = fold_right Z.lxor 0 (map (fun i => if Z.testbit a i then 2 ^ i else 0) (upto 8)).
Proof.
  intros Ha. apply Z.eqb_eq.
  assert (S : forallb (fun a => a =? fold_right Z.lxor 0 (map (fun i => if Z.testbit a i then 2 ^ i else 0) (upto 8))) (upto 256) = true) by (vm_compute; reflexivity).
  exact (forallb_upto _ _ S a Ha).
Qed.
Lemma byte_pow2 i : 0 <= i < 8 -> is_byte (2 ^ i).
Proof. intros Hi. unfold is_byte. split; [apply Z.pow_nonneg; lia|]. change 256 with (2 ^ 8). apply Z.pow_lt_mono_r; lia. Qed.
Lemma byte_span (P : Z -> Prop) : P 0 -> (forall i, 0 <= i < 8 -> P (2 ^ i)) ->
  (forall a b, is_byte a -> is_byte b -> P a -> P b -> P (Z.lxor a b)) -> forall a, is_byte a -> P a.
Proof.
  intros P0 PB PX a Ha. rewrite (byte_bits a Ha).
  assert (G : forall l, (forall i, In i l -> 0 <= i < 8) ->
     let s := fold_right Z.lxor 0 (map (fun i => if Z.testbit a i then 2 ^ i else 0) l) in is_byte s /\ P s).
  { induction l as [|i l IH]; intros Hl; cbn [map fold_right]; [split; auto with gf|].
    destruct (IH (fun k Hk => Hl k (or_intror Hk))) as [IB IP]. pose proof (Hl i (or_introl eq_refl)) as Hi.
    assert (is_byte (if Z.testbit a i then 2 ^ i else 0) /\ P (if Z.testbit a i then 2 ^ i else 0)) as [BB BP].
    { destruct (Z.testbit a i); split; auto with gf. apply byte_pow2; auto. }
    cbv zeta. split; auto with gf. }
  apply G. intros i Hi. apply in_upto in Hi. exact Hi.
Qed.

Lemma xtime_xor a : is_byte a -> gf_xtime a = Z.lxor (2 * a) (if Z.testbit a 7 then 0x11D else 0).
Proof.
  intros Ha. apply Z.eqb_eq.
  assert (S : forallb (fun a => gf_xtime a =? Z.lxor (2 * a) (if Z.testbit a 7 then 0x11D else 0)) (upto 256) = true) by (vm_compute; reflexivity).
  exact (forallb_upto _ _ S a Ha).
Qed.
Lemma double_lxor a b : 2 * Z.lxor a b = Z.lxor (2 * a) (2 * b).
Proof. rewrite !(Z.mul_comm 2). change 2 with (2 ^ 1). rewrite <- !Z.shiftl_mul_pow2 by lia. apply Z.shiftl_lxor. Qed.
Lemma xtime_lxor a b : is_byte a -> is_byte b -> gf_xtime (Z.lxor a b) = Z.lxor (gf_xtime a) (gf_xtime b).
Proof.
  intros Ha Hb. rewrite !xtime_xor by auto with gf. rewrite Z.lxor_spec, double_lxor.
  generalize (2 * a) (2 * b). intros p q. apply Z.bits_inj'. intros i Hi. rewrite !Z.lxor_spec.
  destruct (Z.testbit a 7), (Z.testbit b 7); cbn [xorb]; rewrite ?Z.bits_0;
    destruct (Z.testbit p i), (Z.testbit q i), (Z.testbit 285 i); reflexivity.
Qed.
Lemma xtime_0 : gf_xtime 0 = 0. Proof. reflexivity. Qed.

Lemma lxor_swap a b c d : Z.lxor (Z.lxor a b) (Z.lxor c d) = Z.lxor (Z.lxor a c) (Z.lxor b d).
Proof.
  apply Z.bits_inj'. intros i Hi. rewrite !Z.lxor_spec.
  destruct (Z.testbit a i), (Z.testbit b i), (Z.testbit c i), (Z.testbit d i); reflexivity.
Qed.

Lemma gf_mul_distr_l a b c : is_byte a -> is_byte b -> gf_mul (Z.lxor a b) c = Z.lxor (gf_mul a c) (gf_mul b c).
Proof.
  unfold gf_mul. generalize 8%nat. intros n. revert a b c.
  induction n as [|n IH]; intros a b c Ha Hb; cbn [gf_mul_loop]; auto.
  rewrite xtime_lxor, IH by auto using xtime_byte. rewrite lxor_swap. f_equal. destruct (Z.odd c); reflexivity.
Qed.
Lemma gf_mul_0_l a : gf_mul 0 a = 0.
Proof.
  unfold gf_mul. generalize 8%nat. intros n. revert a. induction n as [|n IH]; intros; cbn [gf_mul_loop]; auto.
  rewrite xtime_0, IH. destruct (Z.odd a); reflexivity.
Qed.

Lemma gf_mul_comm a b : is_byte a -> is_byte b -> gf_mul a b = gf_mul b a.
Proof.
  intros Ha Hb. revert a Ha. apply byte_span.
  - rewrite gf_mul_0_l, gf_mul_0_r. reflexivity.
  - intros i Hi. revert b Hb. apply byte_span.
    + rewrite gf_mul_0_l, gf_mul_0_r. reflexivity.
    + intros j Hj. apply Z.eqb_eq.
      assert (S : forallb (fun i => forallb (fun j => gf_mul (2 ^ i) (2 ^ j) =? gf_mul (2 ^ j) (2 ^ i)) (upto 8)) (upto 8) = true) by (vm_compute; reflexivity).
      exact (forallb_upto _ _ (forallb_upto _ _ S i Hi) j Hj).
    + intros p q Hp Hq Ep Eq. rewrite gf_mul_distr_r, gf_mul_distr_l, Ep, Eq by auto. reflexivity.
  - intros p q Hp Hq Ep Eq. rewrite gf_mul_distr_r, gf_mul_distr_l, Ep, Eq by auto. reflexivity.
Qed.
Lemma gf_mul_1_r a : is_byte a -> gf_mul a 1 = a.
Proof.
  intros Ha. apply Z.eqb_eq.
  assert (S : forallb (fun a => gf_mul a 1 =? a) (upto 256) = true) by (vm_compute; reflexivity).
  exact (forallb_upto _ _ S a Ha).
Qed.
Lemma gf_mul_1_l a : is_byte a -> gf_mul 1 a = a.
Proof. intros. rewrite gf_mul_comm by auto with gf. apply gf_mul_1_r; auto. Qed.

(* associativity: (a b) c is additive in each argument, so it is enough to know it for c = alpha and to
   build every c from shifts *)
Lemma gf_mul_alpha a : is_byte a -> gf_mul a 2 = gf_xtime a.
Proof.
  intros Ha. apply Z.eqb_eq.
  assert (S : forallb (fun a => gf_mul a 2 =? gf_xtime a) (upto 256) = true) by (vm_compute; reflexivity).
  exact (forallb_upto _ _ S a Ha).
Qed.
Lemma gf_xtime_mul a b : is_byte a -> is_byte b -> gf_mul a (gf_xtime b) = gf_xtime (gf_mul a b).
Proof.
  intros Ha Hb. revert a Ha. apply byte_span.
  - rewrite !gf_mul_0_l. reflexivity.
  - intros i Hi. pose proof (byte_pow2 i Hi) as Bi. revert b Hb. apply byte_span.
    + rewrite xtime_0, !gf_mul_0_r. reflexivity.
    + intros j Hj. apply Z.eqb_eq.
      assert (S : forallb (fun i => forallb (fun j => gf_mul (2 ^ i) (gf_xtime (2 ^ j)) =? gf_xtime (gf_mul (2 ^ i) (2 ^ j))) (upto 8)) (upto 8) = true) by (vm_compute; reflexivity).
      exact (forallb_upto _ _ (forallb_upto _ _ S i Hi) j Hj).
    + intros p q Hp Hq Ep Eq. rewrite xtime_lxor, !gf_mul_distr_r, Ep, Eq by auto. rewrite xtime_lxor by auto with gf. reflexivity.
  - intros p q Hp Hq Ep Eq. rewrite !gf_mul_distr_l, Ep, Eq by auto. rewrite xtime_lxor by auto with gf. reflexivity.
Qed.
Lemma gf_mul_assoc a b c : is_byte a -> is_byte b -> is_byte c -> gf_mul (gf_mul a b) c = gf_mul a (gf_mul b c).
Proof.
  intros Ha Hb Hc. unfold gf_mul at 1 4. fold gf_mul.
  assert (G : forall n b c, is_byte b -> gf_mul_loop n (gf_mul a b) c = gf_mul a (gf_mul_loop n b c)).
  { induction n as [|n IH]; intros b' c' Hb'; cbn [gf_mul_loop]; [rewrite gf_mul_0_r; reflexivity|].
    rewrite gf_mul_distr_r, <- gf_xtime_mul by auto. rewrite IH by (apply xtime_byte; auto).
    f_equal. destruct (Z.odd c'); [reflexivity|]. rewrite gf_mul_0_r. reflexivity. }
  apply G; auto.
Qed.

(* the specification's product *)
Lemma fold_additive (step : Z -> Z -> Z) : (forall r s i, step (Z.lxor r s) i = Z.lxor (step r i) (step s i)) ->
  forall l r s, fold_left step l (Z.lxor r s) = Z.lxor (fold_left step l r) (fold_left step l s).
Proof. intros A. induction l as [|i l IH]; intros; cbn [fold_left]; auto. rewrite A. apply IH. Qed.
Lemma gf_reduce_lxor x y : gf_reduce (Z.lxor x y) = Z.lxor (gf_reduce x) (gf_reduce y).
Proof.
  unfold gf_reduce. apply fold_additive. intros r s i. rewrite Z.lxor_spec. set (c := Z.shiftl _ _).
  apply Z.bits_inj'. intros k Hk.
  destruct (Z.testbit r (14 - i)), (Z.testbit s (14 - i)); cbn [xorb]; rewrite !Z.lxor_spec;
    destruct (Z.testbit r k), (Z.testbit s k), (Z.testbit c k); reflexivity.
Qed.
Lemma clmul_lxor_l a b c : clmul (Z.lxor a b) c = Z.lxor (clmul a c) (clmul b c).
Proof.
  unfold clmul.
  assert (G : forall l p q, fold_left (fun acc i => if Z.testbit c i then Z.lxor acc (Z.shiftl (Z.lxor a b) i) else acc) l (Z.lxor p q)
    = Z.lxor (fold_left (fun acc i => if Z.testbit c i then Z.lxor acc (Z.shiftl a i) else acc) l p)
             (fold_left (fun acc i => if Z.testbit c i then Z.lxor acc (Z.shiftl b i) else acc) l q)).
  { induction l as [|i l IH]; intros; cbn [fold_left]; auto. rewrite <- IH. f_equal.
    destruct (Z.testbit c i); auto. rewrite Z.shiftl_lxor. apply lxor_swap. }
  apply (G (upto 8) 0 0).
Qed.
Lemma clmul_lxor_r a b c : clmul a (Z.lxor b c) = Z.lxor (clmul a b) (clmul a c).
Proof.
  unfold clmul.
  assert (G : forall l p q, fold_left (fun acc i => if Z.testbit (Z.lxor b c) i then Z.lxor acc (Z.shiftl a i) else acc) l (Z.lxor p q)
    = Z.lxor (fold_left (fun acc i => if Z.testbit b i then Z.lxor acc (Z.shiftl a i) else acc) l p)
             (fold_left (fun acc i => if Z.testbit c i then Z.lxor acc (Z.shiftl a i) else acc) l q)).
  { induction l as [|i l IH]; intros; cbn [fold_left]; auto. rewrite <- IH. f_equal.
    rewrite Z.lxor_spec. set (w := Z.shiftl a i). apply Z.bits_inj'. intros k Hk.
    destruct (Z.testbit b i), (Z.testbit c i); cbn [xorb]; rewrite ?Z.lxor_spec;
      destruct (Z.testbit p k), (Z.testbit q k), (Z.testbit w k); reflexivity. }
  apply (G (upto 8) 0 0).
Qed.
Lemma clmul_0_l b : clmul 0 b = 0.
Proof. pose proof (clmul_lxor_l 0 0 b) as E. rewrite Z.lxor_nilpotent in E. rewrite Z.lxor_nilpotent in E. exact E. Qed.
Lemma clmul_0_r a : clmul a 0 = 0.
Proof. pose proof (clmul_lxor_r a 0 0) as E. rewrite Z.lxor_nilpotent in E. rewrite Z.lxor_nilpotent in E. exact E. Qed.

Lemma gf_times_mul a b : is_byte a -> is_byte b -> gf_times a b = gf_mul a b.
Proof.
  intros Ha Hb. unfold gf_times. revert a Ha. apply byte_span.
  - rewrite clmul_0_l, gf_mul_0_l. reflexivity.
  - intros i Hi. pose proof (byte_pow2 i Hi) as Bi. revert b Hb. apply byte_span.
    + rewrite clmul_0_r, gf_mul_0_r. reflexivity.
    + intros j Hj. apply Z.eqb_eq.
      assert (S : forallb (fun i => forallb (fun j => gf_reduce (clmul (2 ^ i) (2 ^ j)) =? gf_mul (2 ^ i) (2 ^ j)) (upto 8)) (upto 8) = true) by (vm_compute; reflexivity).
      exact (forallb_upto _ _ (forallb_upto _ _ S i Hi) j Hj).
    + intros p q Hp Hq Ep Eq. rewrite clmul_lxor_r, gf_reduce_lxor, gf_mul_distr_r, Ep, Eq. reflexivity.
  - intros p q Hp Hq Ep Eq. rewrite clmul_lxor_l, gf_reduce_lxor, gf_mul_distr_l, Ep, Eq by auto. reflexivity.
Qed.

Lemma gf_pow2_byte n : is_byte (gf_pow2 n).
Proof. induction n; cbn [gf_pow2]; auto with gf. apply xtime_byte; auto. Qed.
Lemma alpha_pow_pow2 n : alpha_pow n = gf_pow2 n.
Proof.
  induction n as [|n IH]; [reflexivity|]. cbn [alpha_pow gf_pow2]. rewrite IH.
  rewrite gf_times_mul by (try apply gf_pow2_byte; unfold is_byte; lia). apply gf_mul_alpha, gf_pow2_byte.
Qed.
#[export] Hint Resolve gf_pow2_byte : gf.

Lemma gf_pow2_add i j : gf_pow2 (i + j) = gf_mul (gf_pow2 i) (gf_pow2 j).
Proof.
  induction j as [|j IH]; [rewrite Nat.add_0_r, gf_mul_1_r by auto with gf; reflexivity|].
  rewrite Nat.add_succ_r. cbn [gf_pow2]. rewrite gf_xtime_mul by auto with gf. rewrite IH. reflexivity.
Qed.

(* the first 255 powers of alpha are distinct and run through all non-zero bytes *)
Fixpoint powers (n : nat) (a : Z) : list Z := match n with O => [] | S k => a :: powers k (gf_xtime a) end.
Lemma powers_spec n s : powers n (gf_pow2 s) = map gf_pow2 (seq s n).
Proof. revert s. induction n as [|n IH]; intros s; cbn [powers seq map]; auto. f_equal. apply (IH (S s)). Qed.
Lemma powers_cover a : is_byte a -> a <> 0 -> In a (map gf_pow2 (seq 0 255)).
Proof.
  intros Ha Hn. rewrite <- powers_spec. change (gf_pow2 0) with 1.
  assert (S : forallb (fun a => (a =? 0) || existsb (Z.eqb a) (powers 255 1)) (upto 256) = true) by (vm_compute; reflexivity).
  pose proof (forallb_upto _ _ S a Ha) as E. cbv beta in E. apply orb_true_iff in E as [E|E]; [apply Z.eqb_eq in E; contradiction|].
  apply existsb_exists in E as (b & Hb & E). apply Z.eqb_eq in E. subst b. exact Hb.
Qed.
Lemma nth_error_seq_lt i s n : (i < n)%nat -> nth_error (seq s n) i = Some (s + i)%nat.
Proof.
  revert i s. induction n as [|n IH]; intros i s Hi; [lia|]. destruct i as [|i]; cbn [seq nth_error]; [f_equal; lia|].
  rewrite IH by lia. f_equal. lia.
Qed.
Lemma powers_NoDup : NoDup (map gf_pow2 (seq 0 255)).
Proof.
  apply (@NoDup_incl_NoDup _ (map (fun k => k + 1) (upto 255))).
  - apply FinFun.Injective_map_NoDup; [intros a b E; lia|apply NoDup_upto].
  - rewrite !map_length, seq_length, upto_length. reflexivity.
  - intros a Ha. apply in_map_iff in Ha as (k & <- & Hk). apply in_upto in Hk. apply powers_cover; unfold is_byte; lia.
Qed.
Lemma gf_pow2_inj i j : (i < 255)%nat -> (j < 255)%nat -> gf_pow2 i = gf_pow2 j -> i = j.
Proof.
  intros Hi Hj E. apply (NoDup_nth_error (map gf_pow2 (seq 0 255))).
  - apply powers_NoDup.
  - rewrite map_length, seq_length. exact Hi.
  - rewrite !nth_error_map, !nth_error_seq_lt by auto. cbn [option_map Nat.add]. rewrite E. reflexivity.
Qed.
Lemma gf_inverse a : is_byte a -> a <> 0 -> exists b, is_byte b /\ gf_mul b a = 1.
Proof.
  intros Ha Hn. pose proof (powers_cover a Ha Hn) as HI. apply in_map_iff in HI as (i & <- & Hi). apply in_seq in Hi.
  exists (gf_pow2 (255 - i)). split; [apply gf_pow2_byte|]. rewrite <- gf_pow2_add.
  replace (255 - i + i)%nat with 255%nat by lia. vm_compute. reflexivity.
Qed.
Lemma gf_no_zero_divisors a b : is_byte a -> is_byte b -> gf_mul a b = 0 -> a = 0 \/ b = 0.
Proof.
  intros Ha Hb E. destruct (Z.eq_dec a 0) as [|N]; [auto|right].
  destruct (gf_inverse a Ha N) as (c & Hc & EC).
  rewrite <- (gf_mul_1_l b Hb), <- EC, gf_mul_assoc, E, gf_mul_0_r by auto. reflexivity.
Qed.
