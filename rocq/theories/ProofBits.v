(* Bits, bytes and their values. *)
From Verif Require Import ModelBinary SpecIso SpecReader ProofBase.

Lemma bits_val_value b : bits_val b = bits_value b.
Proof. reflexivity. Qed.

Lemma bits_value_acc bs a :
  fold_left (fun a (b : bool) => 2 * a + (if b then 1 else 0)) bs a = a * 2 ^ zlen bs + bits_value bs.
Proof.
  revert a; induction bs as [|b bs IH]; intros a; unfold bits_value; cbn [fold_left].
  - unfold zlen; simpl. lia.
  - rewrite !IH, zlen_cons, Z.pow_add_r by (pose proof (zlen_nonneg bs); lia).
    destruct b; ring.
Qed.

Lemma bits_value_cons b bs : bits_value (b :: bs) = (if b then 2 ^ zlen bs else 0) + bits_value bs.
Proof.
  unfold bits_value at 1. cbn [fold_left]. rewrite bits_value_acc. destruct b; ring.
Qed.

Lemma bits_value_app a b : bits_value (a ++ b) = bits_value a * 2 ^ zlen b + bits_value b.
Proof. unfold bits_value at 1. rewrite fold_left_app. apply bits_value_acc. Qed.

Lemma bits_value_bound bs : 0 <= bits_value bs < 2 ^ zlen bs.
Proof.
  induction bs as [|b bs IH]; [unfold bits_value, zlen; simpl; lia|].
  rewrite bits_value_cons, zlen_cons, Z.pow_add_r by (pose proof (zlen_nonneg bs); lia).
  destruct b; lia.
Qed.

Lemma uint_bits_length x n : length (uint_bits x n) = n.
Proof. induction n; simpl; auto. Qed.

Lemma zlen_uint_bits x n : zlen (uint_bits x n) = Z.of_nat n.
Proof. unfold zlen. rewrite uint_bits_length. reflexivity. Qed.

Lemma bits_value_uint x n : bits_value (uint_bits x n) = x mod 2 ^ Z.of_nat n.
Proof.
  induction n as [|n IH].
  - simpl. rewrite Z.mod_1_r. reflexivity.
  - simpl uint_bits. rewrite bits_value_cons, zlen_uint_bits, IH.
    rewrite Nat2Z.inj_succ, Z.pow_succ_r by lia.
    rewrite (Z.mul_comm 2).
    rewrite Z.rem_mul_r by (try apply Z.pow_nonzero; lia).
    destruct (Z.testbit x (Z.of_nat n)) eqn:E.
    + apply Z.testbit_true in E; [|lia]. rewrite E. ring.
    + apply Z.testbit_false in E; [|lia]. rewrite E. ring.
Qed.

Lemma uint_bits_value bs : uint_bits (bits_value bs) (length bs) = bs.
Proof.
  assert (G : forall bs k, uint_bits (k * 2 ^ zlen bs + bits_value bs) (length bs) = bs).
  { clear. induction bs as [|b bs IH]; intros k; [reflexivity|].
    cbn [length uint_bits].
    pose proof (bits_value_bound bs) as B.
    rewrite bits_value_cons, zlen_cons.
    assert (E : k * 2 ^ (zlen bs + 1) + ((if b then 2 ^ zlen bs else 0) + bits_value bs)
                = (2 * k + (if b then 1 else 0)) * 2 ^ zlen bs + bits_value bs).
    { rewrite Z.pow_add_r by (pose proof (zlen_nonneg bs); lia). destruct b; ring. }
    rewrite E, IH. f_equal.
    fold (zlen bs).
    rewrite Z.testbit_eqb by (pose proof (zlen_nonneg bs); lia).
    rewrite Z.div_add_l by lia. rewrite (Z.div_small (bits_value bs)) by lia.
    rewrite Z.add_0_r. destruct b.
    - apply Z.eqb_eq. rewrite Z.add_comm, (Z.mul_comm 2), Z.mod_add by lia. reflexivity.
    - apply Z.eqb_neq. rewrite Z.add_0_r, (Z.mul_comm 2), Z.mod_mul by lia. discriminate. }
  specialize (G bs 0). simpl in G. exact G.
Qed.

Lemma to_bits_uint x n : to_bits x (Z.of_nat n) = uint_bits x n.
Proof.
  induction n as [|n IH]; [reflexivity|].
  unfold to_bits in *. unfold upto in *. rewrite !Nat2Z.id in *.
  cbn [seq map uint_bits]. f_equal; [f_equal; lia|].
  rewrite <- IH, <- seq_shift, !map_map. apply map_ext. intros a. f_equal. lia.
Qed.

Lemma to_bits_8 x : to_bits x 8 = uint_bits x 8.
Proof. apply (to_bits_uint x 8). Qed.

Lemma bits_value_append x n : 0 <= n -> 0 <= x < 2 ^ 32 -> bits_value (bin_append_uint32 [] x n) = x mod 2 ^ n.
Proof.
  intros Hn Hx. unfold bin_append_uint32. simpl app. rewrite bits_value_uint.
  rewrite (Z.mod_small x) by lia. rewrite Z2Nat.id by lia. reflexivity.
Qed.

(* ---- bytes ---- *)
Definition is_byte (x : Z) : Prop := 0 <= x < 256.

Lemma bytes_to_bits_length l : length (bytes_to_bits l) = (8 * length l)%nat.
Proof. induction l as [|x l IH]; [reflexivity|]. unfold bytes_to_bits in *. cbn [flat_map length]. rewrite app_length, uint_bits_length, IH. lia. Qed.

Lemma zlen_bytes_to_bits l : zlen (bytes_to_bits l) = 8 * zlen l.
Proof. unfold zlen. rewrite bytes_to_bits_length. lia. Qed.

Lemma bytes_to_bits_app a b : bytes_to_bits (a ++ b) = bytes_to_bits a ++ bytes_to_bits b.
Proof. unfold bytes_to_bits. apply flat_map_app. Qed.

Lemma bytes_to_bits_cons a b : bytes_to_bits (a :: b) = uint_bits a 8 ++ bytes_to_bits b.
Proof. reflexivity. Qed.

Lemma firstn_app_exact {A} (a b : list A) n : length a = n -> firstn n (a ++ b) = a.
Proof. intros <-. rewrite firstn_app, Nat.sub_diag, firstn_all. simpl. apply app_nil_r. Qed.
Lemma skipn_app_exact {A} (a b : list A) n : length a = n -> skipn n (a ++ b) = b.
Proof. intros <-. rewrite skipn_app, Nat.sub_diag, skipn_all. reflexivity. Qed.

Lemma read_bytes_bits l rest : Forall is_byte l -> read_bytes (length l) (bytes_to_bits l ++ rest) = l.
Proof.
  induction 1 as [|x l Hx Hl IH]; [reflexivity|].
  simpl length. unfold read_bytes; fold read_bytes. rewrite bytes_to_bits_cons, <- app_assoc.
  rewrite firstn_app_exact, skipn_app_exact by apply uint_bits_length.
  rewrite IH, bits_value_uint. f_equal. apply Z.mod_small. exact Hx.
Qed.

Lemma bits_to_bytes_fuel_bits l : Forall is_byte l -> forall fuel, (8 * length l <= fuel)%nat ->
  bits_to_bytes_fuel fuel (bytes_to_bits l) = l.
Proof.
  induction 1 as [|x l Hx Hl IH]; intros fuel Hf.
  - destruct fuel; reflexivity.
  - destruct fuel as [|fuel]; [simpl in Hf; lia|].
    rewrite bytes_to_bits_cons. cbn [bits_to_bytes_fuel].
    destruct (uint_bits x 8 ++ bytes_to_bits l) eqn:E; [destruct l; discriminate E|]. rewrite <- E.
    rewrite firstn_app_exact, skipn_app_exact by apply uint_bits_length.
    rewrite IH by (simpl length in Hf; lia). rewrite bits_val_value, bits_value_uint. f_equal.
    apply Z.mod_small. exact Hx.
Qed.

Lemma bits_to_bytes_bits l : Forall is_byte l -> bits_to_bytes (bytes_to_bits l) = l.
Proof. intros. unfold bits_to_bytes. apply bits_to_bytes_fuel_bits; auto. rewrite bytes_to_bits_length. lia. Qed.

(* every bit list whose length is a multiple of 8 is a list of bytes *)
Lemma bits_are_bytes n : forall b, length b = (8 * n)%nat -> exists l, length l = n /\ Forall is_byte l /\ b = bytes_to_bits l.
Proof.
  induction n as [|n IH]; intros b Hb.
  - exists []. destruct b; [auto|discriminate].
  - destruct (IH (skipn 8 b)) as (l & Hl & Hf & E); [rewrite skipn_length; lia|].
    exists (bits_value (firstn 8 b) :: l).
    assert (L8 : length (firstn 8 b) = 8%nat) by (rewrite firstn_length; lia).
    split; [simpl; lia|]. split.
    + constructor; auto. unfold is_byte. pose proof (bits_value_bound (firstn 8 b)) as B. unfold zlen in B. rewrite L8 in B. exact B.
    + rewrite bytes_to_bits_cons, <- E. rewrite <- L8 at 2. rewrite uint_bits_value. symmetry. apply firstn_skipn.
Qed.
