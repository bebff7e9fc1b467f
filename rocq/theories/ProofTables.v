(* The 160 rows of the version table against the ISO tables. *)
From Verif Require Import ModelVersion ModelEncoder ModelQRCode SpecIso SpecReader SpecSegment.
From Verif Require Import ProofBase ProofSweep ProofSymbol.

Definition level_of (ec : Z) : level :=
  if ec =? 1 then L else if ec =? 2 then M else if ec =? 3 then Q else H.
Lemma level_of_const l : level_of (ec_const l) = l.
Proof. destruct l; reflexivity. Qed.

Definition all_levels : list level := [L; M; Q; H].
Lemma all_levels_in l : In l all_levels. Proof. destruct l; simpl; auto. Qed.

Definition mode_const (md : mode) : Z :=
  match md with Numeric => EncModeNumeric | Alphanumeric => EncModeAlphanumeric | Byte => EncModeByte | Kanji => EncModeKanji end.
Definition cap_of (md : mode) (c : capacity) : Z :=
  match md with Numeric => capNumeric c | Alphanumeric => capAlphaNumeric c | Byte => capByte c | Kanji => capJP c end.

Fixpoint eqzz (a b : list (Z * Z)) : bool :=
  match a, b with
  | [], [] => true
  | (x, y) :: a', (z, w) :: b' => (x =? z) && (y =? w) && eqzz a' b'
  | _, _ => false
  end.
Lemma eqzz_spec a : forall b, eqzz a b = true -> a = b.
Proof.
  induction a as [|[x y] a IH]; intros [|[z w] b]; simpl; try discriminate; auto.
  rewrite !andb_true_iff, !Z.eqb_eq. intros [[-> ->] HH]. f_equal. auto.
Qed.

Definition needed_ok (v : Z) (l : level) (md : mode) (cap : Z) : bool :=
  (needed_bits v md cap <=? 8 * data_codewords v l) && (8 * data_codewords v l <? needed_bits v md (cap + 1))
  && (0 <=? cap) && (cap + 1 <? 2 ^ width_of v md).

Definition row_check (v : Z) (l : level) : bool :=
  match loadVersion v (ec_const l) with
  | Ok r =>
    (Ver r =? v) && (ECLevel r =? ec_const l) &&
    eqzz (block_plan r) (map (fun d => (d, ecc_per_block v l)) (block_data_lengths v l)) &&
    (RemainderBits r =? remainder_bits v) &&
    (v_numTotalCodewords r =? data_codewords v l) && (v_totalNumBlocks r =? num_blocks v l) &&
    (data_codewords v l + num_blocks v l * ecc_per_block v l =? total_codewords v) &&
    (1 <=? num_blocks v l) && (1 <=? ecc_per_block v l) &&
    (let s := total_codewords v / num_blocks v l - ecc_per_block v l in
     (1 <=? s) && forallb (fun d => (d =? s) || (d =? s + 1)) (block_data_lengths v l)) &&
    forallb (fun d => d + ecc_per_block v l <=? 255) (block_data_lengths v l) &&
    forallb (fun md => needed_ok v l md (cap_of md (Cap r))) [Numeric; Alphanumeric; Byte; Kanji]
  | _ => false
  end.

Lemma row_sweep : forallb (fun v => forallb (row_check v) all_levels) all_versions = true.
Proof. vm_compute. reflexivity. Qed.

(* the row for (v, l) *)
Record row_facts (v : Z) (l : level) (r : version) : Prop := {
  rf_ver : Ver r = v;
  rf_ec : ECLevel r = ec_const l;
  rf_plan : block_plan r = map (fun d => (d, ecc_per_block v l)) (block_data_lengths v l);
  rf_rem : RemainderBits r = remainder_bits v;
  rf_total : v_numTotalCodewords r = data_codewords v l;
  rf_blocks : v_totalNumBlocks r = num_blocks v l;
  rf_sum : data_codewords v l + num_blocks v l * ecc_per_block v l = total_codewords v;
  rf_nb : 1 <= num_blocks v l;
  rf_ecc : 1 <= ecc_per_block v l;
  rf_lens : exists s, 1 <= s /\ forall d, In d (block_data_lengths v l) -> d = s \/ d = s + 1;
  rf_255 : forall d, In d (block_data_lengths v l) -> d + ecc_per_block v l <= 255;
  rf_cap : forall md, needed_ok v l md (cap_of md (Cap r)) = true
}.

Lemma row_of v l : valid_version v -> exists r, loadVersion v (ec_const l) = Ok r /\ row_facts v l r.
Proof.
  intros Hv. pose proof (sweep _ row_sweep v Hv) as S. cbv beta in S.
  rewrite forallb_forall in S. specialize (S l (all_levels_in l)).
  unfold row_check in S. destruct (loadVersion v (ec_const l)) as [r| | |]; try discriminate.
  exists r. split; [reflexivity|].
  rewrite !andb_true_iff, !Z.eqb_eq, !Z.leb_le in S.
  destruct S as (((((((((((H1 & H2) & H3) & H4) & H5) & H5') & H6) & H7) & H8) & H9) & H10) & H11).
  constructor; auto.
  - apply eqzz_spec; auto.
  - cbv zeta in H9. destruct H9 as [Hs Hl].
    exists (total_codewords v / num_blocks v l - ecc_per_block v l). split; [auto|].
    rewrite forallb_forall in Hl. intros d Hd. specialize (Hl d Hd).
    rewrite orb_true_iff, !Z.eqb_eq in Hl. auto.
  - rewrite forallb_forall in H10. intros d Hd. apply Z.leb_le, H10, Hd.
  - rewrite forallb_forall in H11. intros md. apply H11. destruct md; simpl; auto.
Qed.

Lemma block_lens_length v l : length (block_data_lengths v l) = Z.to_nat (num_blocks v l).
Proof. unfold block_data_lengths. rewrite map_length, upto_length. reflexivity. Qed.
