(* Encode on a row of the version table, and reading its result back. *)
From Verif Require Import ModelBase ModelBinary ModelUtf8 ModelVersion ModelChardet ModelEncoder ModelQRCode.
From Verif Require Import SpecIso SpecReader SpecSegment.
From Verif Require Import ProofBase ProofBits ProofSweep ProofSymbol ProofTables ProofEncode ProofMode ProofKanji.

Lemma append_to_bits_32 dst x n : 0 <= n <= 32 -> bin_append_uint32 dst x n = dst ++ to_bits x n.
Proof.
  intros Hn. unfold bin_append_uint32. f_equal.
  replace n with (Z.of_nat (Z.to_nat n)) at 2 by lia. rewrite to_bits_uint.
  assert (G : forall k, (k <= 32)%nat -> uint_bits (x mod 2 ^ 32) k = uint_bits x k).
  { induction k as [|k IH]; intros Hk; [reflexivity|]. change (uint_bits ?y (S k)) with (Z.testbit y (Z.of_nat k) :: uint_bits y k). rewrite IH by lia. f_equal.
    apply Z.mod_pow2_bits_low. lia. }
  apply G. lia.
Qed.

Lemma indicator_bits md : getEncodeModeIndicator (mode_const md) = Some (to_bits (indicator md) 4).
Proof. destruct md; reflexivity. Qed.

Definition header (v : Z) (md : mode) (n : Z) : list bool := to_bits (indicator md) 4 ++ to_bits n (width_of v md).

Lemma header_length v md n : zlen (header v md n) = 4 + width_of v md.
Proof. unfold header. pose proof (width_bounds v md). rewrite zlen_app, !zlen_to_bits by lia. reflexivity. Qed.

Lemma breakUp_row v l r md n payload : row_facts v l r ->
  breakUpInto8bit r (header v md n ++ payload) =
    if 8 * data_codewords v l <? 4 + width_of v md + zlen payload then Err ErrDataTooLong
    else Ok (data_bits v l md n payload).
Proof.
  intros RF. rewrite (breakUp_spec _ _ _ (rf_total _ _ _ RF)).
  rewrite zlen_app, header_length. destruct (_ <? _) eqn:E; [reflexivity|]. f_equal.
  unfold data_bits. cbv zeta. 
  match goal with |- context [Z.of_nat (length ?s)] => change (Z.of_nat (length s)) with (zlen s) end.
  pose proof (width_bounds v md).
  rewrite !zlen_app, !zlen_to_bits by lia. unfold header, tail_bits. cbv zeta.
  rewrite <- !app_assoc. rewrite (Z.add_assoc 4). reflexivity.
Qed.

Lemma data_bits_split v l md n payload : 4 + width_of v md + zlen payload <= 8 * data_codewords v l ->
  data_bits v l md n payload = to_bits (indicator md) 4 ++ to_bits n (width_of v md) ++ payload
     ++ tail_bits (8 * data_codewords v l) (4 + width_of v md + zlen payload).
Proof.
  intros HL. unfold data_bits. cbv zeta.
  match goal with |- context [Z.of_nat (length ?s)] => change (Z.of_nat (length s)) with (zlen s) end.
  pose proof (width_bounds v md).
  rewrite !zlen_app, !zlen_to_bits by lia. unfold tail_bits. cbv zeta.
  rewrite <- !app_assoc. rewrite (Z.add_assoc 4). reflexivity.
Qed.

Lemma data_bits_length v l md n payload : 4 + width_of v md + zlen payload <= 8 * data_codewords v l ->
  zlen (data_bits v l md n payload) = 8 * data_codewords v l.
Proof.
  intros HL. rewrite data_bits_split by auto. pose proof (width_bounds v md). pose proof (zlen_nonneg payload).
  rewrite !zlen_app, !zlen_to_bits, tail_length by lia. lia.
Qed.

Section Sjis.
  Variable sjis : Z -> option (list Z).
  Hypothesis C : shift_jis_contract sjis.

  (* the texts a mode can represent, the length it counts and the payload *)
  Definition text_ok (md : mode) (raw : list Z) : Prop :=
    match md with
    | Numeric => Forall is_digit raw | Alphanumeric => Forall is_alnum raw
    | Byte => True | Kanji => Forall (is_kanji sjis) (go_runes raw)
    end.
  Definition text_length (md : mode) (raw : list Z) : Z := match md with Byte => zlen raw | _ => rune_count raw end.
  Definition payload_of (md : mode) (raw : list Z) : list bool :=
    match md with
    | Numeric => numeric_payload (map (fun d => d - 48) raw)
    | Alphanumeric => alphanumeric_payload (map alnum_val raw)
    | Byte => byte_payload raw
    | Kanji => kanji_payload (map (kcode sjis) (go_runes raw))
    end.

  Lemma text_length_ascii md raw : md = Numeric \/ md = Alphanumeric -> text_ok md raw -> text_length md raw = zlen raw.
  Proof.
    intros [-> | ->] HT; simpl in *; unfold rune_count; rewrite go_runes_ascii; auto; eapply Forall_impl; eauto.
    - apply digit_ascii.
    - intros a Ha. apply alnum_ascii in Ha. lia.
  Qed.

  Lemma text_length_nonneg md raw : 0 <= text_length md raw.
  Proof. destruct md; apply zlen_nonneg. Qed.

  Lemma payload_of_length md raw : text_ok md raw -> zlen (payload_of md raw) = payload_length md (text_length md raw).
  Proof.
    intros HT. destruct md; cbn [payload_of].
    - rewrite numeric_payload_length, zlen_map, text_length_ascii; auto.
    - rewrite alphanumeric_payload_length, zlen_map, text_length_ascii; auto.
    - apply byte_payload_length.
    - rewrite kanji_payload_length, zlen_map. reflexivity.
  Qed.

  Lemma encode_unfold md r raw : text_ok md raw ->
    encode sjis (mode_const md) r raw = breakUpInto8bit r (header (Ver r) md (text_length md raw) ++ payload_of md raw).
  Proof.
    intros HT. unfold encode. rewrite indicator_bits.
    pose proof (charCountBits_spec md (Ver r)) as EW. pose proof (width_bounds (Ver r) md) as BW.
    cbv zeta. rewrite EW, append_to_bits_32 by lia. unfold header.
    destruct md.
    - replace (mode_const Numeric =? EncModeKanji) with false by reflexivity.
      replace (mode_const Numeric =? EncModeNumeric) with true by reflexivity. cbv iota.
      rewrite encodeNumeric_payload by exact HT. rewrite text_length_ascii by auto. reflexivity.
    - replace (mode_const Alphanumeric =? EncModeKanji) with false by reflexivity.
      replace (mode_const Alphanumeric =? EncModeNumeric) with false by reflexivity.
      replace (mode_const Alphanumeric =? EncModeAlphanumeric) with true by reflexivity. cbv iota.
      rewrite encodeAlphanumeric_payload by exact HT. rewrite text_length_ascii by auto. reflexivity.
    - replace (mode_const Byte =? EncModeKanji) with false by reflexivity.
      replace (mode_const Byte =? EncModeNumeric) with false by reflexivity.
      replace (mode_const Byte =? EncModeAlphanumeric) with false by reflexivity. cbv iota.
      rewrite encodeByte_payload. reflexivity.
    - replace (mode_const Kanji =? EncModeKanji) with true by reflexivity.
      replace (mode_const Kanji =? EncModeNumeric) with false by reflexivity.
      replace (mode_const Kanji =? EncModeAlphanumeric) with false by reflexivity. cbv iota.
      rewrite toShiftJIS_kanji by auto. rewrite encodeKanji_payload by auto. reflexivity.
  Qed.

  (* auto-selected Kanji with an alphanumeric prefix: the payload is empty *)
  Lemma encode_mixed r raw pre ks : go_runes raw = pre ++ ks -> pre <> [] ->
    Forall is_alnum pre -> Forall (is_kanji sjis) ks ->
    encode sjis EncModeKanji r raw = breakUpInto8bit r (header (Ver r) Kanji (rune_count raw) ++ []).
  Proof.
    intros E Hne Hp Hk. unfold encode. change EncModeKanji with (mode_const Kanji). rewrite indicator_bits.
    pose proof (charCountBits_spec Kanji (Ver r)) as EW. pose proof (width_bounds (Ver r) Kanji) as BW.
    cbv zeta. rewrite EW, append_to_bits_32 by lia. unfold header.
    replace (mode_const Kanji =? EncModeKanji) with true by reflexivity.
    replace (mode_const Kanji =? EncModeNumeric) with false by reflexivity.
    replace (mode_const Kanji =? EncModeAlphanumeric) with false by reflexivity. cbv iota.
    rewrite (toShiftJIS_mixed sjis C raw pre ks) by auto. cbn. rewrite app_nil_r. reflexivity.
  Qed.

  Definition fitsb (v : Z) (l : level) (md : mode) (n : Z) : bool := needed_bits v md n <=? 8 * data_codewords v l.
  Lemma fitsb_iff v l md n : fitsb v l md n = true <-> fits v l md n.
  Proof. apply Z.leb_le. Qed.

  Lemma encode_row md v l r raw : row_facts v l r -> text_ok md raw ->
    encode sjis (mode_const md) r raw =
      if fitsb v l md (text_length md raw) then Ok (data_bits v l md (text_length md raw) (payload_of md raw))
      else Err ErrDataTooLong.
  Proof.
    intros RF HT. rewrite encode_unfold by auto. rewrite (rf_ver _ _ _ RF), (breakUp_row _ _ _ _ _ _ RF).
    rewrite payload_of_length by auto. unfold fitsb, needed_bits.
    rewrite Z.leb_antisym. destruct (_ <? _); reflexivity.
  Qed.

  (* the capacity entry: fits iff at most the capacity *)
  Lemma fits_cap v l r md n : row_facts v l r -> 0 <= n -> (fits v l md n <-> n <= cap_of md (Cap r)).
  Proof.
    intros RF Hn. pose proof (rf_cap _ _ _ RF md) as HC. unfold needed_ok in HC.
    rewrite !andb_true_iff, !Z.leb_le, !Z.ltb_lt in HC. destruct HC as (((H1 & H2) & H3) & H4).
    unfold fits, needed_bits in *. split.
    - intros HF. destruct (Z_le_gt_dec n (cap_of md (Cap r))) as [X|X]; auto. exfalso.
      pose proof (payload_mono md (cap_of md (Cap r) + 1) n ltac:(lia)). lia.
    - intros HF. pose proof (payload_mono md n (cap_of md (Cap r)) ltac:(lia)). lia.
  Qed.

  Lemma fits_width v l r md n : row_facts v l r -> 0 <= n -> fits v l md n -> n < 2 ^ width_of v md.
  Proof.
    intros RF Hn HF. apply (fits_cap _ _ _ _ _ RF Hn) in HF. pose proof (rf_cap _ _ _ RF md) as HC. unfold needed_ok in HC.
    rewrite !andb_true_iff, !Z.leb_le, !Z.ltb_lt in HC. lia.
  Qed.

  (* what the reader should return *)
  Definition expected (md : mode) (raw : list Z) : segment :=
    match md with
    | Numeric => NumericSeg raw | Alphanumeric => AlphanumericSeg raw | Byte => ByteSeg raw
    | Kanji => KanjiSeg (map (kcode sjis) (go_runes raw))
    end.

  Lemma read_data_bits v l r md raw : row_facts v l r -> text_ok md raw -> Forall is_byte raw ->
    fits v l md (text_length md raw) ->
    read_segment v (data_bits v l md (text_length md raw) (payload_of md raw)) = Some (expected md raw).
  Proof.
    intros RF HT HB HF. pose proof (text_length_nonneg md raw) as Hn.
    pose proof (payload_of_length md raw HT) as PL. pose proof (fits_width _ _ _ _ _ RF Hn HF) as HW.
    unfold fits, needed_bits in HF. rewrite <- PL in HF.
    rewrite data_bits_split by lia.
    pose proof (zlen_nonneg (payload_of md raw)) as ZP. pose proof (width_bounds v md) as BW.
    set (tl := tail_bits _ _).
    assert (TE : at_end tl = true) by (apply tail_at_end; lia).
    assert (G : exists out, read_payload md (Z.to_nat (text_length md raw)) (payload_of md raw ++ tl) = Some (out, tl)
                            /\ seg_of md out = expected md raw).
    { destruct md; cbn [read_payload seg_of expected payload_of].
      - exists raw. split; auto. rewrite text_length_ascii by auto. unfold zlen. rewrite Nat2Z.id.
        rewrite <- (map_length (fun d => d - 48) raw). rewrite read_numeric_payload.
        + rewrite map_map. f_equal. f_equal. unfold digit_char. erewrite map_ext; [apply map_id|]. intros; cbv beta. lia.
        + apply Forall_map. eapply Forall_impl; [|exact HT]. unfold is_digit. intros; lia.
      - exists raw. split; auto. rewrite text_length_ascii by auto. unfold zlen. rewrite Nat2Z.id.
        apply read_alphanumeric_payload. exact HT.
      - exists raw. split; auto. unfold text_length, zlen. rewrite Nat2Z.id. apply read_byte_payload_spec. auto.
      - eexists. split; [|reflexivity]. unfold text_length, rune_count, zlen. rewrite Nat2Z.id.
        rewrite <- (map_length (kcode sjis) (go_runes raw)). apply read_kanji_payload.
        apply Forall_map. eapply Forall_impl; [|exact HT]. intros a Ha.
        destruct (kanji_char_facts sjis C a Ha) as (hi & lo & _ & _ & _ & _ & Hok & _). exact Hok. }
    destruct G as (out & G & <-). apply read_segment_spec; auto.
  Qed.
End Sjis.
