(* Segment encoding: the model's Encode against the specified framing, and the reader on it. *)
From Verif Require Import ModelBase ModelBinary ModelUtf8 ModelVersion ModelChardet ModelEncoder ModelQRCode.
From Verif Require Import SpecIso SpecReader SpecSegment.
From Verif Require Import ProofBase ProofBits ProofSweep ProofSymbol ProofTables.

Global Arguments to_bits : simpl never.
Global Arguments upto : simpl never.
Global Arguments width_of : simpl never.
Global Arguments data_codewords : simpl never.
Global Arguments uint_bits : simpl never.

Lemma append_to_bits dst x n : 0 <= x < 2 ^ 32 -> 0 <= n -> bin_append_uint32 dst x n = dst ++ to_bits x n.
Proof.
  intros Hx Hn. unfold bin_append_uint32. rewrite Z.mod_small by lia.
  replace n with (Z.of_nat (Z.to_nat n)) at 2 by lia. rewrite to_bits_uint. reflexivity.
Qed.

(* ---- payloads ---- *)
Definition is_digit (c : Z) : Prop := 0x30 <= c <= 0x39.
Lemma digit_small d : is_digit d -> digit d = d - 48 /\ 0 <= digit d < 10.
Proof. unfold is_digit, digit. intros. rewrite Z.mod_small by lia. lia. Qed.

Lemma encodeNumeric_payload : forall data dst, Forall is_digit data ->
  encodeNumeric data dst = dst ++ numeric_payload (map (fun d => d - 48) data).
Proof.
  fix IH 1. intros data dst HF. destruct data as [|a [|b [|c rest]]].
  - simpl. rewrite app_nil_r. reflexivity.
  - inversion HF; subst. simpl. destruct (digit_small a) as [E B]; auto.
    rewrite append_to_bits by lia. rewrite E. reflexivity.
  - inversion HF as [|? ? Ha HF']; subst. inversion HF' as [|? ? Hb HF'']; subst. cbn [encodeNumeric map numeric_payload].
    destruct (digit_small a) as [Ea Ba]; auto. destruct (digit_small b) as [Eb Bb]; auto.
    rewrite append_to_bits by lia. rewrite Ea, Eb. f_equal. f_equal. ring.
  - inversion HF as [|? ? Ha HF']; subst. inversion HF' as [|? ? Hb HF'']; subst. inversion HF'' as [|? ? Hc Hr]; subst.
    cbn [encodeNumeric map numeric_payload].
    destruct (digit_small a) as [Ea Ba]; auto. destruct (digit_small b) as [Eb Bb]; auto.
    destruct (digit_small c) as [Ec Bc]; auto.
    rewrite IH by assumption. rewrite append_to_bits by lia. rewrite <- app_assoc. rewrite Ea, Eb, Ec. do 3 f_equal. ring.
Qed.

Definition is_alnum (c : Z) : Prop := exists x, encodeAlphanumericCharacter c = Some x.
Definition alnum_val (c : Z) : Z := match encodeAlphanumericCharacter c with Some x => x | None => 0 end.

Lemma alnum_char_range c x : encodeAlphanumericCharacter c = Some x -> 0 <= x < 45 /\ 0 <= c < 128.
Proof.
  unfold encodeAlphanumericCharacter.
  repeat match goal with |- context [if ?b then _ else _] => destruct b eqn:? end; intros [= <-];
  rewrite ?andb_true_iff, ?Z.leb_le, ?Z.eqb_eq in *; lia.
Qed.

Lemma alnum_sweep : forallb (fun c => match encodeAlphanumericCharacter c, alnum_value c with
    | Some x, Some y => (x =? y) && match alnum_char x with Some c' => c' =? c | None => false end
    | None, None => negb (analyzeAlphaNum c)
    | _, _ => false end && Bool.eqb (match encodeAlphanumericCharacter c with Some _ => true | None => false end) (analyzeAlphaNum c)) (upto 256) = true.
Proof. vm_compute. reflexivity. Qed.

Lemma alnum_facts c x : encodeAlphanumericCharacter c = Some x ->
  alnum_value c = Some x /\ alnum_char x = Some c.
Proof.
  intros E. destruct (alnum_char_range c x E).
  pose proof (forallb_upto _ _ alnum_sweep c ltac:(lia)) as S. cbv beta in S. rewrite E in S.
  apply andb_true_iff in S as [S _].
  destruct (alnum_value c) as [y|]; [|discriminate].
  apply andb_true_iff in S as [S1 S2]. apply Z.eqb_eq in S1. subst y. split; auto.
  destruct (alnum_char x); [|discriminate]. apply Z.eqb_eq in S2. congruence.
Qed.

Lemma analyzeAlphaNum_iff c : analyzeAlphaNum c = true <-> is_alnum c.
Proof.
  unfold is_alnum. destruct (Z.ltb_spec c 0) as [X|X]; [|destruct (Z.leb_spec 256 c) as [Y|Y]].
  - split.
    + unfold analyzeAlphaNum. simpl existsb. rewrite !orb_true_iff, !andb_true_iff, !Z.leb_le, !Z.eqb_eq. lia.
    + intros [x E]. apply alnum_char_range in E. lia.
  - split.
    + unfold analyzeAlphaNum. simpl existsb. rewrite !orb_true_iff, !andb_true_iff, !Z.leb_le, !Z.eqb_eq. lia.
    + intros [x E]. apply alnum_char_range in E. lia.
  - pose proof (forallb_upto _ _ alnum_sweep c ltac:(lia)) as S. cbv beta in S.
    apply andb_true_iff in S as [_ S]. apply eqb_prop in S. rewrite <- S.
    destruct (encodeAlphanumericCharacter c); split; eauto; try discriminate. intros [? ?]; discriminate.
Qed.

Lemma analyzeNum_iff c : analyzeNum c = true <-> is_digit c.
Proof. unfold analyzeNum, is_digit. rewrite andb_true_iff, !Z.leb_le. tauto. Qed.

Lemma encodeAlphanumeric_payload : forall data dst, Forall is_alnum data ->
  encodeAlphanumeric data dst = Some (dst ++ alphanumeric_payload (map alnum_val data)).
Proof.
  fix IH 1. intros data dst HF. destruct data as [|a [|b rest]].
  - simpl. rewrite app_nil_r. reflexivity.
  - inversion HF as [|? ? [x E] _]; subst. simpl. unfold alnum_val. rewrite E.
    apply alnum_char_range in E. rewrite append_to_bits by lia. reflexivity.
  - inversion HF as [|? ? [x E] HF']; subst. inversion HF' as [|? ? [y E2] Hr]; subst.
    cbn [encodeAlphanumeric map alphanumeric_payload]. unfold alnum_val at 1 2. rewrite E, E2.
    apply alnum_char_range in E. apply alnum_char_range in E2.
    rewrite IH by assumption. rewrite append_to_bits by lia. rewrite <- app_assoc. do 4 f_equal. ring.
Qed.

(* a byte that is not alphanumeric makes Encode panic; used for the no-panic theorem *)
Lemma encodeByte_payload data : forall dst, encodeByte data dst = dst ++ byte_payload data.
Proof.
  unfold encodeByte, byte_payload. induction data as [|x data IH]; intros dst; cbn [fold_left flat_map].
  - rewrite app_nil_r. reflexivity.
  - rewrite IH. unfold bin_append_byte. rewrite <- app_assoc, to_bits_8. reflexivity.
Qed.

Lemma zlen_to_bits x n : 0 <= n -> zlen (to_bits x n) = n.
Proof. intros. unfold zlen. rewrite to_bits_length. lia. Qed.

Lemma numeric_payload_length ds : zlen (numeric_payload ds) = payload_length Numeric (zlen ds).
Proof.
  revert ds. fix IH 1. intros [|a [|b [|c rest]]]; try reflexivity.
  cbn [numeric_payload]. rewrite zlen_app, IH, zlen_to_bits, !zlen_cons by lia.
  unfold payload_length.
  replace (zlen rest + 1 + 1 + 1) with (zlen rest + 1 * 3) by lia.
  rewrite Z.div_add, Z.mod_add by lia. lia.
Qed.

Lemma alphanumeric_payload_length ds : zlen (alphanumeric_payload ds) = payload_length Alphanumeric (zlen ds).
Proof.
  revert ds. fix IH 1. intros [|a [|b rest]]; try reflexivity.
  cbn [alphanumeric_payload]. rewrite zlen_app, IH, zlen_to_bits, !zlen_cons by lia.
  unfold payload_length.
  replace (zlen rest + 1 + 1) with (zlen rest + 1 * 2) by lia.
  rewrite Z.div_add, Z.mod_add by lia. lia.
Qed.

Lemma flat_bits_length {A} (f : A -> list bool) k l : (forall a, zlen (f a) = k) -> zlen (flat_map f l) = k * zlen l.
Proof.
  intros Hf. induction l as [|a l IH]; [unfold zlen; simpl; lia|].
  cbn [flat_map]. rewrite zlen_app, IH, Hf, zlen_cons. ring.
Qed.

Lemma byte_payload_length ds : zlen (byte_payload ds) = payload_length Byte (zlen ds).
Proof. unfold byte_payload. apply flat_bits_length. intros. apply zlen_to_bits. lia. Qed.
Lemma kanji_payload_length ds : zlen (kanji_payload ds) = payload_length Kanji (zlen ds).
Proof. unfold kanji_payload. apply flat_bits_length. intros. apply zlen_to_bits. lia. Qed.

Lemma payload_mono md a b : 0 <= a <= b -> payload_length md a <= payload_length md b.
Proof.
  intros HH. destruct md; unfold payload_length; try lia.
  - pose proof (Z.div_mod a 3 ltac:(lia)). pose proof (Z.div_mod b 3 ltac:(lia)).
    pose proof (Z.mod_pos_bound a 3 ltac:(lia)). pose proof (Z.mod_pos_bound b 3 ltac:(lia)).
    assert (Ea : a mod 3 = 0 \/ a mod 3 = 1 \/ a mod 3 = 2) by lia.
    assert (Eb : b mod 3 = 0 \/ b mod 3 = 1 \/ b mod 3 = 2) by lia.
    destruct Ea as [E|[E|E]]; rewrite E in *; destruct Eb as [F|[F|F]]; rewrite F in *; lia.
  - pose proof (Z.div_mod a 2 ltac:(lia)). pose proof (Z.div_mod b 2 ltac:(lia)).
    pose proof (Z.mod_pos_bound a 2 ltac:(lia)). pose proof (Z.mod_pos_bound b 2 ltac:(lia)). lia.
Qed.

Lemma payload_nonneg md n : 0 <= n -> 0 <= payload_length md n.
Proof.
  intros Hn. replace 0 with (payload_length md 0) by (destruct md; reflexivity). apply payload_mono. lia.
Qed.

(* ---- width ---- *)
Lemma charCountBits_spec md v : charCountBits (mode_const md) v = width_of v md.
Proof. destruct md; unfold charCountBits, width_of; simpl; reflexivity. Qed.

Lemma width_bounds v md : 8 <= width_of v md <= 16.
Proof.
  destruct md; unfold width_of; simpl; destruct (v <=? 9); try destruct (v <=? 26); lia.
Qed.

(* ---- framing ---- *)
Lemma pad_loop_spec n dst : 0 <= n -> n mod 8 = 0 -> pad_loop n dst = dst ++ pad_codewords (n / 8).
Proof.
  intros Hn Hm. unfold pad_loop. rewrite Z.quot_div_nonneg by lia.
  unfold pad_codewords. rewrite zseq_upto_s.
  assert (0 <= n / 8) by (apply Z.div_pos; lia).
  assert (G : forall k (dst : list bool),
     fold_left (fun d i => d ++ (if Z.rem i 2 =? 1 then paddingByte1 else paddingByte2)) (map (fun j => 1 + j) (upto (Z.of_nat k))) dst
     = dst ++ flat_map (fun i => to_bits (if Z.even i then 0xEC else 0x11) 8) (upto (Z.of_nat k))).
  { induction k as [|k IH]; intros d; [change (upto (Z.of_nat 0)) with (@nil Z); cbn [map fold_left flat_map]; rewrite app_nil_r; reflexivity|].
    rewrite upto_S, map_app, fold_left_app, IH, flat_map_app. cbn [map fold_left flat_map]. rewrite app_nil_r, <- app_assoc. do 2 f_equal.
    rewrite Z.rem_mod_nonneg by lia.
    destruct (Z.even (Z.of_nat k)) eqn:E.
    - apply Z.even_spec in E as [j Ej]. rewrite Ej.
      replace (1 + 2 * j) with (1 + j * 2) by ring. rewrite Z.mod_add by lia. reflexivity.
    - assert (O : Z.odd (Z.of_nat k) = true) by (rewrite <- Z.negb_even, E; reflexivity).
      apply Z.odd_spec in O as [j Ej]. rewrite Ej.
      replace (1 + (2 * j + 1)) with ((1 + j) * 2) by ring. rewrite Z.mod_mul by lia. reflexivity. }
  replace (n / 8) with (Z.of_nat (Z.to_nat (n / 8))) by lia. apply G.
Qed.

Lemma pad_codewords_length n : 0 <= n -> zlen (pad_codewords n) = 8 * n.
Proof.
  intros. unfold pad_codewords. rewrite (flat_bits_length _ 8); [unfold zlen; rewrite upto_length; lia|].
  intros. apply zlen_to_bits. lia.
Qed.

Lemma zlen_repeat {A} (a : A) n : zlen (repeat a n) = Z.of_nat n.
Proof. unfold zlen. rewrite repeat_length. reflexivity. Qed.

(* the tail appended after the segment s *)
Definition tail_bits (capacity len : Z) : list bool :=
  let term := Z.min 4 (capacity - len) in
  let align := (- (len + term)) mod 8 in
  repeat false (Z.to_nat term) ++ repeat false (Z.to_nat align)
    ++ pad_codewords ((capacity - len - term - align) / 8).

Lemma breakUp_spec r dst D : v_numTotalCodewords r = D ->
  breakUpInto8bit r dst =
    if 8 * D <? zlen dst then Err ErrDataTooLong else Ok (dst ++ tail_bits (8 * D) (zlen dst)).
Proof.
  intros ED. unfold breakUpInto8bit. rewrite ED. rewrite (Z.mul_comm D 8).
  destruct (Z.ltb_spec (8 * D - zlen dst) 0) as [X|X].
  - destruct (Z.ltb_spec (8 * D) (zlen dst)); [reflexivity|lia].
  - destruct (Z.ltb_spec (8 * D) (zlen dst)); [lia|]. f_equal.
    unfold tail_bits. cbv zeta.
    set (term := Z.min 4 (8 * D - zlen dst)).
    assert (E1 : (if 8 * D - zlen dst <? 4 then bin_append_zeros dst (8 * D - zlen dst) else bin_append_zeros dst 4)
                 = dst ++ repeat false (Z.to_nat term)).
    { unfold bin_append_zeros, term. destruct (Z.ltb_spec (8 * D - zlen dst) 4); do 3 f_equal; lia. }
    rewrite E1. rewrite zlen_app, zlen_repeat, Z2Nat.id by (unfold term; lia).
    set (len2 := zlen dst + term).
    assert (L2 : 0 <= len2) by (unfold len2, term; pose proof (zlen_nonneg dst); lia).
    rewrite Z.rem_mod_nonneg by lia.
    set (al := (- len2) mod 8).
    pose proof (Z.mod_pos_bound len2 8 ltac:(lia)) as B.
    assert (EA : al = if len2 mod 8 =? 0 then 0 else 8 - len2 mod 8).
    { unfold al. destruct (Z.eqb_spec (len2 mod 8) 0) as [E|E].
      - rewrite Z.mod_opp_l_z; lia.
      - rewrite Z.mod_opp_l_nz; lia. }
    assert (E2 : (if negb (len2 mod 8 =? 0)
                  then bin_append_zeros (dst ++ repeat false (Z.to_nat term)) (8 - len2 mod 8)
                  else dst ++ repeat false (Z.to_nat term))
                 = dst ++ repeat false (Z.to_nat term) ++ repeat false (Z.to_nat al)).
    { rewrite EA. destruct (Z.eqb_spec (len2 mod 8) 0) as [E|E]; simpl negb; cbv iota.
      - simpl. rewrite app_nil_r. reflexivity.
      - unfold bin_append_zeros. rewrite <- app_assoc. reflexivity. }
    rewrite E2. rewrite !zlen_app, !zlen_repeat.
    assert (HA : 0 <= al < 8) by (unfold al; apply Z.mod_pos_bound; lia).
    rewrite !Z2Nat.id by (unfold term; lia).
    replace (8 * D - (zlen dst + (term + al))) with (8 * D - zlen dst - term - al) by lia.
    assert (M : (len2 + al) mod 8 = 0).
    { rewrite EA. destruct (Z.eqb_spec (len2 mod 8) 0) as [E|E].
      - rewrite Z.add_0_r. exact E.
      - rewrite <- Zplus_mod_idemp_l. replace (len2 mod 8 + (8 - len2 mod 8)) with 8 by lia. reflexivity. }
    assert (MN : (8 * D - zlen dst - term - al) mod 8 = 0).
    { replace (8 * D - zlen dst - term - al) with (D * 8 - (len2 + al)) by (unfold len2; lia).
      rewrite Zminus_mod, M, Z.mod_mul by lia. reflexivity. }
    assert (NN : 0 <= 8 * D - zlen dst - term - al).
    { (* len2 <= 8D and aligning up to a multiple of 8 stays within 8D *)
      assert (len2 <= 8 * D) by (unfold len2, term; lia).
      assert (len2 + al <= 8 * D).
      { pose proof (Z.div_mod (len2 + al) 8 ltac:(lia)) as Q. rewrite M in Q.
        destruct (Z_le_gt_dec (len2 + al) (8 * D)); auto. lia. }
      unfold len2 in *. lia. }
    destruct (Z.ltb_spec 0 (8 * D - zlen dst - term - al)) as [Y|Y].
    + rewrite pad_loop_spec by lia. rewrite <- !app_assoc. reflexivity.
    + replace (8 * D - zlen dst - term - al) with 0 by lia. simpl. rewrite app_nil_r. reflexivity.
Qed.

Lemma tail_length D len : 0 <= len <= 8 * D -> zlen (tail_bits (8 * D) len) = 8 * D - len.
Proof.
  intros Hl. unfold tail_bits. cbv zeta. set (term := Z.min 4 (8 * D - len)).
  set (al := (- (len + term)) mod 8).
  assert (HA : 0 <= al < 8) by (unfold al; apply Z.mod_pos_bound; lia).
  assert (M : (len + term + al) mod 8 = 0).
  { unfold al. rewrite Zplus_mod_idemp_r. replace (len + term + - (len + term)) with 0 by lia. reflexivity. }
  pose proof (Z.div_mod (len + term + al) 8 ltac:(lia)) as Q. rewrite M in Q.
  assert (len + term <= 8 * D) by (unfold term; lia).
  assert (E : 8 * D - len - term - al = (D - (len + term + al) / 8) * 8) by lia.
  rewrite !zlen_app, !zlen_repeat, !Z2Nat.id by (unfold term; lia).
  rewrite pad_codewords_length.
  - rewrite E, Z.div_mul by lia. lia.
  - rewrite E, Z.div_mul by lia. lia.
Qed.

Lemma tail_at_end D len : 0 <= len <= 8 * D -> at_end (tail_bits (8 * D) len) = true.
Proof.
  intros Hl. unfold at_end, tail_bits. cbv zeta.
  destruct (Z.leb_spec 4 (8 * D - len)) as [X|X].
  - rewrite Z.min_l by lia. reflexivity.
  - rewrite Z.min_r by lia.
    replace (len + (8 * D - len)) with (D * 8) by lia.
    replace ((- (D * 8)) mod 8) with 0 by (replace (- (D * 8)) with ((- D) * 8) by lia; rewrite Z.mod_mul; lia).
    replace (8 * D - len - (8 * D - len) - 0) with 0 by lia.
    assert (B : 0 <= 8 * D - len < 4) by lia. generalize dependent (8 * D - len). intros r _ B.
    change (0 / 8) with 0. unfold pad_codewords. change (upto 0) with (@nil Z).
    assert (E : r = 0 \/ r = 1 \/ r = 2 \/ r = 3) by lia.
    destruct E as [->|[->|[->| ->]]]; reflexivity.
Qed.

(* ---- reading a segment ---- *)
Lemma take_bits x n rest : 0 <= n -> take n (to_bits x n ++ rest) = Some (x mod 2 ^ n, rest).
Proof.
  intros Hn. unfold take. change (Z.of_nat (length (to_bits x n ++ rest))) with (zlen (to_bits x n ++ rest)).
  rewrite zlen_app, zlen_to_bits by auto. pose proof (zlen_nonneg rest).
  destruct (Z.ltb_spec (n + zlen rest) n); [lia|].
  rewrite firstn_app_exact, skipn_app_exact by apply to_bits_length.
  replace n with (Z.of_nat (Z.to_nat n)) at 1 by lia. rewrite to_bits_uint, bits_value_uint, Z2Nat.id by lia. reflexivity.
Qed.

Lemma take_small x n rest : 0 <= n -> 0 <= x < 2 ^ n -> take n (to_bits x n ++ rest) = Some (x, rest).
Proof. intros. rewrite take_bits by auto. rewrite Z.mod_small by auto. reflexivity. Qed.

Lemma read_numeric_payload : forall ds rest, Forall (fun d => 0 <= d < 10) ds ->
  read_numeric (length ds) (numeric_payload ds ++ rest) = Some (map digit_char ds, rest).
Proof.
  fix IH 1. intros ds rest HF. destruct ds as [|a [|b [|c ds]]].
  - reflexivity.
  - inversion HF; subst. cbn [length read_numeric numeric_payload]. rewrite take_small by (change (2 ^ 4) with 16; change (2 ^ 6) with 64; change (2 ^ 7) with 128; change (2 ^ 8) with 256; change (2 ^ 10) with 1024; change (2 ^ 11) with 2048; lia).
    destruct (Z.ltb_spec a 10); [reflexivity|lia].
  - inversion HF as [|? ? Ha HF']; subst. inversion HF' as [|? ? Hb HF'']; subst.
    cbn [length read_numeric numeric_payload]. rewrite take_small by (change (2 ^ 4) with 16; change (2 ^ 6) with 64; change (2 ^ 7) with 128; change (2 ^ 8) with 256; change (2 ^ 10) with 1024; change (2 ^ 11) with 2048; lia).
    destruct (Z.ltb_spec (10 * a + b) 100); [|lia]. cbn [map].
    replace ((10 * a + b) / 10) with a by (rewrite (Z.mul_comm 10), Z.div_add_l, Z.div_small by lia; lia).
    replace ((10 * a + b) mod 10) with b by (rewrite Z.add_comm, (Z.mul_comm 10), Z.mod_add, Z.mod_small by lia; lia).
    reflexivity.
  - inversion HF as [|? ? Ha HF']; subst. inversion HF' as [|? ? Hb HF'']; subst. inversion HF'' as [|? ? Hc Hr]; subst.
    cbn [length numeric_payload map]. rewrite <- app_assoc.
    cbn [read_numeric]. rewrite take_small by (change (2 ^ 4) with 16; change (2 ^ 6) with 64; change (2 ^ 7) with 128; change (2 ^ 8) with 256; change (2 ^ 10) with 1024; change (2 ^ 11) with 2048; lia).
    destruct (Z.ltb_spec (100 * a + 10 * b + c) 1000); [|lia].
    rewrite IH by assumption.
    replace ((100 * a + 10 * b + c) / 100) with a by (rewrite <- Z.add_assoc, (Z.mul_comm 100), Z.div_add_l, Z.div_small by lia; lia).
    replace ((100 * a + 10 * b + c) / 10) with (10 * a + b)
      by (replace (100 * a + 10 * b + c) with ((10 * a + b) * 10 + c) by ring; rewrite Z.div_add_l, Z.div_small by lia; lia).
    replace ((10 * a + b) mod 10) with b by (rewrite Z.add_comm, (Z.mul_comm 10), Z.mod_add, Z.mod_small by lia; lia).
    replace ((100 * a + 10 * b + c) mod 10) with c
      by (replace (100 * a + 10 * b + c) with (c + (10 * a + b) * 10) by ring; rewrite Z.mod_add, Z.mod_small by lia; lia).
    reflexivity.
Qed.

Lemma read_alphanumeric_payload : forall ds rest, Forall is_alnum ds ->
  read_alphanumeric (length ds) (alphanumeric_payload (map alnum_val ds) ++ rest) = Some (ds, rest).
Proof.
  fix IH 1. intros ds rest HF. destruct ds as [|a [|b ds]].
  - reflexivity.
  - inversion HF as [|? ? [x E] _]; subst. cbn [length read_alphanumeric alphanumeric_payload map].
    unfold alnum_val. rewrite E. pose proof (alnum_char_range _ _ E). destruct (alnum_facts _ _ E) as [_ E'].
    rewrite take_small by (change (2 ^ 4) with 16; change (2 ^ 6) with 64; change (2 ^ 7) with 128; change (2 ^ 8) with 256; change (2 ^ 10) with 1024; change (2 ^ 11) with 2048; lia). rewrite E'. reflexivity.
  - inversion HF as [|? ? [x E] HF']; subst. inversion HF' as [|? ? [y E2] Hr]; subst.
    cbn [length alphanumeric_payload map]. rewrite <- app_assoc.
    cbn [read_alphanumeric]. unfold alnum_val at 1 2. rewrite E, E2.
    pose proof (alnum_char_range _ _ E). destruct (alnum_facts _ _ E) as [_ E'].
    pose proof (alnum_char_range _ _ E2). destruct (alnum_facts _ _ E2) as [_ E2'].
    rewrite take_small by (change (2 ^ 4) with 16; change (2 ^ 6) with 64; change (2 ^ 7) with 128; change (2 ^ 8) with 256; change (2 ^ 10) with 1024; change (2 ^ 11) with 2048; lia). rewrite IH by assumption.
    replace ((45 * x + y) / 45) with x by (rewrite (Z.mul_comm 45), Z.div_add_l, Z.div_small by lia; lia).
    replace ((45 * x + y) mod 45) with y by (rewrite Z.add_comm, (Z.mul_comm 45), Z.mod_add, Z.mod_small by lia; lia).
    rewrite E', E2'. reflexivity.
Qed.

Lemma read_byte_payload_spec ds rest : Forall is_byte ds ->
  read_byte_payload (length ds) (byte_payload ds ++ rest) = Some (ds, rest).
Proof.
  induction 1 as [|x ds Hx HF IH]; [reflexivity|].
  unfold byte_payload in *. cbn [length flat_map read_byte_payload]. rewrite <- app_assoc.
  rewrite take_small by (change (2 ^ 8) with 256; unfold is_byte in Hx; lia). rewrite IH. reflexivity.
Qed.

Definition kanji_codeok (c : Z) : Prop :=
  (0x8140 <= c <= 0x9FFC \/ 0xE040 <= c <= 0xEBBF) /\ 0x40 <= c mod 256.

Lemma kanji_roundtrip c : kanji_codeok c -> 0 <= kanji_value c < 2 ^ 13 /\ kanji_code (kanji_value c) = c.
Proof.
  unfold kanji_codeok. intros [R Hlo].
  unfold kanji_code, kanji_value.
  pose proof (Z.div_mod c 256 ltac:(lia)) as DM. pose proof (Z.mod_pos_bound c 256 ltac:(lia)) as B.
  set (h := c / 256) in *. set (lo := c mod 256) in *.
  destruct (Z.leb_spec c 0x9FFC) as [X|X].
  - assert (R1 : 0x8140 <= c <= 0x9FFC) by lia.
    set (d := c - 0x8140).
    assert (Ed : d = (h - 0x81) * 256 + (lo - 0x40)) by (unfold d; lia).
    assert (Eh : d / 256 = h - 0x81) by (rewrite Ed, Z.div_add_l, (Z.div_small (lo - 0x40)) by lia; lia).
    assert (El : d mod 256 = lo - 0x40) by (rewrite Ed, Z.add_comm, Z.mod_add, Z.mod_small by lia; lia).
    rewrite Eh, El.
    assert (0x81 <= h <= 0x9F) by lia.
    assert (Q1 : ((h - 0x81) * 0xC0 + (lo - 0x40)) / 0xC0 = h - 0x81) by (rewrite Z.div_add_l, Z.div_small by lia; lia).
    assert (Q2 : ((h - 0x81) * 0xC0 + (lo - 0x40)) mod 0xC0 = lo - 0x40) by (rewrite Z.add_comm, Z.mod_add, Z.mod_small by lia; lia).
    rewrite Q1, Q2. change (2 ^ 13) with 8192. split; [lia|].
    destruct (Z.leb_spec ((h - 0x81) * 256 + (lo - 0x40) + 0x8140) 0x9FFC); lia.
  - assert (R1 : 0xE040 <= c <= 0xEBBF) by lia.
    set (d := c - 0xC140).
    assert (Ed : d = (h - 0xC1) * 256 + (lo - 0x40)) by (unfold d; lia).
    assert (Eh : d / 256 = h - 0xC1) by (rewrite Ed, Z.div_add_l, (Z.div_small (lo - 0x40)) by lia; lia).
    assert (El : d mod 256 = lo - 0x40) by (rewrite Ed, Z.add_comm, Z.mod_add, Z.mod_small by lia; lia).
    rewrite Eh, El.
    assert (0xE0 <= h <= 0xEB) by lia.
    assert (Q1 : ((h - 0xC1) * 0xC0 + (lo - 0x40)) / 0xC0 = h - 0xC1) by (rewrite Z.div_add_l, Z.div_small by lia; lia).
    assert (Q2 : ((h - 0xC1) * 0xC0 + (lo - 0x40)) mod 0xC0 = lo - 0x40) by (rewrite Z.add_comm, Z.mod_add, Z.mod_small by lia; lia).
    rewrite Q1, Q2. change (2 ^ 13) with 8192. split; [lia|].
    destruct (Z.leb_spec ((h - 0xC1) * 256 + (lo - 0x40) + 0x8140) 0x9FFC); lia.
Qed.

Lemma read_kanji_payload cs rest : Forall kanji_codeok cs ->
  read_kanji (length cs) (kanji_payload cs ++ rest) = Some (cs, rest).
Proof.
  induction 1 as [|x cs Hx HF IH]; [reflexivity|].
  destruct (kanji_roundtrip x Hx) as [B E].
  unfold kanji_payload in *. cbn [length flat_map read_kanji]. rewrite <- app_assoc.
  rewrite take_small by lia. rewrite IH, E. reflexivity.
Qed.

(* header + payload + tail, read back *)
Lemma count_width_of v md : count_width (indicator md) v = Some (width_of v md).
Proof. destruct md; reflexivity. Qed.

Definition read_payload (md : mode) (n : nat) (bs : list bool) : option (list Z * list bool) :=
  match md with
  | Numeric => read_numeric n bs | Alphanumeric => read_alphanumeric n bs
  | Byte => read_byte_payload n bs | Kanji => read_kanji n bs
  end.
Definition seg_of (md : mode) : list Z -> segment :=
  match md with Numeric => NumericSeg | Alphanumeric => AlphanumericSeg | Byte => ByteSeg | Kanji => KanjiSeg end.

Lemma read_segment_spec v md n payload tail out :
  0 <= n < 2 ^ width_of v md ->
  read_payload md (Z.to_nat n) (payload ++ tail) = Some (out, tail) ->
  at_end tail = true ->
  read_segment v (to_bits (indicator md) 4 ++ to_bits n (width_of v md) ++ payload ++ tail) = Some (seg_of md out).
Proof.
  intros Hn Hr Ht. unfold read_segment. pose proof (width_bounds v md).
  rewrite take_small by (destruct md; simpl; lia).
  rewrite count_width_of. rewrite take_small by lia.
  destruct md; simpl in Hr |- *; rewrite Hr, Ht; reflexivity.
Qed.
