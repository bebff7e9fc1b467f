(* Kanji payloads, and Encode for all four modes. *)
From Verif Require Import ModelBase ModelBinary ModelUtf8 ModelVersion ModelChardet ModelEncoder ModelQRCode.
From Verif Require Import SpecIso SpecReader SpecSegment.
From Verif Require Import ProofBase ProofBits ProofSweep ProofSymbol ProofTables ProofEncode ProofMode.

Lemma lor_bytes hi lo : 0 <= hi < 256 -> 0 <= lo < 256 -> Z.lor ((Z.shiftl hi 8) mod 65536) lo = hi * 256 + lo.
Proof.
  intros Hh Hl. rewrite Z.shiftl_mul_pow2 by lia. change (2 ^ 8) with 256. rewrite Z.mod_small by lia.
  assert (E : Z.land (hi * 256) lo = 0).
  { change 256 with (2 ^ 8). rewrite <- Z.shiftl_mul_pow2 by lia. apply Z.bits_inj'. intros n Hn.
    rewrite Z.land_spec, Z.bits_0. destruct (Z.ltb_spec n 8) as [X|X].
    - rewrite Z.shiftl_spec_low by lia. reflexivity.
    - rewrite (Z.bits_above_log2 lo n); [apply andb_false_r|lia|].
      destruct (Z.eqb_spec lo 0) as [->|]; [simpl; lia|].
      apply Z.log2_lt_pow2; [lia|]. apply Z.lt_le_trans with (2 ^ 8); [change (2 ^ 8) with 256; lia|].
      apply Z.pow_le_mono_r; lia. }
  rewrite Z.add_nocarry_lxor by exact E. symmetry. rewrite Z.lxor_lor by exact E. reflexivity.
Qed.

Section Sjis.
  Variable sjis : Z -> option (list Z).
  Hypothesis C : shift_jis_contract sjis.

  Lemma cjk_iff r : ((0x4E00 <=? r) && (r <=? 0x9FFF)) || ((0x3400 <=? r) && (r <=? 0x4DBF)) || ((0xF900 <=? r) && (r <=? 0xFAFF)) = true <-> cjk r.
  Proof. unfold cjk. rewrite !orb_true_iff, !andb_true_iff, !Z.leb_le. tauto. Qed.

  Lemma sj_pair r hi lo : sjis r = Some [hi; lo] -> 0 <= hi < 256 /\ 0x40 <= lo < 256.
  Proof.
    intros E. pose proof (sj_bytes _ C _ _ E) as HF. inversion HF as [|? ? A B]; subst. inversion B; subst.
    pose proof (sj_trail _ C _ _ _ E). lia.
  Qed.

  Lemma is_kanji_iff r : is_kanji sjis r <-> kanji_char sjis r.
  Proof.
    unfold is_kanji, analyzeJP, kanji_char, double_byte.
    match goal with |- context [negb ?b] => destruct b eqn:EC end; cbn [negb].
    - apply cjk_iff in EC.
      destruct (sjis r) as [[|hi [|lo [|? ?]]]|] eqn:ES; split; try discriminate; try (intros [_ (c & X & _)]; discriminate).
      + destruct (sj_pair _ _ _ ES). cbv zeta. rewrite lor_bytes by lia. intros HH. split; auto.
        exists (hi * 256 + lo). split; auto. bfix. lia.
      + destruct (sj_pair _ _ _ ES). intros [_ (c & X & R)]. injection X as <-.
        cbv zeta. rewrite lor_bytes by lia. bfix. lia.
    - split; [discriminate|]. intros [X _]. apply cjk_iff in X. congruence.
  Qed.

  Lemma is_digit_iff c : is_digit c <-> digit_ch c. Proof. reflexivity. Qed.

  Lemma is_alnum_iff c : is_alnum c <-> alnum_ch c.
  Proof.
    unfold alnum_ch. rewrite <- analyzeAlphaNum_iff.
    assert (S : forallb (fun c => Bool.eqb (analyzeAlphaNum c) (existsb (Z.eqb c) alphanumeric_table)) (upto 256) = true)
      by (vm_compute; reflexivity).
    assert (EX : existsb (Z.eqb c) alphanumeric_table = true <-> In c alphanumeric_table).
    { rewrite existsb_exists. split; [intros (x & Hx & E); apply Z.eqb_eq in E; congruence|].
      intros HH. exists c. split; auto. apply Z.eqb_refl. }
    destruct (Z.ltb_spec c 0) as [X|X]; [|destruct (Z.leb_spec 256 c) as [Y|Y]].
    - split; [intros HH; apply analyzeAlphaNum_iff, alnum_ascii in HH; lia|].
      unfold alphanumeric_table. cbn [In]. intuition lia.
    - split; [intros HH; apply analyzeAlphaNum_iff, alnum_ascii in HH; lia|].
      unfold alphanumeric_table. cbn [In]. intuition lia.
    - rewrite <- EX. pose proof (forallb_upto _ _ S c ltac:(lia)) as S'. cbv beta in S'.
      apply eqb_prop in S'. rewrite S'. tauto.
  Qed.

  (* the code of a Kanji character *)
  Definition kcode (r : Z) : Z := match double_byte sjis r with Some c => c | None => 0 end.

  Lemma kanji_char_facts r : is_kanji sjis r ->
    exists hi lo, sjis r = Some [hi; lo] /\ kcode r = hi * 256 + lo /\ 0 <= hi < 256 /\ 0x40 <= lo < 256 /\
                  kanji_codeok (kcode r) /\ kcode r <> 0x8140 /\ double_byte sjis r = Some (kcode r).
  Proof.
    intros HK. pose proof (kanji_not_ascii _ _ HK) as NA. apply is_kanji_iff in HK as [HC (c & E & R)].
    unfold kcode. rewrite E. unfold double_byte in E.
    destruct (sjis r) as [[|hi [|lo [|? ?]]]|] eqn:ES; try discriminate. injection E as <-.
    destruct (sj_pair _ _ _ ES). exists hi, lo. repeat split; try reflexivity; try lia.
    - replace ((hi * 256 + lo) mod 256) with lo; [lia|]. rewrite Z.add_comm, Z.mod_add, Z.mod_small by lia. reflexivity.
    - intros E. assert (hi = 0x81 /\ lo = 0x40) as [-> ->] by lia. apply (sj_space _ C) in ES. unfold cjk in HC. lia.
  Qed.

  Lemma kanji_value_nonzero c : kanji_codeok c -> c <> 0x8140 -> kanji_value c <> 0.
  Proof.
    intros HK Hn E. destruct (kanji_roundtrip c HK) as [_ R]. rewrite E in R. vm_compute in R. congruence.
  Qed.

  Lemma encodeShiftJIS_spec hi lo : 0 <= hi < 256 -> 0 <= lo < 256 -> kanji_codeok (hi * 256 + lo) ->
    encodeShiftJIS hi lo = (kanji_value (hi * 256 + lo) / 256, kanji_value (hi * 256 + lo) mod 256).
  Proof.
    intros Hh Hl HK. destruct (kanji_roundtrip _ HK) as [B _]. change (2 ^ 13) with 8192 in B.
    unfold encodeShiftJIS. rewrite lor_bytes by lia. unfold kanji_value in *.
    destruct HK as [R Hlo]. set (c := hi * 256 + lo) in *.
    assert (SR : forall x, Z.shiftr x 8 = x / 256) by (intros; rewrite Z.shiftr_div_pow2 by lia; reflexivity).
    assert (LA : forall x, Z.land x 255 = x mod 256) by (intros; change 255 with (Z.ones 8); rewrite Z.land_ones by lia; reflexivity).
    assert (G : forall d, 0 <= d < 65536 -> 0 <= d / 256 * 0xC0 + d mod 256 < 8192 ->
      (Z.shiftr ((Z.shiftr d 8 mod 256 * 192 + Z.land d 255) mod 65536) 8 mod 256, Z.land ((Z.shiftr d 8 mod 256 * 192 + Z.land d 255) mod 65536) 255)
      = ((d / 256 * 0xC0 + d mod 256) / 256, (d / 256 * 0xC0 + d mod 256) mod 256)).
    { intros d Hd Hv. rewrite (SR d), (LA d).
      assert (0 <= d / 256 < 256) by (split; [apply Z.div_pos; lia|apply Z.div_lt_upper_bound; lia]).
      rewrite (Z.mod_small (d / 256)) by lia.
      rewrite (Z.mod_small (d / 256 * 192 + d mod 256)) by lia.
      rewrite SR, LA. f_equal. apply Z.mod_small.
      split; [apply Z.div_pos; lia|apply Z.div_lt_upper_bound; lia]. }
    destruct ((0x8140 <=? c) && (c <=? 0x9FFC)) eqn:E1.
    - bfix. destruct (Z.leb_spec c 0x9FFC) in *; [|lia]. cbv zeta. apply G; lia.
    - assert (R2 : 0xE040 <= c <= 0xEBBF).
      { destruct R as [R|R]; auto. exfalso.
        apply andb_false_iff in E1. rewrite !Z.leb_gt in E1. lia. }
      destruct ((0xE040 <=? c) && (c <=? 0xEBBF)) eqn:E2; [|apply andb_false_iff in E2; rewrite !Z.leb_gt in E2; lia].
      destruct (Z.leb_spec c 0x9FFC); [lia|]. cbv zeta. apply G; lia.
  Qed.

  Definition val_bytes (x : Z) : list Z := [x / 256; x mod 256].

  Lemma sjis_string_kanji rs : Forall (is_kanji sjis) rs ->
    sjis_string sjis rs = Some (flat_map (fun r => [kcode r / 256; kcode r mod 256]) rs).
  Proof.
    induction 1 as [|r rs Hr HF IH]; [reflexivity|].
    destruct (kanji_char_facts r Hr) as (hi & lo & E & Ec & Hh & Hl & _).
    cbn [sjis_string flat_map]. rewrite E, IH, Ec.
    replace ((hi * 256 + lo) / 256) with hi by (rewrite Z.div_add_l, Z.div_small by lia; lia).
    replace ((hi * 256 + lo) mod 256) with lo by (rewrite Z.add_comm, Z.mod_add, Z.mod_small by lia; lia).
    reflexivity.
  Qed.

  Lemma sjis_pairs_kanji rs : Forall (is_kanji sjis) rs ->
    sjis_pairs (flat_map (fun r => [kcode r / 256; kcode r mod 256]) rs) = Some (flat_map (fun r => val_bytes (kanji_value (kcode r))) rs).
  Proof.
    induction 1 as [|r rs Hr HF IH]; [reflexivity|].
    destruct (kanji_char_facts r Hr) as (hi & lo & E & Ec & Hh & Hl & Hok & Hn & _).
    cbn [flat_map app sjis_pairs].
    assert (D : kcode r / 256 * 256 + kcode r mod 256 = kcode r) by (rewrite Z.mul_comm; symmetry; apply Z.div_mod; lia).
    assert (B1 : 0 <= kcode r / 256 < 256) by (rewrite Ec; split; [apply Z.div_pos; lia|apply Z.div_lt_upper_bound; lia]).
    pose proof (Z.mod_pos_bound (kcode r) 256 ltac:(lia)) as B2.
    rewrite encodeShiftJIS_spec by (try lia; rewrite D; auto). rewrite D, IH.
    pose proof (kanji_value_nonzero _ Hok Hn) as NZ. destruct (kanji_roundtrip _ Hok) as [BV _].
    set (x := kanji_value (kcode r)) in *.
    destruct ((x / 256 =? 0) && (x mod 256 =? 0)) eqn:EZ.
    - bfix. destruct EZ as [Z1 Z2]. pose proof (Z.div_mod x 256 ltac:(lia)). lia.
    - reflexivity.
  Qed.

  Lemma flat2_even (f : Z -> list Z) rs : (forall r, length (f r) = 2%nat) -> zlen (flat_map f rs) = 2 * zlen rs.
  Proof.
    intros Hf. induction rs as [|r rs IH]; [reflexivity|]. cbn [flat_map]. rewrite zlen_app, IH, zlen_cons.
    unfold zlen at 1. rewrite Hf. lia.
  Qed.

  Lemma toShiftJIS_kanji raw : Forall (is_kanji sjis) (go_runes raw) ->
    toShiftJIS sjis raw = flat_map (fun r => val_bytes (kanji_value (kcode r))) (go_runes raw).
  Proof.
    intros HF. unfold toShiftJIS. rewrite sjis_string_kanji by auto.
    rewrite flat2_even by reflexivity.
    rewrite Z.rem_mod_nonneg by (pose proof (zlen_nonneg (go_runes raw)); lia).
    rewrite Z.mul_comm, Z.mod_mul by lia. simpl negb. cbv iota. rewrite sjis_pairs_kanji by auto. reflexivity.
  Qed.

  Lemma encodeKanji_payload rs dst : Forall (is_kanji sjis) rs ->
    encodeKanji (flat_map (fun r => val_bytes (kanji_value (kcode r))) rs) dst = dst ++ kanji_payload (map kcode rs).
  Proof.
    intros HF. unfold encodeKanji. rewrite flat2_even by reflexivity.
    rewrite Z.rem_mod_nonneg by (pose proof (zlen_nonneg rs); lia).
    rewrite Z.mul_comm, Z.mod_mul by lia. simpl negb. cbv iota.
    revert dst. induction HF as [|r rs Hr HF IH]; intros dst.
    - cbn. rewrite app_nil_r. reflexivity.
    - destruct (kanji_char_facts r Hr) as (hi & lo & E & Ec & Hh & Hl & Hok & Hn & _).
      destruct (kanji_roundtrip _ Hok) as [BV _]. change (2 ^ 13) with 8192 in BV.
      cbn [flat_map val_bytes app encodeKanji_loop map]. rewrite IH.
      unfold kanji_payload. cbn [flat_map]. rewrite app_assoc. f_equal.
      set (x := kanji_value (kcode r)) in *.
      assert (B1 : 0 <= x / 256 < 256) by (split; [apply Z.div_pos; lia|apply Z.div_lt_upper_bound; lia]).
      pose proof (Z.mod_pos_bound x 256 ltac:(lia)) as B2.
      assert (EL : Z.lor (Z.shiftl (x / 256) 8) (x mod 256) = x).
      { rewrite <- (Z.mod_small (Z.shiftl (x / 256) 8) 65536).
        - rewrite lor_bytes by lia. rewrite Z.mul_comm. symmetry. apply Z.div_mod. lia.
        - rewrite Z.shiftl_mul_pow2 by lia. change (2 ^ 8) with 256. lia. }
      rewrite EL. apply append_to_bits; lia.
  Qed.

  (* a text with a single-byte character first: nothing is encoded *)
  Lemma toShiftJIS_mixed raw pre ks : go_runes raw = pre ++ ks -> pre <> [] ->
    Forall is_alnum pre -> Forall (is_kanji sjis) ks -> toShiftJIS sjis raw = [].
  Proof.
    intros E Hne Hp Hk. unfold toShiftJIS. rewrite E.
    assert (ES : sjis_string sjis (pre ++ ks) = Some (pre ++ flat_map (fun r => [kcode r / 256; kcode r mod 256]) ks)).
    { clear Hne E. induction Hp as [|a pre Ha Hp IH]; [apply sjis_string_kanji; auto|].
      cbn [app sjis_string].
      assert (RA : 0x20 <= a <= 0x5A) by (apply is_alnum_iff in Ha; revert Ha; unfold alnum_ch, alphanumeric_table; cbn [In]; intuition lia).
      rewrite (sj_ascii _ C a RA), IH. reflexivity. }
    rewrite ES. destruct (negb _) eqn:EV; [reflexivity|].
    destruct pre as [|a pre]; [congruence|]. inversion Hp as [|? ? Ha Hp']; subst.
    assert (RA : 0x20 <= a <= 0x5A) by (apply is_alnum_iff in Ha; revert Ha; unfold alnum_ch, alphanumeric_table; cbn [In]; intuition lia).
    assert (RB : forall b t, pre ++ flat_map (fun r => [kcode r / 256; kcode r mod 256]) ks = b :: t -> 0 <= b < 256).
    { intros b t Hb. destruct pre as [|a2 pre].
      - destruct ks as [|k ks]; [discriminate|]. cbn in Hb. injection Hb as <- _. inversion Hk as [|? ? HK1]; subst.
        destruct (kanji_char_facts k HK1) as (hi & lo & _ & -> & Hh & Hl & _).
        split; [apply Z.div_pos; lia|apply Z.div_lt_upper_bound; lia].
      - cbn in Hb. injection Hb as <- _. inversion Hp'; subst. pose proof (alnum_ascii a2 H1). lia. }
    cbn [app]. destruct (pre ++ flat_map (fun r => [kcode r / 256; kcode r mod 256]) ks) as [|b t] eqn:EB; [reflexivity|].
    specialize (RB b t eq_refl). cbn [sjis_pairs].
    unfold encodeShiftJIS. rewrite lor_bytes by lia.
    destruct (Z.leb_spec 0x8140 (a * 256 + b)); [lia|]. destruct (Z.leb_spec 0xE040 (a * 256 + b)); [lia|]. reflexivity.
  Qed.
End Sjis.
