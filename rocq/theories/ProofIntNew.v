(* C88, continued: the bit stream, the mask search and New. *)
From Verif Require Import ModelBase ModelBinary ModelUtf8 ModelVersion ModelMatrix ModelChardet ModelEncoder ModelRS ModelKmp ModelEval ModelLayout ModelMask ModelQRCode ModelInt.
From Verif Require Import SpecSegment ProofBase ProofBits ProofMatrix ProofEval ProofViews ProofCache ProofMode ProofKanji ProofLayout ProofBuild ProofAPI ProofInt.

Lemma rune_lengths s : zlen (go_runes s) <= zlen s <= 4 * zlen (go_runes s).
Proof.
  assert (G : forall k s, (length s <= k)%nat -> zlen (go_runes s) <= zlen s <= 4 * zlen (go_runes s)); [|apply (G (length s)); auto].
  induction k as [|k IH]; intros [|b0 t0] LE; cbn [length] in LE; [cbn; lia|lia|cbn; lia|].
  pose proof (IH t0 ltac:(lia)). cbn [go_runes].
  destruct (b0 <? 128); [rewrite !zlen_cons; lia|].
  destruct t0 as [|b1 t1]; [cbn; lia|]. cbn [length] in LE. pose proof (IH t1 ltac:(lia)).
  destruct (_ && is_cont b1); [rewrite !zlen_cons; lia|].
  destruct t1 as [|b2 t2]; [rewrite !zlen_cons in *; lia|]. cbn [length] in LE. pose proof (IH t2 ltac:(lia)).
  destruct (_ && is_cont b2); [rewrite !zlen_cons; lia|].
  destruct t2 as [|b3 t3]; [rewrite !zlen_cons in *; lia|]. cbn [length] in LE. pose proof (IH t3 ltac:(lia)).
  destruct (_ && is_cont b3); rewrite !zlen_cons in *; lia.
Qed.

Lemma rs_ecc_length data n : (length (rs_ecc data n) <= n)%nat.
Proof.
  unfold rs_ecc. assert (X : forall a b, (length (xor_list a b) <= length a)%nat) by (induction a as [|x a IH]; intros [|y b]; cbn [xor_list length]; try lia; specialize (IH b); lia).
  assert (G : forall l r, (length r <= n)%nat -> (length (fold_left (rs_step (tl (rs_generator n))) l r) <= n)%nat).
  { induction l as [|b l IH]; intros r Hr; [exact Hr|]. cbn [fold_left]. apply IH. unfold rs_step. destruct r as [|r0 rt]; [cbn; lia|]. cbv zeta.
    etransitivity; [apply X|]. rewrite app_length. cbn [length] in *. lia. }
  apply G. rewrite repeat_length. lia.
Qed.

(* what the table of versions keeps below *)
Definition row_small (v : version) : bool :=
  (zlen (Groups v) <=? 2) && forallb (fun g => (0 <=? NumBlocks g) && (NumBlocks g <=? 100) && (0 <=? NumDataCodewords g) && (NumDataCodewords g <=? 200) && (0 <=? ECBlockwordsPerBlock g) && (ECBlockwordsPerBlock g <=? 100)) (Groups v).
Lemma rows_small : forallb row_small versions = true.
Proof. vm_compute. reflexivity. Qed.

Section Int.
  Context (int : Z -> Z) (B : Z) (big : 2147483648 <= B) (small : forall z, -B <= z < B -> int z = z).
  Ltac norm := repeat match goal with |- context [int ?z] => lazymatch z with context [int _] => fail | _ => rewrite (small z) by lia end end.

  Definition small_group (g : group) : Prop := 0 <= NumBlocks g <= 100 /\ 0 <= NumDataCodewords g <= 200 /\ 0 <= ECBlockwordsPerBlock g <= 100.
  Lemma groups_small v : In v versions -> zlen (Groups v) <= 2 /\ Forall small_group (Groups v).
  Proof.
    intros I. pose proof (proj1 (forallb_forall _ _) rows_small v I) as G. unfold row_small in G. apply andb_true_iff in G as [G1 G2]. split; [lia|].
    apply Forall_forall. intros g Hg. pose proof (proj1 (forallb_forall _ _) G2 g Hg) as X. cbv beta in X. unfold small_group. lia.
  Qed.

  Lemma total_int v : In v versions -> numTotalCodewordsI int v = v_numTotalCodewords v /\ 0 <= v_numTotalCodewords v <= 40000.
  Proof.
    intros I. destruct (groups_small v I) as [G1 G2]. unfold numTotalCodewordsI, v_numTotalCodewords.
    assert (G : forall l t, Forall small_group l -> 0 <= t -> t + 20000 * zlen l < B ->
      fold_left (fun total g => int (total + int (NumBlocks g * NumDataCodewords g))) l t = fold_left (fun total g => total + NumBlocks g * NumDataCodewords g) l t /\
      t <= fold_left (fun total g => total + NumBlocks g * NumDataCodewords g) l t <= t + 20000 * zlen l).
    { induction l as [|g l IH]; intros t F Ht Hb; [cbn; unfold zlen; cbn; lia|]. inversion F as [|? ? (P1 & P2 & _) F']; subst. rewrite zlen_cons in *. cbn [fold_left].
      assert (0 <= NumBlocks g * NumDataCodewords g <= 100 * 200) by (split; [apply Z.mul_nonneg_nonneg; lia|apply Z.mul_le_mono_nonneg; lia]).
      assert (0 <= zlen l) by (unfold zlen; lia). norm. destruct (IH (t + NumBlocks g * NumDataCodewords g) F'); lia. }
    destruct (G (Groups v) 0 G2) as [E1 E2]; lia.
  Qed.
  Lemma blocks_int v : In v versions -> totalNumBlocksI int v = v_totalNumBlocks v.
  Proof.
    intros I. destruct (groups_small v I) as [G1 G2]. unfold totalNumBlocksI, v_totalNumBlocks.
    assert (G : forall l t, Forall small_group l -> 0 <= t -> t + 100 * zlen l < B -> fold_left (fun total g => int (total + NumBlocks g)) l t = fold_left (fun total g => total + NumBlocks g) l t).
    { induction l as [|g l IH]; intros t F Ht Hb; [reflexivity|]. inversion F as [|? ? (P1 & P2 & _) F']; subst. rewrite zlen_cons in *. cbn [fold_left].
      assert (0 <= zlen l) by (unfold zlen; lia). norm. apply IH; auto; lia. }
    apply G; auto; lia.
  Qed.
  Lemma plan_small v : In v versions -> zlen (block_plan v) <= 200 /\ Forall (fun '(ndc, ecn) => 0 <= ndc <= 200 /\ 0 <= ecn <= 100) (block_plan v).
  Proof.
    intros I. destruct (groups_small v I) as [G1 G2]. unfold block_plan.
    assert (G : forall l, Forall small_group l -> zlen (flat_map (fun g => repeat (NumDataCodewords g, ECBlockwordsPerBlock g) (Z.to_nat (NumBlocks g))) l) <= 100 * zlen l /\
      Forall (fun '(ndc, ecn) => 0 <= ndc <= 200 /\ 0 <= ecn <= 100) (flat_map (fun g => repeat (NumDataCodewords g, ECBlockwordsPerBlock g) (Z.to_nat (NumBlocks g))) l)).
    { induction 1 as [|g l (P1 & P2 & P3) F [IH1 IH2]]; [cbn; split; [lia|constructor]|]. cbn [flat_map]. rewrite zlen_app, zlen_cons. split.
      - unfold zlen at 1. rewrite repeat_length. lia.
      - apply Forall_app. split; [|exact IH2]. apply Forall_forall. intros p Hp. apply repeat_spec in Hp. subst p. lia. }
    destruct (G _ G2) as [A1 A2]. split; [lia|exact A2].
  Qed.

  (* ---- encoder.go ---- *)
  Lemma breakUp_int v dst : In v versions -> zlen dst + 100 < B -> breakUpInto8bitI int v dst = breakUpInto8bit v dst.
  Proof.
    intros I Hd. destruct (total_int v I) as [T1 T2]. unfold breakUpInto8bitI, breakUpInto8bit. cbv zeta. rewrite T1. assert (0 <= zlen dst) by (unfold zlen; lia).
    norm. destruct (Z.ltb_spec (v_numTotalCodewords v * 8 - zlen dst) 0); [reflexivity|].
    assert (L1 : zlen dst <= zlen (if v_numTotalCodewords v * 8 - zlen dst <? 4 then bin_append_zeros dst (v_numTotalCodewords v * 8 - zlen dst) else bin_append_zeros dst 4) <= zlen dst + 4).
    { destruct (Z.ltb_spec (v_numTotalCodewords v * 8 - zlen dst) 4); unfold bin_append_zeros; rewrite zlen_app; unfold zlen at 3; rewrite ?repeat_length; unfold zlen in *; rewrite ?repeat_length; lia. }
    set (d1 := if v_numTotalCodewords v * 8 - zlen dst <? 4 then _ else _) in *. clearbody d1. norm.
    assert (R : 0 <= Z.rem (zlen d1) 8 < 8) by (apply Z.rem_bound_pos; lia).
    norm. assert (L2 : zlen d1 <= zlen (if negb (Z.rem (zlen d1) 8 =? 0) then bin_append_zeros d1 (8 - Z.rem (zlen d1) 8) else d1) <= zlen d1 + 8).
    { destruct (negb _); [|lia]. unfold bin_append_zeros. rewrite zlen_app. unfold zlen at 3 6. rewrite repeat_length. lia. }
    set (d2 := if negb (Z.rem (zlen d1) 8 =? 0) then _ else _) in *. clearbody d2. norm. reflexivity.
  Qed.

  Lemma append_len b v n : 0 <= n -> zlen (bin_append_uint32 b v n) = zlen b + n.
  Proof. intros Hn. unfold bin_append_uint32. rewrite zlen_app, zlen_uint_bits. lia. Qed.

  Lemma numeric_len data : forall dst, zlen (encodeNumeric data dst) <= zlen dst + 8 * zlen data.
  Proof.
    assert (G : forall k data dst, (length data <= k)%nat -> zlen (encodeNumeric data dst) <= zlen dst + 8 * zlen data); [|intros dst; apply (G (length data)); auto].
    induction k as [|k IH]; intros d dst LE.
    - destruct d; [cbn [encodeNumeric]; unfold zlen; cbn; lia|cbn in LE; lia].
    - destruct d as [|a [|b [|c rest]]]; cbn [encodeNumeric]; [unfold zlen; cbn; lia|rewrite append_len by lia; rewrite zlen_cons; unfold zlen; cbn; lia|rewrite append_len by lia; rewrite !zlen_cons; unfold zlen; cbn; lia|].
      cbn [length] in LE. etransitivity; [apply IH; lia|]. rewrite append_len by lia. rewrite !zlen_cons. lia.
  Qed.
  Lemma alnum_len data : forall dst r, encodeAlphanumeric data dst = Some r -> zlen r <= zlen dst + 8 * zlen data.
  Proof.
    assert (G : forall k data dst r, (length data <= k)%nat -> encodeAlphanumeric data dst = Some r -> zlen r <= zlen dst + 8 * zlen data); [|intros dst r; apply (G (length data)); auto].
    induction k as [|k IH]; intros d dst r LE.
    - destruct d; [cbn [encodeAlphanumeric]; intros E; injection E as <-; unfold zlen; cbn; lia|cbn in LE; lia].
    - destruct d as [|a [|b rest]]; cbn [encodeAlphanumeric].
      + intros E; injection E as <-; unfold zlen; cbn; lia.
      + destruct (encodeAlphanumericCharacter a); [|discriminate]. intros E. assert (r = bin_append_uint32 dst z 6) by congruence. subst r. rewrite append_len by lia. rewrite zlen_cons. unfold zlen; cbn; lia.
      + destruct (encodeAlphanumericCharacter a); [|discriminate]. destruct (encodeAlphanumericCharacter b); [|discriminate]. cbn [length] in LE. intros E.
        apply IH in E; [|lia]. rewrite append_len in E by lia. rewrite !zlen_cons. lia.
  Qed.
  Lemma byte_len data : forall dst, zlen (encodeByte data dst) <= zlen dst + 8 * zlen data.
  Proof.
    unfold encodeByte. induction data as [|b l IH]; intros dst; cbn [fold_left]; [unfold zlen; cbn; lia|]. etransitivity; [apply IH|]. unfold bin_append_byte. rewrite zlen_app, zlen_uint_bits, zlen_cons. lia.
  Qed.
  Lemma kanji_len data dst : zlen (encodeKanji data dst) <= zlen dst + 8 * zlen data.
  Proof.
    unfold encodeKanji. assert (0 <= zlen data) by (unfold zlen; lia). destruct (negb _); [lia|]. clear H.
    assert (G : forall k data dst, (length data <= k)%nat -> zlen (encodeKanji_loop data dst) <= zlen dst + 8 * zlen data); [|apply (G (length data)); auto].
    induction k as [|k IH]; intros d dst' LE.
    - destruct d; [cbn [encodeKanji_loop]; unfold zlen; cbn; lia|cbn in LE; lia].
    - destruct d as [|a [|b rest]]; cbn [encodeKanji_loop]; [unfold zlen; cbn; lia|unfold zlen; cbn; lia|].
      cbn [length] in LE. etransitivity; [apply IH; lia|]. rewrite append_len by lia. rewrite !zlen_cons. lia.
  Qed.

  Lemma indicator_len mode i : getEncodeModeIndicator mode = Some i -> zlen i = 4.
  Proof. unfold getEncodeModeIndicator. destruct (_ =? _); [intros E; injection E as <-; reflexivity|]. do 3 (destruct (_ =? _); [intros E; injection E as <-; reflexivity|]). discriminate. Qed.
  Lemma countbits mode v : 0 <= charCountBits mode v <= 16.
  Proof. unfold charCountBits. destruct (_ =? _); [destruct (_ <=? _); [lia|destruct (_ <=? _); lia]|]. do 3 (destruct (mode =? _); [destruct (_ <=? _); [lia|destruct (_ <=? _); lia]|]). lia. Qed.

  Lemma encode_int sjis mode v raw : In v versions -> (mode = EncModeKanji -> zlen (toShiftJIS sjis raw) <= 2 * zlen raw) -> 16 * zlen raw + 200 < B ->
    encodeI int sjis mode v raw = encode sjis mode v raw.
  Proof.
    intros I HK Hb. unfold encodeI, encode. cbv zeta.
    assert (0 <= zlen raw) by (unfold zlen; lia). pose proof (rune_lengths raw). unfold rune_count.
    set (data := if mode =? EncModeKanji then toShiftJIS sjis raw else raw). assert (HD : 0 <= zlen data <= 2 * zlen raw).
    { unfold data. destruct (Z.eqb_spec mode EncModeKanji); [split; [unfold zlen; lia|auto]|lia]. }
    assert (CC : int (if mode =? EncModeKanji then zlen (go_runes raw) else zlen data) = (if mode =? EncModeKanji then zlen (go_runes raw) else zlen data)).
    { destruct (mode =? EncModeKanji); apply small; lia. }
    rewrite CC. clear CC. destruct (getEncodeModeIndicator mode) as [ind|] eqn:EI; [|reflexivity]. apply indicator_len in EI. pose proof (countbits mode (Ver v)) as CB.
    set (cc := if mode =? EncModeKanji then _ else _). assert (DL : zlen (bin_append_uint32 ind cc (charCountBits mode (Ver v))) <= 20) by (rewrite append_len by lia; lia).
    set (dst := bin_append_uint32 ind cc _) in *. clearbody dst data.
    destruct (mode =? EncModeNumeric); [apply breakUp_int; auto; pose proof (numeric_len data dst); lia|].
    destruct (mode =? EncModeAlphanumeric).
    { destruct (encodeAlphanumeric data dst) as [r|] eqn:EA; [|reflexivity]. apply alnum_len in EA. apply breakUp_int; auto; lia. }
    destruct (mode =? EncModeKanji); [apply breakUp_int; auto; pose proof (kanji_len data dst); lia|].
    apply breakUp_int; auto; pose proof (byte_len data dst); lia.
  Qed.

  (* ---- blocks ---- *)
  Definition small_block (b : dataBlock) : Prop := zlen (dbData b) <= 1600 /\ 0 <= dbNumECBlock b <= 100.
  Lemma subset_len b s e r : bin_subset b s e = Some r -> zlen r <= Z.max 0 (e - s) /\ zlen r <= zlen b.
  Proof.
    unfold bin_subset. destruct (_ || _ || _); [discriminate|]. intros E. assert (r = firstn (Z.to_nat (e - s)) (skipn (Z.to_nat s) b)) by congruence. subst r.
    unfold zlen. rewrite firstn_length, skipn_length. lia.
  Qed.
  Lemma split_int plan : forall bset start, Forall (fun '(ndc, ecn) => 0 <= ndc <= 200 /\ 0 <= ecn <= 100) plan -> 0 <= start -> start + 1600 * zlen plan < B ->
    split_blocksI int plan bset start = split_blocks plan bset start /\
    (forall bs, split_blocks plan bset start = Ok bs -> Forall small_block bs /\ zlen bs = zlen plan).
  Proof.
    induction plan as [|[ndc ecn] rest IH]; intros bset start F Hs Hb; cbn [split_blocksI split_blocks].
    - split; [reflexivity|]. intros bs E. injection E as <-. split; [constructor|reflexivity].
    - inversion F as [|? ? P F']; subst. rewrite zlen_cons in *. assert (0 <= zlen rest) by (unfold zlen; lia). cbv zeta. norm.
      destruct (bin_subset bset start (start + ndc * 8)) as [d|] eqn:ES; [|split; [reflexivity|discriminate]]. apply subset_len in ES.
      destruct (IH bset (start + ndc * 8) F') as [I1 I2]; [lia|lia|]. rewrite I1. destruct (split_blocks rest bset (start + ndc * 8)) as [bs| | |]; cbn [bind]; try (split; [reflexivity|discriminate]).
      split; [reflexivity|]. intros bs' E. assert (bs' = mkDataBlock d (start + ndc * 8 - start) ecn :: bs) by congruence. subst bs'. destruct (I2 bs eq_refl) as [A1 A2].
      split; [constructor; [unfold small_block; cbn [dbData dbNumECBlock]; lia|exact A1]|rewrite zlen_cons; lia].
  Qed.
  Lemma cut_int v bset : In v versions -> cut_blocksI int v bset = cut_blocks v bset /\ (forall bs, cut_blocks v bset = Ok bs -> Forall small_block bs /\ zlen bs <= 200).
  Proof.
    intros I. destruct (plan_small v I) as [P1 P2]. unfold cut_blocksI, cut_blocks. rewrite blocks_int by exact I.
    destruct (split_int (block_plan v) bset 0 P2) as [I1 I2]; [lia|lia|]. rewrite I1.
    destruct (split_blocks (block_plan v) bset 0) as [bs| | |]; cbn [bind]; try (split; [reflexivity|discriminate]). split; [reflexivity|].
    destruct (zlen bs =? v_totalNumBlocks v); [|discriminate]. intros bs' E. injection E as <-. destruct (I2 bs eq_refl). split; auto; lia.
  Qed.
  Lemma ecc_int bs : Forall small_block bs -> errorCorrectionEncodingI int bs = errorCorrectionEncoding bs /\
    (forall es, errorCorrectionEncoding bs = Ok es -> Forall (fun e : binary => zlen e <= 2400) es /\ zlen es = zlen bs).
  Proof.
    induction 1 as [|b bs (P1 & P2) F [I1 I2]]; cbn [errorCorrectionEncodingI errorCorrectionEncoding].
    - split; [reflexivity|]. intros es E. injection E as <-. split; [constructor|reflexivity].
    - cbv zeta. assert (L : 0 <= zlen (rs_encode (dbData b) (dbNumECBlock b)) <= 2400).
      { unfold rs_encode. rewrite zlen_app, zlen_bytes_to_bits. pose proof (rs_ecc_length (bits_to_bytes (dbData b)) (Z.to_nat (dbNumECBlock b))). unfold zlen in *. lia. }
      norm. destruct (bin_subset _ _ _) as [e|] eqn:ES; [|split; [reflexivity|discriminate]]. apply subset_len in ES. rewrite I1.
      destruct (errorCorrectionEncoding bs) as [es| | |]; cbn [bind]; try (split; [reflexivity|discriminate]). split; [reflexivity|].
      intros es' E. injection E as <-. destruct (I2 es eq_refl) as [A1 A2]. split; [constructor; [lia|exact A1]|rewrite !zlen_cons; lia].
  Qed.

  Lemma pass_int (bs : list binary) : forall cur ovf dst, Forall (fun b : binary => zlen b <= 2400) bs -> 0 <= cur <= 10000 -> 0 <= ovf -> ovf + zlen bs < B ->
    arrange_passI int bs cur ovf dst = arrange_pass bs cur ovf dst /\ (forall o d, arrange_pass bs cur ovf dst = Ok (o, d) -> 0 <= o <= ovf + zlen bs).
  Proof.
    induction bs as [|b bs IH]; intros cur ovf dst F H1 H2 H3; cbn [arrange_passI arrange_pass].
    - split; [reflexivity|]. intros o d E. injection E as <- <-. unfold zlen; cbn; lia.
    - inversion F as [|? ? P F']; subst. rewrite zlen_cons in *. assert (0 <= zlen bs) by (unfold zlen; lia). assert (0 <= zlen b) by (unfold zlen; lia). cbv zeta. norm.
      destruct (zlen b <=? cur * 8).
      + norm. destruct (IH cur (ovf + 1) dst F') as [I1 I2]; [lia|lia|lia|]. split; [exact I1|]. intros o d E. apply I2 in E. lia.
      + destruct (bin_subset b (cur * 8) (cur * 8 + 8)) as [s|]; [|split; [reflexivity|discriminate]].
        destruct (IH cur ovf (dst ++ s) F') as [I1 I2]; [lia|lia|lia|]. split; [exact I1|]. intros o d E. apply I2 in E. lia.
  Qed.
  Lemma loop_int fuel (bs : list binary) : Forall (fun b : binary => zlen b <= 2400) bs -> zlen bs <= 1000 -> forall cur ovf dst, 0 <= cur -> cur + Z.of_nat fuel <= 10000 -> 0 <= ovf <= 1000 ->
    arrange_loopI int fuel bs cur ovf dst = arrange_loop fuel bs cur ovf dst.
  Proof.
    intros F HL. assert (0 <= zlen bs) by (unfold zlen; lia). induction fuel as [|f IH]; intros cur ovf dst H1 H2 H3; [reflexivity|]. cbn [arrange_loopI arrange_loop].
    destruct (pass_int bs cur ovf dst F) as [P1 P2]; [lia|lia|lia|]. rewrite P1. destruct (arrange_pass bs cur ovf dst) as [[o d]| | |]; try reflexivity. cbn [bind].
    pose proof (P2 o d eq_refl). destruct (Z.leb_spec (zlen bs) o); [reflexivity|]. norm. apply IH; lia.
  Qed.
  Lemma arrange_int (bs : list binary) : Forall (fun b : binary => zlen b <= 2400) bs -> zlen bs <= 1000 -> arrangeI int bs = arrange bs.
  Proof.
    intros F HL. unfold arrangeI, arrange. apply loop_int; auto; try lia.
    assert (G : forall l n, Forall (fun b : binary => zlen b <= 2400) l -> (n <= 2400)%nat -> (fold_left (fun n b => Nat.max n (length b)) l n <= 2400)%nat).
    { induction l as [|b l IH]; intros n Fl Hn; [exact Hn|]. inversion Fl; subst. cbn [fold_left]. apply IH; auto. unfold zlen in *. lia. }
    pose proof (G bs 0%nat F ltac:(lia)). lia.
  Qed.

  (* ---- version ---- *)
  Lemma analyzeVersion_in steps want mode r : analyzeVersion_loop steps want mode = Ok r -> In r versions.
  Proof.
    induction steps as [|s l IH]; [discriminate|]. cbn [analyzeVersion_loop]. destruct (zget versions s) as [v|] eqn:E; [|discriminate].
    cbv zeta. destruct (if mode =? EncModeNumeric then _ else _) as [mark|]; [|discriminate]. destruct (want <=? mark); [|exact IH].
    intros G. injection G as <-. unfold zget in E. destruct (s <? 0); [discriminate E|]. eapply nth_error_In. exact E.
  Qed.
  Lemma caps : forallb (fun v => (capNumeric (Cap v) <=? 8000) && (capAlphaNumeric (Cap v) <=? 8000) && (capByte (Cap v) <=? 8000) && (capJP (Cap v) <=? 8000)) versions = true.
  Proof. vm_compute. reflexivity. Qed.
  Lemma analyzeVersion_cap steps want mode r : analyzeVersion_loop steps want mode = Ok r -> want <= 8000.
  Proof.
    induction steps as [|s l IH]; [discriminate|]. cbn [analyzeVersion_loop]. destruct (zget versions s) as [v|] eqn:E; [|discriminate].
    assert (I : In v versions) by (unfold zget in E; destruct (s <? 0); [discriminate E|]; eapply nth_error_In; exact E).
    pose proof (proj1 (forallb_forall _ _) caps v I) as G. cbv beta in G.
    cbv zeta. destruct (if mode =? EncModeNumeric then _ else _) as [mark|] eqn:M1; [|discriminate]. destruct (Z.leb_spec want mark); [|exact IH].
    intros _. assert (mark <= 8000); [|lia]. destruct (mode =? EncModeNumeric); [injection M1 as <-; lia|]. destruct (mode =? EncModeAlphanumeric); [injection M1 as <-; lia|].
    destruct (mode =? EncModeByte); [injection M1 as <-; lia|]. destruct (mode =? EncModeKanji); [injection M1 as <-; lia|discriminate].
  Qed.

  Lemma calcVersion_int opt mode raw : 0 <= oMinimumVersion opt <= 40 -> zlen raw < B -> calcVersionI int opt mode raw = calcVersion opt mode raw /\
    (forall v, calcVersion opt mode raw = Ok v -> In v versions /\ (oVersion opt = 0 -> zlen raw <= 32000)).
  Proof.
    intros HM Hr. unfold calcVersionI, calcVersion. pose proof (rune_lengths raw) as RL. unfold rune_count in *. assert (0 <= zlen (go_runes raw)) by (unfold zlen; lia).
    destruct ((1 <=? oVersion opt) && (oVersion opt <=? 40) && (ErrorCorrectionLow <=? oEcLevel opt) && (oEcLevel opt <=? ErrorCorrectionHighest)) eqn:E.
    - rewrite (loadVersion_int int B big small) by lia. split; [reflexivity|]. intros v G. split; [eapply loadVersion_in; exact G|lia].
    - rewrite (analyzeVersion_int int B big small) by (unfold rune_count; lia).
      destruct (analyzeVersion raw (oEcLevel opt) mode) as [a| | |] eqn:EA; cbn [bind]; try (split; [reflexivity|discriminate]).
      unfold analyzeVersion in EA. destruct (if oEcLevel opt =? ErrorCorrectionLow then _ else _) as [st|]; [|discriminate EA]. cbv zeta in EA.
      pose proof (analyzeVersion_cap _ _ _ _ EA) as CP. apply analyzeVersion_in in EA. apply versions_range in EA.
      rewrite (loadVersion_int int B big small) by (destruct ((0 <? oMinimumVersion opt) && (Ver a <? oMinimumVersion opt)) eqn:EE; lia). split; [reflexivity|]. intros v G. split; [eapply loadVersion_in; exact G|]. intros _.
      unfold rune_count in CP. destruct (mode =? EncModeByte); lia.
  Qed.

  (* ---- the mask search ---- *)
  Lemma square_xor n m mask : square n m -> square n (xorMask m mask).
  Proof.
    intros HQ. unfold xorMask, m_iter. generalize (iter_coords IterDirection_COLUMN (mwidth mask) (mheight mask)). intros l. revert m HQ.
    induction l as [|[x y] l IH]; intros m HQ; [exact HQ|]. cbn [fold_left]. apply IH. destruct (qrtype _ =? QRType_INIT); [exact HQ|].
    destruct (m_at m x y). apply square_set. exact HQ.
  Qed.
  Lemma square_format n m d bits : square n m -> square n (fillFormatInfo m d bits).
  Proof.
    intros HQ. unfold fillFormatInfo.
    assert (G : forall l m x y, square n m -> square n (fst (fst (fold_left (fun '(m, x, y) (b : bool) =>
      let c := if b then QRValue_FORMAT_V1 else QRValue_FORMAT_V0 in
      let m := m_set m x 8 c in
      let m := m_set m 8 y c in
      let x := x + 1 in
      let y := y - 1 in
      let x := if x =? 6 then 7 else if x =? 8 then d - 8 else x in
      let y := if y =? d - 8 then 8 else if y =? 6 then 5 else y in
      (m, x, y)) l (m, x, y))))).
    { induction l as [|b l IH]; intros m0 x y H0; [exact H0|]. cbn [fold_left]. cbv zeta. apply IH. do 2 apply square_set. exact H0. }
    specialize (G (firstn 15 bits) m 0 (d - 1) HQ). destruct (fold_left _ _ _) as [[a b] c]. exact G.
  Qed.
  Lemma square_version n m d bits : square n m -> square n (fillVersionInfo m d bits).
  Proof.
    intros HQ. unfold fillVersionInfo. generalize (flat_map (fun j => map (fun i => (j, i)) [1; 2; 3]) [5; 4; 3; 2; 1; 0]). intros l. revert m bits HQ.
    induction l as [|[j i] l IH]; intros m bits HQ; [exact HQ|]. cbn [fold_left]. destruct bits as [|b rest]; [apply IH; exact HQ|]. cbv zeta. apply IH. do 2 apply square_set. exact HQ.
  Qed.
  Lemma square_fill_loop n fuel : forall m x y up i bits r, square n m -> fill_loop fuel m x y up i bits = Some r -> square n r.
  Proof.
    induction fuel as [|f IH]; intros m x y up i bits r HQ; destruct bits as [|b rest]; cbn [fill_loop]; intros E;
      try (assert (m = r) by congruence; subst; exact HQ); try discriminate E.
    cbv zeta in E. destruct (m_at m x y) as [st er].
    destruct er as [[ | ]|].
    1: assert (m = r) by congruence; subst; exact HQ.
    all: match type of E with context [if qrtype ?v =? QRType_INIT then (m_set ?mm ?xx ?yy ?c, ?rr) else _] => destruct (qrtype v =? QRType_INIT) end.
    all: destruct up; cbn [negb] in E; try destruct (Z.rem i 2 =? 0); revert E; apply IH; try apply square_set; exact HQ.
  Qed.
  Lemma square_fill n m d bits r : square n m -> fillDataBinary m d bits = Some r -> square n r.
  Proof. intros HQ. unfold fillDataBinary. apply square_fill_loop. exact HQ. Qed.

  Lemma forall_upd {A} (P : A -> Prop) l i a : Forall P l -> P a -> Forall P (upd_nat l i a).
  Proof. intros HF HP. revert i. induction HF as [|x l Hx HF IH]; intros [|i]; cbn [upd_nat]; constructor; auto. Qed.

  Lemma step_int v masks s a n : 1 <= Ver v <= 40 -> n = Ver v * 4 + 17 -> Forall (square n) (gMats s) ->
    stepI int v masks s a = step v masks s a /\ Forall (square n) (gMats (step v masks s a)).
  Proof.
    intros HV -> HF. unfold stepI, step. destruct a as [|i].
    { split; [reflexivity|]. unfold mainstep. destruct (Nat.ltb (gSpawned s) 8); [exact HF|]. destruct (gWg s =? 0); exact HF. }
    destruct (Nat.ltb i (gSpawned s)); [|split; [reflexivity|exact HF]].
    unfold gstepI, gstep. change (v_dimension v) with (Ver v * 4 + 17). rewrite (dimension_int int B big small) by exact HV.
    destruct (nth_error (gPcs s) i) as [pc|]; [|split; [reflexivity|exact HF]].
    destruct (nth_error (gMats s) i) as [m|] eqn:EM; [|split; [reflexivity|exact HF]].
    destruct (nth_error masks i) as [mask|]; [|split; [reflexivity|exact HF]].
    assert (HQ : square (Ver v * 4 + 17) m) by (eapply Forall_forall; [exact HF|eapply nth_error_In; exact EM]).
    destruct pc as [| | | |score| | |].
    - split; [reflexivity|]. unfold set_mat. cbn [gMats]. apply forall_upd; [exact HF|apply square_xor; exact HQ].
    - destruct (v_formatInfo v (Z.of_nat i)) as [b|]; [|split; [reflexivity|exact HF]]. rewrite (fillFormat_int int B big small) by lia.
      split; [reflexivity|]. unfold set_mat. cbn [gMats]. apply forall_upd; [exact HF|apply square_format; exact HQ].
    - destruct (7 <=? Ver v); [|split; [reflexivity|exact HF]]. destruct (v_verInfo v) as [b|]; [|split; [reflexivity|exact HF]]. rewrite (fillVersion_int int B big small) by lia.
      split; [reflexivity|]. unfold set_mat. cbn [gMats]. apply forall_upd; [exact HF|apply square_version; exact HQ].
    - rewrite (evaluation_int int B big small (Ver v * 4 + 17) m HQ) by lia. split; [reflexivity|]. destruct (evaluation m); exact HF.
    - split; [reflexivity|]. destruct (zlen (gChan s) <? 8); exact HF.
    - split; [reflexivity|exact HF].
    - split; [reflexivity|exact HF].
    - split; [reflexivity|exact HF].
  Qed.
  Lemma run_int v masks n sched : 1 <= Ver v <= 40 -> n = Ver v * 4 + 17 -> forall s, Forall (square n) (gMats s) ->
    fold_left (stepI int v masks) sched s = fold_left (step v masks) sched s.
  Proof.
    intros HV HN. induction sched as [|a l IH]; intros s HF; [reflexivity|]. cbn [fold_left].
    destruct (step_int v masks s a n HV HN HF) as [E1 E2]. rewrite E1. apply IH. exact E2.
  Qed.
  Lemma masking_int v data mat sched : 1 <= Ver v <= 40 -> square (Ver v * 4 + 17) mat -> maskingI int v data mat sched = masking v data mat sched.
  Proof.
    intros HV HQ. unfold maskingI, masking, mask_start. cbv zeta. change (v_dimension v) with (Ver v * 4 + 17). rewrite (dimension_int int B big small) by exact HV.
    rewrite (fillData_int int B big small) by lia. destruct (fillDataBinary (m_copy mat) (Ver v * 4 + 17) data) as [cpy|] eqn:E; [|reflexivity].
    rewrite (all_masks_int int B big small _ mat HQ) by lia. destruct (all_masks mat) as [masks|]; [|reflexivity]. cbn [bind].
    f_equal. apply (run_int v masks (Ver v * 4 + 17)); [exact HV|reflexivity|]. unfold ginit. cbn [gMats]. apply Forall_forall. intros m I. apply in_map_iff in I as (? & <- & _).
    apply square_copy. eapply square_fill; [|exact E]. apply square_copy. exact HQ.
  Qed.

  (* ---- init, build ---- *)
  Lemma kanji_bytes sjis opt raw : shift_jis_contract sjis -> chooseMode sjis opt raw = Ok EncModeKanji -> zlen (toShiftJIS sjis raw) <= 2 * zlen raw.
  Proof.
    intros SC CM. pose proof (rune_lengths raw) as RL.
    assert (A : Forall (is_kanji sjis) (go_runes raw) -> zlen (toShiftJIS sjis raw) <= 2 * zlen raw).
    { intros HF. rewrite (toShiftJIS_kanji sjis SC raw HF), flat2_even by reflexivity. lia. }
    unfold chooseMode in CM. destruct (oEncMode opt =? EncModeAuto).
    - destruct (analyze_facts sjis raw) as (md & E & AM). rewrite E in CM. destruct md; try discriminate CM.
      inversion AM as [ | |pre ks ER NE FP FK| ]. destruct pre as [|p0 pre]; [apply A; rewrite ER; exact FK|].
      rewrite (toShiftJIS_mixed sjis SC raw (p0 :: pre) ks ER ltac:(intros X; discriminate X) FP FK). change (zlen (@nil Z)) with 0. unfold zlen. lia.
    - destruct (validateEncodingMode sjis (oEncMode opt) raw) eqn:V; [|discriminate CM]. assert (EM : oEncMode opt = EncModeKanji) by congruence.
      rewrite EM in V. apply A. apply validate_kanji. exact V.
  Qed.

  Lemma init_int sjis opt raw : shift_jis_contract sjis -> 0 <= oMinimumVersion opt <= 40 -> zlen raw < B -> (oVersion opt = 0 \/ 16 * zlen raw + 200 < B) -> initI int sjis opt raw = init sjis opt raw /\
    (forall st, init sjis opt raw = Ok st -> 1 <= Ver (iV st) <= 40 /\ square (Ver (iV st) * 4 + 17) (iMat st)).
  Proof.
    intros SC HM Hr HS. rewrite init_unfold. unfold initI. destruct (chooseMode sjis opt raw) as [mode| | |] eqn:CM; cbn [bind]; try (split; [reflexivity|discriminate]).
    destruct (calcVersion_int opt mode raw HM Hr) as [EV IV]. rewrite EV. destruct (calcVersion opt mode raw) as [v| | |]; cbn [bind]; try (split; [reflexivity|discriminate]).
    destruct (IV v eq_refl) as [I1 I2]. pose proof (versions_range v I1) as VR.
    assert (H16 : 16 * zlen raw + 200 < B) by (destruct HS as [E0|HS]; [specialize (I2 E0); lia|exact HS]).
    unfold finish_init. cbv zeta. destruct (negb (newEncoder_ok mode)); [split; [reflexivity|discriminate]|].
    change (v_dimension v) with (Ver v * 4 + 17). rewrite (dimension_int int B big small) by exact VR.
    assert (EE : encodeI int sjis mode v raw = encode sjis mode v raw).
    { apply (encode_int sjis mode v raw I1); [|exact H16]. intros ->. exact (kanji_bytes sjis opt raw SC CM). }
    rewrite EE. destruct (encode sjis mode v raw) as [b| | |]; cbn [bind]; try (split; [reflexivity|discriminate]).
    destruct (cut_int v b I1) as [EC IC]. rewrite EC. destruct (cut_blocks v b) as [db| | |]; cbn [bind]; try (split; [reflexivity|discriminate]).
    destruct (IC db eq_refl) as [SB LB]. destruct (ecc_int db SB) as [EB IB]. rewrite EB. destruct (errorCorrectionEncoding db) as [eb| | |]; cbn [bind]; try (split; [reflexivity|discriminate]).
    assert (F1 : Forall (fun b : binary => zlen b <= 2400) (map dbData db)).
    { apply Forall_forall. intros d ID. apply in_map_iff in ID as (x & <- & IX). pose proof (proj1 (Forall_forall _ _) SB x IX) as G. unfold small_block in G. lia. }
    rewrite (arrange_int (map dbData db) F1) by (unfold zlen in *; rewrite map_length; lia).
    destruct (arrange (map dbData db)) as [x| | |]; cbn [bind]; try (split; [reflexivity|discriminate]).
    destruct (IB eb eq_refl) as [F2 L2]. rewrite (arrange_int eb F2) by lia. destruct (arrange eb) as [y| | |]; cbn [bind]; try (split; [reflexivity|discriminate]).
    rewrite (prefill_int int B big small) by exact VR. split; [reflexivity|]. intros st E.
    destruct (prefill_facts (Ver v) VR) as (mt & EP & W1 & W2 & W3 & _). unfold side in EP, W2, W3. replace (Ver v * 4 + 17) with (4 * Ver v + 17) in * by lia.
    rewrite EP in E. assert (st = mkInit v mode (bin_append_zeros (x ++ y) (RemainderBits v)) mt) by congruence. subst st. cbn [iV iMat]. split; [exact VR|].
    replace (Ver v * 4 + 17) with (4 * Ver v + 17) by lia. split; auto.
  Qed.

  Lemma build_int sjis raw opt sched : shift_jis_contract sjis -> 0 <= oMinimumVersion opt <= 40 -> zlen raw < B -> (oVersion opt = 0 \/ 16 * zlen raw + 200 < B) ->
    buildI int sjis raw opt sched = build sjis raw opt sched.
  Proof.
    intros SC HM Hr HS. unfold buildI, build. destruct (init_int sjis opt raw SC HM Hr HS) as [E1 E2]. rewrite E1. destruct (init sjis opt raw) as [st| | |]; try reflexivity.
    cbn [bind]. destruct (E2 st eq_refl) as [V Q]. rewrite masking_int by assumption. reflexivity.
  Qed.
End Int.
