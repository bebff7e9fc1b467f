(* Symbols produced by NewWith as ISO symbols; the mask search; interleaving; framing; masks. *)
From Coq Require Import Lia.
From Verif Require Import ModelBase ModelBinary ModelUtf8 ModelVersion ModelMatrix ModelChardet ModelEncoder ModelRS
  ModelLayout ModelMask ModelEval ModelQRCode.
From Verif Require Import SpecIso SpecReader SpecSegment SpecAPI SpecRS SpecRecovery SpecSymbol SpecMatrix.
From Verif Require Import ProofBase ProofMatrix ProofWalk ProofSweep ProofLayout ProofSymbol ProofBits ProofTables ProofStream
  ProofEncode ProofMode ProofKanji ProofSegment ProofInit ProofEval ProofMasking ProofVersion ProofBuild ProofAPI ProofRS ProofNew
  ProofRecovery.

Lemma symbol_iso v l k stream m : valid_version v -> 0 <= k < 8 -> length stream = length (data_path v) ->
  symbol v l k stream m -> iso_symbol v l k stream (m_bitmap m).
Proof.
  intros HV HK HL SY. destruct (positions_bits v l k stream m HV SY) as [P1 P2].
  assert (VP : 7 <= v -> forall j, 0 <= j < 18 ->
     module_at (m_bitmap m) (fst (version_position_1 v j)) (snd (version_position_1 v j)) = Z.testbit (version_word v) j /\
     module_at (m_bitmap m) (fst (version_position_2 v j)) (snd (version_position_2 v j)) = Z.testbit (version_word v) j).
  { intros H7 j Hj. destruct (ver_positions_facts v HV H7) as [_ HP].
    assert (I1 : In (version_position_1 v j) (version_positions v)).
    { apply in_flat_map. exists j. split; [apply in_upto; lia|cbn; auto]. }
    assert (I2 : In (version_position_2 v j) (version_positions v)).
    { apply in_flat_map. exists j. split; [apply in_upto; lia|cbn; auto]. }
    destruct (HP _ I1) as (A1 & B1 & _), (HP _ I2) as (A2 & B2 & _). destruct (sy_ver _ _ _ _ _ SY H7 j Hj) as [E1 E2].
    destruct (version_position_1 v j) as [x1 y1], (version_position_2 v j) as [x2 y2]. cbn [fst snd] in *.
    rewrite !(bitmap_module v l k stream m SY) by auto. auto. }
  constructor; auto.
  - eapply read_version_ok; eauto.
  - intros x y c Hx Hy HC. rewrite (bitmap_module v l k stream m SY) by auto. apply (sy_fixed _ _ _ _ _ SY); auto.
  - intros H7 j Hj. apply VP; auto.
  - intros H7 j Hj. apply VP; auto.
  - eapply read_stream_ok; eauto.
Qed.

Section Sjis.
  Variable sjis : Z -> option (list Z).
  Hypothesis C : shift_jis_contract sjis.

  (* C22/C23: the eight candidates do not depend on the schedule, only the choice among them does *)
  Lemma search_built v l md raw pl go : valid_version v -> built v l md raw pl go ->
    exists r stream (cand : Z -> Matrix) (score : Z -> Z),
      (forall j, 0 <= j < 8 -> iso_symbol v l j stream (m_bitmap (cand j)) /\ square (side v) (cand j) /\ evaluation (cand j) = Some (score j)) /\
      (forall k, 0 <= k < 8 -> (forall j, 0 <= j < 8 -> score k <= score j) ->
         (exists sched, fair sched /\ go sched = Ok (mkQR r (mode_code md) stream (cand k))) /\
         forall rest q, go (favour (Z.to_nat k) ++ rest) = Ok q -> q = mkQR r (mode_code md) stream (cand k)) /\
      forall sched q, go sched = Ok q ->
        exists k, 0 <= k < 8 /\ q = mkQR r (mode_code md) stream (cand k) /\ forall j, 0 <= j < 8 -> score k <= score j.
  Proof.
    intros HV (r & b & w & cand & score & HR & SF & HS & HK & HO). exists r, (final_stream v w), cand, score. split; [|split].
    - intros j Hj. destruct (HS j Hj) as [SY E]. split; [|split; auto].
      + apply symbol_iso; auto. apply final_stream_length; auto. apply (sf_total _ _ _ _ _ SF).
      + split; [apply SY|split; apply SY].
    - intros k Hk MIN. rewrite mode_code_const. exact (HK k Hk MIN).
    - intros sched q HQ. destruct (HO sched) as [(_ & k & Hk & E & MIN)|(_ & E)]; rewrite E in HQ; [|discriminate].
      injection HQ as <-. exists k. split; [exact Hk|]. split; [reflexivity|exact MIN].
  Qed.

  Lemma search t opts : (exists sched q, NewWith sjis t opts sched = Ok q) ->
    exists v l md r stream (cand : Z -> Matrix) (score : Z -> Z),
      valid_version v /\ eff_level opts = level_code l /\
      (forall j, 0 <= j < 8 -> iso_symbol v l j stream (m_bitmap (cand j)) /\ square (side v) (cand j) /\ evaluation (cand j) = Some (score j)) /\
      (forall k, 0 <= k < 8 -> (forall j, 0 <= j < 8 -> score k <= score j) ->
         (exists sched, fair sched /\ NewWith sjis t opts sched = Ok (mkQR r (mode_code md) stream (cand k))) /\
         forall rest q, NewWith sjis t opts (favour (Z.to_nat k) ++ rest) = Ok q -> q = mkQR r (mode_code md) stream (cand k)) /\
      forall sched q, NewWith sjis t opts sched = Ok q ->
        exists k, 0 <= k < 8 /\ q = mkQR r (mode_code md) stream (cand k) /\ forall j, 0 <= j < 8 -> score k <= score j.
  Proof.
    intros (sched0 & q0 & HN0).
    assert (HP : plain t) by (destruct t; try exact I; cbn in HN0; discriminate).
    assert (EN : forall s, NewWith sjis t opts s = build sjis (text_bytes t) (options_of opts) s) by (intros; apply newwith_plain; auto).
    rewrite EN in HN0.
    destruct (supported_dec opts) as [SU|NS].
    2:{ rewrite build_unsupported in HN0 by auto. destruct (eff_version opts =? 0); discriminate. }
    assert (FIN : forall v l md pl, valid_version v -> eff_level opts = level_code l -> built v l md (text_bytes t) pl (build sjis (text_bytes t) (options_of opts)) ->
      exists v l md r stream (cand : Z -> Matrix) (score : Z -> Z),
      valid_version v /\ eff_level opts = level_code l /\
      (forall j, 0 <= j < 8 -> iso_symbol v l j stream (m_bitmap (cand j)) /\ square (side v) (cand j) /\ evaluation (cand j) = Some (score j)) /\
      (forall k, 0 <= k < 8 -> (forall j, 0 <= j < 8 -> score k <= score j) ->
         (exists sched, fair sched /\ NewWith sjis t opts sched = Ok (mkQR r (mode_code md) stream (cand k))) /\
         forall rest q, NewWith sjis t opts (favour (Z.to_nat k) ++ rest) = Ok q -> q = mkQR r (mode_code md) stream (cand k)) /\
      forall sched q, NewWith sjis t opts sched = Ok q ->
        exists k, 0 <= k < 8 /\ q = mkQR r (mode_code md) stream (cand k) /\ forall j, 0 <= j < 8 -> score k <= score j).
    { intros v l md pl HV EL HB. destruct (search_built v l md _ _ _ HV HB) as (r & st & cand & score & A & K & B).
      exists v, l, md, r, st, cand, score. split; auto. split; auto. split; auto. split; [|intros s q HQ; rewrite EN in HQ; eauto].
      intros k Hk MIN. destruct (K k Hk MIN) as ((s & FA & E) & FI). split; [exists s; rewrite EN; auto|]. intros rest q EQ. rewrite EN in EQ. exact (FI rest q EQ). }
    destruct (build_cases sjis C opts (text_bytes t) SU) as [md E NT B|md pl l MC EL HV TL BU|md pl l MC EL E0 HF B|md pl l v MC EL E0 HV HF HM B].
    - rewrite B in HN0. discriminate.
    - destruct (Z.lt_ge_cases (8 * data_codewords (eff_version opts) l) (4 + width_of (eff_version opts) md + zlen pl)) as [LT|GE].
      { rewrite (TL LT) in HN0. discriminate. }
      apply (FIN (eff_version opts) l md pl); auto.
    - rewrite B in HN0. discriminate.
    - apply (FIN (Z.max v (eff_min opts)) l md pl); auto. apply valid_max; auto.
  Qed.

  (* C21 *)
  Lemma payload_for_of md text : text_ok sjis md text -> payload_for sjis md text (payload_of sjis md text).
  Proof.
    intros HT. destruct md; cbn [payload_for payload_of]; auto.
    - exists (map alnum_val text). split; auto. rewrite map_map. apply map_ext_in. intros c Hc. cbn [text_ok] in HT.
      rewrite Forall_forall in HT. destruct (HT c Hc) as [x E]. unfold alnum_val. rewrite E.
      destruct (alnum_char_range c x E) as [_ R].
      assert (SW : forallb (fun c => match encodeAlphanumericCharacter c with None => true
         | Some x => match alnum_value c with Some y => x =? y | None => false end end) (upto 128) = true) by (vm_compute; reflexivity).
      rewrite forallb_forall in SW. specialize (SW c). rewrite E in SW. assert (IU : In c (upto 128)) by (apply in_upto; lia). specialize (SW IU).
      destruct (alnum_value c); [|discriminate]. apply Z.eqb_eq in SW. congruence.
    - exists (map (kcode sjis) (go_runes text)). split; auto. rewrite map_map. apply map_ext_in. intros r Hr. cbn [text_ok] in HT.
      rewrite Forall_forall in HT. destruct (kanji_char_facts sjis C r (HT r Hr)) as (hi & lo & _ & _ & _ & _ & _ & _ & E). auto.
  Qed.

  Lemma framing t opts sched q : NewWith sjis t opts sched = Ok q ->
    ~ (eff_mode opts = auto_code /\ alnum_then_kanji sjis (text_bytes t)) ->
    exists md v l k payload, qMode q = mode_code md /\ read_version (m_bitmap (qMat q)) = Some v /\ read_format (m_bitmap (qMat q)) = Some (l, k) /\
      payload_for sjis md (text_bytes t) payload /\
      flat_map (fun w => to_bits w 8) (flat_map fst (read_blocks v l (symbol_words (m_bitmap (qMat q)) v k)))
        = data_bits v l md (char_count md (text_bytes t)) payload /\
      Z.of_nat (length (data_bits v l md (char_count md (text_bytes t)) payload)) = 8 * data_codewords v l.
  Proof.
    intros HN NM. destruct (newwith_made sjis C t opts sched q HN) as (md & pl & l & v & b & w & k & c & s & HM).
    destruct (choice_text _ _ _ _ _ (md_choice _ _ _ _ _ _ _ _ _ _ _ _ _ HM)) as [[HT HP]|(_ & E1 & E2 & _)].
    2:{ exfalso. apply NM. split; auto. apply mixed_iff; auto. }
    destruct (blocks_made _ _ _ _ _ _ _ _ _ _ _ _ _ HM) as (RV & HK & FB & EW & EB).
    destruct (md_cand _ _ _ _ _ _ _ _ _ _ _ _ _ HM k HK) as [SY _]. rewrite <- (md_mat _ _ _ _ _ _ _ _ _ _ _ _ _ HM) in SY.
    pose proof (md_stream _ _ _ _ _ _ _ _ _ _ _ _ _ HM) as SF.
    exists md, v, l, k, pl. split; [apply HM|]. split; auto.
    split; [apply (read_format_ok v l k (final_stream v w)); auto; apply HM|].
    split; [rewrite HP; apply payload_for_of; auto|]. rewrite char_count_eq. split.
    - rewrite EB, (flat_map_concat_map fst), map_map. cbn [fst]. rewrite map_id. rewrite <- (sf_bits _ _ _ _ _ SF).
      unfold bytes_to_bits. apply flat_map_ext. intros x. apply to_bits_8.
    - rewrite <- (sf_bits _ _ _ _ _ SF), bytes_to_bits_length. 
      assert (E : zlen (concat b) = data_codewords v l).
      { unfold data_codewords. rewrite <- (sf_lens _ _ _ _ _ SF). clear. induction b as [|x b IH]; [reflexivity|].
        cbn [concat map fold_right]. rewrite zlen_app, IH. reflexivity. }
      unfold zlen in E. lia.
  Qed.
End Sjis.

(* C20: interleaving of arbitrary blocks whose lengths differ by at most one *)
Lemma interleaving blocks s : 0 <= s -> blocks <> [] -> (forall b, In b blocks -> zlen b = s \/ zlen b = s + 1) ->
  exists w, arrange (map bytes_to_bits blocks) = Ok (bytes_to_bits w) /\
    w = map (fun p => nth (Z.to_nat (snd p)) (nth (Z.to_nat (fst p)) blocks []) 0) (interleave_order (map zlen blocks)) /\
    zlen w = fold_right Z.add 0 (map zlen blocks) /\
    forall b, 0 <= b < zlen blocks -> pick_block b (interleave_order (map zlen blocks)) w = nth (Z.to_nat b) blocks [].
Proof.
  intros Hs NE HB. exists (map (get2 blocks) (interleave_order (map zlen blocks))). split; [|split; [|split]].
  - rewrite (arrange_bytes blocks s), (columns_order blocks s); auto.
  - reflexivity.
  - rewrite zlen_map, interleave_order_length; [reflexivity|]. apply Forall_map, Forall_forall. intros b _. apply zlen_nonneg.
  - intros b Hb. apply deinterleave; auto.
Qed.

(* C24 *)
Lemma wf_ext_eq m1 m2 : wf m1 -> wf m2 -> mwidth m1 = mwidth m2 -> mheight m1 = mheight m2 ->
  (forall x y, in_range m1 x y -> rawget m1 x y = rawget m2 x y) -> m1 = m2.
Proof.
  intros (W1 & H1 & L1 & F1) (W2 & H2 & L2 & F2) EW EH HE. destruct m1 as [g1 w1 h1], m2 as [g2 w2 h2].
  cbn [mmat mwidth mheight] in *. subst w2 h2. f_equal; [|exact EW]. apply list_ext. intros i.
  destruct (Nat.ltb_spec i (length g1)) as [X|X].
  2:{ rewrite !(proj2 (nth_error_None _ _)); auto. unfold zlen in *. lia. }
  assert (X2 : (i < length g2)%nat) by (unfold zlen in *; lia).
  destruct (nth_error g1 i) as [c1|] eqn:E1; [|apply nth_error_None in E1; lia].
  destruct (nth_error g2 i) as [c2|] eqn:E2; [|apply nth_error_None in E2; lia]. f_equal.
  rewrite Forall_forall in F1, F2. pose proof (F1 c1 (nth_error_In _ _ E1)) as LC1. pose proof (F2 c2 (nth_error_In _ _ E2)) as LC2.
  apply list_ext. intros j. destruct (Nat.ltb_spec j (length c1)) as [Y|Y].
  2:{ rewrite !(proj2 (nth_error_None _ _)); auto. unfold zlen in *. lia. }
  assert (Y2 : (j < length c2)%nat) by (unfold zlen in *; lia).
  destruct (nth_error c1 j) as [a1|] eqn:A1; [|apply nth_error_None in A1; lia].
  destruct (nth_error c2 j) as [a2|] eqn:A2; [|apply nth_error_None in A2; lia]. f_equal.
  specialize (HE (Z.of_nat i) (Z.of_nat j)). unfold rawget, in_range in HE. cbn [mmat mwidth mheight] in HE.
  rewrite !zget_nth, !Nat2Z.id, E1, E2, !zget_nth, !Nat2Z.id, A1, A2 in HE by lia. apply HE. unfold zlen in *. lia.
Qed.

Lemma mask_effect pre m k : wf pre -> wf m -> mwidth m = mwidth pre -> mheight m = mheight pre -> 0 <= k < 8 ->
  (forall x y, in_range pre x y -> qrtype (fst (m_at pre x y)) = QRType_INIT -> qrtype (fst (m_at m x y)) = QRType_DATA /\ 0 <= fst (m_at m x y) < 256) ->
  exists mk, newMask pre k = Some mk /\
    mwidth (xorMask m mk) = mwidth m /\ mheight (xorMask m mk) = mheight m /\
    (forall x y, in_range pre x y -> qrtype (fst (m_at pre x y)) = QRType_INIT ->
        qrbool (fst (m_at (xorMask m mk) x y)) = xorb (qrbool (fst (m_at m x y))) (mask_condition k y x)) /\
    (forall x y, in_range pre x y -> qrtype (fst (m_at pre x y)) <> QRType_INIT ->
        fst (m_at (xorMask m mk) x y) = fst (m_at m x y)) /\
    xorMask (xorMask m mk) mk = m.
Proof.
  intros Hp Hm EW EH Hk HD. destruct (getModuloFunc_some k Hk) as [fn Hf].
  destruct (newMask_facts pre k fn Hp Hf) as (mk & E & Mwf & MW & MH & Mg). exists mk. split; auto.
  assert (W1 : mwidth mk = mwidth m) by congruence. assert (H1 : mheight mk = mheight m) by congruence.
  destruct (xorMask_facts m mk Hm Mwf W1 H1) as (Xwf & XW & XH & Xg).
  assert (W2 : mwidth mk = mwidth (xorMask m mk)) by congruence. assert (H2 : mheight mk = mheight (xorMask m mk)) by congruence.
  destruct (xorMask_facts (xorMask m mk) mk Xwf Mwf W2 H2) as (Ywf & YW & YH & Yg).
  assert (RP : forall x y, in_range pre x y -> in_range m x y) by (unfold in_range; rewrite EW, EH; auto).
  assert (RX : forall x y, in_range pre x y -> in_range (xorMask m mk) x y) by (unfold in_range; rewrite XW, XH, EW, EH; auto).
  assert (DV : forall x y, in_range pre x y -> is_init (rawget pre x y) = true -> exists b, rawget m x y = dataval b).
  { intros x y R I. specialize (HD x y R). rewrite (m_at_in pre) in HD by auto. rewrite (m_at_in m) in HD by auto. cbn [fst] in HD.
    unfold is_init in I. apply Z.eqb_eq in I. destruct (HD I) as [T B]. exists (qrbool (rawget m x y)).
    assert (SW : forallb (fun c => negb (qrtype c =? QRType_DATA) || (c =? dataval (qrbool c))) (upto 256) = true) by (vm_compute; reflexivity).
    rewrite forallb_forall in SW. assert (IU : In (rawget m x y) (upto 256)) by (apply in_upto; lia). specialize (SW _ IU).
    rewrite T, Z.eqb_refl in SW. cbn [negb orb] in SW. apply Z.eqb_eq in SW. exact SW. }
  split; auto. split; auto. split; [|split].
  - intros x y R I. rewrite (m_at_in pre) in I by auto. rewrite !m_at_in by auto. cbn [fst] in *.
    assert (I' : is_init (rawget pre x y) = true) by (unfold is_init; apply Z.eqb_eq; auto).
    destruct (DV x y R I') as [b Eb]. rewrite Xg by auto. rewrite (Mg x y R), I'.
    assert (ND : is_init (dataval (fn x y)) = false) by (destruct (fn x y); reflexivity). rewrite ND, Eb, qrxor_dataval, !qrbool_dataval.
    destruct (modulo_spec k x y Hk) as (fn' & E' & Hfn); [apply R|apply R|]. rewrite Hf in E'. injection E' as <-. rewrite Hfn. reflexivity.
  - intros x y R I. rewrite (m_at_in pre) in I by auto. rewrite !m_at_in by auto. cbn [fst] in *.
    assert (I' : is_init (rawget pre x y) = false) by (unfold is_init; apply Z.eqb_neq; auto).
    rewrite Xg by auto. rewrite (Mg x y R), I'. reflexivity.
  - apply wf_ext_eq; auto; try congruence. intros x y R.
    assert (R0 : in_range pre x y) by (unfold in_range in *; rewrite YW, YH, XW, XH, EW, EH in R; auto).
    rewrite Yg by auto. rewrite Xg by auto. rewrite (Mg x y R0). destruct (is_init (rawget pre x y)) eqn:I; [|reflexivity].
    destruct (DV x y R0 I) as [b Eb]. assert (ND : is_init (dataval (fn x y)) = false) by (destruct (fn x y); reflexivity).
    rewrite ND, Eb, !qrxor_dataval. rewrite xorb_assoc, xorb_nilpotent, xorb_false_r. reflexivity.
Qed.
