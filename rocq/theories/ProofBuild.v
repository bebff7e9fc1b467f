(* From options and text to the finished symbol. *)
From Coq Require Import Lia.
From Verif Require Import ModelBase ModelBinary ModelUtf8 ModelVersion ModelMatrix ModelChardet ModelEncoder ModelRS
  ModelLayout ModelMask ModelEval ModelQRCode.
From Verif Require Import SpecIso SpecReader SpecSegment SpecAPI.
From Verif Require Import ProofBase ProofMatrix ProofSweep ProofLayout ProofSymbol ProofBits ProofTables ProofStream
  ProofEncode ProofMode ProofKanji ProofSegment ProofInit ProofEval ProofMasking ProofVersion.

(* ---- the mask search on a prefilled matrix ---- *)
Lemma v_dimension_side v : v_dimension v = side (Ver v). Proof. unfold v_dimension, side. lia. Qed.

Lemma all_masks_ok mat : wf mat -> exists masks, all_masks mat = Some masks /\
  forall k, 0 <= k < 8 -> exists mk, newMask mat k = Some mk /\ nth_error masks (Z.to_nat k) = Some mk.
Proof.
  intros Hw. assert (E : forall k, 0 <= k < 8 -> exists mk, newMask mat k = Some mk).
  { intros k Hk. destruct (getModuloFunc_some k Hk) as [fn Hf]. destruct (newMask_facts mat k fn Hw Hf) as (mk & -> & _). eauto. }
  assert (G : forall l, (forall k, In k l -> 0 <= k < 8) -> exists ms,
     fold_right (fun i acc => match newMask mat i, acc with Some m, Some l => Some (m :: l) | _, _ => None end) (Some []) l = Some ms
     /\ Forall2 (fun k mk => newMask mat k = Some mk) l ms).
  { induction l as [|k l IH]; intros HI; cbn [fold_right]; [exists []; auto|].
    destruct (IH (fun j Hj => HI j (or_intror Hj))) as (ms & -> & HF). destruct (E k (HI k (or_introl eq_refl))) as [mk Emk].
    rewrite Emk. exists (mk :: ms). auto. }
  destruct (G (zseq 0 8)) as (ms & EM & HF).
  { intros k Hk. rewrite zseq_upto in Hk. apply in_upto in Hk. lia. }
  exists ms. split; [exact EM|]. intros k Hk.
  assert (N : nth_error (zseq 0 8) (Z.to_nat k) = Some k).
  { assert (K : k = 0 \/ k = 1 \/ k = 2 \/ k = 3 \/ k = 4 \/ k = 5 \/ k = 6 \/ k = 7) by lia.
    destruct K as [->|[->|[->|[->|[->|[->|[->| ->]]]]]]]; reflexivity. }
  clear EM G. revert N HF. generalize (Z.to_nat k) (zseq 0 8). clear. intros n l. revert ms n.
  induction l as [|j l IH]; intros ms [|n] HN HF; try discriminate; inversion HF; subst; cbn in *.
  - injection HN as ->. eauto.
  - eapply IH; eauto.
Qed.

Lemma masking_ok r v l mat stream : row_facts v l r -> valid_version v ->
  prefillMatrix v (newMatrix (side v) (side v)) = Some mat ->
  length stream = length (data_path v) ->
  exists (cand : Z -> Matrix) (score : Z -> Z),
    (forall k, 0 <= k < 8 -> symbol v l k stream (cand k) /\ evaluation (cand k) = Some (score k)) /\
    (forall k, 0 <= k < 8 -> (forall j, 0 <= j < 8 -> score k <= score j) ->
       (exists sched, fair sched /\ masking r stream mat sched = Ok (cand k)) /\
       forall rest m, masking r stream mat (favour (Z.to_nat k) ++ rest) = Ok m -> m = cand k) /\
    forall sched,
      (over (run sched) = true /\ exists k, 0 <= k < 8 /\ masking r stream mat sched = Ok (cand k) /\
          forall j, 0 <= j < 8 -> score k <= score j)
      \/ (over (run sched) = false /\ masking r stream mat sched = Pending).
Proof.
  intros HR Hv Hpre Hlen. pose proof (rf_ver _ _ _ HR) as EV. pose proof (rf_ec _ _ _ HR) as EL.
  destruct (prefill_facts v Hv) as (mat' & E & Hwf & HW & HH & Hcell). rewrite Hpre in E. injection E as <-.
  destruct (fill_facts v mat stream Hv Hwf HW HH Hcell Hlen) as (cpy & Efill & Cwf & CW & CH & _ & _).
  destruct (all_masks_ok mat Hwf) as (masks & EM & HM).
  set (mk := fun i : nat => match nth_error masks i with Some m => m | None => mat end).
  set (fmt := fun i : nat => to_bits (format_word l (Z.of_nat i)) 15).
  set (vi := to_bits (version_word v) 18).
  assert (Hmk : forall i, (i < 8)%nat -> nth_error masks i = Some (mk i) /\ newMask mat (Z.of_nat i) = Some (mk i)).
  { intros i Hi. destruct (HM (Z.of_nat i) ltac:(lia)) as (m & A & B). rewrite Nat2Z.id in B. unfold mk. rewrite B. auto. }
  assert (Hsym : forall i, (i < 8)%nat -> symbol v l (Z.of_nat i) stream (candidate r cpy fmt vi mk i)).
  { intros i Hi. pose proof (candidate_symbol r l (Z.of_nat i) mat cpy (mk i) stream) as CS. rewrite EV in CS.
    specialize (CS Hv ltac:(lia) Hpre Hlen Efill (proj2 (Hmk i Hi))). unfold finish in CS. rewrite EV in CS.
    unfold candidate, after_format, after_xor. rewrite v_dimension_side, EV. exact CS. }
  assert (Hev : forall i, (i < 8)%nat -> exists s, evaluation (candidate r cpy fmt vi mk i) = Some s /\ 0 <= s < MaxInt32).
  { intros i Hi. destruct (Hsym i Hi) as [A B C _ _ _ _ _ _]. apply evaluation_ok; auto; [congruence|]. rewrite B. pose proof (valid_side v Hv). lia. }
  set (score := fun i : nat => match evaluation (candidate r cpy fmt vi mk i) with Some s => s | None => 0 end).
  assert (Hsc : forall i, (i < 8)%nat -> evaluation (candidate r cpy fmt vi mk i) = Some (score i) /\ score i < MaxInt32).
  { intros i Hi. destruct (Hev i Hi) as (s & Es & Hs). unfold score. rewrite Es. split; [auto|lia]. }
  exists (fun k => candidate r cpy fmt vi mk (Z.to_nat k)), (fun k => score (Z.to_nat k)).
  split.
  - intros k Hk. pose proof (Hsym (Z.to_nat k) ltac:(lia)) as A. rewrite Z2Nat.id in A by lia. split; auto. apply Hsc. lia.
  - assert (H0 := fun i (Hi : (i < 8)%nat) => proj1 (Hmk i Hi)).
    assert (H1 : forall i, (i < 8)%nat -> v_formatInfo r (Z.of_nat i) = Some (fmt i)).
    { intros i Hi. unfold fmt. apply formatInfo_facts; auto. lia. }
    assert (H2 : 7 <= Ver r -> v_verInfo r = Some vi).
    { intros H7. rewrite verInfo_facts by (rewrite ?EV in *; auto). rewrite EV. reflexivity. }
    assert (HO := fun sched => search_outcome r masks cpy fmt vi score mk H0 H1 H2 (fun i Hi => proj1 (Hsc i Hi)) sched Cwf (fun i Hi => proj2 (Hsc i Hi))).
    cbv zeta in HO.
    assert (MEQ : forall sched, masking r stream mat sched =
       if gMain (fold_left (step r masks) sched (ginit cpy)) then
         match zget (gMats (fold_left (step r masks) sched (ginit cpy))) (snd (select_mask (gChan (fold_left (step r masks) sched (ginit cpy))))) with
         | Some m => Ok m | None => Panic PanicIndex end
       else Pending).
    { intros sched. destruct (HO sched) as (NP & _).
      unfold masking, mask_start. cbv zeta. rewrite m_copy_id by auto. rewrite v_dimension_side, EV, Efill, EM. cbn [bind]. unfold mask_end. rewrite NP. reflexivity. }
    split.
    + intros k Hk MIN.
      assert (FIRST : forall rest, over (run (favour (Z.to_nat k) ++ rest)) = true -> masking r stream mat (favour (Z.to_nat k) ++ rest) = Ok (candidate r cpy fmt vi mk (Z.to_nat k))).
      { intros rest OV. rewrite MEQ. destruct (HO (favour (Z.to_nat k) ++ rest)) as (_ & MN & OK). rewrite MN.
        rewrite OV. destruct (OK OV) as (k' & Hk' & SE & ZG & _).
        pose proof (favoured r masks cpy fmt vi score mk H0 H1 H2 (fun i Hi => proj1 (Hsc i Hi)) (Z.to_nat k) rest Cwf
          (fun i Hi => proj2 (Hsc i Hi)) ltac:(lia)) as FK.
        assert (KE : k' = Z.to_nat k).
        { apply Nat2Z.inj. rewrite <- SE. apply FK. intros j Hj. specialize (MIN (Z.of_nat j) ltac:(lia)). rewrite Nat2Z.id in MIN. exact MIN. }
        rewrite SE, ZG, KE. reflexivity. }
      split.
      2:{ intros rest m EM2. destruct (over (run (favour (Z.to_nat k) ++ rest))) eqn:OV.
          - rewrite (FIRST rest OV) in EM2. injection EM2 as <-. reflexivity.
          - rewrite MEQ in EM2. destruct (HO (favour (Z.to_nat k) ++ rest)) as (_ & MN & _). rewrite MN, OV in EM2. discriminate EM2. }
      exists (favour (Z.to_nat k) ++ concat (repeat all_actors 57)).
      assert (FA : fair (favour (Z.to_nat k) ++ concat (repeat all_actors 57))).
      { exists ((favour (Z.to_nat k) ++ all_actors) :: repeat all_actors 56), [].
        split; [rewrite app_nil_r; change (repeat all_actors 57) with (all_actors :: repeat all_actors 56); cbn [concat]; rewrite app_assoc; reflexivity|].
        split; [cbn [length]; rewrite repeat_length; reflexivity|].
        constructor; [intros a Ha; apply in_or_app; right; exact Ha|]. apply Forall_forall. intros x Hx. apply repeat_spec in Hx. subst x. intros a Ha. exact Ha. }
      split; [exact FA|]. apply FIRST. apply fair_over. exact FA.
    + intros sched. destruct (HO sched) as (NP & MN & OK).
      rewrite MEQ, MN. destruct (over (run sched)) eqn:EO.
      * left. split; auto. destruct (OK eq_refl) as (k & Hk & SE & ZG & MIN). exists (Z.of_nat k). split; [lia|].
        rewrite SE, ZG, Nat2Z.id. split; auto. intros j Hj. apply MIN. lia.
      * right. auto.
Qed.

(* ---- the rest of init, once the mode and the version row are known ---- *)
Definition finish_init (sjis : Z -> option (list Z)) (mode : Z) (v : version) (raw : list Z) : outcome initState :=
  let mat := newMatrix (v_dimension v) (v_dimension v) in
    if negb (newEncoder_ok mode) then Panic PanicNewEncoder
    else
      let* bset := encode sjis mode v raw in
      let* dataBlocks := cut_blocks v bset in
      let* ecBlocks := errorCorrectionEncoding dataBlocks in
      let* dataBSet := arrange (map dbData dataBlocks) in
      let* ecBSet := arrange ecBlocks in
      let stream := bin_append_zeros (dataBSet ++ ecBSet) (RemainderBits v) in
      match prefillMatrix (Ver v) mat with
      | None => Panic PanicAlign
      | Some mat => Ok (mkInit v mode stream mat)
      end.

Lemma init_unfold sjis opt raw :
  init sjis opt raw = let* mode := chooseMode sjis opt raw in let* v := calcVersion opt mode raw in finish_init sjis mode v raw.
Proof.
  unfold init, prepare, finish_init. cbv zeta. destruct (chooseMode sjis opt raw) as [mode| | |]; try reflexivity. cbn [bind].
  destruct (calcVersion opt mode raw) as [v| | |]; try reflexivity. cbn [bind]. destruct (negb (newEncoder_ok mode)); try reflexivity.
  destruct (encode sjis mode v raw) as [b| | |]; try reflexivity. cbn [bind].
  destruct (cut_blocks v b) as [db| | |]; try reflexivity. cbn [bind].
  destruct (errorCorrectionEncoding db) as [eb| | |]; try reflexivity. cbn [bind].
  destruct (arrange (map dbData db)) as [x| | |]; try reflexivity. cbn [bind].
  destruct (arrange eb) as [y| | |]; reflexivity.
Qed.

Lemma newEncoder_mode md : newEncoder_ok (mode_const md) = true. Proof. destruct md; reflexivity. Qed.

Lemma bytes_to_bits_app a b : bytes_to_bits (a ++ b) = bytes_to_bits a ++ bytes_to_bits b.
Proof. unfold bytes_to_bits. apply flat_map_app. Qed.

Lemma finish_init_ok sjis md r v l raw bs : row_facts v l r -> valid_version v ->
  encode sjis (mode_const md) r raw = Ok bs -> zlen bs = 8 * data_codewords v l ->
  exists blocks words mat, stream_facts v l bs blocks words /\
    prefillMatrix v (newMatrix (side v) (side v)) = Some mat /\
    finish_init sjis (mode_const md) r raw = Ok (mkInit r (mode_const md) (final_stream v words) mat).
Proof.
  intros HR Hv HE HL. destruct (stream_of v l r bs HR HL) as (blocks & words & SF & SB & EB & dw & ew & A1 & A2 & EW).
  destruct (prefill_facts v Hv) as (mat & PM & _). exists blocks, words, mat. split; auto. split; auto.
  unfold finish_init. rewrite newEncoder_mode. cbn [negb]. rewrite HE. cbn [bind]. rewrite SB. cbn [bind]. rewrite EB. cbn [bind].
  rewrite A1. cbn [bind]. rewrite A2. cbn [bind]. rewrite v_dimension_side, (rf_ver _ _ _ HR), PM.
  unfold final_stream. rewrite EW, bytes_to_bits_app. unfold bin_append_zeros. rewrite (rf_rem _ _ _ HR). reflexivity.
Qed.

Section Sjis.
  Variable sjis : Z -> option (list Z).
  Hypothesis C : shift_jis_contract sjis.

  (* the text is encoded with payload pl *)
  Definition encodes (md : mode) (raw : list Z) (pl : list bool) : Prop :=
    forall v l r, row_facts v l r ->
      encode sjis (mode_const md) r raw =
        if 8 * data_codewords v l <? 4 + width_of v md + zlen pl then Err ErrDataTooLong
        else Ok (data_bits v l md (text_length md raw) pl).

  Definition mixed (raw : list Z) : Prop := exists pre ks, go_runes raw = pre ++ ks /\ pre <> [] /\ ks <> [] /\
    Forall is_alnum pre /\ Forall (is_kanji sjis) ks.

  Lemma encodes_normal md raw : text_ok sjis md raw -> encodes md raw (payload_of sjis md raw).
  Proof.
    intros HT v l r HR. rewrite (encode_unfold sjis C md r raw HT). rewrite (rf_ver _ _ _ HR). apply breakUp_row; auto.
  Qed.
  Lemma encodes_mixed raw : mixed raw -> encodes Kanji raw [].
  Proof.
    intros (pre & ks & E & N1 & N2 & A & K) v l r HR. change (mode_const Kanji) with EncModeKanji.
    rewrite (encode_mixed sjis C r raw pre ks) by auto. rewrite (rf_ver _ _ _ HR). apply breakUp_row; auto.
  Qed.

  (* the payload of a text accepted in mode md *)
  Inductive accepted (md : mode) (raw : list Z) : list bool -> Prop :=
  | AcceptedText : text_ok sjis md raw -> accepted md raw (payload_of sjis md raw)
  | AcceptedMixed : md = Kanji -> mixed raw -> accepted md raw [].

  Lemma accepted_encodes md raw pl : accepted md raw pl -> encodes md raw pl.
  Proof. intros [HT| -> HM]; [apply encodes_normal; auto|apply encodes_mixed; auto]. Qed.
  Lemma accepted_length md raw pl : accepted md raw pl -> zlen pl <= payload_length md (text_length md raw).
  Proof.
    intros [HT| -> HM]; [rewrite payload_of_length by auto; lia|].
    pose proof (payload_nonneg Kanji (text_length Kanji raw) (text_length_nonneg Kanji raw)). unfold zlen at 1. cbn [length]. lia.
  Qed.

  (* everything there is to know about a run that gets as far as the mask search *)
  Definition built (v : Z) (l : level) (md : mode) (raw : list Z) (pl : list bool) (go : list actor -> outcome QRCode) : Prop :=
    exists r blocks words (cand : Z -> Matrix) (score : Z -> Z),
      row_facts v l r /\
      stream_facts v l (data_bits v l md (text_length md raw) pl) blocks words /\
      (forall k, 0 <= k < 8 -> symbol v l k (final_stream v words) (cand k) /\ evaluation (cand k) = Some (score k)) /\
      (forall k, 0 <= k < 8 -> (forall j, 0 <= j < 8 -> score k <= score j) ->
         (exists sched, fair sched /\ go sched = Ok (mkQR r (mode_const md) (final_stream v words) (cand k))) /\
         forall rest q, go (favour (Z.to_nat k) ++ rest) = Ok q -> q = mkQR r (mode_const md) (final_stream v words) (cand k)) /\
      forall sched,
        (over (run sched) = true /\ exists k, 0 <= k < 8 /\
            go sched = Ok (mkQR r (mode_const md) (final_stream v words) (cand k)) /\
            forall j, 0 <= j < 8 -> score k <= score j)
        \/ (over (run sched) = false /\ go sched = Pending).

  Lemma build_ok md raw pl r v l opt : row_facts v l r -> valid_version v -> encodes md raw pl ->
    4 + width_of v md + zlen pl <= 8 * data_codewords v l ->
    chooseMode sjis opt raw = Ok (mode_const md) -> calcVersion opt (mode_const md) raw = Ok r ->
    built v l md raw pl (build sjis raw opt).
  Proof.
    intros HR Hv HE HF HC HCV.
    assert (EE : encode sjis (mode_const md) r raw = Ok (data_bits v l md (text_length md raw) pl)).
    { rewrite (HE v l r HR). destruct (Z.ltb_spec (8 * data_codewords v l) (4 + width_of v md + zlen pl)); [lia|reflexivity]. }
    destruct (finish_init_ok sjis md r v l raw _ HR Hv EE (data_bits_length v l md _ pl HF)) as (blocks & words & mat & SF & PM & FI).
    destruct (masking_ok r v l mat (final_stream v words) HR Hv PM (final_stream_length v words Hv (sf_total _ _ _ _ _ SF)))
      as (cand & score & HS & HK & HO).
    exists r, blocks, words, cand, score. split; auto. split; auto. split; auto.
    assert (BE : forall sched, build sjis raw opt sched = let* m := masking r (final_stream v words) mat sched in Ok (mkQR r (mode_const md) (final_stream v words) m)).
    { intros sched. unfold build. rewrite init_unfold, HC. cbn [bind]. rewrite HCV. cbn [bind]. rewrite FI. reflexivity. }
    split.
    { intros k Hk MIN. destruct (HK k Hk MIN) as ((sched & FA & E) & FI1). split; [exists sched; split; [exact FA|]; rewrite BE, E; reflexivity|].
      intros rest q EQ. rewrite BE in EQ. destruct (masking r (final_stream v words) mat (favour (Z.to_nat k) ++ rest)) as [m| | |] eqn:EM; try discriminate EQ.
      cbn [bind] in EQ. injection EQ as <-. rewrite (FI1 rest m EM). reflexivity. }
    intros sched. destruct (HO sched) as [(O & k & Hk & EM & MIN)|(O & EM)]; rewrite BE, EM; cbn [bind].
    - left. split; auto. exists k. auto.
    - right. auto.
  Qed.

  Lemma build_too_long md raw pl r v l opt sched : row_facts v l r -> encodes md raw pl ->
    8 * data_codewords v l < 4 + width_of v md + zlen pl ->
    chooseMode sjis opt raw = Ok (mode_const md) -> calcVersion opt (mode_const md) raw = Ok r ->
    build sjis raw opt sched = Err ErrDataTooLong.
  Proof.
    intros HR HE HF HC HCV. unfold build. rewrite init_unfold, HC. cbn [bind]. rewrite HCV. cbn [bind].
    unfold finish_init. rewrite newEncoder_mode. cbn [negb]. rewrite (HE v l r HR).
    destruct (Z.ltb_spec (8 * data_codewords v l) (4 + width_of v md + zlen pl)); [reflexivity|lia].
  Qed.

  (* ---- the mode ---- *)
  Definition mode_choice (opts : list EncodeOption) (raw : list Z) (md : mode) (pl : list bool) : Prop :=
    (eff_mode opts = mode_code md /\ text_ok sjis md raw /\ pl = payload_of sjis md raw) \/
    (eff_mode opts = auto_code /\ auto_mode sjis (go_runes raw) md /\ accepted md raw pl).

  Lemma mode_choice_accepted opts raw md pl : mode_choice opts raw md pl -> accepted md raw pl.
  Proof. intros [(_ & HT & ->)|(_ & _ & A)]; auto. constructor; auto. Qed.

  Lemma auto_accepted raw md : auto_mode sjis (go_runes raw) md -> exists pl, accepted md raw pl.
  Proof.
    intros HA. inversion HA as [HD|HD HN|pre ks E NE HP HK|HN HS]; subst.
    - exists (payload_of sjis Numeric raw). apply AcceptedText. apply runes_digits; auto.
    - exists (payload_of sjis Alphanumeric raw). apply AcceptedText. apply runes_alnum; auto.
    - destruct pre as [|p pre].
      + exists (payload_of sjis Kanji raw). apply AcceptedText. cbn [text_ok app] in *. rewrite E. auto.
      + exists []. apply AcceptedMixed; auto. exists (p :: pre), ks. split; auto. split; [discriminate|]. auto.
    - exists (payload_of sjis Byte raw). apply AcceptedText. exact I.
  Qed.

  Lemma validate_text_ok md raw : validateEncodingMode sjis (mode_const md) raw = true <-> text_ok sjis md raw.
  Proof.
    destruct md; cbn [text_ok].
    - apply validate_numeric.
    - apply validate_alnum.
    - split; [constructor|]. intros _. apply validate_other; discriminate.
    - apply validate_kanji.
  Qed.

  Definition options_of (opts : list EncodeOption) : encodingOption := mkOption (eff_version opts) (eff_min opts) (eff_mode opts) (eff_level opts).

  Lemma chooseMode_cases opts raw : (eff_mode opts = auto_code \/ exists md, eff_mode opts = mode_code md) ->
    (exists md, eff_mode opts = mode_code md /\ ~ text_ok sjis md raw /\ chooseMode sjis (options_of opts) raw = Err ErrCharNotEncodable) \/
    (exists md pl, mode_choice opts raw md pl /\ chooseMode sjis (options_of opts) raw = Ok (mode_const md)).
  Proof.
    unfold chooseMode, options_of. cbn [oEncMode]. intros [EA|[md EM]].
    - right. destruct (analyze_facts sjis raw) as (md & AE & AM). destruct (auto_accepted raw md AM) as [pl HA].
      exists md, pl. rewrite EA. change (auto_code =? EncModeAuto) with true. cbv iota. split; auto. right. rewrite EA. auto.
    - rewrite EM, mode_code_const. destruct (Z.eqb_spec (mode_const md) EncModeAuto) as [E|_]; [destruct md; discriminate|].
      destruct (validateEncodingMode sjis (mode_const md) raw) eqn:V.
      + right. apply validate_text_ok in V. exists md, (payload_of sjis md raw). split; auto. left. rewrite EM. auto.
      + left. exists md. split; [reflexivity|]. split; auto. intros HT. apply validate_text_ok in HT. congruence.
  Qed.

  (* ---- the outcome of build, for every list of options and every text ---- *)
  Inductive outcome_case (opts : list EncodeOption) (raw : list Z) : Prop :=
  | CaseUnencodable md : eff_mode opts = mode_code md -> ~ text_ok sjis md raw ->
      (forall sched, build sjis raw (options_of opts) sched = Err ErrCharNotEncodable) -> outcome_case opts raw
  | CaseExplicit md pl l : mode_choice opts raw md pl -> eff_level opts = level_code l -> valid_version (eff_version opts) ->
      (8 * data_codewords (eff_version opts) l < 4 + width_of (eff_version opts) md + zlen pl ->
         forall sched, build sjis raw (options_of opts) sched = Err ErrDataTooLong) ->
      (4 + width_of (eff_version opts) md + zlen pl <= 8 * data_codewords (eff_version opts) l ->
         built (eff_version opts) l md raw pl (build sjis raw (options_of opts))) -> outcome_case opts raw
  | CaseTooLong md pl l : mode_choice opts raw md pl -> eff_level opts = level_code l -> eff_version opts = 0 ->
      (forall v, valid_version v -> ~ fits v l md (text_length md raw)) ->
      (forall sched, build sjis raw (options_of opts) sched = Err ErrAnalyzeVersionFailed) -> outcome_case opts raw
  | CaseAuto md pl l v : mode_choice opts raw md pl -> eff_level opts = level_code l -> eff_version opts = 0 ->
      valid_version v -> fits v l md (text_length md raw) ->
      (forall v', valid_version v' -> fits v' l md (text_length md raw) -> v <= v') ->
      built (Z.max v (eff_min opts)) l md raw pl (build sjis raw (options_of opts)) -> outcome_case opts raw.

  Lemma build_cases opts raw : (eff_mode opts = auto_code \/ exists md, eff_mode opts = mode_code md) -> outcome_case opts raw.
  Proof.
    intros HM. destruct (chooseMode_cases opts raw HM) as [(md & EM & NT & CE)|(md & pl & MC & CM)].
    { apply (CaseUnencodable opts raw md); auto. intros sched. unfold build. rewrite init_unfold, CE. reflexivity. }
    pose proof (mode_choice_accepted _ _ _ _ MC) as HA. pose proof (accepted_encodes _ _ _ HA) as HE. pose proof (accepted_length _ _ _ HA) as HLN.
    destruct (eff_level_range opts) as [l EL].
    assert (LR : (ErrorCorrectionLow <=? eff_level opts) && (eff_level opts <=? ErrorCorrectionHighest) = true) by (rewrite EL; destruct l; reflexivity).
    destruct (eff_version_range opts) as [E0|HV].
    - assert (CVE : calcVersion (options_of opts) (mode_const md) raw =
         let* analyzed := analyzeVersion raw (ec_const l) (mode_const md) in
         loadVersion (if (0 <? eff_min opts) && (Ver analyzed <? eff_min opts) then eff_min opts else Ver analyzed) (ec_const l)).
      { unfold calcVersion, options_of. cbn [oVersion oEcLevel oMinimumVersion]. rewrite E0, EL, level_code_const. reflexivity. }
      destruct (analyzeVersion_spec l md raw) as [(v & r & Hv & HR & HL & EA & HF & HMIN)|[EA HN]].
      + rewrite EA in CVE. cbn [bind] in CVE. rewrite (rf_ver _ _ _ HR) in CVE.
        assert (VE : (if (0 <? eff_min opts) && (v <? eff_min opts) then eff_min opts else v) = Z.max v (eff_min opts)).
        { unfold valid_version in *. destruct (Z.ltb_spec 0 (eff_min opts)), (Z.ltb_spec v (eff_min opts)); cbn [andb]; lia. }
        rewrite VE in CVE.
        assert (Hv' : valid_version (Z.max v (eff_min opts))).
        { destruct (eff_min_range opts) as [->|?]; unfold valid_version in *; lia. }
        destruct (row_of (Z.max v (eff_min opts)) l Hv') as (r' & HL' & HR'). rewrite HL' in CVE.
        apply (CaseAuto opts raw md pl l v); auto.
        apply (build_ok md raw pl r' (Z.max v (eff_min opts)) l); auto.
        assert (FM : fits (Z.max v (eff_min opts)) l md (text_length md raw)).
        { apply (fits_mono l md _ v); auto; [lia|apply text_length_nonneg]. }
        unfold fits, needed_bits in FM. lia.
      + rewrite EA in CVE. cbn [bind] in CVE. apply (CaseTooLong opts raw md pl l); auto.
        intros sched. unfold build. rewrite init_unfold, CM. cbn [bind]. rewrite CVE. reflexivity.
    - destruct (row_of (eff_version opts) l HV) as (r & HL & HR).
      assert (CVE : calcVersion (options_of opts) (mode_const md) raw = Ok r).
      { unfold calcVersion, options_of. cbn [oVersion oEcLevel oMinimumVersion]. rewrite <- andb_assoc, LR, andb_true_r.
        assert (VR : (1 <=? eff_version opts) && (eff_version opts <=? 40) = true).
        { unfold valid_version in HV. apply andb_true_iff. split; apply Z.leb_le; lia. }
        rewrite VR, EL, level_code_const. exact HL. }
      apply (CaseExplicit opts raw md pl l); auto.
      + intros TL sched. apply (build_too_long md raw pl r (eff_version opts) l); auto.
      + intros FT. apply (build_ok md raw pl r (eff_version opts) l); auto.
  Qed.
End Sjis.

(* ---- reading a symbol ---- *)
Lemma bits_value_to_bits x n : 0 <= n -> 0 <= x < 2 ^ n -> bits_value (to_bits x n) = x.
Proof.
  intros Hn Hx. pose proof (take_small x n [] Hn Hx) as T. unfold take in T. rewrite app_nil_r in T.
  pose proof (zlen_to_bits x n Hn) as ZL. unfold zlen in ZL. rewrite ZL in T. destruct (Z.ltb_spec n n); [lia|].
  injection T as T _. rewrite firstn_all2 in T by lia. exact T.
Qed.

Section Read.
  Variables (v : Z) (l : level) (k : Z) (stream : list bool) (m : Matrix).
  Hypothesis Hv : valid_version v.
  Hypothesis Hk : 0 <= k < 8.
  Hypothesis S : symbol v l k stream m.

  Lemma bitmap_module x y : 0 <= x < side v -> 0 <= y < side v -> module_at (m_bitmap m) x y = at_ m (x, y).
  Proof. intros Hx Hy. destruct S as [A B D _ _ _ _ _ _]. rewrite module_at_bitmap; auto. unfold in_range. lia. Qed.

  Lemma read_version_ok : read_version (m_bitmap m) = Some v.
  Proof.
    destruct S as [A B D _ _ _ _ _ _]. rewrite bitmap_rows by auto. unfold read_version, rows_of.
    pose proof (valid_side v Hv) as VS. rewrite map_length, upto_length, B, D, Z2Nat.id by lia.
    replace ((side v - 17) / 4) with v by (unfold side; replace (4 * v + 17 - 17) with (v * 4) by lia; rewrite Z.div_mul; lia).
    unfold valid_version in Hv. rewrite Z.eqb_refl. destruct (Z.leb_spec 1 v); [|lia]. destruct (Z.leb_spec v 40); [|lia]. cbn [andb].
    rewrite (proj2 (forallb_forall _ _)); auto. intros row Hrow. apply in_map_iff in Hrow as (y & <- & _).
    rewrite map_length, upto_length. apply Z.eqb_eq. lia.
  Qed.

  Lemma positions_bits : map (fun '(x, y) => module_at (m_bitmap m) x y) format_positions_1 = to_bits (format_word l k) 15 /\
    map (fun '(x, y) => module_at (m_bitmap m) x y) (format_positions_2 v) = to_bits (format_word l k) 15.
  Proof.
    destruct (fmt_positions_facts v Hv) as [_ HP].
    assert (G : forall ps, (forall p, In p ps -> In p (format_positions_1 ++ format_positions_2 v)) ->
       map (fun '(x, y) => module_at (m_bitmap m) x y) ps = map (at_ m) ps).
    { intros ps Hps. apply map_ext_in. intros [x y] Hp. destruct (HP _ (Hps _ Hp)) as (A & B & _). apply bitmap_module; auto. }
    rewrite !G by (intros; apply in_or_app; auto). destruct S. auto.
  Qed.

  Lemma read_format_ok : read_format (m_bitmap m) = Some (l, k).
  Proof.
    unfold read_format. rewrite (proj1 positions_bits).
    assert (SW : forallb (fun '(l, k) => (0 <=? format_word l k) && (format_word l k <? 2 ^ 15) &&
        match find (fun '(l', k') => format_word l' k' =? format_word l k) all_formats with
        | Some (l', k') => (level_code l' =? level_code l) && (k' =? k) | None => false end) all_formats = true) by (vm_compute; reflexivity).
    rewrite forallb_forall in SW. specialize (SW (l, k)). cbv beta iota in SW.
    assert (IN : In (l, k) all_formats).
    { unfold all_formats. apply in_prod; [destruct l; cbn; auto|]. apply in_upto. lia. }
    specialize (SW IN). apply andb_true_iff in SW as [R SW]. apply andb_true_iff in R as [R1 R2]. apply Z.leb_le in R1. apply Z.ltb_lt in R2.
    rewrite bits_value_to_bits by lia. destruct (find _ all_formats) as [[l' k']|]; [|discriminate].
    apply andb_true_iff in SW as [E1 E2]. apply Z.eqb_eq in E1, E2. subst k'. f_equal. f_equal. destruct l', l; try discriminate; reflexivity.
  Qed.

  Lemma read_stream_ok : length stream = length (data_path v) -> read_stream (m_bitmap m) v k = stream.
  Proof.
    intros HL. unfold read_stream.
    assert (E : map (fun '(x, y) => xorb (module_at (m_bitmap m) x y) (mask_condition k y x)) (data_path v)
       = map (fun '(b, p) => xorb b (mask_condition k (snd p) (fst p))) (combine (map (at_ m) (data_path v)) (data_path v))).
    { assert (R : forall p, In p (data_path v) -> 0 <= fst p < side v /\ 0 <= snd p < side v) by (intros [x y] Hp; apply in_data_path_range; auto).
      revert R. generalize (data_path v). intros ps. induction ps as [|[x y] ps IH]; intros R; [reflexivity|]. cbn [map combine].
      f_equal; [|apply IH; intros p Hp; apply R; right; auto]. cbn [fst snd]. rewrite bitmap_module; auto; apply (R (x, y)); left; auto. }
    rewrite E, (sy_data _ _ _ _ _ S). clear E. revert HL. generalize (data_path v). clear. revert stream.
    intros s ps. revert s. induction ps as [|[x y] ps IH]; intros [|b s] HL; try discriminate; [reflexivity|].
    cbn [combine map]. f_equal; [|apply IH; cbn in HL; lia]. cbn [fst snd].
    destruct b, (mask_condition k y x); reflexivity.
  Qed.
End Read.

Lemma read_symbol_ok v l k bs blocks words m : valid_version v -> 0 <= k < 8 ->
  stream_facts v l bs blocks words -> symbol v l k (final_stream v words) m ->
  read_symbol (m_bitmap m) = read_segment v bs.
Proof.
  intros Hv Hk SF S. unfold read_symbol. rewrite (read_version_ok v l k _ m Hv S), (read_format_ok v l k _ m Hv Hk S).
  rewrite (read_stream_ok v l k _ m Hv S) by (apply final_stream_length; auto; apply (sf_total _ _ _ _ _ SF)).
  cbv zeta. rewrite (read_stream_words v l bs blocks words SF). reflexivity.
Qed.
