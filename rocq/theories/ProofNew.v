(* Properties of New/NewWith, from the characterisation in ProofAPI. *)
From Coq Require Import Lia.
From Verif Require Import ModelBase ModelBinary ModelUtf8 ModelVersion ModelMatrix ModelChardet ModelEncoder ModelRS
  ModelLayout ModelMask ModelEval ModelQRCode.
From Verif Require Import SpecIso SpecReader SpecSegment SpecAPI SpecRS.
From Verif Require Import ProofBase ProofMatrix ProofSweep ProofLayout ProofSymbol ProofBits ProofTables ProofStream
  ProofEncode ProofMode ProofKanji ProofSegment ProofInit ProofEval ProofMasking ProofVersion ProofBuild ProofAPI ProofRS.

Section Sjis.
  Variable sjis : Z -> option (list Z).
  Hypothesis C : shift_jis_contract sjis.

  Lemma read_made t opts q md pl l v b w k c s : made sjis t opts q md pl l v b w k c s ->
    text_ok sjis md (text_bytes t) -> pl = payload_of sjis md (text_bytes t) ->
    read_symbol (m_bitmap (qMat q)) = Some (expected sjis md (text_bytes t)).
  Proof.
    intros HM HT ->. rewrite (md_mat _ _ _ _ _ _ _ _ _ _ _ _ _ HM).
    pose proof (md_k _ _ _ _ _ _ _ _ _ _ _ _ _ HM) as HK.
    rewrite (read_symbol_ok v l k (data_bits v l md (text_length md (text_bytes t)) (payload_of sjis md (text_bytes t))) b w (c k)); auto; try apply HM; auto.
    apply (read_data_bits sjis C v l (qV q)); auto; try apply HM; [apply text_bytes_bytes|].
    pose proof (md_fits _ _ _ _ _ _ _ _ _ _ _ _ _ HM) as HF. rewrite payload_of_length in HF by auto.
    unfold fits, needed_bits. lia.
  Qed.

  Lemma choice_text opts raw md pl : mode_choice sjis opts raw md pl ->
    (text_ok sjis md raw /\ pl = payload_of sjis md raw) \/ (md = Kanji /\ eff_mode opts = auto_code /\ mixed sjis raw /\ pl = []).
  Proof.
    intros [(_ & A & B)|(A & _ & B)]; [left; auto|]. inversion B; subst; [left|right]; auto.
  Qed.

  Lemma mode_code_inj a b : mode_code a = mode_code b -> a = b.
  Proof. destruct a, b; cbn; intros; try discriminate; reflexivity. Qed.
  Lemma level_code_inj a b : level_code a = level_code b -> a = b.
  Proof. destruct a, b; cbn; intros; try discriminate; reflexivity. Qed.

  (* C01 *)
  Lemma decode_text t opts sched q md : NewWith sjis t opts sched = Ok q -> qMode q = mode_code md -> md <> Kanji ->
    exists seg, read_symbol (m_bitmap (qMat q)) = Some seg /\ carries sjis md (text_bytes t) seg.
  Proof.
    intros HN HQ NK. destruct (newwith_made sjis C t opts sched q HN) as (md' & pl & l & v & b & w & k & c & s & HM).
    rewrite (md_mode _ _ _ _ _ _ _ _ _ _ _ _ _ HM) in HQ. apply mode_code_inj in HQ. subst md'.
    destruct (choice_text _ _ _ _ (md_choice _ _ _ _ _ _ _ _ _ _ _ _ _ HM)) as [[HT HP]|(E & _)]; [|congruence].
    exists (expected sjis md (text_bytes t)). split; [eapply read_made; eauto|apply carries_expected; auto].
  Qed.

  (* C02 *)
  Lemma decode_kanji t opts sched q : NewWith sjis t opts sched = Ok q -> eff_mode opts = mode_code Kanji ->
    exists codes, read_symbol (m_bitmap (qMat q)) = Some (KanjiSeg codes) /\
       map Some codes = map (double_byte sjis) (go_runes (text_bytes t)).
  Proof.
    intros HN HQ. destruct (newwith_made sjis C t opts sched q HN) as (md' & pl & l & v & b & w & k & c & s & HM).
    pose proof (md_choice _ _ _ _ _ _ _ _ _ _ _ _ _ HM) as HC. destruct HC as [(E & HT & HP)|(E & _)]; [|rewrite E in HQ; discriminate].
    rewrite HQ in E. apply mode_code_inj in E. subst md'.
    pose proof (carries_expected sjis C Kanji (text_bytes t) HT) as (codes & E1 & E2). exists codes. split; auto.
    rewrite <- E1. eapply read_made; eauto.
  Qed.

  (* the automatic mode *)
  Lemma auto_documented t opts sched q : NewWith sjis t opts sched = Ok q -> eff_mode opts = auto_code ->
    ~ alnum_then_kanji sjis (text_bytes t) ->
    exists md, qMode q = mode_code md /\ documented_mode sjis (text_bytes t) md /\
      exists seg, read_symbol (m_bitmap (qMat q)) = Some seg /\ carries sjis md (text_bytes t) seg.
  Proof.
    intros HN HA NM. destruct (newwith_made sjis C t opts sched q HN) as (md & pl & l & v & b & w & k & c & s & HM).
    exists md. split; [apply HM|]. pose proof (md_choice _ _ _ _ _ _ _ _ _ _ _ _ _ HM) as HC.
    destruct HC as [(E & _)|(_ & AM & HAC)]; [rewrite HA in E; destruct md; discriminate|].
    destruct (auto_cases sjis C (text_bytes t) md AM) as [[X _]|[_ D]]; [contradiction|]. split; auto.
    inversion HAC as [HT E|E1 E2 E3]; subst.
    - exists (expected sjis md (text_bytes t)). split; [eapply read_made; eauto|apply carries_expected; auto].
    - exfalso. apply NM, mixed_iff; auto.
  Qed.

  Lemma data_bits_indicator v l md n pl : 4 + width_of v md + zlen pl <= 8 * data_codewords v l ->
    exists rest, data_bits v l md n pl = to_bits (indicator md) 4 ++ rest.
  Proof. intros HF. rewrite data_bits_split by auto. eauto. Qed.

  Lemma read_kanji_header v rest seg : read_segment v (to_bits (indicator Kanji) 4 ++ rest) = Some seg -> exists codes, seg = KanjiSeg codes.
  Proof.
    unfold read_segment. rewrite take_small by (cbn; lia). cbn [indicator]. destruct (count_width 8 v) as [w|]; [|discriminate].
    destruct (take w rest) as [[n bs]|]; [|discriminate]. destruct (read_kanji (Z.to_nat n) bs) as [[t r]|]; [|discriminate].
    destruct (at_end r); [|discriminate]. intros [= <-]. eauto.
  Qed.

  Lemma auto_lost t opts sched q : NewWith sjis t opts sched = Ok q -> eff_mode opts = auto_code ->
    alnum_then_kanji sjis (text_bytes t) ->
    qMode q = mode_code Kanji /\ ~ documented_mode sjis (text_bytes t) Kanji /\
    forall md seg, read_symbol (m_bitmap (qMat q)) = Some seg -> ~ carries sjis md (text_bytes t) seg.
  Proof.
    intros HN HA HX. destruct (newwith_made sjis C t opts sched q HN) as (md & pl & l & v & b & w & k & c & s & HM).
    pose proof (md_choice _ _ _ _ _ _ _ _ _ _ _ _ _ HM) as HC.
    destruct HC as [(E & _)|(_ & AM & HAC)]; [rewrite HA in E; destruct md; discriminate|].
    destruct (auto_cases sjis C (text_bytes t) md AM) as [[_ E]|[X _]]; [|contradiction].
    subst md. split; [apply HM|]. pose proof (proj2 (mixed_iff sjis C (text_bytes t)) HX) as MX. pose proof (mixed_not_kanji sjis _ MX) as NK. split.
    { intros [HE _]. apply text_ok_iff in HE; auto. }
    intros md' seg HR HCA. rewrite (md_mat _ _ _ _ _ _ _ _ _ _ _ _ _ HM) in HR.
    pose proof (md_k _ _ _ _ _ _ _ _ _ _ _ _ _ HM) as HK.
    rewrite (read_symbol_ok v l k (data_bits v l Kanji (text_length Kanji (text_bytes t)) pl) b w (c k)) in HR; auto; try apply HM; auto.
    destruct (data_bits_indicator v l Kanji (text_length Kanji (text_bytes t)) pl (md_fits _ _ _ _ _ _ _ _ _ _ _ _ _ HM)) as [rest ER].
    rewrite ER in HR. apply read_kanji_header in HR as [codes ->].
    destruct md'; cbn [carries] in HCA; try discriminate.
    destruct HCA as (cs & _ & E2). destruct MX as (pre & ks & E & N & _ & A & _). rewrite E in E2. destruct pre as [|p pre]; [congruence|].
    inversion A as [|? ? AP _]; subst. cbn [app map] in E2. destruct cs as [|cc cs]; [discriminate|]. cbn [map] in E2.
    injection E2 as E2 _. unfold double_byte in E2.
    assert (R : 0x20 <= p <= 0x5A).
    { apply is_alnum_iff in AP. unfold alnum_ch, alphanumeric_table in AP. cbn [In] in AP. lia. }
    rewrite (sj_ascii _ C p R) in E2. discriminate.
  Qed.

  (* outcomes *)
  Lemma fair_run sched : fair sched -> over (run sched) = true. Proof. apply fair_over. Qed.

  Lemma built_outcome v l md raw pl go sched : built v l md raw pl go -> (exists q, go sched = Ok q) \/ go sched = Pending.
  Proof. intros (r & b & w & c & s & _ & _ & _ & _ & HO). destruct (HO sched) as [(_ & k & _ & E & _)|(_ & E)]; eauto. Qed.
  Lemma built_fair v l md raw pl go sched : fair sched -> built v l md raw pl go -> exists q, go sched = Ok q.
  Proof.
    intros HF (r & b & w & c & s & _ & _ & _ & _ & HO). destruct (HO sched) as [(_ & k & _ & E & _)|(E & _)]; eauto.
    rewrite (fair_over sched HF) in E. discriminate.
  Qed.

  (* C04 *)
  Lemma no_panic_newwith t opts sched : plain t -> (eff_mode opts = auto_code \/ exists md, eff_mode opts = mode_code md) ->
    forall p, NewWith sjis t opts sched <> Panic p.
  Proof.
    intros HP SU p HN. rewrite newwith_plain in HN by auto.
    destruct (build_cases sjis C opts (text_bytes t) SU) as [md E NT B|md pl l MC EL HV TL BU|md pl l MC EL E0 HF B|md pl l v MC EL E0 HV HF HM B].
    - rewrite B in HN. discriminate.
    - destruct (Z.lt_ge_cases (8 * data_codewords (eff_version opts) l) (4 + width_of (eff_version opts) md + zlen pl)) as [LT|GE].
      { rewrite (TL LT) in HN. discriminate. }
      destruct (built_outcome _ _ _ _ _ _ sched (BU GE)) as [[q E]|E]; rewrite E in HN; discriminate.
    - rewrite B in HN. discriminate.
    - destruct (built_outcome _ _ _ _ _ _ sched B) as [[q E]|E]; rewrite E in HN; discriminate.
  Qed.

  Lemma fits_payload md raw v l : text_ok sjis md raw ->
    (4 + width_of v md + zlen (payload_of sjis md raw) <= 8 * data_codewords v l <-> text_fits v l md raw).
  Proof. intros HT. rewrite payload_of_length by auto. unfold text_fits, fits, needed_bits. rewrite char_count_eq. reflexivity. Qed.

  Lemma fits_40 l md raw : (exists v, valid_version v /\ text_fits v l md raw) <-> text_fits 40 l md raw.
  Proof.
    split; [|intros HF; exists 40; split; auto; unfold valid_version; lia].
    intros (v & HV & HF). unfold text_fits in *. apply (fits_mono l md _ v); auto; unfold valid_version in *; try lia.
    rewrite char_count_eq. apply text_length_nonneg.
  Qed.

  (* C07: the effective mode, outside the defect *)
  Definition effective := effective_mode sjis.

  Lemma effective_choice opts raw md pl md' : ~ (eff_mode opts = auto_code /\ alnum_then_kanji sjis raw) ->
    mode_choice sjis opts raw md pl -> effective opts raw md' -> md = md' /\ text_ok sjis md raw /\ pl = payload_of sjis md raw.
  Proof.
    intros NM HC HE. destruct HC as [(E & HT & HP)|(E & AM & HAC)].
    - destruct HE as [E'|[E' _]]; rewrite E' in E; [apply mode_code_inj in E; subst; auto|destruct md; discriminate].
    - destruct HE as [E'|[E' D']]; [rewrite E' in E; destruct md'; discriminate|].
      destruct (auto_cases sjis C raw md AM) as [[X _]|[_ D]]; [exfalso; auto|].
      assert (EQ : md = md').
      { destruct D as [D1 D2], D' as [D1' D2']. destruct (Z.lt_trichotomy (mode_rank md) (mode_rank md')) as [X|[X|X]].
        - exfalso. apply (D2' md X D1).
        - destruct md, md'; cbn in X; try lia; reflexivity.
        - exfalso. apply (D2 md' X D1'). }
      split; auto. inversion HAC as [HT|? MX]; subst; auto. exfalso. apply NM. split; auto. apply mixed_iff; auto.
  Qed.

  Lemma success_iff t opts sched md l : plain t -> fair sched ->
    ~ (eff_mode opts = auto_code /\ alnum_then_kanji sjis (text_bytes t)) ->
    effective opts (text_bytes t) md -> eff_level opts = level_code l ->
    ((exists q, NewWith sjis t opts sched = Ok q) <->
       encodable sjis md (text_bytes t) /\
       (if eff_version opts =? 0 then text_fits 40 l md (text_bytes t) else text_fits (eff_version opts) l md (text_bytes t)))
    /\ ((exists q, NewWith sjis t opts sched = Ok q) \/ (exists e, NewWith sjis t opts sched = Err e)).
  Proof.
    intros HP HF NM HE EL. rewrite newwith_plain by auto.
    assert (SU : supported opts) by (destruct HE as [E|[E _]]; [right; eauto|left; auto]).
    destruct (build_cases sjis C opts (text_bytes t) SU) as [md' E NT B|md' pl l' MC EL' HV TL BU|md' pl l' MC EL' E0 HN B|md' pl l' v MC EL' E0 HV HFI HM B].
    - assert (md' = md).
      { destruct HE as [E'|[E' _]]; rewrite E' in E; [apply mode_code_inj in E; auto|destruct md'; discriminate]. }
      subst md'. split; [|right; eauto]. split.
      + intros [q X]. rewrite B in X. discriminate.
      + intros [X _]. exfalso. apply NT, text_ok_iff; auto.
    - rewrite EL in EL'. apply level_code_inj in EL'. subst l'.
      destruct (effective_choice _ _ _ _ _ NM MC HE) as (-> & HT & ->).
      assert (N0 : eff_version opts =? 0 = false) by (apply Z.eqb_neq; unfold valid_version in HV; lia). rewrite N0.
      pose proof (fits_payload md (text_bytes t) (eff_version opts) l HT) as FP.
      destruct (Z.lt_ge_cases (8 * data_codewords (eff_version opts) l) (4 + width_of (eff_version opts) md + zlen (payload_of sjis md (text_bytes t)))) as [LT|GE].
      + split; [|right; exists ErrDataTooLong; auto]. split; [intros [q X]; rewrite (TL LT) in X; discriminate|].
        intros [_ X]. apply FP in X. lia.
      + destruct (built_fair _ _ _ _ _ _ sched HF (BU GE)) as [q E]. split; [|left; eauto]. split; [|eauto]. intros _. split; [apply text_ok_iff; auto|].
        apply FP. lia.
    - rewrite EL in EL'. apply level_code_inj in EL'. subst l'.
      destruct (effective_choice _ _ _ _ _ NM MC HE) as (-> & HT & ->). rewrite E0. cbn [Z.eqb].
      split; [|right; eauto]. split; [intros [q X]; rewrite B in X; discriminate|].
      intros [_ X]. exfalso. apply (HN 40); [unfold valid_version; lia|]. unfold text_fits in X. rewrite char_count_eq in X. exact X.
    - rewrite EL in EL'. apply level_code_inj in EL'. subst l'.
      destruct (effective_choice _ _ _ _ _ NM MC HE) as (-> & HT & ->). rewrite E0. cbn [Z.eqb].
      destruct (built_fair _ _ _ _ _ _ sched HF B) as [q E]. split; [|left; eauto]. split; [|eauto]. intros _. split; [apply text_ok_iff; auto|].
      apply fits_40. exists v. split; auto. unfold text_fits. rewrite char_count_eq. exact HFI.
  Qed.

  (* the defect also breaks the capacity check: with an explicit version the text always "fits" *)
  Lemma mixed_always_fits t opts sched : plain t -> fair sched -> eff_mode opts = auto_code ->
    alnum_then_kanji sjis (text_bytes t) -> eff_version opts <> 0 -> exists q, NewWith sjis t opts sched = Ok q.
  Proof.
    intros HP HF HA HX NV. rewrite newwith_plain by auto.
    destruct (build_cases sjis C opts (text_bytes t) (or_introl HA)) as [md' E NT B|md' pl l' MC EL' HV TL BU|md' pl l' MC EL' E0 HN B|md' pl l' v MC EL' E0 HV HFI HM B];
      try contradiction; [rewrite HA in E; destruct md'; discriminate|].
    assert (PL : md' = Kanji /\ pl = []).
    { destruct MC as [(E & _)|(_ & AM & HAC)]; [rewrite HA in E; destruct md'; discriminate|].
      destruct (auto_cases sjis C _ _ AM) as [[_ ->]|[X _]]; [|contradiction]. split; auto.
      inversion HAC as [HT|? MX]; subst; auto. exfalso. apply mixed_iff in HX; auto. apply (mixed_not_kanji sjis _ HX HT). }
    destruct PL as [-> ->]. eapply (built_fair (eff_version opts) l' Kanji (text_bytes t) [] _ sched HF). apply BU.
    destruct (row_of (eff_version opts) l' HV) as (r & _ & HR). pose proof (rf_cap _ _ _ HR Kanji) as RC.
    unfold needed_ok in RC. repeat (apply andb_true_iff in RC as [RC ?]). apply Z.leb_le in RC. unfold needed_bits in RC.
    apply Z.leb_le in H0. pose proof (payload_nonneg Kanji (cap_of Kanji (Cap r)) ltac:(lia)). change (zlen []) with 0. lia.
  Qed.

  Lemma mixed_auto_fits t opts sched l : plain t -> fair sched -> eff_mode opts = auto_code -> eff_level opts = level_code l ->
    alnum_then_kanji sjis (text_bytes t) -> eff_version opts = 0 -> text_fits 40 l Kanji (text_bytes t) ->
    exists q, NewWith sjis t opts sched = Ok q.
  Proof.
    intros HP HF HA EL HX E0 HT. rewrite newwith_plain by auto.
    assert (KA : forall md pl, mode_choice sjis opts (text_bytes t) md pl -> md = Kanji).
    { intros md pl [(E & _)|(_ & AM & HAC)]; [rewrite HA in E; destruct md; discriminate|].
      destruct (auto_cases sjis C _ _ AM) as [[_ ->]|[X _]]; [reflexivity|contradiction]. }
    destruct (build_cases sjis C opts (text_bytes t) (or_introl HA)) as [md' E NT B|md' pl l' MC EL' HV TL BU|md' pl l' MC EL' E0' HN B|md' pl l' v MC EL' E0' HV HFI HM B].
    - rewrite HA in E; destruct md'; discriminate.
    - unfold valid_version in HV. lia.
    - exfalso. rewrite EL in EL'. apply level_code_inj in EL'. subst l'. rewrite (KA _ _ MC) in HN.
      apply (HN 40); [unfold valid_version; lia|]. unfold text_fits in HT. rewrite char_count_eq in HT. exact HT.
    - apply (built_fair (Z.max v (eff_min opts)) l' md' (text_bytes t) pl _ sched HF B).
  Qed.

  Lemma mode_choice_fun opts raw md pl md' pl' : mode_choice sjis opts raw md pl -> mode_choice sjis opts raw md' pl' -> md = md' /\ pl = pl'.
  Proof.
    assert (ACC : forall md pl pl', accepted sjis md raw pl -> accepted sjis md raw pl' -> pl = pl').
    { intros m p p' A A'. inversion A as [T|E MX]; inversion A' as [T'|E' MX']; subst; auto.
      - exfalso. cbn [text_ok] in T. apply (mixed_not_kanji sjis _ MX' T).
      - exfalso. cbn [text_ok] in T'. apply (mixed_not_kanji sjis _ MX T'). }
    intros [(E & T & P)|(E & AM & A)] [(E' & T' & P')|(E' & AM' & A')].
    - rewrite E in E'. apply mode_code_inj in E'. subst. auto.
    - rewrite E in E'. destruct md; discriminate.
    - rewrite E in E'. destruct md'; discriminate.
    - assert (EQ : md = md').
      { destruct (auto_cases sjis C raw md AM) as [[X ->]|[X [D1 D2]]], (auto_cases sjis C raw md' AM') as [[X' ->]|[X' [D1' D2']]]; auto; try contradiction.
        destruct (Z.lt_trichotomy (mode_rank md) (mode_rank md')) as [Y|[Y|Y]].
        - exfalso. apply (D2' md Y D1).
        - destruct md, md'; cbn in Y; try lia; reflexivity.
        - exfalso. apply (D2 md' Y D1'). }
      subst md'. split; auto. eapply ACC; eauto.
  Qed.

  (* C08-C10 *)
  Lemma version_promised t opts sched q : NewWith sjis t opts sched = Ok q ->
    exists md l v, qMode q = mode_code md /\ eff_level opts = level_code l /\ promised_version opts l md (text_bytes t) v /\ valid_version v /\
      Ver (qV q) = v /\ q_dimension q = side v /\ read_version (m_bitmap (qMat q)) = Some v.
  Proof.
    intros HN. destruct (newwith_made sjis C t opts sched q HN) as (md & pl & l & v & b & w & k & c & s & HM).
    exists md, l, v. split; [apply HM|]. split; [apply HM|]. split.
    { pose proof (md_valid _ _ _ _ _ _ _ _ _ _ _ _ _ HM) as HV.
      destruct (md_version _ _ _ _ _ _ _ _ _ _ _ _ _ HM) as [E|(E & _ & v0 & HL & EV)]; [left|right; eauto].
      split; auto. unfold valid_version in HV. lia. }
    split; [apply HM|]. split; [apply (rf_ver _ _ _ (md_row _ _ _ _ _ _ _ _ _ _ _ _ _ HM))|].
    destruct (md_cand _ _ _ _ _ _ _ _ _ _ _ _ _ HM k (md_k _ _ _ _ _ _ _ _ _ _ _ _ _ HM)) as [SY _].
    rewrite <- (md_mat _ _ _ _ _ _ _ _ _ _ _ _ _ HM) in SY. split; [apply (sy_w _ _ _ _ _ SY)|].
    eapply read_version_ok; eauto. apply HM.
  Qed.

  (* C12-C15 *)
  Lemma symbol_of t opts sched q : NewWith sjis t opts sched = Ok q ->
    exists l v k, eff_level opts = level_code l /\ Ver (qV q) = v /\ valid_version v /\ 0 <= k < 8 /\ symbol v l k (qData q) (qMat q)
      /\ length (qData q) = length (data_path v).
  Proof.
    intros HN. destruct (newwith_made sjis C t opts sched q HN) as (md & pl & l & v & b & w & k & c & s & HM).
    exists l, v, k. split; [apply HM|]. split; [apply (rf_ver _ _ _ (md_row _ _ _ _ _ _ _ _ _ _ _ _ _ HM))|]. split; [apply HM|]. split; [apply HM|].
    rewrite (md_data _ _ _ _ _ _ _ _ _ _ _ _ _ HM), (md_mat _ _ _ _ _ _ _ _ _ _ _ _ _ HM).
    split; [apply (md_cand _ _ _ _ _ _ _ _ _ _ _ _ _ HM); apply HM|].
    apply final_stream_length; [apply HM|]. apply (sf_total _ _ _ _ _ (md_stream _ _ _ _ _ _ _ _ _ _ _ _ _ HM)).
  Qed.

  Lemma function_patterns t opts sched q : NewWith sjis t opts sched = Ok q ->
    exists v, read_version (m_bitmap (qMat q)) = Some v /\
      forall x y c, 0 <= x < side v -> 0 <= y < side v -> fixed_colour (region_of v x y) = Some c -> module_at (m_bitmap (qMat q)) x y = c.
  Proof.
    intros HN. destruct (symbol_of t opts sched q HN) as (l & v & k & _ & _ & HV & HK & S & _). exists v. split; [eapply read_version_ok; eauto|].
    intros x y c0 Hx Hy HC. rewrite (bitmap_module v l k (qData q) (qMat q) S) by auto. apply (sy_fixed _ _ _ _ _ S); auto.
  Qed.

  Lemma format_info t opts sched q : NewWith sjis t opts sched = Ok q ->
    exists l v k, eff_level opts = level_code l /\ read_version (m_bitmap (qMat q)) = Some v /\ 0 <= k < 8 /\
      map (fun '(x, y) => module_at (m_bitmap (qMat q)) x y) format_positions_1 = to_bits (format_word l k) 15 /\
      map (fun '(x, y) => module_at (m_bitmap (qMat q)) x y) (format_positions_2 v) = to_bits (format_word l k) 15 /\
      read_stream (m_bitmap (qMat q)) v k = qData q.
  Proof.
    intros HN. destruct (symbol_of t opts sched q HN) as (l & v & k & EL & _ & HV & HK & S & HL). exists l, v, k. split; auto.
    split; [eapply read_version_ok; eauto|]. split; auto.
    destruct (positions_bits v l k (qData q) (qMat q) HV S) as [A B]. split; [auto|]. split; [auto|].
    eapply read_stream_ok; eauto.
  Qed.

  Lemma version_info t opts sched q : NewWith sjis t opts sched = Ok q ->
    exists v, read_version (m_bitmap (qMat q)) = Some v /\
      (7 <= v -> forall j, 0 <= j < 18 ->
         (let '(x, y) := version_position_1 v j in module_at (m_bitmap (qMat q)) x y) = Z.testbit (version_word v) j /\
         (let '(x, y) := version_position_2 v j in module_at (m_bitmap (qMat q)) x y) = Z.testbit (version_word v) j) /\
      (v < 7 -> forall x y, region_of v x y <> VersionArea).
  Proof.
    intros HN. destruct (symbol_of t opts sched q HN) as (l & v & k & EL & _ & HV & HK & S & HL). exists v.
    split; [eapply read_version_ok; eauto|]. split.
    - intros H7 j Hj. destruct (ver_positions_facts v HV H7) as [_ HP].
      assert (I1 : In (version_position_1 v j) (version_positions v)).
      { apply in_flat_map. exists j. split; [apply in_upto; lia|cbn; auto]. }
      assert (I2 : In (version_position_2 v j) (version_positions v)).
      { apply in_flat_map. exists j. split; [apply in_upto; lia|cbn; auto]. }
      destruct (HP _ I1) as (A1 & B1 & _), (HP _ I2) as (A2 & B2 & _). destruct (sy_ver _ _ _ _ _ S H7 j Hj) as [E1 E2].
      destruct (version_position_1 v j) as [x1 y1], (version_position_2 v j) as [x2 y2]. cbn [fst snd] in *.
      rewrite !(bitmap_module v l k (qData q) (qMat q) S) by auto. auto.
    - intros H7 x y. unfold region_of, region_of_with. destruct (nearest x y (finder_centres v) 4) as [d|]; [destruct (d =? 4); discriminate|].
      destruct (nearest x y (align_centres v) 2); [discriminate|]. destruct ((x =? 6) || (y =? 6)); [discriminate|].
      destruct ((x =? 8) && (y =? side v - 8)); [discriminate|]. destruct (in_format_area v x y); [discriminate|].
      unfold in_version_area. destruct (Z.leb_spec 7 v); [lia|]. discriminate.
  Qed.

  (* C15 *)
  Lemma data_modules t opts sched q : NewWith sjis t opts sched = Ok q ->
    exists v k words, read_version (m_bitmap (qMat q)) = Some v /\ 0 <= k < 8 /\
      NoDup (data_path v) /\
      (forall x y, In (x, y) (data_path v) <-> 0 <= x < side v /\ 0 <= y < side v /\ region_of v x y = DataArea) /\
      Z.of_nat (length words) = total_codewords v /\ Forall (fun w => 0 <= w < 256) words /\
      read_stream (m_bitmap (qMat q)) v k = flat_map (fun w => to_bits w 8) words ++ repeat false (Z.to_nat (remainder_bits v)) /\
      Z.of_nat (length (data_path v)) = 8 * total_codewords v + remainder_bits v.
  Proof.
    intros HN. destruct (newwith_made sjis C t opts sched q HN) as (md & pl & l & v & b & w & k & c & s & HM).
    pose proof (md_valid _ _ _ _ _ _ _ _ _ _ _ _ _ HM) as HV. pose proof (md_stream _ _ _ _ _ _ _ _ _ _ _ _ _ HM) as SF.
    destruct (md_cand _ _ _ _ _ _ _ _ _ _ _ _ _ HM k (md_k _ _ _ _ _ _ _ _ _ _ _ _ _ HM)) as [SY _].
    rewrite <- (md_mat _ _ _ _ _ _ _ _ _ _ _ _ _ HM) in SY.
    exists v, k, w. split; [eapply read_version_ok; eauto|]. split; [apply HM|]. split; [apply NoDup_data_path; auto|]. split.
    { intros x y. split.
      - intros HI. destruct (in_data_path_range v x y HV HI). split; auto. split; auto. apply (in_data_path_region v x y HI).
      - intros (A & B & D). apply in_data_path; auto. }
    split; [apply (sf_total _ _ _ _ _ SF)|]. split; [apply (sf_words _ _ _ _ _ SF)|]. split.
    - rewrite (read_stream_ok v l k (final_stream v w) (qMat q)) by (auto; apply final_stream_length; auto; apply (sf_total _ _ _ _ _ SF)).
      reflexivity.
    - rewrite data_path_length by auto. apply raw_modules_split.
  Qed.
End Sjis.
