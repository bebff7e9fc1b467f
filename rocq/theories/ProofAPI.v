(* The pieces put together: what a successful, failing or panicking NewWith means. *)
From Coq Require Import Lia.
From Verif Require Import ModelBase ModelBinary ModelUtf8 ModelVersion ModelMatrix ModelChardet ModelEncoder ModelRS
  ModelLayout ModelMask ModelEval ModelQRCode.
From Verif Require Import SpecIso SpecReader SpecSegment SpecAPI.
From Verif Require Import ProofBase ProofMatrix ProofSweep ProofLayout ProofSymbol ProofBits ProofTables ProofStream
  ProofEncode ProofMode ProofKanji ProofSegment ProofInit ProofEval ProofMasking ProofVersion ProofBuild.

Lemma byteZ_byte b : is_byte (byteZ b).
Proof. unfold is_byte, byteZ. pose proof (Coq.Strings.Byte.to_N_bounded b). lia. Qed.
Lemma text_bytes_bytes t : Forall is_byte (text_bytes t).
Proof. unfold text_bytes. apply Forall_forall. intros x Hx. apply in_map_iff in Hx as (b & <- & _). apply byteZ_byte. Qed.

Section Sjis.
  Variable sjis : Z -> option (list Z).
  Hypothesis C : shift_jis_contract sjis.

  (* ---- bridges ---- *)
  Lemma Forall_iff {A} (P Q : A -> Prop) l : (forall a, P a <-> Q a) -> Forall P l <-> Forall Q l.
  Proof. intros E. split; apply Forall_impl; intros a; apply E. Qed.

  Lemma text_ok_iff md raw : text_ok sjis md raw <-> encodable sjis md raw.
  Proof.
    unfold encodable. destruct md; cbn [text_ok].
    - rewrite <- runes_digits. apply Forall_iff. intros a. reflexivity.
    - rewrite <- runes_alnum. apply Forall_iff. intros a. apply is_alnum_iff.
    - split; [|constructor]. intros _. apply Forall_forall. intros a _. exact I.
    - apply Forall_iff. intros a. apply is_kanji_iff; auto.
  Qed.
  Lemma char_count_eq md raw : char_count md raw = text_length md raw.
  Proof. destruct md; reflexivity. Qed.
  Lemma mixed_iff raw : mixed sjis raw <-> alnum_then_kanji sjis raw.
  Proof.
    unfold mixed, alnum_then_kanji. split; intros (pre & ks & E & N1 & N2 & A & K); exists pre, ks; repeat (split; auto).
    - eapply Forall_impl; [|exact A]. intros a. apply is_alnum_iff.
    - eapply Forall_impl; [|exact K]. intros a. apply is_kanji_iff; auto.
    - eapply Forall_impl; [|exact A]. intros a. apply is_alnum_iff.
    - eapply Forall_impl; [|exact K]. intros a. apply is_kanji_iff; auto.
  Qed.
  Lemma carries_expected md raw : text_ok sjis md raw -> carries sjis md raw (expected sjis md raw).
  Proof.
    intros HT. destruct md; cbn [carries expected]; auto. exists (map (kcode sjis) (go_runes raw)). split; auto.
    rewrite map_map. apply map_ext_in. intros r Hr. cbn [text_ok] in HT. rewrite Forall_forall in HT.
    destruct (kanji_char_facts sjis C r (HT r Hr)) as (hi & lo & _ & _ & _ & _ & _ & _ & E). auto.
  Qed.

  Lemma not_both r : is_kanji sjis r -> is_alnum r -> False.
  Proof. intros K A. apply (is_kanji_not_alnum sjis r K A). Qed.
  Lemma mixed_not_alnum raw : mixed sjis raw -> ~ Forall is_alnum (go_runes raw).
  Proof.
    intros (pre & ks & E & _ & N & _ & K) HA. rewrite E in HA. apply Forall_app in HA as [_ HA].
    destruct ks as [|k ks]; [congruence|]. inversion HA; inversion K; subst. eapply not_both; eauto.
  Qed.
  Lemma mixed_not_kanji raw : mixed sjis raw -> ~ Forall (is_kanji sjis) (go_runes raw).
  Proof.
    intros (pre & ks & E & N & _ & A & _) HK. rewrite E in HK. apply Forall_app in HK as [HK _].
    destruct pre as [|k pre]; [congruence|]. inversion HK; inversion A; subst. eapply not_both; eauto.
  Qed.

  Lemma digits_alnum rs : Forall is_digit rs -> Forall is_alnum rs.
  Proof. apply Forall_impl. intros a. apply digit_alnum. Qed.

  Lemma text_ok_runes md raw : text_ok sjis md raw <->
    match md with Numeric => Forall is_digit (go_runes raw) | Alphanumeric => Forall is_alnum (go_runes raw)
                | Byte => True | Kanji => Forall (is_kanji sjis) (go_runes raw) end.
  Proof. destruct md; cbn [text_ok]; [rewrite runes_digits|rewrite runes_alnum| |]; reflexivity. Qed.

  Lemma auto_cases raw md : auto_mode sjis (go_runes raw) md ->
    (alnum_then_kanji sjis raw /\ md = Kanji) \/ (~ alnum_then_kanji sjis raw /\ documented_mode sjis raw md).
  Proof.
    intros HA. rewrite <- mixed_iff.
    assert (DOC : text_ok sjis md raw -> (forall md', mode_rank md' < mode_rank md -> ~ text_ok sjis md' raw) -> documented_mode sjis raw md).
    { intros A B. split; [apply text_ok_iff; auto|]. intros md' Hr HE. apply (B md' Hr). apply text_ok_iff; auto. }
    inversion HA as [HD|HD HN|pre ks E NE HP HK|HN HS]; subst.
    - right. split; [intros X; apply (mixed_not_alnum _ X), digits_alnum; auto|]. apply DOC; [apply text_ok_runes; auto|].
      intros md' Hr. destruct md'; cbn in Hr; lia.
    - right. split; [intros X; apply (mixed_not_alnum _ X); auto|]. apply DOC; [apply text_ok_runes; auto|].
      intros md' Hr HT. rewrite text_ok_runes in HT. destruct md'; cbn in Hr; try lia. auto.
    - destruct pre as [|p pre].
      + right. cbn [app] in E. assert (ND : ~ Forall is_alnum (go_runes raw)).
        { rewrite E. intros X. destruct ks as [|k ks]; [congruence|]. inversion X; inversion HK; subst. eapply not_both; eauto. }
        split; [intros X; apply (mixed_not_kanji _ X); rewrite E; auto|]. apply DOC; [apply text_ok_runes; rewrite E; auto|].
        intros md' Hr HT. rewrite text_ok_runes in HT. destruct md'; cbn in Hr; try lia; auto using digits_alnum.
      + left. split; auto. exists (p :: pre), ks. split; auto. split; [discriminate|]. auto.
    - right. split.
      + intros (pre & ks & E & N1 & N2 & A & K). apply (HS pre ks E N2 A K).
      + apply DOC; [exact I|]. intros md' Hr HT. rewrite text_ok_runes in HT. destruct md'; cbn in Hr; try lia; auto using digits_alnum.
        destruct (go_runes raw) as [|r rs] eqn:ER; [apply HN; constructor|]. apply (HS [] (r :: rs)); auto; discriminate.
  Qed.

  (* ---- NewWith on plain texts ---- *)
  Lemma toBytes_plain t : plain t -> toBytes t = Ok (text_bytes t).
  Proof. destruct t; intros []; reflexivity. Qed.
  Lemma newwith_plain t opts sched : plain t -> NewWith sjis t opts sched = build sjis (text_bytes t) (options_of opts) sched.
  Proof. intros HP. unfold NewWith. rewrite toBytes_plain by auto. cbn [bind]. rewrite apply_options_spec. reflexivity. Qed.
  Lemma newwith_named t opts sched : ~ plain t -> NewWith sjis t opts sched = Panic PanicUnreachable.
  Proof. destruct t; intros HP; try (exfalso; apply HP; exact I); reflexivity. Qed.

  Lemma supported_dec opts : supported opts \/ ~ supported opts.
  Proof.
    unfold supported. destruct (Z.eq_dec (eff_mode opts) auto_code); [left; auto|].
    assert (D : (exists md, eff_mode opts = mode_code md) \/ ~ (exists md, eff_mode opts = mode_code md)).
    { destruct (Z.eq_dec (eff_mode opts) (mode_code Numeric)); [left; eauto|].
      destruct (Z.eq_dec (eff_mode opts) (mode_code Alphanumeric)); [left; eauto|].
      destruct (Z.eq_dec (eff_mode opts) (mode_code Byte)); [left; eauto|].
      destruct (Z.eq_dec (eff_mode opts) (mode_code Kanji)); [left; eauto|].
      right. intros [[] X]; auto. }
    destruct D; [left; auto|right; tauto].
  Qed.

  (* unsupported modes *)
  Lemma build_unsupported opts raw sched : ~ supported opts ->
    build sjis raw (options_of opts) sched =
      if eff_version opts =? 0 then Err ErrMissMatchedEncodeType else Panic PanicNewEncoder.
  Proof.
    intros NS.
    assert (NE : forall z, In z [EncModeAuto; EncModeNumeric; EncModeAlphanumeric; EncModeByte; EncModeKanji] -> eff_mode opts =? z = false).
    { intros z Hz. apply Z.eqb_neq. intros E. apply NS. unfold supported. cbn in Hz.
      destruct Hz as [<-|[<-|[<-|[<-|[<-|[]]]]]]; [left; auto|right; exists Numeric|right; exists Alphanumeric|right; exists Byte|right; exists Kanji]; exact E. }
    assert (CM : chooseMode sjis (options_of opts) raw = Ok (eff_mode opts)).
    { unfold chooseMode, options_of. cbn [oEncMode]. rewrite NE by (cbn; auto). 
      unfold validateEncodingMode. rewrite !NE by (cbn; auto 8). reflexivity. }
    destruct (eff_level_range opts) as [l EL].
    unfold build. rewrite init_unfold, CM. cbn [bind].
    destruct (eff_version_range opts) as [E0|HV].
    - rewrite E0. cbn [Z.eqb]. assert (CV : calcVersion (options_of opts) (eff_mode opts) raw = Err ErrMissMatchedEncodeType).
      { unfold calcVersion, options_of. cbn [oVersion oEcLevel oMinimumVersion]. rewrite E0, EL. cbn [andb Z.leb Z.compare].
        unfold analyzeVersion. set (want := if eff_mode opts =? EncModeByte then _ else _). clearbody want.
        assert (G : forall s, 0 <= s < 4 -> analyzeVersion_loop (map (fun k => s + 4 * k) (zseq 0 40)) want (eff_mode opts) = Err ErrMissMatchedEncodeType).
        { intros s Hs. change (zseq 0 40) with (0 :: zseq 1 39). cbn [map analyzeVersion_loop]. rewrite Z.mul_0_r, Z.add_0_r.
          assert (ZG : exists r, zget versions s = Some r).
          { assert (X : s = 0 \/ s = 1 \/ s = 2 \/ s = 3) by lia. destruct X as [->|[->|[->| ->]]]; eexists; reflexivity. }
          destruct ZG as [r ->]. rewrite !NE by (cbn; auto 8). reflexivity. }
        destruct l; cbn [level_code Z.eqb Pos.eqb ErrorCorrectionLow ErrorCorrectionMedium ErrorCorrectionQuart ErrorCorrectionHighest]; rewrite G by lia; reflexivity. }
      rewrite CV. reflexivity.
    - destruct (row_of (eff_version opts) l HV) as (r & HL & HR).
      assert (CV : calcVersion (options_of opts) (eff_mode opts) raw = Ok r).
      { unfold calcVersion, options_of. cbn [oVersion oEcLevel oMinimumVersion].
        assert (VR : (1 <=? eff_version opts) && (eff_version opts <=? 40) = true).
        { unfold valid_version in HV. apply andb_true_iff. split; apply Z.leb_le; lia. }
        rewrite VR, EL. rewrite level_code_const in *. destruct l; exact HL. }
      rewrite CV. cbn [bind]. unfold finish_init, newEncoder_ok. rewrite !NE by (cbn; auto 8). cbn [orb negb bind].
      destruct (Z.eqb_spec (eff_version opts) 0) as [E|_]; [unfold valid_version in HV; lia|reflexivity].
  Qed.

  (* everything about a symbol that was produced *)
  Record made (t : GoText) (opts : list EncodeOption) (q : QRCode) (md : mode) (pl : list bool) (l : level) (v : Z)
     (blocks : list (list Z)) (words : list Z) (k : Z) (cand : Z -> Matrix) (score : Z -> Z) : Prop := {
    md_plain : plain t;
    md_choice : mode_choice sjis opts (text_bytes t) md pl;
    md_level : eff_level opts = level_code l;
    md_valid : valid_version v;
    md_version : (eff_version opts = v) \/
       (eff_version opts = 0 /\ fits v l md (text_length md (text_bytes t)) /\
          exists v0, least_version l md (text_bytes t) v0 /\ v = Z.max v0 (eff_min opts));
    md_fits : 4 + width_of v md + zlen pl <= 8 * data_codewords v l;
    md_mode : qMode q = mode_code md;
    md_row : row_facts v l (qV q);
    md_stream : stream_facts v l (data_bits v l md (text_length md (text_bytes t)) pl) blocks words;
    md_data : qData q = final_stream v words;
    md_k : 0 <= k < 8;
    md_cand : forall j, 0 <= j < 8 -> symbol v l j (final_stream v words) (cand j) /\ evaluation (cand j) = Some (score j);
    md_mat : qMat q = cand k;
    md_min : forall j, 0 <= j < 8 -> score k <= score j
  }.

  Lemma built_made t opts q md pl l v sched :
    plain t -> mode_choice sjis opts (text_bytes t) md pl -> eff_level opts = level_code l -> valid_version v ->
    ((eff_version opts = v) \/ (eff_version opts = 0 /\ fits v l md (text_length md (text_bytes t)) /\ 
          exists v0, least_version l md (text_bytes t) v0 /\ v = Z.max v0 (eff_min opts))) ->
    4 + width_of v md + zlen pl <= 8 * data_codewords v l ->
    built v l md (text_bytes t) pl (build sjis (text_bytes t) (options_of opts)) ->
    build sjis (text_bytes t) (options_of opts) sched = Ok q ->
    exists blocks words k cand score, made t opts q md pl l v blocks words k cand score.
  Proof.
    intros HP HC HL HV HVV HF (r & blocks & words & cand & score & HR & SF & HS & _ & HO) HB.
    destruct (HO sched) as [(_ & k & Hk & E & MIN)|(_ & E)]; rewrite E in HB; [|discriminate]. injection HB as <-.
    exists blocks, words, k, cand, score. constructor; auto; cbn; symmetry; apply mode_code_const.
  Qed.

  Lemma fits_pl md raw pl v l : accepted sjis md raw pl -> fits v l md (text_length md raw) -> 4 + width_of v md + zlen pl <= 8 * data_codewords v l.
  Proof. intros HA HF. pose proof (accepted_length sjis md raw pl HA). unfold fits, needed_bits in HF. lia. Qed.

  Lemma valid_max v opts : valid_version v -> valid_version (Z.max v (eff_min opts)).
  Proof. intros HV. destruct (eff_min_range opts) as [->|?]; unfold valid_version in *; lia. Qed.

  Lemma newwith_made t opts sched q : NewWith sjis t opts sched = Ok q ->
    exists md pl l v blocks words k cand score, made t opts q md pl l v blocks words k cand score.
  Proof.
    intros HN. assert (HP : plain t).
    { destruct t; try exact I; cbn in HN; discriminate. }
    rewrite newwith_plain in HN by auto.
    destruct (supported_dec opts) as [SU|NS].
    2:{ rewrite build_unsupported in HN by auto. destruct (eff_version opts =? 0); discriminate. }
    destruct (build_cases sjis C opts (text_bytes t) SU) as [md E NT B|md pl l MC EL HV TL BU|md pl l MC EL E0 HF B|md pl l v MC EL E0 HV HF HM B].
    - rewrite B in HN. discriminate.
    - destruct (Z.lt_ge_cases (8 * data_codewords (eff_version opts) l) (4 + width_of (eff_version opts) md + zlen pl)) as [LT|GE].
      { rewrite (TL LT) in HN. discriminate. }
      destruct (built_made t opts q md pl l (eff_version opts) sched HP MC EL HV (or_introl eq_refl) GE (BU GE) HN) as (b & w & k & c & s & HM).
      exists md, pl, l, (eff_version opts), b, w, k, c, s. exact HM.
    - rewrite B in HN. discriminate.
    - assert (HFM : fits (Z.max v (eff_min opts)) l md (text_length md (text_bytes t))).
      { apply (fits_mono l md _ v); auto; [apply valid_max; auto|lia|apply text_length_nonneg]. }
      destruct (built_made t opts q md pl l (Z.max v (eff_min opts)) sched HP MC EL (valid_max v opts HV)) as (b & w & k & c & s & HMD); auto.
      + right. split; auto. split; auto. exists v. split; auto. split; auto. unfold text_fits. rewrite char_count_eq. auto.
      + apply (fits_pl md (text_bytes t)); auto. eapply mode_choice_accepted; eauto.
      + exists md, pl, l, (Z.max v (eff_min opts)), b, w, k, c, s. exact HMD.
  Qed.
End Sjis.
