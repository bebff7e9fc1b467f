(* Theorems about New/NewWith: properties C01-C11. *)
From Coq Require Import Lia Init.Byte.
From Verif Require Import ModelBase ModelUtf8 ModelVersion ModelMatrix ModelQRCode.
From Verif Require Import SpecIso SpecReader SpecSegment SpecAPI.
From Verif Require Import Samples.
From Verif Require Import ProofBase ProofTables ProofEncode ProofMode ProofKanji ProofSegment ProofVersion ProofBuild ProofAPI ProofNew.

(* ------------------------------------------------------------------ C01 *)
Theorem C01_decode_recovers_text :
  forall sjis, shift_jis_contract sjis ->
  forall text opts sched q md,
    NewWith sjis text opts sched = Ok q -> qMode q = mode_code md -> md <> Kanji ->
    read_symbol (m_bitmap (qMat q)) =
      Some (match md with
            | Numeric => NumericSeg (text_bytes text)
            | Alphanumeric => AlphanumericSeg (text_bytes text)
            | _ => ByteSeg (text_bytes text)
            end).
Proof.
  intros sjis C text opts sched q md HN HQ NK.
  destruct (decode_text sjis C text opts sched q md HN HQ NK) as (seg & E & HC). rewrite E.
  destruct md; cbn [carries] in HC; subst; try reflexivity. congruence.
Qed.

(* ------------------------------------------------------------------ C02 *)
Theorem C02_decode_recovers_kanji :
  forall sjis, shift_jis_contract sjis ->
  forall text opts sched q,
    NewWith sjis text opts sched = Ok q -> eff_mode opts = mode_code Kanji ->
    exists codes, read_symbol (m_bitmap (qMat q)) = Some (KanjiSeg codes) /\
      map Some codes = map (double_byte sjis) (go_runes (text_bytes text)).
Proof. exact decode_kanji. Qed.

Lemma kanji_runes sjis : shift_jis_contract sjis -> forall t opts sched q, NewWith sjis t opts sched = Ok q -> eff_mode opts = mode_code Kanji -> Forall (kanji_char sjis) (go_runes (text_bytes t)).
Proof.
  intros C t opts sched q HN HQ. destruct (newwith_made sjis C t opts sched q HN) as (md' & pl & l & v & b & w & k & c & s & HM).
  pose proof (md_choice _ _ _ _ _ _ _ _ _ _ _ _ _ HM) as HC. destruct HC as [(E & HT & HP)|(E & _)]; [|rewrite E in HQ; discriminate].
  rewrite HQ in E. apply mode_code_inj in E. subst md'. apply (text_ok_iff sjis C) in HT. exact HT.
Qed.

(* hence the text itself, when no two kanji have the same Shift-JIS code *)
Theorem C02_kanji_text_determined :
  forall sjis, shift_jis_contract sjis -> (forall r r' c, kanji_char sjis r -> kanji_char sjis r' -> sjis r = Some c -> sjis r' = Some c -> r = r') ->
  forall text text' opts opts' sched sched' q q',
    NewWith sjis text opts sched = Ok q -> eff_mode opts = mode_code Kanji ->
    NewWith sjis text' opts' sched' = Ok q' -> eff_mode opts' = mode_code Kanji ->
    read_symbol (m_bitmap (qMat q)) = read_symbol (m_bitmap (qMat q')) ->
    go_runes (text_bytes text) = go_runes (text_bytes text').
Proof.
  intros sjis C INJ t t' o o' s s' q q' HN HM HN' HM' ER.
  destruct (decode_kanji sjis C t o s q HN HM) as (cs & R & E). destruct (decode_kanji sjis C t' o' s' q' HN' HM') as (cs' & R' & E').
  pose proof (kanji_runes sjis C t o s q HN HM) as K. pose proof (kanji_runes sjis C t' o' s' q' HN' HM') as K'.
  rewrite R, R' in ER. injection ER as <-. clear -E E' INJ C K K'.
  revert cs E E' K K'. generalize (go_runes (text_bytes t')). generalize (go_runes (text_bytes t)).
  induction l as [|a l IH]; intros [|b l'] [|c cs] E E' K K'; try discriminate; auto. cbn [map] in E, E'.
  injection E as Ea E. injection E' as Eb E'. inversion K as [|? ? Ka K2]; subst. inversion K' as [|? ? Kb K2']; subst. f_equal; [|eapply IH; eauto].
  assert (DB : forall x y, double_byte sjis x = Some y -> exists hi lo, sjis x = Some [hi; lo] /\ y = hi * 256 + lo /\ 0 <= lo < 256).
  { intros x y. unfold double_byte. destruct (sjis x) as [[|hi [|lo [|]]]|] eqn:S; try discriminate. intros [= <-]. exists hi, lo.
    pose proof (sj_bytes _ C x _ S) as F. inversion F as [|? ? _ F2]; subst. inversion F2; subst. auto. }
  destruct (DB a c (eq_sym Ea)) as (h1 & l1 & S1 & -> & B1). destruct (DB b _ (eq_sym Eb)) as (h2 & l2 & S2 & EQ & B2).
  apply (INJ a b [h1; l1]); auto. rewrite S2. repeat f_equal; lia.
Qed.

(* ------------------------------------------------------------------ C03 *)
(* The full statement is false (next theorem).  It holds for every text except alphanumeric characters
   followed by kanji; for those texts the symbol is wrong. *)
Theorem C03_automatic_mode_partial :
  forall sjis, shift_jis_contract sjis ->
  forall text opts sched q,
    NewWith sjis text opts sched = Ok q -> eff_mode opts = auto_code ->
    ~ alnum_then_kanji sjis (text_bytes text) ->
    exists md, qMode q = mode_code md /\ documented_mode sjis (text_bytes text) md /\
      exists seg, read_symbol (m_bitmap (qMat q)) = Some seg /\ carries sjis md (text_bytes text) seg.
Proof. exact auto_documented. Qed.

(* every accepted text of alphanumeric characters followed by kanji gives a symbol in a mode that cannot
   represent it and from which no reader obtains the text *)
Theorem C03_automatic_mode_loses_text :
  forall sjis, shift_jis_contract sjis ->
  forall text opts sched q,
    NewWith sjis text opts sched = Ok q -> eff_mode opts = auto_code -> alnum_then_kanji sjis (text_bytes text) ->
    qMode q = mode_code Kanji /\ ~ documented_mode sjis (text_bytes text) Kanji /\
    forall md seg, read_symbol (m_bitmap (qMat q)) = Some seg -> ~ carries sjis md (text_bytes text) seg.
Proof. exact auto_lost. Qed.

Theorem C03_automatic_mode_refuted :
  ~ (forall sjis, shift_jis_contract sjis -> forall text sched q, New sjis text sched = Ok q ->
       exists md, qMode q = mode_code md /\ documented_mode sjis (text_bytes text) md).
Proof.
  intros G.
  destruct (mixed_auto_fits sample_sjis sample_contract one_kanji [] fair_schedule Q) as [q E];
    try reflexivity; [exact fair_schedule_fair|exact one_kanji_mixed|vm_compute; discriminate|].
  destruct (G sample_sjis sample_contract one_kanji fair_schedule q E) as (md & E1 & D).
  destruct (auto_lost sample_sjis sample_contract one_kanji [] fair_schedule q E eq_refl one_kanji_mixed) as (E2 & ND & _).
  rewrite E1 in E2. apply mode_code_inj in E2. subst md. contradiction.
Qed.

(* ------------------------------------------------------------------ C04 *)
Theorem C04_no_panic :
  forall sjis, shift_jis_contract sjis ->
  forall text opts sched, plain text -> supported opts ->
  forall p, NewWith sjis text opts sched <> Panic p.
Proof. exact no_panic_newwith. Qed.

(* under every fair schedule the outcome is a QRCode or an error *)
Theorem C04_result_or_error :
  forall sjis, shift_jis_contract sjis ->
  forall text opts sched, plain text -> supported opts -> fair sched ->
    (exists q, NewWith sjis text opts sched = Ok q) \/ (exists e, NewWith sjis text opts sched = Err e).
Proof.
  intros sjis C t opts sched HP SU HF. rewrite newwith_plain by auto.
  destruct (build_cases sjis C opts (text_bytes t) SU) as [md E NT B|md pl l MC EL HV TL BU|md pl l MC EL E0 HN B|md pl l v MC EL E0 HV HFI HM B].
  - right. eauto.
  - destruct (Z.lt_ge_cases (8 * SpecIso.data_codewords (eff_version opts) l) (4 + width_of (eff_version opts) md + zlen pl)) as [LT|GE].
    + right. eexists. apply TL; auto.
    + left. eapply built_fair; eauto.
  - right. eauto.
  - left. eapply built_fair; eauto.
Qed.

(* ------------------------------------------------------------------ C05 *)
Theorem C05_unsupported_mode_partial :
  forall sjis text opts sched, plain text -> ~ supported opts -> eff_version opts = 0 ->
    NewWith sjis text opts sched = Err ErrMissMatchedEncodeType.
Proof.
  intros sjis t opts sched HP NS E0. rewrite newwith_plain, build_unsupported by auto. rewrite E0. reflexivity.
Qed.

Theorem C05_no_panic_any_mode_refuted :
  forall sjis text v sched, plain text -> valid_version v ->
    NewWith sjis text [WithEncodingMode none_code; WithVersion v] sched = Panic PanicNewEncoder.
Proof.
  intros sjis t v sched HP HV. rewrite newwith_plain by auto.
  assert (EV : eff_version [WithEncodingMode none_code; WithVersion v] = v).
  { unfold eff_version. cbn [flat_map]. unfold valid_version in HV. destruct (Z.leb_spec 1 v), (Z.leb_spec v 40); try lia. reflexivity. }
  rewrite build_unsupported.
  - rewrite EV. unfold valid_version in HV. destruct (Z.eqb_spec v 0); [lia|reflexivity].
  - intros [E|[[] E]]; discriminate E.
Qed.

(* ------------------------------------------------------------------ C06 *)
Theorem C06_defined_types_refuted :
  forall sjis s opts sched,
    NewWith sjis (GoNamedString s) opts sched = Panic PanicUnreachable /\
    NewWith sjis (GoNamedBytes s) opts sched = Panic PanicUnreachable.
Proof. intros. split; apply newwith_named; exact (fun h => h). Qed.

Theorem C06_plain_types_partial :
  forall sjis s opts sched, NewWith sjis (GoString s) opts sched = NewWith sjis (GoBytes s) opts sched.
Proof. reflexivity. Qed.

(* ------------------------------------------------------------------ C07 *)
Theorem C07_succeeds_iff_fits_partial :
  forall sjis, shift_jis_contract sjis ->
  forall text opts sched md l, plain text -> fair sched ->
    ~ misdetected sjis opts (text_bytes text) ->
    effective_mode sjis opts (text_bytes text) md -> eff_level opts = level_code l ->
    ((exists q, NewWith sjis text opts sched = Ok q) <->
       encodable sjis md (text_bytes text) /\
       text_fits (if eff_version opts =? 0 then 40 else eff_version opts) l md (text_bytes text))
    /\ ((exists q, NewWith sjis text opts sched = Ok q) \/ (exists e, NewWith sjis text opts sched = Err e)).
Proof.
  intros sjis C t opts sched md l HP HF NM HE EL. pose proof (success_iff sjis C t opts sched md l HP HF NM HE EL) as S.
  destruct (eff_version opts =? 0); exact S.
Qed.

(* there is always exactly one effective mode, and exactly one level *)
Theorem C07_effective_mode_exists :
  forall sjis, shift_jis_contract sjis ->
  forall text opts, supported opts -> exists md l, effective_mode sjis opts text md /\ eff_level opts = level_code l /\
    forall md', effective_mode sjis opts text md' -> md' = md.
Proof.
  intros sjis C raw opts SU. destruct (eff_level_range opts) as [l EL].
  assert (UN : forall a b, effective_mode sjis opts raw a -> effective_mode sjis opts raw b -> a = b).
  { intros a b [E|[E [D1 D2]]] [E'|[E' [D1' D2']]].
    - rewrite E in E'. apply mode_code_inj; auto.
    - rewrite E in E'. destruct a; discriminate.
    - rewrite E in E'. destruct b; discriminate.
    - destruct (Z.lt_trichotomy (mode_rank a) (mode_rank b)) as [X|[X|X]].
      + exfalso. apply (D2' a X D1).
      + destruct a, b; cbn in X; try lia; reflexivity.
      + exfalso. apply (D2 b X D1'). }
  destruct SU as [EA|[md EM]].
  2:{ exists md, l. split; [left; auto|]. split; auto. intros md' HE. apply UN; auto. left; auto. }
  assert (DEC : forall md, encodable sjis md raw \/ ~ encodable sjis md raw).
  { intros md. assert (D : forall b : bool, (b = true <-> encodable sjis md raw) -> encodable sjis md raw \/ ~ encodable sjis md raw).
    { intros [] HB; [left; apply HB; auto|right; intros X; apply HB in X; discriminate]. }
    apply (D (ModelChardet.validateEncodingMode sjis (mode_const md) raw)). rewrite <- text_ok_iff by auto. apply validate_text_ok. }
  assert (EX : exists md, documented_mode sjis raw md).
  { destruct (DEC Numeric) as [?|N1]; [exists Numeric; split; auto; intros []; cbn; lia|].
    destruct (DEC Alphanumeric) as [?|N2]; [exists Alphanumeric; split; auto; intros []; cbn; intros; try lia; auto|].
    destruct (DEC Kanji) as [?|N3]; [exists Kanji; split; auto; intros []; cbn; intros; try lia; auto|].
    exists Byte. split; [apply Forall_forall; intros ? _; exact I|]. intros []; cbn; intros; try lia; auto. }
  destruct EX as [md D]. exists md, l. split; [right; auto|]. split; auto. intros md' HE. apply UN; auto. right; auto.
Qed.

(* the full statement is false: misdetected texts of any length are accepted with an explicit version *)
Theorem C07_too_long_text_accepted :
  forall sjis, shift_jis_contract sjis ->
  forall text opts sched, plain text -> fair sched -> misdetected sjis opts (text_bytes text) -> eff_version opts <> 0 ->
    exists q, NewWith sjis text opts sched = Ok q.
Proof. intros sjis C t opts sched HP HF [A B]. apply mixed_always_fits; auto. Qed.

Definition kanjis (n : nat) : list byte := concat (repeat [xe7; x82; xb9] n).
Lemma runes_kanjis n : go_runes (map byteZ (x31 :: kanjis n)) = 49 :: repeat 0x70B9 n.
Proof.
  assert (G : go_runes (map byteZ (kanjis n)) = repeat 0x70B9 n).
  { induction n as [|n IH]; [reflexivity|]. unfold kanjis in *. cbn [repeat concat]. rewrite map_app.
    change (map byteZ [xe7; x82; xb9]) with [0xe7; 0x82; 0xb9]. cbn [app repeat]. rewrite <- IH. reflexivity. }
  rewrite <- G. reflexivity.
Qed.
Theorem C07_refuted :
  ~ (forall sjis, shift_jis_contract sjis -> forall text opts sched md l, plain text -> fair sched ->
       effective_mode sjis opts (text_bytes text) md -> eff_level opts = level_code l -> eff_version opts <> 0 ->
       (exists q, NewWith sjis text opts sched = Ok q) -> text_fits (eff_version opts) l md (text_bytes text)).
Proof.
  intros G. set (t := GoString (x31 :: kanjis 100)).
  assert (ER : go_runes (text_bytes t) = 49 :: repeat 0x70B9 100) by apply runes_kanjis.
  assert (KC : kanji_char sample_sjis 0x70B9).
  { split; [left; lia|]. exists 0x935F. split; [reflexivity|lia]. }
  assert (MX : alnum_then_kanji sample_sjis (text_bytes t)).
  { exists [49], (repeat 0x70B9 100). rewrite ER. split; [reflexivity|]. split; [discriminate|]. split; [discriminate|]. split.
    - apply Forall_cons; [apply alnum_dec; reflexivity|apply Forall_nil].
    - apply Forall_forall. intros x Hx. apply repeat_spec in Hx. subst x. exact KC. }
  assert (NA : ~ alnum_ch 0x70B9) by (unfold alnum_ch, alphanumeric_table; cbn [In]; intuition lia).
  assert (EM : effective_mode sample_sjis [WithVersion 1] (text_bytes t) Byte).
  { right. split; [reflexivity|]. split; [apply Forall_forall; intros ? _; exact I|]. unfold encodable. rewrite ER.
    intros md HR HE. cbn [repeat] in HE. inversion HE as [|? ? H1 HE2]; subst. inversion HE2 as [|? ? H2 _]; subst.
    destruct md; cbn [representable] in *; [unfold digit_ch in H2; lia|contradiction|cbn in HR; lia|].
    destruct H1 as [X _]. unfold cjk in X. lia. }
  destruct (C07_too_long_text_accepted sample_sjis sample_contract t [WithVersion 1] fair_schedule I fair_schedule_fair (conj eq_refl MX)) as [q E]; [discriminate|].
  specialize (G sample_sjis sample_contract t [WithVersion 1] fair_schedule Byte Q I fair_schedule_fair EM eq_refl ltac:(discriminate) (ex_intro _ q E)).
  revert G. vm_compute. intros G. apply G. reflexivity.
Qed.

(* ------------------------------------------------------------------ C08, C09, C10 *)
Theorem C08_automatic_version_is_least :
  forall sjis, shift_jis_contract sjis ->
  forall text opts sched q, NewWith sjis text opts sched = Ok q -> eff_version opts = 0 -> eff_min opts = 0 ->
    exists md l v, qMode q = mode_code md /\ eff_level opts = level_code l /\
      read_version (m_bitmap (qMat q)) = Some v /\ least_version l md (text_bytes text) v.
Proof.
  intros sjis C t opts sched q HN E0 EM. destruct (version_promised sjis C t opts sched q HN) as (md & l & v & A & B & PV & HV & _ & _ & R).
  exists md, l, v. split; auto. split; auto. split; auto.
  destruct PV as [[N _]|(_ & v0 & LV & ->)]; [congruence|]. rewrite EM in *. destruct LV as [LV1 LV2]. unfold valid_version in LV1.
  rewrite Z.max_l by lia. split; auto.
Qed.

Theorem C09_requested_version_honoured :
  forall sjis, shift_jis_contract sjis ->
  forall text opts sched q, NewWith sjis text opts sched = Ok q -> eff_version opts <> 0 ->
    read_version (m_bitmap (qMat q)) = Some (eff_version opts) /\ q_dimension q = 4 * eff_version opts + 17 /\
    Z.of_nat (length (m_bitmap (qMat q))) = 4 * eff_version opts + 17 /\
    forall row, In row (m_bitmap (qMat q)) -> Z.of_nat (length row) = 4 * eff_version opts + 17.
Proof.
  intros sjis C t opts sched q HN NV. destruct (version_promised sjis C t opts sched q HN) as (md & l & v & A & B & PV & HV & _ & D & R).
  destruct PV as [[_ E]|(E & _)]; [|congruence]. subst v. split; auto. split; [exact D|].
  unfold read_version in R. destruct (_ && _ && _ && _) eqn:AND in R; [|discriminate].
  rewrite !andb_true_iff in AND. destruct AND as (((S & _) & _) & F). injection R as R. rewrite R in S. apply Z.eqb_eq in S.
  unfold side in S. split; auto. intros row HR. rewrite forallb_forall in F. specialize (F row HR). apply Z.eqb_eq in F. lia.
Qed.

Theorem C10_minimum_version :
  forall sjis, shift_jis_contract sjis ->
  forall text opts sched q, NewWith sjis text opts sched = Ok q -> eff_version opts = 0 ->
    exists md l v0, qMode q = mode_code md /\ eff_level opts = level_code l /\
      least_version l md (text_bytes text) v0 /\ read_version (m_bitmap (qMat q)) = Some (Z.max v0 (eff_min opts)).
Proof.
  intros sjis C t opts sched q HN E0. destruct (version_promised sjis C t opts sched q HN) as (md & l & v & A & B & PV & HV & _ & _ & R).
  destruct PV as [[N _]|(_ & v0 & LV & ->)]; [congruence|]. exists md, l, v0. auto.
Qed.

Theorem C10_minimum_version_never_changes_success :
  forall sjis, shift_jis_contract sjis ->
  forall text opts opts' sched, fair sched ->
    eff_version opts = eff_version opts' -> eff_level opts = eff_level opts' -> eff_mode opts = eff_mode opts' ->
    (exists q, NewWith sjis text opts sched = Ok q) -> exists q, NewWith sjis text opts' sched = Ok q.
Proof.
  intros sjis C t opts opts' sched HF EV EL EM [q HN].
  assert (HP : plain t) by (destruct t; try exact I; cbn in HN; discriminate).
  rewrite newwith_plain in * by auto.
  destruct (supported_dec opts) as [SU|NS].
  2:{ rewrite build_unsupported in HN by auto. destruct (eff_version opts =? 0); discriminate. }
  assert (SU' : supported opts') by (unfold supported in *; rewrite <- EM; auto).
  assert (MC' : forall md pl, mode_choice sjis opts (text_bytes t) md pl -> mode_choice sjis opts' (text_bytes t) md pl).
  { intros md pl. unfold mode_choice. rewrite EM. auto. }
  assert (MCU : forall md pl md' pl', mode_choice sjis opts (text_bytes t) md pl -> mode_choice sjis opts' (text_bytes t) md' pl' -> md = md' /\ pl = pl').
  { intros md pl md' pl'. unfold mode_choice. rewrite <- EM. apply mode_choice_fun; auto. }
  destruct (build_cases sjis C opts (text_bytes t) SU) as [md E NT B|md pl l MC EL1 HV TL BU|md pl l MC EL1 E0 HN1 B|md pl l v MC EL1 E0 HV HFI HM B];
  destruct (build_cases sjis C opts' (text_bytes t) SU') as [md' E' NT' B'|md' pl' l' MC2 EL2 HV' TL' BU'|md' pl' l' MC2 EL2 E0' HN' B'|md' pl' l' v' MC2 EL2 E0' HV' HFI' HM' B'];
    try (rewrite B in HN; discriminate); unfold valid_version in *; try lia.
  - exfalso. unfold mode_choice in MC. destruct MC as [(X & Y & _)|(X & _)].
    + rewrite EM, E' in X. apply mode_code_inj in X. subst. contradiction.
    + rewrite EM, E' in X. destruct md'; discriminate.
  - destruct (MCU _ _ _ _ MC MC2) as [<- <-]. rewrite EL1, EL2 in EL. apply level_code_inj in EL. subst l'. rewrite <- EV in *.
    destruct (Z.lt_ge_cases (8 * SpecIso.data_codewords (eff_version opts) l) (4 + width_of (eff_version opts) md + zlen pl)) as [LT|GE].
    { rewrite (TL LT) in HN. discriminate. }
    eapply built_fair; [exact HF|apply BU'; exact GE].
  - exfalso. unfold mode_choice in MC. destruct MC as [(X & Y & _)|(X & _)].
    + rewrite EM, E' in X. apply mode_code_inj in X. subst. contradiction.
    + rewrite EM, E' in X. destruct md'; discriminate.
  - exfalso. destruct (MCU _ _ _ _ MC MC2) as [<- <-]. rewrite EL1, EL2 in EL. apply level_code_inj in EL. subst l'. apply (HN' v); auto.
  - eapply built_fair; [exact HF|exact B'].
Qed.

(* ------------------------------------------------------------------ C11 *)
Theorem C11_effective_options :
  forall opts,
    oVersion (apply_options opts) = eff_version opts /\
    oMinimumVersion (apply_options opts) = eff_min opts /\
    oEcLevel (apply_options opts) = eff_level opts /\
    oEncMode (apply_options opts) = eff_mode opts.
Proof. intros opts. rewrite apply_options_spec. repeat split; reflexivity. Qed.

Theorem C11_only_effective_options_matter :
  forall sjis text opts opts' sched,
    eff_version opts = eff_version opts' -> eff_min opts = eff_min opts' -> eff_level opts = eff_level opts' -> eff_mode opts = eff_mode opts' ->
    NewWith sjis text opts sched = NewWith sjis text opts' sched.
Proof. intros sjis t o o' s E1 E2 E3 E4. unfold NewWith. rewrite !apply_options_spec, E1, E2, E3, E4. reflexivity. Qed.

(* ------------------------------------------------------------------ the hypotheses can be met *)
Ltac fits_now := unfold text_fits, fits, needed_bits; vm_compute; discriminate.

Lemma hello_ok opts : eff_mode opts = auto_code \/ eff_mode opts = mode_code Alphanumeric ->
  eff_level opts = level_code Q -> (eff_version opts = 0 \/ eff_version opts = 3) ->
  exists q, NewWith sample_sjis hello opts fair_schedule = Ok q.
Proof.
  intros EM EL EV.
  assert (EF : effective_mode sample_sjis opts (text_bytes hello) Alphanumeric).
  { destruct EM; [right; split; auto; apply hello_alnum|left; auto]. }
  apply (C07_succeeds_iff_fits_partial sample_sjis sample_contract hello opts fair_schedule Alphanumeric Q); auto.
  - exact I.
  - exact fair_schedule_fair.
  - intros [_ X]. apply (hello_not_mixed X).
  - split; [apply hello_alnum|]. destruct EV as [-> | ->]; cbn [Z.eqb]; fits_now.
Qed.

(* C01, C03, C08: New("HELLO") *)
Example C01_C03_C08_example : exists q, NewWith sample_sjis hello [] fair_schedule = Ok q /\ qMode q = mode_code Alphanumeric /\
  ~ alnum_then_kanji sample_sjis (text_bytes hello) /\ eff_version [] = 0 /\ eff_min [] = 0.
Proof.
  destruct (hello_ok []) as [q E]; auto. exists q. split; auto. split; [|split; [exact hello_not_mixed|split; reflexivity]].
  destruct (auto_documented sample_sjis sample_contract hello [] _ q E eq_refl hello_not_mixed) as (md & Eq & [D1 D2] & _). rewrite Eq. f_equal.
  destruct hello_alnum as [D1' D2']. destruct (Z.lt_trichotomy (mode_rank md) (mode_rank Alphanumeric)) as [X|[X|X]].
  - exfalso. apply (D2' md X D1).
  - destruct md; cbn in X; try lia; reflexivity.
  - exfalso. apply (D2 Alphanumeric X D1').
Qed.
(* C02: kanji mode requested *)
Example C02_example : exists q, NewWith sample_sjis kanji1 [WithEncodingMode 16] fair_schedule = Ok q /\
  eff_mode [WithEncodingMode 16] = mode_code Kanji.
Proof.
  assert (X : exists q, NewWith sample_sjis kanji1 [WithEncodingMode 16] fair_schedule = Ok q).
  { apply (C07_succeeds_iff_fits_partial sample_sjis sample_contract kanji1 [WithEncodingMode 16] fair_schedule Kanji Q); auto.
    - exact I.
    - exact fair_schedule_fair.
    - intros [X _]. discriminate X.
    - left. reflexivity.
    - split; [exact kanji1_kanji|]. cbn [eff_version flat_map last Z.eqb]. fits_now. }
  destruct X as [q E]. exists q. auto.
Qed.
(* C03, C07: the misdetected text, automatic and with an explicit version *)
Example C03_C07_misdetected_example :
  (exists q, NewWith sample_sjis one_kanji [] fair_schedule = Ok q) /\ misdetected sample_sjis [] (text_bytes one_kanji) /\
  misdetected sample_sjis [WithVersion 2] (text_bytes one_kanji) /\ eff_version [WithVersion 2] <> 0.
Proof.
  split; [|split; [split; [reflexivity|exact one_kanji_mixed]|split; [split; [reflexivity|exact one_kanji_mixed]|discriminate]]].
  apply (mixed_auto_fits sample_sjis sample_contract one_kanji [] fair_schedule Q); auto; try exact I.
  - exact fair_schedule_fair.
  - exact one_kanji_mixed.
  - fits_now.
Qed.
(* C04, C05, C07: options *)
Example C04_C05_example : plain hello /\ supported [WithVersion 7; WithEncodingMode 32] /\ ~ supported [WithEncodingMode 2] /\
  eff_version [WithEncodingMode 2] = 0 /\ fair fair_schedule.
Proof.
  split; [exact I|]. split; [right; exists Byte; reflexivity|]. split; [intros [E|[[] E]]; discriminate E|].
  split; [reflexivity|exact fair_schedule_fair].
Qed.
(* C09, C10: an explicit version; a minimum version *)
Example C09_example : (exists q, NewWith sample_sjis hello [WithVersion 3] fair_schedule = Ok q) /\ eff_version [WithVersion 3] <> 0.
Proof. split; [apply hello_ok; auto|discriminate]. Qed.
Example C10_example : (exists q, NewWith sample_sjis hello [WithMinimumVersion 5] fair_schedule = Ok q) /\ eff_version [WithMinimumVersion 5] = 0 /\
  eff_min [WithMinimumVersion 5] = 5.
Proof. split; [apply hello_ok; auto|split; reflexivity]. Qed.
(* C11: invalid values are ignored, the last valid one wins *)
Example C11_example : let o := [WithVersion 3; WithVersion 41; WithErrorCorrectionLevel 4; WithErrorCorrectionLevel 0; WithVersion (-1); WithMinimumVersion 2] in
  eff_version o = 3 /\ eff_min o = 2 /\ eff_level o = 4 /\ eff_mode o = auto_code.
Proof. repeat split; reflexivity. Qed.

Print Assumptions C01_decode_recovers_text.
Print Assumptions C02_decode_recovers_kanji.
Print Assumptions C02_kanji_text_determined.
Print Assumptions C03_automatic_mode_partial.
Print Assumptions C03_automatic_mode_loses_text.
Print Assumptions C03_automatic_mode_refuted.
Print Assumptions C04_no_panic.
Print Assumptions C04_result_or_error.
Print Assumptions C05_unsupported_mode_partial.
Print Assumptions C05_no_panic_any_mode_refuted.
Print Assumptions C06_defined_types_refuted.
Print Assumptions C06_plain_types_partial.
Print Assumptions C07_succeeds_iff_fits_partial.
Print Assumptions C07_effective_mode_exists.
Print Assumptions C07_too_long_text_accepted.
Print Assumptions C07_refuted.
Print Assumptions C08_automatic_version_is_least.
Print Assumptions C09_requested_version_honoured.
Print Assumptions C10_minimum_version.
Print Assumptions C10_minimum_version_never_changes_success.
Print Assumptions C11_effective_options.
Print Assumptions C11_only_effective_options_matter.
