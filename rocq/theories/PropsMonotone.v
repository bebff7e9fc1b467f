(* C73: how the size of the symbol depends on level, length, mode and minimum version. *)
From Coq Require Import Lia Init.Byte.
From Verif Require Import ModelBase ModelUtf8 ModelMatrix ModelQRCode.
From Verif Require Import SpecIso SpecReader SpecSegment SpecAPI SpecUtf8 SpecMonotone Samples.
From Verif Require Import ProofBase ProofBits ProofUtf8 ProofEncode ProofMode ProofKanji ProofSegment ProofVersion ProofBuild ProofAPI ProofNew.
From Verif Require PropsNew PropsText.

(* ---- the specification's arithmetic ---- *)
Lemma level_sweep : forallb (fun v => (data_codewords v H <=? data_codewords v Q) && (data_codewords v Q <=? data_codewords v M) && (data_codewords v M <=? data_codewords v L)) (map (fun k => k + 1) (upto 40)) = true.
Proof. vm_compute. reflexivity. Qed.
Lemma level_capacity v l l' : valid_version v -> level_rank l <= level_rank l' -> data_codewords v l' <= data_codewords v l.
Proof.
  intros [V1 V2] LE. pose proof level_sweep as S. rewrite forallb_forall in S. specialize (S v).
  assert (I : In v (map (fun k => k + 1) (upto 40))) by (apply in_map_iff; exists (v - 1); split; [lia|apply in_upto; lia]).
  specialize (S I). rewrite !andb_true_iff in S. destruct S as ((S1 & S2) & S3). apply Z.leb_le in S1, S2, S3.
  destruct l, l'; cbn in LE; try lia.
Qed.
Lemma fits_if v l md n l' md' n' : data_codewords v l' <= data_codewords v l -> needed_bits v md n <= needed_bits v md' n' -> fits v l' md' n' -> fits v l md n.
Proof. unfold fits. lia. Qed.

Lemma numeric_length n : 0 <= n -> 10 * n <= 3 * payload_length Numeric n <= 10 * n + 2.
Proof.
  intros N. unfold payload_length. pose proof (Z.div_mod n 3 ltac:(lia)) as E. pose proof (Z.mod_pos_bound n 3 ltac:(lia)) as B.
  assert (n mod 3 = 0 \/ n mod 3 = 1 \/ n mod 3 = 2) as [F|[F|F]] by lia; rewrite F in *; lia.
Qed.
Lemma alnum_length n : 0 <= n -> 11 * n <= 2 * payload_length Alphanumeric n <= 11 * n + 1.
Proof. intros N. unfold payload_length. pose proof (Z.div_mod n 2 ltac:(lia)) as E. pose proof (Z.mod_pos_bound n 2 ltac:(lia)) as B. lia. Qed.
Lemma payload_mono md n n' : 0 <= n <= n' -> payload_length md n <= payload_length md n'.
Proof.
  intros N. destruct (Z.eq_dec n n') as [->|NE]; [apply Z.le_refl|]. destruct md.
  - pose proof (numeric_length n ltac:(lia)) as A. pose proof (numeric_length n' ltac:(lia)) as B. revert A B. generalize (payload_length Numeric n) (payload_length Numeric n'). intros a b A B. lia.
  - pose proof (alnum_length n ltac:(lia)) as A. pose proof (alnum_length n' ltac:(lia)) as B. revert A B. generalize (payload_length Alphanumeric n) (payload_length Alphanumeric n'). intros a b A B. lia.
  - cbv [payload_length]; lia.
  - cbv [payload_length]; lia.
Qed.
Lemma needed_mono v md n n' : 0 <= n <= n' -> needed_bits v md n <= needed_bits v md n'.
Proof. intros N. pose proof (payload_mono md n n' N). unfold needed_bits. lia. Qed.
Lemma width_cases v md : width_of v md = match md with Numeric => if v <=? 9 then 10 else if v <=? 26 then 12 else 14 | Alphanumeric => if v <=? 9 then 9 else if v <=? 26 then 11 else 13
  | Byte => if v <=? 9 then 8 else if v <=? 26 then 16 else 16 | Kanji => if v <=? 9 then 8 else if v <=? 26 then 10 else 12 end.
Proof. destruct md; reflexivity. Qed.
(* a more special mode needs fewer bits *)
Lemma numeric_alnum v n : 1 <= n -> needed_bits v Numeric n <= needed_bits v Alphanumeric n.
Proof. intros N. unfold needed_bits. rewrite !width_cases. pose proof (numeric_length n ltac:(lia)). pose proof (alnum_length n ltac:(lia)). destruct (v <=? 9), (v <=? 26); lia. Qed.
Lemma alnum_byte v n : 1 <= n -> needed_bits v Alphanumeric n <= needed_bits v Byte n.
Proof. intros N. unfold needed_bits. rewrite !width_cases. pose proof (alnum_length n ltac:(lia)). change (payload_length Byte n) with (8 * n). destruct (v <=? 9), (v <=? 26); lia. Qed.
Lemma kanji_byte v n b : 1 <= n -> 2 * n <= b -> needed_bits v Kanji n <= needed_bits v Byte b.
Proof. intros N B. unfold needed_bits. rewrite !width_cases. change (payload_length Byte b) with (8 * b). change (payload_length Kanji n) with (13 * n). destruct (v <=? 9), (v <=? 26); lia. Qed.
Lemma nothing_numeric v md n : 1 <= n -> needed_bits v Numeric 0 <= needed_bits v md n.
Proof.
  intros N. unfold needed_bits. rewrite !width_cases. change (payload_length Numeric 0) with 0. pose proof (payload_mono md 1 n ltac:(lia)) as P.
  destruct md; [change (payload_length Numeric 1) with 4 in P|change (payload_length Alphanumeric 1) with 6 in P|change (payload_length Byte 1) with 8 in P|change (payload_length Kanji 1) with 13 in P]; destruct (v <=? 9), (v <=? 26); lia.
Qed.

(* ---- characters and bytes ---- *)
Lemma utf8_length rs : Z.of_nat (length rs) <= Z.of_nat (length (utf8 rs)).
Proof.
  induction rs as [|r rs IH]; [cbn; lia|]. cbn [utf8 flat_map]. change (flat_map utf8_char rs) with (utf8 rs). rewrite app_length. cbn [length].
  assert (1 <= Z.of_nat (length (utf8_char r))) by (unfold utf8_char; destruct (r <? 128), (r <? 2048), (r <? 65536); cbn; lia). lia.
Qed.
Lemma utf8_kanji sjis rs : Forall (kanji_char sjis) rs -> 3 * Z.of_nat (length rs) <= Z.of_nat (length (utf8 rs)).
Proof.
  induction 1 as [|r rs [K _] _ IH]; [cbn; lia|]. cbn [utf8 flat_map]. change (flat_map utf8_char rs) with (utf8 rs). rewrite app_length. cbn [length].
  assert (3 <= Z.of_nat (length (utf8_char r))); [|lia]. unfold cjk in K. unfold utf8_char.
  destruct (Z.ltb_spec r 128); [lia|]. destruct (Z.ltb_spec r 2048); [lia|]. destruct (r <? 65536); cbn; lia.
Qed.
Lemma runes_length s : Forall is_byte s -> (length (go_runes s) <= length s)%nat.
Proof.
  assert (G : forall k s, (length s <= k)%nat -> Forall is_byte s -> (length (go_runes s) <= length s)%nat); [|intros F; apply (G (length s)); auto].
  induction k as [|k IH]; intros [|b t] LE F; cbn [length] in LE; [cbn; lia|lia|cbn; lia|].
  destruct (runes_step b t F) as [(r & s' & _ & _ & E & LS & FS)|E]; rewrite E; cbn [length].
  - pose proof (IH s' ltac:(lia) FS). lia.
  - inversion F; subst. pose proof (IH t ltac:(lia) ltac:(assumption)). lia.
Qed.
Lemma kanji_bytes sjis text : Forall (kanji_char sjis) (go_runes (text_bytes text)) -> 3 * Z.of_nat (length (go_runes (text_bytes text))) <= Z.of_nat (length (text_bytes text)).
Proof.
  intros K. assert (NE : ~ In RuneError (go_runes (text_bytes text))).
  { intros I. rewrite Forall_forall in K. destruct (K _ I) as [KC _]. unfold cjk, RuneError in KC. lia. }
  rewrite <- (utf8_of_runes (text_bytes text) (PropsText.text_bytes_bytes _) NE) at 2. eapply utf8_kanji, K.
Qed.

(* appending to well-formed UTF-8 appends characters *)
Lemma appended_utf8 rs more : Forall scalar rs -> appended (utf8 rs) (utf8 rs ++ more).
Proof.
  intros F. exists more. split; [reflexivity|]. rewrite (runes_of_utf8 rs F). induction F as [|r rs SR F IH]; [reflexivity|].
  cbn [utf8 flat_map]. change (flat_map utf8_char rs) with (utf8 rs). rewrite <- app_assoc, utf8_char_string, runes_encode by auto. rewrite IH. reflexivity.
Qed.
Lemma appended_refl text : appended text text.
Proof. exists []. rewrite app_nil_r. split; [reflexivity|]. cbn. rewrite app_nil_r. reflexivity. Qed.
Lemma appended_count text text' md : appended text text' -> char_count md text <= char_count md text'.
Proof. intros (more & -> & E). unfold char_count. destruct md; rewrite ?E, app_length; lia. Qed.
Lemma appended_encodable sjis text text' md : appended text text' -> encodable sjis md text' -> encodable sjis md text.
Proof. intros (more & -> & E) F. unfold encodable in *. rewrite E in F. apply Forall_app in F. apply F. Qed.
Lemma count_nonneg md text : 0 <= char_count md text. Proof. unfold char_count. lia. Qed.
Lemma table_small r : alnum_ch r -> r < 128.
Proof. unfold alnum_ch. intros I. assert (F : forallb (fun r => r <? 128) alphanumeric_table = true) by reflexivity. rewrite forallb_forall in F. specialize (F r I). lia. Qed.
Lemma digit_alnum r : digit_ch r -> alnum_ch r.
Proof. unfold digit_ch, alnum_ch. intros D. assert (r - 48 = 0 \/ r - 48 = 1 \/ r - 48 = 2 \/ r - 48 = 3 \/ r - 48 = 4 \/ r - 48 = 5 \/ r - 48 = 6 \/ r - 48 = 7 \/ r - 48 = 8 \/ r - 48 = 9) as X by lia.
  replace r with (48 + (r - 48)) by lia. repeat destruct X as [X|X]; rewrite X; cbn; tauto. Qed.
Lemma small_not_kanji sjis r : r < 128 -> ~ kanji_char sjis r.
Proof. intros LT [C _]. unfold cjk in C. lia. Qed.

Lemma smallest_capacity : forallb (fun v => forallb (fun l => 9 <=? data_codewords v l) [L; M; Q; H]) (map (fun k => k + 1) (upto 40)) = true.
Proof. vm_compute. reflexivity. Qed.
Lemma nothing_fits v l : valid_version v -> fits v l Numeric 0.
Proof.
  intros [V1 V2]. pose proof smallest_capacity as S. rewrite forallb_forall in S.
  assert (I : In v (map (fun k => k + 1) (upto 40))) by (apply in_map_iff; exists (v - 1); split; [lia|apply in_upto; lia]).
  specialize (S v I). rewrite forallb_forall in S. assert (IL : In l [L; M; Q; H]) by (destruct l; cbn; tauto). specialize (S l IL).
  unfold fits, needed_bits. rewrite width_cases. change (payload_length Numeric 0) with 0. destruct (v <=? 9), (v <=? 26); lia.
Qed.

(* the automatically chosen mode for a text needs no more room than any mode for any continuation of it *)
Lemma best_mode sjis t t' md md' v l : documented_mode sjis (text_bytes t) md -> appended (text_bytes t) (text_bytes t') -> encodable sjis md' (text_bytes t') ->
  valid_version v -> text_fits v l md' (text_bytes t') -> text_fits v l md (text_bytes t).
Proof.
  intros [D1 D2] AP EN V. pose proof (appended_encodable sjis _ _ md' AP EN) as EN0.
  pose proof (appended_count _ _ md' AP) as CM. unfold text_fits.
  assert (S : text_fits v l md' (text_bytes t') -> text_fits v l md' (text_bytes t)).
  { unfold text_fits. apply fits_if; [lia|]. apply needed_mono. split; [apply count_nonneg|exact CM]. }
  intros FT. specialize (S FT). unfold text_fits in S. revert S. clear FT CM.
  destruct (Z.lt_trichotomy (mode_rank md) (mode_rank md')) as [LT|[EQ|GT]].
  2:{ assert (md = md') as <- by (destruct md, md'; cbn in EQ; try lia; reflexivity). auto. }
  2:{ exfalso. exact (D2 md' GT EN0). }
  destruct (go_runes (text_bytes t)) as [|r rs] eqn:GR.
  { assert (md = Numeric). { destruct md; auto; exfalso; apply (D2 Numeric); try (cbn; lia); unfold encodable; rewrite GR; constructor. }
    subst md. intros _. unfold char_count. rewrite GR. apply nothing_fits, V. }
  pose proof (runes_length _ (PropsText.text_bytes_bytes t)) as RL.
  assert (NZ : 1 <= Z.of_nat (length (go_runes (text_bytes t)))) by (rewrite GR; cbn [length]; lia).
  assert (R0 : forall m, encodable sjis m (text_bytes t) -> representable sjis m r) by (intros m X; unfold encodable in X; rewrite GR in X; inversion X; auto).
  apply fits_if; [lia|]. unfold char_count.
  destruct md, md'; cbn [mode_rank] in LT; try lia.
  - apply numeric_alnum. exact NZ.
  - eapply Z.le_trans; [apply numeric_alnum; exact NZ|]. eapply Z.le_trans; [apply alnum_byte; exact NZ|]. apply needed_mono. lia.
  - exfalso. apply (small_not_kanji sjis r); [apply table_small, digit_alnum, (R0 Numeric D1)|apply (R0 Kanji EN0)].
  - eapply Z.le_trans; [apply alnum_byte; exact NZ|]. apply needed_mono. lia.
  - exfalso. apply (small_not_kanji sjis r); [apply table_small, (R0 Alphanumeric D1)|apply (R0 Kanji EN0)].
  - apply kanji_byte; [exact NZ|]. pose proof (kanji_bytes sjis t D1). lia.
Qed.
Lemma same_mode md t t' v l : appended (text_bytes t) (text_bytes t') -> text_fits v l md (text_bytes t') -> text_fits v l md (text_bytes t).
Proof. intros AP. unfold text_fits. apply fits_if; [lia|]. apply needed_mono. split; [apply count_nonneg|apply appended_count, AP]. Qed.

(* ---- what New does ---- *)
Section WithSjis.
Context (sjis : Z -> option (list Z)) (C : shift_jis_contract sjis).
Lemma promised_mode t opts sched q : NewWith sjis t opts sched = Ok q -> ~ misdetected sjis opts (text_bytes t) ->
  exists md l v, effective_mode sjis opts (text_bytes t) md /\ encodable sjis md (text_bytes t) /\ eff_level opts = level_code l /\
    promised_version opts l md (text_bytes t) v /\ q_dimension q = 4 * v + 17.
Proof.
  intros HN NM. destruct (newwith_made sjis C t opts sched q HN) as (md & pl & l & v & b & w & k & c & s & HM).
  destruct (version_promised sjis C t opts sched q HN) as (md' & l' & v' & QM & EL & PV & _ & VV & DI & _).
  assert (md' = md) as ->. { apply mode_code_inj. rewrite <- QM. apply HM. }
  exists md, l', v'. pose proof (md_choice _ _ _ _ _ _ _ _ _ _ _ _ _ HM) as CH.
  assert (E : effective_mode sjis opts (text_bytes t) md).
  { destruct CH as [(E & _)|(E & AM & _)]; [left; exact E|right]. split; [exact E|].
    destruct (PropsNew.C03_automatic_mode_partial sjis C t opts sched q HN E) as (m & QM' & D & _).
    - intros X. apply NM. split; auto.
    - rewrite QM in QM'. apply mode_code_inj in QM'. subst. exact D. }
  split; [exact E|]. split; [|split; [exact EL|split; [exact PV|exact DI]]].
  destruct E as [E|[_ [D _]]]; [|exact D]. destruct CH as [(_ & T & _)|(E' & _)]; [apply text_ok_iff; auto|].
  rewrite E' in E. destruct md; discriminate.
Qed.
Lemma accepted_fits t opts sched q md l : NewWith sjis t opts sched = Ok q -> ~ misdetected sjis opts (text_bytes t) ->
  effective_mode sjis opts (text_bytes t) md -> eff_level opts = level_code l ->
  let w := if eff_version opts =? 0 then 40 else eff_version opts in valid_version w /\ text_fits w l md (text_bytes t).
Proof.
  intros HN NM HE EL w. assert (HP : plain t) by (destruct t; try exact I; cbn in HN; discriminate). rewrite newwith_plain in HN by auto.
  assert (SU : supported opts) by (destruct HE as [E|[E _]]; [right; eauto|left; auto]).
  destruct (build_cases sjis C opts (text_bytes t) SU) as [md' E NT B|md' pl l' MC EL' HV TL BU|md' pl l' MC EL' E0 HN1 B|md' pl l' v MC EL' E0 HV HFI HM B];
    try (rewrite B in HN; discriminate); rewrite EL in EL'; apply level_code_inj in EL'; subst l'; destruct (effective_choice sjis C _ _ _ _ _ NM MC HE) as (-> & HT & ->).
  - unfold w. replace (eff_version opts =? 0) with false by (unfold valid_version in HV; lia). split; [exact HV|].
    apply (fits_payload sjis); auto. destruct (Z.lt_ge_cases (8 * data_codewords (eff_version opts) l) (4 + width_of (eff_version opts) md + zlen (payload_of sjis md (text_bytes t)))) as [LT|GE]; [|lia].
    rewrite (TL LT) in HN. discriminate.
  - unfold w. rewrite E0. cbn [Z.eqb]. split; [unfold valid_version; lia|]. apply fits_40. exists v. split; auto. unfold text_fits. rewrite char_count_eq. exact HFI.
Qed.
Lemma compare opts opts' l l' md md' text text' v v' : eff_version opts = 0 -> eff_version opts' = 0 -> eff_min opts <= eff_min opts' ->
  (forall w, valid_version w -> text_fits w l' md' text' -> text_fits w l md text) ->
  promised_version opts l md text v -> promised_version opts' l' md' text' v' -> v <= v'.
Proof.
  intros E E' MI F [[N _]|(_ & v0 & (V0 & F0 & L0) & ->)] [[N' _]|(_ & v0' & (V0' & F0' & L0') & ->)]; try congruence.
  specialize (L0 v0' V0' (F v0' V0' F0')). lia.
Qed.
End WithSjis.

(* a weaker level of error correction never gives a larger symbol, and never turns success into failure *)
Theorem C73_weaker_level_never_larger :
  forall sjis, shift_jis_contract sjis ->
  forall text opts opts' sched sched' q q' l l',
    eff_level opts = level_code l -> eff_level opts' = level_code l' -> level_rank l <= level_rank l' ->
    eff_mode opts = eff_mode opts' -> eff_min opts = eff_min opts' -> eff_version opts = eff_version opts' ->
    NewWith sjis text opts sched = Ok q -> NewWith sjis text opts' sched' = Ok q' -> q_dimension q <= q_dimension q'.
Proof.
  intros sjis C t opts opts' sched sched' q q' l l' EL EL' LE EM EI EV HN HN'.
  destruct (newwith_made sjis C t opts sched q HN) as (md & pl & l1 & v & b & w & k & c & s & HM).
  destruct (newwith_made sjis C t opts' sched' q' HN') as (md' & pl' & l1' & v' & b' & w' & k' & c' & s' & HM').
  pose proof (md_choice _ _ _ _ _ _ _ _ _ _ _ _ _ HM) as CH. pose proof (md_choice _ _ _ _ _ _ _ _ _ _ _ _ _ HM') as CH'.
  assert (CH2 : mode_choice sjis opts (text_bytes t) md' pl') by (unfold mode_choice in *; rewrite EM; exact CH').
  destruct (mode_choice_fun sjis C _ _ _ _ _ _ CH CH2) as [<- _].
  destruct (version_promised sjis C t opts sched q HN) as (m1 & l2 & v1 & QM & EL1 & PV & VV1 & _ & DI & _).
  destruct (version_promised sjis C t opts' sched' q' HN') as (m2 & l3 & v2 & QM' & EL2 & PV' & VV2 & _ & DI' & _).
  assert (m1 = md) as ->. { apply mode_code_inj. rewrite <- QM. apply HM. } assert (m2 = md) as ->. { apply mode_code_inj. rewrite <- QM'. apply HM'. }
  rewrite EL in EL1. apply level_code_inj in EL1. subst l2. rewrite EL' in EL2. apply level_code_inj in EL2. subst l3. rewrite DI, DI'. unfold side.
  enough (v1 <= v2) by lia.
  destruct PV as [[N ->]|(E0 & PV)]; destruct PV' as [[N' ->]|(E0' & PV')]; try congruence; [lia|].
  apply (compare opts opts' l l' md md (text_bytes t) (text_bytes t)); auto; [lia| |right; auto|right; auto].
  intros x VX. unfold text_fits. apply fits_if; [|lia]. apply level_capacity; auto.
Qed.

(* characters added at the end never make the symbol smaller *)
Theorem C73_longer_text_never_smaller_partial :
  forall sjis, shift_jis_contract sjis ->
  forall text text' opts sched sched' q q',
    appended (text_bytes text) (text_bytes text') ->
    ~ misdetected sjis opts (text_bytes text) -> ~ misdetected sjis opts (text_bytes text') ->
    NewWith sjis text opts sched = Ok q -> NewWith sjis text' opts sched' = Ok q' -> q_dimension q <= q_dimension q'.
Proof.
  intros sjis C t t' opts sched sched' q q' AP NM NM' HN HN'.
  destruct (promised_mode sjis C t opts sched q HN NM) as (md & l & v & EF & EN & EL & PV & DI).
  destruct (promised_mode sjis C t' opts sched' q' HN' NM') as (md' & l' & v' & EF' & EN' & EL' & PV' & DI').
  rewrite EL in EL'. apply level_code_inj in EL'. subst l'. rewrite DI, DI'. enough (v <= v') by lia.
  destruct PV as [[N ->]|(E0 & PV)]; destruct PV' as [[N' ->]|(E0' & PV')]; try congruence; [lia|].
  apply (compare opts opts l l md md' (text_bytes t) (text_bytes t')); auto; [lia| |right; auto|right; auto].
  intros x VX. destruct EF as [E|[E D]]; destruct EF' as [E'|[E' D']].
  - rewrite E in E'. apply mode_code_inj in E'. subst. apply same_mode, AP.
  - rewrite E in E'. destruct md; discriminate.
  - rewrite E in E'. destruct md'; discriminate.
  - apply (best_mode sjis t t' md md' x l); auto.
Qed.

(* the automatic choice of the mode never gives a larger symbol than any choice of the user *)
Theorem C73_automatic_mode_never_larger_partial :
  forall sjis, shift_jis_contract sjis ->
  forall text opts opts' sched sched' q q' md,
    eff_mode opts = auto_code -> eff_mode opts' = mode_code md ->
    eff_level opts = eff_level opts' -> eff_min opts = eff_min opts' -> eff_version opts = eff_version opts' ->
    ~ alnum_then_kanji sjis (text_bytes text) ->
    NewWith sjis text opts sched = Ok q -> NewWith sjis text opts' sched' = Ok q' -> q_dimension q <= q_dimension q'.
Proof.
  intros sjis C t opts opts' sched sched' q q' m AU EX ELL EI EV NA HN HN'.
  destruct (promised_mode sjis C t opts sched q HN ltac:(intros [_ X]; auto)) as (md & l & v & EF & EN & EL & PV & DI).
  destruct (promised_mode sjis C t opts' sched' q' HN') as (md' & l' & v' & EF' & EN' & EL' & PV' & DI'); [intros [X _]; rewrite EX in X; destruct m; discriminate|].
  rewrite ELL, EL' in EL. apply level_code_inj in EL. subst l'. rewrite DI, DI'. enough (v <= v') by lia.
  destruct PV as [[N ->]|(E0 & PV)]; destruct PV' as [[N' ->]|(E0' & PV')]; try congruence; [lia|].
  apply (compare opts opts' l l md md' (text_bytes t) (text_bytes t)); auto; [lia| |right; auto|right; auto].
  intros x VX. destruct EF as [E|[E D]]; [rewrite AU in E; destruct md; discriminate|].
  apply (best_mode sjis t t md md' x l); auto. apply appended_refl.
Qed.

(* ---- acceptance ---- *)
(* what is accepted at some level is accepted at every weaker one; what is accepted in some mode is accepted in automatic mode;
   and every beginning of an accepted text is accepted *)
Theorem C73_acceptance_monotone_partial :
  forall sjis, shift_jis_contract sjis ->
  forall text text' opts opts' sched sched' q' l l',
    plain text -> fair sched ->
    appended (text_bytes text) (text_bytes text') ->
    eff_level opts = level_code l -> eff_level opts' = level_code l' -> level_rank l <= level_rank l' ->
    eff_mode opts = eff_mode opts' \/ eff_mode opts = auto_code -> eff_version opts = eff_version opts' ->
    ~ misdetected sjis opts (text_bytes text) -> ~ misdetected sjis opts' (text_bytes text') ->
    NewWith sjis text' opts' sched' = Ok q' -> exists q, NewWith sjis text opts sched = Ok q.
Proof.
  intros sjis C t t' opts opts' sched sched' q' l l' PL FA AP EL EL' LE EM EV NM NM' HN'.
  destruct (promised_mode sjis C t' opts' sched' q' HN' NM') as (md' & l1 & v' & EF' & EN' & EL1 & PV' & _).
  rewrite EL' in EL1. apply level_code_inj in EL1. subst l1.
  assert (SU : supported opts).
  { destruct EM as [E|E]; [|left; exact E]. destruct EF' as [X|[X _]]; [right; exists md'; congruence|left; congruence]. }
  destruct (PropsNew.C07_effective_mode_exists sjis C (text_bytes t) opts SU) as (md & l1 & EF & _ & _).
  apply (PropsNew.C07_succeeds_iff_fits_partial sjis C t opts sched md l PL FA NM EF EL).
  set (w := if eff_version opts =? 0 then 40 else eff_version opts).
  assert (VW : valid_version w /\ text_fits w l' md' (text_bytes t')).
  {
    unfold w. rewrite EV. destruct (accepted_fits sjis C t' opts' sched' q' md' l' HN' NM' EF' EL') as [X Y]. auto. }
  destruct VW as [VW FW].
  assert (FW' : text_fits w l md' (text_bytes t')) by (revert FW; unfold text_fits; apply fits_if; [apply level_capacity; auto|lia]).
  destruct EF as [E|[E D]].
  - assert (md' = md) as ->. { destruct EM as [X|X]; [|rewrite E in X; destruct md; discriminate]. destruct EF' as [Y|[Y _]]; [apply mode_code_inj; congruence|]. rewrite E, Y in X. destruct md; discriminate. }
    split; [eapply appended_encodable; eauto|]. eapply same_mode; eauto.
  - split; [apply D|]. eapply best_mode; eauto.
Qed.

(* ---- and where it fails: a text of alphanumeric characters followed by kanji ---- *)
Definition long_mixed : GoText := GoString (repeat x41 100 ++ [xe7; x82; xb9]).
Definition long_mixed_a : GoText := GoString (repeat x41 100 ++ [xe7; x82; xb9] ++ [x61]).
Lemma long_mixed_runes : go_runes (text_bytes long_mixed) = repeat 65 100 ++ [0x70B9]. Proof. vm_compute. reflexivity. Qed.
Lemma long_mixed_a_runes : go_runes (text_bytes long_mixed_a) = repeat 65 100 ++ [0x70B9; 97]. Proof. vm_compute. reflexivity. Qed.
Lemma long_mixed_mixed : alnum_then_kanji sample_sjis (text_bytes long_mixed).
Proof.
  exists (repeat 65 100), [0x70B9]. split; [exact long_mixed_runes|]. split; [discriminate|]. split; [discriminate|]. split; [|constructor; [exact kanji_70B9|constructor]].
  apply Forall_forall. intros x I. apply repeat_spec in I. subst x. apply alnum_dec. reflexivity.
Qed.
Lemma not_kanji_97 : ~ kanji_char sample_sjis 97. Proof. apply small_not_kanji. lia. Qed.
Lemma not_alnum_97 : ~ alnum_ch 97. Proof. unfold alnum_ch. cbn. lia. Qed.
Lemma long_mixed_a_not : ~ alnum_then_kanji sample_sjis (text_bytes long_mixed_a).
Proof.
  intros (pre & ks & E & _ & _ & P & K). rewrite long_mixed_a_runes in E.
  assert (I : In 97 (pre ++ ks)) by (rewrite <- E; apply in_or_app; right; right; left; reflexivity).
  apply in_app_or in I as [I|I]; [rewrite Forall_forall in P; exact (not_alnum_97 (P 97 I))|rewrite Forall_forall in K; exact (not_kanji_97 (K 97 I))].
Qed.
Lemma long_mixed_a_byte : documented_mode sample_sjis (text_bytes long_mixed_a) Byte.
Proof.
  split; [apply Forall_forall; intros ? _; exact I|]. intros md RK EN. unfold encodable in EN. rewrite long_mixed_a_runes in EN. rewrite Forall_forall in EN.
  assert (X97 : In 97 (repeat 65 100 ++ [0x70B9; 97])) by (apply in_or_app; right; right; left; reflexivity).
  specialize (EN 97 X97). destruct md; cbn [representable] in EN; [unfold digit_ch in EN; lia|exact (not_alnum_97 EN)|cbn in RK; lia|exact (not_kanji_97 EN)].
Qed.
Lemma mixed_large sched q : NewWith sample_sjis long_mixed [] sched = Ok q -> 61 <= q_dimension q.
Proof.
  intros E. destruct (version_promised sample_sjis sample_contract _ _ _ _ E) as (md & l & v & QM & EL & PV & VV & _ & DI & _).
  destruct (PropsNew.C03_automatic_mode_loses_text sample_sjis sample_contract _ _ _ _ E eq_refl long_mixed_mixed) as [QK _].
  rewrite QK in QM. apply mode_code_inj in QM. subst md. assert (l = Q) as -> by (apply level_code_inj; rewrite <- EL; reflexivity).
  destruct PV as [[N _]|(_ & v0 & (V0 & F0 & _) & ->)]; [exfalso; apply N; reflexivity|].
  change (eff_min []) with 0 in *. rewrite DI. unfold side. enough (11 <= v0) by lia.
  destruct (Z.le_gt_cases 11 v0) as [?|LT]; [assumption|exfalso].
  assert (F10 : fits 10 Q Kanji (char_count Kanji (text_bytes long_mixed))).
  { apply (fits_mono Q Kanji _ v0 10); auto; [unfold valid_version; lia|lia|apply count_nonneg]. }
  revert F10. vm_compute. intros F10. apply F10. reflexivity.
Qed.
Lemma small_enough opts t sched q w : NewWith sample_sjis t opts sched = Ok q -> qMode q = mode_code Byte -> eff_version opts = 0 -> eff_min opts = 0 -> eff_level opts = level_code Q ->
  valid_version w -> text_fits w Q Byte (text_bytes t) -> q_dimension q <= 4 * w + 17.
Proof.
  intros E QB EV EI ELV VW FW. destruct (version_promised sample_sjis sample_contract _ _ _ _ E) as (md & l & v & QM & EL & PV & VV & _ & DI & _).
  rewrite QB in QM. apply mode_code_inj in QM. subst md. assert (l = Q) as -> by (apply level_code_inj; congruence).
  destruct PV as [[N _]|(_ & v0 & (V0 & F0 & L0) & ->)]; [congruence|]. specialize (L0 w VW FW). rewrite DI, EI. unfold side, valid_version in *. lia.
Qed.
Lemma mixed_exists : exists q, NewWith sample_sjis long_mixed [] fair_schedule = Ok q.
Proof.
  apply (mixed_auto_fits sample_sjis sample_contract long_mixed [] fair_schedule Q); auto; try exact I; [exact fair_schedule_fair|exact long_mixed_mixed|PropsNew.fits_now].
Qed.

(* adding one letter makes the symbol smaller *)
Theorem C73_longer_text_refuted :
  ~ (forall sjis, shift_jis_contract sjis -> forall text text' opts sched sched' q q',
       appended (text_bytes text) (text_bytes text') ->
       NewWith sjis text opts sched = Ok q -> NewWith sjis text' opts sched' = Ok q' -> q_dimension q <= q_dimension q').
Proof.
  intros G. destruct mixed_exists as [q E].
  assert (X : exists q, NewWith sample_sjis long_mixed_a [] fair_schedule = Ok q).
  { apply (PropsNew.C07_succeeds_iff_fits_partial sample_sjis sample_contract long_mixed_a [] fair_schedule Byte Q); auto; try exact I; [exact fair_schedule_fair| | |].
    - intros [_ X]. exact (long_mixed_a_not X).
    - right. split; [reflexivity|exact long_mixed_a_byte].
    - split; [apply long_mixed_a_byte|PropsNew.fits_now]. }
  destruct X as [q' E'].
  assert (AP : appended (text_bytes long_mixed) (text_bytes long_mixed_a)) by (exists [97]; split; vm_compute; reflexivity).
  specialize (G sample_sjis sample_contract long_mixed long_mixed_a [] _ _ q q' AP E E'). pose proof (mixed_large _ q E) as A.
  destruct (PropsNew.C03_automatic_mode_partial sample_sjis sample_contract _ _ _ _ E' eq_refl long_mixed_a_not) as (md & QM & [D1 D2] & _).
  assert (md = Byte) as ->. { destruct long_mixed_a_byte as [B1 B2]. destruct md; auto; exfalso; eapply B2; try exact D1; cbn; lia. }
  pose proof (small_enough [] long_mixed_a _ q' 8 E' QM eq_refl eq_refl eq_refl ltac:(unfold valid_version; lia) ltac:(PropsNew.fits_now)) as B. lia.
Qed.
(* byte mode, chosen by the user, gives a smaller symbol than the automatic choice *)
Theorem C73_automatic_mode_refuted :
  ~ (forall sjis, shift_jis_contract sjis -> forall text sched sched' q q' md,
       NewWith sjis text [] sched = Ok q -> NewWith sjis text [WithEncodingMode (mode_code md)] sched' = Ok q' -> q_dimension q <= q_dimension q').
Proof.
  intros G. destruct mixed_exists as [q E].
  assert (X : exists q, NewWith sample_sjis long_mixed [WithEncodingMode (mode_code Byte)] fair_schedule = Ok q).
  { apply (PropsNew.C07_succeeds_iff_fits_partial sample_sjis sample_contract long_mixed [WithEncodingMode (mode_code Byte)] fair_schedule Byte Q); auto; try exact I; [exact fair_schedule_fair| | |].
    - intros [X _]. discriminate X.
    - left. reflexivity.
    - split; [apply Forall_forall; intros ? _; exact I|PropsNew.fits_now]. }
  destruct X as [q' E']. specialize (G sample_sjis sample_contract long_mixed _ _ q q' Byte E E'). pose proof (mixed_large _ q E) as A.
  assert (QM : qMode q' = mode_code Byte).
  { destruct (promised_mode sample_sjis sample_contract _ _ _ _ E' ltac:(intros [X _]; discriminate X)) as (md & l & v & EF & _).
    destruct (newwith_made sample_sjis sample_contract _ _ _ _ E') as (md' & pl & l' & v' & b & w & k & c & s & HM).
    pose proof (md_choice _ _ _ _ _ _ _ _ _ _ _ _ _ HM) as [(X & _)|(X & _)]; [|discriminate X]. transitivity (mode_code md'); [apply HM|]. symmetry. exact X. }
  pose proof (small_enough _ long_mixed _ q' 8 E' QM eq_refl eq_refl eq_refl ltac:(unfold valid_version; lia) ltac:(PropsNew.fits_now)) as B. lia.
Qed.

(* ---- the hypotheses can be met ---- *)
Definition hell : GoText := GoString [x48; x45; x4c; x4c].
Lemma hello_level l : exists q, NewWith sample_sjis hello [WithErrorCorrectionLevel (level_code l)] fair_schedule = Ok q.
Proof.
  apply (PropsNew.C07_succeeds_iff_fits_partial sample_sjis sample_contract hello _ fair_schedule Alphanumeric l); auto; try exact I; [exact fair_schedule_fair| | | |].
  - intros [_ X]. exact (hello_not_mixed X).
  - right. split; [reflexivity|exact hello_alnum].
  - destruct l; reflexivity.
  - split; [apply hello_alnum|]. destruct l; PropsNew.fits_now.
Qed.
Example C73_example : (forall l, exists q, NewWith sample_sjis hello [WithErrorCorrectionLevel (level_code l)] fair_schedule = Ok q) /\
  (exists q, NewWith sample_sjis hello [WithEncodingMode (mode_code Alphanumeric)] fair_schedule = Ok q) /\
  appended (text_bytes hell) (text_bytes hello) /\ plain hell /\ fair fair_schedule /\ ~ misdetected sample_sjis [] (text_bytes hello) /\
  ~ alnum_then_kanji sample_sjis (text_bytes hello).
Proof.
  split; [exact hello_level|]. split; [apply PropsNew.hello_ok; auto|]. split; [exists [79]; split; vm_compute; reflexivity|].
  split; [exact I|]. split; [exact fair_schedule_fair|]. split; [intros [_ X]; exact (hello_not_mixed X)|exact hello_not_mixed].
Qed.

Print Assumptions C73_weaker_level_never_larger.
Print Assumptions C73_longer_text_never_smaller_partial.
Print Assumptions C73_automatic_mode_never_larger_partial.
Print Assumptions C73_acceptance_monotone_partial.
Print Assumptions C73_longer_text_refuted.
Print Assumptions C73_automatic_mode_refuted.
