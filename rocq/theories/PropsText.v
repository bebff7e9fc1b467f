(* C54: a symbol determines the text it was made from.  C55: UTF-8. *)
From Coq Require Import Lia Init.Byte.
From Verif Require Import ModelBase ModelBinary ModelUtf8 ModelMatrix ModelQRCode.
From Verif Require Import SpecIso SpecReader SpecSegment SpecAPI SpecUtf8 Samples ProofBase ProofBits ProofSegment ProofAPI ProofInit ProofNew ProofUtf8 PropsNew PropsMask.

(* no two kanji have the same code *)
Definition injective_sjis (sjis : Z -> option (list Z)) : Prop := forall r r' c, kanji_char sjis r -> kanji_char sjis r' -> sjis r = Some c -> sjis r' = Some c -> r = r'.

Lemma text_bytes_bytes t : Forall is_byte (text_bytes t).
Proof.
  unfold text_bytes. apply Forall_forall. intros b K. apply in_map_iff in K as (x & <- & _). apply byteZ_byte.
Qed.

(* ------------------------------------------------------------------ C55 *)
(* the characters of a text: scalar values; recovered from its encoding; and they determine the bytes of valid UTF-8 *)
Theorem C55_characters_scalar : forall text, Forall scalar (go_runes (text_bytes text)).
Proof. intros t. apply runes_scalar, text_bytes_bytes. Qed.
(* Go's conversion of a rune to a string is UTF-8 *)
Theorem C55_rune_to_string : forall r, scalar r -> go_string_of_rune r = utf8 [r].
Proof. intros r S. unfold utf8. cbn [flat_map]. rewrite app_nil_r. symmetry. apply utf8_char_string; auto. Qed.
Theorem C55_decode_encode : forall rs, Forall scalar rs -> go_runes (utf8 rs) = rs.
Proof. exact runes_of_utf8. Qed.
Theorem C55_encode_decode : forall text, ~ In RuneError (go_runes (text_bytes text)) -> utf8 (go_runes (text_bytes text)) = text_bytes text.
Proof. intros t NE. apply utf8_of_runes; auto. apply text_bytes_bytes. Qed.

(* ------------------------------------------------------------------ C54 *)
Section Made.
  Variable sjis : Z -> option (list Z).
  Hypothesis C : shift_jis_contract sjis.
  Lemma made_carries t opts sched q : NewWith sjis t opts sched = Ok q -> ~ misdetected sjis opts (text_bytes t) ->
    exists md seg, read_symbol (m_bitmap (qMat q)) = Some seg /\ carries sjis md (text_bytes t) seg /\ encodable sjis md (text_bytes t).
  Proof.
    intros HN NM. destruct (newwith_made sjis C t opts sched q HN) as (md & pl & l & v & b & w & k & c & s & HM).
    destruct (choice_text _ _ _ _ _ (md_choice _ _ _ _ _ _ _ _ _ _ _ _ _ HM)) as [[HT HP]|(_ & E1 & E2 & _)].
    2:{ exfalso. apply NM. split; auto. apply mixed_iff; auto. }
    exists md, (expected sjis md (text_bytes t)). split; [eapply read_made; eauto|]. split; [apply carries_expected; auto|apply text_ok_iff; auto].
  Qed.
End Made.

Lemma kanji_no_error sjis t : encodable sjis Kanji (text_bytes t) -> ~ In RuneError (go_runes (text_bytes t)).
Proof.
  intros E K. unfold encodable in E. rewrite Forall_forall in E. destruct (E _ K) as [CJ _]. unfold cjk, RuneError in CJ. lia.
Qed.

(* the text behind a Kanji symbol, for a reader with a Shift-JIS table: all of its bytes *)
Theorem C54_kanji_text_recovered :
  forall sjis, shift_jis_contract sjis ->
  forall unsjis, (forall r hi lo, kanji_char sjis r -> sjis r = Some [hi; lo] -> unsjis (hi * 256 + lo) = r) ->
  forall text opts sched q codes,
    NewWith sjis text opts sched = Ok q -> ~ misdetected sjis opts (text_bytes text) ->
    read_symbol (m_bitmap (qMat q)) = Some (KanjiSeg codes) ->
    utf8 (map unsjis codes) = text_bytes text.
Proof.
  intros sjis C un HU t opts sched q codes HN NM R. destruct (made_carries sjis C t opts sched q HN NM) as (md & seg & R' & CA & EN).
  rewrite R in R'. injection R' as <-. destruct md; cbn [carries] in CA; try discriminate CA. destruct CA as (cs & [= <-] & E).
  rewrite <- (C55_encode_decode t) by (apply (kanji_no_error sjis); auto). f_equal.
  unfold encodable in EN. revert E EN. generalize (go_runes (text_bytes t)). clear -HU. induction codes as [|c cs IH]; intros [|r rs] E EN; try discriminate E; [reflexivity|].
  cbn [map] in *. injection E as E1 E2. inversion EN as [|? ? Kr EN2]; subst. f_equal; auto. unfold double_byte in E1. destruct (sjis r) as [[|hi [|lo [|]]]|] eqn:S; try discriminate E1.
  injection E1 as ->. apply HU; auto.
Qed.

Theorem C54_distinct_texts_partial :
  forall sjis, shift_jis_contract sjis -> injective_sjis sjis ->
  forall text text' opts opts' sched sched' q q',
    NewWith sjis text opts sched = Ok q -> NewWith sjis text' opts' sched' = Ok q' ->
    ~ misdetected sjis opts (text_bytes text) -> ~ misdetected sjis opts' (text_bytes text') ->
    text_bytes text <> text_bytes text' ->
    m_bitmap (qMat q) <> m_bitmap (qMat q').
Proof.
  intros sjis C INJ t t' o o' s s' q q' HN HN' NM NM' DT EB. apply DT. clear DT.
  destruct (made_carries sjis C t o s q HN NM) as (md & seg & R & CA & EN). destruct (made_carries sjis C t' o' s' q' HN' NM') as (md' & seg' & R' & CA' & EN').
  rewrite EB, R' in R. injection R as ->.
  destruct md, md'; cbn [carries] in CA, CA'; try (subst seg; congruence);
    try (destruct CA as (? & ? & _); congruence); try (destruct CA' as (? & ? & _); congruence).
  destruct CA as (cs & -> & E). destruct CA' as (cs' & [= <-] & E').
  rewrite <- (C55_encode_decode t), <- (C55_encode_decode t') by (apply (kanji_no_error sjis); auto). f_equal. clear R'.
  unfold encodable in EN, EN'. revert cs E E' EN EN'. generalize (go_runes (text_bytes t')). generalize (go_runes (text_bytes t)). clear -INJ C.
  induction l as [|a l IH]; intros [|b l'] [|c cs] E E' EN EN'; try discriminate; auto. cbn [map] in E, E'.
  injection E as Ea E. injection E' as Eb E'. inversion EN as [|? ? Ka EN2]; subst. inversion EN' as [|? ? Kb EN2']; subst. f_equal; [|eapply IH; eauto].
  unfold double_byte in Ea, Eb. destruct (sjis a) as [[|h1 [|l1 [|]]]|] eqn:S1; try discriminate Ea. destruct (sjis b) as [[|h2 [|l2 [|]]]|] eqn:S2; try discriminate Eb.
  pose proof (sj_bytes _ C a _ S1) as F1. pose proof (sj_bytes _ C b _ S2) as F2. inversion F1 as [|? ? _ F1']; subst. inversion F1'; subst. inversion F2 as [|? ? _ F2']; subst. inversion F2'; subst.
  injection Ea as Ea. injection Eb as Eb. assert (h1 = h2 /\ l1 = l2) as [-> ->] by lia. apply (INJ a b _ Ka Kb S1 S2).
Qed.

(* "1" followed by a kanji and "2" followed by the same kanji give the same symbol *)
Definition two_kanji : GoText := GoString [x32; xe7; x82; xb9].
Lemma same_view : view (NewWith sample_sjis one_kanji [] fair_schedule) = view (NewWith sample_sjis two_kanji [] fair_schedule).
Proof. vm_compute. reflexivity. Qed.
Lemma view_some : match view (NewWith sample_sjis one_kanji [] fair_schedule) with Some _ => true | None => false end = true.
Proof. vm_compute. reflexivity. Qed.

Lemma sample_injective : injective_sjis sample_sjis.
Proof.
  intros r r' c _ _. unfold sample_sjis.
  destruct ((0x20 <=? r) && (r <=? 0x7F)), ((0x20 <=? r') && (r' <=? 0x7F)); [congruence| | |];
  repeat match goal with |- context [?a =? ?b] => destruct (Z.eqb_spec a b) end; try congruence.
Qed.

Theorem C54_distinct_texts_refuted :
  ~ (forall sjis, shift_jis_contract sjis -> injective_sjis sjis ->
     forall text text' sched sched' q q',
       New sjis text sched = Ok q -> New sjis text' sched' = Ok q' ->
       text_bytes text <> text_bytes text' -> m_bitmap (qMat q) <> m_bitmap (qMat q')).
Proof.
  intros X. pose proof same_view as V. pose proof view_some as W.
  destruct (NewWith sample_sjis one_kanji [] fair_schedule) as [q| | |] eqn:E1; try discriminate W.
  destruct (NewWith sample_sjis two_kanji [] fair_schedule) as [q'| | |] eqn:E2; try discriminate V.
  cbn [view] in V. injection V as _ V. apply (X sample_sjis sample_contract sample_injective one_kanji two_kanji _ _ q q' E1 E2); auto.
  vm_compute. discriminate.
Qed.

(* ------------------------------------------------------------------ non-vacuity *)
Example C54_example : (exists q, NewWith sample_sjis hello [] fair_schedule = Ok q) /\ ~ misdetected sample_sjis [] (text_bytes hello) /\
  (exists q, NewWith sample_sjis kanji1 [WithEncodingMode 16] fair_schedule = Ok q) /\ ~ misdetected sample_sjis [WithEncodingMode 16] (text_bytes kanji1) /\
  injective_sjis sample_sjis.
Proof.
  split; [apply hello_ok; auto|]. split; [intros [_ X]; apply (hello_not_mixed X)|]. split; [destruct C02_example as (q & E & _); eauto|].
  split; [intros [X _]; discriminate X|exact sample_injective].
Qed.
Example C55_example : go_runes (utf8 [0x41; 0xE9; 0x70B9; 0x1F600]) = [0x41; 0xE9; 0x70B9; 0x1F600] /\ go_runes [0xED; 0xA0; 0x80] = [0xFFFD; 0xFFFD; 0xFFFD].
Proof. vm_compute. auto. Qed.

Print Assumptions C54_kanji_text_recovered.
Print Assumptions C54_distinct_texts_partial.
Print Assumptions C54_distinct_texts_refuted.
Print Assumptions C55_characters_scalar.
Print Assumptions C55_decode_encode.
Print Assumptions C55_encode_decode.
Print Assumptions C55_rune_to_string.
