(* Character sets, rune decoding and the choice of the encoding mode. *)
From Verif Require Import ModelBase ModelBinary ModelUtf8 ModelVersion ModelChardet ModelEncoder ModelQRCode.
From Verif Require Import SpecIso SpecReader SpecSegment.
From Verif Require Import ProofBase ProofBits ProofSweep ProofSymbol ProofTables ProofEncode.

(* ---- ASCII ---- *)
Lemma go_runes_ascii s : Forall (fun b => b < 0x80) s -> go_runes s = s.
Proof.
  induction 1 as [|b s Hb HF IH]; [reflexivity|]. cbn [go_runes].
  destruct (Z.ltb_spec b 128); [|lia]. rewrite IH. reflexivity.
Qed.

Ltac bfix := rewrite ?andb_true_iff, ?orb_true_iff, ?negb_true_iff, ?Z.leb_le, ?Z.ltb_lt, ?Z.eqb_eq, ?Z.leb_gt, ?Z.ltb_ge in *.

Lemma go_runes_head b0 t : 0x80 <= b0 -> exists r rest, go_runes (b0 :: t) = r :: rest /\ 0x80 <= r.
Proof.
  intros Hb. cbn [go_runes]. destruct (Z.ltb_spec b0 128); [lia|].
  assert (RE : 0x80 <= RuneError) by (unfold RuneError; lia).
  destruct t as [|b1 t1]; [eauto|].
  destruct ((0xC2 <=? b0) && (b0 <=? 0xDF) && is_cont b1) eqn:C2.
  { eexists _, _. split; [reflexivity|]. unfold is_cont in *. bfix. lia. }
  destruct t1 as [|b2 t2]; [eauto|].
  match goal with |- context [if ?c then _ else _] => destruct c eqn:C3 end.
  { eexists _, _. split; [reflexivity|]. unfold is_cont in *.
    destruct (Z.eqb_spec b0 0xE0); bfix; lia. }
  destruct t2 as [|b3 t3]; [eauto|].
  match goal with |- context [if ?c then _ else _] => destruct c eqn:C4 end; [|eauto].
  eexists _, _. split; [reflexivity|]. unfold is_cont in *.
  destruct (Z.eqb_spec b0 0xF0); bfix; lia.
Qed.

Lemma runes_ascii s : Forall (fun r => r < 0x80) (go_runes s) -> go_runes s = s.
Proof.
  induction s as [|b s IH]; [reflexivity|]. intros HF.
  destruct (Z.ltb_spec b 0x80) as [X|X].
  - assert (E : go_runes (b :: s) = b :: go_runes s).
    { cbn [go_runes]. destruct (Z.ltb_spec b 128); [reflexivity|lia]. }
    rewrite E in *. inversion HF; subst. rewrite IH by auto. reflexivity.
  - destruct (go_runes_head b s X) as (r & rest & E & Hr). rewrite E in HF. inversion HF; subst. lia.
Qed.

Lemma digit_ascii c : is_digit c -> c < 0x80. Proof. unfold is_digit; lia. Qed.
Lemma alnum_ascii c : is_alnum c -> 0 <= c < 0x80. Proof. intros [x E]. apply alnum_char_range in E. lia. Qed.
Lemma digit_alnum c : is_digit c -> is_alnum c.
Proof.
  intros Hd. apply analyzeAlphaNum_iff. unfold analyzeAlphaNum. unfold is_digit in Hd.
  destruct (Z.leb_spec 48 c); [|lia]. destruct (Z.leb_spec c 57); [reflexivity|lia].
Qed.

(* character sets over the runes of a text *)
Lemma runes_digits s : Forall is_digit (go_runes s) <-> Forall is_digit s.
Proof.
  split; intros HF.
  - rewrite <- (runes_ascii s); auto. eapply Forall_impl; [|exact HF]. apply digit_ascii.
  - rewrite (go_runes_ascii s); auto. eapply Forall_impl; [|exact HF]. apply digit_ascii.
Qed.
Lemma runes_alnum s : Forall is_alnum (go_runes s) <-> Forall is_alnum s.
Proof.
  split; intros HF.
  - rewrite <- (runes_ascii s); auto. eapply Forall_impl; [|exact HF]. intros a Ha. apply alnum_ascii in Ha. lia.
  - rewrite (go_runes_ascii s); auto. eapply Forall_impl; [|exact HF]. intros a Ha. apply alnum_ascii in Ha. lia.
Qed.

Lemma forallb_Forall {A} (f : A -> bool) (P : A -> Prop) l : (forall a, f a = true <-> P a) -> forallb f l = true <-> Forall P l.
Proof.
  intros E. rewrite forallb_forall, Forall_forall. split; intros HF a Ha; apply E, HF, Ha.
Qed.

Section Sjis.
  Variable sjis : Z -> option (list Z).
  Definition is_kanji (r : Z) : Prop := analyzeJP sjis r = true.

  Lemma kanji_not_ascii r : is_kanji r -> 0x3400 <= r.
  Proof.
    unfold is_kanji, analyzeJP. intros HK.
    destruct (((0x4E00 <=? r) && (r <=? 0x9FFF)) || ((0x3400 <=? r) && (r <=? 0x4DBF)) || ((0xF900 <=? r) && (r <=? 0xFAFF))) eqn:E;
      [|simpl in HK; discriminate].
    bfix. lia.
  Qed.

  Lemma reAnalyze_num r : reAnalyze sjis 5 EncModeNumeric r =
    Some (if analyzeNum r then EncModeNumeric else if analyzeAlphaNum r then EncModeAlphanumeric
          else if analyzeJP sjis r then EncModeKanji else EncModeByte, false).
  Proof.
    cbn -[analyzeNum analyzeAlphaNum analyzeJP].
    destruct (analyzeNum r); [reflexivity|]. destruct (analyzeAlphaNum r); [reflexivity|].
    destruct (analyzeJP sjis r); reflexivity.
  Qed.
  Lemma reAnalyze_alnum r : reAnalyze sjis 5 EncModeAlphanumeric r =
    Some (if analyzeAlphaNum r then EncModeAlphanumeric else if analyzeJP sjis r then EncModeKanji else EncModeByte, false).
  Proof.
    cbn -[analyzeNum analyzeAlphaNum analyzeJP]. destruct (analyzeAlphaNum r); [reflexivity|].
    destruct (analyzeJP sjis r); reflexivity.
  Qed.
  Lemma reAnalyze_kanji r : reAnalyze sjis 5 EncModeKanji r =
    Some (if analyzeJP sjis r then EncModeKanji else EncModeByte, false).
  Proof. cbn -[analyzeNum analyzeAlphaNum analyzeJP]. destruct (analyzeJP sjis r); reflexivity. Qed.
  Lemma reAnalyze_byte r : reAnalyze sjis 5 EncModeByte r = Some (EncModeByte, false).
  Proof. reflexivity. Qed.

  (* what the analyser computes *)
  Inductive auto_mode (rs : list Z) : mode -> Prop :=
  | AutoNumeric : Forall is_digit rs -> auto_mode rs Numeric
  | AutoAlphanumeric : Forall is_alnum rs -> ~ Forall is_digit rs -> auto_mode rs Alphanumeric
  | AutoKanji pre ks : rs = pre ++ ks -> ks <> [] -> Forall is_alnum pre -> Forall is_kanji ks -> auto_mode rs Kanji
  | AutoByte : ~ Forall is_alnum rs -> (forall pre ks, rs = pre ++ ks -> ks <> [] -> Forall is_alnum pre -> ~ Forall is_kanji ks) -> auto_mode rs Byte.

  Lemma loop_byte rs : analyze_loop sjis EncModeByte rs = Some EncModeByte.
  Proof. induction rs as [|r rs IH]; [reflexivity|]. cbn [analyze_loop]. rewrite reAnalyze_byte. exact IH. Qed.

  Lemma loop_kanji rs : (analyze_loop sjis EncModeKanji rs = Some EncModeKanji /\ Forall is_kanji rs)
    \/ (analyze_loop sjis EncModeKanji rs = Some EncModeByte /\ ~ Forall is_kanji rs).
  Proof.
    induction rs as [|r rs IH]; [left; split; [reflexivity|constructor]|].
    cbn [analyze_loop]. rewrite reAnalyze_kanji. destruct (analyzeJP sjis r) eqn:E.
    - destruct IH as [[-> HF]|[-> HF]]; [left|right]; split; auto.
      intros HH; inversion HH; auto.
    - right. rewrite loop_byte. split; auto. intros HH; inversion HH as [|? ? X]; subst. unfold is_kanji in X. congruence.
  Qed.

  Lemma not_alnum r : analyzeAlphaNum r = false -> ~ is_alnum r.
  Proof. intros E HH. apply analyzeAlphaNum_iff in HH. congruence. Qed.

  Lemma split_head pre ks r rs : r :: rs = pre ++ ks -> ~ is_alnum r -> Forall is_alnum pre -> pre = [] /\ ks = r :: rs.
  Proof. intros E Hn Hp. destruct pre; [auto|]. inversion E; subst. inversion Hp; tauto. Qed.

  Lemma is_kanji_not_alnum r : is_kanji r -> ~ is_alnum r.
  Proof. intros HK HA. apply kanji_not_ascii in HK. apply alnum_ascii in HA. lia. Qed.

  (* the state machine in alphanumeric mode: like auto_mode but with "digits" forgotten *)
  Lemma loop_alnum rs :
    (analyze_loop sjis EncModeAlphanumeric rs = Some EncModeAlphanumeric /\ Forall is_alnum rs)
    \/ (analyze_loop sjis EncModeAlphanumeric rs = Some EncModeKanji /\
        exists pre ks, rs = pre ++ ks /\ ks <> [] /\ Forall is_alnum pre /\ Forall is_kanji ks)
    \/ (analyze_loop sjis EncModeAlphanumeric rs = Some EncModeByte /\ ~ Forall is_alnum rs /\
        forall pre ks, rs = pre ++ ks -> ks <> [] -> Forall is_alnum pre -> ~ Forall is_kanji ks).
  Proof.
    induction rs as [|r rs IH]; [left; split; [reflexivity|constructor]|].
    cbn [analyze_loop]. rewrite reAnalyze_alnum. destruct (analyzeAlphaNum r) eqn:E.
    - apply analyzeAlphaNum_iff in E. destruct IH as [[-> HF]|[[-> (pre & ks & -> & Hne & Hp & Hk)]|[-> [Hn Hs]]]].
      + left; auto.
      + right; left. split; auto. exists (r :: pre), ks. auto.
      + right; right. split; auto. split; [intros HH; inversion HH; auto|].
        intros [|p pre] ks Eq Hne Hp Hk.
        * simpl in Eq. subst ks. inversion Hk as [|? ? X]; subst. apply is_kanji_not_alnum in X. tauto.
        * inversion Eq; subst. inversion Hp; subst. eapply Hs; eauto.
    - apply not_alnum in E. destruct (analyzeJP sjis r) eqn:EK.
      + destruct (loop_kanji rs) as [[-> HF]|[-> HF]]; right; [left|right]; split; auto.
        * exists [], (r :: rs). repeat split; auto. discriminate. 
        * split; [intros HH; inversion HH; auto|].
          intros pre ks Eq Hne Hp Hk. destruct (split_head _ _ _ _ Eq E Hp) as [-> ->]. inversion Hk; auto.
      + rewrite loop_byte. right; right. split; auto. split; [intros HH; inversion HH; auto|].
        intros pre ks Eq Hne Hp Hk. destruct (split_head _ _ _ _ Eq E Hp) as [-> ->]. inversion Hk as [|? ? X]; subst.
        unfold is_kanji in X. congruence.
  Qed.

  Lemma loop_num rs : exists md, analyze_loop sjis EncModeNumeric rs = Some (mode_const md) /\ auto_mode rs md.
  Proof.
    induction rs as [|r rs IH]; [exists Numeric; split; [reflexivity|constructor; constructor]|].
    cbn [analyze_loop]. rewrite reAnalyze_num. destruct (analyzeNum r) eqn:EN.
    - apply analyzeNum_iff in EN. destruct IH as (md & -> & HA). exists md. split; auto.
      pose proof (digit_alnum _ EN) as EA.
      destruct HA as [HD|HA HD|pre ks -> Hne Hp Hk|HA HS].
      + constructor; auto.
      + constructor; auto. intros HH; inversion HH; auto.
      + apply AutoKanji with (r :: pre) ks; auto.
      + apply AutoByte; [intros HH; inversion HH; auto|].
        intros [|p pre] ks Eq Hne Hp Hk.
        * simpl in Eq. subst ks. inversion Hk as [|? ? X]; subst. apply is_kanji_not_alnum in X. tauto.
        * inversion Eq; subst. inversion Hp; subst. eapply HS; eauto.
    - assert (ND : ~ is_digit r) by (intros HH; apply analyzeNum_iff in HH; congruence).
      destruct (analyzeAlphaNum r) eqn:E.
      + pose proof (proj1 (analyzeAlphaNum_iff r) E) as EA.
        destruct (loop_alnum (r :: rs)) as [[HL HF]|[[HL (pre & ks & EQ & Hne & Hp & Hk)]|[HL [Hn Hs]]]];
          cbn [analyze_loop] in HL; rewrite reAnalyze_alnum, E in HL; rewrite HL.
        * exists Alphanumeric. split; auto. constructor; auto. intros HH; inversion HH; auto.
        * exists Kanji. split; auto. eapply AutoKanji; eauto.
        * exists Byte. split; auto. apply AutoByte; auto.
      + pose proof (not_alnum _ E) as EA.
        destruct (loop_alnum (r :: rs)) as [[HL HF]|[[HL (pre & ks & EQ & Hne & Hp & Hk)]|[HL [Hn Hs]]]];
          cbn [analyze_loop] in HL; rewrite reAnalyze_alnum, E in HL; rewrite HL.
        * inversion HF; tauto.
        * exists Kanji. split; auto. eapply AutoKanji; eauto.
        * exists Byte. split; auto. apply AutoByte; auto.
  Qed.

  Lemma analyze_facts raw : exists md,
    analyzeEncodeModeFromRaw sjis raw = Ok (mode_const md) /\ auto_mode (go_runes raw) md.
  Proof.
    unfold analyzeEncodeModeFromRaw. change (Z.shiftl EncModeNone 1) with EncModeNumeric.
    destruct (loop_num (go_runes raw)) as (md & -> & HA). exists md. split; auto. destruct md; reflexivity.
  Qed.

  Lemma validate_numeric raw : validateEncodingMode sjis EncModeNumeric raw = true <-> Forall is_digit raw.
  Proof.
    unfold validateEncodingMode. simpl Z.eqb. cbv iota. rewrite <- runes_digits.
    apply forallb_Forall. apply analyzeNum_iff.
  Qed.
  Lemma validate_alnum raw : validateEncodingMode sjis EncModeAlphanumeric raw = true <-> Forall is_alnum raw.
  Proof.
    unfold validateEncodingMode. simpl Z.eqb. cbv iota. rewrite <- runes_alnum.
    apply forallb_Forall. apply analyzeAlphaNum_iff.
  Qed.
  Lemma validate_kanji raw : validateEncodingMode sjis EncModeKanji raw = true <-> Forall is_kanji (go_runes raw).
  Proof. unfold validateEncodingMode. simpl Z.eqb. cbv iota. apply forallb_Forall. intros; reflexivity. Qed.
  Lemma validate_other mode raw : mode <> EncModeNumeric -> mode <> EncModeAlphanumeric -> mode <> EncModeKanji ->
    validateEncodingMode sjis mode raw = true.
  Proof.
    intros A B C. unfold validateEncodingMode.
    rewrite (proj2 (Z.eqb_neq _ _) A), (proj2 (Z.eqb_neq _ _) B), (proj2 (Z.eqb_neq _ _) C). reflexivity.
  Qed.
End Sjis.
