(* Decoding and encoding UTF-8 are inverse. *)
From Coq Require Import Lia.
From Verif Require Import ModelBase ModelUtf8 SpecUtf8 ProofBase ProofBits.

Ltac cases :=
  repeat match goal with
  | |- context [Z.eqb ?a ?b] => destruct (Z.eqb_spec a b); cbn [andb orb]; try lia
  | |- context [Z.leb ?a ?b] => destruct (Z.leb_spec a b); cbn [andb orb]; try lia
  | |- context [Z.ltb ?a ?b] => destruct (Z.ltb_spec a b); cbn [andb orb]; try lia
  end.

Lemma div_split a k : 0 < k -> a = k * (a / k) + a mod k /\ 0 <= a mod k < k.
Proof. intros K. split; [apply Z.div_mod; lia|apply Z.mod_pos_bound; lia]. Qed.
Lemma div_is a k q r : 0 <= r < k -> a = k * q + r -> a / k = q.
Proof. intros R E. symmetry. apply (Z.div_unique a k q r); auto. Qed.
Lemma mod_is a k q r : 0 <= r < k -> a = k * q + r -> a mod k = r.
Proof. intros R E. symmetry. apply (Z.mod_unique a k q r); auto. Qed.

Lemma runes_encode r s : scalar r -> go_runes (go_string_of_rune r ++ s) = r :: go_runes s.
Proof.
  intros SC. unfold scalar in SC. unfold go_string_of_rune.
  destruct (div_split r 64 ltac:(lia)) as [A1 A2]. destruct (div_split (r / 64) 64 ltac:(lia)) as [B1 B2].
  assert (D1 : r / 4096 = r / 64 / 64) by (rewrite Z.div_div by lia; reflexivity).
  destruct (div_split (r / 4096) 64 ltac:(lia)) as [C1 C2].
  assert (D2 : r / 262144 = r / 4096 / 64) by (rewrite Z.div_div by lia; reflexivity).
  set (q1 := r / 64) in *. set (r1 := r mod 64) in *. set (q2 := r / 4096) in *. set (r2 := q1 mod 64) in *. set (q3 := r / 262144) in *. set (r3 := q2 mod 64) in *.
  rewrite <- D1 in B1. rewrite <- D2 in C1. clearbody q1 r1 q2 r2 q3 r3. clear D1 D2.
  destruct (Z.ltb_spec r 0x80); [|destruct (Z.ltb_spec r 0x800); [|destruct (Z.ltb_spec r 0x10000)]].
  - replace (0 <=? r) with true by lia. cbn [andb app go_runes]. replace (r <? 128) with true by lia. reflexivity.
  - replace (0 <=? r) with true by lia. replace (0x80 <=? r) with true by lia. cbn [andb app go_runes]. unfold is_cont.
    cases. f_equal. lia.
  - assert (E : ((2048 <=? r) && (r <? 55296) || (57344 <=? r) && true) = true) by (cases; reflexivity).
    replace (0 <=? r) with true by lia. replace (0x80 <=? r) with true by lia. cbn [andb]. rewrite E. cbn [app go_runes]. unfold is_cont.
    replace (224 + q2 <? 128) with false by lia. replace (194 <=? 224 + q2) with true by lia. replace (224 + q2 <=? 223) with false by lia. cbn [andb].
    replace (224 <=? 224 + q2) with true by lia. replace (224 + q2 <=? 239) with true by lia.
    replace (128 <=? 128 + r1) with true by lia. replace (128 + r1 <=? 191) with true by lia.
    replace ((if 224 + q2 =? 224 then 160 else 128) <=? 128 + r2) with true by (cases; reflexivity).
    replace (128 + r2 <=? (if 224 + q2 =? 237 then 159 else 191)) with true by (cases; reflexivity). cbn [andb]. f_equal. lia.
  - assert (E : ((2048 <=? r) && (r <? 55296) || (57344 <=? r) && false) = false) by (cases; reflexivity).
    replace (0 <=? r) with true by lia. replace (0x80 <=? r) with true by lia. cbn [andb]. rewrite E.
    replace (65536 <=? r) with true by lia. replace (r <? 1114112) with true by lia. cbn [andb app go_runes]. unfold is_cont.
    replace (240 + q3 <? 128) with false by lia. replace (194 <=? 240 + q3) with true by lia. replace (240 + q3 <=? 223) with false by lia. cbn [andb].
    replace (224 <=? 240 + q3) with true by lia. replace (240 + q3 <=? 239) with false by lia. cbn [andb].
    replace (240 <=? 240 + q3) with true by lia. replace (240 + q3 <=? 244) with true by lia.
    replace (128 <=? 128 + r1) with true by lia. replace (128 + r1 <=? 191) with true by lia.
    replace (128 <=? 128 + r2) with true by lia. replace (128 + r2 <=? 191) with true by lia.
    replace ((if 240 + q3 =? 240 then 144 else 128) <=? 128 + r3) with true by (cases; reflexivity).
    replace (128 + r3 <=? (if 240 + q3 =? 244 then 143 else 191)) with true by (cases; reflexivity). cbn [andb]. f_equal. lia.
Qed.

(* Go's string(r) is the UTF-8 encoding *)
Lemma cont_mod r i : 0 <= i -> cont r i = 0x80 + (r / 2 ^ (6 * i)) mod 64.
Proof.
  intros I. unfold cont. change 0x3F with (Z.ones 6). rewrite Z.land_ones, Z.shiftr_div_pow2 by lia. reflexivity.
Qed.
Lemma utf8_char_string r : scalar r -> utf8_char r = go_string_of_rune r.
Proof.
  intros SC. unfold scalar in SC. unfold utf8_char, go_string_of_rune. rewrite !cont_mod, !Z.shiftr_div_pow2 by lia.
  change (2 ^ (6 * 0)) with 1. change (2 ^ (6 * 1)) with 64. change (2 ^ (6 * 2)) with 4096. change (2 ^ 6) with 64. change (2 ^ 12) with 4096. change (2 ^ 18) with 262144.
  rewrite Z.div_1_r. cases; reflexivity.
Qed.

Theorem runes_of_utf8 rs : Forall scalar rs -> go_runes (utf8 rs) = rs.
Proof. induction 1 as [|r rs SC _ IH]; [reflexivity|]. cbn [utf8 flat_map]. rewrite utf8_char_string, runes_encode by auto. f_equal. exact IH. Qed.

(* one step of the decoder: an error, or one scalar value whose encoding has been consumed *)
Lemma runes_step b t : Forall is_byte (b :: t) ->
  (exists r s, scalar r /\ b :: t = go_string_of_rune r ++ s /\ go_runes (b :: t) = r :: go_runes s /\ (length s <= length t)%nat /\ Forall is_byte s) \/
  go_runes (b :: t) = RuneError :: go_runes t.
Proof.
  intros FB. inversion FB as [|? ? B0 FT]; subst. unfold is_byte in B0. cbn [go_runes].
  destruct (Z.ltb_spec b 0x80).
  { left. exists b, t. split; [unfold scalar; lia|]. split; [|auto]. unfold go_string_of_rune. replace (0 <=? b) with true by lia. replace (b <? 128) with true by lia. reflexivity. }
  destruct t as [|b1 t1]; [right; reflexivity|]. inversion FT as [|? ? B1 FT1]; subst. unfold is_byte in B1.
  destruct ((0xC2 <=? b) && (b <=? 0xDF) && is_cont b1) eqn:E2.
  { left. unfold is_cont in E2. rewrite !andb_true_iff, !Z.leb_le in E2. exists ((b - 0xC0) * 64 + (b1 - 0x80)), t1. split; [unfold scalar; lia|].
    split; [|split; [reflexivity|split; [cbn [length]; lia|auto]]].
    unfold go_string_of_rune. set (r := (b - 0xC0) * 64 + (b1 - 0x80)).
    assert (Q1 : r / 64 = b - 0xC0) by (apply (div_is r 64 _ (b1 - 0x80)); unfold r; lia).
    assert (R1 : r mod 64 = b1 - 0x80) by (apply (mod_is r 64 (b - 0xC0)); unfold r; lia). rewrite Q1, R1.
    assert (R : 0x80 <= r < 0x800) by (unfold r; lia). clearbody r.
    replace (0 <=? r) with true by lia. replace (r <? 128) with false by lia. replace (128 <=? r) with true by lia. replace (r <? 2048) with true by lia. cbn [andb app].
    repeat f_equal; lia. }
  destruct t1 as [|b2 t2]; [right; reflexivity|]. inversion FT1 as [|? ? B2 FT2]; subst. unfold is_byte in B2.
  match goal with |- context [if ?c then _ else _] => destruct c eqn:E3 end.
  { left. unfold is_cont in E3. rewrite !andb_true_iff, !Z.leb_le in E3. destruct E3 as [[[[X1 X2] X3] X4] [X5 X6]].
    exists ((b - 0xE0) * 4096 + (b1 - 0x80) * 64 + (b2 - 0x80)), t2.
    set (r := (b - 0xE0) * 4096 + (b1 - 0x80) * 64 + (b2 - 0x80)).
    assert (B1L : 0x80 <= b1 <= 0xBF) by (destruct (b =? 224), (b =? 237); lia).
    assert (Q1 : r / 64 = (b - 0xE0) * 64 + (b1 - 0x80)) by (apply (div_is r 64 _ (b2 - 0x80)); unfold r; lia).
    assert (R1 : r mod 64 = b2 - 0x80) by (apply (mod_is r 64 ((b - 0xE0) * 64 + (b1 - 0x80))); unfold r; lia).
    assert (R2 : (r / 64) mod 64 = b1 - 0x80) by (rewrite Q1; apply (mod_is _ 64 (b - 0xE0)); lia).
    assert (Q2 : r / 4096 = b - 0xE0) by (apply (div_is r 4096 _ ((b1 - 0x80) * 64 + (b2 - 0x80))); unfold r; lia).
    assert (SC : 0x800 <= r < 0xD800 \/ 0xE000 <= r < 0x10000) by (unfold r; destruct (Z.eqb_spec b 224), (Z.eqb_spec b 237); lia).
    split; [unfold scalar; lia|]. split; [|split; [reflexivity|split; [cbn [length]; lia|auto]]].
    unfold go_string_of_rune. rewrite R2, R1, Q2. clear Q1 R1 R2 Q2. clearbody r.
    assert (E : ((2048 <=? r) && (r <? 55296) || (57344 <=? r) && (r <? 65536)) = true) by (cases; reflexivity). rewrite E.
    replace (0 <=? r) with true by lia. replace (r <? 128) with false by lia. replace (128 <=? r) with true by lia. replace (r <? 2048) with false by lia. cbn [andb app].
    repeat f_equal; lia. }
  destruct t2 as [|b3 t3]; [right; reflexivity|]. inversion FT2 as [|? ? B3 FT3]; subst. unfold is_byte in B3.
  match goal with |- context [if ?c then _ else _] => destruct c eqn:E4 end; [|right; reflexivity].
  left. unfold is_cont in E4. rewrite !andb_true_iff, !Z.leb_le in E4. destruct E4 as [[[[[X1 X2] X3] X4] [X5 X6]] [X7 X8]].
  exists ((b - 0xF0) * 262144 + (b1 - 0x80) * 4096 + (b2 - 0x80) * 64 + (b3 - 0x80)), t3.
  set (r := (b - 0xF0) * 262144 + (b1 - 0x80) * 4096 + (b2 - 0x80) * 64 + (b3 - 0x80)).
  assert (B1L : 0x80 <= b1 <= 0xBF) by (destruct (b =? 240), (b =? 244); lia).
  assert (R1 : r mod 64 = b3 - 0x80) by (apply (mod_is r 64 ((b - 0xF0) * 4096 + (b1 - 0x80) * 64 + (b2 - 0x80))); unfold r; lia).
  assert (Q1 : r / 64 = (b - 0xF0) * 4096 + (b1 - 0x80) * 64 + (b2 - 0x80)) by (apply (div_is r 64 _ (b3 - 0x80)); unfold r; lia).
  assert (R2 : (r / 64) mod 64 = b2 - 0x80) by (rewrite Q1; apply (mod_is _ 64 ((b - 0xF0) * 64 + (b1 - 0x80))); lia).
  assert (Q2 : r / 4096 = (b - 0xF0) * 64 + (b1 - 0x80)) by (apply (div_is r 4096 _ ((b2 - 0x80) * 64 + (b3 - 0x80))); unfold r; lia).
  assert (R3 : (r / 4096) mod 64 = b1 - 0x80) by (rewrite Q2; apply (mod_is _ 64 (b - 0xF0)); lia).
  assert (Q3 : r / 262144 = b - 0xF0) by (apply (div_is r 262144 _ ((b1 - 0x80) * 4096 + (b2 - 0x80) * 64 + (b3 - 0x80))); unfold r; lia).
  assert (SC : 0x10000 <= r < 0x110000) by (unfold r; destruct (Z.eqb_spec b 240), (Z.eqb_spec b 244); lia).
  split; [unfold scalar; lia|]. split; [|split; [reflexivity|split; [cbn [length]; lia|auto]]].
  unfold go_string_of_rune. rewrite R1, R2, R3, Q3. clear Q1 R1 R2 Q2 R3 Q3. clearbody r.
  assert (E : ((2048 <=? r) && (r <? 55296) || (57344 <=? r) && (r <? 65536)) = false) by (cases; reflexivity). rewrite E.
  replace (0 <=? r) with true by lia. replace (r <? 128) with false by lia. replace (128 <=? r) with true by lia. replace (r <? 2048) with false by lia.
  replace (65536 <=? r) with true by lia. replace (r <? 1114112) with true by lia. cbn [andb app]. repeat f_equal; lia.
Qed.

(* decoding yields scalar values only, whatever the bytes *)
Theorem runes_scalar s : Forall is_byte s -> Forall scalar (go_runes s).
Proof.
  remember (length s) as n eqn:N. assert (LE : (length s <= n)%nat) by lia. clear N. revert s LE.
  induction n as [|n IH]; intros [|b t] LE FB; cbn [length] in LE; try lia; try constructor.
  destruct (runes_step b t FB) as [(r & s & SC & _ & -> & L & FS)| ->].
  - constructor; auto. apply IH; auto; lia.
  - constructor; [unfold scalar, RuneError; lia|]. inversion FB; subst. apply IH; auto; lia.
Qed.

(* valid UTF-8 is determined by its characters *)
Theorem utf8_of_runes s : Forall is_byte s -> ~ In RuneError (go_runes s) -> utf8 (go_runes s) = s.
Proof.
  remember (length s) as n eqn:N. assert (LE : (length s <= n)%nat) by lia. clear N. revert s LE.
  induction n as [|n IH]; intros [|b t] LE FB NE; cbn [length] in LE; try lia; try reflexivity.
  destruct (runes_step b t FB) as [(r & s & SC & E1 & E & L & FS)|E]; rewrite E in NE |- *.
  - cbn [utf8 flat_map]. rewrite utf8_char_string by auto. rewrite E1. f_equal. apply IH; auto; [lia|]. intros K. apply NE. right. exact K.
  - exfalso. apply NE. left. reflexivity.
Qed.
