(* Concrete inputs used to show that the hypotheses of the theorems can be met. *)
From Coq Require Import Lia Init.Byte.
From Verif Require Import ModelBase ModelUtf8 ModelQRCode SpecIso SpecReader SpecSegment SpecAPI.

(* a fragment of Shift-JIS: ASCII, the ideographic space and two kanji *)
Definition sample_sjis (r : Z) : option (list Z) :=
  if (0x20 <=? r) && (r <=? 0x7F) then Some [r]
  else if r =? 0x70B9 then Some [0x93; 0x5F]
  else if r =? 0x8317 then Some [0xE4; 0xAA]
  else if r =? 0x3000 then Some [0x81; 0x40]
  else None.

Lemma sample_contract : shift_jis_contract sample_sjis.
Proof.
  constructor; unfold sample_sjis.
  - intros r bs. destruct ((0x20 <=? r) && (r <=? 0x7F)) eqn:A.
    { intros [= <-]. apply andb_true_iff in A as [A B]. apply Z.leb_le in A, B. repeat constructor; lia. }
    destruct (r =? 0x70B9); [intros [= <-]; repeat constructor; lia|].
    destruct (r =? 0x8317); [intros [= <-]; repeat constructor; lia|].
    destruct (r =? 0x3000); [intros [= <-]; repeat constructor; lia|]. discriminate.
  - intros r hi lo. destruct ((0x20 <=? r) && (r <=? 0x7F)); [discriminate|].
    destruct (r =? 0x70B9); [intros [= <- <-]; lia|].
    destruct (r =? 0x8317); [intros [= <- <-]; lia|].
    destruct (r =? 0x3000); [intros [= <- <-]; lia|]. discriminate.
  - intros r. destruct ((0x20 <=? r) && (r <=? 0x7F)); [discriminate|].
    destruct (r =? 0x70B9); [discriminate|]. destruct (r =? 0x8317); [discriminate|].
    destruct (Z.eqb_spec r 0x3000); [auto|discriminate].
  - intros r Hr. destruct (Z.leb_spec 0x20 r); [|lia]. destruct (Z.leb_spec r 0x7F); [|lia]. reflexivity.
Qed.

(* round-robin, 57 rounds *)
Definition fair_schedule : list actor := concat (repeat all_actors 57).
Lemma fair_schedule_fair : fair fair_schedule.
Proof.
  exists (repeat all_actors 57), []. split; [rewrite app_nil_r; reflexivity|]. split; [apply repeat_length|].
  apply Forall_forall. intros r Hr. apply repeat_spec in Hr. subst r. intros a Ha. exact Ha.
Qed.

(* "HELLO", "0123", the kanji text, and an alphanumeric character followed by a kanji *)
Definition hello : GoText := GoString [x48; x45; x4c; x4c; x4f].
Definition digits4 : GoText := GoBytes [x30; x31; x32; x33].
Definition kanji1 : GoText := GoString [xe7; x82; xb9].
Definition one_kanji : GoText := GoString [x31; xe7; x82; xb9].

Lemma digits4_runes : go_runes (text_bytes digits4) = [48; 49; 50; 51]. Proof. vm_compute. reflexivity. Qed.
Lemma hello_runes : go_runes (text_bytes hello) = [72; 69; 76; 76; 79]. Proof. vm_compute. reflexivity. Qed.
Lemma kanji1_runes : go_runes (text_bytes kanji1) = [0x70B9]. Proof. vm_compute. reflexivity. Qed.
Lemma one_kanji_runes : go_runes (text_bytes one_kanji) = [49; 0x70B9]. Proof. vm_compute. reflexivity. Qed.

Lemma kanji_70B9 : kanji_char sample_sjis 0x70B9.
Proof. split; [left; lia|]. exists 0x935F. split; [reflexivity|lia]. Qed.
Lemma alnum_dec c : existsb (Z.eqb c) alphanumeric_table = true -> alnum_ch c.
Proof. intros E. apply existsb_exists in E as (x & HI & E). apply Z.eqb_eq in E. subst x. exact HI. Qed.

Lemma digits4_numeric : documented_mode sample_sjis (text_bytes digits4) Numeric.
Proof.
  split; [|intros []; cbn [mode_rank]; lia]. unfold encodable. rewrite digits4_runes.
  repeat apply Forall_cons; try apply Forall_nil; cbn [representable]; unfold digit_ch; lia.
Qed.
Lemma hello_alnum : documented_mode sample_sjis (text_bytes hello) Alphanumeric.
Proof.
  split; unfold encodable; rewrite hello_runes.
  - repeat apply Forall_cons; try apply Forall_nil; apply alnum_dec; reflexivity.
  - intros []; cbn [mode_rank]; intros X; try lia. intros F. inversion F as [|? ? F1 _]; subst. cbn [representable] in F1. unfold digit_ch in F1. lia.
Qed.
Lemma hello_not_mixed : ~ alnum_then_kanji sample_sjis (text_bytes hello).
Proof.
  intros (pre & ks & E & _ & N & _ & K). rewrite hello_runes in E. assert (IK : forall k, In k ks -> In k [72; 69; 76; 76; 79]).
  { intros k Hk. rewrite E. apply in_or_app. auto. }
  destruct ks as [|k ks]; [congruence|]. inversion K as [|? ? [CJ _] _]; subst.
  specialize (IK k (or_introl eq_refl)). unfold cjk in CJ. cbn [In] in IK. lia.
Qed.
Lemma kanji1_kanji : encodable sample_sjis Kanji (text_bytes kanji1).
Proof. unfold encodable. rewrite kanji1_runes. apply Forall_cons; [exact kanji_70B9|apply Forall_nil]. Qed.
Lemma one_kanji_mixed : alnum_then_kanji sample_sjis (text_bytes one_kanji).
Proof.
  exists [49], [0x70B9]. split; [exact one_kanji_runes|]. split; [discriminate|]. split; [discriminate|].
  split; (apply Forall_cons; [|apply Forall_nil]); [apply alnum_dec; reflexivity|exact kanji_70B9].
Qed.
