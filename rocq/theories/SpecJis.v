(* Vocabulary for C87: the ideographs of Shift-JIS. *)
From Verif Require Import ModelBase SpecSegment.
From Verif Require Export SpecJisTable.

(* the codes ISO 18004 has room for *)
Definition qr_range (c : Z) : Prop := 0x8140 <= c <= 0x9FFC \/ 0xE040 <= c <= 0xEBBF.
(* an ideograph of JIS X 0208 *)
Definition jis_kanji (r : Z) : Prop := exists c, In (c, r) ideographs /\ qr_range c.
(* the conversion treats ideographs as the table says (what it does to other characters does not matter) *)
Definition agrees (sjis : Z -> option (list Z)) : Prop :=
  (forall c r, In (c, r) ideographs -> sjis r = Some [c / 256; c mod 256]) /\
  (forall r, cjk r -> ~ In r (map snd ideographs) -> sjis r = None).
(* what a reader shows for a code *)
Definition char_of (c : Z) : Z := match find (fun '(c', _) => c' =? c) ideographs with Some (_, r) => r | None => 0xFFFD end.
(* a conversion that does: ASCII, half-width katakana, the ideographic space and the table *)
Definition shift_jis (r : Z) : option (list Z) :=
  if (0x20 <=? r) && (r <=? 0x7E) then Some [r]
  else if (0xFF61 <=? r) && (r <=? 0xFF9F) then Some [r - 0xFF61 + 0xA1]
  else if r =? 0x3000 then Some [0x81; 0x40]
  else match find (fun '(_, r') => r' =? r) ideographs with Some (c, _) => Some [c / 256; c mod 256] | None => None end.
