(* Independent specification of segment encoding and capacity (ISO/IEC 18004, clause 7.4). *)
From Verif Require Export SpecIso SpecReader.

Inductive mode := Numeric | Alphanumeric | Byte | Kanji.

Definition indicator (md : mode) : Z := match md with Numeric => 1 | Alphanumeric => 2 | Byte => 4 | Kanji => 8 end.

Definition width_of (v : Z) (md : mode) : Z :=
  match count_width (indicator md) v with Some w => w | None => 0 end.

(* payload bits of n characters (bytes in byte mode) *)
Definition payload_length (md : mode) (n : Z) : Z :=
  match md with
  | Numeric => 10 * (n / 3) + (match n mod 3 with 0 => 0 | 1 => 4 | _ => 7 end)
  | Alphanumeric => 11 * (n / 2) + 6 * (n mod 2)
  | Byte => 8 * n
  | Kanji => 13 * n
  end.

Definition needed_bits (v : Z) (md : mode) (n : Z) : Z := 4 + width_of v md + payload_length md n.

(* n characters fit a symbol of version v and level l *)
Definition fits (v : Z) (l : level) (md : mode) (n : Z) : Prop := needed_bits v md n <= 8 * data_codewords v l.

(* payloads *)
Fixpoint numeric_payload (ds : list Z) : list bool :=
  match ds with
  | [] => []
  | [a] => to_bits a 4
  | [a; b] => to_bits (10 * a + b) 7
  | a :: b :: c :: rest => to_bits (100 * a + 10 * b + c) 10 ++ numeric_payload rest
  end.
Fixpoint alphanumeric_payload (vs : list Z) : list bool :=
  match vs with
  | [] => []
  | [a] => to_bits a 6
  | a :: b :: rest => to_bits (45 * a + b) 11 ++ alphanumeric_payload rest
  end.
Definition byte_payload (bs : list Z) : list bool := flat_map (fun b => to_bits b 8) bs.
(* Shift-JIS code -> 13-bit value *)
Definition kanji_value (code : Z) : Z :=
  let c := if code <=? 0x9FFC then code - 0x8140 else code - 0xC140 in c / 256 * 0xC0 + c mod 256.
Definition kanji_payload (codes : list Z) : list bool := flat_map (fun c => to_bits (kanji_value c) 13) codes.

(* value of an alphanumeric character: its index in the table *)
Fixpoint index_of (c : Z) (t : list Z) (i : Z) : option Z :=
  match t with [] => None | x :: t' => if x =? c then Some i else index_of c t' (i + 1) end.
Definition alnum_value (c : Z) : option Z := index_of c alphanumeric_table 0.

(* framing: indicator, count, payload, terminator, zero bits to the byte boundary, pad code words *)
Definition pad_codewords (n : Z) : list bool :=
  flat_map (fun i => to_bits (if Z.even i then 0xEC else 0x11) 8) (upto n).

Definition data_bits (v : Z) (l : level) (md : mode) (count : Z) (payload : list bool) : list bool :=
  let capacity := 8 * data_codewords v l in
  let s := to_bits (indicator md) 4 ++ to_bits count (width_of v md) ++ payload in
  let len := Z.of_nat (length s) in
  let term := Z.min 4 (capacity - len) in
  let align := (- (len + term)) mod 8 in
  s ++ repeat false (Z.to_nat term) ++ repeat false (Z.to_nat align)
    ++ pad_codewords ((capacity - len - term - align) / 8).

(* ---- Shift-JIS ----
   The contract of the conversion golang.org/x/text/encoding/japanese.ShiftJIS (third party): results are
   bytes; the second byte of a double-byte code is at least 0x40; the first double-byte code 0x8140 is the
   ideographic space; the characters from space to Z are single bytes equal to their ASCII code. *)
Record shift_jis_contract (sjis : Z -> option (list Z)) : Prop := {
  sj_bytes : forall r bs, sjis r = Some bs -> Forall (fun b => 0 <= b < 256) bs;
  sj_trail : forall r hi lo, sjis r = Some [hi; lo] -> 0x40 <= lo;
  sj_space : forall r, sjis r = Some [0x81; 0x40] -> r = 0x3000;
  sj_ascii : forall r, 0x20 <= r <= 0x5A -> sjis r = Some [r]
}.

(* the double-byte code of a character *)
Definition double_byte (sjis : Z -> option (list Z)) (r : Z) : option Z :=
  match sjis r with Some [hi; lo] => Some (hi * 256 + lo) | _ => None end.

(* characters the library treats as Kanji: CJK ideographs (unified, extension A, compatibility) whose
   Shift-JIS code is double-byte and within the two ISO 18004 ranges *)
Definition cjk (r : Z) : Prop := 0x4E00 <= r <= 0x9FFF \/ 0x3400 <= r <= 0x4DBF \/ 0xF900 <= r <= 0xFAFF.
Definition kanji_char (sjis : Z -> option (list Z)) (r : Z) : Prop :=
  cjk r /\ exists c, double_byte sjis r = Some c /\ (0x8140 <= c <= 0x9FFC \/ 0xE040 <= c <= 0xEBBF).

Definition digit_ch (r : Z) : Prop := 0x30 <= r <= 0x39.
Definition alnum_ch (r : Z) : Prop := In r alphanumeric_table.

(* Which characters a mode can represent *)
Definition representable (sjis : Z -> option (list Z)) (md : mode) (r : Z) : Prop :=
  match md with Numeric => digit_ch r | Alphanumeric => alnum_ch r | Byte => True | Kanji => kanji_char sjis r end.
