(* A whole symbol, as ISO/IEC 18004 prescribes it, on the bitmap level: version v, level l, data mask k, and the
   bit stream (code words and remainder bits) laid out in the data modules. *)
From Verif Require Export SpecIso SpecReader.

Record iso_symbol (v : Z) (l : level) (k : Z) (stream : list bool) (bm : bitmap) : Prop := {
  is_size : read_version bm = Some v;
  is_function : forall x y c, 0 <= x < side v -> 0 <= y < side v ->
     fixed_colour (region_of v x y) = Some c -> module_at bm x y = c;
  is_format_1 : map (fun '(x, y) => module_at bm x y) format_positions_1 = to_bits (format_word l k) 15;
  is_format_2 : map (fun '(x, y) => module_at bm x y) (format_positions_2 v) = to_bits (format_word l k) 15;
  is_version_1 : 7 <= v -> forall j, 0 <= j < 18 ->
     module_at bm (fst (version_position_1 v j)) (snd (version_position_1 v j)) = Z.testbit (version_word v) j;
  is_version_2 : 7 <= v -> forall j, 0 <= j < 18 ->
     module_at bm (fst (version_position_2 v j)) (snd (version_position_2 v j)) = Z.testbit (version_word v) j;
  is_stream : read_stream bm v k = stream
}.

(* the payload of a text in a mode *)
From Verif Require Import SpecSegment.
From Verif Require Import ModelUtf8.
Definition payload_for (sjis : Z -> option (list Z)) (md : mode) (text : list Z) (payload : list bool) : Prop :=
  match md with
  | Numeric => payload = numeric_payload (map (fun d => d - 48) text)
  | Alphanumeric => exists vs, map Some vs = map alnum_value text /\ payload = alphanumeric_payload vs
  | Byte => payload = byte_payload text
  | Kanji => exists codes, map Some codes = map (double_byte sjis) (go_runes text) /\ payload = kanji_payload codes
  end.
