(* Go's decoding of a string into runes:  `for _, r := range s`  (qrcode.go:60, chardet.go:62) and
   utf8.RuneCountInString (encoder.go:141, version.go:299).  Language semantics (Go spec, "range over
   string"; package unicode/utf8, DecodeRune): an invalid sequence yields U+FFFD and consumes one byte. *)
From Verif Require Import ModelBase.

Definition RuneError : Z := 0xFFFD.
Definition is_cont (b : Z) : bool := (0x80 <=? b) && (b <=? 0xBF).

Fixpoint go_runes (s : list Z) : list Z :=
  match s with
  | [] => []
  | b0 :: t0 =>
    if b0 <? 0x80 then b0 :: go_runes t0
    else match t0 with
    | [] => RuneError :: go_runes t0
    | b1 :: t1 =>
      if (0xC2 <=? b0) && (b0 <=? 0xDF) && is_cont b1
      then ((b0 - 0xC0) * 64 + (b1 - 0x80)) :: go_runes t1
      else match t1 with
      | [] => RuneError :: go_runes t0
      | b2 :: t2 =>
        if (0xE0 <=? b0) && (b0 <=? 0xEF)
           && ((if b0 =? 0xE0 then 0xA0 else 0x80) <=? b1) && (b1 <=? (if b0 =? 0xED then 0x9F else 0xBF))
           && is_cont b2
        then ((b0 - 0xE0) * 4096 + (b1 - 0x80) * 64 + (b2 - 0x80)) :: go_runes t2
        else match t2 with
        | [] => RuneError :: go_runes t0
        | b3 :: t3 =>
          if (0xF0 <=? b0) && (b0 <=? 0xF4)
             && ((if b0 =? 0xF0 then 0x90 else 0x80) <=? b1) && (b1 <=? (if b0 =? 0xF4 then 0x8F else 0xBF))
             && is_cont b2 && is_cont b3
          then ((b0 - 0xF0) * 262144 + (b1 - 0x80) * 4096 + (b2 - 0x80) * 64 + (b3 - 0x80)) :: go_runes t3
          else RuneError :: go_runes t0
        end
      end
    end
  end.

Definition rune_count (s : list Z) : Z := zlen (go_runes s).

(* Go's string(r) for a rune r (Go spec, conversions; package unicode/utf8, AppendRune): surrogates and values outside
   Unicode become U+FFFD.  Used by writer/file. *)
Definition go_string_of_rune (r : Z) : list Z :=
  if (0 <=? r) && (r <? 0x80) then [r]
  else if (0x80 <=? r) && (r <? 0x800) then [0xC0 + r / 64; 0x80 + r mod 64]
  else if ((0x800 <=? r) && (r <? 0xD800)) || ((0xE000 <=? r) && (r <? 0x10000))
       then [0xE0 + r / 4096; 0x80 + (r / 64) mod 64; 0x80 + r mod 64]
  else if (0x10000 <=? r) && (r <? 0x110000)
       then [0xF0 + r / 262144; 0x80 + (r / 4096) mod 64; 0x80 + (r / 64) mod 64; 0x80 + r mod 64]
  else [0xEF; 0xBF; 0xBD].
