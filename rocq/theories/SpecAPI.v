(* Vocabulary for stating properties of New/NewWith: what the options mean, which characters a text has,
   which mode and version the documentation promises, and what a fair schedule of the goroutines is. *)
From Verif Require Export SpecSegment.
From Verif Require Import ModelBase ModelUtf8 ModelQRCode.

(* ---- the exported constants ---- *)
Definition level_code (l : level) : Z := match l with L => 1 | M => 2 | Q => 3 | H => 4 end.
Definition auto_code : Z := 0.
Definition none_code : Z := 2.
Definition mode_code (md : mode) : Z := match md with Numeric => 4 | Alphanumeric => 8 | Kanji => 16 | Byte => 32 end.

(* ---- effective options: the last valid value, or the default ---- *)
Definition eff_version (opts : list EncodeOption) : Z :=
  last (flat_map (fun o => match o with WithVersion v => if (1 <=? v) && (v <=? 40) then [v] else [] | _ => [] end) opts) 0.
Definition eff_min (opts : list EncodeOption) : Z :=
  last (flat_map (fun o => match o with WithMinimumVersion v => if (1 <=? v) && (v <=? 40) then [v] else [] | _ => [] end) opts) 0.
Definition eff_level (opts : list EncodeOption) : Z :=
  last (flat_map (fun o => match o with WithErrorCorrectionLevel v => if (1 <=? v) && (v <=? 4) then [v] else [] | _ => [] end) opts)
       (level_code Q).
Definition eff_mode (opts : list EncodeOption) : Z :=
  last (flat_map (fun o => match o with WithEncodingMode m => [m] | _ => [] end) opts) auto_code.

(* ---- characters ---- *)
(* every character of the text can be represented in the mode *)
Definition encodable (sjis : Z -> option (list Z)) (md : mode) (text : list Z) : Prop :=
  Forall (representable sjis md) (go_runes text).
(* the number the capacity tables are about: bytes in byte mode, characters otherwise *)
Definition char_count (md : mode) (text : list Z) : Z :=
  Z.of_nat (length (match md with Byte => text | _ => go_runes text end)).

(* ---- mode selection ---- *)
Definition mode_rank (md : mode) : Z := match md with Numeric => 0 | Alphanumeric => 1 | Kanji => 2 | Byte => 3 end.
(* the first of numeric, alphanumeric, kanji, byte that can represent every character *)
Definition documented_mode (sjis : Z -> option (list Z)) (text : list Z) (md : mode) : Prop :=
  encodable sjis md text /\ forall md', mode_rank md' < mode_rank md -> ~ encodable sjis md' text.
(* texts consisting of alphanumeric characters followed by kanji, at least one of each *)
Definition alnum_then_kanji (sjis : Z -> option (list Z)) (text : list Z) : Prop :=
  exists pre ks, go_runes text = pre ++ ks /\ pre <> [] /\ ks <> [] /\
    Forall alnum_ch pre /\ Forall (kanji_char sjis) ks.

(* ---- what a reader should obtain ---- *)
Definition carries (sjis : Z -> option (list Z)) (md : mode) (text : list Z) (seg : segment) : Prop :=
  match md with
  | Numeric => seg = NumericSeg text
  | Alphanumeric => seg = AlphanumericSeg text
  | Byte => seg = ByteSeg text
  | Kanji => exists codes, seg = KanjiSeg codes /\ map Some codes = map (double_byte sjis) (go_runes text)
  end.

(* ---- version selection ---- *)
Definition text_fits (v : Z) (l : level) (md : mode) (text : list Z) : Prop := fits v l md (char_count md text).
Definition least_version (l : level) (md : mode) (text : list Z) (v : Z) : Prop :=
  valid_version v /\ text_fits v l md text /\ forall v', valid_version v' -> text_fits v' l md text -> v <= v'.

(* ---- schedules ---- *)
Definition all_actors : list actor := Main :: map Goroutine (seq 0 8).
(* a round gives every actor at least one turn *)
Definition round (r : list actor) : Prop := forall a, In a all_actors -> In a r.
(* a schedule long and fair enough: it contains 57 rounds *)
Definition fair (sched : list actor) : Prop :=
  exists rounds rest, sched = concat rounds ++ rest /\ length rounds = 57%nat /\ Forall round rounds.

(* ---- texts ---- *)
(* the bytes of the argument of New *)
Definition text_bytes (t : GoText) : list Z :=
  map byteZ (match t with GoString s | GoBytes s | GoNamedString s | GoNamedBytes s => s end).
(* the argument has type string or []byte (not a type defined from them) *)
Definition plain (t : GoText) : Prop := match t with GoString _ | GoBytes _ => True | _ => False end.

(* the version the documentation promises: the requested one, else the least fitting one, raised to the minimum *)
Definition promised_version (opts : list EncodeOption) (l : level) (md : mode) (text : list Z) (v : Z) : Prop :=
  (eff_version opts <> 0 /\ v = eff_version opts) \/
  (eff_version opts = 0 /\ exists v0, least_version l md text v0 /\ v = Z.max v0 (eff_min opts)).

(* the mode the documentation promises: the requested one, else the documented automatic choice *)
Definition effective_mode (sjis : Z -> option (list Z)) (opts : list EncodeOption) (text : list Z) (md : mode) : Prop :=
  eff_mode opts = mode_code md \/ (eff_mode opts = auto_code /\ documented_mode sjis text md).
(* mode values New supports *)
Definition supported (opts : list EncodeOption) : Prop := eff_mode opts = auto_code \/ exists md, eff_mode opts = mode_code md.
(* the inputs on which automatic mode selection goes wrong *)
Definition misdetected (sjis : Z -> option (list Z)) (opts : list EncodeOption) (text : list Z) : Prop :=
  eff_mode opts = auto_code /\ alnum_then_kanji sjis text.
