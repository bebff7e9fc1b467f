(* Model of /repo/chardet.go and of validateEncodingMode (/repo/qrcode.go:43-68). *)
From Verif Require Import ModelBase ModelVersion.

Section WithShiftJIS.
  (* golang.org/x/text/encoding/japanese ShiftJIS encoder, rune by rune (third party, not in /repo):
     Some bytes, or None when the rune is not in the repertoire (transform.String returns an error). *)
  Variable sjis : Z -> option (list Z).

  (* chardet.go:87-89 *)
  Definition analyzeNum (r : Z) : bool := (0x30 <=? r) && (r <=? 0x39).

  (* chardet.go:92-101; ' ' '$' '%' '*' '+' '-' '.' '/' ':' *)
  Definition analyzeAlphaNum (r : Z) : bool :=
    ((0x30 <=? r) && (r <=? 0x39)) || ((0x41 <=? r) && (r <=? 0x5A))
    || existsb (Z.eqb r) [0x20; 0x24; 0x25; 0x2A; 0x2B; 0x2D; 0x2E; 0x2F; 0x3A].

  (* chardet.go:104-106 *)
  Definition analyzeByte (r : Z) : bool := true.

  (* chardet.go:115-146 *)
  Definition analyzeJP (r : Z) : bool :=
    let isCJK := ((0x4E00 <=? r) && (r <=? 0x9FFF)) || ((0x3400 <=? r) && (r <=? 0x4DBF))
                 || ((0xF900 <=? r) && (r <=? 0xFAFF)) in
    if negb isCJK then false
    else match sjis r with
         | Some [hi; lo] =>
           (* uint16: code := hi<<8 | lo *)
           let code := Z.lor ((Z.shiftl hi 8) mod 65536) lo in
           ((0x8140 <=? code) && (code <=? 0x9FFC)) || ((0xE040 <=? code) && (code <=? 0xEBBF))
         | _ => false
         end.

  (* chardet.go:35-49 getNextAnalyzeFn; None = nil *)
  Definition analyzeFn (mode : Z) : option (Z -> bool) :=
    if mode =? EncModeNumeric then Some analyzeNum
    else if mode =? EncModeAlphanumeric then Some analyzeAlphaNum
    else if mode =? EncModeKanji then Some analyzeJP
    else if mode =? EncModeByte then Some analyzeByte
    else None.

  (* chardet.go:62-76: one character; the label reAnalyze is the recursion.  Returns the mode and whether the
     loop over the characters is left (next() found no further analyser).  The modes are 4,8,16,32 (mode <<= 1),
     so five rounds suffice; the fuel-exhausted branch is unreachable (lemma reanalyze_fuel). *)
  Fixpoint reAnalyze (fuel : nat) (mode r : Z) : option (Z * bool) :=
    match fuel with
    | O => None
    | S f =>
      match analyzeFn mode with
      | None => Some (mode, true)
      | Some fn =>
        if fn r then Some (mode, false)
        else let mode' := Z.shiftl mode 1 in
             match analyzeFn mode' with
             | None => Some (mode', true)
             | Some _ => reAnalyze f mode' r
             end
      end
    end.

  Fixpoint analyze_loop (mode : Z) (rs : list Z) : option Z :=
    match rs with
    | [] => Some mode
    | r :: rest =>
      match reAnalyze 5 mode r with
      | None => None
      | Some (mode', true) => Some mode'
      | Some (mode', false) => analyze_loop mode' rest
      end
    end.

  (* chardet.go:29-84 analyzeEncodeModeFromRaw.  mode starts at EncModeNone and next() shifts it to Numeric. *)
  Definition analyzeEncodeModeFromRaw (raw : list Z) : outcome Z :=
    match analyze_loop (Z.shiftl EncModeNone 1) (go_runes raw) with
    | None => Panic OutOfFuel
    | Some mode => if EncModeByte <? mode then Err ErrNotSupportCharacter else Ok mode
    end.

  (* qrcode.go:43-68 validateEncodingMode: true = nil error *)
  Definition validateEncodingMode (mode : Z) (text : list Z) : bool :=
    if mode =? EncModeNumeric then forallb analyzeNum (go_runes text)
    else if mode =? EncModeAlphanumeric then forallb analyzeAlphaNum (go_runes text)
    else if mode =? EncModeKanji then forallb analyzeJP (go_runes text)
    else true.
End WithShiftJIS.
