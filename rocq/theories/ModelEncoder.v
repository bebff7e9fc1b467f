(* Model of /repo/encoder.go. *)
From Verif Require Import ModelBase ModelVersion ModelChardet.

Section WithShiftJIS.
  Variable sjis : Z -> option (list Z).

  (* encoder.go:81-94 getEncodeModeIndicator; None = panic("no indicator") *)
  Definition getEncodeModeIndicator (mode : Z) : option binary :=
    if mode =? EncModeNumeric then Some [false; false; false; true]
    else if mode =? EncModeAlphanumeric then Some [false; false; true; false]
    else if mode =? EncModeByte then Some [false; true; false; false]
    else if mode =? EncModeKanji then Some [true; false; false; false]
    else None.

  (* encoder.go:344-371 charCountMap / charCountBits; a missing key of the Go map yields 0 *)
  Definition charCountBits (mode ver : Z) : Z :=
    let pick a b c := if ver <=? 9 then a else if ver <=? 26 then b else c in
    if mode =? EncModeNumeric then pick 10 12 14
    else if mode =? EncModeAlphanumeric then pick 9 11 13
    else if mode =? EncModeByte then pick 8 16 16
    else if mode =? EncModeKanji then pick 8 10 12
    else 0.

  (* encoder.go:375-408; None = log.Panicf *)
  Definition encodeAlphanumericCharacter (c : Z) : option Z :=
    if (0x30 <=? c) && (c <=? 0x39) then Some (c - 0x30)
    else if (0x41 <=? c) && (c <=? 0x5A) then Some (c - 0x41 + 10)
    else if c =? 0x20 then Some 36
    else if c =? 0x24 then Some 37
    else if c =? 0x25 then Some 38
    else if c =? 0x2A then Some 39
    else if c =? 0x2B then Some 40
    else if c =? 0x2D then Some 41
    else if c =? 0x2E then Some 42
    else if c =? 0x2F then Some 43
    else if c =? 0x3A then Some 44
    else None.

  (* encoder.go:188: uint32(data[i+j] - 0x30), byte subtraction *)
  Definition digit (d : Z) : Z := (d - 0x30) mod 256.

  (* encoder.go:175-193 encodeNumeric: three digits at a time; 10, 7 or 4 bits *)
  Fixpoint encodeNumeric (data : list Z) (dst : binary) : binary :=
    match data with
    | [] => dst
    | [a] => bin_append_uint32 dst (digit a) 4
    | [a; b] => bin_append_uint32 dst (digit a * 10 + digit b) 7
    | a :: b :: c :: rest =>
      encodeNumeric rest (bin_append_uint32 dst ((digit a * 10 + digit b) * 10 + digit c) 10)
    end.

  (* encoder.go:196-217 encodeAlphanumeric: two characters at a time; 11 or 6 bits *)
  Fixpoint encodeAlphanumeric (data : list Z) (dst : binary) : option binary :=
    match data with
    | [] => Some dst
    | [a] =>
      match encodeAlphanumericCharacter a with
      | Some va => Some (bin_append_uint32 dst va 6)
      | None => None
      end
    | a :: b :: rest =>
      match encodeAlphanumericCharacter a, encodeAlphanumericCharacter b with
      | Some va, Some vb => encodeAlphanumeric rest (bin_append_uint32 dst (va * 45 + vb) 11)
      | _, _ => None
      end
    end.

  (* encoder.go:220-228 encodeByte *)
  Definition encodeByte (data : list Z) (dst : binary) : binary := fold_left bin_append_byte data dst.

  (* encoder.go:261-283 encodeShiftJIS; uint16 arithmetic *)
  Definition encodeShiftJIS (hi lo : Z) : Z * Z :=
    let r := Z.lor ((Z.shiftl hi 8) mod 65536) lo in
    let adj := if (0x8140 <=? r) && (r <=? 0x9FFC) then Some (r - 0x8140)
               else if (0xE040 <=? r) && (r <=? 0xEBBF) then Some (r - 0xC140)
               else None in
    match adj with
    | None => (0, 0)
    | Some r =>
      let hi' := (Z.shiftr r 8) mod 256 in
      let lo' := Z.land r 0xFF in
      let r' := (hi' * 0xC0 + lo') mod 65536 in
      ((Z.shiftr r' 8) mod 256, Z.land r' 0xFF)
    end.

  (* transform.String(enc, raw) (encoder.go:235): concatenation over the runes; None = error *)
  Fixpoint sjis_string (rs : list Z) : option (list Z) :=
    match rs with
    | [] => Some []
    | r :: rest =>
      match sjis r, sjis_string rest with
      | Some b, Some bs => Some (b ++ bs)
      | _, _ => None
      end
    end.

  (* encoder.go:248-256: the in-place loop; None = "invalid character", return []byte{} *)
  Fixpoint sjis_pairs (data : list Z) : option (list Z) :=
    match data with
    | hi :: lo :: rest =>
      let '(h, l) := encodeShiftJIS hi lo in
      if (h =? 0) && (l =? 0) then None
      else match sjis_pairs rest with Some t => Some (h :: l :: t) | None => None end
    | _ => Some []
    end.

  (* encoder.go:233-259 toShiftJIS *)
  Definition toShiftJIS (raw : list Z) : list Z :=
    match sjis_string (go_runes raw) with
    | None => []
    | Some data =>
      if negb (Z.rem (zlen data) 2 =? 0) then []
      else match sjis_pairs data with Some d => d | None => [] end
    end.

  (* encoder.go:288-304 encodeKanji *)
  Fixpoint encodeKanji_loop (data : list Z) (dst : binary) : binary :=
    match data with
    | a :: b :: rest => encodeKanji_loop rest (bin_append_uint32 dst (Z.lor (Z.shiftl a 8) b) 13)
    | _ => dst
    end.
  Definition encodeKanji (data : list Z) (dst : binary) : binary :=
    if negb (Z.rem (zlen data) 2 =? 0) then dst else encodeKanji_loop data dst.

  (* encoder.go:58-59 *)
  Definition paddingByte1 : binary := [true; true; true; false; true; true; false; false].
  Definition paddingByte2 : binary := [false; false; false; true; false; false; false; true].

  (* encoder.go:332-338: i = 1 .. n/8 *)
  Definition pad_loop (n : Z) (dst : binary) : binary :=
    fold_left (fun d i => d ++ (if Z.rem i 2 =? 1 then paddingByte1 else paddingByte2)) (zseq 1 (Z.quot n 8)) dst.

  (* encoder.go:307-341 breakUpInto8bit *)
  Definition breakUpInto8bit (v : version) (dst : binary) : outcome binary :=
    let maxCap := v_numTotalCodewords v * 8 in
    let less := maxCap - zlen dst in
    if less <? 0 then Err ErrDataTooLong
    else
      let dst := if less <? 4 then bin_append_zeros dst less else bin_append_zeros dst 4 in
      let md := Z.rem (zlen dst) 8 in
      let dst := if negb (md =? 0) then bin_append_zeros dst (8 - md) else dst in
      let n := maxCap - zlen dst in
      Ok (if 0 <? n then pad_loop n dst else dst).

  (* encoder.go:127-172 Encode *)
  Definition encode (mode : Z) (v : version) (raw : list Z) : outcome binary :=
    let data := if mode =? EncModeKanji then toShiftJIS raw else raw in
    let charCount := if mode =? EncModeKanji then rune_count raw else zlen data in
    match getEncodeModeIndicator mode with
    | None => Panic PanicNoIndicator
    | Some indicator =>
      let dst := bin_append_uint32 indicator charCount (charCountBits mode (Ver v)) in
      let payload := if mode =? EncModeNumeric then Some (encodeNumeric data dst)
                     else if mode =? EncModeAlphanumeric then encodeAlphanumeric data dst
                     else if mode =? EncModeKanji then Some (encodeKanji data dst)
                     else Some (encodeByte data dst) in
      match payload with
      | None => Panic PanicAlnumChar
      | Some dst => breakUpInto8bit v dst
      end
    end.
End WithShiftJIS.
