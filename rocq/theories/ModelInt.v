(* The core of the library once more, with a machine int instead of Z.  The parameter `int` maps the exact result of an operation to
   the int the machine stores (for w bits: the remainder in -2^(w-1) .. 2^(w-1)-1, see wrap_bits); it is applied to the result of every
   +, - and * on ints in qrcode.go, version.go, encoder.go, mask.go, mask_evaluation.go and kmp_variant.go, and to the lengths the bit
   strings report.  Divisions, remainders, comparisons and bit operations of ints that are in range stay in range.  A loop counter
   (for i := a; i < b; i++) never passes the bound it is compared with, and the counters of encoder.go:180, 202, 249 and 298 (i += 3,
   i += 2) pass it by at most 2, so they are lists as in the other files.  uint32, uint16 and byte arithmetic has the same width
   everywhere and is that of ModelEncoder.v and ModelRS.v. *)
From Verif Require Import ModelBase ModelBinary ModelVersion ModelMatrix ModelChardet ModelEncoder ModelRS ModelKmp ModelEval ModelLayout ModelMask ModelQRCode.

(* an int of w bits *)
Definition wrap_bits (w : Z) (z : Z) : Z := (z + 2 ^ (w - 1)) mod 2 ^ w - 2 ^ (w - 1).

Section Int.
  Variable int : Z -> Z.
  Local Notation "a ⊕ b" := (int (a + b)) (at level 50, left associativity).
  Local Notation "a ⊖ b" := (int (a - b)) (at level 50, left associativity).
  Local Notation "a ⊗ b" := (int (a * b)) (at level 40, left associativity).

  (* ---------- version.go ---------- *)
  (* version.go:135-137 *)
  Definition dimensionI (ver : Z) : Z := ver ⊗ 4 ⊕ 17.
  (* version.go:140-146 *)
  Definition numTotalCodewordsI (v : version) : Z :=
    fold_left (fun total g => total ⊕ (NumBlocks g ⊗ NumDataCodewords g)) (Groups v) 0.
  (* version.go:154-160 *)
  Definition totalNumBlocksI (v : version) : Z := fold_left (fun total g => total ⊕ NumBlocks g) (Groups v) 0.
  (* version.go:258-270 loadVersion *)
  Definition loadVersionI (lv ec : Z) : outcome version :=
    let high := lv ⊗ 4 ⊖ 1 in
    let low := (lv ⊖ 1) ⊗ 4 in
    loadVersion_loop (zseq low (high - low + 1)) ec.
  (* version.go:278-325 analyzeVersion *)
  Definition analyzeVersionI (raw : list Z) (ec mode : Z) : outcome version :=
    let step := if ec =? ErrorCorrectionLow then Some 0
                else if ec =? ErrorCorrectionMedium then Some 1
                else if ec =? ErrorCorrectionQuart then Some 2
                else if ec =? ErrorCorrectionHighest then Some 3
                else None in
    match step with
    | None => Err ErrInvalidECLevel
    | Some step =>
      let want := int (if mode =? EncModeByte then zlen raw else rune_count raw) in
      analyzeVersion_loop (map (fun k => step ⊕ 4 * k) (zseq 0 40)) want mode
    end.
  (* version.go:471-486 valid *)
  Definition validI (x y dimension : Z) : bool :=
    if (x ⊖ 2 <? 7) && (y ⊖ 2 <? 7) then false
    else if (dimension ⊖ 7 <? x ⊕ 2) && (y ⊖ 2 <? 7) then false
    else if (x ⊖ 2 <? 7) && (dimension ⊖ 7 <? y ⊕ 2) then false
    else true.
  (* version.go:445-468 calcAlignPatternLocs *)
  Definition calcAlignPatternLocsI (ver : Z) : option (list (Z * Z)) :=
    if ver <? 2 then Some []
    else match alignPatternLocation ver with
         | None => None
         | Some positions =>
           let dimension := ver ⊗ 4 ⊕ 17 in
           Some (flat_map (fun pos1 =>
                   flat_map (fun pos2 => if validI pos1 pos2 dimension then [(pos1, pos2)] else []) positions)
                 positions)
         end.

  (* ---------- encoder.go ---------- *)
  (* encoder.go:307-341 breakUpInto8bit *)
  Definition breakUpInto8bitI (v : version) (dst : binary) : outcome binary :=
    let maxCap := numTotalCodewordsI v ⊗ 8 in
    let less := maxCap ⊖ int (zlen dst) in
    if less <? 0 then Err ErrDataTooLong
    else
      let dst := if less <? 4 then bin_append_zeros dst less else bin_append_zeros dst 4 in
      let md := Z.rem (int (zlen dst)) 8 in
      let dst := if negb (md =? 0) then bin_append_zeros dst (8 ⊖ md) else dst in
      let n := maxCap ⊖ int (zlen dst) in
      Ok (if 0 <? n then pad_loop n dst else dst).

  (* encoder.go:127-172 Encode *)
  Definition encodeI (sjis : Z -> option (list Z)) (mode : Z) (v : version) (raw : list Z) : outcome binary :=
    let data := if mode =? EncModeKanji then toShiftJIS sjis raw else raw in
    let charCount := int (if mode =? EncModeKanji then rune_count raw else zlen data) in
    match getEncodeModeIndicator mode with
    | None => Panic PanicNoIndicator
    | Some indicator =>
      let dst := bin_append_uint32 indicator charCount (charCountBits mode (Ver v)) in
      let payload := if mode =? EncModeNumeric then Some (encodeNumeric data dst)
                     else if mode =? EncModeAlphanumeric then encodeAlphanumeric data dst
                     else if mode =? EncModeKanji then Some (encodeKanji data dst)
                     else Some (encodeByte data dst) in
      match payload with
      | None => Panic PanicAlnumChar
      | Some dst => breakUpInto8bitI v dst
      end
    end.

  (* ---------- qrcode.go: version and blocks ---------- *)
  (* qrcode.go:176-205 calcVersion *)
  Definition calcVersionI (opt : encodingOption) (mode : Z) (raw : list Z) : outcome version :=
    if (1 <=? oVersion opt) && (oVersion opt <=? 40)
       && (ErrorCorrectionLow <=? oEcLevel opt) && (oEcLevel opt <=? ErrorCorrectionHighest)
    then loadVersionI (oVersion opt) (oEcLevel opt)
    else
      let* analyzed := analyzeVersionI raw (oEcLevel opt) mode in
      let ver := if (0 <? oMinimumVersion opt) && (Ver analyzed <? oMinimumVersion opt)
                 then oMinimumVersion opt else Ver analyzed in
      loadVersionI ver (oEcLevel opt).

  (* qrcode.go:229-244 *)
  Fixpoint split_blocksI (plan : list (Z * Z)) (bset : binary) (start : Z) : outcome (list dataBlock) :=
    match plan with
    | [] => Ok []
    | (ndc, ecn) :: rest =>
      let end_ := start ⊕ (ndc ⊗ 8) in
      match bin_subset bset start end_ with
      | None => Panic PanicSubset
      | Some d =>
        let* bs := split_blocksI rest bset end_ in
        Ok (mkDataBlock d (end_ ⊖ start) ecn :: bs)
      end
    end.
  (* qrcode.go:226-246 *)
  Definition cut_blocksI (v : version) (bset : binary) : outcome (list dataBlock) :=
    let* blocks := split_blocksI (block_plan v) bset 0 in
    if zlen blocks =? totalNumBlocksI v then Ok blocks else Panic PanicIndex.

  (* qrcode.go:264-277 errorCorrectionEncoding *)
  Fixpoint errorCorrectionEncodingI (blocks : list dataBlock) : outcome (list binary) :=
    match blocks with
    | [] => Ok []
    | b :: rest =>
      let bset := rs_encode (dbData b) (dbNumECBlock b) in
      match bin_subset bset (dbStartOffset b) (int (zlen bset)) with
      | None => Panic PanicSubset
      | Some ec => let* bs := errorCorrectionEncodingI rest in Ok (ec :: bs)
      end
    end.

  (* qrcode.go:307-322 (and 336-349) *)
  Fixpoint arrange_passI (blocks : list binary) (curIdx overflowCnt : Z) (dst : binary) : outcome (Z * binary) :=
    match blocks with
    | [] => Ok (overflowCnt, dst)
    | b :: rest =>
      let start := curIdx ⊗ 8 in
      let end_ := start ⊕ 8 in
      if int (zlen b) <=? start then arrange_passI rest curIdx (overflowCnt ⊕ 1) dst
      else match bin_subset b start end_ with
           | None => Panic PanicSubset
           | Some sub => arrange_passI rest curIdx overflowCnt (dst ++ sub)
           end
    end.
  (* qrcode.go:306-328 (and 335-355) *)
  Fixpoint arrange_loopI (fuel : nat) (blocks : list binary) (curIdx overflowCnt : Z) (dst : binary) : outcome binary :=
    match fuel with
    | O => Panic OutOfFuel
    | S f =>
      let* r := arrange_passI blocks curIdx overflowCnt dst in
      let '(overflowCnt, dst) := r in
      if zlen blocks <=? overflowCnt then Ok dst
      else arrange_loopI f blocks (curIdx ⊕ 1) overflowCnt dst
    end.
  (* qrcode.go:280-360 arrangeBits, one of the two halves *)
  Definition arrangeI (blocks : list binary) : outcome binary :=
    arrange_loopI (S (S (fold_left (fun n b => Nat.max n (length b)) blocks O))) blocks 0 0 [].

  (* ---------- qrcode.go: the matrix ---------- *)
  (* qrcode.go:409-421, see ring *)
  Definition ringI (m : Matrix) (x0 y0 side c : Z) : Matrix :=
    let '(m, _, _) :=
      fold_left (fun '(m, x, y) i =>
        let m := m_set m x y c in
        if i <? side then (m, x ⊕ 1, y)
        else if i <? 2 * side then (m, x, y ⊕ 1)
        else if i <? 3 * side then (m, x ⊖ 1, y)
        else (m, x, y ⊖ 1))
      (zseq 0 (4 * side)) (m, x0, y0) in m.
  (* qrcode.go:406-443 addFinder; the last loop runs from left+2 to left+5 *)
  Definition addFinderI (m : Matrix) (top left : Z) : Matrix :=
    let m := ringI m top left 6 QRValue_FINDER_V1 in
    let m := ringI m (top ⊕ 1) (left ⊕ 1) 4 QRValue_FINDER_V0 in
    fold_left (fun m x => fold_left (fun m y => m_set m x y QRValue_FINDER_V1) (zseq (top ⊕ 2) ((top ⊕ 5) - (top ⊕ 2))) m)
              (zseq (left ⊕ 2) ((left ⊕ 5) - (left ⊕ 2))) m.
  (* qrcode.go:446-474 addSplitter *)
  Definition addSplitterI (m : Matrix) (x y dimension : Z) : Matrix :=
    if (x =? 7) && (y =? 7) then
      fold_left (fun m pos => m_set (m_set m x pos QRValue_SPLITTER_V0) pos y QRValue_SPLITTER_V0) (zseq 0 8) m
    else if (x =? dimension ⊖ 8) && (y =? 7) then
      fold_left (fun m pos => m_set (m_set m x (y ⊖ pos) QRValue_SPLITTER_V0) (x ⊕ pos) y QRValue_SPLITTER_V0) (zseq 0 8) m
    else if (x =? 7) && (y =? dimension ⊖ 8) then
      fold_left (fun m pos => m_set (m_set m x (y ⊕ pos) QRValue_SPLITTER_V0) (x ⊖ pos) y QRValue_SPLITTER_V0) (zseq 0 8) m
    else m.
  (* qrcode.go:477-507 addAlignment *)
  Definition addAlignmentI (m : Matrix) (centerX centerY : Z) : Matrix :=
    let m := m_set m centerX centerY QRValue_DATA_V1 in
    let m := ringI m (centerX ⊖ 2) (centerY ⊖ 2) 4 QRValue_DATA_V1 in
    ringI m (centerX ⊖ 1) (centerY ⊖ 1) 2 QRValue_DATA_V0.
  (* qrcode.go:510-520 addTimingLine *)
  Definition addTimingLineI (m : Matrix) (dimension : Z) : Matrix :=
    fold_left (fun m pos =>
      if Z.rem pos 2 =? 0
      then m_set (m_set m 6 pos QRValue_TIMING_V1) pos 6 QRValue_TIMING_V1
      else m_set (m_set m 6 pos QRValue_TIMING_V0) pos 6 QRValue_TIMING_V0)
      (zseq 8 ((dimension ⊖ 8) - 8)) m.
  (* qrcode.go:528-552 reserveFormatBlock *)
  Definition reserveFormatBlockI (m : Matrix) (dimension : Z) : Matrix :=
    let m := fold_left (fun m pos =>
      if pos =? 6 then
        m_set (m_set m 8 (dimension ⊖ pos) QRValue_FORMAT_V0) (dimension ⊖ pos) 8 QRValue_FORMAT_V0
      else if pos =? 8 then
        m_set (m_set (m_set m 8 pos QRValue_FORMAT_V0) pos 8 QRValue_FORMAT_V0) (dimension ⊖ pos) 8 QRValue_FORMAT_V0
      else
        m_set (m_set (m_set (m_set m 8 pos QRValue_FORMAT_V0) pos 8 QRValue_FORMAT_V0)
               (dimension ⊖ pos) 8 QRValue_FORMAT_V0) 8 (dimension ⊖ pos) QRValue_FORMAT_V0)
      (zseq 1 8) m in
    m_set (m_set m 0 8 QRValue_FORMAT_V0) 8 0 QRValue_FORMAT_V0.
  (* qrcode.go:555-563 reserveVersionBlock *)
  Definition reserveVersionBlockI (m : Matrix) (dimension : Z) : Matrix :=
    fold_left (fun m i =>
      fold_left (fun m pos =>
        m_set (m_set m (dimension ⊖ 8 ⊖ i) pos QRValue_VERSION_V0) pos (dimension ⊖ 8 ⊖ i) QRValue_VERSION_V0)
        (zseq 0 6) m)
      (zseq 1 3) m.
  (* qrcode.go:364-403 prefillMatrix *)
  Definition prefillMatrixI (ver : Z) (m : Matrix) : option Matrix :=
    let dimension := dimensionI ver in
    let m := addFinderI m 0 0 in
    let m := addSplitterI m 7 7 dimension in
    let m := addFinderI m (dimension ⊖ 7) 0 in
    let m := addSplitterI m (dimension ⊖ 8) 7 dimension in
    let m := addFinderI m 0 (dimension ⊖ 7) in
    let m := addSplitterI m 7 (dimension ⊖ 8) dimension in
    let om := if 1 <? ver then
                match calcAlignPatternLocsI ver with
                | Some locs => Some (fold_left (fun m '(x, y) => addAlignmentI m x y) locs m)
                | None => None
                end
              else Some m in
    match om with
    | None => None
    | Some m =>
      let m := addTimingLineI m dimension in
      let m := addDarkBlock m 8 (4 ⊗ ver ⊕ 9) in
      let m := reserveFormatBlockI m dimension in
      Some (if 7 <=? ver then reserveVersionBlockI m dimension else m)
    end.

  (* qrcode.go:577-635: the loop of fillDataBinary, see fill_loop *)
  Fixpoint fill_loopI (fuel : nat) (m : Matrix) (x y : Z) (upForward : bool) (i : Z) (bits : binary) : option Matrix :=
    match bits with
    | [] => Some m
    | b :: rest =>
      match fuel with
      | O => None
      | S f =>
        let set := if b then QRValue_DATA_V1 else QRValue_DATA_V0 in
        let '(state, err) := m_at m x y in
        match err with
        | Some ErrorOutRangeOfW => Some m
        | _ =>
          let '(x, y, upForward, state) :=
            match err with
            | Some ErrorOutRangeOfH =>
              let x := x ⊖ 2 in
              let y := if upForward then y ⊕ 1 else y ⊖ 1 in
              let x := if (x =? 7) || (x =? 6) then x ⊖ 1 else x in
              (x, y, negb upForward, fst (m_at m x y))
            | _ => (x, y, upForward, state)
            end in
          let '(m, bits) := if qrtype state =? QRType_INIT then (m_set m x y set, rest) else (m, bits) in
          let mod2 := Z.rem i 2 in
          let '(x, y) :=
            if upForward then (if mod2 =? 0 then (x ⊖ 1, y) else (x ⊕ 1, y ⊖ 1))
            else (if mod2 =? 0 then (x ⊖ 1, y) else (x ⊕ 1, y ⊕ 1)) in
          fill_loopI f m x y upForward (i ⊕ 1) bits
        end
      end
    end.
  (* qrcode.go:568-638 fillDataBinary *)
  Definition fillDataBinaryI (m : Matrix) (dimension : Z) (bits : binary) : option Matrix :=
    fill_loopI (Z.to_nat (dimension * dimension + dimension)) m (dimension ⊖ 1) (dimension ⊖ 1) true 0 bits.
  (* qrcode.go:733-751 fillVersionInfo *)
  Definition fillVersionInfoI (m : Matrix) (dimension : Z) (bin : binary) : Matrix :=
    fst (fold_left (fun '(m, bin) '(j, i) =>
      match bin with
      | [] => (m, [])
      | b :: rest =>
        let c := if (b : bool) then QRValue_VERSION_V1 else QRValue_VERSION_V0 in
        (m_set (m_set m (dimension ⊖ 8 ⊖ i) j c) j (dimension ⊖ 8 ⊖ i) c, rest)
      end)
      (flat_map (fun j => map (fun i => (j, i)) [1; 2; 3]) [5; 4; 3; 2; 1; 0]) (m, bin)).
  (* qrcode.go:755-792 fillFormatInfo *)
  Definition fillFormatInfoI (m : Matrix) (dimension : Z) (fmtBSet : binary) : Matrix :=
    let '(m, _, _) :=
      fold_left (fun '(m, x, y) (b : bool) =>
        let c := if b then QRValue_FORMAT_V1 else QRValue_FORMAT_V0 in
        let m := m_set m x 8 c in
        let m := m_set m 8 y c in
        let x := x ⊕ 1 in
        let y := y ⊖ 1 in
        let x := if x =? 6 then 7 else if x =? 8 then dimension ⊖ 8 else x in
        let y := if y =? dimension ⊖ 8 then 8 else if y =? 6 then 5 else y in
        (m, x, y)) (firstn 15 fmtBSet) (m, 0, dimension ⊖ 1) in m.

  (* ---------- mask.go ---------- *)
  (* mask.go:94-137 *)
  Definition getModuloFuncI (mode : Z) : option (Z -> Z -> bool) :=
    zget [ (fun x y => Z.rem (x ⊕ y) 2 =? 0);
           (fun x y => Z.rem y 2 =? 0);
           (fun x y => Z.rem x 3 =? 0);
           (fun x y => Z.rem (x ⊕ y) 3 =? 0);
           (fun x y => Z.rem (Z.quot x 3 ⊕ Z.quot y 2) 2 =? 0);
           (fun x y => Z.rem (x ⊗ y) 2 ⊕ Z.rem (x ⊗ y) 3 =? 0);
           (fun x y => Z.rem (Z.rem (x ⊗ y) 2 ⊕ Z.rem (x ⊗ y) 3) 2 =? 0);
           (fun x y => Z.rem (Z.rem (x ⊕ y) 2 ⊕ Z.rem (x ⊗ y) 3) 2 =? 0) ] mode.
  (* mask.go:33-42, 72-90 newMask *)
  Definition newMaskI (mat : Matrix) (mode : Z) : option Matrix :=
    match getModuloFuncI mode with
    | None => None
    | Some fn =>
      let m := m_copy mat in
      Some (fold_left (fun m '(x, y) =>
              let '(v, _) := m_at m x y in
              if negb (qrtype v =? QRType_INIT) then m_set m x y QRValue_INIT_V0
              else if fn x y then m_set m x y QRValue_DATA_V1
              else m_set m x y QRValue_DATA_V0)
            (iter_coords IterDirection_COLUMN (mwidth m) (mheight m)) m)
    end.

  (* ---------- kmp_variant.go ---------- *)
  (* kmp_variant.go:48-56 *)
  Fixpoint getNext_loopI (fuel : nat) (pattern : list Z) (fail : list Z) (j k : Z) : option (list Z) :=
    match fuel with
    | O => None
    | S f =>
      if j <? zlen pattern ⊖ 1 then
        if (k =? -1) || eq_at Z.eqb pattern j pattern k
        then getNext_loopI f pattern (zupd fail (j ⊕ 1) (k ⊕ 1)) (j ⊕ 1) (k ⊕ 1)
        else match zget fail k with
             | Some k' => getNext_loopI f pattern fail j k'
             | None => None
             end
      else Some fail
    end.
  (* kmp_variant.go:41-59 kmpGetNext *)
  Definition kmpGetNextI (pattern : list Z) : option (list Z) :=
    match pattern with
    | [] => None
    | _ => getNext_loopI (2 * length pattern + 1) pattern (zupd (repeat 0 (length pattern)) 0 (-1)) 0 (-1)
    end.
  (* kmp_variant.go:15-39 *)
  Fixpoint kmp_loopI (fuel : nat) (src pattern : list Z) (next : list Z) (i j count : Z) : option Z :=
    match fuel with
    | O => None
    | S f =>
      if (i <? zlen src) && (j <? zlen pattern) then
        if (j =? -1) || eq_at Z.eqb src i pattern j
        then kmp_loopI f src pattern next (i ⊕ 1) (j ⊕ 1) count
        else match zget next j with
             | Some j' => kmp_loopI f src pattern next i j' count
             | None => None
             end
      else if j =? zlen pattern then
        let count' := if 0 <=? i ⊖ j then count ⊕ 1 else count in
        kmp_loopI f src pattern next (i ⊖ (zlen pattern ⊖ 1)) 0 count'
      else Some count
    end.
  Definition kmpI (src pattern : list Z) (next : list Z) : option Z :=
    kmp_loopI ((2 * length src + 3) * (length src + 2)) src pattern next 0 0 0.

  (* ---------- mask_evaluation.go ---------- *)
  (* mask_evaluation.go:37-55 scoreLine *)
  Fixpoint scoreLine_loopI (arr : list Z) (lScore cnt cur : Z) : Z :=
    match arr with
    | [] => lScore
    | v :: rest =>
      if negb (samestate v cur) then scoreLine_loopI rest lScore 1 v
      else
        let cnt := cnt ⊕ 1 in
        let lScore := if cnt =? 5 then lScore ⊕ 3 else if 5 <? cnt then lScore ⊕ 1 else lScore in
        scoreLine_loopI rest lScore cnt cur
    end.
  Definition scoreLineI (arr : list Z) : Z := scoreLine_loopI arr 0 0 QRValue_INIT_V0.
  (* mask_evaluation.go:28-65 rule1 *)
  Definition rule1I (m : Matrix) : Z :=
    if negb (mwidth m =? mheight m) then MaxInt32
    else fold_left (fun score cur => score ⊕ scoreLineI (or_nil (m_row m cur)) ⊕ scoreLineI (or_nil (m_col m cur)))
                   (zseq 0 (mwidth m)) 0.
  (* mask_evaluation.go:71-90 rule2 *)
  Definition rule2I (m : Matrix) : Z :=
    fold_left (fun score x =>
      fold_left (fun score y =>
        let s0 := fst (m_at m x y) in
        let s1 := fst (m_at m (x ⊕ 1) y) in
        let s2 := fst (m_at m x (y ⊕ 1)) in
        let s3 := fst (m_at m (x ⊕ 1) (y ⊕ 1)) in
        if (s0 =? s1) && (s2 =? s3) && (s1 =? s2) then score ⊕ 3 else score)
        (zseq 0 (mheight m ⊖ 1)) score)
      (zseq 0 (mwidth m ⊖ 1)) 0.
  Definition add_optI (a b : option Z) : option Z := match a, b with Some x, Some y => Some (x ⊕ y) | _, _ => None end.
  Definition mul40I (a : option Z) : option Z := match a with Some x => Some (40 ⊗ x) | None => None end.
  (* mask_evaluation.go:98-128 rule3 *)
  Definition rule3I (m : Matrix) : option Z :=
    match kmpGetNextI pattern1, kmpGetNextI pattern2 with
    | Some next1, Some next2 =>
      if negb (mwidth m =? mheight m) then Some MaxInt32
      else fold_left (fun score i =>
             let col := or_nil (m_col m i) in
             let row := or_nil (m_row m i) in
             let score := add_optI score (mul40I (kmpI col pattern1 next1)) in
             let score := add_optI score (mul40I (kmpI col pattern2 next2)) in
             let score := add_optI score (mul40I (kmpI row pattern1 next1)) in
             add_optI score (mul40I (kmpI row pattern2 next2)))
           (zseq 0 (mwidth m)) (Some 0)
    | _, _ => None
    end.
  (* mask_evaluation.go:146-157 *)
  Definition count_darkI (m : Matrix) : Z :=
    fold_left (fun dark i =>
      let col := or_nil (m_col m i) in
      fold_left (fun dark j => match zget col j with
                               | Some v => if samestate v QRValue_DATA_V1 then dark ⊕ 1 else dark
                               | None => dark
                               end) (zseq 0 (mwidth m)) dark)
      (zseq 0 (mwidth m)) 0.
  (* mask_evaluation.go:161-171 *)
  Definition rule4_scoreI (dark total : Z) : Z :=
    let ratio := Z.quot (dark ⊗ 100) total in
    let step := if Z.rem ratio 5 =? 0 then 1 else 0 in
    let previous := int (Z.abs ((Z.quot ratio 5 ⊖ step) ⊗ 5 ⊖ 50)) in
    let next := int (Z.abs ((Z.quot ratio 5 ⊕ 1 ⊖ step) ⊗ 5 ⊖ 50)) in
    Z.quot (Z.min previous next) 5 ⊗ 10.
  (* mask_evaluation.go:139-171 rule4 *)
  Definition rule4I (m : Matrix) : Z :=
    if negb (mwidth m =? mheight m) then MaxInt32
    else rule4_scoreI (count_darkI m) (mwidth m ⊗ mwidth m).
  (* mask_evaluation.go:11-22 *)
  Definition evaluationI (m : Matrix) : option Z :=
    match rule3I m with
    | Some s3 => Some (rule1I m ⊕ rule2I m ⊕ s3 ⊕ rule4I m)
    | None => None
    end.

  (* ---------- qrcode.go: the mask search, the constructor ---------- *)
  (* qrcode.go:674-703, see gstep *)
  Definition gstepI (v : version) (masks : list Matrix) (s : gstate) (i : nat) : gstate :=
    match nth_error (gPcs s) i, nth_error (gMats s) i, nth_error masks i with
    | Some pc, Some m, Some mask =>
      match pc with
      | GXor => set_mat s i (xorMask m mask) GFormat
      | GFormat =>
        match v_formatInfo v (Z.of_nat i) with
        | Some b => set_mat s i (fillFormatInfoI m (dimensionI (Ver v)) b) GVersion
        | None => set_pc s i GPanic
        end
      | GVersion =>
        if 7 <=? Ver v then
          match v_verInfo v with
          | Some b => set_mat s i (fillVersionInfoI m (dimensionI (Ver v)) b) GEval
          | None => set_pc s i GPanic
          end
        else set_pc s i GEval
      | GEval =>
        match evaluationI m with
        | Some score => set_pc s i (GSend score)
        | None => set_pc s i GPanic
        end
      | GSend score =>
        if zlen (gChan s) <? 8
        then mkG (gMats s) (upd_nat (gPcs s) i GDone) (gChan s ++ [(score, Z.of_nat i)]) (gWg s) (gSpawned s) (gMain s)
        else s
      | GDone => mkG (gMats s) (upd_nat (gPcs s) i GExit) (gChan s) (gWg s - 1) (gSpawned s) (gMain s)
      | GExit => s
      | GPanic => s
      end
    | _, _, _ => s
    end.
  (* see step *)
  Definition stepI (v : version) (masks : list Matrix) (s : gstate) (a : actor) : gstate :=
    match a with
    | Main => mainstep s
    | Goroutine i => if Nat.ltb i (gSpawned s) then gstepI v masks s i else s
    end.
  (* qrcode.go:664-667 *)
  Definition all_masksI (mat : Matrix) : option (list Matrix) :=
    fold_right (fun i acc => match newMaskI mat i, acc with Some m, Some l => Some (m :: l) | _, _ => None end)
               (Some []) (zseq 0 8).
  (* qrcode.go:642-717 masking under a schedule *)
  Definition maskingI (v : version) (data : binary) (mat : Matrix) (sched : list actor) : outcome Matrix :=
    match fillDataBinaryI (m_copy mat) (dimensionI (Ver v)) data with
    | None => Panic OutOfFuel
    | Some cpy =>
      match all_masksI mat with
      | None => Panic PanicModulo
      | Some masks => mask_end (fold_left (stepI v masks) sched (ginit cpy))
      end
    end.

  Variable sjis : Z -> option (list Z).

  (* qrcode.go:127-173 init *)
  Definition initI (opt : encodingOption) (raw : list Z) : outcome initState :=
    let* mode := chooseMode sjis opt raw in
    let* v := calcVersionI opt mode raw in
    let mat := newMatrix (dimensionI (Ver v)) (dimensionI (Ver v)) in
    if negb (newEncoder_ok mode) then Panic PanicNewEncoder
    else
      let* bset := encodeI sjis mode v raw in
      let* dataBlocks := cut_blocksI v bset in
      let* ecBlocks := errorCorrectionEncodingI dataBlocks in
      let* dataBSet := arrangeI (map dbData dataBlocks) in
      let* ecBSet := arrangeI ecBlocks in
      let stream := bin_append_zeros (dataBSet ++ ecBSet) (RemainderBits v) in
      match prefillMatrixI (Ver v) mat with
      | None => Panic PanicAlign
      | Some mat => Ok (mkInit v mode stream mat)
      end.

  (* qrcode.go:70-88 build *)
  Definition buildI (raw : list Z) (opt : encodingOption) (sched : list actor) : outcome QRCode :=
    let* st := initI opt raw in
    let* mat := maskingI (iV st) (iData st) (iMat st) sched in
    Ok (mkQR (iV st) (iMode st) (iData st) mat).

  (* qrcode.go:21-28 NewWith *)
  Definition NewWithI (text : GoText) (opts : list EncodeOption) (sched : list actor) : outcome QRCode :=
    let* raw := toBytes text in
    buildI raw (apply_options opts) sched.
End Int.
