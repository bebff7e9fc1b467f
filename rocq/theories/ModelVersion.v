(* Model of /repo/version.go (tables and version selection). *)
From Verif Require Export ModelBase ModelBinary ModelUtf8 VersionTable.

(* version.go:22-37 ecLevel constants *)
Definition ErrorCorrectionLow : Z := 1.
Definition ErrorCorrectionMedium : Z := 2.
Definition ErrorCorrectionQuart : Z := 3.
Definition ErrorCorrectionHighest : Z := 4.

(* encoder.go:33-55 encMode constants *)
Definition EncModeAuto : Z := 0.
Definition EncModeNone : Z := 2.
Definition EncModeNumeric : Z := 4.
Definition EncModeAlphanumeric : Z := 8.
Definition EncModeKanji : Z := 16.
Definition EncModeByte : Z := 32.

(* version.go:61-73 formatBitSequence[...].regular *)
Definition formatBitSequence : list Z := [
  0x5412; 0x5125; 0x5e7c; 0x5b4b;
  0x45f9; 0x40ce; 0x4f97; 0x4aa0;
  0x77c4; 0x72f3; 0x7daa; 0x789d;
  0x662f; 0x6318; 0x6c41; 0x6976;
  0x1689; 0x13be; 0x1ce7; 0x19d0;
  0x0762; 0x0255; 0x0d0c; 0x083b;
  0x355f; 0x3068; 0x3f31; 0x3a06;
  0x24b4; 0x2183; 0x2eda; 0x2bed ].

(* version.go:83-89 versionBitSequence *)
Definition versionBitSequence : list Z := [
  0x00000; 0x00000; 0x00000; 0x00000; 0x00000; 0x00000; 0x00000; 0x07c94;
  0x085bc; 0x09a99; 0x0a4d3; 0x0bbf6; 0x0c762; 0x0d847; 0x0e60d; 0x0f928;
  0x10b78; 0x1145d; 0x12a17; 0x13532; 0x149a6; 0x15683; 0x168c9; 0x177ec;
  0x18ec4; 0x191e1; 0x1afab; 0x1b08e; 0x1cc1a; 0x1d33f; 0x1ed75; 0x1f250;
  0x209d5; 0x216f0; 0x228ba; 0x2379f; 0x24b0b; 0x2542e; 0x26a64; 0x27541; 0x28c69 ].

(* version.go:135-137 *)
Definition v_dimension (v : version) : Z := Ver v * 4 + 17.
(* version.go:140-146 *)
Definition v_numTotalCodewords (v : version) : Z :=
  fold_left (fun total g => total + NumBlocks g * NumDataCodewords g) (Groups v) 0.
(* version.go:154-160 *)
Definition v_totalNumBlocks (v : version) : Z :=
  fold_left (fun total g => total + NumBlocks g) (Groups v) 0.

(* version.go:163-172 verInfo; only called for Ver >= 7 (qrcode.go:684); None = index out of range.
   For Ver < 7 the code returns nil: modelled by None as well (bin.At on nil would panic). *)
Definition v_verInfo (v : version) : option binary :=
  if Ver v <? 7 then None
  else match zget versionBitSequence (Ver v) with
       | Some x => Some (bin_append_uint32 [] x 18)
       | None => None
       end.

(* version.go:176-200 formatInfo; None = log.Panicf or index out of range *)
Definition v_formatInfo (v : version) (maskPattern : Z) : option binary :=
  let id := if ECLevel v =? ErrorCorrectionLow then Some 0x08
            else if ECLevel v =? ErrorCorrectionMedium then Some 0x00
            else if ECLevel v =? ErrorCorrectionQuart then Some 0x18
            else if ECLevel v =? ErrorCorrectionHighest then Some 0x10
            else None in
  match id with
  | None => None
  | Some formatID =>
    if (maskPattern <? 0) || (7 <? maskPattern) then None
    else match zget formatBitSequence (Z.lor formatID (Z.land maskPattern 0x7)) with
         | Some x => Some (bin_append_uint32 [] x 15)
         | None => None
         end
  end.

(* version.go:258-270 loadVersion *)
Fixpoint loadVersion_loop (is : list Z) (ec : Z) : outcome version :=
  match is with
  | [] => Panic PanicMissMatchedVersion
  | i :: rest =>
    match zget versions i with
    | None => Panic PanicIndex
    | Some v => if ECLevel v =? ec then Ok v else loadVersion_loop rest ec
    end
  end.
Definition loadVersion (lv ec : Z) : outcome version :=
  let high := lv * 4 - 1 in
  let low := (lv - 1) * 4 in
  loadVersion_loop (zseq low (high - low + 1)) ec.

(* version.go:302-321 the search loop; steps = step, step+4, ... < 160 *)
Fixpoint analyzeVersion_loop (steps : list Z) (want mode : Z) : outcome version :=
  match steps with
  | [] => Err ErrAnalyzeVersionFailed
  | step :: rest =>
    match zget versions step with
    | None => Panic PanicIndex
    | Some v =>
      let mark := if mode =? EncModeNumeric then Some (capNumeric (Cap v))
                  else if mode =? EncModeAlphanumeric then Some (capAlphaNumeric (Cap v))
                  else if mode =? EncModeByte then Some (capByte (Cap v))
                  else if mode =? EncModeKanji then Some (capJP (Cap v))
                  else None in
      match mark with
      | None => Err ErrMissMatchedEncodeType
      | Some mark => if want <=? mark then Ok v else analyzeVersion_loop rest want mode
      end
    end
  end.

(* version.go:278-325 analyzeVersion; raw is the byte string *)
Definition analyzeVersion (raw : list Z) (ec mode : Z) : outcome version :=
  let step := if ec =? ErrorCorrectionLow then Some 0
              else if ec =? ErrorCorrectionMedium then Some 1
              else if ec =? ErrorCorrectionQuart then Some 2
              else if ec =? ErrorCorrectionHighest then Some 3
              else None in
  match step with
  | None => Err ErrInvalidECLevel
  | Some step =>
    let want := if mode =? EncModeByte then zlen raw else rune_count raw in
    (* step, step+4, ...: 40 values below 160 *)
    analyzeVersion_loop (map (fun k => step + 4 * k) (zseq 0 40)) want mode
  end.

(* version.go:330-370 alignPatternLocation, a map with keys 2..40 *)
Definition alignPatternTable : list (option (list Z)) :=
  [ None; None;
    Some [6; 18]; Some [6; 22]; Some [6; 26]; Some [6; 30]; Some [6; 34];
    Some [6; 22; 38]; Some [6; 24; 42]; Some [6; 26; 46]; Some [6; 28; 50]; Some [6; 30; 54];
    Some [6; 32; 58]; Some [6; 34; 62];
    Some [6; 26; 46; 66]; Some [6; 26; 48; 70]; Some [6; 26; 50; 74]; Some [6; 30; 54; 78];
    Some [6; 30; 56; 82]; Some [6; 30; 58; 86]; Some [6; 34; 62; 90];
    Some [6; 28; 50; 72; 94]; Some [6; 26; 50; 74; 98]; Some [6; 30; 54; 78; 102];
    Some [6; 28; 54; 80; 106]; Some [6; 32; 58; 84; 110]; Some [6; 30; 58; 86; 114];
    Some [6; 34; 62; 90; 118];
    Some [6; 26; 50; 74; 98; 122]; Some [6; 30; 54; 78; 102; 126]; Some [6; 26; 52; 78; 104; 130];
    Some [6; 30; 56; 82; 108; 134]; Some [6; 34; 60; 86; 112; 138]; Some [6; 30; 58; 86; 114; 142];
    Some [6; 34; 62; 90; 118; 146];
    Some [6; 30; 54; 78; 102; 126; 150]; Some [6; 24; 50; 76; 102; 128; 154];
    Some [6; 28; 54; 80; 106; 132; 158]; Some [6; 32; 58; 84; 110; 136; 162];
    Some [6; 26; 54; 82; 110; 138; 166]; Some [6; 30; 58; 86; 114; 142; 170] ].
Definition alignPatternLocation (ver : Z) : option (list Z) :=
  match zget alignPatternTable ver with Some x => x | None => None end.

(* version.go:471-486 valid *)
Definition valid (x y dimension : Z) : bool :=
  if (x - 2 <? 7) && (y - 2 <? 7) then false
  else if (dimension - 7 <? x + 2) && (y - 2 <? 7) then false
  else if (x - 2 <? 7) && (dimension - 7 <? y + 2) then false
  else true.

(* version.go:445-468 calcAlignPatternLocs; None = panic("could not found align at version") *)
Definition calcAlignPatternLocs (ver : Z) : option (list (Z * Z)) :=
  if ver <? 2 then Some []
  else match alignPatternLocation ver with
       | None => None
       | Some positions =>
         let dimension := ver * 4 + 17 in
         Some (flat_map (fun pos1 =>
                 flat_map (fun pos2 => if valid pos1 pos2 dimension then [(pos1, pos2)] else []) positions)
               positions)
       end.

(* version.go:417-433 loadAlignmentPatternLocV2: the cache is filled for versions 2..40 by the package
   initialiser (version.go:15-17, 437-443) with exactly these values, so a lookup equals a recomputation.
   The cache itself is modelled in ModelCache.v. *)
Definition loadAlignmentPatternLocV2 (ver : Z) : option (list (Z * Z)) := calcAlignPatternLocs ver.
