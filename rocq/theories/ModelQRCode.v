(* Model of /repo/qrcode.go (construction pipeline, mask search) and /repo/encoder_option.go. *)
From Coq Require Import Init.Byte.
From Coq Require Strings.Byte.
From Verif Require Import ModelBase ModelBinary ModelUtf8 ModelVersion ModelMatrix ModelChardet
  ModelEncoder ModelRS ModelLayout ModelMask ModelEval.

(* ---------- encoder_option.go ---------- *)
(* encoder_option.go:15-30 *)
Record encodingOption := mkOption { oVersion : Z; oMinimumVersion : Z; oEncMode : Z; oEcLevel : Z }.

(* encoder_option.go:8-13 *)
Definition DefaultEncodingOption : encodingOption := mkOption 0 0 EncModeAuto ErrorCorrectionQuart.

Inductive EncodeOption :=
| WithEncodingMode (mode : Z)
| WithErrorCorrectionLevel (lv : Z)
| WithVersion (v : Z)
| WithMinimumVersion (v : Z).

(* encoder_option.go:45-88.  WithEncodingMode: getEncModeName (encoder.go:63-78) never returns "", so the
   mode is always stored. *)
Definition apply_option (o : encodingOption) (e : EncodeOption) : encodingOption :=
  match e with
  | WithEncodingMode mode => mkOption (oVersion o) (oMinimumVersion o) mode (oEcLevel o)
  | WithErrorCorrectionLevel lv =>
    if (lv <? ErrorCorrectionLow) || (ErrorCorrectionHighest <? lv) then o
    else mkOption (oVersion o) (oMinimumVersion o) (oEncMode o) lv
  | WithVersion v =>
    if (v <? 1) || (VERSION_COUNT <? v) then o
    else mkOption v (oMinimumVersion o) (oEncMode o) (oEcLevel o)
  | WithMinimumVersion v =>
    if (v <? 1) || (VERSION_COUNT <? v) then o
    else mkOption (oVersion o) v (oEncMode o) (oEcLevel o)
  end.

(* qrcode.go:22-25 *)
Definition apply_options (opts : list EncodeOption) : encodingOption :=
  fold_left apply_option opts DefaultEncodingOption.

(* ---------- qrcode.go ---------- *)
(* qrcode.go:250-254 *)
Record dataBlock := mkDataBlock { dbData : binary; dbStartOffset : Z; dbNumECBlock : Z }.

(* qrcode.go:228-244: the (NumDataCodewords, ECBlockwordsPerBlock) of each block in order *)
Definition block_plan (v : version) : list (Z * Z) :=
  flat_map (fun g => repeat (NumDataCodewords g, ECBlockwordsPerBlock g) (Z.to_nat (NumBlocks g))) (Groups v).

(* qrcode.go:229-244 *)
Fixpoint split_blocks (plan : list (Z * Z)) (bset : binary) (start : Z) : outcome (list dataBlock) :=
  match plan with
  | [] => Ok []
  | (ndc, ecn) :: rest =>
    let end_ := start + ndc * 8 in
    match bin_subset bset start end_ with
    | None => Panic PanicSubset
    | Some d =>
      let* bs := split_blocks rest bset end_ in
      Ok (mkDataBlock d (end_ - start) ecn :: bs)
    end
  end.

(* qrcode.go:226-246: the rest of dataEncoding; the slice of blocks has TotalNumBlocks entries.  More blocks than that: index out of
   range; fewer: the Data of the last ones stays nil, and errorCorrectionEncoding panics. *)
Definition cut_blocks (v : version) (bset : binary) : outcome (list dataBlock) :=
  let* blocks := split_blocks (block_plan v) bset 0 in
  if zlen blocks =? v_totalNumBlocks v then Ok blocks else Panic PanicIndex.

(* qrcode.go:264-277 errorCorrectionEncoding *)
Fixpoint errorCorrectionEncoding (blocks : list dataBlock) : outcome (list binary) :=
  match blocks with
  | [] => Ok []
  | b :: rest =>
    let bset := rs_encode (dbData b) (dbNumECBlock b) in
    match bin_subset bset (dbStartOffset b) (zlen bset) with
    | None => Panic PanicSubset
    | Some ec => let* bs := errorCorrectionEncoding rest in Ok (ec :: bs)
    end
  end.

(* qrcode.go:307-322 (and 336-349): one pass over the blocks at curIdx *)
Fixpoint arrange_pass (blocks : list binary) (curIdx overflowCnt : Z) (dst : binary) : outcome (Z * binary) :=
  match blocks with
  | [] => Ok (overflowCnt, dst)
  | b :: rest =>
    let start := curIdx * 8 in
    let end_ := start + 8 in
    if zlen b <=? start then arrange_pass rest curIdx (overflowCnt + 1) dst
    else match bin_subset b start end_ with
         | None => Panic PanicSubset
         | Some sub => arrange_pass rest curIdx overflowCnt (dst ++ sub)
         end
  end.

(* qrcode.go:306-328 (and 335-355): passes until overflowCnt >= len(blocks) *)
Fixpoint arrange_loop (fuel : nat) (blocks : list binary) (curIdx overflowCnt : Z) (dst : binary) : outcome binary :=
  match fuel with
  | O => Panic OutOfFuel
  | S f =>
    let* r := arrange_pass blocks curIdx overflowCnt dst in
    let '(overflowCnt, dst) := r in
    if zlen blocks <=? overflowCnt then Ok dst
    else arrange_loop f blocks (curIdx + 1) overflowCnt dst
  end.

(* qrcode.go:280-360 arrangeBits, one of the two halves; fuel: one pass per byte of the longest block + 2 *)
Definition arrange (blocks : list binary) : outcome binary :=
  arrange_loop (S (S (fold_left (fun n b => Nat.max n (length b)) blocks O))) blocks 0 0 [].

Section WithShiftJIS.
  Variable sjis : Z -> option (list Z).

  (* qrcode.go:129-139: effective mode *)
  Definition chooseMode (opt : encodingOption) (raw : list Z) : outcome Z :=
    if oEncMode opt =? EncModeAuto then analyzeEncodeModeFromRaw sjis raw
    else if validateEncodingMode sjis (oEncMode opt) raw then Ok (oEncMode opt)
    else Err ErrCharNotEncodable.

  (* qrcode.go:176-205 calcVersion; mode = opt.EncMode after qrcode.go:129-139 *)
  Definition calcVersion (opt : encodingOption) (mode : Z) (raw : list Z) : outcome version :=
    if (1 <=? oVersion opt) && (oVersion opt <=? 40)
       && (ErrorCorrectionLow <=? oEcLevel opt) && (oEcLevel opt <=? ErrorCorrectionHighest)
    then loadVersion (oVersion opt) (oEcLevel opt)
    else
      let* analyzed := analyzeVersion raw (oEcLevel opt) mode in
      let ver := if (0 <? oMinimumVersion opt) && (Ver analyzed <? oMinimumVersion opt)
                 then oMinimumVersion opt else Ver analyzed in
      loadVersion ver (oEcLevel opt).

  (* encoder.go:109-122 newEncoder: the mode check *)
  Definition newEncoder_ok (mode : Z) : bool :=
    (mode =? EncModeNumeric) || (mode =? EncModeAlphanumeric) || (mode =? EncModeByte) || (mode =? EncModeKanji).

  (* What init leaves in the QRCode (qrcode.go:92-102): version, mode, bit stream, prefilled matrix *)
  Record initState := mkInit { iV : version; iMode : Z; iData : binary; iMat : Matrix }.

  (* qrcode.go:127-168: init up to prefillMatrix; iMat is still the empty matrix *)
  Definition prepare (opt : encodingOption) (raw : list Z) : outcome initState :=
    let* mode := chooseMode opt raw in
    let* v := calcVersion opt mode raw in
    let mat := newMatrix (v_dimension v) (v_dimension v) in
    if negb (newEncoder_ok mode) then Panic PanicNewEncoder
    else
      let* bset := encode sjis mode v raw in
      let* dataBlocks := cut_blocks v bset in
      let* ecBlocks := errorCorrectionEncoding dataBlocks in
      let* dataBSet := arrange (map dbData dataBlocks) in
      let* ecBSet := arrange ecBlocks in
      let stream := bin_append_zeros (dataBSet ++ ecBSet) (RemainderBits v) in
      Ok (mkInit v mode stream mat).

  (* qrcode.go:127-173 init *)
  Definition init (opt : encodingOption) (raw : list Z) : outcome initState :=
    let* st := prepare opt raw in
    match prefillMatrix (Ver (iV st)) (iMat st) with
    | None => Panic PanicAlign
    | Some mat => Ok (mkInit (iV st) (iMode st) (iData st) mat)
    end.
End WithShiftJIS.

(* ---------- the mask search, qrcode.go:642-717 ---------- *)
(* One goroutine executes xorMask, fillFormatInfo, fillVersionInfo (Ver >= 7), evaluation, the channel send
   and wg.Done(); debugDraw/debugLogf are no-ops unless debugging is enabled and are not modelled. *)
Inductive gpc := GXor | GFormat | GVersion | GEval | GSend (score : Z) | GDone | GExit | GPanic.

Record gstate := mkG {
  gMats : list Matrix;           (* mats[i] *)
  gPcs : list gpc;               (* program counter (and local score) of goroutine i *)
  gChan : list (Z * Z);          (* scoreChan: (Score, Idx), capacity 8 *)
  gWg : Z;                       (* sync.WaitGroup counter *)
  gSpawned : nat;                (* goroutines started so far by the loop qrcode.go:671-704 *)
  gMain : bool                   (* the calling goroutine has passed wg.Wait() *)
}.

Definition set_mat (s : gstate) (i : nat) (m : Matrix) (pc : gpc) : gstate :=
  mkG (upd_nat (gMats s) i m) (upd_nat (gPcs s) i pc) (gChan s) (gWg s) (gSpawned s) (gMain s).
Definition set_pc (s : gstate) (i : nat) (pc : gpc) : gstate :=
  mkG (gMats s) (upd_nat (gPcs s) i pc) (gChan s) (gWg s) (gSpawned s) (gMain s).

(* one step of goroutine i, qrcode.go:674-703; a blocked or finished goroutine leaves the state unchanged *)
Definition gstep (v : version) (masks : list Matrix) (s : gstate) (i : nat) : gstate :=
  match nth_error (gPcs s) i, nth_error (gMats s) i, nth_error masks i with
  | Some pc, Some m, Some mask =>
    match pc with
    | GXor => set_mat s i (xorMask m mask) GFormat                                       (* qrcode.go:677 *)
    | GFormat =>                                                                         (* qrcode.go:682 *)
      match v_formatInfo v (Z.of_nat i) with
      | Some b => set_mat s i (fillFormatInfo m (v_dimension v) b) GVersion
      | None => set_pc s i GPanic
      end
    | GVersion =>                                                                        (* qrcode.go:684-686 *)
      if 7 <=? Ver v then
        match v_verInfo v with
        | Some b => set_mat s i (fillVersionInfo m (v_dimension v) b) GEval
        | None => set_pc s i GPanic
        end
      else set_pc s i GEval
    | GEval =>                                                                           (* qrcode.go:689 *)
      match evaluation m with
      | Some score => set_pc s i (GSend score)
      | None => set_pc s i GPanic
      end
    | GSend score =>                                                                     (* qrcode.go:695-698 *)
      if zlen (gChan s) <? 8
      then mkG (gMats s) (upd_nat (gPcs s) i GDone) (gChan s ++ [(score, Z.of_nat i)]) (gWg s) (gSpawned s) (gMain s)
      else s
    | GDone =>                                                                           (* qrcode.go:702 *)
      mkG (gMats s) (upd_nat (gPcs s) i GExit) (gChan s) (gWg s - 1) (gSpawned s) (gMain s)
    | GExit => s
    | GPanic => s
    end
  | _, _, _ => s
  end.

(* one step of the calling goroutine: wg.Add(1); go func(i) (qrcode.go:671-673), then wg.Wait()
   (qrcode.go:706), which blocks while the counter is not 0 *)
Definition mainstep (s : gstate) : gstate :=
  if Nat.ltb (gSpawned s) 8
  then mkG (gMats s) (gPcs s) (gChan s) (gWg s + 1) (S (gSpawned s)) (gMain s)
  else if gWg s =? 0 then mkG (gMats s) (gPcs s) (gChan s) (gWg s) (gSpawned s) true
  else s.

(* a schedule is a sequence of actors; a goroutine cannot run before it is started *)
Inductive actor := Main | Goroutine (i : nat).
Definition step (v : version) (masks : list Matrix) (s : gstate) (a : actor) : gstate :=
  match a with
  | Main => mainstep s
  | Goroutine i => if Nat.ltb i (gSpawned s) then gstep v masks s i else s
  end.

(* qrcode.go:664-667: masks[i] = newMask(q.mat, i); None = panic *)
Definition all_masks (mat : Matrix) : option (list Matrix) :=
  fold_right (fun i acc => match newMask mat i, acc with Some m, Some l => Some (m :: l) | _, _ => None end)
             (Some []) (zseq 0 8).

(* qrcode.go:709-714: fold over the channel contents in arrival order; lowScore = math.MaxInt32, index 0 *)
Definition select_mask (chan : list (Z * Z)) : Z * Z :=
  fold_left (fun '(low, idx) '(score, i) => if score <? low then (score, i) else (low, idx)) chan (MaxInt32, 0).

Definition is_panic (pc : gpc) : bool := match pc with GPanic => true | _ => false end.

Definition ginit (cpy : Matrix) : gstate :=
  mkG (map (fun _ => m_copy cpy) (zseq 0 8)) (repeat GXor 8) [] 0 0 false.

(* qrcode.go:642-669: the data is filled in and the masks are made; the state in which the goroutines start *)
Definition mask_start (v : version) (data : binary) (mat : Matrix) : outcome (list Matrix * gstate) :=
  let cpy := m_copy mat in
  match fillDataBinary cpy (v_dimension v) data with
  | None => Panic OutOfFuel
  | Some cpy =>
    match all_masks mat with
    | None => Panic PanicModulo
    | Some masks => Ok (masks, ginit cpy)
    end
  end.

(* qrcode.go:706-717: q.mat after the search.  Pending: the caller is still spawning or blocked in wg.Wait() *)
Definition mask_end (s : gstate) : outcome Matrix :=
  if existsb is_panic (gPcs s) then Panic PanicFormat
  else if gMain s then
    match zget (gMats s) (snd (select_mask (gChan s))) with
    | Some m => Ok m
    | None => Panic PanicIndex
    end
  else Pending.

(* qrcode.go:642-717 masking under a schedule *)
Definition masking (v : version) (data : binary) (mat : Matrix) (sched : list actor) : outcome Matrix :=
  let* r := mask_start v data mat in
  let '(masks, s) := r in mask_end (fold_left (step v masks) sched s).

(* qrcode.go:92-102 what a finished QRCode contains: version, effective mode, bit stream, matrix. *)
Record QRCode := mkQR { qV : version; qMode : Z; qData : binary; qMat : Matrix }.

(* qrcode.go:118-124 Dimension *)
Definition q_dimension (q : QRCode) : Z := mwidth (qMat q).

Section API.
  Variable sjis : Z -> option (list Z).

  (* qrcode.go:70-88 build *)
  Definition build (raw : list Z) (opt : encodingOption) (sched : list actor) : outcome QRCode :=
    let* st := init sjis opt raw in
    let* mat := masking (iV st) (iData st) (iMat st) sched in
    Ok (mkQR (iV st) (iMode st) (iData st) mat).

  (* the value of a byte *)
  Definition byteZ (b : byte) : Z := Z.of_N (Coq.Strings.Byte.to_N b).

  (* qrcode.go:30-39 toBytes: the dynamic type of `text`.  A defined type (type T string) satisfies the
     constraint ~string | ~[]byte but matches neither case of the type switch. *)
  Inductive GoText :=
  | GoString (s : list byte)
  | GoBytes (s : list byte)
  | GoNamedString (s : list byte)
  | GoNamedBytes (s : list byte).

  Definition toBytes (t : GoText) : outcome (list Z) :=
    match t with
    | GoString s | GoBytes s => Ok (map byteZ s)
    | GoNamedString _ | GoNamedBytes _ => Panic PanicUnreachable
    end.

  (* qrcode.go:21-28 NewWith *)
  Definition NewWith (text : GoText) (opts : list EncodeOption) (sched : list actor) : outcome QRCode :=
    let* raw := toBytes text in
    build raw (apply_options opts) sched.

  (* qrcode.go:14-17 New *)
  Definition New (text : GoText) (sched : list actor) : outcome QRCode := NewWith text [] sched.
End API.
