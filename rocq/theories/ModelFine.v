(* The mask search (/repo/qrcode.go:642-717) once more, now on a heap and with the goroutines' work cut into single reads and
   writes of modules, which may be interleaved in any way.  ModelQRCode.v runs each of xorMask, fillFormatInfo, fillVersionInfo and
   evaluation in one step; this file does not. *)
From Verif Require Import ModelBase ModelBinary ModelMatrix ModelVersion ModelEncoder ModelMask ModelEval ModelLayout ModelHeap ModelQRCode.

(* what a goroutine does between its start and the send: a program that reads modules of its mask (masks[i].mat) and reads and writes
   modules of its matrix (mats[i]); Ret: it is about to send the score *)
Inductive prog :=
| Ret (score : Z)
| RdMask (x y : Z) (k : Z -> prog)
| RdMat (x y : Z) (k : Z -> prog)
| WrMat (x y c : Z) (k : prog).

(* qrcode.go:720-729 xorMask; the coordinates are those of mask.mat.iter (matrix.go:127-144) *)
Fixpoint xor_prog (coords : list (Z * Z)) (k : prog) : prog :=
  match coords with
  | [] => k
  | (x, y) :: r =>
    RdMask x y (fun v => if qrtype v =? QRType_INIT then xor_prog r k
                         else RdMat x y (fun v2 => WrMat x y (qrxor v2 v) (xor_prog r k)))
  end.

(* qrcode.go:755-792 fillFormatInfo: the set calls in order, with the values of x and y at the start of each turn of the loop *)
Fixpoint format_writes (dimension x y : Z) (bin : binary) : list (Z * Z * Z) :=
  match bin with
  | [] => []
  | b :: r =>
    let c := if (b : bool) then QRValue_FORMAT_V1 else QRValue_FORMAT_V0 in
    let x' := x + 1 in let y' := y - 1 in
    (x, 8, c) :: (8, y, c) ::
    format_writes dimension (if x' =? 6 then 7 else if x' =? 8 then dimension - 8 else x')
      (if y' =? dimension - 8 then 8 else if y' =? 6 then 5 else y') r
  end.
(* qrcode.go:733-751 fillVersionInfo *)
Fixpoint version_writes (dimension : Z) (cells : list (Z * Z)) (bin : binary) : list (Z * Z * Z) :=
  match cells, bin with
  | (j, i) :: cells, b :: r =>
    let c := if (b : bool) then QRValue_VERSION_V1 else QRValue_VERSION_V0 in
    (dimension - 8 - i, j, c) :: (j, dimension - 8 - i, c) :: version_writes dimension cells r
  | _, _ => []
  end.
Fixpoint writes_prog (ws : list (Z * Z * Z)) (k : prog) : prog :=
  match ws with [] => k | (x, y, c) :: r => WrMat x y c (writes_prog r k) end.

(* qrcode.go:671-698: the body of goroutine i up to the send.  eval: how evaluation reads its matrix (any program).  The missing
   format or version word is a panic in the code; it does not happen (theorem C04). *)
Definition or_empty (o : option binary) : binary := match o with Some b => b | None => [] end.
Definition body (v : version) (mask : Matrix) (i : Z) (eval : prog) : prog :=
  let d := v_dimension v in
  xor_prog (iter_coords IterDirection_COLUMN (mwidth mask) (mheight mask))
    (writes_prog (format_writes d 0 (d - 1) (firstn 15 (or_empty (v_formatInfo v i))))
       (writes_prog (if 7 <=? Ver v then version_writes d (flat_map (fun j => map (fun i => (j, i)) [1; 2; 3]) [5; 4; 3; 2; 1; 0]) (or_empty (v_verInfo v)) else [])
          eval)).

(* matrix.go:88-108 at, set on the heap: the range checks, then m.mat[w][h] *)
Definition rd_cell (h : heap) (m : HMatrix) (x y : Z) : Z :=
  match h_column h m x with
  | Some a => match h_values h a with Some l => match zget l y with Some v => v | None => 0 end | None => 0 end
  | None => 0
  end.
Definition at_cell (h : heap) (m : HMatrix) (x y : Z) : Z :=
  if (h_width m <=? x) || (x <? 0) then QRValue_INIT_V0
  else if (h_height m <=? y) || (y <? 0) then QRValue_INIT_V0 else rd_cell h m x y.
Definition set_cell (h : heap) (m : HMatrix) (x y c : Z) : heap :=
  if (h_width m <=? x) || (x <? 0) then h
  else if (h_height m <=? y) || (y <? 0) then h
  else match h_column h m x with
       | Some a => match h_values h a with Some l => upd_nat h a (Values (zupd l y c)) | None => h end
       | None => h
       end.
(* the object (the array of column x) which that reads or writes, if any *)
Definition cell_object (h : heap) (m : HMatrix) (x y : Z) : list nat :=
  if (h_width m <=? x) || (x <? 0) then []
  else if (h_height m <=? y) || (y <? 0) then [] else match h_column h m x with Some a => [a] | None => [] end.

Inductive fpc := Running (p : prog) | FDone | FExit.
Record fstate := mkF {
  fHeap : heap;
  fPcs : list fpc;
  fChan : list (Z * Z);
  fWg : Z;
  fSpawned : nat;
  fMain : bool;
  fLog : list (nat * (nat * bool))      (* ghost: goroutine, object, written *)
}.

(* one read, one write, the send (which blocks when the channel is full) or wg.Done() *)
Definition fgstep (hmasks hmats : list HMatrix) (s : fstate) (i : nat) : fstate :=
  match nth_error (fPcs s) i, nth_error hmats i, nth_error hmasks i with
  | Some pc, Some hm, Some hk =>
    let go p h log := mkF h (upd_nat (fPcs s) i (Running p)) (fChan s) (fWg s) (fSpawned s) (fMain s)
                        (fLog s ++ map (fun e => (i, e)) log) in
    match pc with
    | Running (RdMask x y k) => go (k (at_cell (fHeap s) hk x y)) (fHeap s) (map (fun a => (a, false)) (cell_object (fHeap s) hk x y))
    | Running (RdMat x y k) => go (k (at_cell (fHeap s) hm x y)) (fHeap s) (map (fun a => (a, false)) (cell_object (fHeap s) hm x y))
    | Running (WrMat x y c k) => go k (set_cell (fHeap s) hm x y c) (map (fun a => (a, true)) (cell_object (fHeap s) hm x y))
    | Running (Ret score) =>
      if zlen (fChan s) <? 8
      then mkF (fHeap s) (upd_nat (fPcs s) i FDone) (fChan s ++ [(score, Z.of_nat i)]) (fWg s) (fSpawned s) (fMain s) (fLog s)
      else s
    | FDone => mkF (fHeap s) (upd_nat (fPcs s) i FExit) (fChan s) (fWg s - 1) (fSpawned s) (fMain s) (fLog s)
    | FExit => s
    end
  | _, _, _ => s
  end.
Definition fmainstep (s : fstate) : fstate :=
  if Nat.ltb (fSpawned s) 8
  then mkF (fHeap s) (fPcs s) (fChan s) (fWg s + 1) (S (fSpawned s)) (fMain s) (fLog s)
  else if fWg s =? 0 then mkF (fHeap s) (fPcs s) (fChan s) (fWg s) (fSpawned s) true (fLog s)
  else s.
Definition fstep (hmasks hmats : list HMatrix) (s : fstate) (a : actor) : fstate :=
  match a with
  | Main => fmainstep s
  | Goroutine i => if Nat.ltb i (fSpawned s) then fgstep hmasks hmats s i else s
  end.

(* the allocations: masks[i] (newMask, mask.go:33-42, copies) and mats[i] (cpy.Copy()), each in fresh memory; others is all the memory
   there was before, q.mat and cpy included *)
Fixpoint alloc_all (h : heap) (ms : list Matrix) : heap * list HMatrix :=
  match ms with
  | [] => (h, [])
  | m :: r => let '(h1, hm) := h_alloc h m in let '(h2, hr) := alloc_all h1 r in (h2, hm :: hr)
  end.
Definition fstart (others : heap) (v : version) (masks mats : list Matrix) (eval : prog) : fstate * (list HMatrix * list HMatrix) :=
  let '(h1, hmasks) := alloc_all others masks in
  let '(h2, hmats) := alloc_all h1 mats in
  (mkF h2 (map (fun '(i, mask) => Running (body v mask i eval)) (combine (zseq 0 8) masks)) [] 0 0 false [], (hmasks, hmats)).

(* qrcode.go:706-717 *)
Definition fend (hmats : list HMatrix) (s : fstate) : outcome Matrix :=
  if fMain s then
    match zget hmats (snd (select_mask (fChan s))) with
    | Some hm => match h_read (fHeap s) hm with Some m => Ok m | None => Panic PanicIndex end
    | None => Panic PanicIndex
    end
  else Pending.

(* the state after a schedule, and qrcode.go:642-717 masking *)
Definition frun (others : heap) (v : version) (masks mats : list Matrix) (eval : prog) (sched : list actor) : fstate * list HMatrix :=
  let '(s, (hmasks, hmats)) := fstart others v masks mats eval in (fold_left (fstep hmasks hmats) sched s, hmats).
Definition masking_fine (others : heap) (eval : prog) (v : version) (data : binary) (mat : Matrix) (sched : list actor) : outcome Matrix :=
  let* r := mask_start v data mat in
  let '(masks, s0) := r in
  let '(s, hmats) := frun others v masks (gMats s0) eval sched in fend hmats s.

(* qrcode.go:21-28, 70-88 NewWith.  eval d: how evaluation reads a matrix of dimension d *)
Definition NewWith_fine (others : heap) (eval : Z -> prog) (sjis : Z -> option (list Z)) (text : GoText) (opts : list EncodeOption) (sched : list actor) : outcome QRCode :=
  let* raw := toBytes text in
  let* st := init sjis (apply_options opts) raw in
  let* mat := masking_fine others (eval (v_dimension (iV st))) (iV st) (iData st) (iMat st) sched in
  Ok (mkQR (iV st) (iMode st) (iData st) mat).

(* ghosts, for the statements about memory: what the goroutines read and wrote, and the memory *)
Definition masking_memory (others : heap) (eval : prog) (v : version) (data : binary) (mat : Matrix) (sched : list actor) : heap * list (nat * (nat * bool)) :=
  match mask_start v data mat with
  | Ok (masks, s0) => let '(s, _) := frun others v masks (gMats s0) eval sched in (fHeap s, fLog s)
  | _ => (others, [])
  end.
Definition NewWith_memory (others : heap) (eval : Z -> prog) (sjis : Z -> option (list Z)) (text : GoText) (opts : list EncodeOption) (sched : list actor) : heap * list (nat * (nat * bool)) :=
  match (let* raw := toBytes text in init sjis (apply_options opts) raw) with
  | Ok st => masking_memory others (eval (v_dimension (iV st))) (iV st) (iData st) (iMat st) sched
  | _ => (others, [])
  end.
