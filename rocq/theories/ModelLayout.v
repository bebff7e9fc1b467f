(* Model of the matrix-filling half of /repo/qrcode.go (lines 362-638, 731-792). *)
From Verif Require Import ModelBase ModelBinary ModelVersion ModelMatrix.

(* the loops  for i := 0; i < n; i++ { set(x,y,c); move }  of addFinder/addAlignment:
   side = length of one side in steps, n = 4*side iterations, clockwise from the top-left corner *)
Definition ring (m : Matrix) (x0 y0 side c : Z) : Matrix :=
  let '(m, _, _) :=
    fold_left (fun '(m, x, y) i =>
      let m := m_set m x y c in
      if i <? side then (m, x + 1, y)
      else if i <? 2 * side then (m, x, y + 1)
      else if i <? 3 * side then (m, x - 1, y)
      else (m, x, y - 1))
    (zseq 0 (4 * side)) (m, x0, y0) in m.

(* qrcode.go:406-443 addFinder.  Note that the "black inner" square uses left for x and top for y. *)
Definition addFinder (m : Matrix) (top left : Z) : Matrix :=
  let m := ring m top left 6 QRValue_FINDER_V1 in
  let m := ring m (top + 1) (left + 1) 4 QRValue_FINDER_V0 in
  fold_left (fun m x => fold_left (fun m y => m_set m x y QRValue_FINDER_V1) (zseq (top + 2) 3) m)
            (zseq (left + 2) 3) m.

(* qrcode.go:446-474 addSplitter *)
Definition addSplitter (m : Matrix) (x y dimension : Z) : Matrix :=
  if (x =? 7) && (y =? 7) then
    fold_left (fun m pos => m_set (m_set m x pos QRValue_SPLITTER_V0) pos y QRValue_SPLITTER_V0) (zseq 0 8) m
  else if (x =? dimension - 8) && (y =? 7) then
    fold_left (fun m pos => m_set (m_set m x (y - pos) QRValue_SPLITTER_V0) (x + pos) y QRValue_SPLITTER_V0) (zseq 0 8) m
  else if (x =? 7) && (y =? dimension - 8) then
    fold_left (fun m pos => m_set (m_set m x (y + pos) QRValue_SPLITTER_V0) (x - pos) y QRValue_SPLITTER_V0) (zseq 0 8) m
  else m.

(* qrcode.go:477-507 addAlignment *)
Definition addAlignment (m : Matrix) (centerX centerY : Z) : Matrix :=
  let m := m_set m centerX centerY QRValue_DATA_V1 in
  let m := ring m (centerX - 2) (centerY - 2) 4 QRValue_DATA_V1 in
  ring m (centerX - 1) (centerY - 1) 2 QRValue_DATA_V0.

(* qrcode.go:510-520 addTimingLine *)
Definition addTimingLine (m : Matrix) (dimension : Z) : Matrix :=
  fold_left (fun m pos =>
    if Z.rem pos 2 =? 0
    then m_set (m_set m 6 pos QRValue_TIMING_V1) pos 6 QRValue_TIMING_V1
    else m_set (m_set m 6 pos QRValue_TIMING_V0) pos 6 QRValue_TIMING_V0)
    (zseq 8 (dimension - 8 - 8)) m.

(* qrcode.go:523-525 addDarkBlock *)
Definition addDarkBlock (m : Matrix) (x y : Z) : Matrix := m_set m x y QRValue_DARK_V1.

(* qrcode.go:528-552 reserveFormatBlock *)
Definition reserveFormatBlock (m : Matrix) (dimension : Z) : Matrix :=
  let m := fold_left (fun m pos =>
    if pos =? 6 then
      m_set (m_set m 8 (dimension - pos) QRValue_FORMAT_V0) (dimension - pos) 8 QRValue_FORMAT_V0
    else if pos =? 8 then
      m_set (m_set (m_set m 8 pos QRValue_FORMAT_V0) pos 8 QRValue_FORMAT_V0) (dimension - pos) 8 QRValue_FORMAT_V0
    else
      m_set (m_set (m_set (m_set m 8 pos QRValue_FORMAT_V0) pos 8 QRValue_FORMAT_V0)
             (dimension - pos) 8 QRValue_FORMAT_V0) 8 (dimension - pos) QRValue_FORMAT_V0)
    (zseq 1 8) m in
  m_set (m_set m 0 8 QRValue_FORMAT_V0) 8 0 QRValue_FORMAT_V0.

(* qrcode.go:555-563 reserveVersionBlock *)
Definition reserveVersionBlock (m : Matrix) (dimension : Z) : Matrix :=
  fold_left (fun m i =>
    fold_left (fun m pos =>
      m_set (m_set m (dimension - 8 - i) pos QRValue_VERSION_V0) pos (dimension - 8 - i) QRValue_VERSION_V0)
      (zseq 0 6) m)
    (zseq 1 3) m.

(* qrcode.go:364-403 prefillMatrix, given what loadAlignmentPatternLocV2 answers; None = panic *)
Definition prefill_from (answer : option (list (Z * Z))) (ver : Z) (m : Matrix) : option Matrix :=
  let dimension := ver * 4 + 17 in
  let m := addFinder m 0 0 in
  let m := addSplitter m 7 7 dimension in
  let m := addFinder m (dimension - 7) 0 in
  let m := addSplitter m (dimension - 8) 7 dimension in
  let m := addFinder m 0 (dimension - 7) in
  let m := addSplitter m 7 (dimension - 8) dimension in
  let om := if 1 <? ver then
              match answer with
              | Some locs => Some (fold_left (fun m '(x, y) => addAlignment m x y) locs m)
              | None => None
              end
            else Some m in
  match om with
  | None => None
  | Some m =>
    let m := addTimingLine m dimension in
    let m := addDarkBlock m 8 (4 * ver + 9) in
    let m := reserveFormatBlock m dimension in
    Some (if 7 <=? ver then reserveVersionBlock m dimension else m)
  end.

(* qrcode.go:364-403 prefillMatrix; None = panic in loadAlignmentPatternLocV2 *)
Definition prefillMatrix (ver : Z) (m : Matrix) : option Matrix := prefill_from (loadAlignmentPatternLocV2 ver) ver m.

(* qrcode.go:577-635: the loop of fillDataBinary.  `bits` is the not yet placed suffix of q.dataBSet
   (q.dataBSet.At(pos) is its head; pos++ drops the head; the loop ends when pos = Len()).
   None = out of fuel. *)
Fixpoint fill_loop (fuel : nat) (m : Matrix) (x y : Z) (upForward : bool) (i : Z) (bits : binary)
  : option Matrix :=
  match bits with
  | [] => Some m
  | b :: rest =>
    match fuel with
    | O => None
    | S f =>
      let set := if b then QRValue_DATA_V1 else QRValue_DATA_V0 in
      let '(state, err) := m_at m x y in
      match err with
      | Some ErrorOutRangeOfW => Some m
      | _ =>
        let '(x, y, upForward, state) :=
          match err with
          | Some ErrorOutRangeOfH =>
            let x := x - 2 in
            let y := if upForward then y + 1 else y - 1 in
            let x := if (x =? 7) || (x =? 6) then x - 1 else x in
            (x, y, negb upForward, fst (m_at m x y))
          | _ => (x, y, upForward, state)
          end in
        let '(m, bits) := if qrtype state =? QRType_INIT then (m_set m x y set, rest) else (m, bits) in
        let mod2 := Z.rem i 2 in
        let '(x, y) :=
          if upForward then (if mod2 =? 0 then (x - 1, y) else (x + 1, y - 1))
          else (if mod2 =? 0 then (x - 1, y) else (x + 1, y + 1)) in
        fill_loop f m x y upForward (i + 1) bits
      end
    end
  end.

(* qrcode.go:568-638 fillDataBinary.  Fuel: at most one iteration per module plus slack. *)
Definition fillDataBinary (m : Matrix) (dimension : Z) (bits : binary) : option Matrix :=
  fill_loop (Z.to_nat (dimension * dimension + dimension)) m (dimension - 1) (dimension - 1) true 0 bits.

(* qrcode.go:733-751 fillVersionInfo; `bin` = q.v.verInfo(), consumed front to back (bin.At(pos), pos++) *)
Definition fillVersionInfo (m : Matrix) (dimension : Z) (bin : binary) : Matrix :=
  fst (fold_left (fun '(m, bin) '(j, i) =>
    match bin with
    | [] => (m, [])
    | b :: rest =>
      let c := if (b : bool) then QRValue_VERSION_V1 else QRValue_VERSION_V0 in
      (m_set (m_set m (dimension - 8 - i) j c) j (dimension - 8 - i) c, rest)
    end)
    (flat_map (fun j => map (fun i => (j, i)) [1; 2; 3]) [5; 4; 3; 2; 1; 0]) (m, bin)).

(* qrcode.go:755-792 fillFormatInfo; the loop pos = 0..14 over the 15 bits *)
Definition fillFormatInfo (m : Matrix) (dimension : Z) (fmtBSet : binary) : Matrix :=
  let '(m, _, _) :=
    fold_left (fun '(m, x, y) (b : bool) =>
      let c := if b then QRValue_FORMAT_V1 else QRValue_FORMAT_V0 in
      let m := m_set m x 8 c in
      let m := m_set m 8 y c in
      let x := x + 1 in
      let y := y - 1 in
      let x := if x =? 6 then 7 else if x =? 8 then dimension - 8 else x in
      let y := if y =? dimension - 8 then 8 else if y =? 6 then 5 else y in
      (m, x, y)) (firstn 15 fmtBSet) (m, 0, dimension - 1) in m.
