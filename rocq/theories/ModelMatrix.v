(* Model of /repo/matrix_type.go and /repo/matrix.go. *)
From Verif Require Import ModelBase.

(* ---- matrix_type.go:3-125: qrtype/qrvalue are uint8: 7 bits type, low bit value ---- *)
(* matrix_type.go:8-22 *)
Definition QRType_INIT : Z := 2.
Definition QRType_DATA : Z := 4.
Definition QRType_VERSION : Z := 6.
Definition QRType_FORMAT : Z := 8.
Definition QRType_FINDER : Z := 10.
Definition QRType_DARK : Z := 12.
Definition QRType_SPLITTER : Z := 14.
Definition QRType_TIMING : Z := 16.

(* matrix_type.go:62-100 *)
Definition QRValue_INIT_V0 : Z := QRType_INIT.
Definition QRValue_DATA_V0 : Z := QRType_DATA.
Definition QRValue_DATA_V1 : Z := Z.lor QRType_DATA 1.
Definition QRValue_VERSION_V0 : Z := QRType_VERSION.
Definition QRValue_VERSION_V1 : Z := Z.lor QRType_VERSION 1.
Definition QRValue_FORMAT_V0 : Z := QRType_FORMAT.
Definition QRValue_FORMAT_V1 : Z := Z.lor QRType_FORMAT 1.
Definition QRValue_FINDER_V0 : Z := QRType_FINDER.
Definition QRValue_FINDER_V1 : Z := Z.lor QRType_FINDER 1.
Definition QRValue_DARK_V1 : Z := Z.lor QRType_DARK 1.
Definition QRValue_SPLITTER_V0 : Z := QRType_SPLITTER.
Definition QRValue_TIMING_V0 : Z := QRType_TIMING.
Definition QRValue_TIMING_V1 : Z := Z.lor QRType_TIMING 1.

(* matrix_type.go:102-104 *)
Definition qrtype (v : Z) : Z := Z.land v 0xfe.
(* matrix_type.go:106-108 (also the exported IsSet, :54-56) *)
Definition qrbool (v : Z) : bool := Z.land v 0x01 =? 1.
(* matrix_type.go:119-125 *)
Definition qrxor (v v2 : Z) : Z := if v =? v2 then QRValue_DATA_V0 else QRValue_DATA_V1.

(* ---- matrix.go ---- *)
(* matrix.go:35-39: mat[w][h], a slice of columns *)
Record Matrix := mkMatrix { mmat : list (list Z); mwidth : Z; mheight : Z }.

(* matrix.go:8-14 *)
Inductive mat_err := ErrorOutRangeOfW | ErrorOutRangeOfH.

(* matrix.go:17-31, 42-48 newMatrix + init: every module QRValue_INIT_V0 *)
Definition newMatrix (width height : Z) : Matrix :=
  mkMatrix (map (fun _ => map (fun _ => QRValue_INIT_V0) (zseq 0 height)) (zseq 0 width)) width height.

(* m.mat[w][h]; only evaluated after the range checks of set/at.  The default 0 is not a qrvalue and is
   never reached for matrices built by newMatrix (lemma wf_get in ProofMatrix.v). *)
Definition rawget (m : Matrix) (w h : Z) : Z :=
  match zget (mmat m) w with
  | Some col => match zget col h with Some v => v | None => 0 end
  | None => 0
  end.

(* matrix.go:100-108 at *)
Definition m_at (m : Matrix) (w h : Z) : Z * option mat_err :=
  if (mwidth m <=? w) || (w <? 0) then (QRValue_INIT_V0, Some ErrorOutRangeOfW)
  else if (mheight m <=? h) || (h <? 0) then (QRValue_INIT_V0, Some ErrorOutRangeOfH)
  else (rawget m w h, None).

(* matrix.go:88-97 set; every caller discards the error ("_ = m.set(...)"), so only the new matrix is returned *)
Definition m_set (m : Matrix) (w h c : Z) : Matrix :=
  if (mwidth m <=? w) || (w <? 0) then m
  else if (mheight m <=? h) || (h <? 0) then m
  else mkMatrix
         match zget (mmat m) w with
         | Some col => zupd (mmat m) w (zupd col h c)
         | None => mmat m
         end (mwidth m) (mheight m).

(* matrix.go:61-75 Copy: a fresh matrix with the same contents.  Aliasing is modelled in ModelHeap.v. *)
Definition m_copy (m : Matrix) : Matrix :=
  mkMatrix (map (fun w => match zget (mmat m) w with Some c => c | None => [] end) (zseq 0 (mwidth m)))
           (mwidth m) (mheight m).

(* matrix.go:110-119 *)
Inductive iterDirection := IterDirection_ROW | IterDirection_COLUMN.

(* matrix.go:127-144 iter: the coordinates visited, in order *)
Definition iter_coords (dir : iterDirection) (width height : Z) : list (Z * Z) :=
  match dir with
  | IterDirection_ROW => flat_map (fun h => map (fun w => (w, h)) (zseq 0 width)) (zseq 0 height)
  | IterDirection_COLUMN => flat_map (fun w => map (fun h => (w, h)) (zseq 0 height)) (zseq 0 width)
  end.

(* matrix.go:127-144 iter with a visitor that does not modify m itself; S is the state the closure captures *)
Definition m_iter {S} (dir : iterDirection) (m : Matrix) (visit : S -> Z -> Z -> Z -> S) (s : S) : S :=
  fold_left (fun s '(x, y) => visit s x y (rawget m x y)) (iter_coords dir (mwidth m) (mheight m)) s.

(* matrix.go:147-157 Row; None = nil.  col := make([]qrvalue, m.height) is filled for w < m.width; writing
   col[w] with w >= m.height would panic; the library only makes square matrices, so the model leaves that panic out
   (it returns the longer list) and the theorems about Row are about square matrices. *)
Definition m_row (m : Matrix) (cur : Z) : option (list Z) :=
  if (mheight m <=? cur) || (cur <? 0) then None
  else Some (map (fun w => rawget m w cur) (zseq 0 (mwidth m)) ++ repeat 0 (Z.to_nat (mheight m - mwidth m))).

(* matrix.go:160-166 Col *)
Definition m_col (m : Matrix) (cur : Z) : option (list Z) :=
  if (mwidth m <=? cur) || (cur <? 0) then None
  else match zget (mmat m) cur with Some c => Some c | None => Some [] end.

(* matrix.go:169-180 Bitmap: table[y][x] = s.qrbool(), table zero-initialised (height x width) *)
Definition m_bitmap (m : Matrix) : list (list bool) :=
  m_iter IterDirection_ROW m
    (fun table x y s => match zget table y with
                        | Some row => zupd table y (zupd row x (qrbool s))
                        | None => table
                        end)
    (repeat (repeat false (Z.to_nat (mwidth m))) (Z.to_nat (mheight m))).
