(* Model of /repo/mask.go and of xorMask (/repo/qrcode.go:720-729). *)
From Verif Require Import ModelBase ModelMatrix.

(* mask.go:94-138, Go's / and % truncate (coordinates are never negative) *)
Definition modulo0Func (x y : Z) : bool := Z.rem (x + y) 2 =? 0.
Definition modulo1Func (x y : Z) : bool := Z.rem y 2 =? 0.
Definition modulo2Func (x y : Z) : bool := Z.rem x 3 =? 0.
Definition modulo3Func (x y : Z) : bool := Z.rem (x + y) 3 =? 0.
Definition modulo4Func (x y : Z) : bool := Z.rem (Z.quot x 3 + Z.quot y 2) 2 =? 0.
Definition modulo5Func (x y : Z) : bool := Z.rem (x * y) 2 + Z.rem (x * y) 3 =? 0.
Definition modulo6Func (x y : Z) : bool := Z.rem (Z.rem (x * y) 2 + Z.rem (x * y) 3) 2 =? 0.
Definition modulo7Func (x y : Z) : bool := Z.rem (Z.rem (x + y) 2 + Z.rem (x * y) 3) 2 =? 0.

(* mask.go:47-69; None = nil function (newMask then panics at mask.go:75) *)
Definition getModuloFunc (mode : Z) : option (Z -> Z -> bool) :=
  zget [modulo0Func; modulo1Func; modulo2Func; modulo3Func;
        modulo4Func; modulo5Func; modulo6Func; modulo7Func] mode.

(* mask.go:33-42, 72-90 newMask: a copy of the prefilled matrix in which function modules become INIT_V0
   and data modules DATA_V1/DATA_V0 by the modulo function.  The visitor modifies the matrix being iterated,
   but only the module being visited, and re-reads it with at(). *)
Definition newMask (mat : Matrix) (mode : Z) : option Matrix :=
  match getModuloFunc mode with
  | None => None
  | Some fn =>
    let m := m_copy mat in
    Some (fold_left (fun m '(x, y) =>
            let '(v, _) := m_at m x y in
            if negb (qrtype v =? QRType_INIT) then m_set m x y QRValue_INIT_V0
            else if fn x y then m_set m x y QRValue_DATA_V1
            else m_set m x y QRValue_DATA_V0)
          (iter_coords IterDirection_COLUMN (mwidth m) (mheight m)) m)
  end.

(* qrcode.go:720-729 xorMask *)
Definition xorMask (m mask : Matrix) : Matrix :=
  m_iter IterDirection_COLUMN mask
    (fun m x y v =>
       if qrtype v =? QRType_INIT then m
       else let '(v2, _) := m_at m x y in m_set m x y (qrxor v2 v)) m.
