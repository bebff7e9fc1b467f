(* Vocabulary for statements about matrices: which values of type Matrix the library can produce, and what the
   calls made by Iterate are. *)
From Verif Require Import ModelBase ModelMatrix.

(* the matrix has the width and height it says it has; true of every matrix newMatrix returns, and kept by set and Copy *)
Definition wf (m : Matrix) : Prop :=
  0 <= mwidth m /\ 0 <= mheight m /\
  zlen (mmat m) = mwidth m /\ Forall (fun c => zlen c = mheight m) (mmat m).

Definition in_range (m : Matrix) (x y : Z) : Prop := 0 <= x < mwidth m /\ 0 <= y < mheight m.

Definition square (n : Z) (m : Matrix) : Prop := wf m /\ mwidth m = n /\ mheight m = n.

(* the arguments with which Iterate calls its callback, in order *)
Definition visits (dir : iterDirection) (m : Matrix) : list (Z * Z * Z) :=
  m_iter dir m (fun acc x y v => acc ++ [(x, y, v)]) [].
