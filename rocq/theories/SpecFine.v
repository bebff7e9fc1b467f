(* Vocabulary for C76. *)
From Verif Require Import ModelBase ModelMatrix ModelEval ModelFine SpecMatrix.

(* what a goroutine's program does when nobody else touches its mask and its matrix: the matrix it leaves and the score it sends *)
Fixpoint alone (p : prog) (mask m : Matrix) : Matrix * Z :=
  match p with
  | Ret s => (m, s)
  | RdMask x y k => alone (k (fst (m_at mask x y))) mask m
  | RdMat x y k => alone (k (fst (m_at m x y))) mask m
  | WrMat x y c k => alone k mask (m_set m x y c)
  end.

(* a program which, alone, computes what evaluation computes (in whatever order it reads, and however often) *)
Definition evaluates (d : Z) (eval : prog) : Prop :=
  forall mask m, wf m -> mwidth m = d -> mheight m = d -> exists s, evaluation m = Some s /\ alone eval mask m = (m, s).

(* one such program: read every module, column by column, then compute *)
Fixpoint read_all (coords : list (Z * Z)) (acc : list Z) (k : list Z -> prog) : prog :=
  match coords with [] => k acc | (x, y) :: r => RdMat x y (fun v => read_all r (acc ++ [v]) k) end.
Fixpoint cut (d : nat) (n : nat) (l : list Z) : list (list Z) := match n with O => [] | S n => firstn d l :: cut d n (skipn d l) end.
Definition read_and_evaluate (d : Z) : prog :=
  read_all (iter_coords IterDirection_COLUMN d d) []
    (fun l => Ret (match evaluation (mkMatrix (cut (Z.to_nat d) (Z.to_nat d) l) d d) with Some s => s | None => 0 end)).
