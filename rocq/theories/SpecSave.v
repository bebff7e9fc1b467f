(* Vocabulary for statements about Save: what a Writer does to the matrix, and the calls Save makes. *)
From Verif Require Import ModelBase ModelMatrix ModelHeap.

(* the operations of ops, started in s, assign through a slice that Col returned for the matrix itself *)
Definition assigns_through_col (s : wstate) (ops : list wop) : Prop :=
  exists before n k v after, ops = before ++ AssignValue n k v :: after /\ In n (w_cols (wrun s before)).

