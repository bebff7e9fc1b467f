(* Vocabulary for C85 and C86: several at work at the same time. *)
From Coq Require Import List.
Import ListNotations.

(* tr carries out the lists ls, each in its order, one item of some list after the other *)
Inductive interleaved {A : Type} : list (list A) -> list A -> Prop :=
| all_done ls : Forall (fun l => l = []) ls -> interleaved ls []
| one_more before op l after tr : interleaved (before ++ l :: after) tr -> interleaved (before ++ (op :: l) :: after) (op :: tr).
