(* What the command line means: C51. *)
From Coq Require Import ZArith List Bool.
Import ListNotations.
Open Scope Z_scope.

(* the value of a string of decimal digits *)
Definition digit (c : Z) : Prop := 48 <= c <= 57.
Definition decimal (s : list Z) : Z := fold_left (fun v c => 10 * v + (c - 48)) s 0.
(* s is a decimal numeral for v *)
Definition numeral (s : list Z) (v : Z) : Prop := s <> [] /\ Forall digit s /\ decimal s = v.

(* four numerals of at most 255, separated by commas: top, right, bottom, left *)
Definition four_borders (s : list Z) (top right_ bottom left_ : Z) : Prop :=
  exists a b c d, s = a ++ 44 :: b ++ 44 :: c ++ 44 :: d /\
    numeral a top /\ numeral b right_ /\ numeral c bottom /\ numeral d left_ /\
    top <= 255 /\ right_ <= 255 /\ bottom <= 255 /\ left_ <= 255.

(* the string ends in ".png" *)
Definition dot_png (s : list Z) : Prop := exists p, s = p ++ [46; 112; 110; 103].
