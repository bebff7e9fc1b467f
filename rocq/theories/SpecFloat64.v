(* What is used of float64 arithmetic. *)
From Coq Require Import ZArith QArith Qabs.
From Verif Require Import ModelFloat.
Open Scope Z_scope.

(* the numbers a float64 can hold (but for the upper end of the range): 53 bits times a power of two from 2^-1074 on *)
Definition float64 (q : Q) : Prop := exists m k, Z.abs m <= 2 ^ 53 /\ -1074 <= k /\ (q == inject_Z m * pow2 k)%Q.

(* a rounding: to float64 values, leaving them as they are, monotone, with a small relative error (and 2^-1074) *)
Record rounding (rnd : Q -> Q) : Prop := mkRounding {
  r_float : forall x, float64 (rnd x);
  r_id : forall x, float64 x -> (rnd x == x)%Q;
  r_mono : forall x y, (x <= y)%Q -> (rnd x <= rnd y)%Q;
  r_error : forall x, (Qabs (rnd x - x) <= Qabs x * pow2 (-52) + pow2 (-1074))%Q }.
