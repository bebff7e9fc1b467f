(* Go's float64 (IEEE 754 binary64) as rational numbers: which rationals are float64 values, and rounding to nearest, ties to even.
   Simplifications: no infinities or NaN (no value here reaches 2^1024), no negative zero. *)
From Coq Require Import ZArith QArith Qround Qabs.
Open Scope Z_scope.

Definition pow2 (k : Z) : Q := Qpower 2 k.

(* the integer nearest to q, the even one of two *)
Definition half_even (q : Q) : Z :=
  let f := Qfloor q in
  match Qcompare (q - inject_Z f) (1 # 2) with Lt => f | Gt => f + 1 | Eq => if Z.even f then f else f + 1 end.
(* e with 2^e <= q < 2^(e+1), for q > 0 *)
Definition exponent (q : Q) : Z :=
  let e := Z.log2 (Qnum q) - Z.log2 (Zpos (Qden q)) in if Qle_bool (pow2 e) q then e else e - 1.
(* 53 bits, but no bits below 2^-1074 *)
Definition round_pos (q : Q) : Q := let k := Z.max (exponent q - 52) (-1074) in inject_Z (half_even (q / pow2 k)) * pow2 k.
Definition round64 (q : Q) : Q :=
  match Qcompare q 0 with Eq => 0 | Gt => round_pos q | Lt => - round_pos (- q) end.
