(* Independent specification of the Reed-Solomon code of ISO/IEC 18004, clause 7.5: GF(256) as polynomials
   over GF(2) modulo x^8+x^4+x^3+x^2+1, alpha = x, code words = lists of bytes, highest degree first. *)
From Verif Require Export SpecIso.

(* product of polynomials over GF(2) (bit i = coefficient of x^i), b of degree < 8 *)
Definition clmul (a b : Z) : Z :=
  fold_left (fun acc i => if Z.testbit b i then Z.lxor acc (Z.shiftl a i) else acc) (upto 8) 0.
(* remainder modulo 0x11D of a polynomial of degree < 15 *)
Definition gf_reduce (x : Z) : Z :=
  fold_left (fun r i => if Z.testbit r (14 - i) then Z.lxor r (Z.shiftl 0x11D (6 - i)) else r) (upto 7) x.
Definition gf_times (a b : Z) : Z := gf_reduce (clmul a b).
Definition gf_plus (a b : Z) : Z := Z.lxor a b.

Fixpoint alpha_pow (i : nat) : Z := match i with O => 1 | S k => gf_times (alpha_pow k) 2 end.

(* value of a word at x *)
Definition eval (word : list Z) (x : Z) : Z := fold_left (fun acc c => gf_plus (gf_times acc x) c) word 0.

(* code words with n error-correction symbols *)
Definition is_codeword (n : nat) (word : list Z) : Prop :=
  Forall (fun c => 0 <= c < 256) word /\ forall i, (i < n)%nat -> eval word (alpha_pow i) = 0.

(* number of positions in which two words of the same length differ *)
Fixpoint distance (a b : list Z) : nat :=
  match a, b with
  | x :: a', y :: b' => (if x =? y then distance a' b' else S (distance a' b'))
  | _, _ => 0%nat
  end.
