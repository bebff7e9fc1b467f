(* Model of the third-party call reedsolomon.Encode(bin, n) (github.com/yeqown/reedsolomon v1.0.0, not in
   /repo; used at qrcode.go:269) by its contract: the n error-correction bytes of the systematic
   Reed-Solomon code over GF(256) with polynomial x^8+x^4+x^3+x^2+1 and generator roots alpha^0..alpha^(n-1)
   are appended to the data. *)
From Verif Require Import ModelBase ModelBinary.

(* multiplication by alpha = 2 *)
Definition gf_xtime (a : Z) : Z :=
  let d := 2 * a in if 256 <=? d then Z.lxor d 0x11D else d.

Fixpoint gf_mul_loop (n : nat) (a b : Z) : Z :=
  match n with
  | O => 0
  | S k => Z.lxor (if Z.odd b then a else 0) (gf_mul_loop k (gf_xtime a) (Z.div2 b))
  end.
(* product in GF(256) *)
Definition gf_mul (a b : Z) : Z := gf_mul_loop 8 a b.

Fixpoint gf_pow2 (n : nat) : Z := match n with O => 1 | S k => gf_xtime (gf_pow2 k) end.

(* generator polynomial, leading coefficient (always 1) first: prod_{i<n} (x - alpha^i) *)
Fixpoint poly_mul_root (p : list Z) (carry root : Z) : list Z :=
  match p with
  | [] => [gf_mul carry root]
  | c :: t => Z.lxor c (gf_mul carry root) :: poly_mul_root t c root
  end.
Fixpoint rs_generator (n : nat) : list Z :=
  match n with
  | O => [1]
  | S k => poly_mul_root (rs_generator k) 0 (gf_pow2 k)
  end.

Fixpoint xor_list (a b : list Z) : list Z :=
  match a, b with
  | x :: a', y :: b' => Z.lxor x y :: xor_list a' b'
  | _, _ => []
  end.

(* one step of polynomial division: rem is the running remainder (n bytes), gtail the generator without
   its leading 1 *)
Definition rs_step (gtail rem : list Z) (b : Z) : list Z :=
  match rem with
  | [] => []
  | r0 :: rt => let f := Z.lxor b r0 in xor_list (rt ++ [0]) (map (fun g => gf_mul g f) gtail)
  end.

Definition rs_ecc (data : list Z) (n : nat) : list Z :=
  let gtail := tl (rs_generator n) in
  fold_left (rs_step gtail) data (repeat 0 n).

Definition rs_encode (data : binary) (n : Z) : binary :=
  data ++ bytes_to_bits (rs_ecc (bits_to_bytes data) (Z.to_nat n)).
