(* Model of the third-party package github.com/yeqown/reedsolomon/binary (not in /repo) by its
   contract: a Binary is an append-only sequence of bits.  Used at encoder.go:58-59,84-90,128-,302-,
   qrcode.go:166-168,235,270,314,344, version.go:168,197. *)
From Verif Require Import ModelBase.

Definition binary := list bool.

(* binary.AppendUint32(value, n): the n low bits of value, most significant first *)
Fixpoint uint_bits (value : Z) (n : nat) : binary :=
  match n with
  | O => []
  | S k => Z.testbit value (Z.of_nat k) :: uint_bits value k
  end.

Definition bin_append_uint32 (b : binary) (value : Z) (n : Z) : binary :=
  b ++ uint_bits (value mod 2 ^ 32) (Z.to_nat n).

(* binary.AppendByte(b, 8) *)
Definition bin_append_byte (b : binary) (value : Z) : binary := b ++ uint_bits value 8.

(* binary.AppendNumBools(n, false) *)
Definition bin_append_zeros (b : binary) (n : Z) : binary := b ++ repeat false (Z.to_nat n).

(* binary.Subset(start, end): error when start > end or end > len *)
Definition bin_subset (b : binary) (start end_ : Z) : option binary :=
  if (start <? 0) || (end_ <? start) || (zlen b <? end_) then None
  else Some (firstn (Z.to_nat (end_ - start)) (skipn (Z.to_nat start) b)).

(* big-endian value of a bit list, and the split of a bit list into bytes (trailing partial byte kept) *)
Definition bits_val (b : binary) : Z := fold_left (fun acc (x : bool) => 2 * acc + (if x then 1 else 0)) b 0.

Fixpoint bits_to_bytes_fuel (fuel : nat) (b : binary) : list Z :=
  match fuel with
  | O => []
  | S f => match b with
           | [] => []
           | _ => bits_val (firstn 8 b) :: bits_to_bytes_fuel f (skipn 8 b)
           end
  end.
Definition bits_to_bytes (b : binary) : list Z := bits_to_bytes_fuel (length b) b.
Definition bytes_to_bits (l : list Z) : binary := flat_map (fun x => uint_bits x 8) l.
