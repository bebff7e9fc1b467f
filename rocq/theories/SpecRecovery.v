(* Independent specification of a reader with error correction (ISO/IEC 18004, clauses 7.9, 12 and Annex B/C):
   a relation, so that it does not depend on a decoding algorithm.  Format information may be wrong in up to
   three bits, each block in up to half as many code words as it has error-correction code words. *)
From Verif Require Export SpecIso SpecReader SpecRS.

(* number of positions in which two bit strings of the same length differ *)
Fixpoint hamming (a b : list bool) : nat :=
  match a, b with
  | x :: a', y :: b' => (if Bool.eqb x y then hamming a' b' else S (hamming a' b'))
  | _, _ => 0%nat
  end.

Definition format_bits_1 (bm : bitmap) : list bool := map (fun '(x, y) => module_at bm x y) format_positions_1.
Definition format_bits_2 (bm : bitmap) (v : Z) : list bool := map (fun '(x, y) => module_at bm x y) (format_positions_2 v).

(* the code words in the symbol, and its blocks: data code words followed by error-correction code words *)
Definition symbol_words (bm : bitmap) (v mask : Z) : list Z :=
  read_bytes (Z.to_nat (total_codewords v)) (read_stream bm v mask).
Definition symbol_blocks (bm : bitmap) (v : Z) (l : level) (mask : Z) : list (list Z) :=
  map (fun p => fst p ++ snd p) (read_blocks v l (symbol_words bm v mask)).

(* c is a code word (n error-correction symbols) that a bounded-distance decoder may return for r *)
Definition corrects (n : nat) (r c : list Z) : Prop :=
  length c = length r /\ is_codeword n c /\ (2 * distance r c <= n)%nat.

(* the data part of a block *)
Definition data_part (n : nat) (c : list Z) : list Z := firstn (length c - n) c.

(* what a reader with error correction may return for a bitmap *)
Definition recovers (bm : bitmap) (seg : segment) : Prop :=
  exists v l mask cs,
    read_version bm = Some v /\
    0 <= mask < 8 /\ (hamming (format_bits_1 bm) (to_bits (format_word l mask) 15) <= 3)%nat /\
    Forall2 (corrects (Z.to_nat (ecc_per_block v l))) (symbol_blocks bm v l mask) cs /\
    read_segment v (flat_map (fun w => to_bits w 8) (flat_map (data_part (Z.to_nat (ecc_per_block v l))) cs)) = Some seg.

(* the error-recovery percentages quoted in the documentation *)
Definition recovery_percent (l : level) : Z := match l with L => 7 | M => 15 | Q => 25 | H => 30 end.
