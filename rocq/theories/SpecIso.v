(* Independent specification, transcribed from ISO/IEC 18004 and not from the code: symbol geometry,
   block structure, BCH code words, mask conditions.  Coordinates: x = column, y = row, from 0 at the
   top-left corner. *)
From Coq Require Export ZArith List Bool.
Export ListNotations.
Open Scope Z_scope.

Definition upto (n : Z) : list Z := map Z.of_nat (seq 0 (Z.to_nat n)).

(* Versions 1..40; error-correction levels in the order L, M, Q, H *)
Inductive level := L | M | Q | H.
Definition valid_version (v : Z) : Prop := 1 <= v <= 40.
Definition side (v : Z) : Z := 4 * v + 17.

(* ---------------------------------------------------------------- function patterns *)
Inductive region :=
| Finder (dark : bool)        (* 7x7 finder pattern *)
| Separator                   (* light border of a finder pattern *)
| Timing (dark : bool)
| Alignment (dark : bool)     (* 5x5 alignment pattern *)
| DarkModule
| FormatArea
| VersionArea
| DataArea.

Definition dist (x y cx cy : Z) : Z := Z.max (Z.abs (x - cx)) (Z.abs (y - cy)).

(* Row/column coordinates of alignment-pattern centres (Annex E), by the usual closed form:
   6, then equally spaced (even step) up to side-7 *)
Definition align_coords (v : Z) : list Z :=
  if v =? 1 then []
  else let n := v / 7 + 2 in
       let step := (v * 8 + n * 3 + 5) / (n * 4 - 4) * 2 in
       6 :: map (fun i => (side v - 7) - step * (n - 2 - i)) (upto (n - 1)).

(* centres: all pairs except the three that fall on finder patterns *)
Definition align_centres (v : Z) : list (Z * Z) :=
  let cs := align_coords v in
  let last := side v - 7 in
  filter (fun '(cx, cy) => negb (((cx =? 6) && (cy =? 6)) || ((cx =? 6) && (cy =? last)) || ((cx =? last) && (cy =? 6))))
         (list_prod cs cs).

Definition finder_centres (v : Z) : list (Z * Z) := [(3, 3); (side v - 4, 3); (3, side v - 4)].

Definition nearest (x y : Z) (cs : list (Z * Z)) (r : Z) : option Z :=
  match find (fun '(cx, cy) => dist x y cx cy <=? r) cs with
  | Some (cx, cy) => Some (dist x y cx cy)
  | None => None
  end.

Definition in_format_area (v x y : Z) : bool :=
  let n := side v in
  ((y =? 8) && ((x <=? 8) || (n - 8 <=? x))) || ((x =? 8) && ((y <=? 8) || (n - 7 <=? y))).

Definition in_version_area (v x y : Z) : bool :=
  let n := side v in
  (7 <=? v) && (((y <=? 5) && (n - 11 <=? x) && (x <=? n - 9)) || ((x <=? 5) && (n - 11 <=? y) && (y <=? n - 9))).

Definition region_of_with (centres : list (Z * Z)) (v x y : Z) : region :=
  match nearest x y (finder_centres v) 4 with
  | Some d => if d =? 4 then Separator else Finder (negb (d =? 2))
  | None =>
    match nearest x y centres 2 with
    | Some d => Alignment (negb (d =? 1))
    | None =>
      if (x =? 6) || (y =? 6) then Timing (Z.even (x + y))
      else if (x =? 8) && (y =? side v - 8) then DarkModule
      else if in_format_area v x y then FormatArea
      else if in_version_area v x y then VersionArea
      else DataArea
    end
  end.
Definition region_of (v x y : Z) : region := region_of_with (align_centres v) v x y.

(* colour prescribed for a function module; None for format, version and data modules *)
Definition fixed_colour (r : region) : option bool :=
  match r with
  | Finder d | Timing d | Alignment d => Some d
  | Separator => Some false
  | DarkModule => Some true
  | FormatArea | VersionArea | DataArea => None
  end.

Definition is_data (r : region) : bool := match r with DataArea => true | _ => false end.

(* ---------------------------------------------------------------- zig-zag order of the data modules *)
(* right-hand column of each two-column strip, from right to left; column 6 is skipped *)
Definition strips (v : Z) : list Z := map (fun k => side v - 1 - 2 * k) (upto (2 * v + 5)) ++ [5; 3; 1].

Definition strip_modules (v c : Z) (upward : bool) : list (Z * Z) :=
  flat_map (fun y => [(c, y); (c - 1, y)]) (if upward then rev (upto (side v)) else upto (side v)).

Fixpoint zigzag (v : Z) (cs : list Z) (upward : bool) : list (Z * Z) :=
  match cs with
  | [] => []
  | c :: rest => strip_modules v c upward ++ zigzag v rest (negb upward)
  end.

Definition data_path (v : Z) : list (Z * Z) :=
  let centres := align_centres v in
  filter (fun '(x, y) => is_data (region_of_with centres v x y)) (zigzag v (strips v) true).

(* ---------------------------------------------------------------- format and version information *)
(* remainder of a(x) * x^k modulo g(x) of degree k, for a of `bits` bits *)
Definition bch_rem (a bits g k : Z) : Z :=
  fold_left (fun r i => if Z.testbit r (k + bits - 1 - i) then Z.lxor r (Z.shiftl g (bits - 1 - i)) else r)
            (upto bits) (Z.shiftl a k).

Definition level_bits (l : level) : Z := match l with L => 1 | M => 0 | Q => 3 | H => 2 end.

(* BCH(15,5), generator x^10+x^8+x^5+x^4+x^2+x+1, XOR 101010000010010 *)
Definition format_word (l : level) (mask : Z) : Z :=
  let d := level_bits l * 8 + mask in
  Z.lxor (d * 1024 + bch_rem d 5 0x537 10) 0x5412.

(* BCH(18,6), generator x^12+x^11+x^10+x^9+x^8+x^5+x^2+1 *)
Definition version_word (v : Z) : Z := v * 4096 + bch_rem v 6 0x1F25 12.

(* module positions of format bit k (bit 14 = most significant first in the list), copy around the
   top-left finder and copy split between the other two finders (Figure 25) *)
Definition format_positions_1 : list (Z * Z) :=
  [(0,8); (1,8); (2,8); (3,8); (4,8); (5,8); (7,8); (8,8); (8,7); (8,5); (8,4); (8,3); (8,2); (8,1); (8,0)].
Definition format_positions_2 (v : Z) : list (Z * Z) :=
  let n := side v in
  [(8,n-1); (8,n-2); (8,n-3); (8,n-4); (8,n-5); (8,n-6); (8,n-7);
   (n-8,8); (n-7,8); (n-6,8); (n-5,8); (n-4,8); (n-3,8); (n-2,8); (n-1,8)].

(* module position of version bit k (0 = least significant): top-right block and bottom-left block (Figures 27, 28) *)
Definition version_position_1 (v k : Z) : Z * Z := (side v - 11 + k mod 3, k / 3).
Definition version_position_2 (v k : Z) : Z * Z := (k / 3, side v - 11 + k mod 3).

(* ---------------------------------------------------------------- data mask patterns, Table 10: i = row, j = column *)
Definition mask_condition (mask i j : Z) : bool :=
  match mask with
  | 0 => (i + j) mod 2 =? 0
  | 1 => i mod 2 =? 0
  | 2 => j mod 3 =? 0
  | 3 => (i + j) mod 3 =? 0
  | 4 => (i / 2 + j / 3) mod 2 =? 0
  | 5 => (i * j) mod 2 + (i * j) mod 3 =? 0
  | 6 => ((i * j) mod 2 + (i * j) mod 3) mod 2 =? 0
  | 7 => ((i + j) mod 2 + (i * j) mod 3) mod 2 =? 0
  | _ => false
  end.

(* ---------------------------------------------------------------- code words and blocks, Tables 1 and 9 *)
Definition raw_modules (v : Z) : Z :=
  let n := v / 7 + 2 in
  (16 * v + 128) * v + 64
  - (if 2 <=? v then (25 * n - 10) * n - 55 else 0)
  - (if 7 <=? v then 36 else 0).
Definition total_codewords (v : Z) : Z := raw_modules v / 8.
Definition remainder_bits (v : Z) : Z := raw_modules v mod 8.

Definition ecc_per_block_table (l : level) : list Z :=
  match l with
  | L => [7;10;15;20;26;18;20;24;30;18;20;24;26;30;22;24;28;30;28;28;28;28;30;30;26;28;30;30;30;30;30;30;30;30;30;30;30;30;30;30]
  | M => [10;16;26;18;24;16;18;22;22;26;30;22;22;24;24;28;28;26;26;26;26;28;28;28;28;28;28;28;28;28;28;28;28;28;28;28;28;28;28;28]
  | Q => [13;22;18;26;18;24;18;22;20;24;28;26;24;20;30;24;28;28;26;30;28;30;30;30;30;28;30;30;30;30;30;30;30;30;30;30;30;30;30;30]
  | H => [17;28;22;16;22;28;26;26;24;28;24;28;22;24;24;30;28;28;26;28;30;24;30;30;30;30;30;30;30;30;30;30;30;30;30;30;30;30;30;30]
  end.
Definition num_blocks_table (l : level) : list Z :=
  match l with
  | L => [1;1;1;1;1;2;2;2;2;4;4;4;4;4;6;6;6;6;7;8;8;9;9;10;12;12;12;13;14;15;16;17;18;19;19;20;21;22;24;25]
  | M => [1;1;1;2;2;4;4;4;5;5;5;8;9;9;10;10;11;13;14;16;17;17;18;20;21;23;25;26;28;29;31;33;35;37;38;40;43;45;47;49]
  | Q => [1;1;2;2;4;4;6;6;8;8;8;10;12;16;12;17;16;18;21;20;23;23;25;27;29;34;34;35;38;40;43;45;48;51;53;56;59;62;65;68]
  | H => [1;1;2;4;4;4;5;6;8;8;11;11;16;16;18;16;19;21;25;25;25;34;30;32;35;37;40;42;45;48;51;54;57;60;63;66;70;74;77;81]
  end.
Definition table_get (t : list Z) (v : Z) : Z := nth (Z.to_nat (v - 1)) t 0.
Definition ecc_per_block (v : Z) (l : level) : Z := table_get (ecc_per_block_table l) v.
Definition num_blocks (v : Z) (l : level) : Z := table_get (num_blocks_table l) v.

(* number of data code words of each block, in order: the shorter blocks first *)
Definition block_data_lengths (v : Z) (l : level) : list Z :=
  let nb := num_blocks v l in
  let total := total_codewords v in
  map (fun b => total / nb + (if b <? nb - total mod nb then 0 else 1) - ecc_per_block v l) (upto nb).

Definition data_codewords (v : Z) (l : level) : Z := fold_right Z.add 0 (block_data_lengths v l).

(* interleaving: column by column, the blocks long enough to have that column, as (block, index) pairs *)
Definition interleave_order (lens : list Z) : list (Z * Z) :=
  flat_map (fun i => flat_map (fun b => if i <? nth (Z.to_nat b) lens 0 then [(b, i)] else []) (upto (Z.of_nat (length lens))))
           (upto (fold_right Z.max 0 lens)).
