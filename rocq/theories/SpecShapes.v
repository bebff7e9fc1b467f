(* Vocabulary for C60: shapes that may reach into neighbouring modules. *)
From Verif Require Import ModelBase ModelStandard ModelShapes SpecStandard.
From Coq Require Import QArith.
Open Scope Z_scope.

(* b is a after some paint of colour c, of any coverage, has been put over it *)
Inductive tinted (c : rgba) : rgba -> rgba -> Prop :=
| untouched a : tinted c a a
| more_paint a ma b : 0 <= ma <= 65535 -> tinted c (over_at ma a c) b -> tinted c a b.

(* by the mask of neighbours it was given, the module that is drawn is dark, and so is the one i to the right and j below *)
Definition self_dark (k : call) : bool := Z.testbit (k_neighbours k) 4.
Definition dark_neighbour (k : call) (i j : Z) : Prop :=
  self_dark k = true /\ exists b, In (b, (i, j)) neighbour_bits /\ Z.testbit (k_neighbours k) b = true.

(* What a shape has to do to be readable at offset (d, d) of blocks of bw pixels.  When it draws a dark module it paints the sampled
   pixel of this module with the colour it is given, and it may paint dark neighbours; a light module it may paint or not; and it
   changes no other module's sampled pixel. *)
Definition linking_shape (f : canvas -> call -> canvas) (bw d : Z) : Prop :=
  forall cv k, k_tx k = 0 -> k_ty k = 0 -> k_w k = bw -> k_h k = bw -> 0 <= k_neighbours k < 512 ->
    (forall i j, ~ (i = 0 /\ j = 0) -> let px := k_x k + i * bw + d in let py := k_y k + j * bw + d in
       f cv k px py = cv px py \/ (dark_neighbour k i j /\ tinted (k_color k) (cv px py) (f cv k px py))) /\
    (let px := k_x k + d in let py := k_y k + d in
       (self_dark k = true -> opaque (k_color k) -> good (cv px py) -> f cv k px py = k_color k) /\
       (self_dark k = false -> tinted (k_color k) (cv px py) (f cv k px py))).

(* block widths at which a circle of diameter s * bw, or a square of that side, covers the sampled pixel for certain *)
Definition wide_circle (bw : Z) (s : Q) : Prop := (10 # 3 <= inject_Z bw * s)%Q \/ (Z.odd bw = true /\ (8 # 5 <= inject_Z bw * s)%Q).
Definition wide_square (bw : Z) (s : Q) : Prop := (2 <= inject_Z bw * s)%Q \/ (Z.odd bw = true /\ (1 <= inject_Z bw * s)%Q).

(* the finders and blocks of the package, with the block widths at which they are read back for certain *)
Inductive package_finder (bw : Z) : drawing -> Prop :=
| rounded_finder : 3 <= bw -> package_finder bw RoundedFinder
| square_finder : 1 <= bw -> package_finder bw SquareFinder.
Inductive package_block (bw : Z) : drawing -> Prop :=
| liquid_block : 3 <= bw -> package_block bw LiquidBlock
| chain_block : 3 <= bw -> package_block bw ChainBlock
| vchain_block : 3 <= bw -> package_block bw VChainBlock
| hchain_block : 3 <= bw -> package_block bw HChainBlock
| hstripe_block ratio : 3 <= bw -> package_block bw (HStripeBlock ratio)
| vstripe_block ratio : 3 <= bw -> bw <> 4 \/ (6 # 10 <= ratio -> 84 # 100 <= ratio)%Q -> package_block bw (VStripeBlock ratio)
| square_blocks size : 1 <= bw -> wide_square bw size \/ (size < 1 # 10)%Q \/ (1 < size)%Q -> package_block bw (SquareBlocks size)
| circle_blocks size : 3 <= bw -> wide_circle bw size \/ (size < 1 # 10)%Q \/ (1 < size)%Q -> package_block bw (CircleBlocks size).

(* the pixel shares no point with the square of twice the block's width around the block *)
Definition out_of_reach (k : call) (px py : Z) : Prop :=
  2 * (px + 1) <= 2 * k_x k - k_w k \/ 2 * k_x k + 3 * k_w k <= 2 * px \/ 2 * (py + 1) <= 2 * k_y k - k_h k \/ 2 * k_y k + 3 * k_h k <= 2 * py.

(* how much of the pixels at an edge the rasterizer covers *)
Definition coverage : Type := list piece -> Z -> Z -> Z.
