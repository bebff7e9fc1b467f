(* Vocabulary for C60 with float64 arithmetic. *)
From Coq Require Import QArith Qabs.
From Verif Require Import ModelBase ModelStandard ModelFloat ModelShapes ModelShapes64.
From Verif Require Import SpecStandard SpecFloat64 SpecShapes.
Open Scope Z_scope.

(* a rounding to nearest: no float64 value is closer *)
Record round_nearest (rnd : Q -> Q) : Prop := mkNearest {
  rn_rounding : rounding rnd;
  rn_nearest : forall x y, float64 y -> (Qabs (rnd x - x) <= Qabs (y - x))%Q }.

(* the sizes of a picture, of all PNG and JPEG files for instance *)
Definition picture_range (z : Z) : Prop := 0 <= z <= 2 ^ 32.
Definition call_in_range (k : call) : Prop := picture_range (k_x k) /\ picture_range (k_y k) /\ picture_range (k_w k) /\ picture_range (k_h k).

(* linking_shape of SpecShapes.v for the calls within this range *)
Definition linking_within (f : canvas -> call -> canvas) (bw d : Z) : Prop :=
  forall cv k, call_in_range k -> k_tx k = 0 -> k_ty k = 0 -> k_w k = bw -> k_h k = bw -> 0 <= k_neighbours k < 512 ->
    (forall i j, ~ (i = 0 /\ j = 0) -> let px := k_x k + i * bw + d in let py := k_y k + j * bw + d in
       f cv k px py = cv px py \/ (dark_neighbour k i j /\ tinted (k_color k) (cv px py) (f cv k px py))) /\
    (let px := k_x k + d in let py := k_y k + d in
       (self_dark k = true -> opaque (k_color k) -> good (cv px py) -> f cv k px py = k_color k) /\
       (self_dark k = false -> tinted (k_color k) (cv px py) (f cv k px py))).

(* the finders and blocks of the package, with the block widths at which they are read back for certain *)
Inductive package_finder64 (bw : Z) : drawing -> Prop :=
| rounded_finder64 : 3 <= bw -> package_finder64 bw (RoundedFinder64 round64)
| square_finder64 : 1 <= bw -> package_finder64 bw (SquareFinder64 round64).
Inductive package_block64 (bw : Z) : drawing -> Prop :=
| liquid_block64 : 3 <= bw -> package_block64 bw (LiquidBlock64 round64)
| chain_block64 fused : 3 <= bw -> package_block64 bw (ChainBlock64 round64 fused)
| vchain_block64 fused : 3 <= bw -> package_block64 bw (VChainBlock64 round64 fused)
| hchain_block64 fused : 3 <= bw -> package_block64 bw (HChainBlock64 round64 fused)
| hstripe_block64 ratio : 3 <= bw -> package_block64 bw (HStripeBlock64 round64 ratio)
| vstripe_block64 ratio : float64 ratio -> 3 <= bw -> bw <> 4 \/ (ratio < lit round64 (6 # 10))%Q \/ (84 # 100 <= ratio)%Q ->
    package_block64 bw (VStripeBlock64 round64 ratio)
| square_blocks64 size : float64 size -> 1 <= bw -> wide_square bw size \/ (size < lit round64 (1 # 10))%Q \/ (1 < size)%Q ->
    package_block64 bw (SquareBlocks64 round64 size)
| circle_blocks64 size : float64 size -> 3 <= bw -> wide_circle bw size \/ (size < lit round64 (1 # 10))%Q \/ (1 < size)%Q ->
    package_block64 bw (CircleBlocks64 round64 size).
