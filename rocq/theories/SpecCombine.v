(* Vocabulary for C72: drawing options together. *)
From Verif Require Import ModelBase ModelStandard ModelShapes SpecStandard SpecMedium SpecShape SpecShapes.
From Coq Require Import QArith.
Open Scope Z_scope.

(* the colour of dark modules at a pixel: the foreground colour, or the gradient's *)
Definition ink (o : options) (px py : Z) : rgba := match o_gradient o with None => o_qrColor o | Some g => g px py end.

(* one of the nine sub-blocks of a block of bw pixels under a halftone picture: the i-th from the left, the j-th from the top *)
Definition sub_block (k : call) (bw i j : Z) : Prop :=
  0 <= i <= 2 /\ 0 <= j <= 2 /\ k_finder k = false /\ k_tx k = i * bw /\ k_ty k = j * bw /\ k_w k = bw / 3 /\ k_h k = bw / 3 /\ k_neighbours k = 0.

(* What a shape has to do with sub-blocks so that modules can be read at offset (d, d) of their blocks: the one in the middle paints
   the sampled pixel of its block with the colour it is given, and nothing else is done to the sampled pixels. *)
Definition halftone_shape (f : canvas -> call -> canvas) (bw d : Z) : Prop :=
  forall cv k i j, sub_block k bw i j ->
    (forall a b, ~ (i = 1 /\ j = 1 /\ a = 0 /\ b = 0) -> let px := k_x k + a * bw + d in let py := k_y k + b * bw + d in f cv k px py = cv px py) /\
    (i = 1 -> j = 1 -> let px := k_x k + d in let py := k_y k + d in
       tinted (k_color k) (cv px py) (f cv k px py) /\ (opaque (k_color k) -> good (cv px py) -> f cv k px py = k_color k)).

(* How modules may be drawn so that they can be read at offset (d, d) of their blocks: by a shape that keeps to its modules or links
   dark ones and, under a halftone picture, does the above. *)
Definition readable_style (others : shape -> canvas -> call -> canvas) (o : options) (d : Z) : Prop :=
  linking_shape (chosen_shape others o) (qrBlockWidth o) d /\ 0 <= d < qrBlockWidth o /\
  (o_halftone o <> None -> halftone_shape (chosen_shape others o) (qrBlockWidth o) d).

(* block widths from which circles can be read under a halftone picture *)
Definition halftone_circle_width (bw : Z) : Prop := bw = 9 \/ 12 <= bw.

(* block widths from which a circle, or a square, of s times the width of a sub-block covers the sampled pixel for certain *)
Definition sub_circle (bw : Z) (s : Q) : Prop := (21 # 5 <= inject_Z (bw / 3) * s)%Q \/ (Z.odd bw = true /\ (21 # 8 <= inject_Z (bw / 3) * s)%Q).
Definition sub_square (bw : Z) (s : Q) : Prop := (8 # 3 <= inject_Z (bw / 3) * s)%Q \/ (Z.odd bw = true /\ (5 # 3 <= inject_Z (bw / 3) * s)%Q).
(* the blocks of the package at widths at which they can be read under a halftone picture *)
Inductive halftone_block (bw : Z) : drawing -> Prop :=
| ht_liquid : sub_circle bw 1 -> halftone_block bw LiquidBlock
| ht_chain : sub_circle bw (9 # 10) -> halftone_block bw ChainBlock
| ht_vchain : sub_circle bw (85 # 100) -> halftone_block bw VChainBlock
| ht_hchain : sub_circle bw (85 # 100) -> halftone_block bw HChainBlock
| ht_hstripe ratio : sub_circle bw (9 # 10) -> halftone_block bw (HStripeBlock ratio)
| ht_vstripe ratio : (6 # 10 <= ratio)%Q -> (ratio <= 1)%Q -> sub_circle bw ratio -> halftone_block bw (VStripeBlock ratio)
| ht_vstripe_default ratio : (ratio < 6 # 10)%Q \/ (1 < ratio)%Q -> sub_circle bw (85 # 100) -> halftone_block bw (VStripeBlock ratio)
| ht_squares size : (1 # 10 <= size)%Q -> (size <= 1)%Q -> sub_square bw size -> halftone_block bw (SquareBlocks size)
| ht_squares_default size : (size < 1 # 10)%Q \/ (1 < size)%Q -> sub_square bw 1 -> halftone_block bw (SquareBlocks size)
| ht_circles size : (1 # 10 <= size)%Q -> (size <= 1)%Q -> sub_circle bw size -> halftone_block bw (CircleBlocks size)
| ht_circles_default size : (size < 1 # 10)%Q \/ (1 < size)%Q -> sub_circle bw 1 -> halftone_block bw (CircleBlocks size).

(* A reader of single pixels: it has to call dark whatever the medium makes of the ink, and light whatever it makes of the background.
   w, h: the size of the picture *)
Definition tells_apart (near : rgba -> rgba -> Prop) (o : options) (w h : Z) (dark_pixel : rgba -> bool) : Prop :=
  (forall px py c, 0 <= px < w -> 0 <= py < h -> near (ink o px py) c -> dark_pixel c = true) /\
  (forall l c, is_light o l -> near l c -> dark_pixel c = false).
