(* Vocabulary for C56: shapes that cover the sampled pixel for the most part. *)
From Verif Require Import ModelBase ModelStandard SpecShape.

(* Like proper_shape, but of the pixel at the offset only at least three fifths need be painted: 39322 of 65535, the rasterizer's unit *)
Definition mostly_covers (shape_draw : canvas -> call -> canvas) (bw d : Z) : Prop :=
  forall cv k, k_tx k = 0 -> k_ty k = 0 -> k_w k = bw -> k_h k = bw ->
    (forall px py, ~ in_box k px py -> shape_draw cv k px py = cv px py) /\
    exists part, 39322 <= part <= 65535 /\ shape_draw cv k (k_x k + d) (k_y k + d) = over_at part (cv (k_x k + d) (k_y k + d)) (k_color k).

(* the rasterizer paints at least three fifths of each of the four pixels of a block of two by two pixels in which it draws a disc of
   radius 1 (geometrically it is pi/4 of each, 0.785) *)
Definition fair_edge (edge : call -> Z -> Z -> rgba -> rgba) : Prop :=
  forall k px py c, k_tx k = 0 -> k_ty k = 0 -> k_w k = 2 -> k_h k = 2 -> in_box k px py ->
    exists part, 39322 <= part <= 65535 /\ edge k px py c = over_at part c (k_color k).

Definition black : rgba := mkRGBA 0 0 0 255.
Definition white : rgba := mkRGBA 255 255 255 255.
