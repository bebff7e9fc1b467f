(* Vocabulary for C78: the numbers an int of w bits can hold. *)
From Verif Require Import ModelBase ModelStandard SpecStandard.

Definition is_int (w : Z) (z : Z) : Prop := - 2 ^ (w - 1) <= z < 2 ^ (w - 1).
(* numbers far from the ends of the range: sums of a few of them are ints *)
Definition moderate (w : Z) (z : Z) : Prop := - 2 ^ (w - 4) <= z <= 2 ^ (w - 4).

(* what C78 asks of the options: borders, and the corners of the logo, in +-2^(w-4); a picture of less than 2^25 pixels a side whose bytes
   (four for a pixel) an int can count; the products of the multiplier and the size of the logo ints *)
Definition sane (w : Z) (o : options) (n : Z) : Prop :=
  moderate w (b_left o) /\ moderate w (b_right o) /\ moderate w (b_top o) /\ moderate w (b_bottom o) /\
  Z.abs (img_w o n) < 2 ^ 25 /\ Z.abs (img_h o n) < 2 ^ 25 /\ 4 * Z.abs (img_w o n) * Z.abs (img_h o n) < 2 ^ (w - 1) /\
  forall i, o_logo o = Some i -> moderate w (i_x0 i) /\ moderate w (i_x1 i) /\ moderate w (i_y0 i) /\ moderate w (i_y1 i) /\
    is_int w (o_multiplier o * (i_x1 i - i_x0 i)) /\ is_int w (o_multiplier o * (i_y1 i - i_y0 i)).
