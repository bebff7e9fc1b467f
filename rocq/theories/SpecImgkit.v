(* Vocabulary for C58. *)
From Verif Require Import ModelBase ModelStandard ModelImgkit SpecStandard.

(* x, y is a pixel of the image *)
Definition in_image (i : image) (x y : Z) : Prop := i_x0 i <= x < i_x1 i /\ i_y0 i <= y < i_y1 i.
Definition good_image (i : image) : Prop := forall x y, in_image i x y -> good (i_at i x y).

(* g is within 1 of 0.299 r + 0.587 g + 0.114 b *)
Definition luminance (c : rgba) (v : Z) : Prop := Z.abs (1000 * v - (299 * c_r c + 587 * c_g c + 114 * c_b c)) <= 1000.

(* the file name ends in .jpg, .jpeg or .png (in lower case) *)
Definition ends_in (filename ext : list Z) : Prop := exists p, filename = p ++ ext.
