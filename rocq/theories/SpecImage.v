(* Reading images and files. *)
From Verif Require Import ModelBase ModelCompressed.

(* palette index of pixel (x, y) of an image whose rectangle starts at the origin: rows of p_size bytes *)
Definition pix (i : paletted) (x y : Z) : option Z := zget (p_pix i) (y * p_size i + x).
