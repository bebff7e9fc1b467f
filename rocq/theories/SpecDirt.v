(* Vocabulary for C77: modules that are read wrongly (dirt, scratches, reflections). *)
From Verif Require Import ModelBase SpecIso SpecReader.

(* the modules of an n x n symbol that lie in an area and on which two bitmaps differ *)
Definition misread (n : Z) (area : Z -> Z -> bool) (a b : bitmap) : list (Z * Z) :=
  filter (fun '(x, y) => area x y && negb (Bool.eqb (module_at a x y) (module_at b x y))) (list_prod (upto n) (upto n)).
Definition misread_count (n : Z) (area : Z -> Z -> bool) (a b : bitmap) : Z := Z.of_nat (length (misread n area a b)).

(* all modules; the modules that hold code words (and the few remainder bits); the modules of the format information around the finder
   pattern in the upper left corner *)
Definition anywhere (x y : Z) : bool := true.
Definition in_data (v x y : Z) : bool := is_data (region_of v x y).
Definition in_format (x y : Z) : bool := existsb (fun '(fx, fy) => (x =? fx) && (y =? fy)) format_positions_1.

(* the rectangle of w x h modules with upper left corner (x0, y0) *)
Definition in_rectangle (x0 y0 w h x y : Z) : bool := (x0 <=? x) && (x <? x0 + w) && (y0 <=? y) && (y <? y0 + h).
