(* Vocabulary for C56, C57: shapes, and sampling a picture. *)
From Verif Require Import ModelBase ModelMatrix ModelStandard SpecReader SpecStandard SpecMedium.

(* the box of a call that is not a sub-block of a halftone block: w x h pixels from (k_x, k_y) *)
Definition in_box (k : call) (px py : Z) : Prop := k_x k <= px < k_x k + k_w k /\ k_y k <= py < k_y k + k_h k.

(* What a shape (IShape) has to do to be readable at offset (d, d) of blocks of bw pixels: it changes nothing outside the box it is
   given, and paints the pixel at the offset with the colour it is given. *)
Definition proper_shape (shape_draw : canvas -> call -> canvas) (bw d : Z) : Prop :=
  forall cv k, k_tx k = 0 -> k_ty k = 0 -> k_w k = bw -> k_h k = bw ->
    (forall px py, ~ in_box k px py -> shape_draw cv k px py = cv px py) /\
    shape_draw cv k (k_x k + d) (k_y k + d) = over (cv (k_x k + d) (k_y k + d)) (k_color k).

(* the shape the writer draws with *)
Definition chosen_shape (others : shape -> canvas -> call -> canvas) (o : options) : canvas -> call -> canvas :=
  match getShape o with ShapeRectangle => rectangle_draw | s => others s end.

(* the pixel at offset d of module x *)
Definition sample_x (o : options) (d x : Z) : Z := b_left o + x * qrBlockWidth o + d.
Definition sample_y (o : options) (d y : Z) : Z := b_top o + y * qrBlockWidth o + d.

(* modules whose sampled pixel has the foreground colour *)
Definition scan_at (d : Z) (cv : canvas) (o : options) (n : Z) : list (list bool) :=
  sampled n (fun x y => rgba_eqb (cv (sample_x o d x) (sample_y o d y)) (o_qrColor o)).
(* modules whose sampled pixel is darker than medium grey *)
Definition scan_threshold (d : Z) (cv : canvas) (o : options) (n : Z) : list (list bool) :=
  sampled n (fun x y => let c := cv (sample_x o d x) (sample_y o d y) in c_r c + c_g c + c_b c <? 3 * 128).

(* the colour of light modules and of the border: the background colour, with no opacity if so asked *)
Definition is_light (o : options) (c : rgba) : Prop :=
  c = if o_bgTransparent o then mkRGBA (c_r (o_bgColor o)) (c_g (o_bgColor o)) (c_b (o_bgColor o)) 0 else o_bgColor o.

(* block widths at which a halftone symbol can be read in the middle of its modules *)
Definition halftone_width (bw : Z) : Prop := bw = 3 \/ 6 <= bw.

(* what QRValue.Type calls a data module; C64: a module of the data area or of an alignment pattern *)
Definition data_module (m : Matrix) (x y : Z) : Prop := qrtype (rawget m x y) = QRType_DATA.

(* pixel u of a block of bw pixels (in one direction) lies in the a-th of three sub-blocks: all of it is between a*bw/3 and
   a*bw/3 + (bw/3 rounded down) *)
Definition sub_pixel (bw a u : Z) : Prop := 0 <= a <= 2 /\ a * bw <= 3 * u /\ 3 * u + 3 <= a * bw + 3 * (bw / 3).
