(* Vocabulary for statements about the standard writer's images. *)
From Verif Require Import ModelBase ModelMatrix ModelStandard SpecReader.

Definition b_top (o : options) : Z := let '(t, r, b, l) := o_borders o in t.
Definition b_right (o : options) : Z := let '(t, r, b, l) := o_borders o in r.
Definition b_bottom (o : options) : Z := let '(t, r, b, l) := o_borders o in b.
Definition b_left (o : options) : Z := let '(t, r, b, l) := o_borders o in l.

(* colours that are four bytes *)
Definition byte (z : Z) : Prop := 0 <= z < 256.
Definition good (c : rgba) : Prop := byte (c_r c) /\ byte (c_g c) /\ byte (c_b c) /\ byte (c_a c).
Definition opaque (c : rgba) : Prop := good c /\ c_a c = 255.

(* the square of module (x, y) in the image *)
Definition in_module (o : options) (x y px py : Z) : Prop :=
  b_left o + x * qrBlockWidth o <= px < b_left o + (x + 1) * qrBlockWidth o /\
  b_top o + y * qrBlockWidth o <= py < b_top o + (y + 1) * qrBlockWidth o.
Definition in_symbol (o : options) (n px py : Z) : Prop :=
  b_left o <= px < b_left o + n * qrBlockWidth o /\ b_top o <= py < b_top o + n * qrBlockWidth o.

(* module (x, y) exists and is dark *)
Definition dark (m : Matrix) (x y : Z) : bool :=
  (0 <=? x) && (x <? mwidth m) && (0 <=? y) && (y <? mheight m) && module_at (m_bitmap m) x y.

(* the logo, when it is drawn: at most 1/multiplier of the w x h image, in the middle (rounded towards the left and top
   for images that are not smaller than the logo) *)
Definition logo_fits (o : options) (w h : Z) (i : image) : Prop :=
  o_multiplier o * (i_x1 i - i_x0 i) <= w /\ o_multiplier o * (i_y1 i - i_y0 i) <= h.
Definition logo_left (w : Z) (i : image) : Z := Z.quot (w - (i_x1 i - i_x0 i)) 2.
Definition logo_top (h : Z) (i : image) : Z := Z.quot (h - (i_y1 i - i_y0 i)) 2.
Definition in_logo (w h : Z) (i : image) (px py : Z) : Prop :=
  logo_left w i <= px < logo_left w i + (i_x1 i - i_x0 i) /\ logo_top h i <= py < logo_top h i + (i_y1 i - i_y0 i).
(* the pixels of the image that the logo is drawn on: pixel p of the logo (its bounds need not start at the origin) goes to p plus the
   corner of that place in the middle *)
Definition logo_covers (w h : Z) (i : image) (px py : Z) : Prop :=
  logo_left w i + i_x0 i <= px < logo_left w i + i_x1 i /\ logo_top h i + i_y0 i <= py < logo_top h i + i_y1 i.

(* module (x, y) shares a pixel with the logo *)
Definition touches_logo (o : options) (w h : Z) (i : image) (x y : Z) : Prop :=
  exists px py, in_module o x y px py /\ in_logo w h i px py.

(* the module belongs to the logo's safe zone: there is a logo, it is drawn, the safe zone is on *)
Definition in_safe_zone (o : options) (w h x y : Z) : Prop :=
  o_safeZone o = true /\ exists i, o_logo o = Some i /\ logo_fits o w h i /\ touches_logo o w h i x y.

(* bits of a neighbour mask: image_qr_shape.go:41-46, row by row from the top left, bit 4 is the module itself *)
Definition neighbour_bits : list (Z * (Z * Z)) :=
  [(0, (-1, -1)); (1, (0, -1)); (2, (1, -1)); (3, (-1, 0)); (4, (0, 0)); (5, (1, 0)); (6, (-1, 1)); (7, (0, 1)); (8, (1, 1))].

(* logos have at least one pixel *)
Definition proper_logo (o : options) : Prop := forall i, o_logo o = Some i -> i_x0 i < i_x1 i /\ i_y0 i < i_y1 i.

(* colours the writer paints with: an opaque foreground; a background that is opaque, or made transparent *)
Definition painter_colors (o : options) : Prop :=
  opaque (o_qrColor o) /\ good (o_bgColor o) /\ (o_bgTransparent o = false -> c_a (o_bgColor o) = 255).

(* the size of the image of a symbol of dimension n *)
Definition img_w (o : options) (n : Z) : Z := n * qrBlockWidth o + b_left o + b_right o.
Definition img_h (o : options) (n : Z) : Z := n * qrBlockWidth o + b_top o + b_bottom o.

(* the rows of an image *)
Definition rows (r : option (Z * Z * canvas * options)) : option (list (list rgba)) :=
  match r with
  | Some (w, h, cv, _) => Some (map (fun y => map (fun x => cv x y) (zseq 0 w)) (zseq 0 h))
  | None => None
  end.

(* ---- colours ---- *)
(* color.RGBAModel.Convert: the 8-bit value of a colour *)
Definition rgba8 (c : gocolor) : rgba :=
  match c with
  | ColorRGBA c => c
  | ColorOther r g b a => mkRGBA (r / 256) (g / 256) (b / 256) (a / 256)
  end.
Definition color_ok (c : gocolor) : Prop :=
  match c with
  | ColorRGBA c => good c
  | ColorOther r g b a => 0 <= r < 65536 /\ 0 <= g < 65536 /\ 0 <= b < 65536 /\ 0 <= a < 65536
  end.

(* d is a character that stands for the hexadecimal digit v: 0-9, a-f or A-F *)
Definition hex_char (v d : Z) : Prop :=
  (0 <= v <= 9 /\ d = 48 + v) \/ (10 <= v <= 15 /\ (d = 97 + (v - 10) \/ d = 65 + (v - 10))).

(* pixels a PNG decoder cannot tell apart: equal, or both fully transparent *)
Definition png_same (c d : rgba) : Prop := c = d \/ (c_a c = 0 /\ c_a d = 0).
