(* Vocabulary for C69: which option of the standard writer sets what. *)
From Verif Require Import ModelBase ModelMatrix ModelStandard SpecReader SpecStandard.

(* v is what the last option of the list that sets something sets it to; the default if none does *)
Definition last_set {A} (sets : image_option -> A -> Prop) (opts : list image_option) (default v : A) : Prop :=
  (exists before opt after, opts = before ++ opt :: after /\ sets opt v /\ forall later w, In later after -> ~ sets later w) \/
  ((forall opt w, In opt opts -> ~ sets opt w) /\ v = default).

(* the colour kept for a color.Color: itself for a color.RGBA; otherwise the low bytes of its 16-bit channels (wrong in general: C41) *)
Definition kept (g : gocolor) (c : rgba) : Prop :=
  match g with ColorRGBA c' => c = c' | ColorOther r g b a => c = mkRGBA (r mod 256) (g mod 256) (b mod 256) (a mod 256) end.
(* #rrggbb and #rgb *)
Definition hex_colour (s : list Z) (c : rgba) : Prop :=
  (exists r1 r2 g1 g2 b1 b2 c1 c2 c3 c4 c5 c6, s = [35; c1; c2; c3; c4; c5; c6] /\ hex_char r1 c1 /\ hex_char r2 c2 /\ hex_char g1 c3 /\ hex_char g2 c4 /\
     hex_char b1 c5 /\ hex_char b2 c6 /\ c = mkRGBA (16 * r1 + r2) (16 * g1 + g2) (16 * b1 + b2) 255) \/
  (exists r g b c1 c2 c3, s = [35; c1; c2; c3] /\ hex_char r c1 /\ hex_char g c2 /\ hex_char b c3 /\ c = mkRGBA (16 * r + r) (16 * g + g) (16 * b + b) 255).

Inductive sets_foreground : image_option -> rgba -> Prop :=
| fg_colour g c : kept g c -> sets_foreground (WithFgColor (Some g)) c
| fg_hex s c : hex_colour s c -> sets_foreground (WithFgColorRGBHex s) c.
Inductive sets_background : image_option -> rgba -> Prop :=
| bg_colour g c : kept g c -> sets_background (WithBgColor (Some g)) c
| bg_hex s c : hex_colour s c -> sets_background (WithBgColorRGBHex s) c.
Inductive sets_gradient : image_option -> option (Z -> Z -> rgba) -> Prop := gradient_set g : sets_gradient (WithFgGradient (Some g)) (Some g).
Inductive sets_logo : image_option -> option image -> Prop := logo_set i : sets_logo (WithLogoImage (Some i)) (Some i).
Inductive sets_multiplier : image_option -> Z -> Prop := multiplier_set n : sets_multiplier (WithLogoSizeMultiplier n) n.
(* pixels per module; 0 is the default, 20 *)
Inductive sets_block : image_option -> Z -> Prop := block_set n : 1 <= n <= 255 -> sets_block (WithQRWidth n) n | block_default : sets_block (WithQRWidth 0) 20.
(* a nil custom shape is the rectangle *)
Inductive sets_shape : image_option -> shape -> Prop :=
| circle_set : sets_shape WithCircleShape ShapeCircle
| shape_set s : sets_shape (WithCustomShape (Some s)) s
| shape_nil : sets_shape (WithCustomShape None) ShapeRectangle.
Inductive sets_encoder : image_option -> encoder -> Prop :=
| jpeg_set : sets_encoder (WithBuiltinImageEncoder 0) JpegEncoder
| png_set : sets_encoder (WithBuiltinImageEncoder 1) PngEncoder
| encoder_set e : sets_encoder (WithCustomImageEncoder (Some e)) e.
(* top, right, bottom, left, as in CSS; a third width without a fourth is ignored *)
Inductive sets_borders : image_option -> Z * Z * Z * Z -> Prop :=
| no_width : sets_borders (WithBorderWidth []) (40, 40, 40, 40)
| one_width a : sets_borders (WithBorderWidth [a]) (a, a, a, a)
| two_widths a b r : (length r <= 1)%nat -> sets_borders (WithBorderWidth (a :: b :: r)) (a, b, a, b)
| four_widths a b c d r : sets_borders (WithBorderWidth (a :: b :: c :: d :: r)) (a, b, c, d).
Inductive sets_halftone : image_option -> option image -> Prop := halftone_set i : sets_halftone (WithHalftoneImage i) i.

(* options the program accepts: colours are hexadecimal, formats are those built in, block widths are uint8 *)
Definition accepted (opt : image_option) : Prop :=
  match opt with
  | WithFgColorRGBHex s => exists c, hex_colour s c
  | WithBgColorRGBHex s => s = [] \/ exists c, hex_colour s c
  | WithBuiltinImageEncoder f => f = 0 \/ f = 1
  | WithQRWidth k => 0 <= k <= 255
  | _ => True
  end.
(* options that panic: colours of another length, other formats *)
Definition rejected (opt : image_option) : Prop :=
  match opt with
  | WithFgColorRGBHex s => length s <> 4%nat /\ length s <> 7%nat
  | WithBgColorRGBHex s => s <> [] /\ length s <> 4%nat /\ length s <> 7%nat
  | WithBuiltinImageEncoder f => f <> 0 /\ f <> 1
  | _ => False
  end.
(* options that put no picture, gradient or other shape on the symbol *)
Definition plain_option (opt : image_option) : Prop :=
  match opt with WithFgGradient _ | WithLogoImage _ | WithHalftoneImage _ | WithCircleShape | WithCustomShape (Some _) => False | _ => True end.
(* the colour of the ground: the background colour, or transparent if so asked *)
Definition is_ground (opts : list image_option) (bg c : rgba) : Prop :=
  (In WithBgTransparent opts -> c_a c = 0) /\ (~ In WithBgTransparent opts -> c = bg).
