(* Model of /repo/writer/standard: writer.go, image_option.go, image_option_api.go, image_qr_shape.go (rectangle).
   Go's int is modelled by Z (no overflow); image coordinates are assumed to stay below 2^25, gg's fixed-point limit. *)
From Verif Require Import ModelBase ModelMatrix.

(* color.RGBA: four uint8, alpha-premultiplied *)
Record rgba := mkRGBA { c_r : Z; c_g : Z; c_b : Z; c_a : Z }.
Definition rgba_eqb (c d : rgba) : bool :=
  (c_r c =? c_r d) && (c_g c =? c_g d) && (c_b c =? c_b d) && (c_a c =? c_a d).

(* A color.Color: either a color.RGBA value, or another type, of which only the result of its RGBA() method matters:
   four uint32 in 0..0xffff *)
Inductive gocolor := ColorRGBA (c : rgba) | ColorOther (r g b a : Z).
(* color.Gray16{y}.RGBA() of the Go standard library *)
Definition Gray16 (y : Z) : gocolor := ColorOther y y y 0xffff.
(* color.Gray{y}.RGBA() *)
Definition Gray (y : Z) : gocolor := ColorOther (y * 257) (y * 257) (y * 257) 0xffff.
(* color.NRGBA{r,g,b,a}.RGBA() *)
Definition NRGBA (r g b a : Z) : gocolor :=
  let f c := (c * 257) * a / 255 in ColorOther (f r) (f g) (f b) (a * 257).

(* image_option.go:190-204 parseFromColor; uint8(x) is x mod 256 *)
Definition parseFromColor (c : gocolor) : rgba :=
  match c with
  | ColorRGBA c => c
  | ColorOther r g b a => mkRGBA (r mod 256) (g mod 256) (b mod 256) (a mod 256)
  end.

(* one hexadecimal digit, as a byte *)
Definition hexdigit (b : Z) : option Z :=
  if (48 <=? b) && (b <=? 57) then Some (b - 48)
  else if (97 <=? b) && (b <=? 102) then Some (b - 87)
  else if (65 <=? b) && (b <=? 70) then Some (b - 55)
  else None.

(* image_option.go:161-188 parseFromHex on the bytes of the string; None = panic.
   Simplification: fmt.Sscanf is modelled only on '#' followed by hexadecimal digits; what it does with other strings of
   length 7 and 4 (it accepts some of them, e.g. with blanks) is the parameter [scan]. *)
Definition parseFromHex (scan : list Z -> option rgba) (s : list Z) : option rgba :=
  match s with
  | [h; a; b; c; d; e; f] =>
    match hexdigit a, hexdigit b, hexdigit c, hexdigit d, hexdigit e, hexdigit f with
    | Some a, Some b, Some c, Some d, Some e, Some f =>
      if h =? 35 then Some (mkRGBA (16 * a + b) (16 * c + d) (16 * e + f) 255) else scan s
    | _, _, _, _, _, _ => scan s
    end
  | [h; a; b; c] =>
    match hexdigit a, hexdigit b, hexdigit c with
    | Some a, Some b, Some c => if h =? 35 then Some (mkRGBA (a * 17) (b * 17) (c * 17) 255) else scan s
    | _, _, _ => scan s
    end
  | _ => None
  end.

(* image_option.go:131-134 *)
Definition color_WHITE : rgba := mkRGBA 255 255 255 255.
Definition color_BLACK : rgba := mkRGBA 0 0 0 255.

(* An image.Image given by the user: bounds and pixels (as color.RGBA). *)
Record image := mkImage { i_x0 : Z; i_y0 : Z; i_x1 : Z; i_y1 : Z; i_at : Z -> Z -> rgba }.

(* image_qr_shape.go:14-20; a custom shape is opaque here, see [call] below *)
Inductive shape := ShapeRectangle | ShapeCircle | ShapeCustom (id : Z).
(* image_format.go *)
Inductive encoder := JpegEncoder | PngEncoder | CustomEncoder (id : Z).
(* image_format.go:27-35 Encode: image/jpeg and image/png return an error, before they write anything, for pictures of these sizes
   (image/jpeg/writer.go Encode: "image is too large to encode"; image/png/writer.go Encode: "invalid image size").
   Simplification: user-defined encoders refuse nothing. *)
Definition encoder_refuses (e : encoder) (w h : Z) : bool :=
  match e with
  | JpegEncoder => (2 ^ 16 <=? w) || (2 ^ 16 <=? h)
  | PngEncoder => (w <=? 0) || (h <=? 0) || (2 ^ 32 <=? w) || (2 ^ 32 <=? h)
  | CustomEncoder _ => false
  end.

(* image_option.go:30-66 outputImageOptions.  The gradient is given by the colour it has at each pixel (gradient.go is
   modelled in ModelGradient.v) *)
Record options := mkOptions {
  o_bgColor : rgba; o_bgTransparent : bool; o_qrColor : rgba; o_gradient : option (Z -> Z -> rgba);
  o_logo : option image; o_multiplier : Z; o_safeZone : bool; o_qrWidth : Z; o_shape : option shape;
  o_encoder : encoder; o_borders : Z * Z * Z * Z; o_halftone : option image }.

(* image_option.go:16-28 defaultOutputImageOption *)
Definition defaultOptions : options :=
  mkOptions color_WHITE false color_BLACK None None 5 false 20 (Some ShapeRectangle) JpegEncoder (40, 40, 40, 40) None.

Definition set_bgColor c o := mkOptions c (o_bgTransparent o) (o_qrColor o) (o_gradient o) (o_logo o) (o_multiplier o) (o_safeZone o) (o_qrWidth o) (o_shape o) (o_encoder o) (o_borders o) (o_halftone o).
Definition set_bgTransparent o := mkOptions (o_bgColor o) true (o_qrColor o) (o_gradient o) (o_logo o) (o_multiplier o) (o_safeZone o) (o_qrWidth o) (o_shape o) (o_encoder o) (o_borders o) (o_halftone o).
Definition set_qrColor c o := mkOptions (o_bgColor o) (o_bgTransparent o) c (o_gradient o) (o_logo o) (o_multiplier o) (o_safeZone o) (o_qrWidth o) (o_shape o) (o_encoder o) (o_borders o) (o_halftone o).
Definition set_gradient g o := mkOptions (o_bgColor o) (o_bgTransparent o) (o_qrColor o) g (o_logo o) (o_multiplier o) (o_safeZone o) (o_qrWidth o) (o_shape o) (o_encoder o) (o_borders o) (o_halftone o).
Definition set_logo i o := mkOptions (o_bgColor o) (o_bgTransparent o) (o_qrColor o) (o_gradient o) i (o_multiplier o) (o_safeZone o) (o_qrWidth o) (o_shape o) (o_encoder o) (o_borders o) (o_halftone o).
Definition set_multiplier n o := mkOptions (o_bgColor o) (o_bgTransparent o) (o_qrColor o) (o_gradient o) (o_logo o) n (o_safeZone o) (o_qrWidth o) (o_shape o) (o_encoder o) (o_borders o) (o_halftone o).
Definition set_safeZone o := mkOptions (o_bgColor o) (o_bgTransparent o) (o_qrColor o) (o_gradient o) (o_logo o) (o_multiplier o) true (o_qrWidth o) (o_shape o) (o_encoder o) (o_borders o) (o_halftone o).
Definition set_qrWidth n o := mkOptions (o_bgColor o) (o_bgTransparent o) (o_qrColor o) (o_gradient o) (o_logo o) (o_multiplier o) (o_safeZone o) n (o_shape o) (o_encoder o) (o_borders o) (o_halftone o).
Definition set_shape s o := mkOptions (o_bgColor o) (o_bgTransparent o) (o_qrColor o) (o_gradient o) (o_logo o) (o_multiplier o) (o_safeZone o) (o_qrWidth o) s (o_encoder o) (o_borders o) (o_halftone o).
Definition set_encoder e o := mkOptions (o_bgColor o) (o_bgTransparent o) (o_qrColor o) (o_gradient o) (o_logo o) (o_multiplier o) (o_safeZone o) (o_qrWidth o) (o_shape o) e (o_borders o) (o_halftone o).
Definition set_borders b o := mkOptions (o_bgColor o) (o_bgTransparent o) (o_qrColor o) (o_gradient o) (o_logo o) (o_multiplier o) (o_safeZone o) (o_qrWidth o) (o_shape o) (o_encoder o) b (o_halftone o).
Definition set_halftone i o := mkOptions (o_bgColor o) (o_bgTransparent o) (o_qrColor o) (o_gradient o) (o_logo o) (o_multiplier o) (o_safeZone o) (o_qrWidth o) (o_shape o) (o_encoder o) (o_borders o) i.

(* The exported option constructors, image_option_api.go:32-254.  nil arguments are None.  WithLogoImageFileJPEG/PNG and
   WithHalftone read a file: they either act like WithLogoImage/WithHalftoneImage on the decoded image, or print a message
   and change nothing (WithFileError). *)
Inductive image_option :=
| WithBgTransparent
| WithBgColor (c : option gocolor)
| WithBgColorRGBHex (hex : list Z)
| WithFgColor (c : option gocolor)
| WithFgColorRGBHex (hex : list Z)
| WithFgGradient (g : option (Z -> Z -> rgba))   (* None: nil, or a gradient without stops *)
| WithLogoImage (img : option image)
| WithQRWidth (width : Z)                        (* a uint8 *)
| WithCircleShape
| WithCustomShape (s : option shape)
| WithBuiltinImageEncoder (format : Z)
| WithCustomImageEncoder (e : option encoder)
| WithBorderWidth (widths : list Z)
| WithHalftoneImage (img : option image)
| WithLogoSizeMultiplier (n : Z)
| WithLogoSafeZone
| WithFileError.

(* image_option_api.go:198-222 *)
Definition border_widths (widths : list Z) : Z * Z * Z * Z :=
  match widths with
  | [] => (40, 40, 40, 40)
  | [a] => (a, a, a, a)
  | [a; b] | [a; b; _] => (a, b, a, b)
  | a :: b :: c :: d :: _ => (a, b, c, d)
  end.

(* the apply methods; None = panic *)
Definition apply_option (scan : list Z -> option rgba) (o : options) (opt : image_option) : option options :=
  match opt with
  | WithBgTransparent => Some (set_bgTransparent o)                                                          (* :32-36 *)
  | WithBgColor None => Some o                                                                               (* :39-47 *)
  | WithBgColor (Some c) => Some (set_bgColor (parseFromColor c) o)
  | WithBgColorRGBHex [] => Some o                                                                           (* :50-58 *)
  | WithBgColorRGBHex s => match parseFromHex scan s with Some c => Some (set_bgColor c o) | None => None end
  | WithFgColor None => Some o                                                                               (* :61-69 *)
  | WithFgColor (Some c) => Some (set_qrColor (parseFromColor c) o)
  | WithFgColorRGBHex s => match parseFromHex scan s with Some c => Some (set_qrColor c o) | None => None end (* :72-76 *)
  | WithFgGradient None => Some o                                                                            (* :79-87 *)
  | WithFgGradient (Some g) => Some (set_gradient (Some g) o)
  | WithLogoImage None => Some o                                                                             (* :90-98 *)
  | WithLogoImage (Some i) => Some (set_logo (Some i) o)
  | WithQRWidth n => Some (set_qrWidth n o)                                                                  (* :143-147 *)
  | WithCircleShape => Some (set_shape (Some ShapeCircle) o)                                                 (* :150-154 *)
  | WithCustomShape s => Some (set_shape s o)                                                                (* :157-161 *)
  | WithBuiltinImageEncoder f =>                                                                             (* :166-180 *)
    if f =? 0 then Some (set_encoder JpegEncoder o) else if f =? 1 then Some (set_encoder PngEncoder o) else None
  | WithCustomImageEncoder None => Some o                                                                    (* :184-192 *)
  | WithCustomImageEncoder (Some e) => Some (set_encoder e o)
  | WithBorderWidth ws => Some (set_borders (border_widths ws) o)                                            (* :198-222 *)
  | WithHalftoneImage i => Some (set_halftone i o)                                                           (* :238-242 *)
  | WithLogoSizeMultiplier n => Some (set_multiplier n o)                                                    (* :245-249 *)
  | WithLogoSafeZone => Some (set_safeZone o)                                                                (* :252-256 *)
  | WithFileError => Some o                                                                                  (* :102-140, :225-234 *)
  end.

(* writer.go:47-61 NewWithWriter: the options of the new Writer (None = panic; a nil writeCloser also panics) *)
Definition NewWithWriter (scan : list Z -> option rgba) (opts : list image_option) : option options :=
  fold_left (fun o opt => match o with Some o => apply_option scan o opt | None => None end) opts (Some defaultOptions).

(* image_option.go:90-96 qrBlockWidth *)
Definition qrBlockWidth (o : options) : Z :=
  if (o_qrWidth o <=? 0) || (255 <? o_qrWidth o) then 20 else o_qrWidth o.

(* image_option.go:98-104 getShape *)
Definition getShape (o : options) : shape := match o_shape o with Some s => s | None => ShapeRectangle end.

(* writer.go:327-335, image_option.go:107-119 preCalculateAttribute *)
Record Attribute := mkAttribute { a_W : Z; a_H : Z; a_Borders : Z * Z * Z * Z; a_BlockWidth : Z }.
Definition attribute (o : options) (dimension : Z) : Attribute :=
  let '(top, right_, bottom, left_) := o_borders o in
  mkAttribute (dimension * qrBlockWidth o + right_ + left_) (dimension * qrBlockWidth o + top + bottom) (o_borders o) (qrBlockWidth o).

(* image_option.go:68-78 backgroundColor: it changes the options it is called on *)
Definition backgroundColor (o : options) : rgba * options :=
  let o := if o_bgTransparent o then set_bgColor (mkRGBA (c_r (o_bgColor o)) (c_g (o_bgColor o)) (c_b (o_bgColor o)) 0) o else o in
  (o_bgColor o, o).

(* image_option.go:139-158 translateToRGBA: it too changes the options *)
Definition translateToRGBA (o : options) (v : Z) : rgba * options :=
  if qrbool v then (o_qrColor o, o)
  else let o := if o_bgTransparent o then set_bgColor (mkRGBA 0 0 0 0) o else o in (o_bgColor o, o).

(* writer.go:299-301 validLogoImage *)
Definition validLogoImage (qrWidth qrHeight logoWidth logoHeight logoSizeMultiplier : Z) : bool :=
  (logoSizeMultiplier * logoWidth <=? qrWidth) && (logoSizeMultiplier * logoHeight <=? qrHeight).

(* writer.go:303-316 blockOverlapsLogo; Go's / truncates *)
Definition blockOverlapsLogo (x y blockSize left_ top w h logoWidth logoHeight : Z) : bool :=
  let blockLeft := x * blockSize + left_ in
  let blockTop := y * blockSize + top in
  let blockRight := blockLeft + blockSize in
  let blockBottom := blockTop + blockSize in
  let logoLeft := Z.quot (w - logoWidth) 2 in
  let logoTop := Z.quot (h - logoHeight) 2 in
  let logoRight := logoLeft + logoWidth in
  let logoBottom := logoTop + logoHeight in
  (logoLeft <? blockRight) && (blockLeft <? logoRight) && (logoTop <? blockBottom) && (blockTop <? logoBottom).

(* image_qr_shape.go:47-57 *)
Definition NTopLeft : Z := 1.
Definition NTop : Z := 2.
Definition NTopRight : Z := 4.
Definition NLeft : Z := 8.
Definition NSelf : Z := 16.
Definition NRight : Z := 32.
Definition NBotLeft : Z := 64.
Definition NBot : Z := 128.
Definition NBotRight : Z := 256.

(* writer.go:231-240 *)
Definition dirs : list (Z * Z * Z) :=
  [(-1, -1, NTopLeft); (0, -1, NTop); (1, -1, NTopRight); (-1, 0, NLeft); (1, 0, NRight); (-1, 1, NBotLeft); (0, 1, NBot); (1, 1, NBotRight)].

(* mtx[y][x], evaluated after the range checks; false also stands for the index panic on a row shorter than the first,
   which Bitmap never returns *)
Definition bget (mtx : list (list bool)) (y x : Z) : bool :=
  match zget mtx y with Some row => match zget row x with Some b => b | None => false end | None => false end.

(* writer.go:227-268 getNeighbours *)
Definition getNeighbours (mtx : list (list bool)) (x y : Z) : Z :=
  match mtx with
  | [] => 0
  | row0 :: _ =>
    let rows := zlen mtx in
    let cols := zlen row0 in
    let test nx ny := (0 <=? ny) && (ny <? rows) && (0 <=? nx) && (nx <? cols) && bget mtx ny nx in
    let res := if test x y then NSelf else 0 in
    fold_left (fun res '(dx, dy, flag) => if test (x + dx) (y + dy) then Z.lor res flag else res) dirs res
  end.

(* writer.go:272-296 halftoneColor, on the grey value of the halftone picture at (x, y) *)
Definition halftoneColor (grey : Z) (transparent : bool) : rgba :=
  if grey =? 255 then (if transparent then mkRGBA 0 0 0 0 else mkRGBA 255 255 255 255) else mkRGBA 0 0 0 255.

(* A call of the shape: shape.Draw or shape.DrawFinder with a DrawContext whose UpperLeft is (k_x + k_tx/3, k_y + k_ty/3), whose
   Edge is (k_w, k_h) and so on.  k_tx and k_ty are 0 but for the nine sub-blocks of a halftone block, which lie at multiples of
   a third of the block.  Simplification: the program computes with the float64 next to that number, see fix26_6; ModelHalftone64.v has that
   arithmetic and PropsHalftone64.v proves that it makes no difference. *)
Record call := mkCall { k_finder : bool; k_x : Z; k_tx : Z; k_y : Z; k_ty : Z; k_w : Z; k_h : Z; k_color : rgba; k_neighbours : Z }.

(* writer.go:178-200: the calls for one data module when there is a halftone picture; grey x y is the pixel of the
   scaled and binarised picture (imgkit, modelled in ModelImgkit.v) *)
Definition halftone_calls (grey : Z -> Z -> Z) (transparent : bool) (block x y cx cy : Z) (color : rgba) : list call :=
  let hw := Z.quot block 3 in
  flat_map (fun i => map (fun j =>
      mkCall false cx (i * block) cy (j * block) hw hw
             (if (i =? 1) && (j =? 1) then color else halftoneColor (grey (x * 3 + i) (y * 3 + j)) transparent) 0)
    (zseq 0 3)) (zseq 0 3).

(* writer.go:152-158: bitMap[x][y] = false; None = index panic *)
Definition clear_cell (safe : Z -> Z -> bool) (t : option (list (list bool))) (x y v : Z) : option (list (list bool)) :=
  match t with
  | None => None
  | Some t =>
    if safe x y then
      match zget t x with
      | Some col => if (0 <=? y) && (y <? zlen col) then Some (zupd t x (zupd col y false)) else None
      | None => None
      end
    else Some t
  end.

(* writer.go:161-204: the callback that draws module (x, y) *)
Definition draw_module (halftone : option (Z -> Z -> Z)) (bitMap : list (list bool)) (safe : Z -> Z -> bool) (bw left_ top : Z)
    (s : list call * options) (x y v : Z) : list call * options :=
  let '(calls, o) := s in
  if safe x y && qrbool v then (calls, o)
  else
    let cx := x * bw + left_ in
    let cy := y * bw + top in
    let '(color, o) := translateToRGBA o v in
    let nb := getNeighbours bitMap x y in
    let plain finder := [mkCall finder cx 0 cy 0 bw bw color nb] in
    let now :=
      if qrtype v =? QRType_FINDER then plain true
      else if qrtype v =? QRType_DATA then
        match halftone with
        | None => plain false
        | Some grey => halftone_calls grey (o_bgTransparent o) bw x y cx cy color
        end
      else plain false in
    (calls ++ now, o).

(* writer.go:134-145: is the logo drawn, and its size *)
Definition logo_info (o : options) (w h : Z) : bool * Z * Z :=
  match o_logo o with
  | None => (false, 0, 0)
  | Some i => let lw := i_x1 i - i_x0 i in let lh := i_y1 i - i_y0 i in
              (validLogoImage w h lw lh (o_multiplier o), lw, lh)
  end.

(* writer.go:105-222: the part of draw that decides which shapes to draw where.  Result: width, height, background colour,
   the logo to be drawn and its place, the calls of the shape in order, the options afterwards.  None = index panic.
   scale i n x y is pixel (x, y) of imgkit.Binaryzation(imgkit.Scale(i, n x n), 60), see ModelImgkit.v *)
Record plan := mkPlan { p_w : Z; p_h : Z; p_bg : rgba; p_logo : option (image * Z * Z); p_calls : list call; p_options : options }.

Definition draw_plan (scale : image -> Z -> Z -> Z -> Z) (m : Matrix) (o : options) : option plan :=
  let '(top, right_, bottom, left_) := o_borders o in
  let bw := qrBlockWidth o in
  let w := mwidth m * bw + left_ + right_ in
  let h := mheight m * bw + top + bottom in
  let '(bg, o) := backgroundColor o in
  let halftone := match o_halftone o with Some i => Some (scale i (mwidth m * 3)) | None => None end in
  let '(logoValid, logoWidth, logoHeight) := logo_info o w h in
  let active := logoValid && o_safeZone o in
  let safe x y := active && blockOverlapsLogo x y bw left_ top w h logoWidth logoHeight in
  let bitMap := if active then m_iter IterDirection_ROW m (clear_cell safe) (Some (m_bitmap m)) else Some (m_bitmap m) in
  match bitMap with
  | None => None
  | Some bitMap =>
    let '(calls, o) := m_iter IterDirection_ROW m (draw_module halftone bitMap safe bw left_ top) ([], o) in
    let logo := match o_logo o with
                | Some i => if logoValid then Some (i, Z.quot (w - logoWidth) 2, Z.quot (h - logoHeight) 2) else None
                | None => None
                end in
    Some (mkPlan w h bg logo calls o)
  end.

(* ---- painting (gg and freetype/raster) ---- *)
(* raster.RGBAPainter.Paint at full coverage (Alpha = 0xffff), uint32 arithmetic: one channel *)
Definition over_channel (dst src alpha : Z) : Z :=
  ((dst * ((65535 - alpha * 257) * 257) + src * 257 * 65535) mod 2 ^ 32) / 65535 / 256 mod 256.
Definition over (dst src : rgba) : rgba :=
  mkRGBA (over_channel (c_r dst) (c_r src) (c_a src)) (over_channel (c_g dst) (c_g src) (c_a src))
         (over_channel (c_b dst) (c_b src) (c_a src)) (over_channel (c_a dst) (c_a src) (c_a src)).

(* the image of a gg.Context: a function from pixels to colours, defined on 0 <= x < w, 0 <= y < h *)
Definition canvas := Z -> Z -> rgba.
Definition blank : canvas := fun _ _ => mkRGBA 0 0 0 0.

(* DrawRectangle(x, y, w, h); SetColor(c); Fill() with integer coordinates: the pixels of the rectangle are fully covered *)
Definition fill_rect (cv : canvas) (x y w h : Z) (c : rgba) : canvas :=
  fun px py => if (x <=? px) && (px <? x + w) && (y <=? py) && (py <? y + h) then over (cv px py) c else cv px py.

(* the raster library works in 1/64 pixel: gg's fixp(v) = fixed.Int26_6(v * 64), which truncates, at v = x + t/3.
   When t/3 is not an integer, v * 64 is at least 1/3 away from the integers, so the rounding of float64 does not show. *)
Definition fix26_6 (x t : Z) : Z := Z.quot (64 * (3 * x + t)) 3.
(* the length of [lo, hi) within pixel p, in 1/64 pixel *)
Definition overlap64 (lo hi p : Z) : Z := Z.max 0 (Z.min hi (64 * p + 64) - Z.max lo (64 * p)).
(* raster.Rasterizer.areaToAlpha: the area of a pixel that is covered, in 1/4096, as a 16-bit alpha: cut to 12 bits, then
   alpha<<4 | alpha>>8 *)
Definition area_alpha (area : Z) : Z := let a := Z.min area 4095 in a * 16 + a / 256.
(* raster.RGBAPainter.Paint of a span with alpha ma *)
Definition over_at_channel (ma dst src alpha : Z) : Z :=
  ((dst * ((65535 - alpha * 257 * ma / 65535) * 257) + src * 257 * ma) mod 2 ^ 32) / 65535 / 256 mod 256.
Definition over_at (ma : Z) (dst src : rgba) : rgba :=
  mkRGBA (over_at_channel ma (c_r dst) (c_r src) (c_a src)) (over_at_channel ma (c_g dst) (c_g src) (c_a src))
         (over_at_channel ma (c_b dst) (c_b src) (c_a src)) (over_at_channel ma (c_a dst) (c_a src) (c_a src)).
(* how much of pixel (px, py) the box of the call covers *)
Definition k_area (k : call) (px py : Z) : Z :=
  overlap64 (fix26_6 (k_x k) (k_tx k)) (fix26_6 (k_x k + k_w k) (k_tx k)) px *
  overlap64 (fix26_6 (k_y k) (k_ty k)) (fix26_6 (k_y k + k_h k) (k_ty k)) py.

(* image_qr_shape.go:78-87 rectangle.Draw and DrawFinder: DrawRectangle, SetColor, Fill; pixels with no coverage are not painted *)
Definition rectangle_draw (cv : canvas) (k : call) : canvas :=
  fun px py => if k_area k px py =? 0 then cv px py else over_at (area_alpha (k_area k px py)) (cv px py) (k_color k).

(* image_qr_shape.go:90-112 circle.Draw and DrawFinder: a disc of radius min(w/2, h/2) (integer division) about the centre of the
   box.  gg approximates the circle by 16 arcs.  The model is exact for the pixels whose four corners are within 9/10 of the radius
   (they are fully covered), for those outside the square around the disc or nowhere within 11/10 of the radius (not touched), and
   for radius 0 (nothing is painted); what happens to the other pixels is the parameter [edge].  Lengths are in 1/6 pixel. *)
Definition circle_radius (k : call) : Z := let radius := Z.quot (k_w k) 2 in let r2 := Z.quot (k_h k) 2 in if r2 <=? radius then r2 else radius.
Definition circle_cx6 (k : call) : Z := 6 * k_x k + 2 * k_tx k + 3 * k_w k.
Definition circle_cy6 (k : call) : Z := 6 * k_y k + 2 * k_ty k + 3 * k_h k.
Definition circle_inside (k : call) (px py : Z) : bool :=
  forallb (fun '(dx, dy) => let u := 6 * px + dx - circle_cx6 k in let v := 6 * py + dy - circle_cy6 k in
             100 * (u * u + v * v) <=? 81 * 36 * (circle_radius k * circle_radius k)) [(0, 0); (6, 0); (0, 6); (6, 6)].
Definition circle_outside (k : call) (px py : Z) : bool :=
  (6 * px + 6 <=? circle_cx6 k - 6 * circle_radius k) || (circle_cx6 k + 6 * circle_radius k <=? 6 * px) ||
  (6 * py + 6 <=? circle_cy6 k - 6 * circle_radius k) || (circle_cy6 k + 6 * circle_radius k <=? 6 * py) ||
  let u := Z.max 0 (Z.max (6 * px - circle_cx6 k) (circle_cx6 k - 6 * px - 6)) in
  let v := Z.max 0 (Z.max (6 * py - circle_cy6 k) (circle_cy6 k - 6 * py - 6)) in
  121 * 36 * (circle_radius k * circle_radius k) <=? 100 * (u * u + v * v).
Definition circle_draw (edge : call -> Z -> Z -> rgba -> rgba) (cv : canvas) (k : call) : canvas :=
  fun px py => if (circle_radius k =? 0) || circle_outside k px py then cv px py
               else if circle_inside k px py then over (cv px py) (k_color k)
               else edge k px py (cv px py).

(* gg's DrawImage (x/image/draw, BiLinear at an integer offset, Over): like the painter, but channels are first cut down to
   alpha *)
Definition clamp (c : rgba) : rgba :=
  mkRGBA (Z.min (c_r c) (c_a c)) (Z.min (c_g c) (c_a c)) (Z.min (c_b c) (c_a c)) (c_a c).
Definition over_image (dst src : rgba) : rgba := over dst (clamp src).

(* writer.go:219-223 and gradient.go:69-86: pixels equal to the foreground colour are replaced, then the result is drawn over
   the image; where it is transparent the old pixel shows through *)
Definition apply_gradient (cv : canvas) (fg : rgba) (g : Z -> Z -> rgba) : canvas :=
  fun px py => let c := if rgba_eqb (cv px py) fg then g px py else cv px py in over_image (cv px py) c.

(* writer.go:238 dc.DrawImage(logo, x, y) for a picture in color.RGBA pixels.  gg hands the bounds of the logo, as they are, to
   draw.BiLinear.Transform with the translation by (x, y): point p of the logo goes to p + (x, y), also when the bounds do not start at
   the origin (a cropped image) *)
Definition draw_image (cv : canvas) (i : image) (x y : Z) : canvas :=
  fun px py => if (x + i_x0 i <=? px) && (px <? x + i_x1 i) && (y + i_y0 i <=? py) && (py <? y + i_y1 i) then over_image (cv px py) (i_at i (px - x) (py - y)) else cv px py.

(* writer.go:105-222 draw with a shape given by its effect on the canvas.  gg.NewContext makes image.Rect(0, 0, w, h), which
   swaps the corners when w or h is negative (borders may be): the size of the image is the absolute value; the canvas describes
   its pixels only when neither is negative. *)
Definition draw_with (shape_draw : canvas -> call -> canvas) (scale : image -> Z -> Z -> Z -> Z) (m : Matrix) (o : options)
  : option (Z * Z * canvas * options) :=
  match draw_plan scale m o with
  | None => None
  | Some p =>
    let cv := fill_rect blank 0 0 (p_w p) (p_h p) (p_bg p) in
    let cv := fold_left shape_draw (p_calls p) cv in
    let cv := match o_gradient (p_options p) with Some g => apply_gradient cv (o_qrColor (p_options p)) g | None => cv end in
    let cv := match p_logo p with Some (i, x, y) => draw_image cv i x y | None => cv end in
    Some (Z.abs (p_w p), Z.abs (p_h p), cv, p_options p)
  end.


(* writer.go:121 and image_option.go:98-104: the shape is chosen by the options; [others] is what the circle and custom shapes
   do to the canvas *)
Definition draw (others : shape -> canvas -> call -> canvas) (scale : image -> Z -> Z -> Z -> Z) (m : Matrix) (o : options) :=
  draw_with (match getShape o with ShapeRectangle => rectangle_draw | s => others s end) scale m o.
