(* The image writers once more, with Go's int as a two's complement number of w bits (64 for GOARCH=amd64, arm64, wasm; 32 for 386 and
   arm) instead of Z:
   /repo/writer/standard/writer.go:103-316, image_option.go:107-119 and /repo/writer/compressed/writer.go:48-86.
   The results of +, - and * are taken modulo 2^w; as these commute with taking the remainder, it is enough to do so once for an
   expression of them, but before every comparison and division. *)
From Verif Require Import ModelBase ModelMatrix ModelStandard ModelCompressed ModelInt.

Section Width.
Variable w_int : Z.
Local Notation wrap := (wrap_bits w_int).

(* image_option.go:107-119 preCalculateAttribute *)
Definition attribute_bits (o : options) (dimension : Z) : Attribute :=
  let '(top, right_, bottom, left_) := o_borders o in
  mkAttribute (wrap (dimension * qrBlockWidth o + right_ + left_)) (wrap (dimension * qrBlockWidth o + top + bottom)) (o_borders o) (qrBlockWidth o).

(* writer.go:299-301 validLogoImage *)
Definition validLogoImage_bits (qrWidth qrHeight logoWidth logoHeight logoSizeMultiplier : Z) : bool :=
  (wrap (logoSizeMultiplier * logoWidth) <=? qrWidth) && (wrap (logoSizeMultiplier * logoHeight) <=? qrHeight).

(* writer.go:303-316 blockOverlapsLogo *)
Definition blockOverlapsLogo_bits (x y blockSize left_ top w h logoWidth logoHeight : Z) : bool :=
  let blockLeft := wrap (x * blockSize + left_) in
  let blockTop := wrap (y * blockSize + top) in
  let blockRight := wrap (blockLeft + blockSize) in
  let blockBottom := wrap (blockTop + blockSize) in
  let logoLeft := Z.quot (wrap (w - logoWidth)) 2 in
  let logoTop := Z.quot (wrap (h - logoHeight)) 2 in
  let logoRight := wrap (logoLeft + logoWidth) in
  let logoBottom := wrap (logoTop + logoHeight) in
  (logoLeft <? blockRight) && (blockLeft <? logoRight) && (logoTop <? blockBottom) && (blockTop <? logoBottom).

(* writer.go:161-204, see draw_module; float64(x*opt.qrBlockWidth()+left) converts the wrapped int *)
Definition draw_module_bits (halftone : option (Z -> Z -> Z)) (bitMap : list (list bool)) (safe : Z -> Z -> bool) (bw left_ top : Z)
    (s : list call * options) (x y v : Z) : list call * options :=
  let '(calls, o) := s in
  if safe x y && qrbool v then (calls, o)
  else
    let cx := wrap (x * bw + left_) in
    let cy := wrap (y * bw + top) in
    let '(color, o) := translateToRGBA o v in
    let nb := getNeighbours bitMap x y in
    let plain finder := [mkCall finder cx 0 cy 0 bw bw color nb] in
    let now :=
      if qrtype v =? QRType_FINDER then plain true
      else if qrtype v =? QRType_DATA then
        match halftone with
        | None => plain false
        | Some grey => halftone_calls grey (o_bgTransparent o) bw x y cx cy color
        end
      else plain false in
    (calls ++ now, o).

(* writer.go:134-145 *)
Definition logo_info_bits (o : options) (w h : Z) : bool * Z * Z :=
  match o_logo o with
  | None => (false, 0, 0)
  | Some i => let lw := wrap (i_x1 i - i_x0 i) in let lh := wrap (i_y1 i - i_y0 i) in
              (validLogoImage_bits w h lw lh (o_multiplier o), lw, lh)
  end.

(* writer.go:105-222, see draw_plan *)
Definition draw_plan_bits (scale : image -> Z -> Z -> Z -> Z) (m : Matrix) (o : options) : option plan :=
  let '(top, right_, bottom, left_) := o_borders o in
  let bw := qrBlockWidth o in
  let w := wrap (mwidth m * bw + left_ + right_) in
  let h := wrap (mheight m * bw + top + bottom) in
  let '(bg, o) := backgroundColor o in
  let halftone := match o_halftone o with Some i => Some (scale i (wrap (mwidth m * 3))) | None => None end in
  let '(logoValid, logoWidth, logoHeight) := logo_info_bits o w h in
  let active := logoValid && o_safeZone o in
  let safe x y := active && blockOverlapsLogo_bits x y bw left_ top w h logoWidth logoHeight in
  let bitMap := if active then m_iter IterDirection_ROW m (clear_cell safe) (Some (m_bitmap m)) else Some (m_bitmap m) in
  match bitMap with
  | None => None
  | Some bitMap =>
    let '(calls, o) := m_iter IterDirection_ROW m (draw_module_bits halftone bitMap safe bw left_ top) ([], o) in
    let logo := match o_logo o with
                | Some i => if logoValid then Some (i, Z.quot (wrap (w - logoWidth)) 2, Z.quot (wrap (h - logoHeight)) 2) else None
                | None => None
                end in
    Some (mkPlan w h bg logo calls o)
  end.

(* image.NewRGBA, image.NewPaletted of image.Rect(0, 0, w, h) with 4 or 1 bytes per pixel (Go's image package: Rect exchanges the
   corners of a negative rectangle, pixelBufferLength panics if the size is negative or the number of bytes, computed with bits.Mul64, does not
   fit an int).
   alloc says whether that many bytes can be had (make panics or the program dies otherwise).  false = panic *)
Definition new_image (alloc : Z -> bool) (bytesPerPixel w h : Z) : bool :=
  let dx := wrap (Z.max 0 w - Z.min 0 w) in
  let dy := wrap (Z.max 0 h - Z.min 0 h) in
  (0 <=? dx) && (0 <=? dy) && (bytesPerPixel * dx <? 2 ^ 64) && (bytesPerPixel * dx * dy <? 2 ^ (w_int - 1)) && alloc (bytesPerPixel * dx * dy).

(* writer.go:105-222 draw, see draw_with.  Simplification: the drawing itself is that of draw_with, which is right for pictures of
   less than 2^25 pixels a side (gg computes in 32-bit numbers of 1/64 pixel).  The size of the picture is its real one. *)
Definition draw_bits (alloc : Z -> bool) (others : shape -> canvas -> call -> canvas) (scale : image -> Z -> Z -> Z -> Z) (m : Matrix) (o : options)
  : option (Z * Z * canvas * options) :=
  let shape_draw := match getShape o with ShapeRectangle => rectangle_draw | s => others s end in
  match draw_plan_bits scale m o with
  | None => None
  | Some p =>
    if new_image alloc 4 (p_w p) (p_h p) then
      let cv := fill_rect blank 0 0 (p_w p) (p_h p) (p_bg p) in
      let cv := fold_left shape_draw (p_calls p) cv in
      let cv := match o_gradient (p_options p) with Some g => apply_gradient cv (o_qrColor (p_options p)) g | None => cv end in
      let cv := match p_logo p with Some (i, x, y) => draw_image cv i x y | None => cv end in
      Some (Z.abs (p_w p), Z.abs (p_h p), cv, p_options p)
    else None
  end.

(* compressed/writer.go:48-86, see compressed_draw.  (x+1)*blockWidth + padding and the like are wrapped once. *)
Definition compressed_draw_bits (alloc : Z -> bool) (padding blockWidth : Z) (m : Matrix) : option paletted :=
  let width := wrap (mwidth m * blockWidth + 2 * padding) in
  if new_image alloc 1 width width then
    let img := NewPaletted width in
    match rectangle 0 0 width width img 0 with
    | None => None
    | Some img =>
      m_iter IterDirection_COLUMN m
        (fun o x y v =>
           match o with
           | None => None
           | Some i =>
             let sx := wrap (x * blockWidth + padding) in
             let sy := wrap (y * blockWidth + padding) in
             let es := wrap ((x + 1) * blockWidth + padding) in
             let ey := wrap ((y + 1) * blockWidth + padding) in
             if qrbool v then rectangle sx sy es ey i 1 else Some i
           end) (Some img)
    end
  else None.
End Width.
