(* Several goroutines draw at once with the same options (Writers copied from one another, or one Writer used by all):
   /repo/writer/standard/writer.go:105-222, /repo/writer/standard/image_option.go:70-80, 137-158.  The options are shared through a
   pointer; drawing reads them and, with WithBgTransparent, assigns the channels of the background colour.  Here every load and every
   store of one channel is a step; everything else a goroutine does while drawing touches only its own canvas, so what it draws is
   a function of the bytes it has loaded.  There is no synchronisation between the goroutines.
   Simplification: a copy of the colour (return oo.bgColor) loads R, G, B, A in this order; a machine may load several at once, which
   is one of the interleavings here. *)
From Verif Require Import ModelBase ModelMatrix ModelStandard.

Inductive channel := ChR | ChG | ChB | ChA.
Inductive access := Store (c : channel) | Load (c : channel).      (* every store of the program stores 0 *)

Definition chan (c : channel) (k : rgba) : Z := match c with ChR => c_r k | ChG => c_g k | ChB => c_b k | ChA => c_a k end.
Definition zero (c : channel) (k : rgba) : rgba :=
  match c with
  | ChR => mkRGBA 0 (c_g k) (c_b k) (c_a k)
  | ChG => mkRGBA (c_r k) 0 (c_b k) (c_a k)
  | ChB => mkRGBA (c_r k) (c_g k) 0 (c_a k)
  | ChA => mkRGBA (c_r k) (c_g k) (c_b k) 0
  end.

Definition copy_colour : list access := [Load ChR; Load ChG; Load ChB; Load ChA].
(* image_option.go:70-80 backgroundColor *)
Definition background_accesses (transparent : bool) : list access := (if transparent then [Store ChA] else []) ++ copy_colour.
(* image_option.go:139-158 translateToRGBA on a light module *)
Definition light_accesses (transparent : bool) : list access :=
  (if transparent then [Store ChA; Store ChR; Store ChG; Store ChB] else []) ++ copy_colour.

(* writer.go:134-151: the part of the image that belongs to the logo *)
Definition safe_of (m : Matrix) (o : options) : Z -> Z -> bool :=
  let '(top, right_, bottom, left_) := o_borders o in
  let bw := qrBlockWidth o in
  let w := mwidth m * bw + left_ + right_ in
  let h := mheight m * bw + top + bottom in
  let '(logoValid, logoWidth, logoHeight) := logo_info o w h in
  fun x y => (logoValid && o_safeZone o) && blockOverlapsLogo x y bw left_ top w h logoWidth logoHeight.

(* writer.go:161-175: what drawing module (x, y) does to the shared colour *)
Definition module_accesses (transparent : bool) (safe : Z -> Z -> bool) (x y v : Z) : list access :=
  if safe x y && qrbool v then [] else if qrbool v then [] else light_accesses transparent.
(* writer.go:105-222: all of draw *)
Definition paint_accesses (m : Matrix) (o : options) : list access :=
  background_accesses (o_bgTransparent o) ++
  m_iter IterDirection_ROW m (fun l x y v => l ++ module_accesses (o_bgTransparent o) (safe_of m o) x y v) [].

(* a goroutine: the accesses it still has to make, the bytes it has loaded *)
Record painter := mkPainter { pt_left : list access; pt_bytes : list Z }.
Record studio := mkStudio { st_bg : rgba; st_painters : list painter; st_trace : list (nat * access) }.

(* goroutine i makes its next access *)
Definition paint_step (s : studio) (i : nat) : studio :=
  match nth_error (st_painters s) i with
  | Some (mkPainter (Store c :: r) bs) => mkStudio (zero c (st_bg s)) (upd_nat (st_painters s) i (mkPainter r bs)) (st_trace s ++ [(i, Store c)])
  | Some (mkPainter (Load c :: r) bs) => mkStudio (st_bg s) (upd_nat (st_painters s) i (mkPainter r (bs ++ [chan c (st_bg s)]))) (st_trace s ++ [(i, Load c)])
  | Some (mkPainter [] _) | None => s
  end.
Definition paint_run (s : studio) (sched : list nat) : studio := fold_left paint_step sched s.
(* goroutine i starts to draw ms[i] *)
Definition paint_start (o : options) (ms : list Matrix) : studio :=
  mkStudio (o_bgColor o) (map (fun m => mkPainter (paint_accesses m o) []) ms) [].

(* the colour made of the next four bytes loaded *)
Definition next_colour (bs : list Z) : rgba * list Z :=
  match bs with
  | r :: g :: b :: a :: rest => (mkRGBA r g b a, rest)
  | _ => (mkRGBA 0 0 0 0, [])
  end.
(* draw_module of ModelStandard.v, the colour taken from the bytes loaded *)
Definition paint_one (o : options) (halftone : option (Z -> Z -> Z)) (bitMap : list (list bool)) (safe : Z -> Z -> bool) (bw left_ top : Z)
    (s : list call * list Z) (x y v : Z) : list call * list Z :=
  let '(calls, bs) := s in
  if safe x y && qrbool v then (calls, bs)
  else
    let cx := x * bw + left_ in
    let cy := y * bw + top in
    let '(color, bs) := if qrbool v then (o_qrColor o, bs) else next_colour bs in
    let nb := getNeighbours bitMap x y in
    let plain finder := [mkCall finder cx 0 cy 0 bw bw color nb] in
    let now :=
      if qrtype v =? QRType_FINDER then plain true
      else if qrtype v =? QRType_DATA then
        match halftone with
        | None => plain false
        | Some grey => halftone_calls grey (o_bgTransparent o) bw x y cx cy color
        end
      else plain false in
    (calls ++ now, bs).
(* draw_plan of ModelStandard.v, the colours taken from the bytes loaded; the options in the result are the ones given *)
Definition paint_plan (scale : image -> Z -> Z -> Z -> Z) (m : Matrix) (o : options) (bytes : list Z) : option plan :=
  let '(top, right_, bottom, left_) := o_borders o in
  let bw := qrBlockWidth o in
  let w := mwidth m * bw + left_ + right_ in
  let h := mheight m * bw + top + bottom in
  let '(bg, bytes) := next_colour bytes in
  let halftone := match o_halftone o with Some i => Some (scale i (mwidth m * 3)) | None => None end in
  let '(logoValid, logoWidth, logoHeight) := logo_info o w h in
  let active := logoValid && o_safeZone o in
  let safe x y := active && blockOverlapsLogo x y bw left_ top w h logoWidth logoHeight in
  let bitMap := if active then m_iter IterDirection_ROW m (clear_cell safe) (Some (m_bitmap m)) else Some (m_bitmap m) in
  match bitMap with
  | None => None
  | Some bitMap =>
    let '(calls, _) := m_iter IterDirection_ROW m (paint_one o halftone bitMap safe bw left_ top) ([], bytes) in
    let logo := match o_logo o with
                | Some i => if logoValid then Some (i, Z.quot (w - logoWidth) 2, Z.quot (h - logoHeight) 2) else None
                | None => None
                end in
    Some (mkPlan w h bg logo calls o)
  end.
(* the picture of a goroutine that has loaded these bytes: draw_with of ModelStandard.v *)
Definition painted (others : shape -> canvas -> call -> canvas) (scale : image -> Z -> Z -> Z -> Z) (m : Matrix) (o : options) (bytes : list Z)
  : option (Z * Z * canvas) :=
  let shape_draw := match getShape o with ShapeRectangle => rectangle_draw | s => others s end in
  match paint_plan scale m o bytes with
  | None => None
  | Some p =>
    let cv := fill_rect blank 0 0 (p_w p) (p_h p) (p_bg p) in
    let cv := fold_left shape_draw (p_calls p) cv in
    let cv := match o_gradient o with Some g => apply_gradient cv (o_qrColor o) g | None => cv end in
    let cv := match p_logo p with Some (i, x, y) => draw_image cv i x y | None => cv end in
    Some (Z.abs (p_w p), Z.abs (p_h p), cv)
  end.
