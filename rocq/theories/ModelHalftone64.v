(* Model of the drawing loop of /repo/writer/standard/writer.go with the coordinates in float64, as the program has them: the third of a
   block, int(halftoneW), ctx.x + float64(i)*halftoneW, and what image_qr_shape.go and gg make of them.  ModelStandard.v has exact thirds
   instead; PropsHalftone64.v compares the two.  Every operation is followed by a rounding [rnd] (round64 of ModelFloat.v); a compiler may
   leave out the rounding of the product in ctx.x + float64(i)*halftoneW ([fused]).  Qred makes equal numbers identical.
   The rest of draw (sizes, safe zone, colours, gradient, logo) is that of ModelStandard.v. *)
From Coq Require Import QArith.
From Verif Require Import ModelBase ModelMatrix ModelFloat ModelStandard ModelExample.
Open Scope Z_scope.

(* a DrawContext: image_qr_shape.go:24-33 *)
Record call_f := mkCallF { f_finder : bool; f_x : Q; f_y : Q; f_w : Z; f_h : Z; f_color : rgba; f_neighbours : Z }.

Section Float.
  Context (rnd : Q -> Q) (fused : bool).
  (* a number as the program keeps it *)
  Definition keep (q : Q) : Q := Qred (rnd q).

  (* writer.go:134 halftoneW = float64(opt.qrBlockWidth()) / 3.0 *)
  Definition halftoneW (block : Z) : Q := keep (keep (inject_Z block) / 3).
  (* writer.go:203 ctx.x + float64(i)*halftoneW *)
  Definition sub_at (x : Q) (i : Z) (hw : Q) : Q := if fused then keep (x + keep (inject_Z i) * hw) else keep (x + keep (keep (inject_Z i) * hw)).

  (* writer.go:195-213 *)
  Definition halftone_calls_f (grey : Z -> Z -> Z) (transparent : bool) (block x y : Z) (cx cy : Q) (color : rgba) : list call_f :=
    let hw := halftoneW block in
    flat_map (fun i => map (fun j =>
        mkCallF false (sub_at cx i hw) (sub_at cy j hw) (to_int hw) (to_int hw)
                (if (i =? 1) && (j =? 1) then color else halftoneColor (grey (x * 3 + i) (y * 3 + j)) transparent) 0)
      (zseq 0 3)) (zseq 0 3).

  (* writer.go:169-217: the callback that draws module (x, y) *)
  Definition draw_module_f (halftone : option (Z -> Z -> Z)) (bitMap : list (list bool)) (safe : Z -> Z -> bool) (bw left_ top : Z)
      (s : list call_f * options) (x y v : Z) : list call_f * options :=
    let '(calls, o) := s in
    if safe x y && qrbool v then (calls, o)
    else
      let cx := keep (inject_Z (x * bw + left_)) in
      let cy := keep (inject_Z (y * bw + top)) in
      let '(color, o) := translateToRGBA o v in
      let nb := getNeighbours bitMap x y in
      let plain finder := [mkCallF finder cx cy bw bw color nb] in
      let now :=
        if qrtype v =? QRType_FINDER then plain true
        else if qrtype v =? QRType_DATA then
          match halftone with
          | None => plain false
          | Some grey => halftone_calls_f grey (o_bgTransparent o) bw x y cx cy color
          end
        else plain false in
      (calls ++ now, o).

  (* writer.go:105-222 draw; s is the shape.  As ModelStandard.draw_plan and draw_with *)
  Definition draw_f (s : canvas -> call_f -> canvas) (scale : image -> Z -> Z -> Z -> Z) (m : Matrix) (o : options)
    : option (Z * Z * canvas * options) :=
    let '(top, right_, bottom, left_) := o_borders o in
    let bw := qrBlockWidth o in
    let w := mwidth m * bw + left_ + right_ in
    let h := mheight m * bw + top + bottom in
    let '(bg, o) := backgroundColor o in
    let halftone := match o_halftone o with Some i => Some (scale i (mwidth m * 3)) | None => None end in
    let '(logoValid, logoWidth, logoHeight) := logo_info o w h in
    let active := logoValid && o_safeZone o in
    let safe x y := active && blockOverlapsLogo x y bw left_ top w h logoWidth logoHeight in
    let bitMap := if active then m_iter IterDirection_ROW m (clear_cell safe) (Some (m_bitmap m)) else Some (m_bitmap m) in
    match bitMap with
    | None => None
    | Some bitMap =>
      let '(calls, o) := m_iter IterDirection_ROW m (draw_module_f halftone bitMap safe bw left_ top) ([], o) in
      let cv := fill_rect blank 0 0 w h bg in
      let cv := fold_left s calls cv in
      let cv := match o_gradient o with Some g => apply_gradient cv (o_qrColor o) g | None => cv end in
      let cv := match o_logo o with
                | Some i => if logoValid then draw_image cv i (Z.quot (w - logoWidth) 2) (Z.quot (h - logoHeight) 2) else cv
                | None => cv end in
      Some (Z.abs w, Z.abs h, cv, o)
    end.

  (* ---- gg ---- *)
  (* fix: Int26_6(v * 64), truncating *)
  Definition fix_f (v : Q) : Z := to_int (keep (v * 64)).
  (* image_qr_shape.go:77-87 rectangle: DrawRectangle(x, y, float64(w), float64(h)) has the corners x, x+w, y, y+h; coverage of the
     pixels as in ModelStandard.rectangle_draw *)
  Definition area_f (k : call_f) (px py : Z) : Z :=
    overlap64 (fix_f (f_x k)) (fix_f (keep (f_x k + keep (inject_Z (f_w k))))) px *
    overlap64 (fix_f (f_y k)) (fix_f (keep (f_y k + keep (inject_Z (f_h k))))) py.
  Definition rectangle_f (cv : canvas) (k : call_f) : canvas :=
    fun px py => if area_f k px py =? 0 then cv px py else over_at (area_alpha (area_f k px py)) (cv px py) (f_color k).

  (* image_qr_shape.go:90-107 circle: the centre is (x + float64(w)/2.0, y + float64(h)/2.0), the radius a whole number; which pixels
     are certainly covered or missed is said as in ModelStandard.circle_draw *)
  Definition radius_f (k : call_f) : Z := let radius := Z.quot (f_w k) 2 in let r2 := Z.quot (f_h k) 2 in if r2 <=? radius then r2 else radius.
  Definition centre_x (k : call_f) : Q := keep (f_x k + keep (keep (inject_Z (f_w k)) / 2)).
  Definition centre_y (k : call_f) : Q := keep (f_y k + keep (keep (inject_Z (f_h k)) / 2)).
  Definition inside_f (k : call_f) (px py : Z) : bool :=
    forallb (fun '(dx, dy) => let u := (inject_Z (px + dx) - centre_x k)%Q in let v := (inject_Z (py + dy) - centre_y k)%Q in
               Qle_bool (u * u + v * v) ((81 # 100) * inject_Z (radius_f k * radius_f k))) [(0, 0); (1, 0); (0, 1); (1, 1)].
  (* the part of a coordinate by which the pixel at p lies beyond c *)
  Definition beyond (p : Z) (c : Q) : Q :=
    if Qle_bool c (inject_Z p) then (inject_Z p - c)%Q else if Qle_bool (inject_Z (p + 1)) c then (c - inject_Z (p + 1))%Q else 0%Q.
  Definition outside_f (k : call_f) (px py : Z) : bool :=
    let r := inject_Z (radius_f k) in
    Qle_bool (inject_Z (px + 1)) (centre_x k - r) || Qle_bool (centre_x k + r) (inject_Z px) ||
    Qle_bool (inject_Z (py + 1)) (centre_y k - r) || Qle_bool (centre_y k + r) (inject_Z py) ||
    let u := beyond px (centre_x k) in let v := beyond py (centre_y k) in
    Qle_bool ((121 # 100) * inject_Z (radius_f k * radius_f k)) (u * u + v * v).
  Definition circle_f (edge : call_f -> Z -> Z -> rgba -> rgba) (cv : canvas) (k : call_f) : canvas :=
    fun px py => if (radius_f k =? 0) || outside_f k px py then cv px py
                 else if inside_f k px py then over (cv px py) (f_color k)
                 else edge k px py (cv px py).
End Float.
