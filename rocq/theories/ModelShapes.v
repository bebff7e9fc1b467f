(* Model of /repo/writer/standard/shapes: blocks.go, finders.go, constructor.go.
   Simplifications: float64 arithmetic is exact (rational numbers); of what gg fills, the model is exact where a pixel lies wholly
   inside or wholly outside (see [full], [none]); how much of another pixel is covered is the parameter [cover]. *)
From Verif Require Import ModelBase ModelStandard.
From Coq Require Import QArith.
Open Scope Z_scope.

Definition pt : Type := Q * Q.

(* A piece of a gg path.
   Rect x y w h: DrawRectangle.  Disc cx cy r: DrawCircle.
   Curve points core: a path of lines and quadratic curves, given by all its points, the control points included (the path lies in
   their convex hull), and by a convex polygon which it encloses, clockwise (a list of corners; empty if the model has no use for it).
   gg draws rectangles and circles clockwise, so in a path of several such pieces (winding rule) the pieces add up. *)
Inductive piece := Rect (x y w h : Q) | Disc (cx cy r : Q) | Curve (points core : list pt).

Definition qpx (p : Z) : Q := inject_Z p.
Definition corners_of (px py : Z) : list pt := [(qpx px, qpx py); (qpx px + 1, qpx py); (qpx px, qpx py + 1); (qpx px + 1, qpx py + 1)]%Q.

(* all of [ps] lies on the left of, or on, the line from a to b, going clockwise (y grows downwards) *)
Definition on_side (a b : pt) (p : pt) : bool := Qle_bool 0 ((fst b - fst a) * (snd p - snd a) - (snd b - snd a) * (fst p - fst a)).
Definition edges (core : list pt) : list (pt * pt) := match core with a :: r => combine core (r ++ [a]) | [] => [] end.
Definition in_polygon (core : list pt) (p : pt) : bool := match core with [] => false | _ => forallb (fun '(a, b) => on_side a b p) (edges core) end.

(* a direction in which all points of the path come before the pixel *)
Definition directions : list pt := [(1, 0); (-1, 0); (0, 1); (0, -1); (1, 1); (1, -1); (-1, 1); (-1, -1)]%Q.
Definition along_dir (d p : pt) : Q := (fst d * fst p + snd d * snd p)%Q.
Definition separated (points : list pt) (px py : Z) : bool :=
  existsb (fun d => forallb (fun p => forallb (fun c => Qle_bool (along_dir d p) (along_dir d c)) (corners_of px py)) points) directions.

(* the pixel is wholly inside.  Circles: gg approximates them by 16 arcs, so the model only counts what is within 9/10 of the radius *)
Definition full (g : piece) (px py : Z) : bool :=
  match g with
  | Rect x y w h => Qle_bool x (qpx px) && Qle_bool (qpx px + 1) (x + w) && Qle_bool y (qpx py) && Qle_bool (qpx py + 1) (y + h)
  | Disc cx cy r => forallb (fun '(u, v) => Qle_bool (100 * ((u - cx) * (u - cx) + (v - cy) * (v - cy))) (81 * (r * r))) (corners_of px py)
  | Curve _ core => forallb (in_polygon core) (corners_of px py)
  end.
(* the pixel is wholly outside *)
Definition none (g : piece) (px py : Z) : bool :=
  match g with
  | Rect x y w h => Qle_bool (qpx px + 1) x || Qle_bool (x + w) (qpx px) || Qle_bool (qpx py + 1) y || Qle_bool (y + h) (qpx py)
  | Disc cx cy r => Qle_bool (qpx px + 1) (cx - r) || Qle_bool (cx + r) (qpx px) || Qle_bool (qpx py + 1) (cy - r) || Qle_bool (cy + r) (qpx py)
  | Curve points _ => separated points px py
  end.

(* the calls on the gg.Context: add to the path; Fill, which also clears the path *)
Inductive op := Add (g : piece) | Fill.

Section Paint.
  (* the coverage of a pixel by a path, as the rasterizer's 16-bit alpha *)
  Context (cover : list piece -> Z -> Z -> Z).

  (* one Fill with the colour set before *)
  Definition fill_path (path : list piece) (color : rgba) (cv : canvas) : canvas :=
    fun px py => if forallb (fun g => none g px py) path then cv px py
                 else if existsb (fun g => full g px py) path then over (cv px py) color
                 else over_at (Z.max 0 (Z.min 65535 (cover path px py))) (cv px py) color.

  Fixpoint run_ops (ops : list op) (path : list piece) (color : rgba) (cv : canvas) : canvas :=
    match ops with
    | [] => cv                       (* what is left of the path stays in the context; all the shapes end with Fill *)
    | Add g :: r => run_ops r (path ++ [g]) color cv
    | Fill :: r => run_ops r [] color (fill_path path color cv)
    end.

  (* a drawing function func(ctx *standard.DrawContext) by the calls it makes, after ctx.SetColor(ctx.Color()) *)
  Definition drawing := call -> list op.
  Definition draw_ops (f : drawing) (cv : canvas) (k : call) : canvas := run_ops (f k) [] (k_color k) cv.

  (* constructor.go:10-32 ComposableShape, Assemble *)
  Definition Assemble (drawFinder drawBlock : drawing) (cv : canvas) (k : call) : canvas :=
    draw_ops (if k_finder k then drawFinder else drawBlock) cv k.
End Paint.

(* constructor.go:36-38 *)
Definition has (mask bits : Z) : bool := Z.land mask bits =? bits.
Definition bits (l : list Z) : Z := fold_left Z.lor l 0.

(* UpperLeft and Edge: image_qr_shape.go:34-41 *)
Definition ul_x (k : call) : Q := (inject_Z (k_x k) + inject_Z (k_tx k) / 3)%Q.
Definition ul_y (k : call) : Q := (inject_Z (k_y k) + inject_Z (k_ty k) / 3)%Q.
Definition edge_w (k : call) : Q := inject_Z (k_w k).
Definition edge_h (k : call) : Q := inject_Z (k_h k).
Definition when (b : bool) (l : list op) : list op := if b then l else [].
Definition rect (x y w h : Q) : list op := [Add (Rect x y w h); Fill].

(* blocks.go:9-119 LiquidBlock *)
Definition LiquidBlock : drawing := fun k =>
  let fw := edge_w k in let fh := edge_h k in let x := ul_x k in let y := ul_y k in
  (let cx := x + fw / 2 in let cy := y + fh / 2 in let r := fw / 2 in let l := fw / 2 in
  let AngTopRight := Curve [(cx, cy + r); (cx - r, cy); (cx - r, y); (cx + r, y - l); (cx + r, cy - r); (x + fw + l, cy - r); (x + fw, cy + r)] [] in
  let AngTopLeft := Curve [(cx, cy + r); (cx + r, cy); (cx + r, y - l); (cx - r, y - l); (cx - r, cy - r); (x - l, cy - r); (x - l, cy + r)] [] in
  let AngBotLeft := Curve [(cx, cy - r); (cx + r, cy); (cx + r, y + fh + l); (cx - r, y + fh + l); (cx - r, cy + r); (x - l, cy + r); (x - l, cy - r)] [] in
  let AngBotRight := Curve [(cx, cy - r); (cx - r, cy); (cx - r, y + fh + l); (cx + r, y + fh + l); (cx + r, cy + r); (x + fw + l, cy + r); (x + fw, cy - r)] [] in
  let mask := k_neighbours k in
  (if mask =? bits [NRight; NSelf] then rect cx (cy - r) (fw / 2) (2 * r)
   else if mask =? bits [NTop; NSelf] then rect (cx - r) y (2 * r) (fh / 2)
   else if mask =? bits [NLeft; NSelf] then rect x (cy - r) (fw / 2) (2 * r)
   else if mask =? bits [NBot; NSelf] then rect (cx - r) (y + fh / 2) (2 * r) (fh / 2)
   else if mask =? bits [NLeft; NSelf; NRight] then rect (x - fw / 2) (cy - r) (2 * fw) (2 * r)
   else []) ++
  when (has mask (bits [NLeft; NSelf; NRight])) (rect (x - fw / 2) (cy - r) (2 * fw) (2 * r)) ++
  when (has mask (bits [NTop; NSelf; NBot])) (rect (cx - r) (y - fh / 2) (2 * r) (2 * fh)) ++
  when (has mask (bits [NLeft; NSelf])) (rect x (cy - r) (fw / 2) (2 * r)) ++
  when (has mask (bits [NSelf; NRight])) (rect cx (cy - r) (fw / 2) (2 * r)) ++
  when (has mask (bits [NSelf; NTop])) (rect (cx - r) y (2 * r) (fh / 2)) ++
  when (has mask (bits [NSelf; NBot])) (rect (cx - r) (y + fh / 2) (2 * r) (fh / 2)) ++
  when (has mask (bits [NBot; NRight; NSelf]) && (Z.land mask NBotRight =? 0)) [Add AngBotRight; Fill] ++
  when (has mask (bits [NBot; NLeft; NSelf]) && (Z.land mask NBotLeft =? 0)) [Add AngBotLeft; Fill] ++
  when (has mask (bits [NTop; NLeft; NSelf]) && (Z.land mask NTopLeft =? 0)) [Add AngTopLeft; Fill] ++
  when (has mask (bits [NTop; NRight; NSelf]) && (Z.land mask NTopRight =? 0)) [Add AngTopRight; Fill] ++
  [Add (Disc cx cy r); Fill])%Q.

(* blocks.go:125-156 HStripeBlock: the parameter is checked but not used *)
Definition stripe_ratio (stripeRatio : Q) : Q := if negb (Qle_bool (6 # 10) stripeRatio) || negb (Qle_bool stripeRatio 1) then 85 # 100 else stripeRatio.
Definition HStripeBlock (stripeRatio : Q) : drawing := fun k =>
  let fw := edge_w k in let fh := edge_h k in let x := ul_x k in let y := ul_y k in
  (let cx := x + fw / 2 in let cy := y + fh / 2 in let r := fw * (9 # 10) / 2 in
  let mask := k_neighbours k in
  [Add (Disc cx cy r)] ++
  when (has mask (bits [NLeft; NSelf])) (rect x (cy - r) (fw / 2) (2 * r)) ++
  when (has mask (bits [NRight; NSelf])) (rect cx (cy - r) (fw / 2) (2 * r)) ++
  [Fill])%Q.

(* blocks.go:162-195 VStripeBlock *)
Definition VStripeBlock (stripeRatio : Q) : drawing := fun k =>
  let fw := edge_w k in let fh := edge_h k in let x := ul_x k in let y := ul_y k in
  (let cx := x + fw / 2 in let cy := y + fh / 2 in let r := fw * stripe_ratio stripeRatio / 2 in
  let mask := k_neighbours k in
  [Add (Disc cx cy r)] ++
  when (has mask (bits [NTop; NSelf])) (rect (cx - r) y (2 * r) (fh / 2)) ++
  when (has mask (bits [NBot; NSelf])) (rect (cx - r) cy (2 * r) (fh / 2)) ++
  [Fill])%Q.

(* blocks.go:199-236 ChainBlock *)
Definition ChainBlock : drawing := fun k =>
  let fw := edge_w k in let fh := edge_h k in let x := ul_x k in let y := ul_y k in
  (let cx := x + fw / 2 in let cy := y + fh / 2 in let r := fw * (9 # 10) / 2 in let l := r * (2 # 10) in
  let mask := k_neighbours k in
  [Add (Disc cx cy r)] ++
  when (has mask (bits [NTop; NSelf])) (rect (cx - l) y (2 * l) (fh / 2)) ++
  when (has mask (bits [NBot; NSelf])) (rect (cx - l) cy (2 * l) (fh / 2)) ++
  when (has mask (bits [NLeft; NSelf])) (rect x (cy - l) (fw / 2) (2 * l)) ++
  when (has mask (bits [NRight; NSelf])) (rect cx (cy - l) (fw / 2) (2 * l)) ++
  [Fill])%Q.

(* blocks.go:241-272 VChainBlock *)
Definition VChainBlock : drawing := fun k =>
  let fw := edge_w k in let fh := edge_h k in let x := ul_x k in let y := ul_y k in
  (let cx := x + fw / 2 in let cy := y + fh / 2 in let r := fw * (85 # 100) / 2 in let l := r * (2 # 10) in
  let mask := k_neighbours k in
  [Add (Disc cx cy r)] ++
  when (has mask (bits [NTop; NSelf])) (rect (cx - l) y (2 * l) (fh / 2)) ++
  when (has mask (bits [NBot; NSelf])) (rect (cx - l) cy (2 * l) (fh / 2)) ++
  [Fill])%Q.

(* blocks.go:277-308 HChainBlock *)
Definition HChainBlock : drawing := fun k =>
  let fw := edge_w k in let fh := edge_h k in let x := ul_x k in let y := ul_y k in
  (let cx := x + fw / 2 in let cy := y + fh / 2 in let r := fw * (85 # 100) / 2 in let l := r * (2 # 10) in
  let mask := k_neighbours k in
  [Add (Disc cx cy r)] ++
  when (has mask (bits [NLeft; NSelf])) (rect x (cy - l) (fw / 2) (2 * l)) ++
  when (has mask (bits [NRight; NSelf])) (rect cx (cy - l) (fw / 2) (2 * l)) ++
  [Fill])%Q.

(* blocks.go:313-331 SquareBlocks *)
Definition block_size (size : Q) : Q := if negb (Qle_bool (1 # 10) size) || negb (Qle_bool size 1) then 1 else size.
Definition SquareBlocks (size : Q) : drawing := fun k =>
  let fw0 := edge_w k in let fh0 := edge_h k in let x0 := ul_x k in let y0 := ul_y k in
  (let cx := x0 + fw0 / 2 in let cy := y0 + fh0 / 2 in
  let fw := fw0 * block_size size in let fh := fh0 * block_size size in
  rect (cx - fw / 2) (cy - fh / 2) fw fh)%Q.

(* blocks.go:333-350 CircleBlocks *)
Definition CircleBlocks (size : Q) : drawing := fun k =>
  let fw0 := edge_w k in let fh0 := edge_h k in let x0 := ul_x k in let y0 := ul_y k in
  (let cx := x0 + fw0 / 2 in let cy := y0 + fh0 / 2 in
  [Add (Disc cx cy (fw0 / 2 * block_size size)); Fill])%Q.

(* finders.go:7-78 RoundedFinder.  The core of a corner: the chord polygon of its outer curve; of the curve from s to e with control
   point c the point half way is (s + 2c + e) / 4 *)
Definition RoundedFinder : drawing := fun k =>
  let fw := edge_w k in let fh := edge_h k in let x := ul_x k in let y := ul_y k in
  (let lw := fw / 2 in let lh := fh / 2 in
  let mask := k_neighbours k in
  if negb (Z.land mask NSelf =? NSelf) then []
  else
    let core_tr := [(x, y); (x + 3 * fw / 4, y + fh / 4); (x + fw, y + fh); (x, y + fh)] in
    let core_tl := [(x, y + fh); (x + fw / 4, y + fh / 4); (x + fw, y); (x + fw, y + fh)] in
    let core_bl := [(x + fw, y); (x + fw, y + fh); (x + fw / 4, y + 3 * fh / 4); (x, y)] in
    let core_br := [(x, y); (x + fw, y); (x + 3 * fw / 4, y + 3 * fh / 4); (x, y + fh)] in
    (if mask =? bits [NSelf; NBot; NLeft] then
       [Add (Curve [(x, y); (x + fw, y); (x + fw, y + fh); (x, y + fh + lh); (x, y + fh); (x - lw, y + fh)] core_tr)]
     else if mask =? bits [NSelf; NBot; NLeft; NBotLeft] then
       [Add (Curve [(x, y); (x + fw, y); (x + fw, y + fh); (x, y + fh)] core_tr)]
     else if mask =? bits [NSelf; NBot; NRight] then
       [Add (Curve [(x, y + fh); (x, y); (x + fw, y); (x + fw + lw, y + fh); (x + fw, y + fh); (x + fw, y + fh + lh)] core_tl)]
     else if mask =? bits [NSelf; NBot; NRight; NBotRight] then
       [Add (Curve [(x, y + fh); (x, y); (x + fw, y); (x + fw, y + fh)] core_tl)]
     else if mask =? bits [NSelf; NTop; NRight] then
       [Add (Curve [(x, y); (x, y + fh); (x + fw, y + fh); (x + fw + lw, y); (x + fw, y); (x + fw, y - lh)] core_bl)]
     else if mask =? bits [NSelf; NTop; NRight; NTopRight] then
       [Add (Curve [(x, y); (x, y + fh); (x + fw, y + fh); (x + fw, y)] core_bl)]
     else if mask =? bits [NSelf; NTop; NLeft] then
       [Add (Curve [(x, y + fh); (x + fw, y + fh); (x + fw, y); (x, y - lh); (x, y); (x - lw, y)] core_br)]
     else if mask =? bits [NSelf; NTop; NLeft; NTopLeft] then
       [Add (Curve [(x, y + fh); (x + fw, y + fh); (x + fw, y); (x, y)] core_br); Fill]
     else [Add (Rect x y fw fh)]) ++ [Fill])%Q.

(* finders.go:81-92 SquareFinder *)
Definition SquareFinder : drawing := fun k => rect (ul_x k) (ul_y k) (edge_w k) (edge_h k).
