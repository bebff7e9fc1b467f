(* Model of /repo/writer/standard/shapes: blocks.go, finders.go, with float64 arithmetic: every operation is followed by a rounding
   [rnd] (round64 of ModelFloat for IEEE 754), the decimal numbers of the source are rounded too.  The pieces of a path, and what a
   Fill does with them, are those of ModelShapes.v; the corners of a rectangle are the rounded ones gg works with.
   Where the source has a sum with a product in it, compilers may leave out the rounding of the product: that changes nothing where the
   product is a half or a double of something (no rounding is needed for those), and it does for l = r*0.2 in cx-l: [fused] says whether.
   Simplifications: stripeRatio and size are numbers, not NaN or an infinity; the calls are those made without a halftone picture
   (k_tx and k_ty are 0, so that x and y are whole numbers). *)
From Coq Require Import QArith.
From Verif Require Import ModelBase ModelStandard ModelFloat ModelShapes.
Open Scope Z_scope.

Section Float.
  Context (rnd : Q -> Q) (fused : bool).
  Definition fadd (a b : Q) : Q := rnd (a + b).
  Definition fsub (a b : Q) : Q := rnd (a - b).
  Definition fmul (a b : Q) : Q := rnd (a * b).
  Definition fdiv (a b : Q) : Q := rnd (a / b).
  Definition lit (q : Q) : Q := rnd q.

  (* gg's DrawRectangle(x, y, w, h): the corners are x, y, x+w, y+h *)
  Definition rect64 (x y w h : Q) : piece := Rect x y (fadd x w - x) (fadd y h - y).
  Definition drawRect64 (x y w h : Q) : list op := [ModelShapes.Add (rect64 x y w h); Fill].

  (* UpperLeft and Edge, converted: image_qr_shape.go:34-41, writer.go:179-180 *)
  Definition ul_x64 (k : call) : Q := rnd (inject_Z (k_x k)).
  Definition ul_y64 (k : call) : Q := rnd (inject_Z (k_y k)).
  Definition edge_w64 (k : call) : Q := rnd (inject_Z (k_w k)).
  Definition edge_h64 (k : call) : Q := rnd (inject_Z (k_h k)).
  (* cx-l, cy-l where l is r*0.2 *)
  Definition minus_link (c r : Q) : Q := if fused then rnd (c - r * lit (2 # 10)) else fsub c (fmul r (lit (2 # 10))).

  (* blocks.go:9-119 LiquidBlock *)
  Definition LiquidBlock64 : drawing := fun k =>
    let fw := edge_w64 k in let fh := edge_h64 k in let x := ul_x64 k in let y := ul_y64 k in
    let cx := fadd x (fdiv fw 2) in let cy := fadd y (fdiv fh 2) in let r := fdiv fw 2 in let l := fdiv fw 2 in
    let AngTopRight := Curve [(cx, fadd cy r); (fsub cx r, cy); (fsub cx r, y); (fadd cx r, fsub y l); (fadd cx r, fsub cy r);
                              (fadd (fadd x fw) l, fsub cy r); (fadd x fw, fadd cy r)] [] in
    let AngTopLeft := Curve [(cx, fadd cy r); (fadd cx r, cy); (fadd cx r, fsub y l); (fsub cx r, fsub y l); (fsub cx r, fsub cy r);
                             (fsub x l, fsub cy r); (fsub x l, fadd cy r)] [] in
    let AngBotLeft := Curve [(cx, fsub cy r); (fadd cx r, cy); (fadd cx r, fadd (fadd y fh) l); (fsub cx r, fadd (fadd y fh) l); (fsub cx r, fadd cy r);
                             (fsub x l, fadd cy r); (fsub x l, fsub cy r)] [] in
    let AngBotRight := Curve [(cx, fsub cy r); (fsub cx r, cy); (fsub cx r, fadd (fadd y fh) l); (fadd cx r, fadd (fadd y fh) l); (fadd cx r, fadd cy r);
                              (fadd (fadd x fw) l, fadd cy r); (fadd x fw, fsub cy r)] [] in
    let mask := k_neighbours k in
    (if mask =? bits [NRight; NSelf] then drawRect64 cx (fsub cy r) (fdiv fw 2) (fmul 2 r)
     else if mask =? bits [NTop; NSelf] then drawRect64 (fsub cx r) y (fmul 2 r) (fdiv fh 2)
     else if mask =? bits [NLeft; NSelf] then drawRect64 x (fsub cy r) (fdiv fw 2) (fmul 2 r)
     else if mask =? bits [NBot; NSelf] then drawRect64 (fsub cx r) (fadd y (fdiv fh 2)) (fmul 2 r) (fdiv fh 2)
     else if mask =? bits [NLeft; NSelf; NRight] then drawRect64 (fsub x (fdiv fw 2)) (fsub cy r) (fmul 2 fw) (fmul 2 r)
     else []) ++
    when (has mask (bits [NLeft; NSelf; NRight])) (drawRect64 (fsub x (fdiv fw 2)) (fsub cy r) (fmul 2 fw) (fmul 2 r)) ++
    when (has mask (bits [NTop; NSelf; NBot])) (drawRect64 (fsub cx r) (fsub y (fdiv fh 2)) (fmul 2 r) (fmul 2 fh)) ++
    when (has mask (bits [NLeft; NSelf])) (drawRect64 x (fsub cy r) (fdiv fw 2) (fmul 2 r)) ++
    when (has mask (bits [NSelf; NRight])) (drawRect64 cx (fsub cy r) (fdiv fw 2) (fmul 2 r)) ++
    when (has mask (bits [NSelf; NTop])) (drawRect64 (fsub cx r) y (fmul 2 r) (fdiv fh 2)) ++
    when (has mask (bits [NSelf; NBot])) (drawRect64 (fsub cx r) (fadd y (fdiv fh 2)) (fmul 2 r) (fdiv fh 2)) ++
    when (has mask (bits [NBot; NRight; NSelf]) && (Z.land mask NBotRight =? 0)) [ModelShapes.Add AngBotRight; Fill] ++
    when (has mask (bits [NBot; NLeft; NSelf]) && (Z.land mask NBotLeft =? 0)) [ModelShapes.Add AngBotLeft; Fill] ++
    when (has mask (bits [NTop; NLeft; NSelf]) && (Z.land mask NTopLeft =? 0)) [ModelShapes.Add AngTopLeft; Fill] ++
    when (has mask (bits [NTop; NRight; NSelf]) && (Z.land mask NTopRight =? 0)) [ModelShapes.Add AngTopRight; Fill] ++
    [ModelShapes.Add (Disc cx cy r); Fill].

  (* blocks.go:125-156 HStripeBlock: the parameter is checked but not used *)
  Definition stripe_ratio64 (stripeRatio : Q) : Q :=
    if negb (Qle_bool (lit (6 # 10)) stripeRatio) || negb (Qle_bool stripeRatio 1) then lit (85 # 100) else stripeRatio.
  Definition HStripeBlock64 (stripeRatio : Q) : drawing := fun k =>
    let fw := edge_w64 k in let fh := edge_h64 k in let x := ul_x64 k in let y := ul_y64 k in
    let cx := fadd x (fdiv fw 2) in let cy := fadd y (fdiv fh 2) in let r := fdiv (fmul fw (lit (9 # 10))) 2 in
    let mask := k_neighbours k in
    [ModelShapes.Add (Disc cx cy r)] ++
    when (has mask (bits [NLeft; NSelf])) (drawRect64 x (fsub cy r) (fdiv fw 2) (fmul 2 r)) ++
    when (has mask (bits [NRight; NSelf])) (drawRect64 cx (fsub cy r) (fdiv fw 2) (fmul 2 r)) ++
    [Fill].

  (* blocks.go:162-195 VStripeBlock *)
  Definition VStripeBlock64 (stripeRatio : Q) : drawing := fun k =>
    let fw := edge_w64 k in let fh := edge_h64 k in let x := ul_x64 k in let y := ul_y64 k in
    let cx := fadd x (fdiv fw 2) in let cy := fadd y (fdiv fh 2) in let r := fdiv (fmul fw (stripe_ratio64 stripeRatio)) 2 in
    let mask := k_neighbours k in
    [ModelShapes.Add (Disc cx cy r)] ++
    when (has mask (bits [NTop; NSelf])) (drawRect64 (fsub cx r) y (fmul 2 r) (fdiv fh 2)) ++
    when (has mask (bits [NBot; NSelf])) (drawRect64 (fsub cx r) cy (fmul 2 r) (fdiv fh 2)) ++
    [Fill].

  (* blocks.go:199-236 ChainBlock *)
  Definition ChainBlock64 : drawing := fun k =>
    let fw := edge_w64 k in let fh := edge_h64 k in let x := ul_x64 k in let y := ul_y64 k in
    let cx := fadd x (fdiv fw 2) in let cy := fadd y (fdiv fh 2) in let r := fdiv (fmul fw (lit (9 # 10))) 2 in let l := fmul r (lit (2 # 10)) in
    let mask := k_neighbours k in
    [ModelShapes.Add (Disc cx cy r)] ++
    when (has mask (bits [NTop; NSelf])) (drawRect64 (minus_link cx r) y (fmul 2 l) (fdiv fh 2)) ++
    when (has mask (bits [NBot; NSelf])) (drawRect64 (minus_link cx r) cy (fmul 2 l) (fdiv fh 2)) ++
    when (has mask (bits [NLeft; NSelf])) (drawRect64 x (minus_link cy r) (fdiv fw 2) (fmul 2 l)) ++
    when (has mask (bits [NRight; NSelf])) (drawRect64 cx (minus_link cy r) (fdiv fw 2) (fmul 2 l)) ++
    [Fill].

  (* blocks.go:241-272 VChainBlock *)
  Definition VChainBlock64 : drawing := fun k =>
    let fw := edge_w64 k in let fh := edge_h64 k in let x := ul_x64 k in let y := ul_y64 k in
    let cx := fadd x (fdiv fw 2) in let cy := fadd y (fdiv fh 2) in let r := fdiv (fmul fw (lit (85 # 100))) 2 in let l := fmul r (lit (2 # 10)) in
    let mask := k_neighbours k in
    [ModelShapes.Add (Disc cx cy r)] ++
    when (has mask (bits [NTop; NSelf])) (drawRect64 (minus_link cx r) y (fmul 2 l) (fdiv fh 2)) ++
    when (has mask (bits [NBot; NSelf])) (drawRect64 (minus_link cx r) cy (fmul 2 l) (fdiv fh 2)) ++
    [Fill].

  (* blocks.go:277-308 HChainBlock *)
  Definition HChainBlock64 : drawing := fun k =>
    let fw := edge_w64 k in let fh := edge_h64 k in let x := ul_x64 k in let y := ul_y64 k in
    let cx := fadd x (fdiv fw 2) in let cy := fadd y (fdiv fh 2) in let r := fdiv (fmul fw (lit (85 # 100))) 2 in let l := fmul r (lit (2 # 10)) in
    let mask := k_neighbours k in
    [ModelShapes.Add (Disc cx cy r)] ++
    when (has mask (bits [NLeft; NSelf])) (drawRect64 x (minus_link cy r) (fdiv fw 2) (fmul 2 l)) ++
    when (has mask (bits [NRight; NSelf])) (drawRect64 cx (minus_link cy r) (fdiv fw 2) (fmul 2 l)) ++
    [Fill].

  (* blocks.go:313-331 SquareBlocks *)
  Definition block_size64 (size : Q) : Q := if negb (Qle_bool (lit (1 # 10)) size) || negb (Qle_bool size 1) then 1 else size.
  Definition SquareBlocks64 (size : Q) : drawing := fun k =>
    let fw0 := edge_w64 k in let fh0 := edge_h64 k in let x0 := ul_x64 k in let y0 := ul_y64 k in
    let cx := fadd x0 (fdiv fw0 2) in let cy := fadd y0 (fdiv fh0 2) in
    let fw := fmul fw0 (block_size64 size) in let fh := fmul fh0 (block_size64 size) in
    drawRect64 (fsub cx (fdiv fw 2)) (fsub cy (fdiv fh 2)) fw fh.

  (* blocks.go:333-350 CircleBlocks *)
  Definition CircleBlocks64 (size : Q) : drawing := fun k =>
    let fw0 := edge_w64 k in let fh0 := edge_h64 k in let x0 := ul_x64 k in let y0 := ul_y64 k in
    let cx := fadd x0 (fdiv fw0 2) in let cy := fadd y0 (fdiv fh0 2) in
    [ModelShapes.Add (Disc cx cy (fmul (fdiv fw0 2) (block_size64 size))); Fill].

  (* finders.go:7-78 RoundedFinder.  The core of a corner is not computed by the program: as in ModelShapes.v *)
  Definition RoundedFinder64 : drawing := fun k =>
    let fw := edge_w64 k in let fh := edge_h64 k in let x := ul_x64 k in let y := ul_y64 k in
    let lw := fdiv fw 2 in let lh := fdiv fh 2 in
    let mask := k_neighbours k in
    if negb (Z.land mask NSelf =? NSelf) then []
    else
      let core_tr := [(x, y); (x + 3 * fw / 4, y + fh / 4); (x + fw, y + fh); (x, y + fh)]%Q in
      let core_tl := [(x, y + fh); (x + fw / 4, y + fh / 4); (x + fw, y); (x + fw, y + fh)]%Q in
      let core_bl := [(x + fw, y); (x + fw, y + fh); (x + fw / 4, y + 3 * fh / 4); (x, y)]%Q in
      let core_br := [(x, y); (x + fw, y); (x + 3 * fw / 4, y + 3 * fh / 4); (x, y + fh)]%Q in
      (if mask =? bits [NSelf; NBot; NLeft] then
         [ModelShapes.Add (Curve [(x, y); (fadd x fw, y); (fadd x fw, fadd y fh); (x, fadd (fadd y fh) lh); (x, fadd y fh); (fsub x lw, fadd y fh)] core_tr)]
       else if mask =? bits [NSelf; NBot; NLeft; NBotLeft] then
         [ModelShapes.Add (Curve [(x, y); (fadd x fw, y); (fadd x fw, fadd y fh); (x, fadd y fh)] core_tr)]
       else if mask =? bits [NSelf; NBot; NRight] then
         [ModelShapes.Add (Curve [(x, fadd y fh); (x, y); (fadd x fw, y); (fadd (fadd x fw) lw, fadd y fh); (fadd x fw, fadd y fh); (fadd x fw, fadd (fadd y fh) lh)] core_tl)]
       else if mask =? bits [NSelf; NBot; NRight; NBotRight] then
         [ModelShapes.Add (Curve [(x, fadd y fh); (x, y); (fadd x fw, y); (fadd x fw, fadd y fh)] core_tl)]
       else if mask =? bits [NSelf; NTop; NRight] then
         [ModelShapes.Add (Curve [(x, y); (x, fadd y fh); (fadd x fw, fadd y fh); (fadd (fadd x fw) lw, y); (fadd x fw, y); (fadd x fw, fsub y lh)] core_bl)]
       else if mask =? bits [NSelf; NTop; NRight; NTopRight] then
         [ModelShapes.Add (Curve [(x, y); (x, fadd y fh); (fadd x fw, fadd y fh); (fadd x fw, y)] core_bl)]
       else if mask =? bits [NSelf; NTop; NLeft] then
         [ModelShapes.Add (Curve [(x, fadd y fh); (fadd x fw, fadd y fh); (fadd x fw, y); (x, fsub y lh); (x, y); (fsub x lw, y)] core_br)]
       else if mask =? bits [NSelf; NTop; NLeft; NTopLeft] then
         [ModelShapes.Add (Curve [(x, fadd y fh); (fadd x fw, fadd y fh); (fadd x fw, y); (x, y)] core_br); Fill]
       else [ModelShapes.Add (rect64 x y fw fh)]) ++ [Fill].

  (* finders.go:81-92 SquareFinder *)
  Definition SquareFinder64 : drawing := fun k => drawRect64 (ul_x64 k) (ul_y64 k) (edge_w64 k) (edge_h64 k).
End Float.
