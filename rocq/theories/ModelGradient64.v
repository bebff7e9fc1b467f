(* Model of /repo/writer/standard/gradient.go with its float64 arithmetic: every operation is followed by a rounding [rnd] (round64 of
   ModelFloat for IEEE 754).  The Go specification allows x*y + z*w to be computed with one of the two products not rounded (fused
   multiply and add), and compilers do that on some platforms: [fuse] says which, at each place of the source.
   Simplification: the values of math.Cos and math.Sin, dx and dy, are parameters. *)
From Coq Require Import QArith Qround.
From Verif Require Import ModelBase ModelStandard ModelGradient.

Inductive fusing := Separate | FuseFirst | FuseSecond.
(* the places where the source has x*y + z*w: gradient.go:58, :76, :112, :113, :114 *)
Inductive place := AtCorner | AtPixel | AtR | AtG | AtB.

(* x*y + z*w *)
Definition madd (rnd : Q -> Q) (f : fusing) (x y z w : Q) : Q :=
  match f with
  | Separate => rnd (rnd (x * y) + rnd (z * w))
  | FuseFirst => rnd (x * y + rnd (z * w))
  | FuseSecond => rnd (rnd (x * y) + z * w)
  end%Q.

(* gradient.go:110-117 blendColors *)
Definition blend_channel64 rnd f (a b : Z) (t : Q) : Z := Qfloor (madd rnd f (inject_Z a) (rnd (1 - t)%Q) (inject_Z b) t) mod 256.
Definition blendColors64 rnd (fuse : place -> fusing) (c1 c2 : rgba) (t : Q) : rgba :=
  mkRGBA (blend_channel64 rnd (fuse AtR) (c_r c1) (c_r c2) t) (blend_channel64 rnd (fuse AtG) (c_g c1) (c_g c2) t)
         (blend_channel64 rnd (fuse AtB) (c_b c1) (c_b c2) t) 255.

(* gradient.go:102 *)
Definition factor64 (rnd : Q -> Q) (t t0 t1 : Q) : Q := rnd (rnd (t - t0) / rnd (t1 - t0))%Q.
(* gradient.go:97-105 *)
Fixpoint interpolate_loop64 rnd fuse (stops : list stop) (t : Q) : option rgba :=
  match stops with
  | start :: (end_ :: _) as r =>
    if Qle_bool (s_T start) t && Qle_bool t (s_T end_)
    then Some (blendColors64 rnd fuse (s_color start) (s_color end_) (factor64 rnd t (s_T start) (s_T end_)))
    else interpolate_loop64 rnd fuse r t
  | _ => None
  end.
(* gradient.go:90-107 interpolateColor *)
Definition interpolateColor64 rnd fuse (stops : list stop) (t : Q) : option rgba :=
  match stops with
  | [] => None
  | first :: _ =>
    let last_ := last stops first in
    if Qle_bool t (s_T first) then Some (s_color first)
    else if Qle_bool (s_T last_) t then Some (s_color last_)
    else Some (match interpolate_loop64 rnd fuse stops t with Some c => c | None => mkRGBA 0 0 0 255 end)
  end.

(* gradient.go:40-66 *)
Definition proj64 rnd f (dx dy : Q) (x y : Z) : Q := madd rnd f (inject_Z x) dx (inject_Z y) dy.
Definition minProj64 rnd f (dx dy : Q) (w h : Z) : Q :=
  match map (fun '(x, y) => proj64 rnd f dx dy x y) (corners w h) with
  | p :: r => fold_left (fun m p => if Qlt_b p m then p else m) r p
  | [] => 0%Q
  end.
Definition maxProj64 rnd f (dx dy : Q) (w h : Z) : Q :=
  match map (fun '(x, y) => proj64 rnd f dx dy x y) (corners w h) with
  | p :: r => fold_left (fun m p => if Qlt_b m p then p else m) r p
  | [] => 0%Q
  end.
(* gradient.go:76-78 *)
Definition position64 rnd fuse (dx dy : Q) (w h x y : Z) : Q :=
  let lo := minProj64 rnd (fuse AtCorner) dx dy w h in let hi := maxProj64 rnd (fuse AtCorner) dx dy w h in
  rnd (rnd (proj64 rnd (fuse AtPixel) dx dy x y - lo) / rnd (hi - lo))%Q.

(* gradient.go:69-86: the colour of a pixel *)
Definition gradient_at64 rnd fuse (stops : list stop) (dx dy : Q) (w h x y : Z) : rgba :=
  match interpolateColor64 rnd fuse stops (position64 rnd fuse dx dy w h x y) with Some c => c | None => mkRGBA 0 0 0 0 end.
