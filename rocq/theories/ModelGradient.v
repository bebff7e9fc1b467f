(* Model of /repo/writer/standard/gradient.go.  Simplification: float64 arithmetic is exact (rational numbers). *)
From Coq Require Import QArith Qround Permutation.
From Verif Require Import ModelBase ModelStandard.

(* gradient.go:14-17 ColorStop *)
Record stop := mkStop { s_T : Q; s_color : rgba }.

(* gradient.go:29-35 NewGradient.  sort.Slice is not stable, so the order of stops with the same T is not determined: the stops of
   the new gradient are one of the sorted arrangements.  The variadic parameter is the caller's slice when the call is
   NewGradient(angle, stops...), so [after], what that slice holds afterwards, is the same as the stops of the gradient. *)
Fixpoint sorted_T (l : list stop) : Prop :=
  match l with s :: (s' :: _) as r => (s_T s <= s_T s')%Q /\ sorted_T r | _ => True end.
Definition NewGradient (stops after gradient : list stop) : Prop := Permutation stops after /\ sorted_T after /\ gradient = after.

(* Go's comparisons of floats, as booleans *)
Definition Qlt_b (a b : Q) : bool := negb (Qle_bool b a).

(* gradient.go:110-117 blendColors: uint8(float) cuts the fraction off (for values in 0..255); mod 256 stands for the rest *)
Definition blend_channel (a b : Z) (t : Q) : Z := Qfloor (inject_Z a * (1 - t) + inject_Z b * t) mod 256.
Definition blendColors (c1 c2 : rgba) (t : Q) : rgba :=
  mkRGBA (blend_channel (c_r c1) (c_r c2) t) (blend_channel (c_g c1) (c_g c2) t) (blend_channel (c_b c1) (c_b c2) t) 255.

(* gradient.go:97-105, the loop; None = past the last pair *)
Fixpoint interpolate_loop (stops : list stop) (t : Q) : option rgba :=
  match stops with
  | start :: (end_ :: _) as r =>
    if Qle_bool (s_T start) t && Qle_bool t (s_T end_)
    then Some (blendColors (s_color start) (s_color end_) ((t - s_T start) / (s_T end_ - s_T start)))
    else interpolate_loop r t
  | _ => None
  end.
(* gradient.go:90-107 interpolateColor; None = index panic on no stops *)
Definition interpolateColor (stops : list stop) (t : Q) : option rgba :=
  match stops with
  | [] => None
  | first :: _ =>
    let last_ := last stops first in
    if Qle_bool t (s_T first) then Some (s_color first)
    else if Qle_bool (s_T last_) t then Some (s_color last_)
    else Some (match interpolate_loop stops t with Some c => c | None => mkRGBA 0 0 0 255 end)
  end.

(* gradient.go:40-66: the projection, and its minimum and maximum over the corners of an image with bounds (0, 0)-(w, h).
   (dx, dy) = (cos a, -sin a) for the angle a *)
Definition proj (dx dy : Q) (x y : Z) : Q := inject_Z x * dx + inject_Z y * dy.
Definition corners (w h : Z) : list (Z * Z) := [(0, 0); (0, h); (w, 0); (w, h)].
Definition minProj (dx dy : Q) (w h : Z) : Q :=
  match map (fun '(x, y) => proj dx dy x y) (corners w h) with
  | p :: r => fold_left (fun m p => if Qlt_b p m then p else m) r p
  | [] => 0%Q
  end.
Definition maxProj (dx dy : Q) (w h : Z) : Q :=
  match map (fun '(x, y) => proj dx dy x y) (corners w h) with
  | p :: r => fold_left (fun m p => if Qlt_b m p then p else m) r p
  | [] => 0%Q
  end.
(* gradient.go:77-80 *)
Definition position (dx dy : Q) (w h x y : Z) : Q := (proj dx dy x y - minProj dx dy w h) / (maxProj dx dy w h - minProj dx dy w h).

(* gradient.go:69-86: the colour given to a pixel that has the foreground colour: the parameter o_gradient of the options.
   Stops are not empty here (WithFgGradient refuses that, image_option_api.go:81) *)
Definition gradient_at (stops : list stop) (dx dy : Q) (w h x y : Z) : rgba :=
  match interpolateColor stops (position dx dy w h x y) with Some c => c | None => mkRGBA 0 0 0 0 end.
