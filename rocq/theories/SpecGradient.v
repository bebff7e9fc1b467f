(* Vocabulary for C59: the colour of a gradient, without reference to how it is computed. *)
From Verif Require Import ModelBase ModelStandard ModelGradient SpecStandard SpecReader SpecMedium SpecShape.
From Coq Require Import QArith Qminmax Qabs.
Open Scope Z_scope.

(* v is q with its fraction cut off *)
Definition rounds_down (q : Q) (v : Z) : Prop := (inject_Z v <= q)%Q /\ (q < inject_Z v + 1)%Q.

(* the straight line through (t0, a) and (t1, b), at t *)
Definition line (t0 : Q) (a : Z) (t1 : Q) (b : Z) (t : Q) : Q := (inject_Z a + (inject_Z b - inject_Z a) * ((t - t0) / (t1 - t0)))%Q.

Definition color_channels : list (rgba -> Z) := [c_r; c_g; c_b].

(* c is an opaque colour whose channels are on the straight lines from stop s to stop e *)
Definition mixed (s e : stop) (t : Q) (c : rgba) : Prop :=
  c_a c = 255 /\ forall ch, In ch color_channels -> rounds_down (line (s_T s) (ch (s_color s)) (s_T e) (ch (s_color e)) t) (ch c).

(* the colour of the gradient at t: the first stop's before it, the last stop's after it, a mixture between two neighbours *)
Inductive gradient_color (stops : list stop) (t : Q) (c : rgba) : Prop :=
| before_first s r : stops = s :: r -> (t <= s_T s)%Q -> c = s_color s -> gradient_color stops t c
| after_last s l : stops = l ++ [s] -> (s_T s <= t)%Q -> c = s_color s -> gradient_color stops t c
| in_between s e l r : stops = l ++ s :: e :: r -> (s_T s < t)%Q -> (t <= s_T e)%Q -> mixed s e t c -> gradient_color stops t c.

(* where pixel (x, y) of a w x h image lies between the first and the last corner in direction (dx, dy), from 0 to 1 *)
Definition along (dx dy : Q) (w h x y : Z) : Q :=
  ((inject_Z x * dx - inject_Z w * Qmin dx 0 + (inject_Z y * dy - inject_Z h * Qmin dy 0)) / (inject_Z w * Qabs dx + inject_Z h * Qabs dy))%Q.

Definition good_stops (stops : list stop) : Prop := forall s, In s stops -> good (s_color s).
Definition opaque_stops (stops : list stop) : Prop := forall s, In s stops -> opaque (s_color s).

(* in one channel all stops are on the same side of the background *)
Definition contrast (stops : list stop) (bg : rgba) : Prop :=
  exists ch, In ch color_channels /\ ((forall s, In s stops -> ch (s_color s) < ch bg) \/ (forall s, In s stops -> ch bg < ch (s_color s))).

(* modules whose sampled pixel is not light *)
Definition light_b (o : options) (c : rgba) : bool := if o_bgTransparent o then c_a c =? 0 else rgba_eqb c (o_bgColor o).
Definition scan_not_light (d : Z) (cv : canvas) (o : options) (n : Z) : list (list bool) :=
  sampled n (fun x y => negb (light_b o (cv (sample_x o d x) (sample_y o d y)))).

(* stops at different places, in order *)
Definition strictly_sorted (stops : list stop) : Prop := forall l s k e r, stops = l ++ s :: k ++ e :: r -> (s_T s < s_T e)%Q.
