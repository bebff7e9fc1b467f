(* Vocabulary for C59 with float64 arithmetic. *)
From Coq Require Import QArith Qabs.
From Verif Require Import ModelBase ModelStandard ModelFloat ModelGradient SpecFloat64 SpecStandard SpecGradient.
Open Scope Z_scope.

(* like [mixed], but the fraction is cut off from a value within eps of the straight line *)
Definition nearly_mixed (eps : Q) (s e : stop) (t : Q) (c : rgba) : Prop :=
  c_a c = 255 /\ forall ch, In ch color_channels ->
    exists q, (Qabs (q - line (s_T s) (ch (s_color s)) (s_T e) (ch (s_color e)) t) <= eps)%Q /\ rounds_down q (ch c).

Inductive near_color (eps : Q) (stops : list stop) (t : Q) (c : rgba) : Prop :=
| near_first s r : stops = s :: r -> (t <= s_T s)%Q -> c = s_color s -> near_color eps stops t c
| near_last s l : stops = l ++ [s] -> (s_T s <= t)%Q -> c = s_color s -> near_color eps stops t c
| near_between s e l r : stops = l ++ s :: e :: r -> (s_T s < t)%Q -> (t <= s_T e)%Q -> nearly_mixed eps s e t c -> near_color eps stops t c.

Definition float_stops (stops : list stop) : Prop := forall s, In s stops -> float64 (s_T s).

(* in one channel all stops are below the background, or above it by more than one step *)
Definition clear_contrast (stops : list stop) (bg : rgba) : Prop :=
  exists ch, In ch color_channels /\ ((forall s, In s stops -> ch (s_color s) < ch bg) \/ (forall s, In s stops -> ch bg + 1 < ch (s_color s))).
