(* Vocabulary for C89. *)
From Verif Require Import ModelBase ModelMatrix ModelStandard ModelPaint.

(* the background colour a goroutine may paint with: the one of the options; if it is to be transparent, one of alpha 0 whose other
   channels are those of the options or 0 *)
Definition a_background (o : options) (c : rgba) : Prop :=
  if o_bgTransparent o
  then c_a c = 0 /\ (c_r c = c_r (o_bgColor o) \/ c_r c = 0) /\ (c_g c = c_g (o_bgColor o) \/ c_g c = 0) /\ (c_b c = c_b (o_bgColor o) \/ c_b c = 0)
  else c = o_bgColor o.
(* a picture and what Write would have drawn *)
Definition picture (r : option (Z * Z * canvas * options)) : option (Z * Z * canvas) := match r with Some (w, h, cv, _) => Some (w, h, cv) | None => None end.

Definition target (a : access) : channel := match a with Store c | Load c => c end.
(* the goroutines do not synchronise with one another while they draw: only the order within a goroutine is fixed.  A data race: two
   goroutines access the same channel, one of them stores *)
Definition data_race (tr : list (nat * access)) : Prop :=
  exists i j g g' a b, nth_error tr i = Some (g, a) /\ nth_error tr j = Some (g', b) /\ g <> g' /\ target a = target b /\ exists c, a = Store c.
(* goroutine i has drawn its picture, from these bytes *)
Definition has_drawn (s : studio) (i : nat) (bytes : list Z) : Prop := nth_error (st_painters s) i = Some (mkPainter [] bytes).
