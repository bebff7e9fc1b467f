(* Model of the custom shape in /repo/example/with-custom-shape/main.go, which writer/standard/how-to-use-custom-shape.md explains. *)
From Coq Require Import QArith.
From Verif Require Import ModelBase ModelStandard ModelFloat.
Open Scope Z_scope.

(* int(v) for a float64: the fraction is cut off *)
Definition to_int (v : Q) : Z := Z.quot (Qnum v) (Zpos (Qden v)).

(* main.go:29-37: radius = int(float64(min(w/2, h/2)) * smallerPercent) *)
Definition smaller_radius (percent : Q) (k : call) : Z := to_int (round64 (inject_Z (circle_radius k) * percent)).

(* main.go:39-42: DrawCircle, SetColor, Fill.  As circle_draw in ModelStandard.v, with any radius; the centre x + w/2, y + h/2 is that of
   the box.  gg draws nothing for radius 0, and for a negative radius the disc of the opposite one *)
Definition disc_inside (r : Z) (k : call) (px py : Z) : bool :=
  forallb (fun '(dx, dy) => let u := 6 * px + dx - circle_cx6 k in let v := 6 * py + dy - circle_cy6 k in
             100 * (u * u + v * v) <=? 81 * 36 * (r * r)) [(0, 0); (6, 0); (0, 6); (6, 6)].
Definition disc_outside (r : Z) (k : call) (px py : Z) : bool :=
  let a := Z.abs r in
  (6 * px + 6 <=? circle_cx6 k - 6 * a) || (circle_cx6 k + 6 * a <=? 6 * px) ||
  (6 * py + 6 <=? circle_cy6 k - 6 * a) || (circle_cy6 k + 6 * a <=? 6 * py) ||
  let u := Z.max 0 (Z.max (6 * px - circle_cx6 k) (circle_cx6 k - 6 * px - 6)) in
  let v := Z.max 0 (Z.max (6 * py - circle_cy6 k) (circle_cy6 k - 6 * py - 6)) in
  121 * 36 * (r * r) <=? 100 * (u * u + v * v).
Definition disc_fill (edge : Z -> call -> Z -> Z -> rgba -> rgba) (r : Z) (cv : canvas) (k : call) : canvas :=
  fun px py => if (r =? 0) || disc_outside r k px py then cv px py
               else if disc_inside r k px py then over (cv px py) (k_color k)
               else edge r k px py (cv px py).

(* main.go:23-44 Draw, with the percentage it finds in the shape *)
Definition smaller_Draw (edge : Z -> call -> Z -> Z -> rgba -> rgba) (percent : Q) (cv : canvas) (k : call) : canvas :=
  disc_fill edge (smaller_radius percent k) cv k.

(* the writer calls DrawFinder or Draw (writer.go, getShape().…); the shape's field smallerPercent before and after.
   main.go:12-17 DrawFinder: back up the percentage, set it to 1.0, draw, restore it *)
Definition smaller_call (edge : Z -> call -> Z -> Z -> rgba -> rgba) (st : Q * canvas) (k : call) : Q * canvas :=
  let '(percent, cv) := st in
  if k_finder k then
    let backup := percent in
    let percent := 1%Q in
    let cv := smaller_Draw edge percent cv k in
    (backup, cv)
  else (percent, smaller_Draw edge percent cv k).

(* what one call paints, given the percentage the shape was made with: newShape, main.go:19-21 *)
Definition smaller_shape (edge : Z -> call -> Z -> Z -> rgba -> rgba) (percent : Q) (cv : canvas) (k : call) : canvas :=
  smaller_Draw edge (if k_finder k then 1%Q else percent) cv k.

(* Two goroutines use one shape.  Their reads and writes of smallerPercent in program order (main.go:13, 14, 15 (the read in Draw), 16) *)
Inductive shape_op := ReadBackup | SetFull | ReadForDraw | Restore.
Definition finder_ops : list shape_op := [ReadBackup; SetFull; ReadForDraw; Restore].
Definition data_ops : list shape_op := [ReadForDraw].
(* a goroutine: what it still has to do, its variable backup, the percentages its drawings used, latest first *)
Record shape_user := mkUser { u_todo : list shape_op; u_backup : Q; u_used : list Q }.
Definition user_step (field : Q) (u : shape_user) : Q * shape_user :=
  match u_todo u with
  | [] => (field, u)
  | ReadBackup :: r => (field, mkUser r field (u_used u))
  | SetFull :: r => (1%Q, mkUser r (u_backup u) (u_used u))
  | ReadForDraw :: r => (field, mkUser r (u_backup u) (field :: u_used u))
  | Restore :: r => (u_backup u, mkUser r (u_backup u) (u_used u))
  end.
(* true: the first goroutine goes on; false: the second *)
Definition users_step (st : Q * shape_user * shape_user) (first : bool) : Q * shape_user * shape_user :=
  let '(field, a, b) := st in
  if first then let '(field, a) := user_step field a in (field, a, b) else let '(field, b) := user_step field b in (field, a, b).
Definition users_run (percent : Q) (a b : list shape_op) (sched : list bool) : Q * shape_user * shape_user :=
  fold_left users_step sched (percent, mkUser a 0 [], mkUser b 0 []).
