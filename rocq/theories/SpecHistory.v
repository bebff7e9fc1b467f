(* Histories: one writer used several times, by Save, Write and Close in any order. *)
From Verif Require Import ModelBase ModelMatrix ModelSave.

Inductive step := DoSave (m : Matrix) | DoWrite (m : Matrix) | DoClose.
Definition step_matrix (st : step) : option Matrix := match st with DoSave m | DoWrite m => Some m | DoClose => None end.
(* after these calls a writer that owns a file has closed it *)
Definition closing (st : step) : Prop := match st with DoSave _ | DoClose => True | DoWrite _ => False end.

Definition do_step {E S} (w : Writer E S) (s : S) (st : step) : S * call_end E :=
  match st with
  | DoSave m => let '(s', _, r) := Save (Some m) w s in (s', r)
  | DoWrite m => wr_write w s m
  | DoClose => wr_close w s
  end.
(* the state at the end, and what each call returned *)
Fixpoint run {E S} (w : Writer E S) (s : S) (h : list step) : S * list (call_end E) :=
  match h with
  | [] => (s, [])
  | st :: r => let '(s1, e) := do_step w s st in let '(s2, es) := run w s1 r in (s2, e :: es)
  end.
