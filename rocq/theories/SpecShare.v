(* Vocabulary for C75: what a Writer sees, what it did, and data races. *)
From Verif Require Import ModelBase ModelMatrix ModelHeap ModelShare SpecSave.

(* the contents of everything a Writer holds: matrices, slices, tables *)
Definition sees (s : wstate) : list (option Matrix) * list (option (list Z)) * list (option (list (list bool))) :=
  (map (h_read (w_heap s)) (w_mats s), map (h_values (w_heap s)) (w_slices s),
   map (fun a => match nth_error (w_heap s) a with Some (Table t) => Some t | _ => None end) (w_tables s)).

(* the operations of Writer i in a schedule *)
Definition ops_of (i : nat) (sched : list (nat * wop)) : list wop := map snd (filter (fun io => Nat.eqb (fst io) i) sched).

(* no Writer, run alone, assigns through a slice it got from Col for the matrix it was given (slices from Row, Bitmap,
   Copy and from Col of a Copy may be written) *)
Definition careful (m : Matrix) (n : nat) (sched : list (nat * wop)) : Prop :=
  forall i, (i < n)%nat -> ~ assigns_through_col (wstart [] m) (ops_of i sched).

(* two Writers use the same object, and one of them writes it *)
Definition race (log : list (nat * (nat * bool))) : Prop :=
  exists i j a w, In (i, (a, true)) log /\ In (j, (a, w)) log /\ i <> j.
