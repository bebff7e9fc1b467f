(* Vocabulary for C43. *)
From Verif Require Import ModelBase ModelVersion ModelLayout ModelQRCode ModelCache.

(* the part of a schedule that belongs to call k, as a schedule of a program with that call only *)
Definition alone (k : nat) (sched : list (nat * actor)) : list (nat * actor) :=
  flat_map (fun '(j, a) => if Nat.eqb j k then [(0%nat, a)] else []) sched.

Definition is_read (a : access) : Prop := match a with MapRead _ => True | MapWrite _ => False end.

(* two accesses to the map by different calls, at least one of them a write *)
Definition conflicting (log : list access) : Prop :=
  exists i j k l, i <> j /\ (nth_error log i = Some (MapWrite k) /\ (nth_error log j = Some (MapWrite l) \/ nth_error log j = Some (MapRead l))) /\ k <> l.

(* the locations kept for a version are those calculated for it *)
Definition right_cache (s : shared) : Prop := forall ver l, lookup (sh_cache s) ver = Some l -> calcAlignPatternLocs ver = Some l.

(* between Lock() and Unlock() *)
Definition holding (c : cstate) : Prop := match c with CWrite _ _ | CUnlock _ _ => True | _ => False end.
