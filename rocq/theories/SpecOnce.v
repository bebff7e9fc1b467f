(* Vocabulary for C84: happens-before and data races (the Go memory model). *)
From Verif Require Import ModelBase ModelOnce.

(* event number i of a trace happens before event number j *)
Inductive happens_before (tr : list (nat * dev)) : nat -> nat -> Prop :=
| hb_program g a b i j : nth_error tr i = Some (g, a) -> nth_error tr j = Some (g, b) -> (i < j)%nat -> happens_before tr i j
| hb_once g g' i j : nth_error tr i = Some (g, OnceOver) -> nth_error tr j = Some (g', DoReturns) -> (i < j)%nat -> happens_before tr i j
| hb_trans i j k : happens_before tr i j -> happens_before tr j k -> happens_before tr i k.

Definition writes (e : dev) : Prop := e = WritesDebug.
Definition accesses (e : dev) : Prop := writes e \/ exists b, e = ReadsDebug b.
(* two goroutines use the variable, one of them writes it, and neither access happens before the other *)
Definition data_race (tr : list (nat * dev)) : Prop :=
  exists i j g g' a b, nth_error tr i = Some (g, a) /\ nth_error tr j = Some (g', b) /\ g <> g' /\ writes a /\ accesses b /\
    ~ happens_before tr i j /\ ~ happens_before tr j i.

Definition only_asks (calls : list (list dcall)) : Prop := forall c x, In c calls -> In x c -> x = Asks.
(* all answers, of all goroutines *)
Definition answers (s : ostate) : list bool := flat_map g_saw (os_gors s).
Definition finished (s : ostate) : Prop := forall g, In g (os_gors s) -> g_left g = [].
(* so many rounds in each of which every goroutine gets a turn *)
Definition turns_for_all (n rounds : nat) (sched : list (nat * list Z)) : Prop :=
  exists rs rest, sched = concat rs ++ rest /\ length rs = rounds /\ Forall (fun r => forall g, (g < n)%nat -> exists e, In (g, e) r) rs.
