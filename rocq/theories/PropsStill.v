(* C80: when New returns, what it has started is over. *)
From Coq Require Import Lia.
From Verif Require Import ModelBase ModelBinary ModelMatrix ModelVersion ModelEncoder ModelMask ModelEval ModelLayout ModelHeap ModelQRCode ModelFine.
From Verif Require Import SpecAPI SpecFine Samples ProofBase ProofMasking ProofStill.
From Verif Require PropsFine PropsSymbol.

(* After NewWith has returned, with whatever result, none of its goroutines reads or writes a module any more (the log of accesses does
   not grow, the memory does not change), however long the program runs on: the result stays what it is.  At the level of single reads
   and writes of modules, for any way in which the penalty is computed. *)
Theorem C80_nothing_runs_on :
  forall others eval sjis text opts sched r, NewWith_fine others eval sjis text opts sched = r -> r <> Pending ->
  forall rest,
    NewWith_memory others eval sjis text opts (sched ++ rest) = NewWith_memory others eval sjis text opts sched /\
    NewWith_fine others eval sjis text opts (sched ++ rest) = r.
Proof.
  intros others eval sjis text opts sched r R NP rest. unfold NewWith_fine, NewWith_memory in *.
  destruct (toBytes text) as [raw|e|p|]; cbn [bind] in *; auto. destruct (init sjis (apply_options opts) raw) as [st|e|p|]; cbn [bind] in *; auto.
  destruct (masking_fine others (eval (v_dimension (iV st))) (iV st) (iData st) (iMat st) sched) as [mat|e|p|] eqn:E; cbn [bind] in R.
  4: { subst r. exfalso. apply NP. reflexivity. }
  all: destruct (fine_still _ _ _ _ _ _ rest _ E ltac:(discriminate)) as [A B]; rewrite A, B; cbn [bind]; auto.
Qed.
(* the same where each stage of a goroutine is one step *)
Theorem C80_result_stays :
  forall sjis text opts sched q, NewWith sjis text opts sched = Ok q -> forall rest, NewWith sjis text opts (sched ++ rest) = Ok q.
Proof.
  intros sjis text opts sched q R rest. unfold NewWith, build in *. destruct (toBytes text) as [raw|e|p|]; cbn [bind] in *; try discriminate.
  destruct (init sjis (apply_options opts) raw) as [st|e|p|]; cbn [bind] in *; try discriminate.
  destruct (masking (iV st) (iData st) (iMat st) sched) as [mat|e|p|] eqn:E; cbn [bind] in R; try discriminate.
  rewrite (masking_still _ _ _ _ rest _ E). exact R.
Qed.

Example C80_example :
  (exists sched q, NewWith_fine [] read_and_evaluate sample_sjis hello [] sched = Ok q) /\ exists q, NewWith sample_sjis hello [] fair_schedule = Ok q.
Proof.
  split; [|apply PropsSymbol.symbol_example]. destruct (PropsFine.C76_inhabited []) as (rest & q & E). exists rest, q. exact E.
Qed.

Print Assumptions C80_nothing_runs_on.
Print Assumptions C80_result_stays.
