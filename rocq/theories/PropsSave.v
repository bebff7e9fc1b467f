(* Theorems about Save and about what a Writer can do to the QRCode: properties C31, C32. *)
From Coq Require Import Lia.
From Verif Require Import ModelBase ModelMatrix ModelHeap ModelSave.
From Verif Require Import SpecMatrix SpecSave ProofMatrix ProofHeap.

(* ------------------------------------------------------------------ C31 *)
(* h: whatever else is in memory; ops: everything the Writer does.  Without an assignment through a slice returned by
   Col of the matrix itself (slices from Row, Bitmap, Copy, and from Col of a Copy may be written) nothing changes *)
Theorem C31_writer_cannot_alter_partial :
  forall h m ops, ~ assigns_through_col (wstart h m) ops -> second_save h m ops = Some m.
Proof. exact non_interference. Qed.

(* Col hands out the memory of the matrix *)
Theorem C31_writer_cannot_alter_refuted : ~ (forall h m ops, wf m -> second_save h m ops = Some m).
Proof.
  intros G. specialize (G [] (newMatrix 2 2) [CallCol 0 1; AssignValue 0 0 QRValue_DATA_V1] (wf_new 2 2 ltac:(lia) ltac:(lia))).
  vm_compute in G. discriminate G.
Qed.

(* ------------------------------------------------------------------ C32 *)
Definition writes (evs : list event) : list Matrix := flat_map (fun e => match e with EvWrite m => [m] | _ => [] end) evs.
Definition closes (evs : list event) : nat := length (filter (fun e => match e with EvClose => true | _ => false end) evs).

(* every Writer, in every state, whatever Write and Close do *)
Theorem C32_save :
  forall (E S : Type) (w : Writer E S) (s : S) (m : Matrix) s' evs r, Save (Some m) w s = (s', evs, r) ->
    let '(s1, write_end) := wr_write w s m in
    let '(s2, close_end) := wr_close w s1 in
    writes evs = [m] /\ closes evs = 1%nat /\
    (exists rest, evs = EvWrite m :: EvClose :: rest /\ (rest = [] \/ (rest = [EvLogWarning] /\ exists e, close_end = Returned (Some e)))) /\
    s' = s2 /\
    (close_end <> Panicked -> r = write_end) /\ (close_end = Panicked -> r = Panicked).
Proof.
  intros E S w s m s' evs r. unfold Save. destruct (wr_write w s m) as [s1 we] eqn:EW. destruct (wr_close w s1) as [s2 ce] eqn:EC.
  destruct ce as [[e|]|]; intros [= <- <- <-]; cbn [app writes closes flat_map filter length];
    (split; [reflexivity|]; split; [reflexivity|]; split; [eexists; split; [reflexivity|]|]; [|split; [reflexivity|split; [|]]; congruence]).
  - right. split; [reflexivity|eauto].
  - left; reflexivity.
  - left; reflexivity.
Qed.
(* a QRCode without matrix (not made by New): the writer is still closed, once *)
Theorem C32_no_matrix :
  forall (E S : Type) (w : Writer E S) (s : S) s' evs r, Save None w s = (s', evs, r) -> writes evs = [] /\ closes evs = 1%nat /\ r = Panicked.
Proof.
  intros E S w s s' evs r. unfold Save. destruct (wr_close w s) as [s2 [[e|]|]]; intros [= <- <- <-]; repeat split.
Qed.
Theorem C32_save_nil : forall (E : Type) m, @SaveNil E (Some m) = Returned None.
Proof. reflexivity. Qed.

(* ------------------------------------------------------------------ the hypotheses can be met *)
(* a careless writer that scribbles over everything it gets except Col slices of the original *)
Definition scribble : list wop :=
  [CallRow 0 1; AssignValue 0 0 99; CallBitmap 0; AssignBit 0 1 1 true; CallCopy 0; CallCol 1 0; AssignValue 1 1 99; CallCol 0 1; CallIterate 0 IterDirection_ROW].
Example C31_example : ~ assigns_through_col (wstart [] (newMatrix 2 2)) scribble /\ w_heap (wrun (wstart [] (newMatrix 2 2)) scribble) <> w_heap (wstart [] (newMatrix 2 2)).
Proof.
  split; [|vm_compute; discriminate].
  intros (before & n & k & v & after & E & HI). unfold scribble in E.
  do 9 (destruct before as [|b before]; [try discriminate E; injection E as <- <- <- <-; vm_compute in HI; intuition lia|];
        injection E as <- E).
  destruct before; discriminate.
Qed.
(* a writer whose Write fails and whose Close fails, too *)
Example C32_example : Save (Some (newMatrix 1 1)) (mkWriter (fun (s : nat) _ => (1%nat, Returned (Some true))) (fun s => (S s, Returned (Some false)))) 0%nat
  = (2%nat, [EvWrite (newMatrix 1 1); EvClose; EvLogWarning], Returned (Some true)).
Proof. reflexivity. Qed.

Print Assumptions C31_writer_cannot_alter_partial.
Print Assumptions C31_writer_cannot_alter_refuted.
Print Assumptions C32_save.
Print Assumptions C32_no_matrix.
Print Assumptions C32_save_nil.
