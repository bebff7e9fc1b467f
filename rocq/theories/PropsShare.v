(* Theorems about several goroutines saving one QRCode at the same time: property C75. *)
From Coq Require Import Lia.
From Verif Require Import ModelBase ModelMatrix ModelHeap ModelShare SpecSave SpecShare ProofBase ProofMatrix ProofHeap ProofShare.

(* n Writers, any interleaving of any operations: each sees exactly what it would see had it been the only one *)
Theorem C75_as_alone :
  forall n m sched, careful m n sched -> forall i, (i < n)%nat ->
    exists d, nth_error (sr_hands (share_run n m sched)) i = Some d /\
              sees (with_heap (sr_heap (share_run n m sched)) d) = sees (wrun (wstart [] m) (ops_of i sched)).
Proof.
  intros n m sched CA i LI. destruct (crowd_run m n sched CA) as (phi & CR).
  destruct (nth_error (sr_hands (share_run n m sched)) i) as [d|] eqn:E; [|apply nth_error_None in E; rewrite (c_len _ _ _ _ CR) in E; lia].
  exists d. split; [reflexivity|]. apply (sim_sees m (phi i)). apply (c_sim _ _ _ _ CR i d E).
Qed.

(* no object is written by one Writer and used by another, at any time *)
Theorem C75_no_race : forall n m sched, careful m n sched -> ~ race (sr_log (share_run n m sched)).
Proof. intros n m sched CA. destruct (crowd_run m n sched CA) as (phi & CR). apply (crowd_no_race m n sched phi CR). Qed.

(* at every moment the matrix of the QRCode is the one it was made with (a prefix of a careful schedule is careful) *)
Theorem C75_matrix_unchanged :
  forall n m sched rest, careful m n (sched ++ rest) -> h_read (sr_heap (share_run n m sched)) (snd (h_alloc [] m)) = Some m.
Proof.
  intros n m sched rest CA0. pose proof (careful_prefix m n sched rest CA0) as CA. destruct n as [|n].
  - assert (X : forall l, share_run 0 m l = share_start 0 m).
    { induction l as [|[i op] l IH] using rev_ind; [reflexivity|]. unfold share_run in *. rewrite fold_left_app, IH. cbn [fold_left share_step share_start sr_hands repeat]. destruct i; reflexivity. }
    rewrite X. cbn [share_start sr_heap]. apply (alloc_read [] m).
  - destruct (crowd_run m (S n) sched CA) as (phi & CR).
    destruct (nth_error (sr_hands (share_run (S n) m sched)) 0) as [d|] eqn:E; [|apply nth_error_None in E; rewrite (c_len _ _ _ _ CR) in E; lia].
    pose proof (c_sim _ _ _ _ CR 0%nat d E) as S. pose proof (in_first [] m _ (s_inv _ _ _ _ _ S)) as F0.
    pose proof (non_interference [] m (ops_of 0 sched) (CA 0%nat ltac:(lia))) as NI. unfold second_save in NI. fold (solo m 0 sched) in NI.
    assert (VM : (h_mat (snd (h_alloc [] m)) < length (w_heap (solo m 0 sched)))%nat) by (pose proof (s_cm _ _ _ _ _ S) as F; rewrite Forall_forall in F; apply F; eapply nth_error_In, F0).
    pose proof (read_ren m _ _ _ _ (snd (h_alloc [] m)) S VM) as RR. rewrite NI in RR. rewrite <- RR. f_equal.
    unfold renH. rewrite (s_low _ _ _ _ _ S) by (cbn [snd h_alloc h_mat]; rewrite alloc_length; cbn [length]; lia). reflexivity.
Qed.

(* Writers that do not call Col on the matrix they are given (none of this repository's Writers does) are careful *)
Definition calls_col (op : wop) : Prop := exists cur, op = CallCol 0 cur.
Theorem C75_without_col : forall n m sched, Forall (fun io => ~ calls_col (snd io)) sched -> careful m n sched.
Proof.
  intros n m sched F i _ (b & k & x & v & a & E & I).
  assert (FO : Forall (fun op => ~ calls_col op) b).
  { apply Forall_forall. intros op IO. rewrite Forall_forall in F. assert (IN : In op (ops_of i sched)) by (rewrite E; apply in_or_app; auto).
    unfold ops_of in IN. apply in_map_iff in IN as (io & <- & II). apply filter_In in II as (II & _). apply F, II. }
  assert (X : forall ops s, w_cols s = [] -> Forall (fun op => ~ calls_col op) ops -> w_cols (wrun s ops) = []).
  { induction ops as [|op ops IH]; intros s E0 FF; [exact E0|]. inversion FF as [|? ? N1 N2]; subst. unfold wrun. cbn [fold_left]. apply (IH (wstep s op)); auto. clear IH.
    destruct op as [j|j cur|j cur|j|j di|p k0 v0|p y0 x0 b0]; cbn [wstep]; repeat (match goal with |- context [match ?t with _ => _ end] => destruct t eqn:? end; cbn [w_cols]; auto).
    all: try exact E0.
    exfalso. apply N1. exists cur. match goal with X : Nat.eqb j 0 = true |- _ => apply Nat.eqb_eq in X; subst; reflexivity end. }
  rewrite X in I; auto.
Qed.

(* with Col: two goroutines saving the same QRCode race, and what the other one then sees has changed *)
Theorem C75_any_writer_refuted :
  ~ (forall n m sched, wf m -> ~ race (sr_log (share_run n m sched))) /\
  ~ (forall n m sched i d, wf m -> nth_error (sr_hands (share_run n m sched)) i = Some d ->
       sees (with_heap (sr_heap (share_run n m sched)) d) = sees (wrun (wstart [] m) (ops_of i sched))).
Proof.
  set (sc := [(0%nat, CallCol 0 1); (1%nat, CallBitmap 0); (0%nat, AssignValue 0 0 QRValue_DATA_V1); (1%nat, CallBitmap 0)]).
  split; intros G.
  - apply (G 2%nat (newMatrix 2 2) sc (wf_new 2 2 ltac:(lia) ltac:(lia))). exists 0%nat, 1%nat, 1%nat, false. split; [|split; [|lia]].
    + vm_compute. tauto.
    + vm_compute. tauto.
  - specialize (G 2%nat (newMatrix 2 2) sc 1%nat (nth 1 (sr_hands (share_run 2 (newMatrix 2 2) sc)) (hands_of (wstart [] (newMatrix 2 2)))) (wf_new 2 2 ltac:(lia) ltac:(lia))).
    assert (X : nth_error (sr_hands (share_run 2 (newMatrix 2 2) sc)) 1 = Some (nth 1 (sr_hands (share_run 2 (newMatrix 2 2) sc)) (hands_of (wstart [] (newMatrix 2 2))))) by (vm_compute; reflexivity).
    specialize (G X). vm_compute in G. discriminate G.
Qed.

(* ------------------------------------------------------------------ the hypotheses can be met *)
(* two writers that scribble, in turn, over everything they get except Col slices of the original *)
Definition two_scribblers : list (nat * wop) :=
  [(0%nat, CallRow 0 1); (1%nat, CallBitmap 0); (0%nat, AssignValue 0 0 99); (1%nat, AssignBit 0 1 1 true); (1%nat, CallCopy 0); (0%nat, CallBitmap 0);
   (1%nat, CallCol 1 0); (0%nat, CallCopy 0); (1%nat, AssignValue 0 1 99); (0%nat, AssignBit 0 0 0 true); (0%nat, CallIterate 1 IterDirection_ROW)].
Example C75_example : careful (newMatrix 2 2) 2 two_scribblers /\
  length (filter (fun e => snd (snd e)) (sr_log (share_run 2 (newMatrix 2 2) two_scribblers))) = 13%nat.
Proof.
  split; [|vm_compute; reflexivity]. apply C75_without_col. repeat (constructor; [intros (c & E); discriminate E|]). constructor.
Qed.

Print Assumptions C75_as_alone.
Print Assumptions C75_no_race.
Print Assumptions C75_matrix_unchanged.
Print Assumptions C75_without_col.
Print Assumptions C75_any_writer_refuted.
