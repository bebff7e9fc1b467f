(* C43: New calls running at the same time. *)
From Coq Require Import Lia Init.Byte.
From Verif Require Import ModelBase ModelVersion ModelLayout ModelQRCode ModelCache SpecConcurrent ProofCache ProofLock.

(* C43: any number of New/NewWith calls, interleaved in any way at the granularity of the shared accesses and of the eight
   goroutines each of them starts: what a call returns is what it returns when its own steps are executed with no other call
   around (in particular no call delays another), and that is the outcome NewWith has under some schedule of its goroutines. *)
Theorem C43_calls_do_not_interfere :
  forall sjis reqs sched k text opts, nth_error reqs k = Some (text, opts) ->
    outcome_of (sys_run sjis initial reqs sched) k = outcome_of (sys_run sjis initial [(text, opts)] (alone k sched)) 0
    /\ (outcome_of (sys_run sjis initial reqs sched) k = Pending
        \/ exists s, outcome_of (sys_run sjis initial reqs sched) k = NewWith sjis text opts s).
Proof.
  intros sjis reqs sched k text opts E. split.
  - unfold outcome_of. rewrite (projection sjis reqs k _ sched E). reflexivity.
  - destruct (Forall2_nth_ex _ _ _ _ _ (ok_calls _ _ _ (run_ok sjis reqs sched)) E) as (c & EC & G).
    unfold outcome_of. rewrite EC. apply (good_outcome sjis _ _ G).
Qed.
Print Assumptions C43_calls_do_not_interfere.

(* C43: there is no data race: after the package initialiser the shared map is only read, and the table keeps its contents *)
Theorem C43_no_data_race :
  forall sjis reqs sched,
    Forall is_read (sh_log (y_shared (sys_run sjis initial reqs sched)))
    /\ ~ conflicting (sh_log (y_shared (sys_run sjis initial reqs sched)))
    /\ sh_cache (y_shared (sys_run sjis initial reqs sched)) = sh_cache initial.
Proof.
  intros sjis reqs sched. pose proof (run_ok sjis reqs sched) as O. pose proof (ok_log _ _ _ O) as R. split; [exact R|]. split; [|apply (ok_cache _ _ _ O)].
  intros (i & j & k & l & _ & [W _] & _). rewrite Forall_forall in R. apply (R (MapWrite k)). eapply nth_error_In. exact W.
Qed.
Print Assumptions C43_no_data_race.

(* A call that has run far enough does answer: the two calls below, interleaved step by step.  The first is "1" in the
   automatic version 1, the second asks for version 2. *)
Definition two_calls : list (GoText * list EncodeOption) := [(GoString [x31], []); (GoString [x32], [WithVersion 2])].
Definition one_round (k : nat) : list (nat * actor) := map (fun a => (k, a)) (Main :: map Goroutine (seq 0 8)).
Definition crowd : list (nat * actor) := flat_map (fun _ => one_round 0 ++ one_round 1) (seq 0 20).
Definition width_of_outcome (o : outcome QRCode) : option Z := match o with Ok q => Some (q_dimension q) | _ => None end.
Example C43_two_calls :
  map (fun k => width_of_outcome (outcome_of (sys_run (fun _ => None) initial two_calls crowd) k)) [0%nat; 1%nat] = [Some 21; Some 25]
  /\ sh_log (y_shared (sys_run (fun _ => None) initial two_calls crowd)) = [MapRead 1].
Proof. split; vm_compute; reflexivity. Qed.

(* Without the package initialiser two calls would race: the model can tell. *)
Example C43_race_without_initialiser :
  let sched := [(0%nat, Main); (1%nat, Main); (0%nat, Main); (0%nat, Main); (0%nat, Main); (1%nat, Main)] in
  let reqs := [(GoString [x31], [WithVersion 2]); (GoString [x32], [WithVersion 2])] in
  conflicting (sh_log (y_shared (sys_run (fun _ => None) (mkShared [] None []) reqs sched))).
Proof. cbv zeta. exists 1%nat, 2%nat, 0%nat, 1%nat. vm_compute. repeat split; auto; discriminate. Qed.

(* C43 without the initialiser: from any cache whose entries are right (an empty one, say), the calls still return what they would
   return alone, the cache stays right, and the mutex works: of two calls between Lock and Unlock there is only one, it is the one
   that holds the mutex, and two more steps of it free the mutex and let it go on *)
Theorem C43_any_right_cache :
  forall sjis s reqs sched, right_cache s -> sh_lock s = None ->
  let y := sys_run sjis s reqs sched in
  (forall k text opts, nth_error reqs k = Some (text, opts) ->
     outcome_of y k = Pending \/ exists sch, outcome_of y k = NewWith sjis text opts sch) /\
  right_cache (y_shared y) /\
  (forall j k c d, nth_error (y_calls y) j = Some c -> nth_error (y_calls y) k = Some d -> holding c -> holding d -> j = k) /\
  (forall k, sh_lock (y_shared y) = Some k -> (exists c, nth_error (y_calls y) k = Some c /\ holding c) /\
     exists n, (n <= 2)%nat /\ sh_lock (y_shared (fold_left (sys_step sjis reqs) (repeat (k, Main) n) y)) = None).
Proof.
  intros sjis s reqs sched R L. cbv zeta. pose proof (run_inv sjis s reqs sched R L) as [A B C D]. set (y := sys_run sjis s reqs sched) in *. split; [|split; [exact A|split]].
  - intros k text opts E. destruct (Forall2_nth_ex _ _ _ _ _ B E) as (c & EC & F). unfold outcome_of. rewrite EC. apply (fine_outcome sjis _ _ F).
  - intros j k c d EC ED HC HD. apply (C j c EC) in HC. apply (C k d ED) in HD. congruence.
  - intros k EK. assert (KL := D k EK). destruct (nth_error (y_calls y) k) as [c|] eqn:EC; [|apply nth_error_None in EC; lia].
    assert (HC : holding c) by (apply (C k c EC), EK). split; [eauto|].
    assert (RL : exists req, nth_error reqs k = Some req).
    { destruct (nth_error reqs k) as [req|] eqn:ER; [eauto|]. apply nth_error_None in ER. assert (EL : length reqs = length (y_calls y)) by (clear -B; induction B; cbn; congruence). lia. }
    destruct RL as [req ER]. destruct c as [|st|st l|st l|st l|st an|st masks g|o]; try contradiction.
    + exists 2%nat. split; [lia|]. cbn [repeat fold_left]. unfold sys_step at 2. rewrite ER, EC. cbn [cstep]. unfold sys_step. cbn [y_calls y_shared].
      rewrite ER, nth_upd_same by exact KL. reflexivity.
    + exists 1%nat. split; [lia|]. cbn [repeat fold_left]. unfold sys_step. rewrite ER, EC. reflexivity.
Qed.
Print Assumptions C43_any_right_cache.

(* the empty cache is right; a call that finds it empty writes the entry of its version *)
Example C43_empty_cache :
  right_cache (mkShared [] None []) /\
  let y := sys_run (fun _ => None) (mkShared [] None []) two_calls crowd in
  sh_log (y_shared y) = [MapRead 1; MapWrite 1] /\ sh_lock (y_shared y) = None /\ lookup (sh_cache (y_shared y)) 2 = calcAlignPatternLocs 2 /\
  map (fun k => width_of_outcome (outcome_of y k)) [0%nat; 1%nat] = [Some 21; Some 25].
Proof. split; [intros ver l E; discriminate E|]. vm_compute. repeat split. Qed.
