(* C84: the debug switch, asked by many goroutines at once. *)
From Coq Require Import Lia.
From Verif Require Import ModelBase ModelDebug ModelOnce SpecOnce ProofOnce.

(* as long as nobody calls SetDebugMode meanwhile, the accesses to the switch are ordered: no data race, whatever the schedule and however the
   environment changes *)
Theorem C84_no_race :
  forall debug calls sched, only_asks calls -> ~ data_race (os_trace (orun (ostart debug calls) sched)).
Proof.
  intros debug calls sched OA. destruct (start_shape debug calls OA) as [SH A]. pose proof (run_shape debug _ sched A SH) as S. clear SH A.
  set (s := orun (ostart debug calls) sched) in *. clearbody s. intros (i & j & g & g' & a & b & EI & EJ & N & W & AC & N1 & N2).
  unfold writes in W. subst a. unfold shape in S. destruct (os_once s) as [|g0|].
  - destruct S as (E & _). rewrite E in EI. destruct i; discriminate EI.
  - destruct S as [_ (x0 & _ & [(_ & E & _)|(_ & on & E & _)])]; rewrite E in EI, EJ; [destruct i; discriminate EI|].
    assert (OW : forall k h e, nth_error (opening g0 on) k = Some (h, e) -> h = g0).
    { intros k h e EK. unfold opening in EK. destruct on; repeat (destruct k as [|k]; [injection EK as <- _; reflexivity|]); destruct k; discriminate EK. }
    apply N. rewrite (OW _ _ _ EI), (OW _ _ _ EJ). reflexivity.
  - destruct S as (g0 & on & post & E & _ & P & _). set (tr := os_trace s) in *. clearbody tr. set (pre := opening g0 on) in *.
    assert (PR : forall k h e, nth_error pre k = Some (h, e) -> h = g0).
    { intros k h e EK. unfold pre, opening in EK. destruct on; repeat (destruct k as [|k]; [injection EK as <- _; reflexivity|]); destruct k; discriminate EK. }
    assert (OV : nth_error tr (length pre) = Some (g0, OnceOver)) by (rewrite E, nth_error_app2, Nat.sub_diag by lia; reflexivity).
    assert (PO : forall r, nth_error tr (length pre + S r) = nth_error post r) by (intros r; rewrite E, nth_error_app2 by lia; replace (length pre + S r - length pre)%nat with (S r) by lia; reflexivity).
    (* a write is before the end of the once *)
    assert (WR : forall k h, nth_error tr k = Some (h, WritesDebug) -> h = g0 /\ (k < length pre)%nat).
    { intros k h EK. destruct (Nat.lt_ge_cases k (length pre)) as [L|L]; [rewrite E, nth_error_app1 in EK by exact L; split; [exact (PR _ _ _ EK)|exact L]|].
      destruct (Nat.eq_dec k (length pre)) as [->|NK]; [congruence|]. replace k with (length pre + S (k - length pre - 1))%nat in EK by lia. rewrite PO in EK.
      destruct (P _ _ _ EK) as [X|[X _]]; discriminate X. }
    destruct (WR i g EI) as [-> LI]. destruct AC as [->|[v ->]]; [apply N; symmetry; apply (WR j g' EJ)|].
    (* a read is after its own return from the once *)
    destruct (Nat.lt_ge_cases j (length pre)) as [L|L]; [apply N; symmetry; rewrite E, nth_error_app1 in EJ by exact L; exact (PR _ _ _ EJ)|].
    destruct (Nat.eq_dec j (length pre)) as [->|NK]; [congruence|]. pose proof EJ as EJ0. replace j with (length pre + S (j - length pre - 1))%nat in EJ0 by lia. rewrite PO in EJ0.
    destruct (P _ _ _ EJ0) as [X|(_ & r & R & ER)]; [discriminate X|]. apply N1.
    apply (hb_trans tr i (length pre) j); [eapply hb_program; [exact EI|exact OV|exact LI]|].
    apply (hb_trans tr (length pre) (length pre + S r) j).
    + eapply hb_once; [exact OV|rewrite PO; exact ER|lia].
    + eapply hb_program; [rewrite PO; exact ER|exact EJ|lia].
Qed.
(* then all calls, of all goroutines, give one answer: on if SetDebugMode was called before, or the environment said so when it was asked *)
Theorem C84_one_answer :
  forall debug calls sched, only_asks calls -> let s := orun (ostart debug calls) sched in
  exists b, (forall a, In a (answers s) -> a = b) /\ (debug = true -> b = true) /\ forall g on, In (g, ReadsEnv on) (os_trace s) -> b = (debug || on)%bool.
Proof.
  intros debug calls sched OA s. destruct (start_shape debug calls OA) as [SH A]. pose proof (run_shape debug _ sched A SH) as S. fold s in S. clearbody s. clear SH A. exists (os_debug s).
  unfold shape in S. unfold answers. destruct (os_once s) as [|g0|].
  - destruct S as (E & -> & S). split; [|split; [auto|rewrite E; intros g on []]]. intros a I. apply in_flat_map in I as (x & I & IA). apply In_nth_error in I as [g EG]. destruct (S g x EG) as [_ X]. rewrite X in IA. destruct IA.
  - destruct S as [S (x0 & _ & S0)]. split; [|split].
    + intros a I. apply in_flat_map in I as (x & I & IA). apply In_nth_error in I as [g EG]. destruct (S g x EG) as [X _]. rewrite X in IA. destruct IA.
    + intros ->. destruct S0 as [(_ & _ & ->)|(_ & on & _ & ->)]; [reflexivity|destruct on; reflexivity].
    + intros g on I. destruct S0 as [(_ & E & _)|(_ & on' & E & ->)]; rewrite E in I; [destruct I|].
      assert (on = on') as -> by (unfold opening in I; destruct on'; destruct I as [I|[I|[]]] || destruct I as [I|[]]; congruence). destruct debug, on'; reflexivity.
  - destruct S as (g0 & on' & post & E & ED & P & S). split; [|split].
    + intros a I. apply in_flat_map in I as (x & I & IA). apply In_nth_error in I as [g EG]. destruct (S g x EG) as [_ X]. apply X, IA.
    + intros ->. rewrite ED. destruct on'; reflexivity.
    + intros g on I. rewrite E in I. assert (on = on') as ->; [|rewrite ED; destruct debug, on'; reflexivity].
      apply in_app_or in I as [I|[I|I]]; [unfold opening in I; destruct on'; destruct I as [I|[I|[]]] || destruct I as [I|[]]; congruence|discriminate I|].
      apply In_nth_error in I as [k EK]. destruct (P _ _ _ EK) as [X|[X _]]; discriminate X.
Qed.

(* the environment is asked at most once, even with SetDebugMode *)
Definition asked_once (s : ostate) : Prop :=
  match os_once s with
  | NotYet => forall g on, ~ In (g, ReadsEnv on) (os_trace s)
  | RunBy g0 => forall x, nth_error (os_gors s) g0 = Some x -> g_pc x = InOnce -> forall g on, ~ In (g, ReadsEnv on) (os_trace s)
  | Over => True
  end /\ forall i j g g' on on', nth_error (os_trace s) i = Some (g, ReadsEnv on) -> nth_error (os_trace s) j = Some (g', ReadsEnv on') -> i = j.
Lemma step_asked s ge : live s -> asked_once s -> asked_once (ostep s ge).
Proof.
  intros L [N U]. destruct ge as [g env]. unfold ostep. destruct (nth_error (os_gors s) g) as [[pc lf saw]|] eqn:E; [|split; assumption].
  assert (AP : forall es, (forall h on, ~ In (h, ReadsEnv on) es) -> (forall i j h h' on on', nth_error (os_trace s ++ es) i = Some (h, ReadsEnv on) -> nth_error (os_trace s ++ es) j = Some (h', ReadsEnv on') -> i = j) /\
                       ((forall h on, ~ In (h, ReadsEnv on) (os_trace s)) -> forall h on, ~ In (h, ReadsEnv on) (os_trace s ++ es))).
  { intros es NE. assert (LT : forall i h on, nth_error (os_trace s ++ es) i = Some (h, ReadsEnv on) -> nth_error (os_trace s) i = Some (h, ReadsEnv on)).
    { intros i h on EI. destruct (Nat.lt_ge_cases i (length (os_trace s))) as [Li|Li]; [rewrite nth_error_app1 in EI by exact Li; exact EI|]. rewrite nth_error_app2 in EI by exact Li. destruct (NE h on (nth_error_In _ _ EI)). }
    split; [intros; eapply U; apply LT; eassumption|]. intros X h on I. apply in_app_or in I as [I|I]; [exact (X h on I)|exact (NE h on I)]. }
  destruct L as [L1 [L2 L3]]. pose proof (L3 g _ E) as RB. cbn [g_pc] in RB.
  destruct pc; [destruct lf as [|[] r]|..].
  - split; assumption.
  - destruct (os_once s) as [|g0|] eqn:EO.
    + split; cbn [os_once os_trace]; [|exact U]. intros x _ _. exact N.
    + split; [rewrite EO; exact N|exact U].
    + split; cbn [os_once os_trace]; [exact I|]. apply AP. intros h on [X|[]]; discriminate X.
  - destruct (AP [(g, WritesDebug)]) as [A1 A2]; [intros h on [X|[]]; discriminate X|]. split; cbn [os_once os_trace]; [|exact A1].
    destruct (os_once s) as [|g0|]; [apply A2, N| |exact I]. unfold set_g. cbn [os_gors]. intros x EX PX. apply A2. rewrite nth_upd in EX. destruct (Nat.eqb_spec g0 g) as [->|NG]; [rewrite E in EX; injection EX as <-; discriminate PX|exact (N x EX PX)].
  - specialize (RB (or_introl eq_refl)). rewrite RB in N. specialize (N _ E eq_refl). split; cbn [os_once os_trace].
    + rewrite RB. unfold set_g. cbn [os_gors]. intros x EX PX. rewrite nth_upd, Nat.eqb_refl, E in EX. injection EX as <-. discriminate PX.
    + assert (FR : forall i h on, nth_error (os_trace s ++ (g, ReadsEnv (env_on env)) :: (if env_on env then [(g, WritesDebug)] else [])) i = Some (h, ReadsEnv on) -> i = length (os_trace s)).
      { intros i h on EI. destruct (Nat.lt_ge_cases i (length (os_trace s))) as [Li|Li]; [rewrite nth_error_app1 in EI by exact Li; destruct (N h on (nth_error_In _ _ EI))|].
        rewrite nth_error_app2 in EI by exact Li. destruct (i - length (os_trace s))%nat as [|d] eqn:ED; [lia|]. destruct (env_on env); destruct d as [|d]; try discriminate EI; destruct d; discriminate EI. }
      intros i j h h' on on' EI EJ. rewrite (FR _ _ _ EI), (FR _ _ _ EJ). reflexivity.
  - split; cbn [os_once os_trace]; [exact I|]. apply AP. intros h on [X|[X|[]]]; discriminate X.
  - destruct (AP [(g, ReadsDebug (os_debug s))]) as [A1 A2]; [intros h on [X|[]]; discriminate X|]. split; cbn [os_once os_trace]; [|exact A1].
    destruct (os_once s) as [|g0|]; [apply A2, N| |exact I]. unfold set_g. cbn [os_gors]. intros x EX PX. apply A2. rewrite nth_upd in EX. destruct (Nat.eqb_spec g0 g) as [->|NG]; [rewrite E in EX; injection EX as <-; discriminate PX|exact (N x EX PX)].
Qed.
Theorem C84_environment_asked_once :
  forall debug calls sched i j g g' on on', let tr := os_trace (orun (ostart debug calls) sched) in
  nth_error tr i = Some (g, ReadsEnv on) -> nth_error tr j = Some (g', ReadsEnv on') -> i = j.
Proof.
  intros debug calls sched. assert (K : asked_once (orun (ostart debug calls) sched)).
  { assert (A : asked_once (ostart debug calls)) by (split; cbn; [auto|intros [|i] j g g' on on' X; discriminate X]). pose proof (start_live debug calls) as L.
    unfold orun. revert A L. generalize (ostart debug calls). induction sched as [|ge sched IH]; intros s A L; [exact A|]. cbn [fold_left]. apply IH; [apply step_asked; assumption|apply step_live, L]. }
  destruct K as [_ K]. exact K.
Qed.

(* nobody waits for ever: four rounds for every call are enough for all goroutines to finish *)
Theorem C84_all_finish :
  forall debug calls sched, turns_for_all (length calls) (4 * length (concat calls)) sched -> finished (orun (ostart debug calls) sched).
Proof.
  intros debug calls sched (rs & rest & -> & LR & T). unfold orun. rewrite fold_left_app. fold (orun (ostart debug calls) (concat rs)). fold (orun (orun (ostart debug calls) (concat rs)) rest).
  assert (F : finished (orun (ostart debug calls) (concat rs))).
  { apply rounds_finish; [apply start_live| |cbn [ostart os_gors]; rewrite map_length; exact T]. rewrite LR. unfold left_over. cbn [ostart os_gors]. rewrite map_map.
    clear. unfold list_sum. induction calls as [|c calls IH]; [cbn; lia|]. cbn [map fold_right concat]. rewrite app_length. unfold weight at 1. cbn [g_left g_pc]. lia. }
  rewrite finished_same; [exact F|exact F|]. apply run_live, start_live.
Qed.
(* the switch is never turned off: once a goroutine has been told "on", nobody is told "off" afterwards *)
Theorem C84_stays_on :
  forall debug calls sched i j g g' b, let tr := os_trace (orun (ostart debug calls) sched) in
  nth_error tr i = Some (g, ReadsDebug true) \/ nth_error tr i = Some (g, WritesDebug) -> nth_error tr j = Some (g', ReadsDebug b) -> (i < j)%nat -> b = true.
Proof.
  intros debug calls sched. set (ok := fun s => (forall i g, nth_error (os_trace s) i = Some (g, ReadsDebug true) \/ nth_error (os_trace s) i = Some (g, WritesDebug) ->
    os_debug s = true /\ forall j g' b, nth_error (os_trace s) j = Some (g', ReadsDebug b) -> (i < j)%nat -> b = true)).
  assert (K : ok (orun (ostart debug calls) sched)).
  { assert (A : ok (ostart debug calls)) by (intros [|i] g [X|X]; discriminate X). unfold orun. revert A. generalize (ostart debug calls).
    induction sched as [|ge sched IH]; intros s A; [exact A|]. cbn [fold_left]. apply IH. clear IH. destruct ge as [g env].
    assert (SN : forall s' es, os_trace s' = os_trace s ++ es -> (os_debug s = true -> os_debug s' = true) ->
      (forall k g, nth_error es k = Some (g, ReadsDebug true) \/ nth_error es k = Some (g, WritesDebug) -> os_debug s' = true) ->
      (forall k g b, nth_error es k = Some (g, ReadsDebug b) -> k = 0%nat /\ b = os_debug s) -> ok s').
    { intros s' es ET MON W RD i h EI. rewrite ET in *. destruct (Nat.lt_ge_cases i (length (os_trace s))) as [Li|Li].
      - rewrite nth_error_app1 in EI by exact Li. destruct (A i h EI) as [A1 A2]. split; [apply MON, A1|]. intros j g' b EJ LT. destruct (Nat.lt_ge_cases j (length (os_trace s))) as [Lj|Lj].
        + rewrite nth_error_app1 in EJ by exact Lj. exact (A2 j g' b EJ LT).
        + rewrite nth_error_app2 in EJ by exact Lj. destruct (RD _ _ _ EJ) as [_ ->]. exact A1.
      - rewrite nth_error_app2 in EI by exact Li. split; [exact (W _ _ EI)|]. intros j g' b EJ LT. rewrite nth_error_app2 in EJ by lia. destruct (RD _ _ _ EJ) as [X _]. lia. }
    assert (ONE : forall e k (g1 g2 : nat) (e2 : dev), nth_error [(g1, e)] k = Some (g2, e2) -> k = 0%nat /\ e2 = e) by (intros e [|[|k]] g1 g2 e2 X; try discriminate X; injection X as _ <-; auto).
    unfold ostep. destruct (nth_error (os_gors s) g) as [[pc lf saw]|] eqn:E; [|exact A]. destruct pc; [destruct lf as [|[] r]|..].
    - exact A.
    - destruct (os_once s); [|exact A|].
      + apply (SN _ []); [rewrite app_nil_r; reflexivity|auto|intros [|k] g0 [X|X]; discriminate X|intros [|k] g0 b X; discriminate X].
      + apply (SN _ [(g, DoReturns)]); [reflexivity|auto|intros k g0 [X|X]; apply ONE in X as [_ X]; discriminate X|intros k g0 b X; apply ONE in X as [_ X]; discriminate X].
    - apply (SN _ [(g, WritesDebug)]); [reflexivity|auto|reflexivity|intros k g0 b X; apply ONE in X as [_ X]; discriminate X].
    - eapply SN; [reflexivity|cbn [os_debug]; intros ->; destruct (env_on env); reflexivity| |].
      + cbn [os_debug]. intros k g0 X. destruct (env_on env); [reflexivity|]. exfalso. destruct X as [X|X]; apply ONE in X as [_ X]; discriminate X.
      + intros k g0 b X. destruct k as [|k]; [discriminate X|]. destruct (env_on env); destruct k as [|[|k]]; discriminate X.
    - apply (SN _ [(g, OnceOver); (g, DoReturns)]); [reflexivity|auto|intros [|[|[|k]]] g0 [X|X]; discriminate X|intros [|[|[|k]]] g0 b X; discriminate X].
    - apply (SN _ [(g, ReadsDebug (os_debug s))]); [reflexivity|auto| |].
      + cbn [os_debug]. intros k g0 [X|X]; apply ONE in X as [_ X]; [injection X as ->; reflexivity|discriminate X].
      + intros k g0 b X. apply ONE in X as [-> X]. injection X as ->. auto. }
  intros i j g g' b tr EI EJ LT. destruct (K i g EI) as [_ X]. exact (X j g' b EJ LT).
Qed.

(* "SetDebugMode may be called at any time": a call made while another goroutine asks is a data race *)
Theorem C84_set_meanwhile_refuted :
  ~ (forall debug calls sched, ~ data_race (os_trace (orun (ostart debug calls) sched))).
Proof.
  intros G. apply (G false [[Asks]; [Sets]] (map (fun g => (g, [])) [0; 0; 0; 1; 0]%nat)).
  assert (ET : os_trace (orun (ostart false [[Asks]; [Sets]]) (map (fun g => (g, [])) [0; 0; 0; 1; 0]%nat)) =
               [(0, ReadsEnv false); (0, OnceOver); (0, DoReturns); (1, WritesDebug); (0, ReadsDebug true)]%nat) by (vm_compute; reflexivity). rewrite ET.
  set (tr := [(0, ReadsEnv false); (0, OnceOver); (0, DoReturns); (1, WritesDebug); (0, ReadsDebug true)]%nat).
  assert (HB : forall i j, happens_before tr i j -> (i < j)%nat /\ i <> 3%nat /\ j <> 3%nat).
  { intros i j H. induction H as [g a b i j EI EJ LT|g g' i j EI EJ LT|i j k _ [A1 [A2 A3]] _ [B1 [B2 B3]]]; [| |lia].
    - split; [exact LT|]. split; intros ->; cbn in EI, EJ; [injection EI as <- <-; do 5 (destruct j as [|j]; [cbn in EJ; try lia; discriminate EJ|]); destruct j; discriminate EJ|].
      injection EJ as <- <-. do 5 (destruct i as [|i]; [cbn in EI; try lia; discriminate EI|]). lia.
    - split; [exact LT|]. split; intros ->; [discriminate EI|discriminate EJ]. }
  exists 3%nat, 4%nat, 1%nat, 0%nat, WritesDebug, (ReadsDebug true). split; [reflexivity|]. split; [reflexivity|]. split; [discriminate|]. split; [reflexivity|].
  split; [right; eexists; reflexivity|]. split; intros H; apply HB in H; lia.
Qed.

(* three goroutines, the environment on: all are told so *)
Example C84_example :
  only_asks [[Asks; Asks]; [Asks]; [Asks]] /\
  (let sched := concat (repeat [(0%nat, [49]); (1%nat, [49]); (2%nat, [])] 16) in
   turns_for_all 3 16 sched /\ answers (orun (ostart false [[Asks; Asks]; [Asks]; [Asks]]) sched) = [true; true; true; true] /\
   In (0%nat, ReadsEnv true) (os_trace (orun (ostart false [[Asks; Asks]; [Asks]; [Asks]]) sched))).
Proof.
  split; [intros c x IC IX; cbn in IC; destruct IC as [<-|[<-|[<-|[]]]]; cbn in IX; intuition congruence|]. cbv zeta. split; [|split; [vm_compute; reflexivity|vm_compute; auto]].
  exists (repeat [(0%nat, [49]); (1%nat, [49]); (2%nat, [])] 16), []. rewrite app_nil_r. split; [reflexivity|]. split; [reflexivity|]. apply Forall_forall. intros r I. apply repeat_spec in I. subst r.
  intros g Lg. destruct g as [|[|[|g]]]; [eexists; left; reflexivity|eexists; right; left; reflexivity|eexists; right; right; left; reflexivity|lia].
Qed.
Print Assumptions C84_no_race.
Print Assumptions C84_one_answer.
Print Assumptions C84_environment_asked_once.
Print Assumptions C84_all_finish.
Print Assumptions C84_stays_on.
Print Assumptions C84_set_meanwhile_refuted.
