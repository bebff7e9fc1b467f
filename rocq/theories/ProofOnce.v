(* Proofs for C84. *)
From Coq Require Import Lia.
From Verif Require Import ModelBase ModelDebug ModelOnce SpecOnce.

Lemma nth_upd {A} (l : list A) k j a : nth_error (upd_nat l k a) j = if Nat.eqb j k then (match nth_error l k with Some _ => Some a | None => None end) else nth_error l j.
Proof.
  revert k j. induction l as [|x l IH]; intros [|k] [|j]; cbn [upd_nat nth_error Nat.eqb]; try reflexivity; [destruct (Nat.eqb j k); reflexivity|]. rewrite IH. reflexivity.
Qed.
Lemma upd_length {A} (l : list A) k a : length (upd_nat l k a) = length l.
Proof. revert k. induction l as [|x l IH]; intros [|k]; cbn; auto. Qed.

(* ---- the shape of the trace when nobody calls SetDebugMode ---- *)
Definition asks_left (s : ostate) : Prop := forall g x, nth_error (os_gors s) g = Some x -> forall c, In c (g_left x) -> c = Asks.
Definition opening (g0 : nat) (on : bool) : list (nat * dev) := (g0, ReadsEnv on) :: (if on then [(g0, WritesDebug)] else []).
Definition post_ok (b : bool) (post : list (nat * dev)) : Prop := forall k g e, nth_error post k = Some (g, e) ->
  e = DoReturns \/ (e = ReadsDebug b /\ exists r, (r < k)%nat /\ nth_error post r = Some (g, DoReturns)).
Definition shape (init : bool) (s : ostate) : Prop :=
  match os_once s with
  | NotYet => os_trace s = [] /\ os_debug s = init /\ forall g x, nth_error (os_gors s) g = Some x -> g_pc x = AtCall /\ g_saw x = []
  | RunBy g0 => (forall g x, nth_error (os_gors s) g = Some x -> g_saw x = [] /\ (g <> g0 -> g_pc x = AtCall)) /\
      exists x0, nth_error (os_gors s) g0 = Some x0 /\
        ((g_pc x0 = InOnce /\ os_trace s = [] /\ os_debug s = init) \/
         (g_pc x0 = LeavingOnce /\ exists on, os_trace s = opening g0 on /\ os_debug s = (if on then true else init)))
  | Over => exists g0 on post, os_trace s = opening g0 on ++ (g0, OnceOver) :: post /\ os_debug s = (if on then true else init) /\ post_ok (os_debug s) post /\
      forall g x, nth_error (os_gors s) g = Some x -> (g_pc x = AtCall \/ (g_pc x = AfterOnce /\ exists r, nth_error post r = Some (g, DoReturns))) /\ forall b, In b (g_saw x) -> b = os_debug s
  end.

Lemma start_shape init calls : only_asks calls -> shape init (ostart init calls) /\ asks_left (ostart init calls).
Proof.
  intros OA. split.
  - cbn. split; [reflexivity|]. split; [reflexivity|]. intros g x E. rewrite nth_error_map in E. destruct (nth_error calls g); [|discriminate E]. injection E as <-. split; reflexivity.
  - intros g x E c I. cbn in E. rewrite nth_error_map in E. destruct (nth_error calls g) eqn:EC; [|discriminate E]. injection E as <-. eapply OA; [eapply nth_error_In; exact EC|exact I].
Qed.
Lemma post_snoc b post g e : post_ok b post -> (e = DoReturns \/ (e = ReadsDebug b /\ exists r, nth_error post r = Some (g, DoReturns))) -> post_ok b (post ++ [(g, e)]).
Proof.
  intros P H k g' e' E. destruct (Nat.lt_ge_cases k (length post)) as [L|L].
  - rewrite nth_error_app1 in E by exact L. destruct (P k g' e' E) as [->|(-> & r & R & ER)]; [left; reflexivity|right; split; [reflexivity|]]. exists r. split; [exact R|]. rewrite nth_error_app1 by lia. exact ER.
  - rewrite nth_error_app2 in E by exact L. destruct (k - length post)%nat as [|d] eqn:ED; [|destruct d; discriminate E]. injection E as <- <-.
    destruct H as [->|(-> & r & ER)]; [left; reflexivity|right; split; [reflexivity|]]. exists r. assert (r < length post)%nat by (apply nth_error_Some; congruence). split; [lia|]. rewrite nth_error_app1 by assumption. exact ER.
Qed.
Lemma step_asks s ge : asks_left s -> asks_left (ostep s ge).
Proof.
  intros A. destruct ge as [g env]. unfold ostep. destruct (nth_error (os_gors s) g) as [[pc lf saw]|] eqn:E; [|exact A].
  assert (U : forall s' x', os_gors s' = upd_nat (os_gors s) g x' -> (forall c, In c (g_left x') -> In c lf) -> asks_left s').
  { intros s' x' EG IN j x EJ c I. rewrite EG, nth_upd in EJ. destruct (Nat.eqb_spec j g) as [->|N]; [|exact (A j x EJ c I)]. rewrite E in EJ. injection EJ as <-. exact (A g _ E c (IN c I)). }
  destruct pc; [destruct lf as [|[] r]|..].
  - exact A.
  - destruct (os_once s); [eapply U; [reflexivity|auto]|exact A|eapply U; [reflexivity|auto]].
  - eapply U; [reflexivity|]. intros c I. right. exact I.
  - eapply U; [reflexivity|auto].
  - eapply U; [reflexivity|auto].
  - eapply U; [reflexivity|]. intros c I. destruct lf; [exact I|right; exact I].
Qed.
Lemma step_shape init s ge : asks_left s -> shape init s -> shape init (ostep s ge).
Proof.
  intros A SH. destruct ge as [g env]. unfold ostep. destruct (nth_error (os_gors s) g) as [[pc lf saw]|] eqn:E; [|exact SH].
  destruct s as [dbg oc gs tr]. cbn [os_gors os_once os_debug os_trace] in *. unfold shape in SH |- *. unfold set_g. cbn [os_gors os_once os_debug os_trace] in *.
  assert (NS : forall r, lf = Sets :: r -> False) by (intros r ->; specialize (A g _ E Sets ltac:(left; reflexivity)); discriminate A).
  destruct pc.
  - destruct lf as [|[] r]; [exact SH| |destruct (NS r eq_refl)]. destruct oc as [|g0|]; [|exact SH|].
    + destruct SH as (-> & -> & SH). split.
      * intros j x EJ. cbn [os_gors] in EJ; rewrite nth_upd in EJ. destruct (Nat.eqb_spec j g) as [->|N]; [rewrite E in EJ; injection EJ as <-; destruct (SH g _ E) as [_ S2]; split; [exact S2|congruence]|].
        destruct (SH j x EJ) as [S1 S2]. split; [exact S2|auto].
      * eexists. cbn [os_gors]; rewrite nth_upd, Nat.eqb_refl, E. split; [reflexivity|]. left. repeat split.
    + destruct SH as (g0 & on & post & -> & -> & P & SH). exists g0, on, (post ++ [(g, DoReturns)]). split; [rewrite <- app_assoc; reflexivity|]. split; [reflexivity|].
      split; [apply post_snoc; [exact P|left; reflexivity]|]. intros j x EJ. cbn [os_gors] in EJ; rewrite nth_upd in EJ. destruct (Nat.eqb_spec j g) as [->|N].
      * rewrite E in EJ. injection EJ as <-. cbn [g_pc g_saw]. destruct (SH g _ E) as [_ S2]. split; [|exact S2]. right. split; [reflexivity|]. exists (length post). rewrite nth_error_app2, Nat.sub_diag by lia. reflexivity.
      * destruct (SH j x EJ) as [[S1|(S1 & r0 & S2)] S3]; (split; [|exact S3]); [left; exact S1|right]. split; [exact S1|]. exists r0. rewrite nth_error_app1 by (apply nth_error_Some; congruence). exact S2.
  - destruct oc as [|g0|].
    + destruct SH as (_ & _ & SH). destruct (SH g _ E) as [X _]. discriminate X.
    + destruct SH as [SH (x0 & E0 & SH0)]. destruct (Nat.eq_dec g g0) as [->|N]; [|destruct (SH g _ E) as [_ X]; specialize (X N); discriminate X].
      rewrite E in E0. injection E0 as <-. destruct SH0 as [(_ & -> & ->)|[X _]]; [|discriminate X]. split.
      * intros j x EJ. cbn [os_gors] in EJ; rewrite nth_upd in EJ. destruct (Nat.eqb_spec j g0) as [->|N]; [|exact (SH j x EJ)]. rewrite E in EJ. injection EJ as <-. destruct (SH g0 _ E) as [S1 _]. split; [exact S1|congruence].
      * eexists. cbn [os_gors]; rewrite nth_upd, Nat.eqb_refl, E. split; [reflexivity|]. right. split; [reflexivity|]. exists (env_on env). split; reflexivity.
    + destruct SH as (g0 & on & post & _ & _ & _ & SH). destruct (SH g _ E) as [[X|[X _]] _]; discriminate X.
  - destruct oc as [|g0|].
    + destruct SH as (_ & _ & SH). destruct (SH g _ E) as [X _]. discriminate X.
    + destruct SH as [SH (x0 & E0 & SH0)]. destruct (Nat.eq_dec g g0) as [->|N]; [|destruct (SH g _ E) as [_ X]; specialize (X N); discriminate X].
      rewrite E in E0. injection E0 as <-. destruct SH0 as [[X _]|(_ & on & -> & ->)]; [discriminate X|].
      exists g0, on, [(g0, DoReturns)]. split; [reflexivity|]. split; [reflexivity|]. split.
      * intros k g' e EK. destruct k as [|k]; [injection EK as <- <-; left; reflexivity|destruct k; discriminate EK].
      * intros j x EJ. cbn [os_gors] in EJ; rewrite nth_upd in EJ. destruct (Nat.eqb_spec j g0) as [->|N].
        -- rewrite E in EJ. injection EJ as <-. cbn [g_pc g_saw]. destruct (SH g0 _ E) as [S1 _]. cbn [g_saw] in S1. rewrite S1. split; [right; split; [reflexivity|exists 0%nat; reflexivity]|intros b []].
        -- destruct (SH j x EJ) as [S1 S2]. rewrite S1. split; [left; exact (S2 N)|intros b []].
    + destruct SH as (g0 & on & post & _ & _ & _ & SH). destruct (SH g _ E) as [[X|[X _]] _]; discriminate X.
  - destruct oc as [|g0|].
    + destruct SH as (_ & _ & SH). destruct (SH g _ E) as [X _]. discriminate X.
    + destruct SH as [SH (x0 & E0 & SH0)]. destruct (Nat.eq_dec g g0) as [->|N]; [|destruct (SH g _ E) as [_ X]; specialize (X N); discriminate X].
      rewrite E in E0. injection E0 as <-. destruct SH0 as [[X _]|[X _]]; discriminate X.
    + destruct SH as (g0 & on & post & -> & -> & P & SH). exists g0, on, (post ++ [(g, ReadsDebug (if on then true else init))]).
      destruct (SH g _ E) as [[X|(_ & r & ER)] SW]; [discriminate X|]. cbn [g_saw] in SW. split; [rewrite <- app_assoc; reflexivity|]. split; [reflexivity|].
      split; [apply post_snoc; [exact P|right; split; [reflexivity|exists r; exact ER]]|].
      intros j x EJ. cbn [os_gors] in EJ; rewrite nth_upd in EJ. destruct (Nat.eqb_spec j g) as [->|N].
      * rewrite E in EJ. injection EJ as <-. cbn [g_pc g_saw]. split; [left; reflexivity|]. intros b I. apply in_app_or in I as [I|[I|[]]]; [apply SW, I|symmetry; exact I].
      * destruct (SH j x EJ) as [[S1|(S1 & r0 & S2)] S3]; (split; [|exact S3]); [left; exact S1|right]. split; [exact S1|]. exists r0. rewrite nth_error_app1 by (apply nth_error_Some; congruence). exact S2.
Qed.
Lemma run_shape init s sched : asks_left s -> shape init s -> shape init (orun s sched).
Proof. unfold orun. revert s. induction sched as [|ge sched IH]; intros s A SH; [exact SH|]. apply IH; [apply step_asks, A|apply step_shape; assumption]. Qed.

(* ---- nobody waits for ever ---- *)
Definition weight (x : goroutine) : nat := 4 * length (g_left x) - match g_pc x with AtCall => 0 | InOnce => 1 | LeavingOnce => 2 | AfterOnce => 3 end.
Definition left_over (s : ostate) : nat := list_sum (map weight (os_gors s)).
Definition live (s : ostate) : Prop :=
  (forall g x, nth_error (os_gors s) g = Some x -> g_pc x <> AtCall -> g_left x <> []) /\
  (forall g0, os_once s = RunBy g0 -> exists x0, nth_error (os_gors s) g0 = Some x0 /\ (g_pc x0 = InOnce \/ g_pc x0 = LeavingOnce)) /\
  (forall g x, nth_error (os_gors s) g = Some x -> g_pc x = InOnce \/ g_pc x = LeavingOnce -> os_once s = RunBy g).
Lemma start_live init calls : live (ostart init calls).
Proof.
  split; [|split]; cbn; [|discriminate|]; intros g x E; rewrite nth_error_map in E; (destruct (nth_error calls g); [|discriminate E]); injection E as <-; cbn; [congruence|intros [X|X]; discriminate X].
Qed.
Lemma sum_upd (l : list goroutine) k x a : nth_error l k = Some x -> (list_sum (map weight (upd_nat l k a)) + weight x = list_sum (map weight l) + weight a)%nat.
Proof.
  unfold list_sum. revert k. induction l as [|y l IH]; intros [|k] E; try discriminate E; cbn [upd_nat map fold_right]; [injection E as ->; lia|]. specialize (IH k E). lia.
Qed.
(* a step changes nothing, or something is done; it changes nothing only in a goroutine that is finished or waits for another *)
Lemma step_progress s g env x : live s -> nth_error (os_gors s) g = Some x ->
  live (ostep s (g, env)) /\
  ((ostep s (g, env) = s /\ g_pc x = AtCall /\ (g_left x = [] \/ exists g0, os_once s = RunBy g0)) \/ (left_over (ostep s (g, env)) < left_over s)%nat).
Proof.
  intros [L1 [L2 L3]] E. unfold ostep. rewrite E. destruct x as [pc lf saw]. cbn [g_pc g_left].
  assert (ST : forall pc' lf' saw' dbg oc tr, (weight (mkG pc' lf' saw') < weight (mkG pc lf saw))%nat -> (pc' <> AtCall -> lf' <> []) ->
    (forall g0, oc = RunBy g0 -> g0 = g /\ (pc' = InOnce \/ pc' = LeavingOnce) \/ g0 <> g /\ os_once s = RunBy g0) ->
    ((pc' = InOnce \/ pc' = LeavingOnce) -> oc = RunBy g) -> (forall g0, g0 <> g -> os_once s = RunBy g0 -> oc = RunBy g0) ->
    let s' := mkOst dbg oc (set_g s g (mkG pc' lf' saw')) tr in live s' /\ (left_over s' < left_over s)%nat).
  { intros pc' lf' saw' dbg oc tr W NE OC OC2 OC3. cbv zeta. split.
    - split; [|split]; unfold set_g; cbn [os_gors os_once].
      + intros j x EJ NP. rewrite nth_upd in EJ. destruct (Nat.eqb_spec j g) as [->|N]; [|exact (L1 j x EJ NP)]. rewrite E in EJ. injection EJ as <-. apply NE, NP.
      + intros g0 EO. destruct (OC g0 EO) as [[-> P]|[N EO']].
        * eexists. rewrite nth_upd, Nat.eqb_refl, E. split; [reflexivity|exact P].
        * destruct (L2 g0 EO') as (x0 & E0 & P0). exists x0. rewrite nth_upd. destruct (Nat.eqb_spec g0 g); [congruence|]. auto.
      + intros j x EJ P. rewrite nth_upd in EJ. destruct (Nat.eqb_spec j g) as [->|N]; [rewrite E in EJ; injection EJ as <-; apply OC2, P|]. apply OC3; [exact N|]. exact (L3 j x EJ P).
    - unfold left_over, set_g. cbn [os_gors]. pose proof (sum_upd _ _ _ (mkG pc' lf' saw') E). lia. }
  pose proof (L1 g _ E) as NE. cbn [g_pc g_left] in NE. pose proof (L3 g _ E) as RB. cbn [g_pc] in RB.
  destruct pc; [destruct lf as [|[] r]|..].
  - split; [repeat split; assumption|]. left. auto.
  - destruct (os_once s) as [|g0|] eqn:EO.
    + destruct (ST InOnce (Asks :: r) saw (os_debug s) (RunBy g) (os_trace s)) as [A B]; [unfold weight; cbn [g_left g_pc length]; lia|discriminate| |auto|intros g0 _ X; discriminate X|split; [exact A|right; exact B]].
      intros g0 X. injection X as <-. left. auto.
    + split; [split; [exact L1|]; rewrite EO; split; [exact L2|exact L3]|]. left. split; [reflexivity|]. split; [reflexivity|]. right. exists g0. reflexivity.
    + destruct (ST AfterOnce (Asks :: r) saw (os_debug s) Over (os_trace s ++ [(g, DoReturns)])) as [A B]; [unfold weight; cbn [g_left g_pc length]; lia|discriminate|discriminate|intros [X|X]; discriminate X|intros g0 _ X; discriminate X|split; [exact A|right; exact B]].
  - destruct (ST AtCall r saw true (os_once s) (os_trace s ++ [(g, WritesDebug)])) as [A B]; [unfold weight; cbn [g_left g_pc length]; lia|congruence| |intros [X|X]; discriminate X|auto|split; [exact A|right; exact B]].
    intros g0 EO. right. split; [|exact EO]. intros ->. destruct (L2 g EO) as (x0 & E0 & P0). rewrite E in E0. injection E0 as <-. destruct P0 as [P0|P0]; discriminate P0.
  - specialize (RB (or_introl eq_refl)). specialize (NE ltac:(discriminate)).
    destruct (ST LeavingOnce lf saw (if env_on env then true else os_debug s) (os_once s) (os_trace s ++ (g, ReadsEnv (env_on env)) :: (if env_on env then [(g, WritesDebug)] else []))) as [A B].
    + unfold weight. cbn [g_left g_pc]. destruct lf; [congruence|cbn [length]; lia].
    + auto.
    + intros g0 X. left. split; [congruence|auto].
    + auto.
    + auto.
    + split; [exact A|right; exact B].
  - specialize (RB (or_intror eq_refl)). specialize (NE ltac:(discriminate)).
    destruct (ST AfterOnce lf saw (os_debug s) Over (os_trace s ++ [(g, OnceOver); (g, DoReturns)])) as [A B].
    + unfold weight. cbn [g_left g_pc]. destruct lf; [congruence|cbn [length]; lia].
    + auto.
    + discriminate.
    + intros [X|X]; discriminate X.
    + intros g0 N X. congruence.
    + split; [exact A|right; exact B].
  - specialize (NE ltac:(discriminate)).
    destruct (ST AtCall (tl lf) (saw ++ [os_debug s]) (os_debug s) (os_once s) (os_trace s ++ [(g, ReadsDebug (os_debug s))])) as [A B].
    + unfold weight. cbn [g_left g_pc]. destruct lf; [congruence|cbn [length tl]; lia].
    + congruence.
    + intros g0 EO. right. split; [|exact EO]. intros ->. destruct (L2 g EO) as (x0 & E0 & P0). rewrite E in E0. injection E0 as <-. destruct P0 as [P0|P0]; discriminate P0.
    + intros [X|X]; discriminate X.
    + auto.
    + split; [exact A|right; exact B].
Qed.
Lemma step_live s ge : live s -> live (ostep s ge) /\ (ostep s ge = s \/ (left_over (ostep s ge) < left_over s)%nat).
Proof.
  intros L. destruct ge as [g env]. destruct (nth_error (os_gors s) g) as [x|] eqn:E; [|unfold ostep; rewrite E; auto].
  destruct (step_progress s g env x L E) as [A [(B & _)|B]]; auto.
Qed.
Lemma step_count s ge : length (os_gors (ostep s ge)) = length (os_gors s).
Proof.
  destruct ge as [g env]. unfold ostep. destruct (nth_error (os_gors s) g) as [[pc lf saw]|]; [|reflexivity].
  destruct pc; [destruct lf as [|[] r]; [reflexivity|destruct (os_once s); [|reflexivity|]|]|..]; unfold set_g; cbn [os_gors]; apply upd_length.
Qed.
Lemma run_live sched : forall s, live s -> live (orun s sched) /\ length (os_gors (orun s sched)) = length (os_gors s) /\ (orun s sched = s \/ (left_over (orun s sched) < left_over s)%nat).
Proof.
  unfold orun. induction sched as [|ge sched IH]; intros s L; [auto|]. cbn [fold_left]. destruct (step_live s ge L) as [L' P]. destruct (IH _ L') as (A & C & B). rewrite step_count in C. split; [exact A|]. split; [exact C|].
  destruct P as [P|P].
  - rewrite P in *. destruct B as [B|B]; [left; exact B|right; exact B].
  - right. destruct B as [B|B]; [rewrite B; exact P|lia].
Qed.
Lemma round_progress s r : live s -> (forall g, (g < length (os_gors s))%nat -> exists e, In (g, e) r) -> ~ finished s -> (left_over (orun s r) < left_over s)%nat.
Proof.
  intros L T NF.
  assert (EX : exists g x, nth_error (os_gors s) g = Some x /\ (g_pc x <> AtCall \/ (g_left x <> [] /\ forall g0, os_once s <> RunBy g0))).
  { assert (U : exists x, In x (os_gors s) /\ g_left x <> []).
    { clear - NF. unfold finished in NF. induction (os_gors s) as [|x l IH]; [destruct NF; intros g []|]. destruct (g_left x) as [|c lf] eqn:E.
      - destruct IH as (y & I & N); [intros F; apply NF; intros g [<-|I]; [exact E|apply F, I]|]. exists y. split; [right; exact I|exact N].
      - exists x. split; [left; reflexivity|congruence]. }
    destruct U as (x & I & N). apply In_nth_error in I as [g E]. destruct (os_once s) as [|g0|] eqn:EO.
    - exists g, x. split; [exact E|]. right. split; [exact N|discriminate].
    - destruct L as [_ [L2 _]]. destruct (L2 g0 EO) as (x0 & E0 & P0). exists g0, x0. split; [exact E0|]. left. destruct P0 as [->| ->]; discriminate.
    - exists g, x. split; [exact E|]. right. split; [exact N|discriminate]. }
  destruct EX as (g & x & E & P). assert (GL : (g < length (os_gors s))%nat) by (apply nth_error_Some; congruence). destruct (T g GL) as [e I]. clear T NF.
  unfold orun. revert s L E P GL. induction r as [|ge r IH]; intros s L E P GL; [destruct I|]. cbn [fold_left]. destruct (step_live s ge L) as [L' [PR|PR]].
  - destruct I as [->|I]; [|rewrite PR; apply IH; assumption].
    destruct (step_progress s g e x L E) as [_ [(_ & C1 & C2)|C]]; [|rewrite PR in C; lia]. exfalso. destruct P as [P|[P1 P2]]; [congruence|]. destruct C2 as [C2|[g0 C2]]; [congruence|exact (P2 g0 C2)].
  - destruct (run_live r _ L') as (_ & _ & [B|B]); unfold orun in B; [rewrite B; exact PR|lia].
Qed.
Lemma finished_dec s : finished s \/ ~ finished s.
Proof.
  unfold finished. induction (os_gors s) as [|x l IH]; [left; intros g []|]. destruct IH as [IH|IH]; [|right; intros F; apply IH; intros g I; apply F; right; exact I].
  destruct (g_left x) eqn:E; [left; intros g [<-|I]; [exact E|apply IH, I]|right; intros F; rewrite (F x (or_introl eq_refl)) in E; discriminate E].
Qed.
Lemma finished_same s : finished s -> live s -> forall sched, orun s sched = s.
Proof.
  intros F L sched. unfold orun. induction sched as [|[g env] sched IH]; [reflexivity|]. cbn [fold_left]. assert (E : ostep s (g, env) = s); [|rewrite E; exact IH].
  unfold ostep. destruct (nth_error (os_gors s) g) as [[pc lf saw]|] eqn:EG; [|reflexivity]. specialize (F _ (nth_error_In _ _ EG)). cbn [g_left] in F. subst lf.
  destruct L as [L1 _]. specialize (L1 g _ EG). cbn [g_pc g_left] in L1. destruct pc; [reflexivity|exfalso; apply L1; [discriminate|reflexivity]..].
Qed.
Lemma rounds_finish rs : forall s, live s -> (left_over s <= length rs)%nat -> Forall (fun r => forall g, (g < length (os_gors s))%nat -> exists e, In (g, e) r) rs -> finished (orun s (concat rs)).
Proof.
  induction rs as [|r rs IH]; intros s L M F; destruct (finished_dec s) as [D|D].
  - exact D.
  - exfalso. cbn [length] in M. apply D. intros x I. apply In_nth_error in I as [g E].
    assert (W : weight x = 0%nat) by (unfold left_over in M; pose proof (sum_upd _ _ _ x E); clear - M E; revert g E M; unfold list_sum; induction (os_gors s) as [|y l IHl]; intros [|g] E M; try discriminate E; cbn [map fold_right] in M; [injection E as ->; lia|eapply IHl; [exact E|lia]]).
    unfold weight in W. destruct L as [L1 _]. specialize (L1 g x E). destruct (g_left x) as [|c lf]; [reflexivity|]. destruct (g_pc x); cbn [length] in W; lia.
  - rewrite finished_same by assumption. exact D.
  - inversion F as [|? ? F1 F2]; subst. pose proof (round_progress s r L F1 D) as PR. destruct (run_live r s L) as (L' & CN & _).
    cbn [concat]. unfold orun. rewrite fold_left_app. apply IH; [exact L'|cbn [length] in M; unfold orun in PR; lia|]. unfold orun in CN. rewrite CN. exact F2.
Qed.
