(* C86: one Writer used by several goroutines. *)
From Coq Require Import Lia.
From Verif Require Import ModelBase ModelMatrix ModelSave ModelCompressed ModelStandard ModelWriters ModelShared.
From Verif Require Import SpecMatrix SpecStandard SpecMedium SpecCrash SpecMany.
From Verif Require Import ProofBase ProofCompressed ProofStandard ProofMedium ProofCrash ProofViews.
From Verif Require PropsStandard.

Lemma interleaved_snoc (A : Type) (ls : list (list A)) tr : interleaved ls tr -> forall bf l af p, ls = bf ++ l :: af -> interleaved (bf ++ (l ++ [p]) :: af) (tr ++ [p]).
Proof.
  induction 1 as [ls F|bf0 op l0 af0 tr H IH]; intros bf l af p E.
  - subst ls. apply Forall_app in F as [F1 F2]. inversion F2; subst. apply one_more, all_done. apply Forall_app. split; [exact F1|]. constructor; [reflexivity|assumption].
  - cbn [app].
    assert (C : (bf = bf0 /\ l = op :: l0 /\ af = af0) \/ (exists x, bf = bf0 ++ (op :: l0) :: x /\ af0 = x ++ l :: af) \/ (exists x, bf0 = bf ++ l :: x /\ af = x ++ (op :: l0) :: af0)).
    { apply app_eq_app in E as (x & [[E1 E2]|[E1 E2]]); destruct x as [|y x]; cbn [app] in E2; rewrite ?app_nil_r in E1; injection E2 as E2 E3.
      - left. auto.
      - right. right. exists x. subst. auto.
      - left. auto.
      - right. left. exists x. subst. auto. }
    destruct C as [(-> & -> & ->)|[(x & -> & ->)|(x & -> & ->)]].
    + change ((op :: l0) ++ [p]) with (op :: (l0 ++ [p])). apply one_more. apply (IH bf0 l0 af0 p). reflexivity.
    + rewrite <- app_assoc. cbn [app]. apply one_more.
      replace (bf0 ++ l0 :: x ++ (l ++ [p]) :: af) with ((bf0 ++ l0 :: x) ++ (l ++ [p]) :: af) by (rewrite <- app_assoc; reflexivity). apply IH. rewrite <- app_assoc. reflexivity.
    + replace (bf ++ (l ++ [p]) :: x ++ (op :: l0) :: af0) with ((bf ++ (l ++ [p]) :: x) ++ (op :: l0) :: af0) by (rewrite <- app_assoc; reflexivity).
      apply one_more. replace ((bf ++ (l ++ [p]) :: x) ++ l0 :: af0) with (bf ++ (l ++ [p]) :: (x ++ l0 :: af0)) by (rewrite <- app_assoc; reflexivity).
      apply IH. rewrite <- app_assoc. reflexivity.
Qed.
Lemma nth_set gos i j p x : nth_error gos i = Some x -> nth_error (set_phase gos i p) j = if (j =? i)%nat then Some p else nth_error gos j.
Proof.
  intros E. unfold set_phase. assert (L : (i < length gos)%nat) by (apply nth_error_Some; congruence). assert (LF : length (firstn i gos) = i) by (rewrite firstn_length; lia).
  destruct (Nat.eqb_spec j i) as [->|N]; [rewrite nth_error_app2, LF, Nat.sub_diag by lia; reflexivity|].
  destruct (Nat.lt_ge_cases j i) as [LE|LE].
  - rewrite nth_error_app1 by lia. rewrite <- (firstn_skipn i gos) at 2. rewrite nth_error_app1 by lia. reflexivity.
  - rewrite nth_error_app2, LF by lia. destruct (j - i)%nat as [|d] eqn:ED; [lia|]. cbn [nth_error]. rewrite <- (firstn_skipn (S i) gos) at 2.
    rewrite nth_error_app2, firstn_length by (rewrite firstn_length; lia). f_equal. lia.
Qed.

Section Shared.
Context (encode : encoder -> Z * Z * canvas -> list (list Z)) (fails : nat -> option nat)
        (others : shape -> canvas -> call -> canvas) (scale : image -> Z -> Z -> Z -> Z).
Notation srun := (shared_run encode fails others scale).
Notation sstep := (shared_step encode fails others scale).

(* the encoded picture of a symbol, in the pieces in which the encoder writes it, by a Writer with the options o *)
Definition encoded (o : options) (m : Matrix) (pieces : list (list Z)) : Prop :=
  exists w h cv o', draw others scale m o = Some (w, h, cv, o') /\ pieces = encode (o_encoder o') (w, h, cv).

(* what a goroutine has put into the file so far, and what is still to come *)
Definition at_phase (o : options) (m : Matrix) (part : list (list Z)) (ph : phase) : Prop :=
  match ph with
  | Drawing m' => m' = m /\ part = []
  | Writing r => encoded o m (part ++ r)
  | Closing (Returned None) | Ended (Returned None) => encoded o m part
  | Closing Panicked | Ended Panicked => False
  | Closing (Returned (Some _)) | Ended (Returned (Some _)) => exists pieces, encoded o m pieces /\ prefix (concat part) (concat pieces)
  end.
Definition inv (o : options) (ms : list Matrix) (st : shared) : Prop :=
  sh_options st = o /\ exists parts tr, interleaved parts tr /\ o_content (s_file (sh_sink st)) = concat tr /\ o_pos (s_file (sh_sink st)) = length (concat tr) /\
  length parts = length ms /\ length (sh_gos st) = length ms /\
  forall i m part ph, nth_error ms i = Some m -> nth_error parts i = Some part -> nth_error (sh_gos st) i = Some ph -> at_phase o m part ph.

Lemma write_at_end s p : o_pos s = length (o_content s) -> o_content (os_write s p) = o_content s ++ p /\ o_pos (os_write s p) = length (o_content s ++ p).
Proof. intros E. unfold os_write. cbn [o_content o_pos]. rewrite E, firstn_all, skipn_all2 by lia. rewrite app_nil_r, app_length. split; reflexivity. Qed.

Lemma inv_step o ms : o_bgTransparent o = false -> Forall (fun m => exists n, square n m) ms -> forall st i, inv o ms st -> inv o ms (sstep st i).
Proof.
  intros NT SQ st i I. pose proof I as (EO & parts & tr & IL & EC & EP & LP & LG & A). unfold shared_step. destruct (nth_error (sh_gos st) i) as [ph|] eqn:EN; [|exact I].
  assert (LI : (i < length ms)%nat) by (rewrite <- LG; apply nth_error_Some; congruence).
  destruct (nth_error ms i) as [m|] eqn:EM; [|apply nth_error_None in EM; lia]. destruct (nth_error parts i) as [part|] eqn:EPa; [|apply nth_error_None in EPa; lia].
  pose proof (A i m part ph EM EPa EN) as AI.
  assert (LS : forall p, length (set_phase (sh_gos st) i p) = length ms) by (intros p; unfold set_phase; rewrite app_length, firstn_length; cbn [length]; rewrite skipn_length; lia).
  (* a step that writes nothing *)
  assert (QUIET : forall s' p, s_file s' = s_file (sh_sink st) -> at_phase o m part p -> inv o ms (mkShared s' o (set_phase (sh_gos st) i p))).
  { intros s' p ES AP. split; [reflexivity|]. exists parts, tr. cbn [sh_sink sh_gos]. rewrite ES, LS. repeat (split; [assumption || reflexivity|]).
    intros j m' part' ph' E1 E2 E3. rewrite (nth_set _ _ _ _ _ EN) in E3. destruct (Nat.eqb_spec j i) as [->|N]; [|exact (A j m' part' ph' E1 E2 E3)].
    rewrite EM in E1. rewrite EPa in E2. injection E1 as <-. injection E2 as <-. injection E3 as <-. exact AP. }
  destruct ph as [m'|[|p r]|res|res].
  - cbn [at_phase] in AI. destruct AI as [-> ->]. rewrite EO. assert (SM : exists n, square n m) by (rewrite Forall_forall in SQ; exact (SQ m (nth_error_In _ _ EM))). destruct SM as [n SM].
    destruct (PropsStandard.C47_repeatable_partial others scale n m o SM) as (w & h & cv & o' & ED & OO & _). rewrite ED. rewrite (OO NT).
    apply QUIET; [reflexivity|]. assert (EN' : encoded o m (encode (o_encoder o) (w, h, cv))) by (exists w, h, cv, o'; rewrite ED, (OO NT); auto).
    destruct (encoder_refuses (o_encoder o) w h); cbn [at_phase]; [|exact EN']. eexists. split; [exact EN'|apply prefix_nil].
  - rewrite EO. apply QUIET; [reflexivity|]. cbn [at_phase] in *. rewrite app_nil_r in AI. exact AI.
  - cbn [at_phase] in AI. assert (WR : exists s' e, sink_write fails (sh_sink st) p = (s', e) /\
      ((e = Some ErrClosed /\ s_file s' = s_file (sh_sink st)) \/ exists d rest, p = d ++ rest /\ s_file s' = os_write (s_file (sh_sink st)) d /\ (e = None -> rest = []))).
    { unfold sink_write. destruct (s_open (sh_sink st)); [|eexists; eexists; split; [reflexivity|left; auto]]. destruct (fails (s_calls (sh_sink st))) as [k|].
      - eexists. eexists. split; [reflexivity|]. right. exists (firstn (Nat.min k (length p - 1)) p), (skipn (Nat.min k (length p - 1)) p). split; [symmetry; apply firstn_skipn|]. split; [reflexivity|discriminate].
      - eexists. eexists. split; [reflexivity|]. right. exists p, []. split; [symmetry; apply app_nil_r|]. split; reflexivity. }
    destruct WR as (s' & e & EW & K). rewrite EW, EO. destruct K as [[-> EF]|(d & rest & Ep & EF & EE)].
    + apply QUIET; [exact EF|]. cbn [at_phase]. exists (part ++ p :: r). split; [exact AI|]. rewrite concat_app. apply prefix_first.
    + destruct (write_at_end (s_file (sh_sink st)) d) as [W1 W2]; [rewrite EP, EC; reflexivity|]. destruct (nth_error_split parts i EPa) as (bf & af & -> & LB).
      split; [reflexivity|]. exists (bf ++ (part ++ [d]) :: af), (tr ++ [d]). cbn [sh_sink sh_gos]. rewrite EF, LS, concat_app. cbn [concat]. rewrite app_nil_r, <- EC.
      split; [apply (interleaved_snoc _ _ _ IL _ _ _ _ eq_refl)|]. split; [exact W1|]. split; [exact W2|]. split; [rewrite app_length in *; exact LP|]. split; [reflexivity|].
      intros j m' part' ph' E1 E2 E3. rewrite (nth_set _ _ _ _ _ EN) in E3. destruct (Nat.eqb_spec j i) as [->|N].
      * rewrite EM in E1. rewrite nth_error_app2, LB, Nat.sub_diag in E2 by lia. injection E1 as <-. injection E2 as <-. injection E3 as <-. destruct e as [e|]; cbn [at_phase].
        { exists (part ++ p :: r). split; [exact AI|]. rewrite !concat_app. cbn [concat]. apply prefix_app. rewrite app_nil_r, Ep, <- app_assoc. apply prefix_first. }
        { rewrite (EE eq_refl), app_nil_r in Ep. subst d. rewrite <- app_assoc. exact AI. }
      * apply (A j m' part' ph' E1); [|exact E3]. rewrite <- E2. destruct (Nat.lt_ge_cases j i) as [LE|LE]; [rewrite !nth_error_app1 by lia; reflexivity|].
        rewrite !nth_error_app2 by lia. destruct (j - length bf)%nat eqn:EJ; [lia|reflexivity].
  - rewrite EO. apply QUIET; [unfold sink_close; destruct (s_open (sh_sink st)); reflexivity|]. exact AI.
  - exact I.
Qed.

(* Whatever the schedule: the file holds whole Write calls of the goroutines, each goroutine's in its order; of a goroutine whose Save
   reports success all of them are there *)
Theorem C86_what_is_in_the_file :
  forall old o ms sched st, o_bgTransparent o = false -> Forall (fun m => exists n, square n m) ms -> srun (shared_start (standard_new old) o ms) sched = st ->
  exists parts tr, interleaved parts tr /\ o_content (s_file (sh_sink st)) = concat tr /\
  forall i m, nth_error ms i = Some m -> exists part ph, nth_error parts i = Some part /\ nth_error (sh_gos st) i = Some ph /\
    exists pieces, encoded o m pieces /\ prefix (concat part) (concat pieces) /\ (ph = Ended (Returned None) -> part = pieces) /\ ph <> Ended Panicked.
Proof.
  intros old o ms sched st NT SQ <-.
  assert (I : inv o ms (srun (shared_start (standard_new old) o ms) sched)).
  { assert (I0 : inv o ms (shared_start (standard_new old) o ms)).
    { split; [reflexivity|]. exists (repeat [] (length ms)), []. split; [apply all_done; clear; induction ms; cbn; constructor; auto|]. split; [reflexivity|]. split; [reflexivity|].
      split; [apply repeat_length|]. cbn [sh_gos shared_start]. split; [apply map_length|]. intros i m part ph E1 E2 E3. rewrite (map_nth_error _ _ _ E1) in E3. injection E3 as <-.
      apply nth_error_In, repeat_spec in E2. subst part. split; reflexivity. }
    revert I0. unfold shared_run. generalize (shared_start (standard_new old) o ms) as st. induction sched as [|i sched IH]; intros st I0; [exact I0|]. cbn [fold_left]. apply IH. apply inv_step; assumption. }
  destruct I as (EO & parts & tr & IL & EC & _ & LP & LG & A). exists parts, tr. split; [exact IL|]. split; [exact EC|]. intros i m EM.
  assert (LI : (i < length ms)%nat) by (apply nth_error_Some; congruence).
  destruct (nth_error parts i) as [part|] eqn:EPa; [|apply nth_error_None in EPa; lia]. destruct (nth_error (sh_gos _) i) as [ph|] eqn:EN; [|apply nth_error_None in EN; lia].
  exists part, ph. split; [reflexivity|]. split; [reflexivity|]. pose proof (A i m part ph EM EPa EN) as AI.
  destruct ph as [m'|r|[[e|]|]|[[e|]|]]; cbn [at_phase] in AI; try contradiction.
  - destruct AI as [-> ->]. assert (SM : exists n, square n m) by (rewrite Forall_forall in SQ; exact (SQ m (nth_error_In _ _ EM))). destruct SM as [n SM].
    destruct (PropsStandard.C47_repeatable_partial others scale n m o SM) as (w & h & cv & o' & ED & _). eexists. split; [exists w, h, cv, o'; split; [exact ED|reflexivity]|].
    split; [apply prefix_nil|]. split; discriminate.
  - exists (part ++ r). split; [exact AI|]. rewrite concat_app. split; [apply prefix_first|]. split; discriminate.
  - destruct AI as (pieces & E & P). exists pieces. split; [exact E|]. split; [exact P|]. split; discriminate.
  - exists part. split; [exact AI|]. split; [apply prefix_refl|]. split; discriminate.
  - destruct AI as (pieces & E & P). exists pieces. split; [exact E|]. split; [exact P|]. split; discriminate.
  - exists part. split; [exact AI|]. split; [apply prefix_refl|]. split; [reflexivity|discriminate].
Qed.

(* Once one of them has closed the file it does not change any more, whoever goes on; and who has still something to write gets an error *)
Theorem C86_after_close :
  forall sched st, s_open (sh_sink st) = false ->
  s_file (sh_sink (srun st sched)) = s_file (sh_sink st) /\ s_open (sh_sink (srun st sched)) = false /\
  forall i p r res, nth_error (sh_gos st) i = Some (Writing (p :: r)) -> nth_error (sh_gos (srun st sched)) i = Some (Ended res) -> res = Returned (Some ErrClosed).
Proof.
  induction sched as [|j sched IH]; intros st C.
  - split; [reflexivity|]. split; [exact C|]. intros i p r res E1 E2. cbn in E2. congruence.
  - unfold shared_run in *. cbn [fold_left].
    assert (ONE : s_file (sh_sink (sstep st j)) = s_file (sh_sink st) /\ s_open (sh_sink (sstep st j)) = false).
    { unfold shared_step. destruct (nth_error (sh_gos st) j) as [[m|[|p r]|res|res]|]; try (split; [reflexivity|exact C]).
      - destruct (draw others scale m (sh_options st)) as [[[[w h] cv] o']|]; cbn [sh_sink]; split; try reflexivity; exact C.
      - unfold sink_write. rewrite C. cbn [sh_sink]. split; [reflexivity|exact C].
      - cbn [sh_sink]. unfold sink_close. rewrite C. split; [reflexivity|exact C]. }
    destruct ONE as [F1 C1]. destruct (IH _ C1) as (F2 & C2 & R2). split; [congruence|]. split; [exact C2|]. intros i p r res E1 E2.
    destruct (Nat.eq_dec i j) as [->|N].
    + assert (EC : nth_error (sh_gos (sstep st j)) j = Some (Closing (Returned (Some ErrClosed)))) by (unfold shared_step; rewrite E1; unfold sink_write; rewrite C; cbn [sh_gos]; rewrite (nth_set _ _ _ _ _ E1), Nat.eqb_refl; reflexivity).
      (* from Closing it can only go to Ended with the same result *)
      revert EC E2. clear. generalize (sstep st j) as s. induction sched as [|k sched IH]; intros s EC E2; cbn [fold_left] in E2; [congruence|].
      destruct (Nat.eq_dec k j) as [->|N].
      * assert (EE : nth_error (sh_gos (sstep s j)) j = Some (Ended (Returned (Some ErrClosed)))) by (unfold shared_step; rewrite EC; cbn [sh_gos]; rewrite (nth_set _ _ _ _ _ EC), Nat.eqb_refl; reflexivity).
        clear EC IH. revert EE E2. generalize (sstep s j) as s2. clear s. induction sched as [|k sched IH]; intros s EC E2; cbn [fold_left] in E2; [congruence|]. apply (IH (sstep s k)); [|exact E2].
        destruct (Nat.eq_dec k j) as [->|N]; [unfold shared_step; rewrite EC; exact EC|]. unfold shared_step. destruct (nth_error (sh_gos s) k) as [[m|[|p r]|r0|r0]|] eqn:EK; try exact EC;
          try (cbn [sh_gos]; rewrite (nth_set _ _ _ _ _ EK); rewrite (proj2 (Nat.eqb_neq j k)) by congruence; exact EC).
        -- destruct (draw others scale m (sh_options s)) as [[[[w h] cv] o']|]; cbn [sh_gos]; rewrite (nth_set _ _ _ _ _ EK); rewrite (proj2 (Nat.eqb_neq j k)) by congruence; exact EC.
        -- destruct (sink_write fails (sh_sink s) p) as [s' e]. cbn [sh_gos]. rewrite (nth_set _ _ _ _ _ EK). rewrite (proj2 (Nat.eqb_neq j k)) by congruence. exact EC.
      * apply (IH (sstep s k)); [|exact E2]. unfold shared_step. destruct (nth_error (sh_gos s) k) as [[m|[|p r]|r0|r0]|] eqn:EK; try exact EC;
          try (cbn [sh_gos]; rewrite (nth_set _ _ _ _ _ EK); rewrite (proj2 (Nat.eqb_neq j k)) by congruence; exact EC).
        -- destruct (draw others scale m (sh_options s)) as [[[[w h] cv] o']|]; cbn [sh_gos]; rewrite (nth_set _ _ _ _ _ EK); rewrite (proj2 (Nat.eqb_neq j k)) by congruence; exact EC.
        -- destruct (sink_write fails (sh_sink s) p) as [s' e]. cbn [sh_gos]. rewrite (nth_set _ _ _ _ _ EK). rewrite (proj2 (Nat.eqb_neq j k)) by congruence. exact EC.
    + apply (R2 i p r res); [|exact E2]. unfold shared_step. destruct (nth_error (sh_gos st) j) as [[m|[|p0 r0]|r0|r0]|] eqn:EK; try exact E1;
          try (cbn [sh_gos]; rewrite (nth_set _ _ _ _ _ EK); rewrite (proj2 (Nat.eqb_neq i j)) by congruence; exact E1).
      * destruct (draw others scale m (sh_options st)) as [[[[w h] cv] o']|]; cbn [sh_gos]; rewrite (nth_set _ _ _ _ _ EK); rewrite (proj2 (Nat.eqb_neq i j)) by congruence; exact E1.
      * destruct (sink_write fails (sh_sink st) p0) as [s' e]. cbn [sh_gos]. rewrite (nth_set _ _ _ _ _ EK). rewrite (proj2 (Nat.eqb_neq i j)) by congruence. exact E1.
Qed.

(* ---- alone ---- *)
Lemma run_app st a b : srun st (a ++ b) = srun (srun st a) b.
Proof. unfold shared_run. apply fold_left_app. Qed.
Lemma set_set gos i p q x : nth_error gos i = Some x -> set_phase (set_phase gos i p) i q = set_phase gos i q.
Proof.
  intros E. assert (L : (i < length gos)%nat) by (apply nth_error_Some; congruence). unfold set_phase. assert (LF : length (firstn i gos) = i) by (rewrite firstn_length; lia). f_equal.
  - rewrite firstn_app, LF, Nat.sub_diag, firstn_firstn, Nat.min_id. cbn [firstn]. apply app_nil_r.
  - f_equal. rewrite skipn_app, LF. rewrite skipn_all2 by lia. replace (S i - i)%nat with 1%nat by lia. reflexivity.
Qed.
Lemma writes_all i pieces : forall s o gos, nth_error gos i = Some (Writing pieces) ->
  exists n, srun (mkShared s o gos) (repeat i n) =
    mkShared (fst (sink_write_all fails s pieces)) o (set_phase gos i (Closing (Returned (snd (sink_write_all fails s pieces))))).
Proof.
  induction pieces as [|p r IH]; intros s o gos E.
  - exists 1%nat. unfold shared_run. cbn [repeat fold_left]. unfold shared_step. cbn [sh_gos]. rewrite E. reflexivity.
  - assert (ST : sstep (mkShared s o gos) i = (let '(s', e) := sink_write fails s p in
      mkShared s' o (set_phase gos i (match e with None => Writing r | Some e => Closing (Returned (Some e)) end)))).
    { unfold shared_step. cbn [sh_gos sh_sink sh_options]. rewrite E. reflexivity. }
    cbn [sink_write_all]. destruct (sink_write fails s p) as [s' [e|]].
    + exists 1%nat. unfold shared_run. cbn [repeat fold_left]. rewrite ST. reflexivity.
    + destruct (IH s' o (set_phase gos i (Writing r))) as [n En]; [rewrite (nth_set _ _ _ _ _ E), Nat.eqb_refl; reflexivity|].
      exists (S n). unfold shared_run in *. cbn [repeat fold_left]. rewrite ST, En. rewrite (set_set _ _ _ _ _ E). reflexivity.
Qed.
Lemma all_ended st i r n : nth_error (sh_gos st) i = Some (Ended r) -> srun st (repeat i n) = st.
Proof. intros E. induction n as [|n IH]; [reflexivity|]. unfold shared_run in *. cbn [repeat fold_left]. replace (sstep st i) with st by (unfold shared_step; rewrite E; reflexivity). exact IH. Qed.

(* A goroutine that has the Writer to itself: what Save does *)
Theorem C86_alone :
  forall s o m s' o' ev r, Save (Some m) (standard_writer encode fails others scale) (s, o) = ((s', o'), ev, r) ->
  exists N, forall n, (N <= n)%nat -> srun (shared_start s o [m]) (repeat 0%nat n) = mkShared s' o' [Ended r].
Proof.
  intros s o m s' o' ev r SV.
  assert (K : exists n, srun (shared_start s o [m]) (repeat 0%nat n) = mkShared s' o' [Ended r]).
  { unfold Save, standard_writer in SV. cbn [wr_write wr_close] in SV.
    assert (FIRST : forall k, srun (shared_start s o [m]) (repeat 0%nat (S k)) = srun (sstep (shared_start s o [m]) 0) (repeat 0%nat k)) by reflexivity.
    assert (LAST : forall sk oo rr, srun (mkShared sk oo [Closing rr]) (repeat 0%nat 1) = mkShared (fst (sink_close sk)) oo [Ended rr]) by reflexivity.
    assert (ONE : sstep (shared_start s o [m]) 0 = match draw others scale m o with
      | None => mkShared s o [Closing Panicked]
      | Some (w, h, cv, o') => mkShared s o' [if encoder_refuses (o_encoder o') w h then Closing (Returned (Some ErrEncode)) else Writing (encode (o_encoder o') (w, h, cv))] end).
    { unfold shared_step, shared_start. cbn [sh_gos map nth_error sh_options sh_sink]. destruct (draw others scale m o) as [[[[w h] cv] o1]|]; reflexivity. }
    destruct (draw others scale m o) as [[[[w h] cv] o1]|].
    - destruct (encoder_refuses (o_encoder o1) w h).
      + exists 2%nat. rewrite (FIRST 1%nat), ONE, LAST. destruct (sink_close s) as [s2 e2]. cbn [fst]. destruct e2 as [[]|]; injection SV as -> -> _ <-; reflexivity.
      + destruct (writes_all 0%nat (encode (o_encoder o1) (w, h, cv)) s o1 [Writing (encode (o_encoder o1) (w, h, cv))] eq_refl) as [n En].
        exists (S (n + 1)). rewrite FIRST, ONE, repeat_app, run_app, En. unfold set_phase. cbn [firstn skipn app]. rewrite LAST.
        destruct (sink_write_all fails s (encode (o_encoder o1) (w, h, cv))) as [s1 e1]. cbn [fst snd]. destruct (sink_close s1) as [s2 e2]. cbn [fst]. destruct e2 as [[]|]; injection SV as -> -> _ <-; reflexivity.
    - exists 2%nat. rewrite (FIRST 1%nat), ONE, LAST. destruct (sink_close s) as [s2 e2]. cbn [fst]. destruct e2 as [[]|]; injection SV as -> -> _ <-; reflexivity. }
  destruct K as [N K]. exists N. intros n L. replace n with (N + (n - N))%nat by lia. rewrite repeat_app, run_app, K. apply (all_ended _ _ r). reflexivity.
Qed.

(* ---- two goroutines ---- *)
Lemma both_drawn s o m w h cv : draw others scale m o = Some (w, h, cv, o) -> encoder_refuses (o_encoder o) w h = false ->
  srun (shared_start s o [m; m]) [0%nat; 1%nat] = mkShared s o [Writing (encode (o_encoder o) (w, h, cv)); Writing (encode (o_encoder o) (w, h, cv))].
Proof.
  intros D R. unfold shared_run, shared_start. cbn [fold_left map]. unfold shared_step at 2. cbn [sh_gos nth_error sh_options sh_sink]. rewrite D, R. unfold set_phase. cbn [firstn skipn app].
  unfold shared_step. cbn [sh_gos nth_error sh_options sh_sink]. rewrite D, R. reflexivity.
Qed.

(* The property "each Save through a shared Writer that reports success has left its own picture" is false, whatever the encoder: two
   goroutines save the same symbol through one Writer, no Write call fails, both Saves return nil, and the file holds the picture twice *)
Theorem C86_picture_twice_refuted :
  forall old o m w h cv, draw others scale m o = Some (w, h, cv, o) -> encoder_refuses (o_encoder o) w h = false -> (forall k, fails k = None) ->
  exists sched, let st := srun (shared_start (standard_new old) o [m; m]) sched in
    sh_gos st = [Ended (Returned None); Ended (Returned None)] /\ o_content (s_file (sh_sink st)) = concat (encode (o_encoder o) (w, h, cv)) ++ concat (encode (o_encoder o) (w, h, cv)).
Proof.
  intros old o m w h cv D R NF. set (ps := encode (o_encoder o) (w, h, cv)).
  pose proof (both_drawn (standard_new old) o m w h cv D R) as B. fold ps in B.
  destruct (writes_all 0%nat ps (standard_new old) o [Writing ps; Writing ps] eq_refl) as [n0 E0].
  destruct (sink_all fails NF ps (standard_open old) 0%nat) as (c1 & A1). fold (standard_new old) in A1. set (s1 := mkSink (os_write_all (standard_open old) ps) true c1) in A1.
  rewrite A1 in E0. cbn [fst snd] in E0. unfold set_phase in E0. cbn [firstn skipn app] in E0.
  destruct (writes_all 1%nat ps s1 o [Closing (Returned None); Writing ps] eq_refl) as [n1 E1].
  destruct (sink_all fails NF ps (os_write_all (standard_open old) ps) c1) as (c2 & A2). fold s1 in A2. rewrite A2 in E1. cbn [fst snd] in E1. unfold set_phase in E1. cbn [firstn skipn app] in E1.
  exists ([0%nat; 1%nat] ++ repeat 0%nat n0 ++ repeat 1%nat n1 ++ [0%nat; 1%nat]). cbv zeta. rewrite !run_app, B, E0, E1. unfold shared_run. cbn [fold_left].
  unfold shared_step at 2. cbn [sh_gos nth_error sh_options sh_sink]. unfold set_phase. cbn [firstn skipn app]. unfold shared_step. cbn [sh_gos nth_error sh_options sh_sink]. unfold set_phase. cbn [firstn skipn app].
  split; [reflexivity|]. assert (SC : forall s, s_file (fst (sink_close s)) = s_file s) by (intros s; unfold sink_close; destruct (s_open s); reflexivity). cbn [sh_sink]. rewrite !SC. cbn [s_file].
  assert (E : os_write_all (os_write_all (standard_open old) ps) ps = os_write_all (standard_open old) (ps ++ ps)) by (unfold os_write_all; rewrite fold_left_app; reflexivity). rewrite E.
  rewrite os_write_all_content by (cbn; lia). cbn [standard_open o_pos o_content firstn app]. rewrite skipn_nil, app_nil_r. apply concat_app.
Qed.

(* Nor need the second one succeed: when the first has closed the file, the second gets an error, though no Write call on an open file fails *)
Theorem C86_closed_by_the_other_refuted :
  forall old o m w h cv, draw others scale m o = Some (w, h, cv, o) -> encoder_refuses (o_encoder o) w h = false -> (forall k, fails k = None) ->
  encode (o_encoder o) (w, h, cv) <> [] ->
  exists sched, let st := srun (shared_start (standard_new old) o [m; m]) sched in
    sh_gos st = [Ended (Returned None); Ended (Returned (Some ErrClosed))] /\ o_content (s_file (sh_sink st)) = concat (encode (o_encoder o) (w, h, cv)).
Proof.
  intros old o m w h cv D R NF NE. set (ps := encode (o_encoder o) (w, h, cv)) in *.
  pose proof (both_drawn (standard_new old) o m w h cv D R) as B. fold ps in B.
  destruct (writes_all 0%nat ps (standard_new old) o [Writing ps; Writing ps] eq_refl) as [n0 E0].
  destruct (sink_all fails NF ps (standard_open old) 0%nat) as (c1 & A1). fold (standard_new old) in A1.
  rewrite A1 in E0. cbn [fst snd] in E0. unfold set_phase in E0. cbn [firstn skipn app] in E0.
  destruct ps as [|p r] eqn:EP; [congruence|]. rewrite <- EP in E0, B |- *.
  exists ([0%nat; 1%nat] ++ repeat 0%nat n0 ++ [0%nat; 1%nat; 1%nat]). cbv zeta. rewrite !run_app, B, E0. unfold shared_run. cbn [fold_left]. rewrite EP.
  set (f1 := os_write_all (standard_open old) (p :: r)).
  assert (S1 : sstep (mkShared (mkSink f1 true c1) o [Closing (Returned None); Writing (p :: r)]) 0 = mkShared (mkSink f1 false c1) o [Ended (Returned None); Writing (p :: r)]) by reflexivity.
  assert (S2 : sstep (mkShared (mkSink f1 false c1) o [Ended (Returned None); Writing (p :: r)]) 1 = mkShared (mkSink f1 false c1) o [Ended (Returned None); Closing (Returned (Some ErrClosed))]) by reflexivity.
  assert (S3 : sstep (mkShared (mkSink f1 false c1) o [Ended (Returned None); Closing (Returned (Some ErrClosed))]) 1 = mkShared (mkSink f1 false c1) o [Ended (Returned None); Ended (Returned (Some ErrClosed))]) by reflexivity.
  rewrite S1, S2, S3. cbn [sh_gos sh_sink s_file]. split; [reflexivity|]. unfold f1. rewrite os_write_all_content by (cbn; lia). cbn [standard_open o_pos o_content firstn app]. rewrite skipn_nil, app_nil_r. reflexivity.
Qed.
End Shared.

Print Assumptions C86_what_is_in_the_file.
Print Assumptions C86_after_close.
Print Assumptions C86_alone.
Print Assumptions C86_picture_twice_refuted.
Print Assumptions C86_closed_by_the_other_refuted.

(* the hypotheses are met: the default options and a symbol of 21 by 21 *)
Example C86_ex : let m := newMatrix 21 21 in
  o_bgTransparent defaultOptions = false /\ square 21 m /\
  exists w h cv, draw (fun _ cv _ => cv) (fun _ _ _ _ => 0) m defaultOptions = Some (w, h, cv, defaultOptions) /\ encoder_refuses (o_encoder defaultOptions) w h = false.
Proof.
  cbv zeta. split; [reflexivity|]. assert (SQ : square 21 (newMatrix 21 21)) by (apply square_new; lia). split; [exact SQ|].
  destruct (PropsStandard.C47_repeatable_partial (fun _ cv _ => cv) (fun _ _ _ _ => 0) 21 (newMatrix 21 21) defaultOptions SQ) as (w & h & cv & o' & D & O & _).
  rewrite (O eq_refl) in D. exists w, h, cv. split; [exact D|].
  assert (K : option_map (fun '(w, h, _, _) => encoder_refuses (o_encoder defaultOptions) w h) (draw (fun _ cv _ => cv) (fun _ _ _ _ => 0) (newMatrix 21 21) defaultOptions) = Some false) by (vm_compute; reflexivity).
  rewrite D in K. cbn [option_map] in K. injection K as K. exact K.
Qed.
