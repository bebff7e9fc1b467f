(* The mask search: the eight goroutines under every schedule. *)
From Coq Require Import Lia Permutation.
From Verif Require Import ModelBase ModelBinary ModelVersion ModelMatrix ModelLayout ModelMask ModelEval ModelQRCode.
From Verif Require Import SpecIso SpecReader SpecAPI ProofBase ProofMatrix ProofSweep ProofLayout ProofSymbol ProofEval.

Lemma nth_error_upd {A} (l : list A) i a j :
  nth_error (upd_nat l i a) j = if Nat.eqb i j then (match nth_error l i with Some _ => Some a | None => None end) else nth_error l j.
Proof.
  revert i j. induction l as [|x l IH]; intros [|i] [|j]; cbn; auto; try (destruct (Nat.eqb _ _); reflexivity).
Qed.
Lemma upd_length {A} (l : list A) i a : length (upd_nat l i a) = length l.
Proof. revert i. induction l; intros [|i]; cbn; auto. Qed.

Section Machine.
  Variables (v : version) (masks : list Matrix) (cpy : Matrix).
  Variables (fmt : nat -> binary) (vinfo : binary) (score : nat -> Z) (mk : nat -> Matrix).
  Definition after_xor (i : nat) := xorMask cpy (mk i).
  Definition after_format (i : nat) := fillFormatInfo (after_xor i) (v_dimension v) (fmt i).
  Definition candidate (i : nat) :=
    if 7 <=? Ver v then fillVersionInfo (after_format i) (v_dimension v) vinfo else after_format i.
  Hypothesis Hmasks : forall i, (i < 8)%nat -> nth_error masks i = Some (mk i).
  Hypothesis Hfmt : forall i, (i < 8)%nat -> v_formatInfo v (Z.of_nat i) = Some (fmt i).
  Hypothesis Hver : 7 <= Ver v -> v_verInfo v = Some vinfo.
  Hypothesis Hscore : forall i, (i < 8)%nat -> evaluation (candidate i) = Some (score i).

  Definition pc_at (i p : nat) : gpc :=
    match p with
    | 0 => GXor | 1 => GFormat | 2 => GVersion | 3 => GEval | 4 => GSend (score i) | 5 => GDone | _ => GExit
    end%nat.
  Definition mat_at (i p : nat) : Matrix :=
    match p with 0 => cpy | 1 => after_xor i | 2 => after_format i | _ => candidate i end%nat.

  Definition finished (prog : nat -> nat) : nat := length (filter (fun i => Nat.leb 6 (prog i)) (seq 0 8)).

  Record progress := mkP { prog : nat -> nat; spawned : nat; over : bool }.

  Record inv (P : progress) (s : gstate) : Prop := {
    in_pcs : forall i, (i < 8)%nat -> nth_error (gPcs s) i = Some (pc_at i (prog P i));
    in_pl : length (gPcs s) = 8%nat;
    in_mats : forall i, (i < 8)%nat -> nth_error (gMats s) i = Some (mat_at i (prog P i));
    in_ml : length (gMats s) = 8%nat;
    in_nd : NoDup (gChan s);
    in_chan : forall e, In e (gChan s) <-> exists i, (i < 8)%nat /\ (5 <= prog P i)%nat /\ e = (score i, Z.of_nat i);
    in_wg : gWg s = Z.of_nat (spawned P) - Z.of_nat (finished (prog P));
    in_6 : forall i, (prog P i <= 6)%nat;
    in_sp : gSpawned s = spawned P;
    in_sp8 : (spawned P <= 8)%nat;
    in_idle : forall i, (spawned P <= i)%nat -> prog P i = 0%nat;
    in_main : gMain s = over P;
    in_over : over P = true -> spawned P = 8%nat /\ finished (prog P) = 8%nat
  }.

  Definition advance (prog : nat -> nat) (i : nat) : nat -> nat :=
    fun j => if Nat.eqb i j then Nat.min 6 (S (prog j)) else prog j.

  (* what a step of an actor does to the progress *)
  Definition enabled (P : progress) (a : actor) : bool :=
    match a with
    | Main => Nat.ltb (spawned P) 8 || (Nat.eqb (finished (prog P)) 8 && negb (over P))
    | Goroutine i => Nat.ltb i (spawned P) && Nat.ltb (prog P i) 6
    end.
  Definition astep (P : progress) (a : actor) : progress :=
    if enabled P a then
      match a with
      | Main => if Nat.ltb (spawned P) 8 then mkP (prog P) (S (spawned P)) (over P) else mkP (prog P) (spawned P) true
      | Goroutine i => mkP (advance (prog P) i) (spawned P) (over P)
      end
    else P.

  Lemma chan_small P s i : inv P s -> (i < 8)%nat -> (prog P i < 5)%nat -> zlen (gChan s) < 8.
  Proof.
    intros HI Hi Hp.
    assert (INC : incl (gChan s) (map (fun j => (score j, Z.of_nat j)) (filter (fun j => negb (Nat.eqb j i)) (seq 0 8)))).
    { intros e He. apply (in_chan _ _ HI) in He as (j & Hj & Hpj & ->). apply (in_map (fun j => (score j, Z.of_nat j))).
      apply filter_In. split; [apply in_seq; lia|]. apply negb_true_iff, Nat.eqb_neq. intros ->. lia. }
    apply NoDup_incl_length in INC; [|apply HI]. rewrite map_length in INC. unfold zlen.
    assert (LF : length (filter (fun j => negb (Nat.eqb j i)) (seq 0 8)) = 7%nat).
    { do 8 (destruct i as [|i]; [reflexivity|]). lia. }
    lia.
  Qed.

  Lemma finished_ext p q : (forall j, (j < 8)%nat -> Nat.leb 6 (p j) = Nat.leb 6 (q j)) -> finished p = finished q.
  Proof.
    intros E. unfold finished. f_equal. apply filter_ext_in. intros j Hj. apply in_seq in Hj. apply E. lia.
  Qed.
  Lemma finished_done prog i : (i < 8)%nat -> (prog i < 6)%nat -> finished (advance prog i) = if Nat.eqb (prog i) 5 then S (finished prog) else finished prog.
  Proof.
    intros Hi Hp. destruct (Nat.eqb_spec (prog i) 5) as [E|N].
    - unfold finished. assert (HL : forall l, NoDup l -> length (filter (fun j => Nat.leb 6 (advance prog i j)) l) =
        ((if in_dec Nat.eq_dec i l then 1 else 0) + length (filter (fun j => Nat.leb 6 (prog j)) l))%nat).
      { induction l as [|a l IH]; intros ND; [reflexivity|]. inversion ND; subst. cbn [filter].
        destruct (Nat.eq_dec i a) as [<-|NE].
        - assert (AE : advance prog i i = 6%nat) by (unfold advance; rewrite Nat.eqb_refl, E; reflexivity).
          rewrite AE, E. change (6 <=? 6)%nat with true. change (6 <=? 5)%nat with false. cbv iota. cbn [length]. rewrite IH by auto.
          destruct (in_dec Nat.eq_dec i (i :: l)) as [_|C]; [|exfalso; apply C; left; reflexivity].
          destruct (in_dec Nat.eq_dec i l) as [C|_]; [contradiction|]. reflexivity.
        - assert (AE : advance prog i a = prog a) by (unfold advance; destruct (Nat.eqb_spec i a); [contradiction|reflexivity]).
          rewrite AE. destruct (in_dec Nat.eq_dec i (a :: l)) as [IN|NI], (in_dec Nat.eq_dec i l) as [IN2|NI2].
          + destruct (Nat.leb 6 (prog a)); cbn [length]; rewrite IH by auto; destruct (in_dec Nat.eq_dec i l); try contradiction; lia.
          + exfalso. destruct IN as [->|]; contradiction.
          + exfalso. apply NI. right; auto.
          + destruct (Nat.leb 6 (prog a)); cbn [length]; rewrite IH by auto; destruct (in_dec Nat.eq_dec i l); try contradiction; lia. }
      rewrite HL by apply seq_NoDup. destruct (in_dec Nat.eq_dec i (seq 0 8)) as [_|C]; [reflexivity|]. exfalso. apply C, in_seq. lia.
    - apply finished_ext. intros j Hj. unfold advance. destruct (Nat.eqb_spec i j) as [->|]; auto.
      destruct (Nat.leb_spec 6 (prog j)); [lia|]. apply Nat.leb_gt. lia.
  Qed.

  Lemma finished_le p : (finished p <= 8)%nat.
  Proof. unfold finished. pose proof (filter_length_le (fun i => Nat.leb 6 (p i)) (seq 0 8)) as X. rewrite seq_length in X. exact X. Qed.
  Lemma finished_all p : finished p = 8%nat <-> forall i, (i < 8)%nat -> (6 <= p i)%nat.
  Proof.
    unfold finished. split.
    - intros E i Hi. assert (A : forall l (f : nat -> bool), length (filter f l) = length l -> forall x, In x l -> f x = true).
      { clear. intros l f. induction l as [|a l IH]; intros E x Hx; [destruct Hx|]. cbn [filter] in E.
        destruct (f a) eqn:FA.
        - cbn [length] in E. destruct Hx as [<-|Hx]; auto.
        - exfalso. pose proof (filter_length_le f l). cbn [length] in E. lia. }
      apply Nat.leb_le. apply (A (seq 0 8) (fun i => Nat.leb 6 (p i))); [exact E|apply in_seq; lia].
    - intros A. rewrite (filter_ext_in _ (fun _ => true)).
      + reflexivity.
      + intros i Hi. apply in_seq in Hi. apply Nat.leb_le, A. lia.
  Qed.

  Lemma gstep_inv P s i : inv P s -> (i < spawned P)%nat -> (prog P i < 6)%nat ->
    inv (mkP (advance (prog P) i) (spawned P) (over P)) (gstep v masks s i).
  Proof.
    intros HI Hs Hlt. pose proof (in_sp8 _ _ HI) as Hs8. assert (Hi : (i < 8)%nat) by lia.
    assert (NOV : over P = true -> False).
    { intros E. apply (in_over _ _ HI) in E as [_ E]. rewrite finished_all in E. specialize (E i Hi). lia. }
    set (q := prog P) in *.
    unfold gstep. rewrite (in_pcs _ _ HI i Hi), (in_mats _ _ HI i Hi), (Hmasks i Hi). fold q.
    assert (A6 : forall j, (advance q i j <= 6)%nat) by (intros j; unfold advance; destruct (Nat.eqb i j); [lia|apply HI]).
    assert (AI : forall j, (spawned P <= j)%nat -> advance q i j = 0%nat).
    { intros j Hj. unfold advance. destruct (Nat.eqb_spec i j); [lia|]. apply (in_idle _ _ HI); auto. }
    assert (PCS : forall pc, pc = pc_at i (Nat.min 6 (S (q i))) -> forall j, (j < 8)%nat ->
       nth_error (upd_nat (gPcs s) i pc) j = Some (pc_at j (advance q i j))).
    { intros pc -> j Hj. rewrite nth_error_upd. unfold advance. destruct (Nat.eqb_spec i j) as [->|N].
      - rewrite (in_pcs _ _ HI j Hj). reflexivity.
      - apply (in_pcs _ _ HI j Hj). }
    assert (MATS : forall m, m = mat_at i (Nat.min 6 (S (q i))) -> forall j, (j < 8)%nat ->
       nth_error (upd_nat (gMats s) i m) j = Some (mat_at j (advance q i j))).
    { intros m -> j Hj. rewrite nth_error_upd. unfold advance. destruct (Nat.eqb_spec i j) as [->|N].
      - rewrite (in_mats _ _ HI j Hj). reflexivity.
      - apply (in_mats _ _ HI j Hj). }
    assert (MATSAME : mat_at i (q i) = mat_at i (Nat.min 6 (S (q i))) -> forall j, (j < 8)%nat ->
       nth_error (gMats s) j = Some (mat_at j (advance q i j))).
    { intros E j Hj. unfold advance. rewrite (in_mats _ _ HI j Hj). fold q. destruct (Nat.eqb_spec i j) as [->|N]; [rewrite E|]; reflexivity. }
    assert (CH : q i <> 4%nat -> forall e, In e (gChan s) <-> exists j, (j < 8)%nat /\ (5 <= advance q i j)%nat /\ e = (score j, Z.of_nat j)).
    { intros N4 e. rewrite (in_chan _ _ HI). fold q. split; intros (j & Hj & Hp & He); exists j; split; auto; split; auto;
        unfold advance in *; destruct (Nat.eqb_spec i j) as [->|]; auto; lia. }
    assert (WG : (q i < 5)%nat -> gWg s = Z.of_nat (spawned P) - Z.of_nat (finished (advance q i))).
    { intros Hp. rewrite finished_done by (auto; lia). destruct (Nat.eqb_spec (q i) 5); [lia|]. apply HI. }
    destruct (q i) as [|[|[|[|[|[|n]]]]]] eqn:EP; cbn [pc_at mat_at Nat.min] in *; try lia.
    - (* xor *) constructor; cbn [set_mat gPcs gMats gChan gWg gSpawned gMain prog spawned over]; rewrite ?upd_length; auto; try apply HI; try (apply PCS; reflexivity); try (apply MATS; reflexivity); try (apply CH; lia); try (apply WG; lia); try tauto.
    - rewrite (Hfmt i Hi). constructor; cbn [set_mat gPcs gMats gChan gWg gSpawned gMain prog spawned over]; rewrite ?upd_length; auto; try apply HI; try (apply PCS; reflexivity); try (apply MATS; reflexivity); try (apply CH; lia); try (apply WG; lia); try tauto.
    - destruct (Z.leb_spec 7 (Ver v)) as [H7|H7].
      + rewrite Hver by auto. constructor; cbn [set_mat gPcs gMats gChan gWg gSpawned gMain prog spawned over]; rewrite ?upd_length; auto; try apply HI; try (apply PCS; reflexivity); try (apply CH; lia); try (apply WG; lia); try tauto.
        apply MATS. unfold candidate. destruct (Z.leb_spec 7 (Ver v)); [reflexivity|lia].
      + constructor; cbn [set_pc gPcs gMats gChan gWg gSpawned gMain prog spawned over]; rewrite ?upd_length; auto; try apply HI; try (apply PCS; reflexivity); try (apply CH; lia); try (apply WG; lia); try tauto.
        apply MATSAME. unfold candidate. destruct (Z.leb_spec 7 (Ver v)); [lia|reflexivity].
    - rewrite (Hscore i Hi). constructor; cbn [set_pc gPcs gMats gChan gWg gSpawned gMain prog spawned over]; rewrite ?upd_length; auto; try apply HI; try (apply PCS; reflexivity); try (apply MATSAME; reflexivity); try (apply CH; lia); try (apply WG; lia); try tauto.
    - (* send *)
      pose proof (chan_small P s i HI Hi ltac:(fold q; lia)) as CS. destruct (Z.ltb_spec (zlen (gChan s)) 8); [|lia].
      constructor; cbn [gPcs gMats gChan gWg gSpawned gMain prog spawned over]; rewrite ?upd_length; auto; try apply HI; try (apply PCS; reflexivity); try (apply MATSAME; reflexivity); try (apply WG; lia); try tauto.
      + apply NoDup_app_intro; [apply HI|constructor; [intros []|constructor]|].
        intros e He [<-|[]]. apply (in_chan _ _ HI) in He as (j & Hj & Hp & E). injection E as _ E.
        assert (j = i) by lia. subst j. fold q in Hp. lia.
      + intros e. rewrite in_app_iff, (in_chan _ _ HI). fold q. cbn [In]. split.
        * intros [(j & Hj & Hp & ->)|[<-|[]]].
          -- exists j. split; auto. split; auto. unfold advance. destruct (Nat.eqb_spec i j); [lia|auto].
          -- exists i. split; auto. split; auto. unfold advance. rewrite Nat.eqb_refl, EP. lia.
        * intros (j & Hj & Hp & ->). unfold advance in Hp. destruct (Nat.eqb_spec i j) as [->|N]; [right; left; reflexivity|].
          left. exists j. auto.
    - (* done *)
      constructor; cbn [gPcs gMats gChan gWg gSpawned gMain prog spawned over]; rewrite ?upd_length; auto; try apply HI; try (apply PCS; reflexivity); try (apply MATSAME; reflexivity); try (apply CH; lia); try tauto.
      rewrite finished_done by (auto; lia). rewrite EP. cbn [Nat.eqb]. rewrite (in_wg _ _ HI). fold q. lia.
  Qed.

  Lemma gstep_idle P s i : inv P s -> (i < 8)%nat -> (6 <= prog P i)%nat -> gstep v masks s i = s.
  Proof.
    intros HI Hi H6. unfold gstep. rewrite (in_pcs _ _ HI i Hi), (in_mats _ _ HI i Hi), (Hmasks i Hi).
    pose proof (in_6 _ _ HI i). replace (prog P i) with 6%nat by lia. reflexivity.
  Qed.

  Lemma step_inv P s a : inv P s -> inv (astep P a) (step v masks s a).
  Proof.
    intros HI. destruct a as [|i]; unfold astep, enabled, step.
    - unfold mainstep. rewrite (in_sp _ _ HI). destruct (Nat.ltb_spec (spawned P) 8) as [HS|HS]; cbn [orb].
      + constructor; cbn [gPcs gMats gChan gWg gSpawned gMain prog spawned over]; try apply HI; auto.
        * rewrite (in_wg _ _ HI). lia.
        * intros i Hi. apply (in_idle _ _ HI). lia.
        * intros E. apply (in_over _ _ HI) in E. lia.
      + pose proof (in_sp8 _ _ HI). assert (E8 : spawned P = 8%nat) by lia.
        rewrite (in_wg _ _ HI), E8. pose proof (finished_le (prog P)) as FL.
        destruct (Z.eqb_spec (Z.of_nat 8 - Z.of_nat (finished (prog P))) 0) as [E|E];
          destruct (Nat.eqb_spec (finished (prog P)) 8) as [E2|E2]; try lia; cbn [andb]; auto.
        destruct (over P) eqn:EO; cbn [negb].
        * assert (SE : mkG (gMats s) (gPcs s) (gChan s) (Z.of_nat 8 - Z.of_nat (finished (prog P))) (spawned P) true = s).
          { pose proof (in_main _ _ HI) as X. pose proof (in_wg _ _ HI) as Y. pose proof (in_sp _ _ HI) as W. destruct s; cbn in *. subst. rewrite EO, E8. reflexivity. }
          rewrite <- E8. rewrite <- E8 in SE. rewrite SE. auto.
        * constructor; cbn [gPcs gMats gChan gWg gSpawned gMain prog spawned over]; try apply HI; auto; try lia.
          intros i Hi. apply (in_idle _ _ HI). lia.
    - rewrite (in_sp _ _ HI). destruct (Nat.ltb_spec i (spawned P)) as [Hs|Hs]; cbn [andb]; auto.
      destruct (Nat.ltb_spec (prog P i) 6) as [H6|H6].
      + apply gstep_inv; auto.
      + pose proof (in_sp8 _ _ HI). rewrite (gstep_idle P s i HI) by lia. auto.
  Qed.

  Definition run (sched : list actor) : progress := fold_left astep sched (mkP (fun _ => 0%nat) 0 false).

  Lemma run_inv : forall sched s P, inv P s -> inv (fold_left astep sched P) (fold_left (step v masks) sched s).
  Proof. induction sched as [|i sched IH]; intros s p HI; cbn [fold_left]; auto. apply IH, step_inv, HI. Qed.

  Lemma init_inv : wf cpy -> inv (mkP (fun _ => 0%nat) 0 false) (ginit cpy).
  Proof.
    intros Hw. unfold ginit. rewrite m_copy_id by auto. constructor; cbn [gPcs gMats gChan gWg gSpawned gMain prog spawned over]; try reflexivity; auto; try lia; try discriminate.
    - intros i Hi. do 8 (destruct i as [|i]; [reflexivity|]). lia.
    - intros i Hi. do 8 (destruct i as [|i]; [reflexivity|]). lia.
    - constructor.
    - intros e. split; [intros []|]. intros (i & _ & C & _). lia.
  Qed.

  Lemma sched_inv sched : wf cpy -> inv (run sched) (fold_left (step v masks) sched (ginit cpy)).
  Proof. intros Hw. exact (run_inv sched _ _ (init_inv Hw)). Qed.

  Lemma no_panic p s : inv p s -> existsb is_panic (gPcs s) = false.
  Proof.
    intros HI. apply not_true_is_false. intros E. apply existsb_exists in E as (pc & Hpc & E).
    apply In_nth_error in Hpc as [i Hi]. assert (i < 8)%nat by (rewrite <- (in_pl _ _ HI); apply nth_error_Some; congruence).
    rewrite (in_pcs _ _ HI i) in Hi by auto. injection Hi as <-. unfold pc_at in E. destruct (prog p i) as [|[|[|[|[|[|]]]]]]; discriminate.
  Qed.

  Lemma select_spec : forall (chan : list (Z * Z)) (low idx : Z), let r := fold_left (fun '(low, idx) '(score, i) => if score <? low then (score, i) else (low, idx)) chan (low, idx) in
    (forall s i, In (s, i) chan -> fst r <= s) /\ fst r <= low /\ (r = (low, idx) \/ In r chan).
  Proof.
    induction chan as [|[s i] chan IH]; intros low idx; cbn [fold_left].
    - cbn. split; [intros ? ? []|]. split; [lia|auto].
    - destruct (Z.ltb_spec s low) as [HL|HL].
      + destruct (IH s i) as (A & B & C). cbv zeta in *. split; [|split; [lia|]].
        * intros s' i' [E|E]; [injection E as <- <-; exact B|eapply A; eauto].
        * right. destruct C as [->|C]; [left; reflexivity|right; exact C].
      + destruct (IH low idx) as (A & B & C). cbv zeta in *. split; [|split; [lia|]].
        * intros s' i' [E|E]; [injection E as <- <-; lia|eapply A; eauto].
        * destruct C as [->|C]; [left; reflexivity|right; right; exact C].
  Qed.

  (* the outcome of the search *)
  Lemma search_outcome sched : wf cpy -> (forall i, (i < 8)%nat -> score i < MaxInt32) ->
    let s := fold_left (step v masks) sched (ginit cpy) in
    existsb is_panic (gPcs s) = false /\
    gMain s = over (run sched) /\
    (over (run sched) = true -> exists k, (k < 8)%nat /\ snd (select_mask (gChan s)) = Z.of_nat k /\
       zget (gMats s) (Z.of_nat k) = Some (candidate k) /\ forall j, (j < 8)%nat -> score k <= score j).
  Proof.
    intros Hw HS s. pose proof (sched_inv sched Hw) as HI. fold s in HI.
    split; [apply (no_panic _ _ HI)|]. split; [apply HI|].
    intros HC. apply (in_over _ _ HI) in HC as [_ HC]. rewrite finished_all in HC.
    assert (P6 : forall i, (i < 8)%nat -> prog (run sched) i = 6%nat) by (intros i Hi; specialize (HC i Hi); pose proof (in_6 _ _ HI i); lia).
    assert (CH : forall e, In e (gChan s) <-> exists i, (i < 8)%nat /\ e = (score i, Z.of_nat i)).
    { intros e. rewrite (in_chan _ _ HI). split; intros (i & Hi & X); exists i; [tauto|]. rewrite P6 by tauto. split; [tauto|]. split; [lia|tauto]. }
    destruct (select_spec (gChan s) MaxInt32 0) as (A & B & C). fold (select_mask (gChan s)) in *. cbv zeta in *.
    assert (I0 : In (score 0%nat, Z.of_nat 0) (gChan s)) by (apply CH; exists 0%nat; split; [lia|reflexivity]).
    destruct C as [E|C].
    + exfalso. pose proof (A _ _ I0) as A0. rewrite E in A0. cbn in A0. specialize (HS 0%nat ltac:(lia)). lia.
    + pose proof C as C'. apply CH in C' as (k & Hk & E). exists k. split; auto. rewrite E in *. cbn [fst snd] in *. split; auto. split.
      * rewrite zget_nth, Nat2Z.id by lia. rewrite (in_mats _ _ HI k Hk), P6 by auto. reflexivity.
      * intros j Hj. apply (A _ (Z.of_nat j)). apply CH. exists j. auto.
  Qed.
  (* a mask of lowest penalty is chosen if its goroutine runs first *)
  Definition favour (k : nat) : list actor := repeat Main 8 ++ repeat (Goroutine k) 5.

  Lemma gstep_chan s i : exists ext, gChan (gstep v masks s i) = gChan s ++ ext.
  Proof.
    unfold gstep. repeat match goal with
    | |- exists e, ?c = ?c ++ e => exists []; rewrite app_nil_r; reflexivity
    | |- context [match ?x with _ => _ end] => destruct x
    | |- context [if ?x then _ else _] => destruct x
    end; try (exists []; rewrite app_nil_r; reflexivity); eexists; reflexivity.
  Qed.
  Lemma step_chan s a : exists ext, gChan (step v masks s a) = gChan s ++ ext.
  Proof.
    destruct a as [|i]; cbn [step].
    - exists []. rewrite app_nil_r. unfold mainstep. destruct (Nat.ltb _ _); [reflexivity|]. destruct (_ =? _); reflexivity.
    - destruct (Nat.ltb _ _); [apply gstep_chan|]. exists []. rewrite app_nil_r. reflexivity.
  Qed.
  Lemma steps_chan sched : forall s, exists ext, gChan (fold_left (step v masks) sched s) = gChan s ++ ext.
  Proof.
    induction sched as [|a sched IH]; intros s; cbn [fold_left]; [exists []; rewrite app_nil_r; reflexivity|].
    destruct (IH (step v masks s a)) as [e E]. destruct (step_chan s a) as [e' E']. exists (e' ++ e). rewrite E, E', app_assoc. reflexivity.
  Qed.

  Lemma favour_prog k j : (k < 8)%nat -> (j < 8)%nat -> prog (run (favour k)) j = if Nat.eqb j k then 5%nat else 0%nat.
  Proof.
    intros Hk Hj. do 8 (destruct k as [|k]; [do 8 (destruct j as [|j]; [vm_compute; reflexivity|]); lia|]). lia.
  Qed.

  Lemma favour_chan k : wf cpy -> (k < 8)%nat -> gChan (fold_left (step v masks) (favour k) (ginit cpy)) = [(score k, Z.of_nat k)].
  Proof.
    intros Hw Hk. pose proof (sched_inv (favour k) Hw) as HI.
    set (s := fold_left (step v masks) (favour k) (ginit cpy)) in *.
    assert (CH : forall e, In e (gChan s) <-> e = (score k, Z.of_nat k)).
    { intros e. rewrite (in_chan _ _ HI). split.
      - intros (i & Hi & Hp & ->). rewrite favour_prog in Hp by auto. destruct (Nat.eqb_spec i k) as [->|]; [reflexivity|lia].
      - intros ->. exists k. rewrite favour_prog, Nat.eqb_refl by auto. auto. }
    pose proof (in_nd _ _ HI) as ND. destruct (gChan s) as [|e [|e' c]].
    - exfalso. apply (proj2 (CH _) eq_refl).
    - f_equal. apply CH. left. reflexivity.
    - exfalso. assert (e = e') by (rewrite (proj1 (CH e) (or_introl eq_refl)), (proj1 (CH e') (or_intror (or_introl eq_refl))); reflexivity).
      subst e'. inversion ND as [|? ? N _]. apply N. left. reflexivity.
  Qed.

  Lemma select_keep : forall (chan : list (Z * Z)) (low idx : Z), (forall s i, In (s, i) chan -> low <= s) ->
    fold_left (fun '(low, idx) '(score, i) => if score <? low then (score, i) else (low, idx)) chan (low, idx) = (low, idx).
  Proof.
    induction chan as [|[s i] chan IH]; intros low idx HL; cbn [fold_left]; [reflexivity|].
    destruct (Z.ltb_spec s low) as [X|X]; [specialize (HL s i (or_introl eq_refl)); lia|]. apply IH. intros s' i' Hi. apply (HL s' i'). right. exact Hi.
  Qed.

  Lemma favoured k rest : wf cpy -> (forall i, (i < 8)%nat -> score i < MaxInt32) -> (k < 8)%nat ->
    (forall j, (j < 8)%nat -> score k <= score j) ->
    snd (select_mask (gChan (fold_left (step v masks) (favour k ++ rest) (ginit cpy)))) = Z.of_nat k.
  Proof.
    intros Hw HS Hk MIN. pose proof (sched_inv (favour k ++ rest) Hw) as HI. rewrite fold_left_app in *.
    destruct (steps_chan rest (fold_left (step v masks) (favour k) (ginit cpy))) as [ext E].
    pose proof (in_chan _ _ HI) as CH. rewrite E, favour_chan in * by auto. cbn [app] in *.
    unfold select_mask. cbn [fold_left]. destruct (Z.ltb_spec (score k) MaxInt32) as [X|X]; [|specialize (HS k Hk); lia].
    rewrite select_keep; [reflexivity|]. intros s i Hi.
    destruct (proj1 (CH (s, i)) (or_intror Hi)) as (j & Hj & _ & EJ). injection EJ as -> ->. apply MIN, Hj.
  Qed.
End Machine.

(* ---- termination: the abstract progress does not depend on the data ---- *)
Definition measure (P : progress) : nat :=
  (fold_right Nat.add 0 (map (prog P) (seq 0 8)) + spawned P + (if over P then 1 else 0))%nat.

Record wfP (P : progress) : Prop := {
  wp_6 : forall i, (prog P i <= 6)%nat; wp_8 : (spawned P <= 8)%nat;
  wp_over : over P = true -> spawned P = 8%nat /\ finished (prog P) = 8%nat
}.

Lemma sum_advance p i : (p i < 6)%nat -> forall l, NoDup l ->
  fold_right Nat.add 0%nat (map (advance p i) l) = ((if in_dec Nat.eq_dec i l then 1 else 0) + fold_right Nat.add 0 (map p l))%nat.
Proof.
  intros Hp. induction l as [|a l IH]; intros ND; [reflexivity|]. inversion ND; subst. cbn [map fold_right].
  rewrite IH by auto. unfold advance at 1.
  destruct (Nat.eqb_spec i a) as [->|N].
  - destruct (in_dec Nat.eq_dec a l); [contradiction|]. destruct (in_dec Nat.eq_dec a (a :: l)) as [_|C]; [lia|]. exfalso; apply C; left; auto.
  - destruct (in_dec Nat.eq_dec i l) as [Y|NY], (in_dec Nat.eq_dec i (a :: l)) as [Y2|NY2]; try lia.
    + exfalso. apply NY2. right; auto.
    + exfalso. destruct Y2; [congruence|contradiction].
Qed.

Lemma astep_wf P a : wfP P -> wfP (astep P a).
Proof.
  intros [A B C]. unfold astep. destruct (enabled P a) eqn:E; [|constructor; auto].
  destruct a as [|i]; cbn [enabled] in E.
  - destruct (Nat.ltb_spec (spawned P) 8); constructor; cbn; auto.
    + intros X. apply C in X. lia.
    + apply andb_true_iff in E as [E _]. apply Nat.eqb_eq in E. intros _. split; auto. lia.
  - apply andb_true_iff in E as [E1 E2]. apply Nat.ltb_lt in E1, E2. constructor; cbn; auto.
    + intros j. unfold advance. destruct (Nat.eqb i j); auto. lia.
    + intros X. apply C in X as [_ X]. rewrite finished_all in X. specialize (X i ltac:(lia)). lia.
Qed.

Lemma astep_measure P a : wfP P -> measure (astep P a) = ((if enabled P a then 1 else 0) + measure P)%nat.
Proof.
  intros [A B C]. unfold astep. destruct (enabled P a) eqn:E; [|reflexivity].
  destruct a as [|i]; cbn [enabled] in E; unfold measure.
  - destruct (Nat.ltb_spec (spawned P) 8); cbn [prog spawned over].
    + lia.
    + apply andb_true_iff in E as [_ E]. apply negb_true_iff in E. rewrite E. lia.
  - apply andb_true_iff in E as [E1 E2]. apply Nat.ltb_lt in E1, E2. cbn [prog spawned over]. rewrite sum_advance by (auto; apply seq_NoDup).
    destruct (in_dec Nat.eq_dec i (seq 0 8)) as [_|N]; [lia|]. exfalso. apply N, in_seq. lia.
Qed.

Lemma measure_bound P : wfP P -> (measure P <= 57)%nat.
Proof.
  intros [A B C]. unfold measure. cbn [seq map fold_right].
  pose proof (A 0%nat); pose proof (A 1%nat); pose proof (A 2%nat); pose proof (A 3%nat);
  pose proof (A 4%nat); pose proof (A 5%nat); pose proof (A 6%nat); pose proof (A 7%nat). destruct (over P); lia.
Qed.

(* no deadlock: unless the caller has passed wg.Wait(), some actor is enabled *)
Lemma some_enabled P : wfP P -> over P = false -> exists a, In a all_actors /\ enabled P a = true.
Proof.
  intros [A B C] EO.
  destruct (Nat.ltb_spec (spawned P) 8) as [HS|HS].
  { exists Main. split; [left; auto|]. unfold enabled. apply Nat.ltb_lt in HS. rewrite HS. reflexivity. }
  destruct (Nat.eq_dec (finished (prog P)) 8) as [E|N].
  { exists Main. split; [left; auto|]. cbn [enabled]. rewrite EO, E, Nat.eqb_refl. apply orb_true_r. }
  destruct (forallb (fun i => Nat.leb 6 (prog P i)) (seq 0 8)) eqn:FA.
  - exfalso. apply N, finished_all. intros i Hi. rewrite forallb_forall in FA. apply Nat.leb_le, FA, in_seq. lia.
  - assert (D : forall l, forallb (fun i => Nat.leb 6 (prog P i)) l = false -> exists i, In i l /\ (prog P i < 6)%nat).
    { induction l as [|a l IH]; intros X; [discriminate|]. cbn [forallb] in X.
      destruct (Nat.leb_spec 6 (prog P a)) as [Y|Y]; [|exists a; split; [left; auto|auto]].
      destruct (IH X) as (i & Hi & X2). exists i. split; [right|]; auto. }
    destruct (D _ FA) as (i & Hi & X). exists (Goroutine i). split; [right; apply in_map; auto|].
    apply in_seq in Hi. cbn [enabled]. apply andb_true_iff. split; apply Nat.ltb_lt; lia.
Qed.

Lemma fold_wf sched : forall P, wfP P -> wfP (fold_left astep sched P).
Proof. induction sched; cbn; auto using astep_wf. Qed.

Lemma fold_measure sched : forall P, wfP P -> (measure P <= measure (fold_left astep sched P))%nat /\
  (measure (fold_left astep sched P) = measure P -> forall a, In a sched -> enabled P a = false).
Proof.
  induction sched as [|b sched IH]; intros P HP; cbn [fold_left]; [split; [auto|intros _ a []]|].
  destruct (IH (astep P b) (astep_wf P b HP)) as [A B]. pose proof (astep_measure P b HP) as E. split; [destruct (enabled P b); lia|].
  intros EQ. destruct (enabled P b) eqn:EB; [lia|].
  assert (AE : astep P b = P) by (unfold astep; rewrite EB; reflexivity). rewrite AE in *.
  intros a [<-|Ha]; auto.
Qed.

Lemma over_stable sched : forall P, wfP P -> over P = true -> over (fold_left astep sched P) = true.
Proof.
  induction sched as [|a sched IH]; intros P HP HO; cbn [fold_left]; auto. apply IH; [apply astep_wf; auto|].
  unfold astep. destruct (enabled P a); auto. destruct a; auto. destruct (Nat.ltb (spawned P) 8); auto.
Qed.

Lemma rounds_finish rounds : Forall round rounds -> forall P, wfP P -> (57 <= length rounds + measure P)%nat ->
  over (fold_left astep (concat rounds) P) = true.
Proof.
  induction rounds as [|r rounds IH]; intros HR P HP HM.
  - cbn [concat fold_left length] in *. destruct (over P) eqn:EO; auto. exfalso. destruct (some_enabled P HP EO) as (a & _ & E).
    pose proof (astep_measure P a HP) as X. rewrite E in X. pose proof (measure_bound _ (astep_wf P a HP)). lia.
  - inversion HR as [|? ? HR1 HR2]; subst. cbn [concat]. rewrite fold_left_app.
    destruct (over P) eqn:EO.
    { apply over_stable; [apply fold_wf; auto|]. apply over_stable; auto. }
    apply IH; [auto|apply fold_wf; auto|].
    destruct (fold_measure r P HP) as [A B].
    destruct (Nat.eq_dec (measure (fold_left astep r P)) (measure P)) as [E|N].
    + exfalso. destruct (some_enabled P HP EO) as (a & Ha & X). rewrite (B E a (HR1 a Ha)) in X. discriminate.
    + cbn [length] in HM. lia.
Qed.

Lemma wf0 : wfP (mkP (fun _ => 0%nat) 0 false).
Proof. constructor; cbn; auto; try lia; try discriminate. Qed.

Lemma fair_over sched : fair sched -> over (run sched) = true.
Proof.
  intros (rounds & rest & -> & HL & HR). unfold run. rewrite fold_left_app. apply over_stable; [apply fold_wf, wf0|].
  apply rounds_finish; auto using wf0. lia.
Qed.

(* at most 57 steps have an effect *)
Fixpoint effective (P : progress) (sched : list actor) : nat :=
  match sched with [] => 0 | a :: t => ((if enabled P a then 1 else 0) + effective (astep P a) t)%nat end.
Lemma effective_bound sched : forall P, wfP P -> (effective P sched + measure P <= 57)%nat.
Proof.
  induction sched as [|a sched IH]; intros P HP; cbn [effective].
  - pose proof (measure_bound P HP). lia.
  - pose proof (IH _ (astep_wf P a HP)). pose proof (astep_measure P a HP). lia.
Qed.
