(* Any cache with right entries, e.g. an empty one: the write path of loadAlignmentPatternLocV2. *)
From Coq Require Import Lia.
From Verif Require Import ModelBase ModelBinary ModelVersion ModelMatrix ModelLayout ModelEncoder ModelQRCode ModelCache SpecIso SpecSearch SpecConcurrent
  ProofBase ProofTables ProofSearchVersion ProofCache.

Section S.
  Context (sjis : Z -> option (list Z)).

  Definition waiting (req : GoText * list EncodeOption) (st : initState) (l : locs) : Prop :=
    (let* raw := toBytes (fst req) in prepare sjis (apply_options (snd req)) raw) = Ok st /\ 2 <= Ver (iV st) /\ calcAlignPatternLocs (Ver (iV st)) = Some l.
  Definition fine (req : GoText * list EncodeOption) (c : cstate) : Prop :=
    match c with
    | CLock st l | CWrite st l | CUnlock st l => waiting req st l
    | _ => good sjis req c
    end.

  Record inv (reqs : list (GoText * list EncodeOption)) (y : sys) : Prop := mkInv {
    inv_cache : right_cache (y_shared y);
    inv_calls : Forall2 fine reqs (y_calls y);
    inv_lock : forall k c, nth_error (y_calls y) k = Some c -> (holding c <-> sh_lock (y_shared y) = Some k);
    inv_holder : forall k, sh_lock (y_shared y) = Some k -> (k < length (y_calls y))%nat }.

  Lemma filled st l : calcAlignPatternLocs (Ver (iV st)) = Some l -> 2 <= Ver (iV st) -> Some l = loadAlignmentPatternLocV2 (Ver (iV st)).
  Proof. intros E V. unfold loadAlignmentPatternLocV2. destruct (Z.ltb_spec (Ver (iV st)) 2); [lia|]. symmetry. exact E. Qed.

  (* one step *)
  Lemma cstep_fine k req s c a : right_cache s -> fine req c -> (holding c <-> sh_lock s = Some k) ->
    let '(s', c') := cstep sjis k req s c a in
    right_cache s' /\ fine req c' /\ (holding c' <-> sh_lock s' = Some k) /\ (sh_lock s' = sh_lock s \/ (sh_lock s = None /\ sh_lock s' = Some k) \/ (sh_lock s = Some k /\ sh_lock s' = None)).
  Proof.
    intros R F HK.
    assert (LOCAL : (forall k' s', cstep sjis k' req s' c a = (s', snd (cstep sjis 0 req initial c a))) -> good sjis req c -> ~ holding c ->
      let '(s', c') := cstep sjis k req s c a in
      right_cache s' /\ fine req c' /\ (holding c' <-> sh_lock s' = Some k) /\ (sh_lock s' = sh_lock s \/ (sh_lock s = None /\ sh_lock s' = Some k) \/ (sh_lock s = Some k /\ sh_lock s' = None))).
    { intros E G NH. rewrite E. destruct (cstep_good sjis 0 req initial c a eq_refl eq_refl G) as (c' & lg & E' & G' & _ & _). rewrite E'. cbn [snd].
      assert (FG : fine req c') by (destruct c'; try contradiction; exact G'). assert (NH' : ~ holding c') by (destruct c'; try contradiction; cbn; auto).
      split; [exact R|]. split; [exact FG|]. split; [|left; reflexivity]. rewrite <- HK. tauto. }
    destruct c as [|st|st l|st l|st l|st an|st masks g|o].
    - apply LOCAL; [destruct a; reflexivity|exact F|intros []].
    - destruct a as [|i]; [|apply LOCAL; [reflexivity|exact F|intros []]].
      cbn [fine good] in F. pose proof (prep_range sjis req st F) as V. cbn [cstep].
      assert (NK : sh_lock s <> Some k) by (intros E; apply HK in E; exact E).
      destruct (Z.ltb_spec (Ver (iV st)) 2) as [V2|V2].
      + split; [exact R|]. split; [cbn [fine good]; split; [exact F|lia]|]. split; [cbn; tauto|auto].
      + unfold set_log. cbn [sh_cache]. destruct (lookup (sh_cache s) (Ver (iV st))) as [l|] eqn:EL.
        * apply R in EL. split; [exact R|]. split; [cbn [fine good]; split; [exact F|intros _; apply filled; assumption]|]. cbn [sh_lock]. split; [cbn; tauto|auto].
        * destruct (cache_filled (Ver (iV st)) ltac:(lia)) as [_ (l & CL)]. rewrite CL.
          split; [exact R|]. split; [repeat split; assumption|]. cbn [sh_lock]. split; [cbn; tauto|auto].
    - destruct a as [|i]; [|cbn [cstep]; auto 6]. cbn [cstep]. destruct (sh_lock s) as [j|] eqn:EL.
      + split; [exact R|]. split; [exact F|]. rewrite EL. auto.
      + split; [exact R|]. split; [exact F|]. cbn [sh_lock]. split; [cbn; tauto|auto].
    - destruct a as [|i]; [|cbn [cstep]; auto 6]. cbn [cstep]. destruct F as (F1 & F2 & F3). split; [|split; [repeat split; assumption|cbn [sh_lock]; split; [cbn in *; tauto|auto]]].
      intros ver l'. cbn [sh_cache lookup]. destruct (Z.eqb_spec (Ver (iV st)) ver) as [<-|N]; [congruence|apply R].
    - destruct a as [|i]; [|cbn [cstep]; auto 6]. cbn [cstep]. destruct F as (F1 & F2 & F3). split; [exact R|].
      split; [cbn [fine good]; split; [exact F1|intros _; apply filled; assumption]|]. cbn [sh_lock]. split; [split; [intros []|discriminate]|].
      right. right. split; [apply HK; exact I|reflexivity].
    - apply LOCAL; [destruct a; reflexivity|exact F|intros []].
    - apply LOCAL; [destruct a; reflexivity|exact F|intros []].
    - apply LOCAL; [destruct a; reflexivity|exact F|intros []].
  Qed.

  Lemma length_upd {A} (l : list A) k a : length (upd_nat l k a) = length l.
  Proof. revert k. induction l as [|x l IH]; intros [|k]; cbn; auto. Qed.

  Lemma sys_step_inv reqs y ka : inv reqs y -> inv reqs (sys_step sjis reqs y ka).
  Proof.
    intros [A B C D]. destruct ka as [k a]. unfold sys_step. destruct (nth_error reqs k) as [req|] eqn:ER; [|constructor; auto].
    destruct (Forall2_nth_ex _ _ _ _ _ B ER) as (c & EC & F). rewrite EC.
    pose proof (cstep_fine k req (y_shared y) c a A F (C k c EC)) as S. destruct (cstep sjis k req (y_shared y) c a) as [s' c'].
    destruct S as (S1 & S2 & S3 & S4). assert (KL : (k < length (y_calls y))%nat) by (apply nth_error_Some; congruence). constructor; cbn [y_shared y_calls].
    - exact S1.
    - apply Forall2_upd; [exact B|]. intros r Hr. rewrite ER in Hr. injection Hr as <-. exact S2.
    - intros j cj EJ. destruct (Nat.eq_dec j k) as [->|N].
      + rewrite nth_upd_same in EJ by exact KL. injection EJ as <-. exact S3.
      + rewrite nth_upd_other in EJ by exact N. rewrite (C j cj EJ). destruct S4 as [->|[[-> ->]|[-> ->]]]; split; congruence.
    - intros j EJ. rewrite length_upd. destruct S4 as [E|[[E1 E2]|[E1 E2]]]; [apply D; congruence|congruence|congruence].
  Qed.

  Lemma start_inv s reqs : right_cache s -> sh_lock s = None -> inv reqs (sys_start s reqs).
  Proof.
    intros R L. constructor; cbn [sys_start y_shared y_calls].
    - exact R.
    - induction reqs; constructor; auto. exact I.
    - intros k c EC. rewrite nth_error_map in EC. destruct (nth_error reqs k); [|discriminate EC]. injection EC as <-. rewrite L. split; [intros []|discriminate].
    - rewrite L. discriminate.
  Qed.
  Lemma run_inv s reqs sched : right_cache s -> sh_lock s = None -> inv reqs (sys_run sjis s reqs sched).
  Proof.
    intros R L. unfold sys_run. generalize (start_inv s reqs R L). generalize (sys_start s reqs). induction sched as [|ka sched IH]; intros y O; [exact O|].
    cbn [fold_left]. apply IH, sys_step_inv, O.
  Qed.

  Lemma fine_outcome req c : fine req c -> call_outcome c = Pending \/ exists sched, call_outcome c = NewWith sjis (fst req) (snd req) sched.
  Proof. destruct c; try (left; reflexivity); apply good_outcome. Qed.

End S.
