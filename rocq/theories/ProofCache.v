From Coq Require Import Lia.
From Verif Require Import ModelBase ModelBinary ModelVersion ModelMatrix ModelLayout ModelEncoder ModelQRCode ModelCache SpecIso SpecSearch SpecConcurrent
  ProofBase ProofTables ProofSearchVersion.

Lemma prefill_eq ver m : prefillMatrix ver m = prefill_from (loadAlignmentPatternLocV2 ver) ver m.
Proof. Local Transparent prefillMatrix. reflexivity. Qed.
Local Opaque prefillMatrix.

Lemma cache_sweep : forallb (fun ver => match calcAlignPatternLocs ver with Some _ => true | None => false end) (zseq 2 39) = true.
Proof. vm_compute. reflexivity. Qed.
Lemma lookup_map f l ver : In ver l -> lookup (map (fun v => (v, f v)) l) ver = Some (f ver).
Proof.
  induction l as [|v l IH]; [intros []|]. cbn [map lookup]. intros [->|I]; [rewrite Z.eqb_refl; reflexivity|].
  destruct (Z.eqb_spec v ver) as [->|]; [reflexivity|]. apply IH, I.
Qed.
Lemma cache_filled ver : 2 <= ver <= 40 -> lookup initial_cache ver = calcAlignPatternLocs ver /\ exists l, calcAlignPatternLocs ver = Some l.
Proof.
  intros V. assert (I : In ver (zseq 2 39)) by (apply in_zseq; lia).
  pose proof cache_sweep as S. rewrite forallb_forall in S. specialize (S ver I). unfold initial_cache. rewrite (lookup_map _ _ _ I).
  destruct (calcAlignPatternLocs ver) as [l|]; [|discriminate S]. split; eauto.
Qed.

Section S.
  Variable sjis : Z -> option (list Z).

  (* whatever is chosen, the version is one of the 40 *)
  Lemma loadVersion_in lv ec r : loadVersion lv ec = Ok r -> In r versions.
  Proof.
    unfold loadVersion. cbv zeta. generalize (zseq ((lv - 1) * 4) (lv * 4 - 1 - (lv - 1) * 4 + 1)). induction l as [|i l IH]; [discriminate|].
    cbn [loadVersion_loop]. destruct (zget versions i) as [v|] eqn:E; [|discriminate]. destruct (ECLevel v =? ec); [|exact IH].
    intros G. injection G as ->. unfold zget in E. destruct (i <? 0); [discriminate E|]. eapply nth_error_In. exact E.
  Qed.
  Lemma versions_range r : In r versions -> 1 <= Ver r <= 40.
  Proof.
    intros I. apply In_nth_error in I as [n E]. destruct (row_key' (Z.of_nat n) r) as [A _].
    { unfold row, zget. destruct (Z.ltb_spec (Z.of_nat n) 0); [lia|]. rewrite Nat2Z.id. exact E. }
    assert (X : (n < length versions)%nat) by (apply nth_error_Some; congruence). change (length versions) with 160%nat in X.
    rewrite A. pose proof (Z.div_pos (Z.of_nat n) 4 ltac:(lia) ltac:(lia)).
    assert (Z.of_nat n / 4 < 40) by (apply Z.div_lt_upper_bound; lia). lia.
  Qed.
  Lemma calcVersion_range opt mode raw r : calcVersion opt mode raw = Ok r -> 1 <= Ver r <= 40.
  Proof.
    unfold calcVersion. intros E. destruct (_ && _).
    - apply versions_range, (loadVersion_in _ _ _ E).
    - destruct (analyzeVersion raw (oEcLevel opt) mode) as [a| | |]; try discriminate E. cbn [bind] in E.
      apply versions_range, (loadVersion_in _ _ _ E).
  Qed.
  Lemma prepare_range opt raw st : prepare sjis opt raw = Ok st -> 1 <= Ver (iV st) <= 40.
  Proof.
    unfold prepare. destruct (chooseMode sjis opt raw) as [mode| | |]; try discriminate. cbn [bind].
    destruct (calcVersion opt mode raw) as [v| | |] eqn:E; try discriminate. cbn [bind]. cbv zeta. destruct (negb (newEncoder_ok mode)); try discriminate.
    destruct (encode sjis mode v raw) as [b| | |]; try discriminate. cbn [bind].
    destruct (cut_blocks v b) as [db| | |]; try discriminate. cbn [bind].
    destruct (errorCorrectionEncoding db) as [eb| | |]; try discriminate. cbn [bind].
    destruct (arrange (map dbData db)) as [x| | |]; try discriminate. cbn [bind].
    destruct (arrange eb) as [y| | |]; try discriminate. cbn [bind]. intros G. injection G as <-. cbn [iV]. eapply calcVersion_range, E.
  Qed.

  (* the states a call can be in when the cache is full *)
  Definition good (req : GoText * list EncodeOption) (c : cstate) : Prop :=
    let prep := let* raw := toBytes (fst req) in prepare sjis (apply_options (snd req)) raw in
    match c with
    | CStart => True
    | CLookup st => prep = Ok st
    | CFill st answer => prep = Ok st /\ (1 < Ver (iV st) -> answer = loadAlignmentPatternLocV2 (Ver (iV st)))
    | CMask st masks g => exists sched, (let* i := (let* raw := toBytes (fst req) in init sjis (apply_options (snd req)) raw) in
                                         let* ms := mask_start (iV i) (iData i) (iMat i) in Ok (i, ms)) = Ok (st, (masks, fst sched))
                          /\ g = fold_left (step (iV st) masks) (snd sched) (fst sched)
    | CEnd o => forall sched, o = NewWith sjis (fst req) (snd req) sched
    | _ => False
    end.

  Lemma prefill_from_any a b ver m : ver <= 1 -> prefill_from a ver m = prefill_from b ver m.
  Proof. intros V. unfold prefill_from. destruct (Z.ltb_spec 1 ver); [lia|reflexivity]. Qed.

  Lemma NewWith_prep req sched : NewWith sjis (fst req) (snd req) sched =
    let* st := (let* raw := toBytes (fst req) in prepare sjis (apply_options (snd req)) raw) in
    match prefillMatrix (Ver (iV st)) (iMat st) with
    | None => Panic PanicAlign
    | Some mat => let* r := mask_start (iV st) (iData st) mat in
                  let* m := (let '(masks, s) := r in mask_end (fold_left (step (iV st) masks) sched s)) in
                  Ok (mkQR (iV st) (iMode st) (iData st) m)
    end.
  Proof.
    unfold NewWith, build, init, masking. destruct (toBytes (fst req)) as [raw| | |]; try reflexivity. cbn [bind].
    destruct (prepare sjis (apply_options (snd req)) raw) as [st| | |]; try reflexivity. cbn [bind].
    destruct (prefillMatrix (Ver (iV st)) (iMat st)) as [mat|]; try reflexivity. cbn [bind iV iMode iData iMat].
    destruct (mask_start (iV st) (iData st) mat) as [[masks g]| | |]; reflexivity.
  Qed.
  Lemma init_prep req : (let* raw := toBytes (fst req) in init sjis (apply_options (snd req)) raw) =
    let* st := (let* raw := toBytes (fst req) in prepare sjis (apply_options (snd req)) raw) in
    match prefillMatrix (Ver (iV st)) (iMat st) with None => Panic PanicAlign | Some mat => Ok (mkInit (iV st) (iMode st) (iData st) mat) end.
  Proof. unfold init. destruct (toBytes (fst req)) as [raw| | |]; reflexivity. Qed.
  Lemma prep_range req st : (let* raw := toBytes (fst req) in prepare sjis (apply_options (snd req)) raw) = Ok st -> 1 <= Ver (iV st) <= 40.
  Proof. destruct (toBytes (fst req)) as [raw| | |]; try discriminate. cbn [bind]. apply prepare_range. Qed.

  (* a step of a good call: the shared state keeps its cache and lock, only a read can be logged, and the new call state does
     not depend on the other calls *)
  Lemma cstep_good k req s c a : sh_cache s = initial_cache -> sh_lock s = None -> good req c ->
    exists c' lg, cstep sjis k req s c a = (mkShared initial_cache None (sh_log s ++ lg), c') /\ good req c' /\ Forall is_read lg
                  /\ forall k' s', sh_cache s' = initial_cache -> snd (cstep sjis k' req s' c a) = c'.
  Proof.
    destruct s as [ca lk lg0]. cbn [sh_cache sh_lock sh_log]. intros -> -> G.
    assert (SAME : forall c', good req c' -> (forall k' s', cstep sjis k' req s' c a = (s', c')) ->
      exists c'' lg, cstep sjis k req (mkShared initial_cache None lg0) c a = (mkShared initial_cache None (lg0 ++ lg), c'') /\ good req c'' /\ Forall is_read lg
                  /\ forall k' s', sh_cache s' = initial_cache -> snd (cstep sjis k' req s' c a) = c'').
    { intros c' G' E. exists c', []. rewrite app_nil_r, E. repeat split; auto. intros k' s' _. rewrite E. reflexivity. }
    destruct c as [|st|st l|st l|st l|st an|st masks g|o]; try contradiction.
    - destruct a as [|i]; [|apply (SAME CStart); [exact G|reflexivity]].
      cbn [good] in *. set (prep := let* raw := toBytes (fst req) in prepare sjis (apply_options (snd req)) raw) in *.
      pose proof (NewWith_prep req) as NW. pose proof (prep_range req) as PR. fold prep in NW, PR.
      destruct prep as [st|e|p|] eqn:EP; fold prep in EP.
      + destruct (Z.ltb_spec 1 (Ver (iV st))) as [V|V].
        * apply (SAME (CLookup st)); [exact EP|]. intros k' s'. unfold cstep. fold prep. rewrite EP.
          destruct (Z.ltb_spec 1 (Ver (iV st))); [reflexivity|lia].
        * apply (SAME (CFill st None)); [split; [exact EP|lia]|]. intros k' s'. unfold cstep. fold prep. rewrite EP.
          destruct (Z.ltb_spec 1 (Ver (iV st))); [lia|reflexivity].
      + apply (SAME (CEnd (Err e))); [intros sched; rewrite NW; reflexivity|]. intros k' s'. unfold cstep. fold prep. rewrite EP. reflexivity.
      + apply (SAME (CEnd (Panic p))); [intros sched; rewrite NW; reflexivity|]. intros k' s'. unfold cstep. fold prep. rewrite EP. reflexivity.
      + apply (SAME (CEnd Pending)); [intros sched; rewrite NW; reflexivity|]. intros k' s'. unfold cstep. fold prep. rewrite EP. reflexivity.
    - destruct a as [|i]; [|apply (SAME (CLookup st)); [exact G|reflexivity]].
      cbn [good] in G. pose proof (prep_range req st G) as V.
      destruct (Z.ltb_spec (Ver (iV st)) 2) as [V2|V2].
      + apply (SAME (CFill st (Some []))); [cbn [good]; split; [exact G|lia]|]. intros k' s'. unfold cstep. destruct (Z.ltb_spec (Ver (iV st)) 2); [reflexivity|lia].
      + destruct (cache_filled (Ver (iV st)) ltac:(lia)) as [CF (l & CL)].
        exists (CFill st (Some l)), [MapRead k]. unfold cstep. destruct (Z.ltb_spec (Ver (iV st)) 2); [lia|].
        cbn [set_log sh_cache sh_lock sh_log]. rewrite CF, CL. repeat split.
        * exact G.
        * intros _. unfold loadAlignmentPatternLocV2. rewrite CL. reflexivity.
        * constructor; [exact I|constructor].
        * intros k' s' Hs. unfold set_log. cbn [sh_cache]. rewrite Hs, CF, CL. reflexivity.
    - destruct a as [|i]; [|apply (SAME (CFill st an)); [exact G|reflexivity]].
      cbn [good] in G. destruct G as [GP GA].
      assert (PF : prefill_from an (Ver (iV st)) (iMat st) = prefillMatrix (Ver (iV st)) (iMat st)).
      { rewrite prefill_eq. destruct (Z.le_gt_cases (Ver (iV st)) 1) as [V|V]; [apply prefill_from_any, V|]. rewrite (GA ltac:(lia)). reflexivity. }
      pose proof (NewWith_prep req) as NW. pose proof (init_prep req) as IP. rewrite GP in NW, IP. cbn [bind] in NW, IP.
      destruct (prefillMatrix (Ver (iV st)) (iMat st)) as [mat|] eqn:EM.
      + destruct (mask_start (iV st) (iData st) mat) as [[masks g]|e|p|] eqn:MS; cbn [bind] in NW.
        * apply (SAME (CMask (mkInit (iV st) (iMode st) (iData st) mat) masks g)).
          -- cbn [good]. exists (g, []). rewrite IP. cbn [bind iV iData iMat]. rewrite MS. cbn [bind fst snd fold_left]. split; reflexivity.
          -- intros k' s'. unfold cstep. rewrite PF. cbn [iV iData]. rewrite MS. reflexivity.
        * apply (SAME (CEnd (Err e))); [intros sched; rewrite NW; reflexivity|]. intros k' s'. unfold cstep. rewrite PF. cbn [iV iData]. rewrite MS. reflexivity.
        * apply (SAME (CEnd (Panic p))); [intros sched; rewrite NW; reflexivity|]. intros k' s'. unfold cstep. rewrite PF. cbn [iV iData]. rewrite MS. reflexivity.
        * apply (SAME (CEnd Pending)); [intros sched; rewrite NW; reflexivity|]. intros k' s'. unfold cstep. rewrite PF. cbn [iV iData]. rewrite MS. reflexivity.
      + apply (SAME (CEnd (Panic PanicAlign))); [intros sched; rewrite NW; reflexivity|]. intros k' s'. unfold cstep. rewrite PF. reflexivity.
    - cbn [good] in G. destruct G as ((g0 & sched) & G1 & G2). cbn [fst snd] in *.
      apply (SAME (CMask st masks (step (iV st) masks g a))).
      + cbn [good]. exists (g0, sched ++ [a]). cbn [fst snd]. split; [exact G1|]. rewrite fold_left_app. cbn [fold_left]. rewrite <- G2. reflexivity.
      + intros k' s'. unfold cstep. destruct a; reflexivity.
    - apply (SAME (CEnd o)); [exact G|]. intros k' s'. unfold cstep. destruct a; reflexivity.
  Qed.

  Lemma good_outcome req c : good req c -> call_outcome c = Pending \/ exists sched, call_outcome c = NewWith sjis (fst req) (snd req) sched.
  Proof.
    destruct c as [|st|st l|st l|st l|st an|st masks g|o]; try contradiction; cbn [call_outcome]; auto.
    - intros ((g0 & sched) & G1 & G2). cbn [fst snd] in *. right. exists sched.
      rewrite init_prep in G1. rewrite NewWith_prep.
      destruct (let* raw := toBytes (fst req) in prepare sjis (apply_options (snd req)) raw) as [st0| | |]; try discriminate G1.
      cbn [bind] in *. destruct (prefillMatrix (Ver (iV st0)) (iMat st0)) as [mat|]; try discriminate G1. cbn [bind iV iData iMat] in *.
      destruct (mask_start (iV st0) (iData st0) mat) as [[mk g1]| | |]; try discriminate G1. cbn [bind] in *.
      injection G1 as <- <- <-. cbn [iV iMode iData] in *. rewrite G2. reflexivity.
    - intros G. right. exists []. apply G.
  Qed.

  (* the whole run *)
  Record ok (reqs : list (GoText * list EncodeOption)) (y : sys) : Prop := mkOk {
    ok_cache : sh_cache (y_shared y) = initial_cache;
    ok_lock : sh_lock (y_shared y) = None;
    ok_log : Forall is_read (sh_log (y_shared y));
    ok_calls : Forall2 good reqs (y_calls y) }.

  Lemma Forall2_upd {A B} (P : A -> B -> Prop) l l' k b : Forall2 P l l' -> (forall a, nth_error l k = Some a -> P a b) -> Forall2 P l (upd_nat l' k b).
  Proof.
    intros F. revert k. induction F as [|x y l l' Pxy F IH]; intros k Hk; [destruct k; constructor|].
    destruct k as [|k]; cbn [upd_nat]; constructor; auto.
  Qed.
  Lemma Forall2_nth {A B} (P : A -> B -> Prop) l l' k a b : Forall2 P l l' -> nth_error l k = Some a -> nth_error l' k = Some b -> P a b.
  Proof. intros F. revert k. induction F as [|x y l l' Pxy F IH]; intros [|k]; cbn; try discriminate; [congruence|apply IH]. Qed.
  Lemma Forall2_nth_ex {A B} (P : A -> B -> Prop) l l' k a : Forall2 P l l' -> nth_error l k = Some a -> exists b, nth_error l' k = Some b /\ P a b.
  Proof. intros F. revert k. induction F as [|x y l l' Pxy F IH]; intros [|k]; cbn; try discriminate; [|apply IH]. intros E. injection E as <-. eauto. Qed.

  Lemma sys_step_ok reqs y ka : ok reqs y -> ok reqs (sys_step sjis reqs y ka).
  Proof.
    intros [A B C D]. destruct ka as [k a]. unfold sys_step. destruct (nth_error reqs k) as [req|] eqn:ER; [|constructor; auto].
    destruct (Forall2_nth_ex _ _ _ _ _ D ER) as (c & EC & G). rewrite EC.
    destruct (cstep_good k req (y_shared y) c a A B G) as (c' & lg & E & G' & R & _). rewrite E. constructor; cbn.
    - reflexivity.
    - reflexivity.
    - apply Forall_app. auto.
    - apply Forall2_upd; [exact D|]. intros r Hr. rewrite ER in Hr. injection Hr as <-. exact G'.
  Qed.
  Lemma start_ok reqs : ok reqs (sys_start initial reqs).
  Proof. constructor; cbn; auto. induction reqs; constructor; auto. exact I. Qed.
  Lemma run_ok reqs sched : ok reqs (sys_run sjis initial reqs sched).
  Proof.
    unfold sys_run. generalize (start_ok reqs). generalize (sys_start initial reqs). induction sched as [|ka sched IH]; intros y O; [exact O|].
    cbn [fold_left]. apply IH, sys_step_ok, O.
  Qed.

  Lemma nth_upd_same {A} (l : list A) k a : (k < length l)%nat -> nth_error (upd_nat l k a) k = Some a.
  Proof. revert k. induction l as [|x l IH]; intros [|k] Hk; cbn in *; try lia; [reflexivity|]. apply IH. lia. Qed.
  Lemma nth_upd_other {A} (l : list A) k j a : j <> k -> nth_error (upd_nat l k a) j = nth_error l j.
  Proof. revert k j. induction l as [|x l IH]; intros [|k] [|j] Hk; cbn in *; try lia; try reflexivity. apply IH. lia. Qed.

  (* one call in the crowd and the same call alone *)
  Lemma projection reqs k req sched : nth_error reqs k = Some req ->
    nth_error (y_calls (sys_run sjis initial reqs sched)) k = nth_error (y_calls (sys_run sjis initial [req] (alone k sched))) 0.
  Proof.
    intros ER. unfold sys_run.
    assert (GEN : forall y z, ok reqs y -> ok [req] z -> nth_error (y_calls y) k = nth_error (y_calls z) 0 ->
       nth_error (y_calls (fold_left (sys_step sjis reqs) sched y)) k = nth_error (y_calls (fold_left (sys_step sjis [req]) (alone k sched) z)) 0).
    { induction sched as [|[j a] sched IH]; intros y z OY OZ E; [exact E|].
      cbn [fold_left]. unfold alone. cbn [flat_map]. destruct (Nat.eqb_spec j k) as [->|Ne].
      - cbn [app fold_left]. apply IH; [apply sys_step_ok, OY|apply sys_step_ok, OZ|].
        destruct (Forall2_nth_ex _ _ _ _ _ (ok_calls _ _ OY) ER) as (c & EC & G).
        unfold sys_step. rewrite ER, EC. rewrite EC in E. change (nth_error [req] 0) with (Some req). rewrite <- E.
        destruct (cstep_good k req (y_shared y) c a (ok_cache _ _ OY) (ok_lock _ _ OY) G) as (c' & lg & E' & _ & _ & SN).
        rewrite E'. specialize (SN 0%nat (y_shared z) (ok_cache _ _ OZ)).
        destruct (cstep sjis 0 req (y_shared z) c a) as [sz cz]. cbn [snd] in SN. subst cz. cbn [y_calls].
        rewrite nth_upd_same by (apply nth_error_Some; congruence).
        destruct (y_calls z) as [|c0 cs]; [discriminate E|]. reflexivity.
      - cbn [app]. apply IH; [apply sys_step_ok, OY|exact OZ|]. rewrite <- E. unfold sys_step.
        destruct (nth_error reqs j) as [rj|]; [|reflexivity]. destruct (nth_error (y_calls y) j) as [cj|]; [|reflexivity].
        destruct (cstep sjis j rj (y_shared y) cj a) as [s' c']. cbn [y_calls]. apply nth_upd_other. congruence. }
    apply GEN; [apply start_ok|apply start_ok|]. cbn. unfold sys_start. cbn [y_calls]. rewrite nth_error_map, ER. reflexivity.
  Qed.
End S.
