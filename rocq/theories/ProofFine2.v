(* Proofs for C76, second part: what a goroutine's program computes alone, and the simulation. *)
From Coq Require Import Lia.
From Verif Require Import ModelBase ModelBinary ModelMatrix ModelVersion ModelEncoder ModelMask ModelEval ModelLayout ModelHeap ModelQRCode ModelFine.
From Verif Require Import SpecMatrix SpecFine SpecShare ProofBase ProofMatrix ProofHeap ProofMasking ProofFine.

(* ---- alone ---- *)
Lemma alone_xor coords k mask : (forall x y, In (x, y) coords -> in_range mask x y) -> forall m,
  alone (xor_prog coords k) mask m =
  alone k mask (fold_left (fun m '(x, y) => if qrtype (rawget mask x y) =? QRType_INIT then m
                                            else let '(v2, _) := m_at m x y in m_set m x y (qrxor v2 (rawget mask x y))) coords m).
Proof.
  induction coords as [|[x y] r IH]; intros R m; [reflexivity|]. cbn [xor_prog alone fold_left].
  rewrite m_at_in by (apply R; left; reflexivity). cbn [fst]. destruct (qrtype (rawget mask x y) =? QRType_INIT).
  - apply IH. intros a b I. apply R. right; exact I.
  - cbn [alone]. rewrite IH by (intros a b I; apply R; right; exact I). destruct (m_at m x y) as [v2 e]. reflexivity.
Qed.
Lemma column_coords w h x y : In (x, y) (iter_coords IterDirection_COLUMN w h) -> 0 <= x < w /\ 0 <= y < h.
Proof.
  unfold iter_coords. intros I. apply in_flat_map in I as (a & A & I). apply in_map_iff in I as (b & E & B). injection E as <- <-.
  apply in_zseq in A, B. lia.
Qed.
Lemma alone_xorMask k mask m : alone (xor_prog (iter_coords IterDirection_COLUMN (mwidth mask) (mheight mask)) k) mask m = alone k mask (xorMask m mask).
Proof. apply alone_xor. intros x y I. apply column_coords in I. exact I. Qed.
Lemma alone_writes ws k mask : forall m, alone (writes_prog ws k) mask m = alone k mask (fold_left (fun m '(x, y, c) => m_set m x y c) ws m).
Proof. induction ws as [|[[x y] c] ws IH]; intros m; [reflexivity|]. cbn [writes_prog alone fold_left]. apply IH. Qed.
Lemma format_fold d bin : forall m x y,
  fold_left (fun m '(x, y, c) => m_set m x y c) (format_writes d x y bin) m =
  (let '(m, _, _) := fold_left (fun '(m, x, y) (b : bool) =>
      let c := if b then QRValue_FORMAT_V1 else QRValue_FORMAT_V0 in
      let m := m_set m x 8 c in let m := m_set m 8 y c in
      let x := x + 1 in let y := y - 1 in
      let x := if x =? 6 then 7 else if x =? 8 then d - 8 else x in
      let y := if y =? d - 8 then 8 else if y =? 6 then 5 else y in
      (m, x, y)) bin (m, x, y) in m).
Proof. induction bin as [|b r IH]; intros m x y; [reflexivity|]. cbn [format_writes fold_left]. apply IH. Qed.
Lemma version_fold d cells : forall bin m,
  fold_left (fun m '(x, y, c) => m_set m x y c) (version_writes d cells bin) m =
  fst (fold_left (fun '(m, bin) '(j, i) =>
    match bin with
    | [] => (m, [])
    | b :: rest =>
      let c := if (b : bool) then QRValue_VERSION_V1 else QRValue_VERSION_V0 in
      (m_set (m_set m (d - 8 - i) j c) j (d - 8 - i) c, rest)
    end) cells (m, bin)).
Proof.
  induction cells as [|[j i] cells IH]; intros [|b r] m; try reflexivity.
  - cbn [version_writes fold_left]. specialize (IH [] m). destruct cells as [|[j' i'] cells]; exact IH.
  - cbn [version_writes fold_left]. apply IH.
Qed.

(* ---- the simulation ---- *)
Section Fine.
  Variables (v : version) (masks : list Matrix) (cpy : Matrix).
  Variables (fmt : nat -> binary) (vinfo : binary) (score : nat -> Z) (mk : nat -> Matrix).
  Notation cand := (candidate v cpy fmt vinfo mk).
  Notation inv := (ProofMasking.inv v cpy fmt vinfo score mk).
  Hypothesis Hmasks : forall i, (i < 8)%nat -> nth_error masks i = Some (mk i).
  Hypothesis Hfmt : forall i, (i < 8)%nat -> v_formatInfo v (Z.of_nat i) = Some (fmt i).
  Hypothesis Hver : 7 <= Ver v -> v_verInfo v = Some vinfo.
  Hypothesis Hscore : forall i, (i < 8)%nat -> evaluation (cand i) = Some (score i).
  Hypothesis Hcpy : wf cpy.

  Lemma alone_body i eval : (i < 8)%nat -> (forall mask, alone eval mask (cand i) = (cand i, score i)) ->
    alone (body v (mk i) (Z.of_nat i) eval) (mk i) cpy = (cand i, score i).
  Proof.
    intros Hi E. unfold body. cbv zeta. rewrite alone_xorMask, !alone_writes. rewrite (Hfmt i Hi). cbn [or_empty].
    rewrite format_fold. rewrite <- (E (mk i)). f_equal. unfold candidate, after_format, after_xor, fillFormatInfo, fillVersionInfo.
    destruct (Z.leb_spec 7 (Ver v)) as [V7|V7]; [|reflexivity]. rewrite (Hver V7). cbn [or_empty]. apply version_fold.
  Qed.

  (* one coarse step of goroutine i *)
  Lemma gstep_chan P s i : inv P s -> (i < spawned P)%nat -> (ProofMasking.prog P i < 6)%nat ->
    gChan (gstep v masks s i) = gChan s ++ (if Nat.eqb (ProofMasking.prog P i) 4 then [(score i, Z.of_nat i)] else []) /\
    gWg (gstep v masks s i) = gWg s - (if Nat.eqb (ProofMasking.prog P i) 5 then 1 else 0) /\
    gSpawned (gstep v masks s i) = gSpawned s /\ gMain (gstep v masks s i) = gMain s.
  Proof.
    intros I LS L6. assert (L8 : (i < 8)%nat) by (pose proof (in_sp8 _ _ _ _ _ _ _ _ I); lia).
    unfold gstep. rewrite (in_pcs _ _ _ _ _ _ _ _ I i L8), (in_mats _ _ _ _ _ _ _ _ I i L8), (Hmasks i L8).
    pose proof (chan_small _ _ _ _ _ _ P s i I L8) as CS.
    destruct (ProofMasking.prog P i) as [|[|[|[|[|[|n]]]]]]; cbn [pc_at Nat.eqb]; try lia; rewrite ?app_nil_r, ?Z.sub_0_r.
    - cbn. auto.
    - rewrite (Hfmt i L8). cbn. auto.
    - destruct (Z.leb_spec 7 (Ver v)) as [V7|V7]; [rewrite (Hver V7)|]; cbn; auto.
    - cbn [mat_at]. rewrite (Hscore i L8). cbn. auto.
    - destruct (Z.ltb_spec (zlen (gChan s)) 8); [|lia]. cbn. auto.
    - cbn. auto.
  Qed.
  Lemma step_go P s i : inv P s -> (i < spawned P)%nat -> (ProofMasking.prog P i < 6)%nat ->
    step v masks s (Goroutine i) = gstep v masks s i /\
    inv (mkP (advance (ProofMasking.prog P) i) (spawned P) (over P)) (gstep v masks s i).
  Proof.
    intros I LS L6. split; [|apply (gstep_inv _ _ _ _ _ _ _ Hmasks Hfmt Hver Hscore P s i I LS L6)].
    unfold step. rewrite (in_sp _ _ _ _ _ _ _ _ I). destruct (Nat.ltb_spec i (spawned P)); [reflexivity|lia].
  Qed.
  Lemma advance_self p i : (p i < 6)%nat -> advance p i i = S (p i).
  Proof. intros L6. unfold advance. rewrite Nat.eqb_refl. lia. Qed.
  Lemma advance_else p i j : j <> i -> advance p i j = p j.
  Proof. intros NE. unfold advance. destruct (Nat.eqb_spec i j); [congruence|reflexivity]. Qed.

  (* the five coarse steps of goroutine i from its start to after the send *)
  Lemma five P s i : inv P s -> (i < spawned P)%nat -> ProofMasking.prog P i = 0%nat ->
    exists P' s', fold_left (step v masks) (repeat (Goroutine i) 5) s = s' /\ inv P' s' /\
      ProofMasking.prog P' i = 5%nat /\ (forall j, j <> i -> ProofMasking.prog P' j = ProofMasking.prog P j) /\ spawned P' = spawned P /\
      gChan s' = gChan s ++ [(score i, Z.of_nat i)] /\ gWg s' = gWg s /\ gSpawned s' = gSpawned s /\ gMain s' = gMain s.
  Proof.
    intros I LS E0.
    assert (G : forall n P s, (n <= 5)%nat -> inv P s -> (i < spawned P)%nat -> ProofMasking.prog P i = (5 - n)%nat ->
      exists P' s', fold_left (step v masks) (repeat (Goroutine i) n) s = s' /\ inv P' s' /\
      ProofMasking.prog P' i = 5%nat /\ (forall j, j <> i -> ProofMasking.prog P' j = ProofMasking.prog P j) /\ spawned P' = spawned P /\
      gChan s' = gChan s ++ (if Nat.eqb n 0 then [] else [(score i, Z.of_nat i)]) /\ gWg s' = gWg s /\ gSpawned s' = gSpawned s /\ gMain s' = gMain s).
    { clear P s I LS E0. induction n as [|n IH]; intros P s Ln I LS EP.
      - exists P, s. cbn [repeat fold_left Nat.eqb]. rewrite app_nil_r. split; [reflexivity|]. split; [exact I|]. split; [lia|]. split; [intros; reflexivity|]. repeat (split; [reflexivity|]). reflexivity.
      - cbn [repeat fold_left]. destruct (step_go P s i I LS ltac:(lia)) as [-> I']. destruct (gstep_chan P s i I LS ltac:(lia)) as (C1 & C2 & C3 & C4).
        destruct (IH _ _ ltac:(lia) I') as (P' & s' & EF & I2 & E5 & OT & ES & D1 & D2 & D3 & D4).
        { cbn [spawned]. exact LS. } { cbn [ProofMasking.prog]. rewrite advance_self by lia. lia. }
        exists P', s'. split; [exact EF|]. split; [exact I2|]. split; [exact E5|]. split; [intros j NE; rewrite OT by exact NE; cbn [ProofMasking.prog]; apply advance_else, NE|].
        split; [exact ES|]. rewrite D1, D2, D3, D4, C1, C2, C3, C4. rewrite EP. cbn [Nat.eqb]. split; [|split; [|auto]].
        + rewrite <- app_assoc. f_equal. destruct n as [|n]; [reflexivity|]. destruct (Nat.eqb_spec (5 - S (S n)) 4); [lia|]. reflexivity.
        + destruct (Nat.eqb_spec (5 - S n) 5); lia. }
    exact (G 5%nat P s (le_n 5) I LS E0).
  Qed.

  Variables (hmasks hmats : list HMatrix).
  Hypothesis Lmasks : length hmasks = 8%nat.
  Hypothesis Lmats : length hmats = 8%nat.
  Hypothesis Amats : forall i j a b, i <> j -> nth_error hmats i = Some a -> nth_error hmats j = Some b -> apart a b.
  Hypothesis Amix : forall i j a b, nth_error hmats i = Some a -> nth_error hmasks j = Some b -> apart a b.

  Variable (others : heap).
  Hypothesis Fmats : forall i a, nth_error hmats i = Some a -> (length others <= first a)%nat.

  Inductive same (i : nat) (m : Matrix) : nat -> fpc -> Prop :=
  | same_running p : alone p (mk i) m = (cand i, score i) -> same i m 0 (Running p)
  | same_done : m = cand i -> same i m 5 FDone
  | same_exit : m = cand i -> same i m 6 FExit.
  Definition owner (i : nat) (a : nat) (w : bool) : Prop :=
    (exists hm, nth_error hmats i = Some hm /\ (first hm <= a < h_mat hm)%nat) \/
    (w = false /\ exists hk, nth_error hmasks i = Some hk /\ (first hk <= a < h_mat hk)%nat).
  Record rel (P : progress) (s : gstate) (f : fstate) : Prop := {
    re_inv : inv P s;
    re_chan : fChan f = gChan s; re_wg : fWg f = gWg s; re_sp : fSpawned f = gSpawned s; re_main : fMain f = gMain s;
    re_pcs : forall i, (i < 8)%nat -> exists hm hk m pc, nth_error hmats i = Some hm /\ nth_error hmasks i = Some hk /\
       holds (fHeap f) hm m /\ holds (fHeap f) hk (mk i) /\ nth_error (fPcs f) i = Some pc /\ same i m (ProofMasking.prog P i) pc;
    re_pl : length (fPcs f) = 8%nat;
    re_log : forall i a w, In (i, (a, w)) (fLog f) -> owner i a w;
    re_frame : forall a, (a < length others)%nat -> nth_error (fHeap f) a = nth_error others a
  }.

  Lemma rel_step P s f a : rel P s f -> exists c P' s', s' = fold_left (step v masks) c s /\ rel P' s' (fstep hmasks hmats f a).
  Proof.
    intros R. destruct R as [I EC EW ES EM PC PL LG FR]. destruct a as [|i].
    - (* main *)
      exists [Main], (astep P Main), (step v masks s Main). split; [reflexivity|]. pose proof (step_inv _ _ _ _ _ _ _ Hmasks Hfmt Hver Hscore P s Main I) as I'.
      assert (EP : ProofMasking.prog (astep P Main) = ProofMasking.prog P) by (unfold astep; destruct (enabled P Main); [destruct (Nat.ltb (spawned P) 8)|]; reflexivity).
      constructor; try exact I'; unfold fstep, fmainstep, step, mainstep; rewrite <- ?ES, <- ?EW; destruct (Nat.ltb (fSpawned f) 8); [|destruct (fWg f =? 0)| |destruct (fWg f =? 0)| |destruct (fWg f =? 0)| |destruct (fWg f =? 0)| |destruct (fWg f =? 0)| |destruct (fWg f =? 0)| |destruct (fWg f =? 0)| |destruct (fWg f =? 0)];
        cbn [fChan fWg fSpawned fMain fPcs fHeap fLog gChan gWg gSpawned gMain]; rewrite ?EP; auto; lia.
    - unfold fstep. destruct (Nat.ltb_spec i (fSpawned f)) as [LS|LS]; [|exists [], P, s; split; [reflexivity|constructor; auto]].
      rewrite ES, (in_sp _ _ _ _ _ _ _ _ I) in LS. assert (L8 : (i < 8)%nat) by (pose proof (in_sp8 _ _ _ _ _ _ _ _ I); lia).
      destruct (PC i L8) as (hm & hk & m & pc & Em & Ek & Hm & Hk & Ep & SA). unfold fgstep. rewrite Ep, Em, Ek. cbv zeta.
      (* steps that only move the program and the memory *)
      assert (MOVE : forall p h log, holds h hm (fst p) -> alone (snd p) (mk i) (fst p) = (cand i, score i) -> ProofMasking.prog P i = 0%nat ->
         (forall j hm' m', j <> i -> nth_error hmats j = Some hm' -> holds (fHeap f) hm' m' -> holds h hm' m') ->
         (forall j hk' m', nth_error hmasks j = Some hk' -> holds (fHeap f) hk' m' -> holds h hk' m') ->
         (forall a w, In (a, w) log -> owner i a w) -> (forall a, (a < length others)%nat -> nth_error h a = nth_error others a) ->
         rel P s (mkF h (upd_nat (fPcs f) i (Running (snd p))) (fChan f) (fWg f) (fSpawned f) (fMain f) (fLog f ++ map (fun e => (i, e)) log))).
      { intros [m' p] h log HH AL E0 OTH MSK LO FR'. cbn [fst snd] in *. constructor; cbn [fChan fWg fSpawned fMain fPcs fHeap fLog]; auto.
        - intros j Lj. destruct (PC j Lj) as (hm1 & hk1 & m1 & pc1 & A1 & A2 & A3 & A4 & A5 & A6). destruct (Nat.eq_dec j i) as [->|NE].
          + assert (hm1 = hm) by congruence. subst hm1. exists hm, hk1, m', (Running p). split; [exact A1|]. split; [exact A2|]. split; [exact HH|]. split; [eapply MSK; eauto|].
            split; [apply (nth_error_upd_some _ _ _ pc1), A5|]. rewrite E0. constructor. exact AL.
          + exists hm1, hk1, m1, pc1. split; [exact A1|]. split; [exact A2|]. split; [eapply OTH; eauto|]. split; [eapply MSK; eauto|]. split; [|exact A6].
            rewrite nth_error_upd_other by congruence. exact A5.
        - rewrite upd_length. exact PL.
        - intros j a w IN. apply in_app_or in IN as [IN|IN]; [apply LG, IN|]. apply in_map_iff in IN as ([a' w'] & E & IN). injection E as <- <- <-. apply LO, IN. }
      inversion SA as [p AL E0 Epc|EQ E5 Epc|EQ E6 Epc]; subst pc.
      + destruct p as [sc|x y k|x y k|x y c k].
        * (* the send *)
          cbn [alone] in AL. injection AL as EQ ESC. subst sc. symmetry in E0.
          pose proof (chan_small _ _ _ _ _ _ P s i I L8 ltac:(lia)) as CS. rewrite EC. destruct (Z.ltb_spec (zlen (gChan s)) 8); [|lia].
          destruct (five P s i I LS E0) as (P' & s' & EF & I' & E5 & OT & ESP & D1 & D2 & D3 & D4).
          exists (repeat (Goroutine i) 5), P', s'. split; [symmetry; exact EF|]. constructor; cbn [fChan fWg fSpawned fMain fPcs fHeap fLog]; auto; try congruence.
          -- intros j Lj. destruct (PC j Lj) as (hm1 & hk1 & m1 & pc1 & A1 & A2 & A3 & A4 & A5 & A6). destruct (Nat.eq_dec j i) as [->|NE].
             ++ assert (hm1 = hm) by congruence. subst hm1. exists hm, hk1, m, FDone. split; [exact A1|]. split; [exact A2|]. split; [exact Hm|]. split; [exact A4|].
                split; [apply (nth_error_upd_some _ _ _ pc1), A5|]. rewrite E5. constructor. exact EQ.
             ++ exists hm1, hk1, m1, pc1. rewrite OT by exact NE. repeat (split; [assumption|]). split; [|exact A6]. rewrite nth_error_upd_other by congruence. exact A5.
          -- rewrite upd_length. exact PL.
        * exists [], P, s. split; [reflexivity|]. apply (MOVE (m, k (at_cell (fHeap f) hk x y))); cbn [fst snd]; auto; try lia.
          -- rewrite (at_holds _ _ _ x y Hk). exact AL.
          -- intros a w IN. apply in_map_iff in IN as (b & E & IN). injection E as <- <-. right. split; [reflexivity|]. exists hk. split; [exact Ek|]. eapply object_region; eauto.
        * exists [], P, s. split; [reflexivity|]. apply (MOVE (m, k (at_cell (fHeap f) hm x y))); cbn [fst snd]; auto; try lia.
          -- rewrite (at_holds _ _ _ x y Hm). exact AL.
          -- intros a w IN. apply in_map_iff in IN as (b & E & IN). injection E as <- <-. left. exists hm. split; [exact Em|]. eapply object_region; eauto.
        * exists [], P, s. split; [reflexivity|]. apply (MOVE (m_set m x y c, k)); cbn [fst snd]; auto; try lia.
          -- apply set_holds, Hm.
          -- intros j hm' m' NE Ej Hj. eapply set_apart; [exact Hm|exact Hj|]. apply (Amats i j); auto.
          -- intros j hk' m' Ej Hj. eapply set_apart; [exact Hm|exact Hj|]. apply (Amix i j); auto.
          -- intros a w IN. apply in_map_iff in IN as (b & E & IN). injection E as <- <-. left. exists hm. split; [exact Em|]. eapply object_region; eauto.
          -- intros a LA. rewrite <- (FR a LA). pose proof (Fmats i hm Em) as FM. destruct (in_range_cases m x y) as [[RX RY]|NR]; [|destruct (set_out _ _ _ x y c Hm NR) as [-> _]; reflexivity].
             destruct (set_in _ _ _ x y c Hm RX RY) as (col & _ & ->). apply nth_error_upd_other. lia.
      + (* done *)
        symmetry in E5. destruct (step_go P s i I LS ltac:(lia)) as [EG I']. destruct (gstep_chan P s i I LS ltac:(lia)) as (C1 & C2 & C3 & C4). rewrite E5 in C1, C2. cbn [Nat.eqb] in C1, C2. rewrite app_nil_r in C1.
        exists [Goroutine i], (mkP (advance (ProofMasking.prog P) i) (spawned P) (over P)), (gstep v masks s i). split; [cbn [fold_left]; symmetry; exact EG|].
        constructor; cbn [fChan fWg fSpawned fMain fPcs fHeap fLog]; auto; try congruence.
        * intros j Lj. destruct (PC j Lj) as (hm1 & hk1 & m1 & pc1 & A1 & A2 & A3 & A4 & A5 & A6). cbn [ProofMasking.prog]. destruct (Nat.eq_dec j i) as [->|NE].
          -- assert (hm1 = hm) by congruence. subst hm1. exists hm, hk1, m, FExit. split; [exact A1|]. split; [exact A2|]. split; [exact Hm|]. split; [exact A4|].
             split; [apply (nth_error_upd_some _ _ _ pc1), A5|]. rewrite advance_self by lia. rewrite E5. constructor. exact EQ.
          -- exists hm1, hk1, m1, pc1. rewrite advance_else by exact NE. repeat (split; [assumption|]). split; [|exact A6]. rewrite nth_error_upd_other by congruence. exact A5.
        * rewrite upd_length. exact PL.
      + exists [], P, s. split; [reflexivity|]. constructor; auto.
  Qed.

  Lemma rel_run sched : forall P s f, rel P s f -> exists c P' s', s' = fold_left (step v masks) c s /\ rel P' s' (fold_left (fstep hmasks hmats) sched f).
  Proof.
    induction sched as [|a sched IH]; intros P s f R; cbn [fold_left].
    - exists [], P, s. split; [reflexivity|exact R].
    - destruct (rel_step P s f a R) as (c1 & P1 & s1 & E1 & R1). destruct (IH P1 s1 _ R1) as (c2 & P2 & s2 & E2 & R2).
      exists (c1 ++ c2), P2, s2. split; [rewrite fold_left_app, <- E1; exact E2|exact R2].
  Qed.

  (* the caller has returned from Wait: the result *)
  Lemma rel_end P s f : rel P s f -> fend hmats f = mask_end s.
  Proof.
    intros R. destruct R as [I EC EW ES EM PC PL LG FR]. unfold fend, mask_end. rewrite (no_panic _ _ _ _ _ _ _ _ I), EM, EC. destruct (gMain s) eqn:GM; [|reflexivity].
    rewrite (in_main _ _ _ _ _ _ _ _ I) in GM. apply (in_over _ _ _ _ _ _ _ _ I) in GM as [_ FI]. rewrite finished_all in FI.
    set (z := snd (select_mask (gChan s))). unfold zget. destruct (Z.ltb_spec z 0); [reflexivity|].
    destruct (le_lt_dec 8 (Z.to_nat z)) as [G8|L8].
    - rewrite (proj2 (nth_error_None _ _)) by lia. rewrite (proj2 (nth_error_None (gMats s) _)); [reflexivity|]. rewrite (in_ml _ _ _ _ _ _ _ _ I). exact G8.
    - destruct (PC _ L8) as (hm & hk & m & pc & Em & Ek & Hm & Hk & Ep & SA). rewrite Em, (read_holds _ _ _ Hm). rewrite (in_mats _ _ _ _ _ _ _ _ I _ L8).
      specialize (FI _ L8). inversion SA as [p AL E0 Epc|EQ E5 Epc|EQ E6 Epc]; try lia. rewrite EQ. reflexivity.
  Qed.

  Lemma rel_no_race P s f : rel P s f -> ~ race (fLog f).
  Proof.
    intros R (i & j & a & w & I1 & I2 & NE). apply (re_log _ _ _ R) in I1, I2.
    destruct I1 as [(hm & Em & B)|[C _]]; [|discriminate]. destruct I2 as [(hm' & Em' & B')|(_ & hk & Ek & B')].
    - destruct (Amats i j hm hm' NE Em Em'); unfold first in *; lia.
    - destruct (Amix i j hm hk Em Ek); unfold first in *; lia.
  Qed.

  (* from any reachable state the search can be brought to its end *)
  Definition good (f : fstate) : Prop := exists P s, rel P s f.
  Lemma good_step f a : good f -> good (fstep hmasks hmats f a).
  Proof. intros (P & s & R). destruct (rel_step P s f a R) as (_ & P' & s' & _ & R'). exists P', s'. exact R'. Qed.
  Lemma good_run t : forall f, good f -> good (fold_left (fstep hmasks hmats) t f).
  Proof. induction t as [|a t IH]; intros f G; cbn [fold_left]; [exact G|]. apply IH, good_step, G. Qed.
  Lemma go_frame f i : fSpawned (fstep hmasks hmats f (Goroutine i)) = fSpawned f /\
    forall j, j <> i -> nth_error (fPcs (fstep hmasks hmats f (Goroutine i))) j = nth_error (fPcs f) j.
  Proof.
    unfold fstep. destruct (Nat.ltb i (fSpawned f)); [|auto]. unfold fgstep. destruct (nth_error (fPcs f) i) as [pc|]; [|auto]. destruct (nth_error hmats i) as [hm|]; [|auto].
    destruct (nth_error hmasks i) as [hk|]; [|auto]. cbv zeta.
    destruct pc as [[sc|x y k|x y k|x y c k]| |]; cbn [fSpawned fPcs]; auto; try (split; [reflexivity|intros j NE; apply nth_error_upd_other; congruence]).
    destruct (zlen (fChan f) <? 8); cbn [fSpawned fPcs]; auto. split; [reflexivity|intros j NE; apply nth_error_upd_other; congruence].
  Qed.
  Definition exits (f : fstate) (i : nat) : Prop := nth_error (fPcs f) i = Some FExit.
  Lemma done_exits f i : good f -> (i < fSpawned f)%nat -> nth_error (fPcs f) i = Some FDone -> exits (fstep hmasks hmats f (Goroutine i)) i.
  Proof.
    intros (P & s & R) LS E. assert (L8 : (i < 8)%nat) by (rewrite <- (re_pl _ _ _ R); apply nth_error_Some; congruence).
    destruct (re_pcs _ _ _ R i L8) as (hm & hk & m & pc & Em & Ek & _). unfold exits, fstep. destruct (Nat.ltb_spec i (fSpawned f)); [|lia].
    unfold fgstep. rewrite E, Em, Ek. cbn [fPcs]. apply (nth_error_upd_some _ _ _ FDone), E.
  Qed.
  Lemma finishes : forall p f i, good f -> (i < fSpawned f)%nat -> nth_error (fPcs f) i = Some (Running p) ->
    exists n, exits (fold_left (fstep hmasks hmats) (repeat (Goroutine i) n) f) i.
  Proof.
    assert (GO : forall f i p, good f -> (i < fSpawned f)%nat -> nth_error (fPcs f) i = Some (Running p) -> exists pc, nth_error (fPcs (fstep hmasks hmats f (Goroutine i))) i = Some pc /\
       match p with Ret _ => pc = FDone | RdMask _ _ k | RdMat _ _ k => exists z, pc = Running (k z) | WrMat _ _ _ k => pc = Running k end).
    { intros f i p (P & s & R) LS E. assert (L8 : (i < 8)%nat) by (rewrite <- (re_pl _ _ _ R); apply nth_error_Some; congruence).
      destruct (re_pcs _ _ _ R i L8) as (hm & hk & m & pc & Em & Ek & _ & _ & Ep & SA). assert (pc = Running p) by congruence. subst pc.
      unfold fstep. destruct (Nat.ltb_spec i (fSpawned f)); [|lia]. unfold fgstep. rewrite E, Em, Ek. cbv zeta. inversion SA as [p0 AL E0 Epc|EQ E5 Epc|EQ E6 Epc].
      destruct p as [sc|x y k|x y k|x y c k]; cbn [fPcs];
        try (eexists; split; [apply (nth_error_upd_some _ _ _ _ E)|eauto; fail]).
      rewrite (re_chan _ _ _ R). destruct (Z.ltb_spec (zlen (gChan s)) 8) as [LT|GE].
      - cbn [fPcs]. eexists. split; [apply (nth_error_upd_some _ _ _ _ E)|reflexivity].
      - pose proof (chan_small _ _ _ _ _ _ P s i (re_inv _ _ _ R) L8). lia. }
    intros p. induction p as [sc|x y k IH|x y k IH|x y c k IH]; intros f i G LS E; destruct (GO f i _ G LS E) as (pc & E1 & PCS); pose proof (good_step f (Goroutine i) G) as G1; destruct (go_frame f i) as [S1 _].
    - subst pc. exists 2%nat. cbn [repeat fold_left]. apply done_exits; auto. rewrite S1. exact LS.
    - destruct PCS as [z ->]. destruct (IH z _ i G1 ltac:(rewrite S1; exact LS) E1) as [n X]. exists (S n). exact X.
    - destruct PCS as [z ->]. destruct (IH z _ i G1 ltac:(rewrite S1; exact LS) E1) as [n X]. exists (S n). exact X.
    - subst pc. destruct (IH _ i G1 ltac:(rewrite S1; exact LS) E1) as [n X]. exists (S n). exact X.
  Qed.
  Lemma run_frame n i : forall f, fSpawned (fold_left (fstep hmasks hmats) (repeat (Goroutine i) n) f) = fSpawned f /\
    forall j, j <> i -> nth_error (fPcs (fold_left (fstep hmasks hmats) (repeat (Goroutine i) n) f)) j = nth_error (fPcs f) j.
  Proof.
    induction n as [|n IH]; intros f; cbn [repeat fold_left]; [auto|]. destruct (go_frame f i) as [A B]. destruct (IH (fstep hmasks hmats f (Goroutine i))) as [A' B'].
    split; [congruence|]. intros j NE. rewrite B', B by exact NE. reflexivity.
  Qed.
  Lemma one_exits f i : good f -> (i < fSpawned f)%nat -> (i < 8)%nat -> exists n, exits (fold_left (fstep hmasks hmats) (repeat (Goroutine i) n) f) i.
  Proof.
    intros G LS L8. pose proof G as (P & s & R). destruct (re_pcs _ _ _ R i L8) as (hm & hk & m & pc & Em & Ek & _ & _ & Ep & _). destruct pc as [p| |].
    - apply (finishes p); auto.
    - exists 1%nat. apply done_exits; auto.
    - exists 0%nat. exact Ep.
  Qed.
  Lemma all_exit k : forall f, good f -> fSpawned f = 8%nat -> (k <= 8)%nat -> exists t, fSpawned (fold_left (fstep hmasks hmats) t f) = 8%nat /\
    forall i, (i < k)%nat -> exits (fold_left (fstep hmasks hmats) t f) i.
  Proof.
    induction k as [|k IH]; intros f G S8 LK; [exists []; split; [exact S8|intros; lia]|].
    destruct (IH f G S8 ltac:(lia)) as (t & ST & EX). set (g := fold_left (fstep hmasks hmats) t f) in *. assert (GG : good g) by (apply good_run, G).
    destruct (one_exits g k GG ltac:(lia) ltac:(lia)) as [n XN]. destruct (run_frame n k g) as [A B].
    exists (t ++ repeat (Goroutine k) n). rewrite fold_left_app. fold g. split; [congruence|]. intros i LI. destruct (Nat.eq_dec i k) as [->|NE]; [exact XN|].
    unfold exits. rewrite B by exact NE. apply EX. lia.
  Qed.
  Lemma spawn_all n : forall f, good f -> (8 - fSpawned f = n)%nat -> fSpawned (fold_left (fstep hmasks hmats) (repeat Main n) f) = 8%nat.
  Proof.
    induction n as [|n IH]; intros f G E; cbn [repeat fold_left].
    - destruct G as (P & s & R). pose proof (in_sp8 _ _ _ _ _ _ _ _ (re_inv _ _ _ R)) as X. rewrite <- (in_sp _ _ _ _ _ _ _ _ (re_inv _ _ _ R)), <- (re_sp _ _ _ R) in X. lia.
    - apply IH; [apply good_step, G|]. unfold fstep, fmainstep. destruct (Nat.ltb_spec (fSpawned f) 8); [|lia]. cbn [fSpawned]. lia.
  Qed.
  Lemma can_end f : good f -> exists t, fMain (fold_left (fstep hmasks hmats) t f) = true.
  Proof.
    intros G. pose proof (spawn_all _ f G eq_refl) as S8. set (t0 := repeat Main (8 - fSpawned f)) in *. set (g := fold_left (fstep hmasks hmats) t0 f) in *.
    assert (GG : good g) by (apply good_run, G). destruct (all_exit 8 g GG S8 (le_n 8)) as (t1 & S8' & EX). set (e := fold_left (fstep hmasks hmats) t1 g) in *.
    assert (GE : good e) by (apply good_run, GG). exists (t0 ++ t1 ++ [Main]). rewrite !fold_left_app. fold g. fold e. cbn [fold_left].
    destruct GE as (P & s & R). unfold fstep, fmainstep. rewrite S8'. cbn [Nat.ltb Nat.leb].
    assert (FI : finished (ProofMasking.prog P) = 8%nat).
    { apply finished_all. intros i Li. destruct (re_pcs _ _ _ R i Li) as (hm & hk & m & pc & _ & _ & _ & _ & Ep & SA). specialize (EX i Li). unfold exits in EX. assert (pc = FExit) by congruence. subst pc.
      inversion SA as [p AL E0 Epc|EQ E5 Epc|EQ E6 Epc]. lia. }
    pose proof (in_wg _ _ _ _ _ _ _ _ (re_inv _ _ _ R)) as W. rewrite FI, <- (re_wg _ _ _ R), <- (in_sp _ _ _ _ _ _ _ _ (re_inv _ _ _ R)), <- (re_sp _ _ _ R), S8' in W.
    destruct (Z.eqb_spec (fWg e) 0); [reflexivity|lia].
  Qed.
End Fine.
