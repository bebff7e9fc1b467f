(* Proofs for C76, third part: the whole search, and NewWith. *)
From Coq Require Import Lia.
From Verif Require Import ModelBase ModelBinary ModelUtf8 ModelVersion ModelMatrix ModelChardet ModelEncoder ModelRS ModelLayout ModelMask ModelEval ModelHeap ModelQRCode ModelFine.
From Verif Require Import SpecIso SpecReader SpecSegment SpecAPI SpecMatrix SpecShare SpecFine Samples.
From Verif Require Import ProofBase ProofMatrix ProofWalk ProofSweep ProofLayout ProofSymbol ProofBits ProofTables ProofStream
  ProofEncode ProofMode ProofKanji ProofSegment ProofInit ProofEval ProofMasking ProofVersion ProofBuild ProofAPI ProofNew ProofHeap ProofFine ProofFine2.
From Verif Require PropsNew PropsDebug.

Lemma nth_all {A} (l : list A) (P : A -> Prop) (f : nat -> A) : (forall i, (i < length l)%nat -> nth_error l i = Some (f i)) -> (forall i, (i < length l)%nat -> P (f i)) -> Forall P l.
Proof.
  intros E HP. apply Forall_forall. intros a IN. apply In_nth_error in IN as [i Ei]. assert (L : (i < length l)%nat) by (apply nth_error_Some; congruence).
  rewrite (E i L) in Ei. injection Ei as <-. apply HP, L.
Qed.

Lemma fine_start others v masks cpy fmt vinfo score mk eval f hmasks hmats :
  (forall i, (i < 8)%nat -> nth_error masks i = Some (mk i)) -> length masks = 8%nat -> (forall i, (i < 8)%nat -> wf (mk i)) ->
  (forall i, (i < 8)%nat -> v_formatInfo v (Z.of_nat i) = Some (fmt i)) -> (7 <= Ver v -> v_verInfo v = Some vinfo) ->
  (forall i, (i < 8)%nat -> forall mask, alone eval mask (candidate v cpy fmt vinfo mk i) = (candidate v cpy fmt vinfo mk i, score i)) ->
  wf cpy -> fstart others v masks (gMats (ginit cpy)) eval = (f, (hmasks, hmats)) ->
  length hmasks = 8%nat /\ length hmats = 8%nat /\
  (forall i j a b, i <> j -> nth_error hmats i = Some a -> nth_error hmats j = Some b -> apart a b) /\
  (forall i j a b, nth_error hmats i = Some a -> nth_error hmasks j = Some b -> apart a b) /\
  (forall i a, nth_error hmats i = Some a -> (length others <= first a)%nat) /\
  rel v cpy fmt vinfo score mk hmasks hmats others (mkP (fun _ => 0%nat) 0 false) (ginit cpy) f.
Proof.
  intros Hm Lm Wm Hf Hv He Wc. unfold fstart.
  assert (GM : gMats (ginit cpy) = repeat cpy 8) by (unfold ginit; rewrite m_copy_id by exact Wc; reflexivity). rewrite GM.
  assert (F1 : Forall wf masks) by (apply (nth_all masks wf mk); intros i Li; rewrite Lm in Li; auto).
  assert (F2 : Forall wf (repeat cpy 8)) by (apply Forall_forall; intros a IN; apply repeat_spec in IN; subst; exact Wc).
  pose proof (alloc_all_spec masks others F1) as A1. destruct (alloc_all others masks) as [h1 hk1]. destruct A1 as ((t1 & E1) & L1 & H1 & P1).
  pose proof (alloc_all_spec (repeat cpy 8) h1 F2) as A2. destruct (alloc_all h1 (repeat cpy 8)) as [h2 hm1]. destruct A2 as ((t2 & E2) & L2 & H2 & P2).
  intros EQ. pose proof (f_equal fst EQ) as Q1. pose proof (f_equal (fun p => fst (snd p)) EQ) as Q2. pose proof (f_equal (fun p => snd (snd p)) EQ) as Q3. clear EQ. cbn [fst snd] in Q1, Q2, Q3. subst f hmasks hmats. rewrite repeat_length in L2. rewrite Lm in L1.
  assert (LL : (length others <= length h1)%nat) by (rewrite E1, app_length; lia).
  assert (CP : forall i, (i < 8)%nat -> nth_error (repeat cpy 8) i = Some cpy) by (intros i Li; do 8 (destruct i as [|i]; [reflexivity|]); lia).
  assert (G8 : forall (l : list HMatrix) i a, length l = 8%nat -> nth_error l i = Some a -> (i < 8)%nat) by (intros l i a Ll E; rewrite <- Ll; apply nth_error_Some; congruence).
  split; [exact L1|]. split; [exact L2|]. split; [exact P2|]. split; [|split].
  - intros i j a b Ea Eb. pose proof (G8 _ _ _ L2 Ea) as Li. pose proof (G8 _ _ _ L1 Eb) as Lj. destruct (H2 i a cpy Ea (CP i Li)) as (_ & X & _). destruct (H1 j b (mk j) Eb (Hm j Lj)) as (_ & _ & Y). right. lia.
  - intros i a Ea. pose proof (G8 _ _ _ L2 Ea) as Li. destruct (H2 i a cpy Ea (CP i Li)) as (_ & X & _). lia.
  - constructor; cbn [fChan fWg fSpawned fMain fPcs fHeap fLog]; try reflexivity.
    + apply init_inv; auto.
    + intros i Li. destruct (nth_error hm1 i) as [hm|] eqn:Em; [|apply nth_error_None in Em; lia]. destruct (nth_error hk1 i) as [hk|] eqn:Ek; [|apply nth_error_None in Ek; lia].
      exists hm, hk, cpy, (Running (body v (mk i) (Z.of_nat i) eval)). split; [reflexivity|]. split; [reflexivity|]. split; [apply (H2 i hm cpy Em (CP i Li))|].
      split; [rewrite E2; apply holds_grow, (H1 i hk (mk i) Ek (Hm i Li))|]. split.
      * assert (EZ : nth_error (combine (zseq 0 8) masks) i = Some (Z.of_nat i, mk i)).
        { clear - Hm Li. assert (Z8 : nth_error (zseq 0 8) i = Some (Z.of_nat i)) by (do 8 (destruct i as [|i]; [reflexivity|]); lia). specialize (Hm i Li). revert Z8 Hm.
          generalize (Z.of_nat i) (mk i). clear. generalize (zseq 0 8). revert i masks. intros i masks l. revert i masks. induction l as [|z l IH]; intros [|i] [|a masks] x y E1 E2; cbn in *; try discriminate; [congruence|]. eapply IH; eauto. }
        rewrite nth_error_map, EZ. reflexivity.
      * cbn [ProofMasking.prog]. constructor. apply alone_body; auto.
    + rewrite map_length, combine_length, Lm. reflexivity.
    + intros i a w [].
    + intros a LA. rewrite E2, E1. rewrite nth_error_app1 by (rewrite app_length; lia). apply nth_error_app1. exact LA.
Qed.

Lemma search_fine r v l mat stream others eval : row_facts v l r -> valid_version v ->
  prefillMatrix v (newMatrix (side v) (side v)) = Some mat -> length stream = length (data_path v) -> evaluates (side v) eval ->
  forall sched,
    (exists sched', masking_fine others eval r stream mat sched = masking r stream mat sched') /\
    (let '(h, log) := masking_memory others eval r stream mat sched in ~ race log /\ firstn (length others) h = others) /\
    exists rest, masking_fine others eval r stream mat (sched ++ rest) <> Pending.
Proof.
  intros HR Hv Hpre Hlen HE sched. pose proof (rf_ver _ _ _ HR) as EV. pose proof (rf_ec _ _ _ HR) as EL.
  destruct (prefill_facts v Hv) as (mat' & E & Hwf & HW & HH & Hcell). rewrite Hpre in E. injection E as <-.
  destruct (fill_facts v mat stream Hv Hwf HW HH Hcell Hlen) as (cpy & Efill & Cwf & CW & CH & _ & _).
  destruct (all_masks_ok mat Hwf) as (masks & EM & HM).
  set (mk := fun i : nat => match nth_error masks i with Some m => m | None => mat end).
  set (fmt := fun i : nat => to_bits (format_word l (Z.of_nat i)) 15).
  set (vi := to_bits (version_word v) 18).
  assert (Hmk : forall i, (i < 8)%nat -> nth_error masks i = Some (mk i) /\ newMask mat (Z.of_nat i) = Some (mk i)).
  { intros i Hi. destruct (HM (Z.of_nat i) ltac:(lia)) as (m & A & B). rewrite Nat2Z.id in B. unfold mk. rewrite B. auto. }
  assert (Hsym : forall i, (i < 8)%nat -> symbol v l (Z.of_nat i) stream (candidate r cpy fmt vi mk i)).
  { intros i Hi. pose proof (candidate_symbol r l (Z.of_nat i) mat cpy (mk i) stream) as CS. rewrite EV in CS.
    specialize (CS Hv ltac:(lia) Hpre Hlen Efill (proj2 (Hmk i Hi))). unfold finish in CS. rewrite EV in CS.
    unfold candidate, after_format, after_xor. rewrite v_dimension_side, EV. exact CS. }
  assert (Hev : forall i, (i < 8)%nat -> exists s, evaluation (candidate r cpy fmt vi mk i) = Some s /\ forall mask, alone eval mask (candidate r cpy fmt vi mk i) = (candidate r cpy fmt vi mk i, s)).
  { intros i Hi. destruct (Hsym i Hi) as [A B C _ _ _ _ _ _].
    destruct (HE mat _ A B C) as (s & ES & _). exists s. split; [exact ES|]. intros mask. destruct (HE mask _ A B C) as (s' & ES' & AL). congruence. }
  set (score := fun i : nat => match evaluation (candidate r cpy fmt vi mk i) with Some s => s | None => 0 end).
  assert (Hsc : forall i, (i < 8)%nat -> evaluation (candidate r cpy fmt vi mk i) = Some (score i)).
  { intros i Hi. destruct (Hev i Hi) as (s & Es & _). unfold score. rewrite Es. reflexivity. }
  assert (Hal : forall i, (i < 8)%nat -> forall mask, alone eval mask (candidate r cpy fmt vi mk i) = (candidate r cpy fmt vi mk i, score i)).
  { intros i Hi mask. destruct (Hev i Hi) as (s & Es & AL). rewrite AL. unfold score. rewrite Es. reflexivity. }
  assert (H1 : forall i, (i < 8)%nat -> v_formatInfo r (Z.of_nat i) = Some (fmt i)).
  { intros i Hi. unfold fmt. apply formatInfo_facts; auto. lia. }
  assert (H2 : 7 <= Ver r -> v_verInfo r = Some vi).
  { intros H7. rewrite verInfo_facts by (rewrite ?EV in *; auto). rewrite EV. reflexivity. }
  assert (ML : length masks = 8%nat).
  { clear - EM. unfold all_masks in EM. assert (G : forall l ms, fold_right (fun i acc => match newMask mat i, acc with Some m, Some l => Some (m :: l) | _, _ => None end) (Some []) l = Some ms -> length ms = length l).
    { induction l as [|i l IH]; intros ms X; cbn [fold_right] in X; [injection X as <-; reflexivity|]. destruct (newMask mat i); [|discriminate X]. destruct (fold_right _ _ l) as [ms'|] eqn:F; [|discriminate X]. injection X as <-. cbn [length]. f_equal. apply IH. reflexivity. }
    apply G in EM. exact EM. }
  assert (MW : forall i, (i < 8)%nat -> wf (mk i)).
  { intros i Hi. destruct (getModuloFunc_some (Z.of_nat i) ltac:(lia)) as [fn Hf]. destruct (newMask_facts mat (Z.of_nat i) fn Hwf Hf) as (mk' & EMk & Mwf & _). rewrite (proj2 (Hmk i Hi)) in EMk. injection EMk as <-. exact Mwf. }
  assert (MS : mask_start r stream mat = Ok (masks, ginit cpy)).
  { unfold mask_start. cbv zeta. rewrite m_copy_id by auto. rewrite v_dimension_side, EV, Efill, EM. reflexivity. }
  unfold masking_fine, masking_memory, masking. rewrite MS. cbn [bind]. unfold frun.
  destruct (fstart others r masks (gMats (ginit cpy)) eval) as [f [hmasks hmats]] eqn:EF.
  destruct (fine_start others r masks cpy fmt vi score mk eval f hmasks hmats (fun i Hi => proj1 (Hmk i Hi)) ML MW H1 H2 Hal Cwf EF) as (L1 & L2 & A1 & A2 & A3 & R).
  pose proof (rel_run r masks cpy fmt vi score mk (fun i Hi => proj1 (Hmk i Hi)) H1 H2 Hsc hmasks hmats L1 L2 A1 A2 others A3) as RUN.
  split; [|split].
  - destruct (RUN sched _ _ _ R) as (c & P' & s' & E & R'). exists c. rewrite <- E. exact (rel_end _ _ _ _ _ _ _ _ L1 L2 _ _ _ _ R').
  - destruct (RUN sched _ _ _ R) as (c & P' & s' & E & R'). split; [exact (rel_no_race _ _ _ _ _ _ _ _ L1 L2 A1 A2 _ _ _ _ R')|].
    pose proof (re_frame _ _ _ _ _ _ _ _ _ _ _ _ R') as FR. revert FR. generalize (fHeap (fold_left (fstep hmasks hmats) sched f)). clear. intros h FR.
    assert (LH : (length others <= length h)%nat).
    { destruct (le_lt_dec (length others) (length h)) as [|LT]; [assumption|]. specialize (FR (length h) LT). rewrite (proj2 (nth_error_None h (length h))) in FR by lia. symmetry in FR. apply nth_error_None in FR. lia. }
    revert h FR LH. induction others as [|a o IH]; intros [|b h] FR LH; cbn [length firstn] in *; try lia; try reflexivity.
    pose proof (FR 0%nat ltac:(lia)) as X. cbn in X. injection X as ->. f_equal. apply IH; [|lia]. intros k LK. exact (FR (S k) ltac:(lia)).
  - assert (G : good r cpy fmt vi score mk hmasks hmats others (fold_left (fstep hmasks hmats) sched f)).
    { destruct (RUN sched _ _ _ R) as (c & P' & s' & _ & R'). exists P', s'. exact R'. }
    destruct (can_end r masks cpy fmt vi score mk (fun i Hi => proj1 (Hmk i Hi)) H1 H2 Hsc hmasks hmats L1 L2 A1 A2 others A3 _ G) as [rest ER].
    exists rest. rewrite fold_left_app. unfold fend. rewrite ER. destruct (zget hmats _) as [hm|]; [|discriminate]. destruct (h_read _ hm); discriminate.
Qed.

(* ---- NewWith ---- *)
Section API.
Context (sjis : Z -> option (list Z)) (C : shift_jis_contract sjis).

Lemma masking_shape v data mat sched : match masking v data mat sched with Err _ => False | Panic p => p <> PanicNewEncoder | _ => True end.
Proof.
  unfold masking, mask_start. cbv zeta. destruct (fillDataBinary _ _ _) as [cpy|]; cbn [bind]; [|discriminate]. destruct (all_masks mat) as [masks|]; cbn [bind]; [|discriminate].
  unfold mask_end. destruct (existsb is_panic _); [discriminate|]. destruct (gMain _); [|exact I]. destruct (zget _ _); [exact I|discriminate].
Qed.
Lemma init_makes t opts raw st : toBytes t = Ok raw -> init sjis (apply_options opts) raw = Ok st -> exists q, NewWith sjis t opts fair_schedule = Ok q.
Proof.
  intros TB EI. assert (HP : plain t) by (destruct t; try exact I; discriminate TB).
  assert (NW : NewWith sjis t opts fair_schedule = let* mat := masking (iV st) (iData st) (iMat st) fair_schedule in Ok (mkQR (iV st) (iMode st) (iData st) mat)).
  { unfold NewWith. rewrite TB. cbn [bind]. unfold build. rewrite EI. reflexivity. }
  pose proof (masking_shape (iV st) (iData st) (iMat st) fair_schedule) as MS.
  assert (SU : supported opts).
  { destruct (supported_dec opts) as [SU|NS]; [exact SU|]. exfalso. pose proof (build_unsupported sjis opts (text_bytes t) fair_schedule NS) as B. rewrite <- newwith_plain in B by exact HP.
    rewrite NW in B. destruct (masking _ _ _ _) as [m|e|p|]; cbn [bind] in B; destruct (eff_version opts =? 0); try discriminate B; try exact MS. injection B as ->. apply MS. reflexivity. }
  destruct (PropsNew.C04_result_or_error sjis C t opts fair_schedule HP SU fair_schedule_fair) as [OK|[e ER]]; [exact OK|]. exfalso. rewrite NW in ER. destruct (masking _ _ _ _) as [m|e'|p|]; cbn [bind] in ER; try discriminate ER. exact MS.
Qed.
End API.
