(* Proofs for C80: once the caller has passed wg.Wait() the goroutines of the mask search are over. *)
From Coq Require Import Lia.
From Verif Require Import ModelBase ModelBinary ModelMatrix ModelVersion ModelEncoder ModelMask ModelEval ModelLayout ModelHeap ModelQRCode ModelFine.
From Verif Require Import ProofBase ProofMasking.

(* counting *)
Definition count {A} (f : A -> bool) (l : list A) : Z := Z.of_nat (length (filter f l)).
Lemma count_le {A} (f : A -> bool) l : count f l <= Z.of_nat (length l).
Proof. unfold count. induction l as [|a l IH]; cbn [filter length]; [lia|]. destruct (f a); cbn [length]; lia. Qed.
Lemma count_full {A} (f : A -> bool) l : count f l = Z.of_nat (length l) -> forall a, In a l -> f a = true.
Proof.
  unfold count. induction l as [|b l IH]; intros E a []; cbn [filter length] in E.
  - subst. destruct (f a) eqn:F; [reflexivity|]. pose proof (count_le f l) as C. unfold count in C. lia.
  - destruct (f b); cbn [length] in E; [apply IH; [lia|auto]|]. pose proof (count_le f l) as C. unfold count in C. lia.
Qed.
Lemma count_upd {A} (f : A -> bool) l i a b : nth_error l i = Some a -> count f (upd_nat l i b) = count f l - (if f a then 1 else 0) + (if f b then 1 else 0).
Proof.
  revert i. unfold count. induction l as [|c l IH]; intros [|i] E; try discriminate E; cbn [nth_error] in E.
  - injection E as ->. cbn [upd_nat filter]. destruct (f a), (f b); cbn [length]; lia.
  - cbn [upd_nat filter]. specialize (IH i E). destruct (f c); cbn [length]; lia.
Qed.

(* ---- single reads and writes ---- *)
Definition fexit (p : fpc) : bool := match p with FExit => true | _ => false end.
Record fcount (s : fstate) : Prop := mkFcount {
  fc_len : length (fPcs s) = 8%nat;
  fc_spawned : (fSpawned s <= 8)%nat;
  fc_wg : fWg s = Z.of_nat (fSpawned s) - count fexit (fPcs s);
  fc_main : fMain s = true -> fSpawned s = 8%nat /\ fWg s = 0 }.
Lemma fgstep_count hk hm s i : fcount s -> fcount (fgstep hk hm s i).
Proof.
  intros [L S W M]. unfold fgstep. destruct (nth_error (fPcs s) i) as [pc|] eqn:E; [|constructor; auto].
  destruct (nth_error hm i); [|constructor; auto]. destruct (nth_error hk i); [|constructor; auto].
  assert (NM : fexit pc = false -> fMain s = true -> False).
  { intros NE MM. destruct (M MM) as [S8 W0]. rewrite S8, W0 in W. assert (C : count fexit (fPcs s) = Z.of_nat (length (fPcs s))) by (rewrite L; lia).
    pose proof (count_full _ _ C pc (nth_error_In _ _ E)). congruence. }
  destruct pc as [[score|x y k|x y k|x y c k]| |].
  - destruct (zlen (fChan s) <? 8); [|constructor; auto]. constructor; cbn [fPcs fSpawned fWg fMain]; [rewrite upd_length; auto|auto|rewrite (count_upd _ _ _ _ _ E); cbn [fexit]; lia|intros MM; exfalso; apply NM; auto].
  - constructor; cbn [fPcs fSpawned fWg fMain]; [rewrite upd_length; auto|auto|rewrite (count_upd _ _ _ _ _ E); cbn [fexit]; lia|intros MM; exfalso; apply NM; auto].
  - constructor; cbn [fPcs fSpawned fWg fMain]; [rewrite upd_length; auto|auto|rewrite (count_upd _ _ _ _ _ E); cbn [fexit]; lia|intros MM; exfalso; apply NM; auto].
  - constructor; cbn [fPcs fSpawned fWg fMain]; [rewrite upd_length; auto|auto|rewrite (count_upd _ _ _ _ _ E); cbn [fexit]; lia|intros MM; exfalso; apply NM; auto].
  - constructor; cbn [fPcs fSpawned fWg fMain]; [rewrite upd_length; auto|auto|rewrite (count_upd _ _ _ _ _ E); cbn [fexit]; lia|intros MM; exfalso; apply NM; auto].
  - constructor; auto.
Qed.
Lemma fstep_count hk hm s a : fcount s -> fcount (fstep hk hm s a).
Proof.
  intros F. destruct a as [|i]; cbn [fstep].
  - destruct F as [L S W M]. unfold fmainstep. destruct (Nat.ltb_spec (fSpawned s) 8).
    + constructor; cbn [fPcs fSpawned fWg fMain]; [auto|lia|lia|]. intros MM. destruct (M MM). lia.
    + destruct (Z.eqb_spec (fWg s) 0); constructor; cbn [fPcs fSpawned fWg fMain]; auto. intros _. split; [lia|auto].
  - destruct (Nat.ltb i (fSpawned s)); [apply fgstep_count|]; auto.
Qed.
Lemma fsteps_count hk hm sched : forall s, fcount s -> fcount (fold_left (fstep hk hm) sched s).
Proof. induction sched as [|a sched IH]; intros s F; [exact F|]. cbn [fold_left]. apply IH, fstep_count, F. Qed.
Lemma fstep_still hk hm s a : fcount s -> fMain s = true -> fstep hk hm s a = s.
Proof.
  intros [L S W M] MM. destruct (M MM) as [S8 W0]. destruct a as [|i]; cbn [fstep].
  - unfold fmainstep. rewrite S8, W0. cbn [Nat.ltb Nat.leb Z.eqb]. destruct s; cbn in *; congruence.
  - destruct (Nat.ltb i (fSpawned s)); [|reflexivity]. unfold fgstep. destruct (nth_error (fPcs s) i) as [pc|] eqn:E; [|reflexivity].
    assert (X : fexit pc = true). { eapply count_full; [|eapply nth_error_In, E]. rewrite L. lia. }
    destruct pc; try discriminate X. destruct (nth_error hm i); [|reflexivity]. destruct (nth_error hk i); reflexivity.
Qed.
Lemma fsteps_still hk hm sched s : fcount s -> fMain s = true -> fold_left (fstep hk hm) sched s = s.
Proof. intros F MM. induction sched as [|a sched IH]; [reflexivity|]. cbn [fold_left]. rewrite fstep_still; auto. Qed.

Lemma fstart_count others v masks mats eval : length masks = 8%nat -> fcount (fst (fstart others v masks mats eval)).
Proof.
  intros L8. unfold fstart. destruct (alloc_all others masks) as [h1 hmasks]. destruct (alloc_all h1 mats) as [h2 hmats].
  destruct masks as [|? [|? [|? [|? [|? [|? [|? [|? [|]]]]]]]]]; try discriminate L8. constructor; cbn [fst fPcs fSpawned fWg fMain]; [reflexivity|lia|reflexivity|discriminate].
Qed.
Lemma all_masks_length mat masks : all_masks mat = Some masks -> length masks = 8%nat.
Proof.
  unfold all_masks. intros E. assert (G : forall l r, fold_right (fun i acc => match newMask mat i, acc with Some m, Some l => Some (m :: l) | _, _ => None end) (Some []) l = Some r -> length r = length l).
  { induction l as [|a l IH]; intros r X; cbn [fold_right] in X; [injection X as <-; reflexivity|]. destruct (newMask mat a); [|discriminate].
    destruct (fold_right _ _ l) as [l'|] eqn:F; [|discriminate]. injection X as <-. cbn [length]. f_equal. apply IH. reflexivity. }
  rewrite (G _ _ E). reflexivity.
Qed.
Lemma mask_start_length v data mat masks s : mask_start v data mat = Ok (masks, s) -> length masks = 8%nat /\ exists cpy, s = ginit cpy.
Proof.
  unfold mask_start. destruct (fillDataBinary _ _ _) as [cpy|]; [|discriminate]. destruct (all_masks mat) as [ms|] eqn:E; [|discriminate]. intros X. injection X as <- <-.
  split; [eapply all_masks_length, E|eauto].
Qed.
Lemma fine_still others eval v data mat sched rest r : masking_fine others eval v data mat sched = r -> r <> Pending ->
  masking_fine others eval v data mat (sched ++ rest) = r /\ masking_memory others eval v data mat (sched ++ rest) = masking_memory others eval v data mat sched.
Proof.
  unfold masking_fine, masking_memory. destruct (mask_start v data mat) as [[masks s0]|e|p|] eqn:E; cbn [bind]; auto.
  destruct (mask_start_length _ _ _ _ _ E) as [L8 _]. unfold frun. pose proof (fstart_count others v masks (gMats s0) eval L8) as F.
  destruct (fstart others v masks (gMats s0) eval) as [s [hk hm]]. cbn [fst] in F. rewrite fold_left_app. pose proof (fsteps_count hk hm sched s F) as F'. intros R NP.
  assert (MM : fMain (fold_left (fstep hk hm) sched s) = true).
  { unfold fend in R. destruct (fMain _); [reflexivity|]. exfalso. apply NP. symmetry. exact R. }
  rewrite fsteps_still by auto. split; [exact R|reflexivity].
Qed.

(* ---- four stages ---- *)
Definition gexit (p : gpc) : bool := match p with GExit => true | _ => false end.
Record gcount (s : gstate) : Prop := mkGcount {
  gc_len : length (gPcs s) = 8%nat;
  gc_spawned : (gSpawned s <= 8)%nat;
  gc_wg : gWg s = Z.of_nat (gSpawned s) - count gexit (gPcs s);
  gc_main : gMain s = true -> gSpawned s = 8%nat /\ gWg s = 0 }.
Lemma set_pc_count s i pc pc' m : gcount s -> nth_error (gPcs s) i = Some pc -> gexit pc = false -> gexit pc' = false -> gcount (set_pc s i pc') /\ gcount (set_mat s i m pc').
Proof.
  intros [L S W M] E X X'.
  assert (NM : gMain s = true -> False).
  { intros MM. destruct (M MM) as [S8 W0]. rewrite S8, W0 in W. assert (C : count gexit (gPcs s) = Z.of_nat (length (gPcs s))) by (rewrite L; lia).
    pose proof (count_full _ _ C pc (nth_error_In _ _ E)). congruence. }
  split; unfold set_pc, set_mat; constructor; cbn [gPcs gSpawned gWg gMain];
    solve [rewrite upd_length; auto|auto|rewrite (count_upd _ _ _ _ _ E), X, X'; lia|intros MM; exfalso; apply NM; auto].
Qed.
Lemma gstep_count v masks s i : gcount s -> gcount (gstep v masks s i).
Proof.
  intros G. unfold gstep. destruct (nth_error (gPcs s) i) as [pc|] eqn:E; [|exact G].
  destruct (nth_error (gMats s) i) as [m|]; [|exact G]. destruct (nth_error masks i) as [mask|]; [|exact G].
  destruct pc; try exact G.
  - eapply set_pc_count; eauto.
  - destruct (v_formatInfo v _); eapply set_pc_count; eauto.
  - destruct (7 <=? Ver v); [destruct (v_verInfo v)|]; eapply set_pc_count; eauto.
  - destruct (evaluation m); eapply set_pc_count; eauto.
  - destruct (zlen (gChan s) <? 8); [|exact G]. destruct (set_pc_count s i _ GDone m G E eq_refl eq_refl) as [[L S W M] _]. constructor; auto.
  - destruct G as [L S W M].
    assert (NM : gMain s = true -> False).
    { intros MM. destruct (M MM) as [S8 W0]. rewrite S8, W0 in W. assert (C : count gexit (gPcs s) = Z.of_nat (length (gPcs s))) by (rewrite L; lia).
      pose proof (count_full _ _ C _ (nth_error_In _ _ E)). discriminate. }
    constructor; cbn [gPcs gSpawned gWg gMain]; [rewrite upd_length; auto|auto|rewrite (count_upd _ _ _ _ _ E); cbn [gexit]; lia|intros MM; exfalso; apply NM; auto].
Qed.
Lemma gsteps_count v masks sched : forall s, gcount s -> gcount (fold_left (step v masks) sched s).
Proof.
  induction sched as [|a sched IH]; intros s G; [exact G|]. cbn [fold_left]. apply IH. destruct a as [|i]; cbn [step].
  - destruct G as [L S W M]. unfold mainstep. destruct (Nat.ltb_spec (gSpawned s) 8).
    + constructor; cbn [gPcs gSpawned gWg gMain]; [auto|lia|lia|]. intros MM. destruct (M MM). lia.
    + destruct (Z.eqb_spec (gWg s) 0); constructor; cbn [gPcs gSpawned gWg gMain]; auto. intros _. split; [lia|auto].
  - destruct (Nat.ltb i (gSpawned s)); [apply gstep_count|]; auto.
Qed.
Lemma gsteps_still v masks sched s : gcount s -> gMain s = true -> fold_left (step v masks) sched s = s.
Proof.
  intros G MM. induction sched as [|a sched IH]; [reflexivity|]. cbn [fold_left]. replace (step v masks s a) with s; [exact IH|]. symmetry. clear IH.
  destruct G as [L S W M]. destruct (M MM) as [S8 W0]. destruct a as [|i]; cbn [step].
  - unfold mainstep. rewrite S8, W0. cbn [Nat.ltb Nat.leb Z.eqb]. destruct s; cbn in *; congruence.
  - destruct (Nat.ltb i (gSpawned s)); [|reflexivity]. unfold gstep. destruct (nth_error (gPcs s) i) as [pc|] eqn:E; [|reflexivity].
    assert (X : gexit pc = true). { eapply count_full; [|eapply nth_error_In, E]. rewrite L. lia. }
    destruct pc; try discriminate X. destruct (nth_error (gMats s) i); [|reflexivity]. destruct (nth_error masks i); reflexivity.
Qed.
Lemma masking_still v data mat sched rest m : masking v data mat sched = Ok m -> masking v data mat (sched ++ rest) = Ok m.
Proof.
  unfold masking. destruct (mask_start v data mat) as [[masks s0]|e|p|] eqn:E; cbn [bind]; try discriminate.
  destruct (mask_start_length _ _ _ _ _ E) as [L8 [cpy ->]]. rewrite fold_left_app.
  assert (G0 : gcount (ginit cpy)) by (constructor; cbn; [reflexivity|lia|reflexivity|discriminate]).
  pose proof (gsteps_count v masks sched _ G0) as G. intros R.
  assert (MM : gMain (fold_left (step v masks) sched (ginit cpy)) = true).
  { unfold mask_end in R. destruct (existsb _ _); [discriminate|]. destruct (gMain _); [reflexivity|discriminate]. }
  rewrite gsteps_still; auto.
Qed.
