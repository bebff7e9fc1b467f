(* C76: the mask search at the level of single module reads and writes, by eight goroutines in shared memory. *)
From Coq Require Import Lia.
From Verif Require Import ModelBase ModelBinary ModelUtf8 ModelVersion ModelMatrix ModelChardet ModelEncoder ModelRS ModelLayout ModelMask ModelEval ModelHeap ModelQRCode ModelFine.
From Verif Require Import SpecIso SpecReader SpecSegment SpecAPI SpecMatrix SpecShare SpecFine Samples.
From Verif Require Import ProofBase ProofMatrix ProofWalk ProofSweep ProofLayout ProofSymbol ProofBits ProofTables ProofStream
  ProofEncode ProofMode ProofKanji ProofSegment ProofInit ProofEval ProofMasking ProofVersion ProofBuild ProofAPI ProofNew ProofHeap ProofFine ProofFine2 ProofFine3.
From Verif Require PropsNew PropsDebug.

Lemma fine_facts sjis : shift_jis_contract sjis -> forall others eval text opts raw st,
  toBytes text = Ok raw -> init sjis (apply_options opts) raw = Ok st -> (forall d, 1 <= d <= 177 -> evaluates d (eval d)) ->
  forall sched,
    (exists sched', NewWith_fine others eval sjis text opts sched = NewWith sjis text opts sched') /\
    (let '(h, log) := NewWith_memory others eval sjis text opts sched in ~ race log /\ firstn (length others) h = others) /\
    exists rest, NewWith_fine others eval sjis text opts (sched ++ rest) <> Pending.
Proof.
  intros C others eval text opts raw st TB EI HE sched. destruct (init_makes sjis C text opts raw st TB EI) as [q0 HN].
  destruct (PropsDebug.init_facts sjis text opts fair_schedule q0 HN) as (raw' & st' & TB' & EI' & EV & EMo & ED & PF).
  assert (raw' = raw) by congruence. subst raw'. assert (st' = st) by congruence. subst st'.
  destruct (newwith_made sjis C text opts fair_schedule q0 HN) as (md & pl & l & v & b & w & k & c & s & HM).
  pose proof (md_row _ _ _ _ _ _ _ _ _ _ _ _ _ HM) as HR. pose proof (md_data _ _ _ _ _ _ _ _ _ _ _ _ _ HM) as HD. pose proof (md_valid _ _ _ _ _ _ _ _ _ _ _ _ _ HM) as HV.
  pose proof (md_stream _ _ _ _ _ _ _ _ _ _ _ _ _ HM) as SF. rewrite EV, (rf_ver _ _ _ HR) in PF.
  assert (SD : v_dimension (qV q0) = side v) by (rewrite v_dimension_side, (rf_ver _ _ _ HR); reflexivity).
  assert (SR : 1 <= side v <= 177) by (unfold side; unfold valid_version in HV; lia).
  destruct (search_fine (qV q0) v l (iMat st) (final_stream v w) others (eval (side v)) HR HV PF (final_stream_length v w HV (sf_total _ _ _ _ _ SF)) (HE _ SR) sched) as ((sched' & X1) & X2 & (rest & X3)).
  assert (NF : forall sc, NewWith_fine others eval sjis text opts sc = let* mat := masking_fine others (eval (side v)) (qV q0) (final_stream v w) (iMat st) sc in Ok (mkQR (iV st) (iMode st) (iData st) mat)).
  { intros sc. unfold NewWith_fine. rewrite TB. cbn [bind]. rewrite EI. cbn [bind]. rewrite EV, SD, ED, HD. reflexivity. }
  split; [|split].
  - exists sched'. rewrite NF, X1. unfold NewWith. rewrite TB. cbn [bind]. unfold build. rewrite EI. cbn [bind]. rewrite EV, ED, HD. reflexivity.
  - unfold NewWith_memory. rewrite TB. cbn [bind]. rewrite EI, EV, SD, ED, HD. exact X2.
  - exists rest. rewrite NF. destruct (masking_fine others (eval (side v)) (qV q0) (final_stream v w) (iMat st) (sched ++ rest)); cbn [bind]; try discriminate. exfalso. apply X3. reflexivity.
Qed.

(* whatever the interleaving of the goroutines' single reads and writes, and however evaluation reads its matrix: NewWith gives what it
   gives when xorMask, fillFormatInfo, fillVersionInfo and evaluation are single steps, under some schedule.  So everything proved
   about NewWith for every schedule (C01-C75) holds at this level too. *)
Theorem C76_refines :
  forall sjis, shift_jis_contract sjis -> forall others eval, (forall d, 1 <= d <= 177 -> evaluates d (eval d)) ->
  forall text opts sched, exists sched', NewWith_fine others eval sjis text opts sched = NewWith sjis text opts sched'.
Proof.
  intros sjis C others eval HE text opts sched. destruct (toBytes text) as [raw|e|p|] eqn:TB.
  2,3,4: exists []; unfold NewWith_fine, NewWith; rewrite TB; reflexivity.
  destruct (init sjis (apply_options opts) raw) as [st|e|p|] eqn:EI.
  2,3,4: exists []; unfold NewWith_fine, NewWith, build; rewrite TB; cbn [bind]; rewrite EI; reflexivity.
  apply (fine_facts sjis C others eval text opts raw st TB EI HE sched).
Qed.

(* no data race: no module array that one goroutine writes is read or written by another *)
Theorem C76_no_race :
  forall sjis, shift_jis_contract sjis -> forall others eval, (forall d, 1 <= d <= 177 -> evaluates d (eval d)) ->
  forall text opts sched, ~ race (snd (NewWith_memory others eval sjis text opts sched)).
Proof.
  intros sjis C others eval HE text opts sched.
  assert (E : race [] -> False) by (intros (i & j & a & w & [] & _)).
  destruct (toBytes text) as [raw|e|p|] eqn:TB.
  2,3,4: unfold NewWith_memory; rewrite TB; exact E.
  destruct (init sjis (apply_options opts) raw) as [st|e|p|] eqn:EI.
  2,3,4: unfold NewWith_memory; rewrite TB; cbn [bind]; rewrite EI; exact E.
  destruct (fine_facts sjis C others eval text opts raw st TB EI HE sched) as (_ & X & _). destruct (NewWith_memory others eval sjis text opts sched). apply X.
Qed.

(* all memory that existed before is as it was *)
Theorem C76_memory_kept :
  forall sjis, shift_jis_contract sjis -> forall others eval, (forall d, 1 <= d <= 177 -> evaluates d (eval d)) ->
  forall text opts sched a, (a < length others)%nat -> nth_error (fst (NewWith_memory others eval sjis text opts sched)) a = nth_error others a.
Proof.
  intros sjis C others eval HE text opts sched a LA.
  destruct (toBytes text) as [raw|e|p|] eqn:TB.
  2,3,4: unfold NewWith_memory; rewrite TB; reflexivity.
  destruct (init sjis (apply_options opts) raw) as [st|e|p|] eqn:EI.
  2,3,4: unfold NewWith_memory; rewrite TB; cbn [bind]; rewrite EI; reflexivity.
  destruct (fine_facts sjis C others eval text opts raw st TB EI HE sched) as (_ & X & _). destruct (NewWith_memory others eval sjis text opts sched) as [h log]. cbn [fst]. destruct X as [_ X].
  rewrite <- (firstn_skipn (length others) h). rewrite X. apply nth_error_app1, LA.
Qed.

(* never stuck: after any sequence of steps NewWith can still be brought to return *)
Theorem C76_never_stuck :
  forall sjis, shift_jis_contract sjis -> forall others eval, (forall d, 1 <= d <= 177 -> evaluates d (eval d)) ->
  forall text opts sched, exists rest, NewWith_fine others eval sjis text opts (sched ++ rest) <> Pending.
Proof.
  intros sjis C others eval HE text opts sched. destruct (toBytes text) as [raw|e|p|] eqn:TB.
  2,3: exists []; unfold NewWith_fine; rewrite TB; discriminate.
  2: destruct text; discriminate TB.
  destruct (init sjis (apply_options opts) raw) as [st|e|p|] eqn:EI.
  2,3: exists []; unfold NewWith_fine; rewrite TB; cbn [bind]; rewrite EI; discriminate.
  2: { exfalso. pose proof EI as X. unfold init in X. destruct (prepare sjis (apply_options opts) raw) as [st|?|?|] eqn:EP; cbn [bind] in X; try discriminate X.
       - destruct (prefillMatrix _ _); discriminate X.
       - assert (NW : NewWith sjis text opts fair_schedule = Pending) by (unfold NewWith, build; rewrite TB; cbn [bind]; rewrite EI; reflexivity).
         assert (HP : plain text) by (destruct text; try exact I; discriminate TB).
         destruct (supported_dec opts) as [SU|NS].
         + destruct (PropsNew.C04_result_or_error sjis C text opts fair_schedule HP SU fair_schedule_fair) as [[q Y]|[e Y]]; congruence.
         + rewrite newwith_plain in NW by exact HP. rewrite build_unsupported in NW by assumption. destruct (eff_version opts =? 0); discriminate NW. }
  apply (fine_facts sjis C others eval text opts raw st TB EI HE sched).
Qed.

(* ---- programs for evaluation exist ---- *)
Lemma alone_read coords mask m k : forall acc, alone (read_all coords acc k) mask m = alone (k (acc ++ map (fun '(x, y) => fst (m_at m x y)) coords)) mask m.
Proof.
  induction coords as [|[x y] r IH]; intros acc; cbn [read_all alone map]; [rewrite app_nil_r; reflexivity|]. rewrite IH, <- app_assoc. reflexivity.
Qed.
Lemma column_values m : wf m -> map (fun '(x, y) => fst (m_at m x y)) (iter_coords IterDirection_COLUMN (mwidth m) (mheight m)) = concat (mmat m).
Proof.
  intros W. unfold iter_coords. rewrite flat_map_concat_map, concat_map, map_map. f_equal.
  assert (G : forall x, 0 <= x < mwidth m -> map (fun '(x, y) => fst (m_at m x y)) (map (fun h => (x, h)) (zseq 0 (mheight m))) = match zget (mmat m) x with Some c => c | None => [] end).
  { intros x RX. destruct (wf_col m x W RX) as (c & EC & LC). rewrite EC, map_map. apply (nth_ext _ _ 0 0).
    - rewrite map_length, zseq_length. unfold zlen in LC. lia.
    - intros n LN. rewrite map_length, zseq_length in LN. rewrite (nth_indep _ 0 (fst (m_at m x 0))) by (rewrite map_length, zseq_length; exact LN).
      rewrite (map_nth (fun y => fst (m_at m x y)) _ 0). rewrite zseq_upto. unfold upto. rewrite (nth_indep _ 0 (Z.of_nat 0)) by (rewrite map_length, seq_length; lia). rewrite map_nth, seq_nth by lia.
      rewrite m_at_in by (unfold in_range; lia). cbn [fst]. unfold rawget. rewrite EC. unfold zget. destruct (Z.ltb_spec (Z.of_nat (0 + n)) 0); [lia|]. rewrite Nat2Z.id. cbn [Nat.add].
      rewrite (nth_error_nth' c 0) by (unfold zlen in LC; lia). reflexivity. }
  destruct W as (W0 & H0 & WL & _). apply (nth_ext _ _ [] []).
  - rewrite map_length, zseq_length. unfold zlen in WL. lia.
  - intros n LN. rewrite map_length, zseq_length in LN. rewrite (nth_indep _ [] (map (fun '(x, y) => fst (m_at m x y)) (map (fun h => (0, h)) (zseq 0 (mheight m))))) by (rewrite map_length, zseq_length; exact LN).
    rewrite (map_nth (fun x => map (fun '(x, y) => fst (m_at m x y)) (map (fun h => (x, h)) (zseq 0 (mheight m)))) _ 0).
    rewrite zseq_upto. unfold upto. rewrite (nth_indep _ 0 (Z.of_nat 0)) by (rewrite map_length, seq_length; lia). rewrite map_nth, seq_nth by lia. cbn [Nat.add].
    rewrite G by lia. unfold zget. destruct (Z.ltb_spec (Z.of_nat n) 0); [lia|]. rewrite Nat2Z.id. rewrite (nth_error_nth' _ []) by (unfold zlen in WL; lia). reflexivity.
Qed.
Lemma cut_concat d (ls : list (list Z)) : Forall (fun l => length l = d) ls -> cut d (length ls) (concat ls) = ls.
Proof.
  induction ls as [|l ls IH]; intros F; [reflexivity|]. inversion F as [|? ? E F']; subst. cbn [length cut concat].
  rewrite firstn_app, Nat.sub_diag, firstn_all, firstn_O, app_nil_r. f_equal. rewrite skipn_app, Nat.sub_diag, skipn_all. cbn [skipn app]. apply IH, F'.
Qed.
Theorem C76_programs_exist : forall d, 1 <= d <= 177 -> evaluates d (read_and_evaluate d).
Proof.
  intros d D mask m W EW EH. destruct (evaluation_ok m W ltac:(congruence) ltac:(lia)) as (s & ES & _). exists s. split; [exact ES|].
  unfold read_and_evaluate. rewrite alone_read. cbn [app alone]. replace (iter_coords IterDirection_COLUMN d d) with (iter_coords IterDirection_COLUMN (mwidth m) (mheight m)) by congruence. rewrite column_values by exact W.
  assert (E : mkMatrix (cut (Z.to_nat d) (Z.to_nat d) (concat (mmat m))) d d = m).
  { destruct W as (W0 & H0 & WL & F). assert (LL : Z.to_nat d = length (mmat m)) by (unfold zlen in WL; lia).
    rewrite LL at 2. rewrite cut_concat; [destruct m; cbn in *; congruence|]. apply Forall_forall. intros c IC. rewrite Forall_forall in F. specialize (F c IC). unfold zlen in F. lia. }
  rewrite E, ES. reflexivity.
Qed.

(* a text that NewWith accepts: it is accepted here too *)
Theorem C76_returns :
  forall sjis, shift_jis_contract sjis -> forall others eval, (forall d, 1 <= d <= 177 -> evaluates d (eval d)) ->
  forall text opts sched0 q0, NewWith sjis text opts sched0 = Ok q0 ->
  forall sched, exists rest q, NewWith_fine others eval sjis text opts (sched ++ rest) = Ok q.
Proof.
  intros sjis C others eval HE text opts sched0 q0 HN sched.
  destruct (C76_never_stuck sjis C others eval HE text opts sched) as [rest NP]. exists rest.
  destruct (C76_refines sjis C others eval HE text opts (sched ++ rest)) as [sched' E]. rewrite E in *.
  destruct (PropsDebug.init_facts sjis text opts sched0 q0 HN) as (raw & st & TB & EI & _).
  destruct (newwith_made sjis C text opts sched0 q0 HN) as (md & pl & l & v & b & w & k & c & s & HM).
  assert (SU : supported opts).
  { destruct (supported_dec opts) as [SU|NS]; [exact SU|]. exfalso. rewrite newwith_plain in HN by apply HM. rewrite build_unsupported in HN by assumption. destruct (eff_version opts =? 0); discriminate HN. }
  pose proof (no_panic_newwith sjis C text opts sched' (md_plain _ _ _ _ _ _ _ _ _ _ _ _ _ HM) SU) as NPA. pose proof (masking_shape (iV st) (iData st) (iMat st) sched') as MS.
  unfold NewWith, build in *. rewrite TB in *. cbn [bind] in *. rewrite EI in *. cbn [bind] in *. destruct (masking (iV st) (iData st) (iMat st) sched') as [m|e|p|]; cbn [bind] in *.
  - eexists. reflexivity.
  - contradiction.
  - exfalso. eapply NPA. reflexivity.
  - contradiction.
Qed.

(* the hypotheses can be met: a text, an evaluation program and schedules under which the fine-grained NewWith returns a symbol, from
   any start of a schedule *)
Example C76_inhabited : forall sched, exists rest q, NewWith_fine [] read_and_evaluate sample_sjis hello [] (sched ++ rest) = Ok q.
Proof.
  destruct PropsNew.C01_C03_C08_example as (q & HQ & _).
  exact (C76_returns sample_sjis sample_contract [] read_and_evaluate C76_programs_exist hello [] fair_schedule q HQ).
Qed.
(* a race would be noticed: two goroutines on one matrix *)
Example C76_race_noticed : race (fLog (fold_left (fstep [mkH 1 1 1; mkH 1 1 1] [mkH 3 1 1; mkH 3 1 1]) [Goroutine 0; Goroutine 1]
  (mkF [Values [0]; Columns [0%nat]; Values [0]; Columns [2%nat]] [Running (WrMat 0 0 4 (Ret 1)); Running (RdMat 0 0 (fun _ => Ret 1))] [] 2 2 false []))).
Proof. exists 0%nat, 1%nat, 2%nat, false. vm_compute. split; [left; reflexivity|]. split; [right; left; reflexivity|discriminate]. Qed.

Print Assumptions C76_refines.
Print Assumptions C76_no_race.
Print Assumptions C76_memory_kept.
Print Assumptions C76_never_stuck.
Print Assumptions C76_programs_exist.
Print Assumptions C76_returns.
