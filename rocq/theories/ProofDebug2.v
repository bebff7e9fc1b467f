(* The drawings of a search on a prefilled matrix, and the pictures themselves. *)
From Coq Require Import Lia.
From Verif Require Import ModelBase ModelBinary ModelUtf8 ModelVersion ModelMatrix ModelChardet ModelEncoder ModelRS ModelLayout ModelMask ModelEval ModelQRCode.
From Verif Require Import ModelCompressed ModelStandard ModelWriters ModelCli ModelFs ModelDebug.
From Verif Require Import SpecIso SpecReader SpecSegment SpecAPI SpecMatrix SpecMedium SpecDebug.
From Verif Require Import ProofBase ProofMatrix ProofWalk ProofSweep ProofLayout ProofSymbol ProofBits ProofTables ProofStream
  ProofEncode ProofMode ProofKanji ProofSegment ProofInit ProofEval ProofMasking ProofVersion ProofBuild ProofAPI ProofNew ProofCompressed ProofMedium ProofDebug.

(* ---- the picture of a matrix ---- *)
Lemma picture_pixel n m x y dx dy : square n m -> 0 <= x < n -> 0 <= y < n -> 0 <= dx < 10 -> 0 <= dy < 10 ->
  snd (debug_picture m) (10 + x * 10 + dx) (10 + y * 10 + dy) = if qrbool (rawget m x y) then 0 else 0xffff.
Proof.
  intros (WF & EW & EH) X Y DX DY. unfold debug_picture, m_iter. cbn [snd]. rewrite EW, EH.
  assert (G : forall l p, (In (x, y) l \/ p (10 + x * 10 + dx) (10 + y * 10 + dy) = if qrbool (rawget m x y) then 0 else 0xffff) ->
    fold_left (fun p '(x, y) => grey_rectangle (x * 10 + 10) (y * 10 + 10) ((x + 1) * 10 + 10) ((y + 1) * 10 + 10) (n * 10 + 2 * 10) (n * 10 + 2 * 10)
      (if qrbool (rawget m x y) then 0 else 0xffff) p) l p (10 + x * 10 + dx) (10 + y * 10 + dy) = if qrbool (rawget m x y) then 0 else 0xffff).
  { induction l as [|[a b] l IH]; intros p HI; cbn [fold_left]; [destruct HI as [[]|HI]; exact HI|]. apply IH.
    destruct (in_dec (fun p q : Z * Z => ltac:(decide equality; apply Z.eq_dec)) (x, y) l) as [I|NI]; [left; exact I|right].
    unfold grey_rectangle.
    destruct (Z.leb_spec (a * 10 + 10) (10 + x * 10 + dx)), (Z.ltb_spec (10 + x * 10 + dx) ((a + 1) * 10 + 10)),
      (Z.leb_spec (b * 10 + 10) (10 + y * 10 + dy)), (Z.ltb_spec (10 + y * 10 + dy) ((b + 1) * 10 + 10)),
      (Z.leb_spec 0 (10 + x * 10 + dx)), (Z.ltb_spec (10 + x * 10 + dx) (n * 10 + 2 * 10)), (Z.leb_spec 0 (10 + y * 10 + dy)), (Z.ltb_spec (10 + y * 10 + dy) (n * 10 + 2 * 10));
      cbn [andb]; try lia;
      (assert (a = x /\ b = y) as [-> ->] by lia; reflexivity) || (destruct HI as [[[= -> ->]|C]|E]; [lia|contradiction|exact E]). }
  apply G. left. apply in_iter_coords. auto.
Qed.
Lemma picture_size n m : square n m -> fst (debug_picture m) = (10 * n + 20, 10 * n + 20).
Proof. intros (_ & EW & _). unfold debug_picture. cbn [fst]. rewrite EW. f_equal; lia. Qed.

(* through a lossy coder *)
Lemma picture_scan t jpeg decode fails n m d name : grey_keeps t jpeg decode -> t <= 32767 -> (forall k, fails name k = None) -> square n m -> 1 <= n <= 177 -> 0 <= d < 10 ->
  exists p, decode (written jpeg fails name m) = Some (10 * n + 20, 10 * n + 20, p) /\ scan_grey d n p = m_bitmap m.
Proof.
  intros GK T NF SQ N D. unfold written. pose proof (picture_size n m SQ) as PS. pose proof (fun x y => picture_pixel n m x y d d SQ) as PP.
  destruct (debug_picture m) as [[w h] p]. cbn [fst snd] in *. assert (w = 10 * n + 20 /\ h = 10 * n + 20) as [-> ->] by (split; congruence). clear PS.
  assert (EN : encodable JpegEncoder (10 * n + 20) (10 * n + 20)) by (split; lia). rewrite (encodable_ok _ _ _ EN).
  destruct (sink_all (fails name) NF (jpeg (10 * n + 20, 10 * n + 20, p)) (mkOs [] 0) 0) as (calls & SA).
  change (standard_new None) with (mkSink (mkOs [] 0) true 0). rewrite SA. cbn [s_file].
  destruct (GK _ _ p EN) as (p' & DC & NEAR). exists p'. split.
  - rewrite os_write_all_content by (cbn; lia). cbn [o_pos o_content firstn app]. rewrite skipn_nil, app_nil_r. exact DC.
  - unfold scan_grey. apply sampled_bitmap; [exact SQ|]. intros x y HX HY. specialize (PP x y HX HY D D).
    specialize (NEAR (10 + x * 10 + d) (10 + y * 10 + d) ltac:(lia) ltac:(lia)). rewrite PP in NEAR. destruct SQ as (Wf & EW & EH).
    rewrite module_at_bitmap by (auto; unfold in_range; lia).
    destruct (qrbool (rawget m x y)); [apply Z.ltb_lt|apply Z.ltb_ge]; lia.
Qed.

(* ---- the search on a prefilled matrix ---- *)
Section Search.
Context (resolve : path -> Z) (may_create : path -> bool) (jpeg : grey -> list (list Z)) (fails : path -> nat -> option nat) (env : list Z).

Lemma masking_debug_ok r v l mat stream : told_apart resolve -> row_facts v l r -> valid_version v ->
  prefillMatrix v (newMatrix (side v) (side v)) = Some mat -> length stream = length (data_path v) ->
  exists (cand before mask after : nat -> Matrix),
    (forall i, (i < 8)%nat -> symbol v l (Z.of_nat i) stream (cand i)) /\
    (forall i, (i < 8)%nat -> square (side v) (before i) /\ square (side v) (mask i) /\ square (side v) (after i) /\
       forall x y, 0 <= x < side v -> 0 <= y < side v -> qrbool (rawget (after i) x y) = xorb (qrbool (rawget (before i) x y)) (qrbool (rawget (mask i) x y))) /\
    forall sw fs sched fs' res, masking_debug resolve may_create jpeg fails env r stream mat sw fs sched = (fs', res) ->
      (over (fst (drun sched)) = true -> exists i, (i < 8)%nat /\ res = Ok (cand i)) /\
      (over (fst (drun sched)) = false -> res = Pending) /\
      (snd (debugEnabled env sw) = true -> over (fst (drun sched)) = true -> forall i j, (i < 8)%nat -> (j < 4)%nat -> may_create (draft j i) = true ->
         fs' (resolve (draft j i)) = Some (written jpeg fails (draft j i) (match j with 0%nat => before i | 1%nat => mask i | 2%nat => after i | _ => cand i end))).
Proof.
  intros HT HR Hv Hpre Hlen. pose proof (rf_ver _ _ _ HR) as EV. pose proof (rf_ec _ _ _ HR) as EL.
  destruct (prefill_facts v Hv) as (mat' & E & Hwf & HW & HH & Hcell). rewrite Hpre in E. injection E as <-.
  destruct (fill_facts v mat stream Hv Hwf HW HH Hcell Hlen) as (cpy & Efill & Cwf & CW & CH & Cdata & _).
  destruct (all_masks_ok mat Hwf) as (masks & EM & HM).
  set (mk := fun i : nat => match nth_error masks i with Some m => m | None => mat end).
  set (fmt := fun i : nat => to_bits (format_word l (Z.of_nat i)) 15).
  set (vi := to_bits (version_word v) 18).
  assert (Hmk : forall i, (i < 8)%nat -> nth_error masks i = Some (mk i) /\ newMask mat (Z.of_nat i) = Some (mk i)).
  { intros i Hi. destruct (HM (Z.of_nat i) ltac:(lia)) as (m & A & B). rewrite Nat2Z.id in B. unfold mk. rewrite B. auto. }
  assert (Hsym : forall i, (i < 8)%nat -> symbol v l (Z.of_nat i) stream (candidate r cpy fmt vi mk i)).
  { intros i Hi. pose proof (candidate_symbol r l (Z.of_nat i) mat cpy (mk i) stream) as CS. rewrite EV in CS.
    specialize (CS Hv ltac:(lia) Hpre Hlen Efill (proj2 (Hmk i Hi))). unfold finish in CS. rewrite EV in CS.
    unfold candidate, after_format, after_xor. rewrite v_dimension_side, EV. exact CS. }
  assert (Hev : forall i, (i < 8)%nat -> exists s, evaluation (candidate r cpy fmt vi mk i) = Some s /\ 0 <= s < MaxInt32).
  { intros i Hi. destruct (Hsym i Hi) as [A B C _ _ _ _ _ _]. apply evaluation_ok; auto; [congruence|]. rewrite B. pose proof (valid_side v Hv). lia. }
  set (score := fun i : nat => match evaluation (candidate r cpy fmt vi mk i) with Some s => s | None => 0 end).
  assert (Hsc : forall i, (i < 8)%nat -> evaluation (candidate r cpy fmt vi mk i) = Some (score i) /\ score i < MaxInt32).
  { intros i Hi. destruct (Hev i Hi) as (s & Es & Hs). unfold score. rewrite Es. split; [auto|lia]. }
  assert (H1 : forall i, (i < 8)%nat -> v_formatInfo r (Z.of_nat i) = Some (fmt i)).
  { intros i Hi. unfold fmt. apply formatInfo_facts; auto. lia. }
  assert (H2 : 7 <= Ver r -> v_verInfo r = Some vi).
  { intros H7. rewrite verInfo_facts by (rewrite ?EV in *; auto). rewrite EV. reflexivity. }
  exists (candidate r cpy fmt vi mk), (fun _ => cpy), mk, (after_xor cpy mk). split; [exact Hsym|]. split.
  - intros i Hi. destruct (getModuloFunc_some (Z.of_nat i) ltac:(lia)) as [fn Hf]. destruct (newMask_facts mat (Z.of_nat i) fn Hwf Hf) as (mk' & EMk & Mwf & MW & MH & MC).
    rewrite (proj2 (Hmk i Hi)) in EMk. injection EMk as <-.
    destruct (xorMask_facts cpy (mk i) Cwf Mwf ltac:(congruence) ltac:(congruence)) as (Xwf & XW & XH & XC).
    split; [split; [exact Cwf|split; congruence]|]. split; [split; [exact Mwf|split; congruence]|]. split; [split; [exact Xwf|unfold after_xor; split; congruence]|].
    intros x y X Y. unfold after_xor. rewrite XC by (unfold in_range; rewrite CW, CH; auto). rewrite (MC x y) by (unfold in_range; rewrite HW, HH; auto).
    destruct (is_init (rawget mat x y)) eqn:EI.
    + rewrite dataval_not_init. assert (DV : exists b, rawget cpy x y = dataval b).
      { assert (IP : In (x, y) (data_path v)).
        { apply in_data_path; auto. specialize (Hcell x y ltac:(unfold in_range; rewrite HW, HH; auto)). unfold cell_ok in Hcell. destruct (region_of v x y); cbn [is_data] in Hcell; try reflexivity;
            rewrite EI in Hcell; discriminate Hcell. }
        assert (IM : In (rawget cpy x y) (map (fun p => rawget cpy (fst p) (snd p)) (data_path v))) by (apply (in_map (fun p => rawget cpy (fst p) (snd p)) _ (x, y)), IP).
        rewrite Cdata in IM. apply in_map_iff in IM as (b & E & _). exists b. auto. }
      destruct DV as [b ->]. rewrite qrxor_dataval, !qrbool_dataval. reflexivity.
    + change (is_init QRValue_INIT_V0) with true. cbv iota. change (qrbool QRValue_INIT_V0) with false. rewrite xorb_false_r. reflexivity.
  - intros sw fs sched fs' res. unfold masking_debug, mask_start. cbv zeta. rewrite m_copy_id by auto. rewrite v_dimension_side, EV, Efill, EM. cbn [bind].
    set (on := snd (debugEnabled env sw)).
    assert (ON : on = true -> sw_debug (fst (debugEnabled env sw)) = true) by (unfold on, debugEnabled; cbn [fst snd]; auto).
    set (d := fold_left _ sched _). intros [= <- <-].
    pose proof (drun_inv resolve may_create jpeg fails env r masks cpy fmt vi score mk (fun i Hi => proj1 (Hmk i Hi)) H1 H2 (fun i Hi => proj1 (Hsc i Hi)) HT on sched _ _
      (dinit_inv resolve may_create jpeg fails r cpy fmt vi score mk on (fst (debugEnabled env sw)) fs Cwf ON)) as DI. fold d in DI. fold (drun sched) in DI.
    destruct (sim resolve may_create jpeg fails env r masks sched (mkD (ginit cpy) (repeat 0%nat 8) (fst (debugEnabled env sw)) fs)) as [sched' ES]. fold d in ES. cbn [d_core] in ES.
    pose proof (search_outcome r masks cpy fmt vi score mk (fun i Hi => proj1 (Hmk i Hi)) H1 H2 (fun i Hi => proj1 (Hsc i Hi)) sched' Cwf (fun i Hi => proj2 (Hsc i Hi))) as HO.
    cbv zeta in HO. rewrite <- ES in HO. destruct HO as (NP & MN & OK).
    pose proof (in_main _ _ _ _ _ _ _ _ (di_core _ _ _ _ _ _ _ _ _ _ _ _ _ DI)) as GM.
    unfold mask_end. rewrite NP. split; [|split].
    + intros OV. rewrite OV in GM. rewrite GM. rewrite <- MN, GM in OK. destruct (OK eq_refl) as (k & Hk & SE & ZG & _). exists k. split; [exact Hk|]. rewrite SE, ZG. reflexivity.
    + intros OV. rewrite OV in GM. rewrite GM. reflexivity.
    + intros O OV i j I J MC. rewrite OV in GM. destruct (drawn_at_end _ _ _ _ _ _ _ _ _ _ _ _ _ DI GM) as [_ F].
      exact (F O i j I J MC).
Qed.
End Search.
