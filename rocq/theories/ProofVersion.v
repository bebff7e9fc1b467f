(* Options, and the choice of the version. *)
From Coq Require Import Lia.
From Verif Require Import ModelBase ModelUtf8 ModelVersion ModelQRCode SpecIso SpecReader SpecSegment SpecAPI
  ProofBase ProofSweep ProofSymbol ProofTables ProofEncode ProofMode ProofKanji ProofSegment.

(* ---- options ---- *)
Lemma last_snoc {A} (l : list A) x d : last (l ++ [x]) d = x.
Proof. apply last_last. Qed.

Lemma apply_options_spec opts :
  apply_options opts = mkOption (eff_version opts) (eff_min opts) (eff_mode opts) (eff_level opts).
Proof.
  unfold apply_options. induction opts as [|o opts IH] using rev_ind; [reflexivity|].
  rewrite fold_left_app. cbn [fold_left]. rewrite IH.
  unfold eff_version, eff_min, eff_mode, eff_level. rewrite !flat_map_app. cbn [flat_map]. rewrite !app_nil_r.
  unfold apply_option, ErrorCorrectionLow, ErrorCorrectionHighest. change VERSION_COUNT with 40.
  destruct o as [m|lv|v|v]; cbn [oVersion oMinimumVersion oEncMode oEcLevel].
  - rewrite app_nil_r, last_snoc, !app_nil_r. reflexivity.
  - destruct (Z.ltb_spec lv 1), (Z.ltb_spec 4 lv), (Z.leb_spec 1 lv), (Z.leb_spec lv 4); try lia; cbn [orb andb];
      rewrite ?app_nil_r, ?last_snoc; reflexivity.
  - destruct (Z.ltb_spec v 1), (Z.ltb_spec 40 v), (Z.leb_spec 1 v), (Z.leb_spec v 40); try lia; cbn [orb andb];
      rewrite ?app_nil_r, ?last_snoc; reflexivity.
  - destruct (Z.ltb_spec v 1), (Z.ltb_spec 40 v), (Z.leb_spec 1 v), (Z.leb_spec v 40); try lia; cbn [orb andb];
      rewrite ?app_nil_r, ?last_snoc; reflexivity.
Qed.

Lemma last_in {A} (l : list A) d : last l d = d \/ In (last l d) l.
Proof.
  induction l as [|a l IH]; [left; reflexivity|]. cbn [last]. destruct l as [|b l]; [right; left; reflexivity|].
  destruct IH as [->|IH]; [left; reflexivity|right; right; exact IH].
Qed.
Lemma eff_version_range opts : eff_version opts = 0 \/ valid_version (eff_version opts).
Proof.
  unfold eff_version. destruct (last_in (flat_map (fun o => match o with WithVersion v => if (1 <=? v) && (v <=? 40) then [v] else [] | _ => [] end) opts) 0) as [->|I]; [left; reflexivity|right].
  apply in_flat_map in I as (o & _ & I). destruct o as [?|?|v|?]; try destruct I.
  destruct (Z.leb_spec 1 v), (Z.leb_spec v 40); cbn [andb] in I; try (destruct I; fail). destruct I as [<-|[]]. unfold valid_version. lia.
Qed.
Lemma eff_min_range opts : eff_min opts = 0 \/ valid_version (eff_min opts).
Proof.
  unfold eff_min. destruct (last_in (flat_map (fun o => match o with WithMinimumVersion v => if (1 <=? v) && (v <=? 40) then [v] else [] | _ => [] end) opts) 0) as [->|I]; [left; reflexivity|right].
  apply in_flat_map in I as (o & _ & I). destruct o as [?|?|?|v]; try destruct I.
  destruct (Z.leb_spec 1 v), (Z.leb_spec v 40); cbn [andb] in I; try (destruct I; fail). destruct I as [<-|[]]. unfold valid_version. lia.
Qed.
Lemma eff_level_range opts : exists l, eff_level opts = level_code l.
Proof.
  unfold eff_level. destruct (last_in (flat_map (fun o => match o with WithErrorCorrectionLevel v => if (1 <=? v) && (v <=? 4) then [v] else [] | _ => [] end) opts) (level_code Q)) as [->|I]; [exists Q; reflexivity|].
  apply in_flat_map in I as (o & _ & I). destruct o as [?|v|?|?]; try destruct I.
  destruct (Z.leb_spec 1 v) as [G1|G1], (Z.leb_spec v 4) as [G2|G2]; cbn [andb] in I; try (destruct I; fail). destruct I as [E|[]].
  assert (X : v = 1 \/ v = 2 \/ v = 3 \/ v = 4) by lia. rewrite <- E.
  destruct X as [->|[->|[->| ->]]]; [exists L|exists M|exists Q|exists H]; reflexivity.
Qed.
Lemma level_code_const l : level_code l = ec_const l. Proof. destruct l; reflexivity. Qed.
Lemma mode_code_const md : mode_code md = mode_const md. Proof. destruct md; reflexivity. Qed.

(* ---- the table, by index ---- *)
Lemma index_sweep : forallb (fun v => forallb (fun j => match zget versions (4 * (v - 1) + j) with
    | Some r => (Ver r =? v) && (ECLevel r =? j + 1) | None => false end) (upto 4)) all_versions = true.
Proof. vm_compute. reflexivity. Qed.

Lemma row_index v l r : valid_version v -> loadVersion v (ec_const l) = Ok r -> zget versions (4 * (v - 1) + (ec_const l - 1)) = Some r.
Proof.
  intros Hv. pose proof (sweep _ index_sweep v Hv) as HS. cbv beta in HS.
  unfold loadVersion. replace ((v - 1) * 4) with (4 * (v - 1)) by lia. replace (v * 4 - 1 - 4 * (v - 1) + 1) with 4 by lia.
  change (zseq (4 * (v - 1)) 4) with [4 * (v - 1); 4 * (v - 1) + 1; 4 * (v - 1) + 1 + 1; 4 * (v - 1) + 1 + 1 + 1].
  replace (4 * (v - 1) + 1 + 1 + 1) with (4 * (v - 1) + 3) by lia. replace (4 * (v - 1) + 1 + 1) with (4 * (v - 1) + 2) by lia.
  pose proof (forallb_upto _ _ HS 0 ltac:(lia)) as H0. pose proof (forallb_upto _ _ HS 1 ltac:(lia)) as H1.
  pose proof (forallb_upto _ _ HS 2 ltac:(lia)) as H2. pose proof (forallb_upto _ _ HS 3 ltac:(lia)) as H3. cbv beta in *.
  rewrite Z.add_0_r in H0. cbn [loadVersion_loop].
  destruct (zget versions (4 * (v - 1))) as [r0|] eqn:E0; [|discriminate]. destruct (zget versions (4 * (v - 1) + 1)) as [r1|] eqn:E1; [|discriminate].
  destruct (zget versions (4 * (v - 1) + 2)) as [r2|] eqn:E2; [|discriminate]. destruct (zget versions (4 * (v - 1) + 3)) as [r3|] eqn:E3; [|discriminate].
  apply andb_true_iff in H0 as [_ H0], H1 as [_ H1], H2 as [_ H2], H3 as [_ H3]. apply Z.eqb_eq in H0, H1, H2, H3.
  rewrite H0, H1, H2, H3. destruct l; cbn [ec_const]; intros [= <-]; cbn; rewrite ?Z.add_0_r; auto.
Qed.

(* ---- analyzeVersion ---- *)
Lemma mode_mark md (c : capacity) :
  (if mode_const md =? EncModeNumeric then Some (capNumeric c)
   else if mode_const md =? EncModeAlphanumeric then Some (capAlphaNumeric c)
   else if mode_const md =? EncModeByte then Some (capByte c)
   else if mode_const md =? EncModeKanji then Some (capJP c) else None) = Some (cap_of md c).
Proof. destruct md; reflexivity. Qed.

Lemma zseq_nat_cons a n : zseq_nat a (S n) = a :: zseq_nat (a + 1) n. Proof. reflexivity. Qed.

Lemma analyze_loop_spec l md want : 0 <= want -> forall n k, 0 <= k -> k + Z.of_nat n = 40 ->
  (exists v r, k < v <= 40 /\ row_facts v l r /\ loadVersion v (ec_const l) = Ok r /\
     analyzeVersion_loop (map (fun k => (ec_const l - 1) + 4 * k) (zseq_nat k n)) want (mode_const md) = Ok r /\
     fits v l md want /\ forall v', k < v' < v -> ~ fits v' l md want)
  \/ (analyzeVersion_loop (map (fun k => (ec_const l - 1) + 4 * k) (zseq_nat k n)) want (mode_const md) = Err ErrAnalyzeVersionFailed
      /\ forall v', k < v' <= 40 -> ~ fits v' l md want).
Proof.
  intros Hw. induction n as [|n IH]; intros k Hk Hn.
  - right. split; [reflexivity|]. intros v' Hv'. lia.
  - rewrite zseq_nat_cons. cbn [map analyzeVersion_loop].
    assert (Hv : valid_version (k + 1)) by (unfold valid_version; lia).
    destruct (row_of (k + 1) l Hv) as (r & HL & HR). pose proof (row_index _ _ _ Hv HL) as HX.
    replace (ec_const l - 1 + 4 * k) with (4 * (k + 1 - 1) + (ec_const l - 1)) by lia. rewrite HX, mode_mark.
    pose proof (fits_cap _ _ _ md want HR Hw) as FC.
    destruct (Z.leb_spec want (cap_of md (Cap r))) as [LE|GT].
    + left. exists (k + 1), r. split; [lia|]. split; auto. split; auto. split; auto. split; [apply FC; auto|]. intros v' Hv'. lia.
    + assert (NF : ~ fits (k + 1) l md want) by (intros F; apply FC in F; lia).
      destruct (IH (k + 1) ltac:(lia) ltac:(lia)) as [(v & r' & Hv2 & HR2 & HL2 & -> & HF & HM)|[-> HM]].
      * left. exists v, r'. split; [lia|]. split; auto. split; auto. split; auto. split; auto. intros v' Hv'.
        destruct (Z.eq_dec v' (k + 1)) as [->|]; auto. apply HM. lia.
      * right. split; auto. intros v' Hv'. destruct (Z.eq_dec v' (k + 1)) as [->|]; auto. apply HM. lia.
Qed.

Lemma analyzeVersion_spec l md raw : 
  (exists v r, valid_version v /\ row_facts v l r /\ loadVersion v (ec_const l) = Ok r /\
     analyzeVersion raw (ec_const l) (mode_const md) = Ok r /\ fits v l md (text_length md raw) /\
     forall v', valid_version v' -> fits v' l md (text_length md raw) -> v <= v')
  \/ (analyzeVersion raw (ec_const l) (mode_const md) = Err ErrAnalyzeVersionFailed
      /\ forall v', valid_version v' -> ~ fits v' l md (text_length md raw)).
Proof.
  assert (W : (if mode_const md =? EncModeByte then zlen raw else rune_count raw) = text_length md raw) by (destruct md; reflexivity).
  assert (S : analyzeVersion raw (ec_const l) (mode_const md) =
    analyzeVersion_loop (map (fun k => (ec_const l - 1) + 4 * k) (zseq_nat 0 40)) (text_length md raw) (mode_const md)).
  { unfold analyzeVersion. rewrite W. destruct l; reflexivity. }
  rewrite S. destruct (analyze_loop_spec l md (text_length md raw) (text_length_nonneg md raw) 40%nat 0 ltac:(lia) ltac:(lia))
    as [(v & r & Hv & HR & HL & E & HF & HM)|[E HM]].
  - left. exists v, r. unfold valid_version. split; [lia|]. split; auto. split; auto. split; auto. split; auto.
    intros v' Hv' HF'. destruct (Z.le_gt_cases v v'); auto. exfalso. apply (HM v'); [lia|auto].
  - right. split; auto. intros v' Hv'. apply HM. unfold valid_version in Hv'. lia.
Qed.

(* ---- capacity is monotone in the version ---- *)
Lemma cap_mono_sweep : forallb (fun l => forallb (fun md => forallb (fun v => 
    match loadVersion v (ec_const l), loadVersion (v + 1) (ec_const l) with
    | Ok r, Ok r' => cap_of md (Cap r) <=? cap_of md (Cap r') | _, _ => false end)
   (map (fun k => k + 1) (upto 39))) [Numeric; Alphanumeric; Byte; Kanji]) all_levels = true.
Proof. vm_compute. reflexivity. Qed.

Lemma fits_mono l md n v v' : valid_version v -> valid_version v' -> v <= v' -> 0 <= n -> fits v l md n -> fits v' l md n.
Proof.
  intros Hv Hv' Hle Hn HF.
  assert (STEP : forall v, 1 <= v < 40 -> fits v l md n -> fits (v + 1) l md n).
  { clear v v' Hv Hv' Hle HF. intros v Hv HF. pose proof cap_mono_sweep as HS. rewrite forallb_forall in HS. 
    specialize (HS l ltac:(destruct l; cbn; auto)). rewrite forallb_forall in HS. specialize (HS md ltac:(destruct md; cbn; auto)).
    rewrite forallb_forall in HS. specialize (HS v). cbv beta in HS.
    assert (IN : In v (map (fun k => k + 1) (upto 39))).
    { apply in_map_iff. exists (v - 1). split; [lia|]. apply in_upto. lia. }
    specialize (HS IN). destruct (row_of v l ltac:(unfold valid_version; lia)) as (r & E & HR). destruct (row_of (v + 1) l ltac:(unfold valid_version; lia)) as (r' & E' & HR').
    rewrite E, E' in HS. apply Z.leb_le in HS. apply (fits_cap _ _ _ _ _ HR Hn) in HF. apply (fits_cap _ _ _ _ _ HR' Hn). lia. }
  assert (G : forall d : nat, forall v, 1 <= v -> v + Z.of_nat d <= 40 -> fits v l md n -> fits (v + Z.of_nat d) l md n).
  { induction d as [|d IH]; intros w Hw Hd HW; [replace (w + Z.of_nat 0) with w by lia; auto|].
    replace (w + Z.of_nat (S d)) with (w + Z.of_nat d + 1) by lia. apply STEP; [lia|]. apply IH; auto; lia. }
  unfold valid_version in *. replace v' with (v + Z.of_nat (Z.to_nat (v' - v))) by lia. apply G; auto; lia.
Qed.
