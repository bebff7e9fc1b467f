(* C77: modules that are read wrongly. *)
From Coq Require Import Lia.
From Verif Require Import ModelBase ModelMatrix ModelQRCode ModelSave ModelCompressed ModelStandard ModelWriters.
From Verif Require Import SpecIso SpecReader SpecSegment SpecRecovery SpecAPI SpecMatrix SpecStandard SpecMedium SpecShape SpecLogo SpecDirt Samples.
From Verif Require Import ProofBase ProofMatrix ProofEval ProofViews ProofStandard ProofMedium ProofShape ProofLogo ProofDirt.
From Verif Require Import PropsShape PropsLossy PropsLogo.
From Verif Require PropsSaved PropsSymbol PropsStandard PropsNew.

(* A symbol of side n = 4v + 17 and level l; a bitmap of the same size in which at most half as many modules of the data area are wrong
   as a block has error-correction code words, wherever they are, and at most three of the fifteen format modules a reader looks at;
   the other modules (finder, timing and alignment patterns, version information, the second copy of the format information) do not
   matter here.  A reader with error correction finds the text and nothing else. *)
Theorem C77_misread_modules :
  forall sjis, shift_jis_contract sjis ->
  forall text opts sched q l, NewWith sjis text opts sched = Ok q -> ~ misdetected sjis opts (text_bytes text) ->
  eff_level opts = level_code l ->
  forall bm, let n := q_dimension q in let v := (n - 17) / 4 in
  Z.of_nat (length bm) = n -> Forall (fun row => Z.of_nat (length row) = n) bm ->
  2 * misread_count n (in_data v) (m_bitmap (qMat q)) bm <= ecc_per_block v l ->
  misread_count n in_format (m_bitmap (qMat q)) bm <= 3 -> recovers_text sjis text bm.
Proof. exact dirt_recovered. Qed.

(* every block has at least seven error-correction code words *)
Lemma ecc_seven v l : valid_version v -> 7 <= ecc_per_block v l.
Proof.
  intros VV. assert (I : In v versions_1_40).
  { unfold versions_1_40. apply in_map_iff. exists (v - 1). split; [lia|]. apply in_upto. unfold valid_version in VV. lia. }
  assert (A : forallb (fun v => forallb (fun l => 7 <=? ecc_per_block v l) [L; M; Q; H]) versions_1_40 = true) by (vm_compute; reflexivity).
  rewrite forallb_forall in A. specialize (A v I). rewrite forallb_forall in A. apply Z.leb_le, A. destruct l; cbn; auto.
Qed.
Lemma misread_area n area area' a b : (forall x y, area x y = true -> area' x y = true) -> misread_count n area a b <= misread_count n area' a b.
Proof.
  intros S. unfold misread_count. apply Nat2Z.inj_le. apply NoDup_incl_length; [apply nodup_misread|]. intros [x y] I. apply in_misread in I. apply in_misread. intuition.
Qed.
Lemma made_version sjis : shift_jis_contract sjis -> forall text opts sched q, NewWith sjis text opts sched = Ok q -> valid_version ((q_dimension q - 17) / 4).
Proof.
  intros C text opts sched q HN. destruct (made_square sjis C _ _ _ _ HN) as [SQ N21]. pose proof (made_dimension sjis C _ _ _ _ HN) as N.
  unfold valid_version. split; [apply Z.div_le_lower_bound; lia|]. assert ((q_dimension q - 17) / 4 < 41) by (apply Z.div_lt_upper_bound; lia). lia.
Qed.

(* whatever the level and the version, any three modules may be wrong *)
Theorem C77_any_three_modules :
  forall sjis, shift_jis_contract sjis ->
  forall text opts sched q, NewWith sjis text opts sched = Ok q -> ~ misdetected sjis opts (text_bytes text) ->
  forall bm, let n := q_dimension q in
  Z.of_nat (length bm) = n -> Forall (fun row => Z.of_nat (length row) = n) bm ->
  misread_count n anywhere (m_bitmap (qMat q)) bm <= 3 -> recovers_text sjis text bm.
Proof.
  intros sjis C text opts sched q HN NM bm n LB FR M3. pose proof (made_version sjis C _ _ _ _ HN) as VV.
  assert (HL : exists l, eff_level opts = level_code l).
  { destruct (ProofAPI.newwith_made sjis C text opts sched q HN) as (md & pl & l & v & b & w & k & c & s & HM). exists l. exact (ProofAPI.md_level _ _ _ _ _ _ _ _ _ _ _ _ _ HM). }
  destruct HL as [l HL]. apply (C77_misread_modules sjis C text opts sched q l HN NM HL); auto.
  - pose proof (ecc_seven _ l VV). pose proof (misread_area n (in_data ((n - 17) / 4)) anywhere (m_bitmap (qMat q)) bm). specialize (H0 (fun _ _ _ => eq_refl)). unfold n in *. lia.
  - pose proof (misread_area n in_format anywhere (m_bitmap (qMat q)) bm (fun _ _ _ => eq_refl)). unfold n in *. lia.
Qed.

(* a stain: any w x h modules off the format information *)
Lemma rectangle_count n area x0 y0 w h a b : 0 <= w -> 0 <= h ->
  (forall x y, 0 <= x < n -> 0 <= y < n -> in_rectangle x0 y0 w h x y = false -> module_at a x y = module_at b x y) ->
  misread_count n area a b <= w * h.
Proof.
  intros W Hh AG. unfold misread_count. transitivity (Z.of_nat (length (list_prod (map (fun i => x0 + i) (upto w)) (map (fun i => y0 + i) (upto h))))).
  - apply Nat2Z.inj_le, NoDup_incl_length; [apply nodup_misread|]. intros [x y] I. apply in_misread in I. destruct I as (X & Y & _ & D).
    destruct (in_rectangle x0 y0 w h x y) eqn:R; [|exfalso; apply D, AG; auto].
    unfold in_rectangle in R. rewrite !andb_true_iff, !Z.leb_le, !Z.ltb_lt in R.
    apply in_prod; apply in_map_iff; [exists (x - x0)|exists (y - y0)]; rewrite in_upto; lia.
  - rewrite prod_length, !map_length, !upto_length. nia.
Qed.
Theorem C77_stain :
  forall sjis, shift_jis_contract sjis ->
  forall text opts sched q l, NewWith sjis text opts sched = Ok q -> ~ misdetected sjis opts (text_bytes text) ->
  eff_level opts = level_code l ->
  forall bm x0 y0 w h, let n := q_dimension q in
  Z.of_nat (length bm) = n -> Forall (fun row => Z.of_nat (length row) = n) bm ->
  (forall x y, 0 <= x < n -> 0 <= y < n -> in_rectangle x0 y0 w h x y = false -> module_at (m_bitmap (qMat q)) x y = module_at bm x y) ->
  0 <= w -> 0 <= h -> 2 * (w * h) <= ecc_per_block ((n - 17) / 4) l -> 9 <= x0 \/ 9 <= y0 -> recovers_text sjis text bm.
Proof.
  intros sjis C text opts sched q l HN NM HL bm x0 y0 w h n LB FR AG W Hh E OFF.
  apply (C77_misread_modules sjis C text opts sched q l HN NM HL); auto.
  - pose proof (rectangle_count n (in_data ((n - 17) / 4)) x0 y0 w h _ _ W Hh AG). unfold n in *. lia.
  - assert (misread n in_format (m_bitmap (qMat q)) bm = []) as K.
    { destruct (misread n in_format (m_bitmap (qMat q)) bm) as [|[x y] r] eqn:EM; [reflexivity|]. exfalso.
      assert (I : In (x, y) (misread n in_format (m_bitmap (qMat q)) bm)) by (rewrite EM; left; reflexivity). apply in_misread in I. destruct I as (X & Y & F & D).
      apply D, AG; auto. unfold in_format in F. apply existsb_exists in F. destruct F as ([fx fy] & I & E2). apply andb_true_iff in E2. rewrite !Z.eqb_eq in E2. destruct E2 as [-> ->].
      apply format_positions_range in I. cbn [fst snd] in I. unfold in_rectangle. rewrite !andb_false_iff, !Z.leb_gt, !Z.ltb_ge. lia. }
    unfold n in K. unfold misread_count. rewrite K. cbn. lia.
Qed.

(* ---- on a picture ---- *)
(* the sample columns (every bw pixels, from s on) that lie in w*bw consecutive pixels are w consecutive ones *)
Lemma samples_in s bw w p0 : 1 <= bw -> exists x0, (forall x, p0 <= s + x * bw < p0 + w * bw -> x0 <= x < x0 + w) /\ forall x, s + x * bw < p0 -> x < x0.
Proof.
  intros HB. exists (- ((s - p0) / bw)). pose proof (Z.div_mod (s - p0) bw ltac:(lia)). pose proof (Z.mod_pos_bound (s - p0) bw ltac:(lia)).
  set (k := (s - p0) / bw) in *. split; intros x HX; nia.
Qed.

(* The picture the standard writer saves (as in C61), then a blot of any colours over a rectangle as large as w x h modules, anywhere
   beyond the ninth row or column of modules of the symbol: the text can still be read. *)
Theorem C77_blot :
  forall sjis, shift_jis_contract sjis ->
  forall text opts sched q l, NewWith sjis text opts sched = Ok q -> ~ misdetected sjis opts (text_bytes text) ->
  eff_level opts = level_code l ->
  forall t encode decode fails others scale o old d, lossy t (o_encoder o) encode decode ->
  encodable (o_encoder o) (img_w o (q_dimension q)) (img_h o (q_dimension q)) -> (forall k, fails k = None) ->
  proper_shape (chosen_shape others o) (qrBlockWidth o) d -> 0 <= d < qrBlockWidth o ->
  o_logo o = None -> o_halftone o = None -> o_gradient o = None -> painter_colors o -> 0 <= t ->
  brightness (o_qrColor o) + 6 * t < brightness (o_bgColor o) ->
  0 <= b_left o -> 0 <= b_right o -> 0 <= b_top o -> 0 <= b_bottom o ->
  exists s' o' cv,
    Save (Some (qMat q)) (standard_writer encode fails others scale) (standard_new old, o) = ((s', o'), [EvWrite (qMat q); EvClose], Returned None) /\
    s_open s' = false /\ decode (o_content (s_file s')) = Some (img_w o (q_dimension q), img_h o (q_dimension q), cv) /\
    forall (dirty : canvas) px0 py0 w h, let bw := qrBlockWidth o in
    (forall px py, in_rectangle px0 py0 (w * bw) (h * bw) px py = false -> dirty px py = cv px py) ->
    0 <= w -> 0 <= h -> 2 * (w * h) <= ecc_per_block ((q_dimension q - 17) / 4) l ->
    b_left o + 9 * bw <= px0 \/ b_top o + 9 * bw <= py0 ->
    recovers_text sjis text (sampled (q_dimension q) (fun x y => nearer_dark o (dirty (sample_x o d x) (sample_y o d y)))).
Proof.
  intros sjis C text opts sched q l HN NM HL t encode decode fails others scale o old d DEC ENC NF PS HD EL EH EG PC T0 CT B1 B2 B3 B4.
  destruct (symbol_reads_back sjis C text opts sched q HN NM) as (SQ & N21 & _).
  destruct (shape_scan others scale _ _ o d SQ PS HD EH EG EL PC) as (cv & o' & ED & PX); auto.
  { intros _ E. rewrite E in CT. lia. }
  destruct (saved_near (within t) _ _ SQ N21 encode decode fails others scale o old cv o' DEC ENC NF B1 B2 B3 B4 ED) as (s' & cv' & A1 & A2 & A3 & A4).
  exists s', o', cv'. split; [exact A1|]. split; [exact A2|]. split; [exact A3|].
  intros dirty px0 py0 w h bw DI W Hh E OFF. pose proof (block_width_range o) as HB. fold bw in HB.
  destruct (samples_in (b_left o + d) bw w px0 ltac:(lia)) as (x0 & SX & SX'). destruct (samples_in (b_top o + d) bw h py0 ltac:(lia)) as (y0 & SY & SY').
  destruct (sampled_size (q_dimension q) (fun x y => nearer_dark o (dirty (sample_x o d x) (sample_y o d y))) ltac:(lia)) as [S1 S2].
  eapply (C77_stain sjis C text opts sched q l HN NM HL _ x0 y0 w h); auto.
  - intros x y X Y R. rewrite sampled_module by assumption.
    assert (DX : dirty (sample_x o d x) (sample_y o d y) = cv' (sample_x o d x) (sample_y o d y)).
    { apply DI. unfold in_rectangle in *. rewrite !andb_false_iff, !Z.leb_gt, !Z.ltb_ge in *. specialize (SX x). specialize (SY y). unfold sample_x, sample_y. fold bw. lia. }
    rewrite DX. destruct (sample_range o _ d x y B1 B2 B3 B4 HD X Y) as [RX RY]. specialize (A4 _ _ RX RY). specialize (PX x y X Y). symmetry.
    destruct (module_at (m_bitmap (qMat q)) x y).
    + rewrite PX in A4. eapply within_dark; eauto.
    + eapply within_light; eauto. eapply light_within; eauto.
  - fold bw in HD. destruct OFF as [OFF|OFF]; [left; specialize (SX' 8)|right; specialize (SY' 8)]; lia.
Qed.

(* ---- the hypotheses can be met: HELLO, with a stain of two modules; the bound is not idle: at level L a block may lose three words, at H eight ---- *)
Example C77_example :
  (exists q, NewWith sample_sjis hello [] fair_schedule = Ok q) /\ ~ misdetected sample_sjis [] (text_bytes hello) /\
  (forall q, NewWith sample_sjis hello [] fair_schedule = Ok q ->
     forall bm, Z.of_nat (length bm) = q_dimension q -> Forall (fun row => Z.of_nat (length row) = q_dimension q) bm ->
     (forall x y, 0 <= x < q_dimension q -> 0 <= y < q_dimension q -> in_rectangle 12 10 2 1 x y = false -> module_at (m_bitmap (qMat q)) x y = module_at bm x y) ->
     recovers_text sample_sjis hello bm).
Proof.
  destruct PropsLossy.C61_example as (E1 & E2 & _). split; [exact E1|]. split; [exact E2|]. intros q HN bm LB FR AG.
  pose proof (made_version sample_sjis sample_contract _ _ _ _ HN) as VV.
  apply (C77_stain sample_sjis sample_contract hello [] fair_schedule q Q HN E2 eq_refl bm 12 10 2 1 LB FR AG); try lia.
  eapply Z.le_trans; [|exact (ecc_seven _ Q VV)]. lia.
Qed.
Print Assumptions C77_misread_modules.
Print Assumptions C77_any_three_modules.
Print Assumptions C77_stain.
Print Assumptions C77_blot.
