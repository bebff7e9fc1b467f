(* C62: a logo in the middle of the symbol. *)
From Coq Require Import Lia.
From Verif Require Import ModelBase ModelMatrix ModelQRCode ModelSave ModelCompressed ModelStandard ModelWriters ModelShapes.
From Verif Require Import SpecIso SpecReader SpecSegment SpecRecovery SpecAPI SpecMatrix SpecStandard SpecMedium SpecShape SpecShapes SpecLogo Samples.
From Verif Require Import ProofBase ProofMatrix ProofEval ProofViews ProofStandard ProofMedium ProofShape ProofLogo.
From Verif Require Import PropsShape PropsShapes PropsLossy.
From Verif Require PropsSaved PropsSymbol PropsStandard.

(* Whatever happens to the modules in the middle fifth (of the width and of the height) of a symbol of level Medium or higher, at
   Quart and Highest to those in a slightly larger square, a reader with error correction returns the text and nothing else. *)
Theorem C62_middle_may_be_lost :
  forall sjis, shift_jis_contract sjis ->
  forall text opts sched q l z, NewWith sjis text opts sched = Ok q -> ~ misdetected sjis opts (text_bytes text) ->
  eff_level opts = level_code l -> may_lose l z ->
  forall bm, Z.of_nat (length bm) = q_dimension q -> Forall (fun row => Z.of_nat (length row) = q_dimension q) bm ->
  agree_outside (q_dimension q) z (m_bitmap (qMat q)) bm -> recovers_text sjis text bm.
Proof. exact middle_recovered. Qed.

(* Save with an image encoder, in general: the picture that was drawn arrives, up to what the format loses *)
Lemma saved_near (near : rgba -> rgba -> Prop) n m : square n m -> 21 <= n ->
  forall encode decode fails others scale o old cv o', keeps near (o_encoder o) encode decode ->
  encodable (o_encoder o) (img_w o n) (img_h o n) -> (forall k, fails k = None) ->
  0 <= b_left o -> 0 <= b_right o -> 0 <= b_top o -> 0 <= b_bottom o ->
  draw others scale m o = Some (Z.abs (img_w o n), Z.abs (img_h o n), cv, o') ->
  exists s' cv',
    Save (Some m) (standard_writer encode fails others scale) (standard_new old, o) = ((s', o'), [EvWrite m; EvClose], Returned None) /\
    s_open s' = false /\ decode (o_content (s_file s')) = Some (img_w o n, img_h o n, cv') /\
    forall px py, 0 <= px < img_w o n -> 0 <= py < img_h o n -> near (cv px py) (cv' px py).
Proof.
  intros SQ N21 encode decode fails others scale o old cv o' DEC ENC NF B1 B2 B3 B4 ED.
  assert (IW : 0 <= img_w o n) by (unfold img_w; pose proof (block_width_range o); nia).
  assert (IH : 0 <= img_h o n) by (unfold img_h; pose proof (block_width_range o); nia).
  rewrite !Z.abs_eq in ED by assumption.
  destruct (sink_all fails NF (encode (o_encoder o') (img_w o n, img_h o n, cv)) (standard_open old) 0) as [calls EW].
  rewrite <- (draw_encoder _ _ _ _ _ _ _ _ _ SQ ED) in DEC, ENC. destruct (DEC (img_w o n) (img_h o n) cv ENC) as (cv' & D1 & D2).
  eexists _, cv'. split; [|split; [|split]].
  - unfold Save, standard_writer, standard_new. cbn [wr_write wr_close]. rewrite ED, (encodable_ok _ _ _ ENC), EW. reflexivity.
  - reflexivity.
  - cbn [s_file]. change (standard_open old) with (compressed_open None).
    rewrite (PropsCompressed.C35_file_content_partial None). rewrite skipn_nil, app_nil_r. apply D1.
  - exact D2.
Qed.

(* one direction: a logo of lw pixels, at most a fifth of the width of the picture, in the middle, between borders of b pixels *)
Lemma touched_middle n z bw b lw x p : 1 <= bw -> 0 <= n -> 0 <= b <= z * bw -> 0 < lw -> 5 * lw <= n * bw + b + b ->
  b + x * bw <= p < b + x * bw + bw -> Z.quot (n * bw + b + b - lw) 2 <= p < Z.quot (n * bw + b + b - lw) 2 + lw -> middle n z x.
Proof.
  intros HB HN Hb HL HF HX HP. assert (0 <= n * bw) by nia. rewrite Z.quot_div_nonneg in HP by lia.
  set (w := n * bw + b + b - lw) in *. pose proof (Z.div_mod w 2 ltac:(lia)). pose proof (Z.mod_pos_bound w 2 ltac:(lia)).
  assert (A1 : 2 * (n * bw) - b < 5 * (x * bw + bw)) by lia. assert (A2 : 5 * (x * bw) < 3 * (n * bw) + b) by lia.
  unfold middle. split; nia.
Qed.

(* what the theorems below ask of the options: the multiplier of WithLogoSizeMultiplier is at least 5 (the default), and borders are
   the same on opposite sides and at most z modules wide *)
Definition logo_options (o : options) (z : Z) : Prop :=
  5 <= o_multiplier o /\ b_left o = b_right o /\ b_top o = b_bottom o /\
  0 <= b_left o <= z * qrBlockWidth o /\ 0 <= b_top o <= z * qrBlockWidth o /\
  forall i, o_logo o = Some i -> i_x0 i = 0 /\ i_y0 i = 0 /\ 0 < i_x1 i /\ 0 < i_y1 i.

Lemma logo_middle o z n i x y px py : logo_options o z -> 0 <= n -> o_logo o = Some i -> logo_fits o (img_w o n) (img_h o n) i ->
  in_module o x y px py -> in_logo (img_w o n) (img_h o n) i px py -> middle n z x /\ middle n z y.
Proof.
  intros (M5 & LR & TB & BL & BT & LG) HN EL [F1 F2] IM [I1 I2]. destruct (LG i EL) as (X0 & Y0 & X1 & Y1).
  pose proof (block_width_range o) as HB. unfold img_w, img_h, logo_left, logo_top, in_module in *. rewrite <- LR, <- TB in *. rewrite X0, Y0, !Z.sub_0_r in *.
  split; [eapply (touched_middle n z (qrBlockWidth o) (b_left o) (i_x1 i) x px)|eapply (touched_middle n z (qrBlockWidth o) (b_top o) (i_y1 i) y py)]; try lia; nia.
Qed.

Lemma sampled_size n f : 0 <= n -> Z.of_nat (length (sampled n f)) = n /\ Forall (fun row => Z.of_nat (length row) = n) (sampled n f).
Proof.
  intros HN. unfold sampled. rewrite zseq_upto. split; [rewrite map_length, upto_length; lia|]. apply Forall_forall. intros row I.
  apply in_map_iff in I. destruct I as (y & <- & _). rewrite map_length, upto_length. lia.
Qed.
Lemma sampled_module n f x y : 0 <= x < n -> 0 <= y < n -> module_at (sampled n f) x y = f x y.
Proof. intros X Y. unfold module_at, sampled. rewrite zseq_upto. rewrite nth_upto_map by exact Y. rewrite nth_upto_map by exact X. reflexivity. Qed.

Lemma sample_in_module o d x y : 0 <= d < qrBlockWidth o -> in_module o x y (sample_x o d x) (sample_y o d y).
Proof. intros HD. unfold in_module, sample_x, sample_y. lia. Qed.

Lemma logo_saved (dark_pixel : rgba -> bool) (near : rgba -> rgba -> Prop) sjis : shift_jis_contract sjis ->
  forall text opts sched q l z, NewWith sjis text opts sched = Ok q -> ~ misdetected sjis opts (text_bytes text) ->
  eff_level opts = level_code l -> may_lose l z ->
  forall encode decode fails others scale o old d cv o', keeps near (o_encoder o) encode decode ->
  encodable (o_encoder o) (img_w o (q_dimension q)) (img_h o (q_dimension q)) -> (forall k, fails k = None) ->
  logo_options o z -> 0 <= d < qrBlockWidth o ->
  draw others scale (qMat q) o = Some (Z.abs (img_w o (q_dimension q)), Z.abs (img_h o (q_dimension q)), cv, o') ->
  (forall x y, 0 <= x < q_dimension q -> 0 <= y < q_dimension q ->
     ~ (middle (q_dimension q) z x /\ middle (q_dimension q) z y) ->
     forall c, near (cv (sample_x o d x) (sample_y o d y)) c -> dark_pixel c = module_at (m_bitmap (qMat q)) x y) ->
  exists s' cv',
    Save (Some (qMat q)) (standard_writer encode fails others scale) (standard_new old, o) = ((s', o'), [EvWrite (qMat q); EvClose], Returned None) /\
    s_open s' = false /\ decode (o_content (s_file s')) = Some (img_w o (q_dimension q), img_h o (q_dimension q), cv') /\
    recovers_text sjis text (sampled (q_dimension q) (fun x y => dark_pixel (cv' (sample_x o d x) (sample_y o d y)))).
Proof.
  intros C text opts sched q l z HN NM HL ML encode decode fails others scale o old d cv o' DEC ENC NF LO HD ED PX.
  destruct (symbol_reads_back sjis C text opts sched q HN NM) as (SQ & N21 & _).
  pose proof LO as (_ & LR & TB & BL & BT & _).
  assert (B1 : 0 <= b_left o) by lia. assert (B2 : 0 <= b_right o) by lia. assert (B3 : 0 <= b_top o) by lia. assert (B4 : 0 <= b_bottom o) by lia.
  destruct (saved_near near _ _ SQ N21 encode decode fails others scale o old cv o' DEC ENC NF B1 B2 B3 B4 ED) as (s' & cv' & A1 & A2 & A3 & A4).
  exists s', cv'. split; [exact A1|]. split; [exact A2|]. split; [exact A3|].
  destruct (sampled_size (q_dimension q) (fun x y => dark_pixel (cv' (sample_x o d x) (sample_y o d y))) ltac:(lia)) as [S1 S2].
  eapply middle_recovered; eauto. intros x y X Y NZ. rewrite sampled_module by assumption. symmetry. apply PX; auto.
  destruct (sample_range o _ d x y B1 B2 B3 B4 HD X Y) as [RX RY]. apply A4; assumption.
Qed.

(* outside the middle, neither the logo nor its safe zone has a part of any module *)
Lemma clear_of_logo o z n d x y : logo_options o z -> 0 <= n -> 0 <= d < qrBlockWidth o -> ~ (middle n z x /\ middle n z y) ->
  (forall i, o_logo o = Some i -> logo_fits o (img_w o n) (img_h o n) i -> ~ in_logo (img_w o n) (img_h o n) i (sample_x o d x) (sample_y o d y)) /\
  ~ in_safe_zone o (img_w o n) (img_h o n) x y.
Proof.
  intros LO HN HD NZ. split.
  - intros i EL LF IL. apply NZ. eapply logo_middle; eauto. apply sample_in_module, HD.
  - intros (_ & i & EL & LF & px & py & IM & IL). apply NZ. eapply logo_middle; eauto.
Qed.

(* what is drawn outside the middle is the symbol: any shape that keeps to its box, any logo (of any colours), with or without safe zone *)
Lemma drawn_outside others scale n m o d z : square n m -> 0 <= n -> proper_shape (chosen_shape others o) (qrBlockWidth o) d -> 0 <= d < qrBlockWidth o ->
  o_halftone o = None -> o_gradient o = None -> painter_colors o -> logo_options o z ->
  exists cv o', draw others scale m o = Some (Z.abs (img_w o n), Z.abs (img_h o n), cv, o') /\
    forall x y, 0 <= x < n -> 0 <= y < n -> ~ (middle n z x /\ middle n z y) ->
    if module_at (m_bitmap m) x y then cv (sample_x o d x) (sample_y o d y) = o_qrColor o else is_light o (cv (sample_x o d x) (sample_y o d y)).
Proof.
  intros SQ HN PS HD EH EG PC LO. pose proof LO as (M5 & LR & TB & BL & BT & LG).
  assert (PL : proper_logo o) by (intros i EL; destruct (LG i EL) as (-> & -> & ? & ?); lia).
  destruct (C56_any_proper_shape others scale n m o d SQ PS HD EH EG PC PL) as (cv & o' & E & P); [intros i EL; destruct (LG i EL) as (-> & -> & _); auto|].
  exists cv, o'. split; [exact E|]. intros x y X Y NZ. destruct (clear_of_logo o z n d x y LO HN HD NZ) as [NL NS].
  destruct (sample_range o n d x y) as [RX RY]; auto; try lia.
  destruct (P _ _ RX RY NL) as [P1 _]. destruct (P1 x y X Y eq_refl eq_refl) as [D1 D2].
  destruct (module_at (m_bitmap m) x y); auto.
Qed.

Lemma contrast_samples o (cv : canvas) d x y (b : bool) : painter_colors o -> (o_bgTransparent o = false -> o_bgColor o <> o_qrColor o) ->
  (if b then cv (sample_x o d x) (sample_y o d y) = o_qrColor o else is_light o (cv (sample_x o d x) (sample_y o d y))) ->
  rgba_eqb (cv (sample_x o d x) (sample_y o d y)) (o_qrColor o) = b.
Proof. intros PC DIFF P. destruct b; [apply eqb_fg; exact P|]. apply light_not_fg; auto. Qed.

(* A lossless format.  A logo of at most a fifth of the picture (what the writer accepts by default), with borders that count for
   little: the saved picture still gives the text, whatever is in the logo. *)
Theorem C62_logo_readable :
  forall sjis, shift_jis_contract sjis ->
  forall text opts sched q l z, NewWith sjis text opts sched = Ok q -> ~ misdetected sjis opts (text_bytes text) ->
  eff_level opts = level_code l -> may_lose l z ->
  forall encode decode fails others scale o old d, lossless (o_encoder o) encode decode ->
  encodable (o_encoder o) (img_w o (q_dimension q)) (img_h o (q_dimension q)) -> (forall k, fails k = None) ->
  logo_options o z -> proper_shape (chosen_shape others o) (qrBlockWidth o) d -> 0 <= d < qrBlockWidth o ->
  o_halftone o = None -> o_gradient o = None -> painter_colors o -> (o_bgTransparent o = false -> o_bgColor o <> o_qrColor o) ->
  exists s' o' cv,
    Save (Some (qMat q)) (standard_writer encode fails others scale) (standard_new old, o) = ((s', o'), [EvWrite (qMat q); EvClose], Returned None) /\
    s_open s' = false /\ decode (o_content (s_file s')) = Some (img_w o (q_dimension q), img_h o (q_dimension q), cv) /\
    recovers_text sjis text (scan_at d cv o (q_dimension q)).
Proof.
  intros sjis C text opts sched q l z HN NM HL ML encode decode fails others scale o old d DEC ENC NF LO PS HD EH EG PC DIFF.
  destruct (symbol_reads_back sjis C text opts sched q HN NM) as (SQ & N21 & _).
  destruct (drawn_outside others scale _ _ o d z SQ ltac:(lia) PS HD EH EG PC LO) as (cv & o' & ED & PX).
  destruct (logo_saved (fun c => rgba_eqb c (o_qrColor o)) eq sjis C text opts sched q l z HN NM HL ML encode decode fails others scale o old d cv o' DEC ENC NF LO HD ED) as (s' & cv' & A).
  - intros x y X Y NZ c <-. apply (contrast_samples o cv d x y _ PC DIFF). exact (PX x y X Y NZ).
  - exists s', o', cv'. exact A.
Qed.

(* A lossy format *)
Theorem C62_logo_readable_lossy :
  forall sjis, shift_jis_contract sjis ->
  forall text opts sched q l z, NewWith sjis text opts sched = Ok q -> ~ misdetected sjis opts (text_bytes text) ->
  eff_level opts = level_code l -> may_lose l z ->
  forall t encode decode fails others scale o old d, lossy t (o_encoder o) encode decode ->
  encodable (o_encoder o) (img_w o (q_dimension q)) (img_h o (q_dimension q)) -> (forall k, fails k = None) ->
  logo_options o z -> proper_shape (chosen_shape others o) (qrBlockWidth o) d -> 0 <= d < qrBlockWidth o ->
  o_halftone o = None -> o_gradient o = None -> painter_colors o ->
  brightness (o_qrColor o) + 6 * t < brightness (o_bgColor o) ->
  exists s' o' cv,
    Save (Some (qMat q)) (standard_writer encode fails others scale) (standard_new old, o) = ((s', o'), [EvWrite (qMat q); EvClose], Returned None) /\
    s_open s' = false /\ decode (o_content (s_file s')) = Some (img_w o (q_dimension q), img_h o (q_dimension q), cv) /\
    recovers_text sjis text (sampled (q_dimension q) (fun x y => nearer_dark o (cv (sample_x o d x) (sample_y o d y)))).
Proof.
  intros sjis C text opts sched q l z HN NM HL ML t encode decode fails others scale o old d DEC ENC NF LO PS HD EH EG PC CT.
  destruct (symbol_reads_back sjis C text opts sched q HN NM) as (SQ & N21 & _).
  destruct (drawn_outside others scale _ _ o d z SQ ltac:(lia) PS HD EH EG PC LO) as (cv & o' & ED & PX).
  destruct (logo_saved (nearer_dark o) (within t) sjis C text opts sched q l z HN NM HL ML encode decode fails others scale o old d cv o' DEC ENC NF LO HD ED) as (s' & cv' & A).
  - intros x y X Y NZ c NC. specialize (PX x y X Y NZ). destruct (module_at (m_bitmap (qMat q)) x y).
    + rewrite PX in NC. eapply within_dark; eauto.
    + eapply within_light; eauto. eapply light_within; eauto.
  - exists s', o', cv'. exact A.
Qed.

(* The shapes package (C60), without safe zone *)
Theorem C62_logo_readable_linking_shapes :
  forall sjis, shift_jis_contract sjis ->
  forall text opts sched q l z, NewWith sjis text opts sched = Ok q -> ~ misdetected sjis opts (text_bytes text) ->
  eff_level opts = level_code l -> may_lose l z ->
  forall encode decode fails others scale o old d, lossless (o_encoder o) encode decode ->
  encodable (o_encoder o) (img_w o (q_dimension q)) (img_h o (q_dimension q)) -> (forall k, fails k = None) ->
  logo_options o z -> linking_shape (chosen_shape others o) (qrBlockWidth o) d -> 0 <= d < qrBlockWidth o ->
  o_halftone o = None -> o_gradient o = None -> o_safeZone o = false -> painter_colors o -> (o_bgTransparent o = false -> o_bgColor o <> o_qrColor o) ->
  exists s' o' cv,
    Save (Some (qMat q)) (standard_writer encode fails others scale) (standard_new old, o) = ((s', o'), [EvWrite (qMat q); EvClose], Returned None) /\
    s_open s' = false /\ decode (o_content (s_file s')) = Some (img_w o (q_dimension q), img_h o (q_dimension q), cv) /\
    recovers_text sjis text (scan_at d cv o (q_dimension q)).
Proof.
  intros sjis C text opts sched q l z HN NM HL ML encode decode fails others scale o old d DEC ENC NF LO LS HD EH EG ES PC DIFF.
  destruct (symbol_reads_back sjis C text opts sched q HN NM) as (SQ & N21 & _).
  pose proof LO as (M5 & LR & TB & BL & BT & LG).
  destruct (C60_any_linking_shape others scale _ _ o d SQ LS HD EH EG ES PC) as (cv & o' & ED & PX); try lia; [intros i EL; destruct (LG i EL) as (-> & -> & _); auto|].
  destruct (logo_saved (fun c => rgba_eqb c (o_qrColor o)) eq sjis C text opts sched q l z HN NM HL ML encode decode fails others scale o old d cv o' DEC ENC NF LO HD ED) as (s' & cv' & A).
  - intros x y X Y NZ c <-. apply (contrast_samples o cv d x y); auto. apply PX; auto. apply (clear_of_logo o z (q_dimension q) d x y LO); auto; lia.
  - exists s', o', cv'. exact A.
Qed.

(* Everything by default (level Quart, blocks of 20 pixels, borders of 40, black on white, JPEG, multiplier 5) with any logo whose
   bounds start at the origin, with or without safe zone: the writer draws the logo if it is not too large, and the text is recovered
   in any case. *)
Theorem C62_default_logo :
  forall sjis, shift_jis_contract sjis ->
  forall text opts sched q, NewWith sjis text opts sched = Ok q -> ~ misdetected sjis opts (text_bytes text) ->
  eff_level opts = level_code Q ->
  forall encode decode fails others scale old i w h pix safe o, lossy 127 JpegEncoder encode decode -> (forall k, fails k = None) ->
  0 < w -> 0 < h -> i = mkImage 0 0 w h pix ->
  NewWithWriter (fun _ => None) (WithLogoImage (Some i) :: if safe : bool then [WithLogoSafeZone] else []) = Some o ->
  exists s' o' cv side,
    Save (Some (qMat q)) (standard_writer encode fails others scale) (standard_new old, o) = ((s', o'), [EvWrite (qMat q); EvClose], Returned None) /\
    s_open s' = false /\ side = 20 * q_dimension q + 80 /\ decode (o_content (s_file s')) = Some (side, side, cv) /\
    recovers_text sjis text (sampled (q_dimension q) (fun x y => let c := cv (40 + x * 20 + 10) (40 + y * 20 + 10) in 2 * (c_r c + c_g c + c_b c) <? 765)).
Proof.
  intros sjis C text opts sched q HN NM HL encode decode fails others scale old i w h pix safe o DEC NF HW HH -> HO.
  pose proof (made_dimension sjis C _ _ _ _ HN) as N. destruct (made_square sjis C _ _ _ _ HN) as [SQ N21].
  assert (EO : o = (if safe then set_safeZone else fun o => o) (set_logo (Some (mkImage 0 0 w h pix)) defaultOptions)) by (destruct safe; cbv in HO |- *; congruence).
  assert (EW : img_w o (q_dimension q) = 20 * q_dimension q + 80).
  { unfold img_w. replace (qrBlockWidth o) with 20 by (rewrite EO; destruct safe; reflexivity). replace (b_left o) with 40 by (rewrite EO; destruct safe; reflexivity).
    replace (b_right o) with 40 by (rewrite EO; destruct safe; reflexivity). lia. }
  assert (EHt : img_h o (q_dimension q) = 20 * q_dimension q + 80).
  { unfold img_h. replace (qrBlockWidth o) with 20 by (rewrite EO; destruct safe; reflexivity). replace (b_top o) with 40 by (rewrite EO; destruct safe; reflexivity).
    replace (b_bottom o) with 40 by (rewrite EO; destruct safe; reflexivity). lia. }
  destruct (C62_logo_readable_lossy sjis C text opts sched q Q 2 HN NM HL ltac:(cbn; lia) 127 encode decode fails others scale o old 10) as (s' & o' & cv & A1 & A2 & A3 & A4).
  - rewrite EO. destruct safe; exact DEC.
  - rewrite EW, EHt. replace (o_encoder o) with JpegEncoder by (rewrite EO; destruct safe; reflexivity). cbn [encodable]. lia.
  - exact NF.
  - rewrite EO. destruct safe; unfold logo_options; (split; [cbn; lia|]); (split; [reflexivity|]); (split; [reflexivity|]); (split; [cbn; lia|]); (split; [cbn; lia|]); intros j F; injection F as <-; cbn [i_x0 i_y0 i_x1 i_y1]; auto.
  - rewrite EO. destruct safe; apply rectangle_proper; cbn; lia.
  - rewrite EO. destruct safe; cbn; lia.
  - rewrite EO. destruct safe; reflexivity.
  - rewrite EO. destruct safe; reflexivity.
  - rewrite EO. destruct safe; cbv; intuition congruence.
  - rewrite EO. destruct safe; reflexivity.
  - rewrite EW, EHt in A3. exists s', o', cv, (20 * q_dimension q + 80). split; [exact A1|]. split; [exact A2|]. split; [reflexivity|]. split; [exact A3|].
    rewrite EO in A4. destruct safe; exact A4.
Qed.

(* The check on the size of the logo counts the borders.  With wide borders a logo that passes it may hide the whole symbol: all
   symbols of version 1 then look the same. *)
Definition white_square (w : Z) : image := mkImage 0 0 w w (fun _ _ => color_WHITE).
Theorem C62_wide_borders_refuted :
  exists o, NewWithWriter (fun _ => None) [WithLogoImage (Some (white_square 420)); WithBorderWidth [1000]] = Some o /\ o_multiplier o = 5 /\
  forall others scale m m', square 21 m -> square 21 m' ->
  exists w h cv cv' o' o'', draw others scale m o = Some (w, h, cv, o') /\ draw others scale m' o = Some (w, h, cv', o'') /\
    forall px py, 0 <= px < w -> 0 <= py < h -> cv px py = color_WHITE /\ cv' px py = color_WHITE.
Proof.
  eexists. split; [reflexivity|]. split; [reflexivity|]. set (o := set_borders _ _). intros others scale.
  assert (ONE : forall m, square 21 m -> exists cv o', draw others scale m o = Some (2420, 2420, cv, o') /\ forall px py, 0 <= px < 2420 -> 0 <= py < 2420 -> cv px py = color_WHITE).
  { intros m SQ. destruct (PropsStandard.C39_pixels others scale 21 m o SQ eq_refl eq_refl eq_refl) as (cv & o' & E & P).
    - cbv; intuition congruence.
    - reflexivity.
    - intros i F. injection F as <-. cbn. lia.
    - intros i F. injection F as <-. cbn. lia.
    - exists cv, o'. split; [exact E|]. intros px py X Y. destruct (P px py X Y) as (c & P1 & P2 & P3 & P4 & P5).
      assert (D : in_symbol o 21 px py \/ ~ in_symbol o 21 px py) by (unfold in_symbol; cbn; lia). destruct D as [D|D].
      + rewrite (P4 (white_square 420)); [|reflexivity|unfold logo_fits; cbn; lia|].
        * apply PropsStandard.C39_opaque_logo_pixel; [|cbv; intuition congruence].
          assert (G : c = o_qrColor o \/ c = o_bgColor o).
          { set (x := (px - 1000) / 20). set (y := (py - 1000) / 20).
            unfold in_symbol in D. change (b_left o) with 1000 in D. change (b_top o) with 1000 in D. change (qrBlockWidth o) with 20 in D.
            pose proof (Z.div_mod (px - 1000) 20 ltac:(lia)). pose proof (Z.mod_pos_bound (px - 1000) 20 ltac:(lia)).
            pose proof (Z.div_mod (py - 1000) 20 ltac:(lia)). pose proof (Z.mod_pos_bound (py - 1000) 20 ltac:(lia)).
            fold x in H. fold y in H1.
            assert (IM : in_module o x y px py) by (unfold in_module; change (b_left o) with 1000; change (b_top o) with 1000; change (qrBlockWidth o) with 20; lia).
            destruct (module_at (m_bitmap m) x y) eqn:EM.
            - left. apply (P1 x y); [lia|lia|exact IM|exact EM|]. intros (F & _). discriminate F.
            - right. apply (P2 x y); [lia|lia|exact IM|]. left. exact EM. }
          destruct G as [-> | ->]; cbv; intuition congruence.
        * unfold in_symbol in D. unfold in_logo. change (b_left o) with 1000 in D. change (b_top o) with 1000 in D. change (qrBlockWidth o) with 20 in D.
          change (logo_left (img_w o 21) (white_square 420)) with 1000. change (logo_top (img_h o 21) (white_square 420)) with 1000. cbn [white_square i_x0 i_x1 i_y0 i_y1]. lia.
      + rewrite P5; [apply P3, D|]. intros i F LF [I1 I2]. injection F as <-. apply D. unfold in_symbol.
        change (b_left o) with 1000. change (b_top o) with 1000. change (qrBlockWidth o) with 20.
        change (logo_left (img_w o 21) (white_square 420)) with 1000 in I1. change (logo_top (img_h o 21) (white_square 420)) with 1000 in I2. cbn [white_square i_x0 i_x1 i_y0 i_y1] in I1, I2. lia. }
  intros m m' SQ SQ'. destruct (ONE m SQ) as (cv & o' & E & P). destruct (ONE m' SQ') as (cv' & o'' & E' & P').
  exists 2420, 2420, cv, cv', o', o''. split; [exact E|]. split; [exact E'|]. intros px py X Y. auto.
Qed.

(* the hypotheses are met: hello with the default options, a red logo of 100 x 100 pixels that is really drawn, a coder that loses nothing *)
Example C62_example :
  (exists q, NewWith sample_sjis hello [] fair_schedule = Ok q) /\ ~ misdetected sample_sjis [] (text_bytes hello) /\ eff_level [] = level_code Q /\
  (exists o, NewWithWriter (fun _ => None) [WithLogoImage (Some (mkImage 0 0 100 100 (fun _ _ => mkRGBA 255 0 0 255)))] = Some o /\ logo_options o 2 /\
     logo_fits o (img_w o 21) (img_h o 21) (mkImage 0 0 100 100 (fun _ _ => mkRGBA 255 0 0 255)) /\ middle 21 2 10 /\ ~ middle 21 2 7 /\ middle 21 2 8) /\
  (exists encode decode, lossy 127 JpegEncoder encode decode).
Proof.
  split; [apply PropsSymbol.symbol_example|]. split; [apply PropsSymbol.symbol_example|]. split; [reflexivity|]. split.
  - eexists. split; [reflexivity|]. split; [|unfold logo_fits, middle; cbn; lia].
    unfold logo_options; (split; [cbn; lia|]); (split; [reflexivity|]); (split; [reflexivity|]); (split; [cbn; lia|]); (split; [cbn; lia|]).
    intros j F. injection F as <-. cbn. lia.
  - destruct C61_example as (_ & _ & X). exact X.
Qed.
Print Assumptions C62_middle_may_be_lost.
Print Assumptions C62_logo_readable.
Print Assumptions C62_logo_readable_lossy.
Print Assumptions C62_logo_readable_linking_shapes.
Print Assumptions C62_default_logo.
Print Assumptions C62_wide_borders_refuted.
