(* C91: what a symbol, and a logo of any size, may hide. *)
From Coq Require Import Lia.
From Verif Require Import ModelBase ModelMatrix ModelQRCode ModelSave ModelCompressed ModelStandard ModelWriters ModelShapes ModelExamples.
From Verif Require Import SpecIso SpecReader SpecSegment SpecRecovery SpecAPI SpecMatrix SpecStandard SpecMedium SpecShape SpecCombine SpecLogo SpecHidden SpecLocate Samples.
From Verif Require Import ProofBase ProofMatrix ProofLayout ProofBuild ProofAPI ProofNew ProofStandard ProofMedium ProofShape ProofLogo ProofCombine ProofExamples ProofHidden.
From Verif Require PropsShape PropsLogo PropsCombine PropsLossy.

(* Any modules may be hidden, as long as error correction makes up for them: the reader gets the text and nothing else. *)
Theorem C91_hidden_modules :
  forall sjis, shift_jis_contract sjis ->
  forall text opts sched q l v hid, NewWith sjis text opts sched = Ok q -> ~ misdetected sjis opts (text_bytes text) ->
  eff_level opts = level_code l -> q_dimension q = side v -> correctable v l hid ->
  forall bm, Z.of_nat (length bm) = q_dimension q -> Forall (fun row => Z.of_nat (length row) = q_dimension q) bm ->
  (forall x y, 0 <= x < q_dimension q -> 0 <= y < q_dimension q -> hid x y = false -> module_at bm x y = module_at (m_bitmap (qMat q)) x y) ->
  recovers_text sjis text bm.
Proof.
  intros sjis C text opts sched q l v hid HN NM HL HD CO bm LB FR AG.
  apply (hidden_recovered sjis C text opts sched q l v hid HN NM HL HD (correctable_harmless v l hid (made_version sjis C _ _ _ _ _ HN HD) CO) bm LB FR).
  intros x y X Y F. symmetry. apply AG; assumption.
Qed.

(* Any logo, of any size, anywhere its bounds put it (they need not start at the origin), in a picture of any style: if error correction makes up for the modules
   whose sampled pixel it covers and for those its safe zone takes, the saved picture gives the text and nothing else. *)
Theorem C91_any_logo :
  forall sjis, shift_jis_contract sjis ->
  forall text opts sched q l v hid, NewWith sjis text opts sched = Ok q -> ~ misdetected sjis opts (text_bytes text) ->
  eff_level opts = level_code l -> q_dimension q = side v -> correctable v l hid ->
  forall (near : rgba -> rgba -> Prop) encode decode fails others scale o old d dark_pixel, keeps near (o_encoder o) encode decode ->
  encodable (o_encoder o) (img_w o (q_dimension q)) (img_h o (q_dimension q)) -> (forall k, fails k = None) ->
  readable_style others o d -> painter_colors o -> (o_gradient o <> None -> o_bgTransparent o = false -> o_bgColor o <> o_qrColor o) ->
  (forall px py, 0 <= px < img_w o (q_dimension q) -> 0 <= py < img_h o (q_dimension q) -> opaque (ink o px py)) ->
  tells_apart near o (img_w o (q_dimension q)) (img_h o (q_dimension q)) dark_pixel ->
  proper_logo o ->
  0 <= b_left o -> 0 <= b_right o -> 0 <= b_top o -> 0 <= b_bottom o ->
  (forall x y, 0 <= x < q_dimension q -> 0 <= y < q_dimension q -> logo_hides o (q_dimension q) d x y -> hid x y = true) ->
  exists s' o' cv,
    Save (Some (qMat q)) (standard_writer encode fails others scale) (standard_new old, o) = ((s', o'), [EvWrite (qMat q); EvClose], Returned None) /\
    s_open s' = false /\ decode (o_content (s_file s')) = Some (img_w o (q_dimension q), img_h o (q_dimension q), cv) /\
    recovers_text sjis text (sampled (q_dimension q) (fun x y => dark_pixel (cv (sample_x o d x) (sample_y o d y)))).
Proof.
  intros sjis C text opts sched q l v hid HN NM HL HD CO near encode decode fails others scale o old d dk DEC ENC NF ST PC DIFF OP TA LG B1 B2 B3 B4 HID.
  apply (hidden_saved sjis C text opts sched q l v hid HN NM HL HD (correctable_harmless v l hid (made_version sjis C _ _ _ _ _ HN HD) CO) near encode decode); try assumption.
  apply visible_outside; assumption.
Qed.

(* The sizes.  With borders of up to two modules, the same on opposite sides, every logo that the multiplier lets through (whatever is in
   it, whatever its shape, with or without safe zone) leaves the text readable, if the multiplier is at least: at Low 10 (7 from version 3
   on), at Medium 6 (5 without borders, and but for versions 2 and 4), at Quart 5 (4 from version 3 on), at Highest 5 (4 from version 3 on,
   3 from version 4 on but for 13). *)
Theorem C91_logo_sizes :
  forall sjis, shift_jis_contract sjis ->
  forall text opts sched q l v z, NewWith sjis text opts sched = Ok q -> ~ misdetected sjis opts (text_bytes text) ->
  eff_level opts = level_code l -> q_dimension q = side v ->
  forall (near : rgba -> rgba -> Prop) encode decode fails others scale o old d dark_pixel, keeps near (o_encoder o) encode decode ->
  encodable (o_encoder o) (img_w o (q_dimension q)) (img_h o (q_dimension q)) -> (forall k, fails k = None) ->
  readable_style others o d -> painter_colors o -> (o_gradient o <> None -> o_bgTransparent o = false -> o_bgColor o <> o_qrColor o) ->
  (forall px py, 0 <= px < img_w o (q_dimension q) -> 0 <= py < img_h o (q_dimension q) -> opaque (ink o px py)) ->
  tells_apart near o (img_w o (q_dimension q)) (img_h o (q_dimension q)) dark_pixel ->
  (forall i, o_logo o = Some i -> i_x0 i = 0 /\ i_y0 i = 0 /\ 0 < i_x1 i /\ 0 < i_y1 i) ->
  0 <= z <= 2 -> even_borders o z -> small_enough l v z (o_multiplier o) ->
  exists s' o' cv,
    Save (Some (qMat q)) (standard_writer encode fails others scale) (standard_new old, o) = ((s', o'), [EvWrite (qMat q); EvClose], Returned None) /\
    s_open s' = false /\ decode (o_content (s_file s')) = Some (img_w o (q_dimension q), img_h o (q_dimension q), cv) /\
    recovers_text sjis text (sampled (q_dimension q) (fun x y => dark_pixel (cv (sample_x o d x) (sample_y o d y)))).
Proof.
  intros sjis C text opts sched q l v z HN NM HL HD near encode decode fails others scale o old d dk DEC ENC NF ST PC DIFF OP TA LG Z2 EB SE.
  pose proof (made_version sjis C _ _ _ _ _ HN HD) as VV. pose proof ST as (_ & D & _). pose proof EB as (LR & TB & BL & BT).
  assert (N0 : 0 <= q_dimension q) by (rewrite HD; unfold side; unfold valid_version in VV; lia).
  assert (M1 : 1 <= o_multiplier o) by (destruct l; cbn in SE; lia).
  apply (hidden_saved sjis C text opts sched q l v (mid_hid (side v) z (o_multiplier o)) HN NM HL HD (mid_harmless v l z _ VV Z2 SE) near encode decode); try assumption; try lia.
  apply visible_outside; [intros i EL; destruct (LG i EL) as (-> & -> & ? & ?); lia|]. intros x y X Y F. rewrite <- HD. eapply hides_mid; eauto.
Qed.

(* Everything else by default (blocks of 20 pixels, borders of 40, black on white, JPEG) *)
Theorem C91_default_logo_sizes :
  forall sjis, shift_jis_contract sjis ->
  forall text opts sched q l v m, NewWith sjis text opts sched = Ok q -> ~ misdetected sjis opts (text_bytes text) ->
  eff_level opts = level_code l -> q_dimension q = side v -> small_enough l v 2 m ->
  forall encode decode fails others scale old i w h pix safe o, lossy 127 JpegEncoder encode decode -> (forall k, fails k = None) ->
  0 < w -> 0 < h -> i = mkImage 0 0 w h pix ->
  NewWithWriter (fun _ => None) (WithLogoImage (Some i) :: WithLogoSizeMultiplier m :: if safe : bool then [WithLogoSafeZone] else []) = Some o ->
  exists s' o' cv side,
    Save (Some (qMat q)) (standard_writer encode fails others scale) (standard_new old, o) = ((s', o'), [EvWrite (qMat q); EvClose], Returned None) /\
    s_open s' = false /\ side = 20 * q_dimension q + 80 /\ decode (o_content (s_file s')) = Some (side, side, cv) /\
    recovers_text sjis text (sampled (q_dimension q) (fun x y => looks_dark (cv (40 + x * 20 + 10) (40 + y * 20 + 10)))).
Proof.
  intros sjis C text opts sched q l v m HN NM HL HD SE encode decode fails others scale old i w h pix safe o DEC NF HW HH -> HO.
  pose proof (PropsLossy.made_dimension sjis C _ _ _ _ HN) as N. destruct (made_square sjis C _ _ _ _ HN) as [SQ N21].
  assert (EO : o = (if safe then set_safeZone else fun o => o) (set_multiplier m (set_logo (Some (mkImage 0 0 w h pix)) defaultOptions))) by (destruct safe; cbv in HO |- *; congruence). clear HO.
  assert (BW : qrBlockWidth o = 20) by (rewrite EO; destruct safe; reflexivity).
  assert (EB : o_borders o = (40, 40, 40, 40)) by (rewrite EO; destruct safe; reflexivity).
  assert (EE : o_encoder o = JpegEncoder) by (rewrite EO; destruct safe; reflexivity).
  assert (EM : o_multiplier o = m) by (rewrite EO; destruct safe; reflexivity).
  assert (EL : o_logo o = Some (mkImage 0 0 w h pix)) by (rewrite EO; destruct safe; reflexivity).
  assert (EG : o_gradient o = None) by (rewrite EO; destruct safe; reflexivity). assert (EH : o_halftone o = None) by (rewrite EO; destruct safe; reflexivity).
  assert (ES : getShape o = ShapeRectangle) by (rewrite EO; destruct safe; reflexivity).
  assert (EQ : o_qrColor o = color_BLACK) by (rewrite EO; destruct safe; reflexivity). assert (EBG : o_bgColor o = color_WHITE) by (rewrite EO; destruct safe; reflexivity).
  assert (PC : painter_colors o) by (rewrite EO; destruct safe; unfold painter_colors, opaque, good, byte; cbn; repeat split; try lia).
  clear EO.
  assert (W : img_w o (q_dimension q) = 20 * q_dimension q + 80) by (unfold img_w, b_left, b_right; rewrite EB, BW; lia).
  assert (H : img_h o (q_dimension q) = 20 * q_dimension q + 80) by (unfold img_h, b_top, b_bottom; rewrite EB, BW; lia).
  assert (D : PropsCombine.dark_colors o (img_w o (q_dimension q)) (img_h o (q_dimension q)) [color_BLACK]) by (left; rewrite EQ; split; [exact EG|reflexivity]).
  destruct (C91_logo_sizes sjis C text opts sched q l v 2 HN NM HL HD (within 127) encode decode fails others scale o old 10 looks_dark) as (s' & o' & cv & A1 & A2 & A3 & A4).
  - rewrite EE. exact DEC.
  - rewrite W, H, EE. cbn [encodable]. lia.
  - exact NF.
  - split; [|split; [rewrite BW; lia|intros F; contradiction (F EH)]]. apply PropsCombine.C72_proper_shapes_link; [|rewrite BW; lia]. unfold chosen_shape. rewrite ES. apply rectangle_proper; lia.
  - exact PC.
  - intros F. contradiction (F EG).
  - intros px py _ _. apply (PropsCombine.ink_opaque o _ _ [color_BLACK] px py PC D).
  - apply (PropsCombine.C72_jpeg_tells_apart 127 o _ _ [color_BLACK]); [lia|lia|exact D|intros c [<-|[]]; change (brightness color_BLACK) with 0; lia|rewrite EBG; change (brightness color_WHITE) with 765; lia].
  - intros i F. rewrite EL in F. injection F as <-. cbn [i_x0 i_y0 i_x1 i_y1]. auto.
  - lia.
  - unfold even_borders, b_left, b_right, b_top, b_bottom. rewrite EB, BW. lia.
  - rewrite EM. exact SE.
  - rewrite W, H in A3. exists s', o', cv, (20 * q_dimension q + 80). split; [exact A1|]. split; [exact A2|]. split; [reflexivity|]. split; [exact A3|].
    replace (sampled (q_dimension q) (fun x y => looks_dark (cv (40 + x * 20 + 10) (40 + y * 20 + 10))))
      with (sampled (q_dimension q) (fun x y => looks_dark (cv (sample_x o 10 x) (sample_y o 10 y)))); [exact A4|].
    unfold sample_x, sample_y, b_left, b_top. rewrite EB, BW. reflexivity.
Qed.

(* the hypotheses are met: a symbol of version 4 at level Highest, of which the middle third and two modules of the format word are
   hidden; a logo of a third of the picture that is really drawn, and modules under it *)
Definition text91 := GoString (go_string "github.com/yeqown/go-qrcode").
Definition opts91 : list EncodeOption := [WithErrorCorrectionLevel 4].
Definition hidden91 (x y : Z) : bool := (12 <=? x) && (x <=? 20) && (12 <=? y) && (y <=? 20) || (x =? 8) && (y <=? 1).
Definition logo91 := mkImage 0 0 240 246 (fun x y => if x <? y then color_WHITE else color_BLACK).
Example C91_example :
  (exists q, NewWith sample_sjis text91 opts91 fair_schedule = Ok q /\ q_dimension q = side 4) /\ ~ misdetected sample_sjis opts91 (text_bytes text91) /\
  eff_level opts91 = level_code H /\ correctable 4 H hidden91 /\ small_enough H 4 2 3 /\
  (exists o, NewWithWriter (fun _ => None) [WithLogoImage (Some logo91); WithLogoSizeMultiplier 3; WithLogoSafeZone] = Some o /\
     logo_fits o (img_w o 33) (img_h o 33) logo91 /\ logo_hides o 33 10 11 10 /\ ~ logo_hides o 33 10 9 10) /\
  lost_words 4 H hidden91 0 <> [].
Proof.
  destruct (small_byte sample_sjis (text_bytes text91) eq_refl) as [_ NM].
  split; [|split; [apply NM|]].
  { destruct (fixed_text sample_sjis sample_contract (go_string "github.com/yeqown/go-qrcode") opts91 fair_schedule H 4) as (q & HN & D);
      [exact fair_schedule_fair|reflexivity|left; reflexivity|reflexivity|reflexivity|lia|reflexivity|right; reflexivity|]. exists q. auto. }
  split; [reflexivity|]. split; [|split; [cbn; lia|]].
  { split; [|vm_compute; lia]. intros b R. change (num_blocks 4 H) with 4 in R.
    assert (E : forallb (fun b => 2 * Z.of_nat (length (lost_words 4 H hidden91 b)) <=? ecc_per_block 4 H) [0; 1; 2; 3] = true) by (vm_compute; reflexivity).
    rewrite forallb_forall in E. apply Z.leb_le, E. cbn [In]. lia. }
  split; [|vm_compute; discriminate].
  eexists. split; [reflexivity|]. split; [unfold logo_fits; cbn; lia|]. split.
  - left. exists logo91. split; [reflexivity|]. split; [unfold logo_fits; cbn; lia|]. unfold logo_covers. cbn. lia.
  - unfold logo_hides, in_safe_zone, touches_logo, in_logo, logo_covers, in_module. intros [(i & E & _ & I1 & _)|[(_ & i & E & _ & px & py & [M1 M2] & I1 & I2)|(_ & i & E & _ & px & py & [M1 M2] & I1 & I2)]];
      injection E as <-; cbn in *; lia.
Qed.
Print Assumptions C91_hidden_modules.
Print Assumptions C91_any_logo.
Print Assumptions C91_logo_sizes.
Print Assumptions C91_default_logo_sizes.
