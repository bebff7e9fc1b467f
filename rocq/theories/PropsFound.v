(* C70 and C71 for pictures with gradient, halftone picture, transparency and logo; and what the logo's own pixels look like (C39). *)
From Coq Require Import Lia.
From Verif Require Import ModelBase ModelMatrix ModelQRCode ModelSave ModelCompressed ModelStandard ModelWriters ModelFloat ModelGradient ModelGradient64.
From Verif Require Import SpecIso SpecReader SpecSegment SpecRecovery SpecAPI SpecMatrix SpecImage SpecStandard SpecMedium SpecShape SpecShapes SpecLogo SpecFloat64 SpecGradient SpecGradient64 SpecLocate SpecCombine.
From Verif Require Import Samples ProofBase ProofMatrix ProofEval ProofViews ProofStandard ProofMedium ProofShape ProofGradient ProofGradient64 ProofLogo ProofCombine ProofLocate ProofFrame.
From Verif Require Import PropsShape PropsLogo PropsGradient PropsGradient64 PropsLocate PropsCombine.
From Verif Require PropsSymbol PropsLossy PropsSaved.
From Coq Require Import QArith Qabs Lqa.
Open Scope Z_scope.

(* squares, with or without a halftone picture (of a width at which halftone modules can be read at all, C57) *)
Definition square_modules (o : options) : Prop := getShape o = ShapeRectangle /\ (o_halftone o = None \/ halftone_width (qrBlockWidth o)).

Lemma square_style others o : square_modules o -> readable_style others o ((qrBlockWidth o - 1) / 2).
Proof.
  intros [RE HH]. pose proof (block_width_range o) as BW.
  assert (HD : 0 <= (qrBlockWidth o - 1) / 2 < qrBlockWidth o) by (split; [apply Z.div_pos; lia|apply Z.div_lt_upper_bound; lia]).
  destruct (o_halftone o) as [i|] eqn:EH.
  - destruct HH as [F|HH]; [discriminate F|]. apply C72_halftone_squares; assumption.
  - split; [|split; [exact HD|intros F; contradiction F; exact EH]]. apply proper_links; [|exact HD]. unfold chosen_shape. rewrite RE. apply rectangle_proper, HD.
Qed.

(* ---- C71 ---- *)
(* no logo *)
Theorem C71_any_options :
  forall sjis, shift_jis_contract sjis ->
  forall text opts sched q, NewWith sjis text opts sched = Ok q -> ~ misdetected sjis opts (text_bytes text) ->
  forall (near : rgba -> rgba -> Prop) encode decode fails others scale o old dark_pixel, keeps near (o_encoder o) encode decode ->
  encodable (o_encoder o) (img_w o (q_dimension q)) (img_h o (q_dimension q)) -> (forall k, fails k = None) ->
  square_modules o -> painter_colors o -> (o_gradient o <> None -> o_bgTransparent o = false -> o_bgColor o <> o_qrColor o) ->
  (forall px py, 0 <= px < img_w o (q_dimension q) -> 0 <= py < img_h o (q_dimension q) -> opaque (ink o px py)) ->
  tells_apart near o (img_w o (q_dimension q)) (img_h o (q_dimension q)) dark_pixel ->
  o_logo o = None -> 0 <= b_left o -> 0 <= b_right o -> 0 <= b_top o -> 0 <= b_bottom o ->
  exists s' o' cv, let w := img_w o (q_dimension q) in let h := img_h o (q_dimension q) in
    Save (Some (qMat q)) (standard_writer encode fails others scale) (standard_new old, o) = ((s', o'), [EvWrite (qMat q); EvClose], Returned None) /\
    decode (o_content (s_file s')) = Some (w, h, cv) /\
    margins (fun px py => dark_pixel (cv px py)) w h (b_left o) (b_top o) (b_right o) (b_bottom o) /\
    picture_shows sjis text (fun px py => dark_pixel (cv px py)) w h.
Proof.
  intros sjis C text opts sched q HN NM near encode decode fails others scale o old dk DEC ENC NF SM PC DIFF OP TA EL B1 B2 B3 B4.
  pose proof (square_style others o SM) as ST. pose proof (style_range _ _ _ ST) as HD. destruct SM as [RE HH].
  destruct (symbol_reads_back sjis C text opts sched q HN NM) as (SQ & N21 & RB).
  destruct (style_samples others scale (q_dimension q) (qMat q) o _ SQ ltac:(lia) ST PC DIFF OP B1 B2 B3 B4) as (cv & o1 & ED & HP); [intros i F; rewrite EL in F; discriminate F|].
  destruct (saved_near near _ _ SQ N21 encode decode fails others scale o old cv o1 DEC ENC NF B1 B2 B3 B4 ED) as (s' & cv' & A1 & A2 & A3 & A4).
  pose proof (picture_framed sjis C text opts sched q HN near others scale o 0 dk RE PC DIFF OP TA B1 B2 B3 B4 (or_introl EL) cv o1 cv' ED A4) as FR.
  exists s', o1, cv'. cbv zeta. split; [exact A1|]. split; [exact A3|]. split.
  - pose proof (margins_framed _ _ _ _ _ _ _ FR) as MG.
    replace (img_w o (q_dimension q) - b_left o - q_dimension q * qrBlockWidth o) with (b_right o) in MG by (unfold img_w; lia).
    replace (img_h o (q_dimension q) - b_top o - q_dimension q * qrBlockWidth o) with (b_bottom o) in MG by (unfold img_h; lia). exact MG.
  - exists (m_bitmap (qMat q)). split; [|exact RB]. unfold read_picture. rewrite (locate_framed _ _ _ _ _ _ _ FR). f_equal. apply sampled_bitmap; [exact SQ|].
    intros x y X Y. destruct (sample_range o _ _ x y B1 B2 B3 B4 HD X Y) as [RX RY]. unfold sample_x, sample_y in RX, RY.
    specialize (HP x y X Y (no_logo_safe _ _ _ _ EL) (no_logo_safe _ _ _ _ EL) ltac:(intros i F; rewrite EL in F; discriminate F)). unfold sample_x, sample_y in HP.
    specialize (A4 _ _ RX RY). destruct TA as [TD TL]. destruct (module_at (m_bitmap (qMat q)) x y); [rewrite HP in A4; eapply TD; eauto|eapply TL; eauto].
Qed.
(* with a logo as in C62: what is read is a symbol from which error correction recovers the text *)
Theorem C71_logo :
  forall sjis, shift_jis_contract sjis ->
  forall text opts sched q l z, NewWith sjis text opts sched = Ok q -> ~ misdetected sjis opts (text_bytes text) ->
  eff_level opts = level_code l -> may_lose l z ->
  forall (near : rgba -> rgba -> Prop) encode decode fails others scale o old dark_pixel, keeps near (o_encoder o) encode decode ->
  encodable (o_encoder o) (img_w o (q_dimension q)) (img_h o (q_dimension q)) -> (forall k, fails k = None) ->
  square_modules o -> painter_colors o -> (o_gradient o <> None -> o_bgTransparent o = false -> o_bgColor o <> o_qrColor o) ->
  (forall px py, 0 <= px < img_w o (q_dimension q) -> 0 <= py < img_h o (q_dimension q) -> opaque (ink o px py)) ->
  tells_apart near o (img_w o (q_dimension q)) (img_h o (q_dimension q)) dark_pixel -> logo_options o z ->
  exists s' o' cv, let w := img_w o (q_dimension q) in let h := img_h o (q_dimension q) in
    Save (Some (qMat q)) (standard_writer encode fails others scale) (standard_new old, o) = ((s', o'), [EvWrite (qMat q); EvClose], Returned None) /\
    decode (o_content (s_file s')) = Some (w, h, cv) /\
    margins (fun px py => dark_pixel (cv px py)) w h (b_left o) (b_top o) (b_right o) (b_bottom o) /\
    picture_recovers sjis text (fun px py => dark_pixel (cv px py)) w h.
Proof.
  intros sjis C text opts sched q l z HN NM HL ML near encode decode fails others scale o old dk DEC ENC NF SM PC DIFF OP TA LO.
  pose proof (square_style others o SM) as ST. pose proof (style_range _ _ _ ST) as HD. destruct SM as [RE HH].
  destruct (symbol_reads_back sjis C text opts sched q HN NM) as (SQ & N21 & _). pose proof LO as (M5 & LR & TB & BL & BT & LG).
  assert (B1 : 0 <= b_left o) by lia. assert (B2 : 0 <= b_right o) by lia. assert (B3 : 0 <= b_top o) by lia. assert (B4 : 0 <= b_bottom o) by lia.
  assert (Z2 : 0 <= z <= 2) by (destruct l; cbn in ML; lia).
  destruct (style_samples others scale (q_dimension q) (qMat q) o _ SQ ltac:(lia) ST PC DIFF OP B1 B2 B3 B4) as (cv & o1 & ED & HP); [intros i EL; destruct (LG i EL) as (-> & -> & _); auto|].
  destruct (saved_near near _ _ SQ N21 encode decode fails others scale o old cv o1 DEC ENC NF B1 B2 B3 B4 ED) as (s' & cv' & A1 & A2 & A3 & A4).
  pose proof (picture_framed sjis C text opts sched q HN near others scale o z dk RE PC DIFF OP TA B1 B2 B3 B4 (or_intror (conj LO Z2)) cv o1 cv' ED A4) as FR.
  exists s', o1, cv'. cbv zeta. split; [exact A1|]. split; [exact A3|]. split.
  - pose proof (margins_framed _ _ _ _ _ _ _ FR) as MG.
    replace (img_w o (q_dimension q) - b_left o - q_dimension q * qrBlockWidth o) with (b_right o) in MG by (unfold img_w; lia).
    replace (img_h o (q_dimension q) - b_top o - q_dimension q * qrBlockWidth o) with (b_bottom o) in MG by (unfold img_h; lia). exact MG.
  - eexists. unfold read_picture. rewrite (locate_framed _ _ _ _ _ _ _ FR). split; [reflexivity|].
    match goal with |- recovers_text _ _ (sampled ?n ?f) => destruct (sampled_size n f ltac:(lia)) as [S1 S2] end.
    eapply middle_recovered; eauto. intros x y X Y NZ. rewrite sampled_module by assumption. symmetry.
    destruct (sample_range o _ _ x y B1 B2 B3 B4 HD X Y) as [RX RY]. unfold sample_x, sample_y in RX, RY.
    specialize (HP x y X Y (outside_safe o (q_dimension q) z _ x y LO ltac:(lia) HD NZ) (outside_safe o (q_dimension q) z _ y x LO ltac:(lia) HD ltac:(tauto)) (proj1 (clear_of_logo o z (q_dimension q) _ x y LO ltac:(lia) HD NZ))).
    unfold sample_x, sample_y in HP. specialize (A4 _ _ RX RY). destruct TA as [TD TL]. destruct (module_at (m_bitmap (qMat q)) x y); [rewrite HP in A4; eapply TD; eauto|eapply TL; eauto].
Qed.
(* PNG, dark inks on a light or transparent background *)
Theorem C71_png_tells_apart :
  forall o w h cs, painter_colors o -> 0 < w -> 0 < h -> dark_colors o w h cs -> (forall c, In c cs -> looks_dark c = true) -> (o_bgTransparent o = false -> looks_dark (o_bgColor o) = false) ->
  tells_apart png_same o w h visibly_dark.
Proof.
  intros o w h cs PC HW HH DC DK LT. split.
  - intros px py c X Y [<-|[F _]]; destruct (ink_opaque o w h cs px py PC DC) as [_ A]; [|lia]. unfold visibly_dark. rewrite A. cbn [andb Z.eqb].
    assert (B : brightness (ink o px py) <= 382). { apply (ink_bright o w h cs px py _ HW HH DC X Y). intros c0 I. specialize (DK c0 I). unfold looks_dark in DK. apply Z.ltb_lt in DK. lia. }
    unfold looks_dark. apply Z.ltb_lt. lia.
  - intros l c IL [<-|[F0 F]]; unfold visibly_dark; [|rewrite F; reflexivity]. unfold is_light in IL. destruct (o_bgTransparent o); [rewrite IL; reflexivity|].
    rewrite IL, LT by reflexivity. apply andb_false_r.
Qed.

(* ---- C39 ---- *)
(* an opaque pixel of a logo that is drawn has its own colour in the picture, whatever the modules below look like: gradient, halftone
   picture, transparency, safe zone *)
Theorem C39_logo_keeps_its_colors :
  forall others scale n m o, square n m -> getShape o = ShapeRectangle -> painter_colors o -> (forall i, o_logo o = Some i -> i_x0 i = 0 /\ i_y0 i = 0) ->
  exists cv o', draw others scale m o = Some (Z.abs (img_w o n), Z.abs (img_h o n), cv, o') /\
    forall i px py, o_logo o = Some i -> logo_fits o (img_w o n) (img_h o n) i -> 0 <= px < img_w o n -> 0 <= py < img_h o n -> in_logo (img_w o n) (img_h o n) i px py ->
      let c := i_at i (px - logo_left (img_w o n) i) (py - logo_top (img_h o n) i) in opaque c -> cv px py = c.
Proof.
  intros others scale n m o SQ RE PC H0. destruct (draw_spec others scale n m o SQ RE) as (t & o' & E & _). eexists _, o'. split; [exact E|].
  intros i px py EL LF X Y IL c OC. eapply logo_pixel_opaque; eauto.
Qed.

(* The default widths, a gradient between dark colours, a logo with safe zone, JPEG: found and read by a reader that is given only the
   picture. *)
Theorem C71_gradient_logo_jpeg :
  forall sjis, shift_jis_contract sjis ->
  forall text opts sched q l, NewWith sjis text opts sched = Ok q -> ~ misdetected sjis opts (text_bytes text) ->
  eff_level opts = level_code l -> may_lose l 2 ->
  forall encode decode fails others scale old t rnd fuse stops dx dy g i w h pix o,
  lossy t JpegEncoder encode decode -> (forall k, fails k = None) ->
  rounding rnd -> ((1 # 2) <= Qabs dx + Qabs dy)%Q -> stops <> [] -> opaque_stops stops -> float_stops stops ->
  (forall s, In s stops -> 2 * (brightness (s_color s) + 3 * t) < 765) -> 765 <= 2 * (765 - 3 * t) ->
  g = gradient_at64 rnd fuse stops dx dy (20 * q_dimension q + 80) (20 * q_dimension q + 80) ->
  0 < w -> 0 < h -> i = mkImage 0 0 w h pix ->
  NewWithWriter (fun _ => None) [WithFgGradient (Some g); WithLogoImage (Some i); WithLogoSafeZone] = Some o ->
  exists s' o' cv side,
    Save (Some (qMat q)) (standard_writer encode fails others scale) (standard_new old, o) = ((s', o'), [EvWrite (qMat q); EvClose], Returned None) /\
    decode (o_content (s_file s')) = Some (side, side, cv) /\
    margins (fun px py => looks_dark (cv px py)) side side 40 40 40 40 /\
    picture_recovers sjis text (fun px py => looks_dark (cv px py)) side side.
Proof.
  intros sjis C text opts sched q l HN NM HL LL encode decode fails others scale old t rnd fuse stops dx dy g i w h pix o DEC NF HR DD NE OS FS DK LT -> HW HH -> HO.
  pose proof (PropsLossy.made_dimension sjis C _ _ _ _ HN) as N. destruct (made_square sjis C _ _ _ _ HN) as [SQ N21].
  set (g := gradient_at64 rnd fuse stops dx dy (20 * q_dimension q + 80) (20 * q_dimension q + 80)) in *.
  assert (EO : o = set_safeZone (set_logo (Some (mkImage 0 0 w h pix)) (set_gradient (Some g) defaultOptions))) by (cbn in HO; congruence). clear HO.
  assert (BW : qrBlockWidth o = 20) by (rewrite EO; reflexivity).
  assert (EW : img_w o (q_dimension q) = 20 * q_dimension q + 80) by (unfold img_w; rewrite BW; replace (b_left o) with 40 by (rewrite EO; reflexivity); replace (b_right o) with 40 by (rewrite EO; reflexivity); lia).
  assert (EHt : img_h o (q_dimension q) = 20 * q_dimension q + 80) by (unfold img_h; rewrite BW; replace (b_top o) with 40 by (rewrite EO; reflexivity); replace (b_bottom o) with 40 by (rewrite EO; reflexivity); lia).
  assert (PC : painter_colors o) by (rewrite EO; unfold painter_colors, opaque, good, byte; cbn; repeat split; lia).
  assert (DC : dark_colors o (img_w o (q_dimension q)) (img_h o (q_dimension q)) (map s_color stops)).
  { right. exists rnd, fuse, stops, dx, dy. repeat (split; [assumption|]). split; [|reflexivity]. rewrite EW, EHt, EO. reflexivity. }
  destruct (C71_logo sjis C text opts sched q l 2 HN NM HL LL (within t) encode decode fails others scale o old looks_dark) as (s' & o' & cv & A1 & A2 & A3 & A4).
  - rewrite EO. exact DEC.
  - rewrite EW, EHt. replace (o_encoder o) with JpegEncoder by (rewrite EO; reflexivity). cbn [encodable]. lia.
  - exact NF.
  - split; [rewrite EO; reflexivity|left; rewrite EO; reflexivity].
  - exact PC.
  - intros _ _ F. rewrite EO in F. discriminate F.
  - intros px py _ _. eapply ink_opaque; eauto.
  - apply (C72_jpeg_tells_apart t o _ _ (map s_color stops)); try lia; [exact DC| |].
    + intros c I. apply in_map_iff in I as (s & <- & I). apply DK, I.
    + rewrite EO. exact LT.
  - rewrite EO. unfold logo_options. (split; [cbn; lia|]). (split; [reflexivity|]). (split; [reflexivity|]). (split; [cbn; lia|]). (split; [cbn; lia|]). intros j F. injection F as <-. cbn. auto.
  - replace (b_left o) with 40 in A3 by (rewrite EO; reflexivity). replace (b_top o) with 40 in A3 by (rewrite EO; reflexivity).
    replace (b_right o) with 40 in A3 by (rewrite EO; reflexivity). replace (b_bottom o) with 40 in A3 by (rewrite EO; reflexivity).
    rewrite EW, EHt in A2, A3, A4. exists s', o', cv, (20 * q_dimension q + 80). repeat (split; [assumption|]). assumption.
Qed.

Example C71_logo_example :
  (exists q, NewWith sample_sjis hello [] fair_schedule = Ok q) /\ ~ misdetected sample_sjis [] (text_bytes hello) /\
  (exists l, eff_level [] = level_code l /\ may_lose l 2) /\ (exists encode decode, lossy 42 JpegEncoder encode decode) /\
  rounding round64 /\ ((1 # 2) <= Qabs half_sqrt2 + Qabs (- half_sqrt2))%Q /\
  red_blue <> [] /\ opaque_stops red_blue /\ float_stops red_blue /\ (forall s, In s red_blue -> 2 * (brightness (s_color s) + 3 * 42) < 765) /\ 765 <= 2 * (765 - 3 * 42).
Proof. destruct C72_example as (E1 & E2 & E3 & E4 & _ & _ & E5 & E6 & E7 & E8 & E9 & E10 & E11 & _). repeat (split; [assumption|]). assumption. Qed.
(* hypotheses of C39_logo_keeps_its_colors: a red pixel in the middle of a picture of 9 x 9 pixels, a halftone picture and a gradient below it *)
Example C39_gradient_example :
  let red := mkRGBA 255 0 0 255 in let logo := mkImage 0 0 1 1 (fun _ _ => red) in
  exists o, NewWithWriter (fun _ => None) [WithQRWidth 3; WithBorderWidth [1; 2]; WithHalftoneImage (Some any_picture); WithFgGradient (Some (fun _ _ => mkRGBA 0 0 200 255)); WithLogoImage (Some logo)] = Some o /\
    square 2 dark_light /\ getShape o = ShapeRectangle /\ painter_colors o /\ logo_fits o (img_w o 2) (img_h o 2) logo /\ in_logo (img_w o 2) (img_h o 2) logo 4 3.
Proof.
  eexists. split; [reflexivity|]. split; [do 2 apply square_set; apply square_new; lia|]. split; [reflexivity|]. split; [unfold painter_colors, opaque, good, byte; cbn; repeat split; lia|].
  split; [unfold logo_fits; cbn; lia|]. unfold in_logo, logo_left, logo_top, img_w, img_h. cbn. lia.
Qed.

Print Assumptions C71_any_options.
Print Assumptions C71_logo.
Print Assumptions C71_png_tells_apart.
Print Assumptions C71_gradient_logo_jpeg.
Print Assumptions C39_logo_keeps_its_colors.
