(* C72: drawing options together.  Shapes, halftone, gradient, transparency, logo and safe zone in any combination. *)
From Coq Require Import Lia.
From Verif Require Import ModelBase ModelMatrix ModelQRCode ModelSave ModelCompressed ModelStandard ModelWriters ModelShapes ModelFloat ModelGradient ModelGradient64.
From Verif Require Import SpecIso SpecReader SpecSegment SpecRecovery SpecAPI SpecMatrix SpecStandard SpecMedium SpecShape SpecShapes SpecLogo SpecFloat64 SpecGradient SpecGradient64 SpecLocate SpecCombine.
From Verif Require Import Samples ProofBase ProofMatrix ProofEval ProofViews ProofStandard ProofMedium ProofShape ProofLinks ProofGradient ProofGradient64 ProofLogo ProofCombine ProofHalftone.
From Verif Require Import PropsShape PropsShapes PropsLogo PropsGradient PropsGradient64.
From Verif Require PropsSymbol PropsLossy.
From Coq Require Import QArith Qabs Lqa.
Open Scope Z_scope.

(* shapes that keep to their box (squares, circles, C56) are a special case of linking shapes *)
Theorem C72_proper_shapes_link : forall f bw d, proper_shape f bw d -> 0 <= d < bw -> linking_shape f bw d.
Proof. exact proper_links. Qed.

(* Which shapes are readable under a halftone picture (C57), and where to sample: squares and circles in the middle (the left and
   upper one of the two or four pixels in the middle), the shapes of the package (C60) in the middle *)
Theorem C72_halftone_squares : forall others o, getShape o = ShapeRectangle -> halftone_width (qrBlockWidth o) -> readable_style others o ((qrBlockWidth o - 1) / 2).
Proof.
  intros others o ES HW. unfold readable_style, chosen_shape. rewrite ES. assert (B3 : 3 <= qrBlockWidth o) by (unfold halftone_width in HW; lia).
  assert (HD : 0 <= (qrBlockWidth o - 1) / 2 < qrBlockWidth o) by (split; [apply Z.div_pos; lia|apply Z.div_lt_upper_bound; lia]).
  split; [apply proper_links; [apply rectangle_proper|]; exact HD|]. split; [exact HD|]. intros _. apply squares_halftone, HW.
Qed.
Theorem C72_halftone_circles : forall edge others o, getShape o = ShapeCircle -> others ShapeCircle = circle_draw edge -> halftone_circle_width (qrBlockWidth o) ->
  readable_style others o ((qrBlockWidth o - 1) / 2).
Proof.
  intros edge others o ES EC HW. unfold readable_style, chosen_shape. rewrite ES, EC. assert (B3 : 3 <= qrBlockWidth o) by (unfold halftone_circle_width in HW; lia).
  assert (HD : 0 <= (qrBlockWidth o - 1) / 2 < qrBlockWidth o) by (split; [apply Z.div_pos; lia|apply Z.div_lt_upper_bound; lia]).
  split; [apply proper_links; [apply circle_left|]; assumption|]. split; [exact HD|]. intros _. apply circles_halftone, HW.
Qed.
Theorem C72_halftone_package : forall (cover : coverage) finder block others o id, o_shape o = Some (ShapeCustom id) -> others (ShapeCustom id) = Assemble cover finder block ->
  package_finder (qrBlockWidth o) finder -> package_block (qrBlockWidth o) block -> 3 <= qrBlockWidth o -> halftone_block (qrBlockWidth o) block ->
  readable_style others o (qrBlockWidth o / 2).
Proof.
  intros cover finder block others o id ES EC PF PB B3 HB. unfold readable_style, chosen_shape, getShape. rewrite ES, EC.
  split; [apply C60_package_shapes; assumption|]. split; [split; [apply Z.div_pos; lia|apply Z.div_lt_upper_bound; lia]|].
  intros _. apply assemble_halftone, block_halftone; assumption.
Qed.
(* all the package's blocks, with any parameter, are among them from blocks of 21 pixels on but for small squares and circles *)
Theorem C72_halftone_package_wide : forall bw, 21 <= bw ->
  halftone_block bw LiquidBlock /\ halftone_block bw ChainBlock /\ halftone_block bw VChainBlock /\ halftone_block bw HChainBlock /\
  (forall r, halftone_block bw (HStripeBlock r)) /\ (forall r, halftone_block bw (VStripeBlock r)) /\
  (forall s, (s < 1 # 10)%Q \/ (6 # 10 <= s)%Q -> halftone_block bw (SquareBlocks s)) /\ (forall s, (s < 1 # 10)%Q \/ (6 # 10 <= s)%Q -> halftone_block bw (CircleBlocks s)).
Proof.
  intros bw HB. assert (H7 : 7 <= bw / 3) by (apply Z.div_le_lower_bound; lia).
  assert (Q7 : (7 <= inject_Z (bw / 3))%Q) by (change 7%Q with (inject_Z 7); rewrite <- Zle_Qle; exact H7).
  assert (SC : forall s, (6 # 10 <= s)%Q -> sub_circle bw s) by (intros s S; left; nra).
  assert (SS : forall s, (6 # 10 <= s)%Q -> sub_square bw s) by (intros s S; left; nra).
  do 4 (split; [constructor; apply SC; lra|]). split; [intros r; constructor; apply SC; lra|].
  split; [intros r; destruct (q_cases r (6 # 10) 1) as [L|[L|[L1 L2]]]; [apply ht_vstripe_default; [auto|apply SC; lra]..|apply ht_vstripe; auto]|].
  split; intros s D.
  - destruct (q_cases s (1 # 10) 1) as [L|[L|[L1 L2]]]; [apply ht_squares_default; [auto|apply SS; lra]..|]. apply ht_squares; auto. apply SS. destruct D; lra.
  - destruct (q_cases s (1 # 10) 1) as [L|[L|[L1 L2]]]; [apply ht_circles_default; [auto|apply SC; lra]..|]. apply ht_circles; auto. apply SC. destruct D; lra.
Qed.
(* With circles in blocks of up to 5 pixels (the command line's default is 5) nothing of the data modules is drawn: their sub-blocks are
   circles of radius 0.  Every symbol, any picture, any grey values *)
Theorem C72_halftone_small_circles_refuted :
  forall edge scale n m bw picture o, square n m ->
  NewWithWriter (fun _ => None) [WithQRWidth bw; WithCircleShape; WithHalftoneImage (Some picture)] = Some o -> qrBlockWidth o <= 5 ->
  exists cv o', draw (fun _ => circle_draw edge) scale m o = Some (img_w o n, img_h o n, cv, o') /\
    forall x y px py, 0 <= x < n -> 0 <= y < n -> data_module m x y -> in_module o x y px py -> cv px py = color_WHITE.
Proof.
  intros edge scale n m bw picture o HS HO BW. assert (EO : o = set_halftone (Some picture) (set_shape (Some ShapeCircle) (set_qrWidth bw defaultOptions))) by (cbn in HO; congruence).
  destruct (small_circles edge scale n m o HS) as (cv & o' & E & HP); try (rewrite EO; reflexivity); try (rewrite EO; cbn; lia); try lia.
  - rewrite EO. discriminate.
  - rewrite EO. unfold painter_colors, opaque, good, byte. cbn. repeat split; lia.
  - exists cv, o'. split; [exact E|]. intros x y px py X Y D IM. specialize (HP x y px py X Y D IM). unfold is_light in HP. rewrite HP, EO. reflexivity.
Qed.

(* Without a logo: whatever the medium does to colours, a reader that can still tell the ink from the background reads the text. *)
Theorem C72_no_logo :
  forall sjis, shift_jis_contract sjis ->
  forall text opts sched q, NewWith sjis text opts sched = Ok q -> ~ misdetected sjis opts (text_bytes text) ->
  forall (near : rgba -> rgba -> Prop) encode decode fails others scale o old d dark_pixel, keeps near (o_encoder o) encode decode ->
  encodable (o_encoder o) (img_w o (q_dimension q)) (img_h o (q_dimension q)) -> (forall k, fails k = None) ->
  readable_style others o d -> painter_colors o -> (o_gradient o <> None -> o_bgTransparent o = false -> o_bgColor o <> o_qrColor o) ->
  (forall px py, 0 <= px < img_w o (q_dimension q) -> 0 <= py < img_h o (q_dimension q) -> opaque (ink o px py)) ->
  tells_apart near o (img_w o (q_dimension q)) (img_h o (q_dimension q)) dark_pixel ->
  o_logo o = None -> 0 <= b_left o -> 0 <= b_right o -> 0 <= b_top o -> 0 <= b_bottom o ->
  exists s' o' cv,
    Save (Some (qMat q)) (standard_writer encode fails others scale) (standard_new old, o) = ((s', o'), [EvWrite (qMat q); EvClose], Returned None) /\
    s_open s' = false /\ decode (o_content (s_file s')) = Some (img_w o (q_dimension q), img_h o (q_dimension q), cv) /\
    reads_back sjis text (sampled (q_dimension q) (fun x y => dark_pixel (cv (sample_x o d x) (sample_y o d y)))).
Proof.
  intros sjis C text opts sched q HN NM near encode decode fails others scale o old d dk DEC ENC NF ST PC DIFF OP [TD TL] EL B1 B2 B3 B4.
  destruct (symbol_reads_back sjis C text opts sched q HN NM) as (SQ & N21 & _). pose proof (style_range _ _ _ ST) as HD.
  apply (saved_by dk near sjis C text opts sched q HN NM encode decode fails others scale o old d DEC ENC NF B1 B2 B3 B4 HD).
  destruct (style_samples others scale (q_dimension q) (qMat q) o d SQ ltac:(lia) ST PC DIFF OP B1 B2 B3 B4) as (cv & o' & E & HP); [intros i F; rewrite EL in F; discriminate F|].
  exists cv, o'. split; [exact E|]. intros x y X Y c NC. destruct (sample_range o _ d x y B1 B2 B3 B4 HD X Y) as [RX RY].
  specialize (HP x y X Y (no_logo_safe _ _ _ _ EL) (no_logo_safe _ _ _ _ EL) ltac:(intros i F; rewrite EL in F; discriminate F)).
  destruct (module_at (m_bitmap (qMat q)) x y); [rewrite HP in NC; eapply TD; eauto|eapply TL; eauto].
Qed.

(* With a logo as in C62, with or without safe zone (whose neighbour bits are wrong, C40): error correction recovers the text. *)
Theorem C72_logo :
  forall sjis, shift_jis_contract sjis ->
  forall text opts sched q l z, NewWith sjis text opts sched = Ok q -> ~ misdetected sjis opts (text_bytes text) ->
  eff_level opts = level_code l -> may_lose l z ->
  forall (near : rgba -> rgba -> Prop) encode decode fails others scale o old d dark_pixel, keeps near (o_encoder o) encode decode ->
  encodable (o_encoder o) (img_w o (q_dimension q)) (img_h o (q_dimension q)) -> (forall k, fails k = None) ->
  readable_style others o d -> painter_colors o -> (o_gradient o <> None -> o_bgTransparent o = false -> o_bgColor o <> o_qrColor o) ->
  (forall px py, 0 <= px < img_w o (q_dimension q) -> 0 <= py < img_h o (q_dimension q) -> opaque (ink o px py)) ->
  tells_apart near o (img_w o (q_dimension q)) (img_h o (q_dimension q)) dark_pixel ->
  logo_options o z ->
  exists s' o' cv,
    Save (Some (qMat q)) (standard_writer encode fails others scale) (standard_new old, o) = ((s', o'), [EvWrite (qMat q); EvClose], Returned None) /\
    s_open s' = false /\ decode (o_content (s_file s')) = Some (img_w o (q_dimension q), img_h o (q_dimension q), cv) /\
    recovers_text sjis text (sampled (q_dimension q) (fun x y => dark_pixel (cv (sample_x o d x) (sample_y o d y)))).
Proof.
  intros sjis C text opts sched q l z HN NM HL ML near encode decode fails others scale o old d dk DEC ENC NF ST PC DIFF OP [TD TL] LO.
  destruct (symbol_reads_back sjis C text opts sched q HN NM) as (SQ & N21 & _). pose proof (style_range _ _ _ ST) as HD.
  pose proof LO as (M5 & LR & TB & BL & BT & LG).
  destruct (style_samples others scale (q_dimension q) (qMat q) o d SQ ltac:(lia) ST PC DIFF OP) as (cv & o' & ED & HP); [lia..|intros i EL; destruct (LG i EL) as (-> & -> & _); auto|].
  destruct (logo_saved dk near sjis C text opts sched q l z HN NM HL ML encode decode fails others scale o old d cv o' DEC ENC NF LO HD ED) as (s' & cv' & A).
  - intros x y X Y NZ c NC. destruct (sample_range o (q_dimension q) d x y) as [RX RY]; [lia..|exact HD|exact X|exact Y|].
    specialize (HP x y X Y (outside_safe o (q_dimension q) z d x y LO ltac:(lia) HD NZ) (outside_safe o (q_dimension q) z d y x LO ltac:(lia) HD ltac:(tauto)) (proj1 (clear_of_logo o z (q_dimension q) d x y LO ltac:(lia) HD NZ))).
    destruct (module_at (m_bitmap (qMat q)) x y); [rewrite HP in NC; eapply TD; eauto|eapply TL; eauto].
  - exists s', o', cv'. exact A.
Qed.

(* ---- media and inks ---- *)
(* the dark colours of the options: the stops of the gradient (in float64 arithmetic), or the foreground *)
Definition dark_colors (o : options) (w h : Z) (cs : list rgba) : Prop :=
  (o_gradient o = None /\ cs = [o_qrColor o]) \/
  exists rnd fuse stops dx dy, rounding rnd /\ ((1 # 2) <= Qabs dx + Qabs dy)%Q /\ stops <> [] /\ opaque_stops stops /\ float_stops stops /\
    o_gradient o = Some (gradient_at64 rnd fuse stops dx dy w h) /\ cs = map s_color stops.

Lemma ink_opaque o w h cs px py : painter_colors o -> dark_colors o w h cs -> opaque (ink o px py).
Proof.
  intros (HF & _ & _) [[EG _]|(rnd & fuse & stops & dx & dy & _ & _ & NE & OS & _ & EG & _)]; unfold ink; rewrite EG; [exact HF|].
  apply gradient_opaque64; assumption.
Qed.
Lemma ink_near o w h cs px py : 0 < w -> 0 < h -> dark_colors o w h cs -> 0 <= px < w -> 0 <= py < h ->
  In (ink o px py) cs \/ exists stops t, cs = map s_color stops /\ near_color (pow2 (-36)) stops t (ink o px py).
Proof.
  intros HW HH [[EG ->]|(rnd & fuse & stops & dx & dy & HR & DD & NE & OS & FS & EG & ->)] X Y; unfold ink; rewrite EG; [left; left; reflexivity|].
  destruct (gradient_at64_spec rnd fuse stops dx dy w h px py HR NE) as (t & _ & HC); auto; try lia; [|right; eauto].
  intros s I. apply OS, I.
Qed.

(* no mixture is brighter than all stops *)
Lemma near_bright stops t c k : near_color (pow2 (-36)) stops t c -> (forall s, In s stops -> brightness (s_color s) <= k) -> brightness c <= k.
Proof.
  intros HC HS. destruct HC as [s r -> _ -> | s l -> _ -> | s e l r -> H1 H2 [_ M]].
  - apply HS. left. reflexivity.
  - apply HS. apply in_app_iff. right. left. reflexivity.
  - destruct (factor_range s e t H1 H2) as [F0 F1].
    pose proof (HS s ltac:(apply in_app_iff; right; left; reflexivity)) as KS. pose proof (HS e ltac:(apply in_app_iff; right; right; left; reflexivity)) as KE.
    destruct (M c_r ltac:(cbn; auto)) as (qr & AR & [BR _]). destruct (M c_g ltac:(cbn; auto)) as (qg & AG & [BG _]). destruct (M c_b ltac:(cbn; auto)) as (qb & AB & [BB _]).
    unfold line in *. unfold brightness in *. set (v := ((t - s_T s) / (s_T e - s_T s))%Q) in *.
    rewrite pow2_36 in AR, AG, AB. apply Qabs_Qle_condition in AR as [_ AR]. apply Qabs_Qle_condition in AG as [_ AG]. apply Qabs_Qle_condition in AB as [_ AB].
    rewrite Zle_Qle, !inject_Z_plus in KS, KE.
    assert (V : (inject_Z (c_r c + c_g c + c_b c) < inject_Z (k + 1))%Q).
    { rewrite !inject_Z_plus. change (inject_Z 1) with 1%Q.
      set (sr := inject_Z (c_r (s_color s))) in *. set (sg := inject_Z (c_g (s_color s))) in *. set (sb := inject_Z (c_b (s_color s))) in *.
      set (er := inject_Z (c_r (s_color e))) in *. set (eg := inject_Z (c_g (s_color e))) in *. set (eb := inject_Z (c_b (s_color e))) in *. clearbody v sr sg sb er eg eb.
      assert (L : ((sr + (er - sr) * v) + (sg + (eg - sg) * v) + (sb + (eb - sb) * v) <= inject_Z k)%Q) by nra. lra. }
    rewrite <- Zlt_Qlt in V. lia.
Qed.
Lemma ink_bright o w h cs px py k : 0 < w -> 0 < h -> dark_colors o w h cs -> 0 <= px < w -> 0 <= py < h -> (forall c, In c cs -> brightness c <= k) -> brightness (ink o px py) <= k.
Proof.
  intros HW HH DC X Y HB. destruct (ink_near o w h cs px py HW HH DC X Y) as [I|(stops & t & -> & NC)]; [apply HB, I|].
  eapply near_bright; eauto. intros s I. apply HB. apply in_map. exact I.
Qed.

(* PNG: a pixel is dark if it is opaque and not of the background colour *)
Definition all_clear (cs : list rgba) (bg : rgba) : Prop :=
  exists ch, In ch color_channels /\ ((forall c, In c cs -> ch c < ch bg) \/ (forall c, In c cs -> ch bg + 1 < ch c)).
Theorem C72_png_tells_apart :
  forall o w h cs, painter_colors o -> 0 < w -> 0 < h -> dark_colors o w h cs -> (o_bgTransparent o = false -> all_clear cs (o_bgColor o)) ->
  tells_apart eq o w h (fun c => negb (light_b o c)).
Proof.
  intros o w h cs PC HW HH DC CT. split.
  - intros px py c X Y <-. apply negb_true_iff, not_true_iff_false. unfold light_b. destruct (o_bgTransparent o) eqn:ET.
    + destruct (ink_opaque o w h cs px py PC DC) as [_ A]. rewrite A. discriminate.
    + rewrite rgba_eqb_iff. destruct (CT eq_refl) as (ch & IC & CC). destruct (ink_near o w h cs px py HW HH DC X Y) as [I|(stops & t & -> & NC)].
      * intros F. destruct CC as [CC|CC]; specialize (CC _ I); rewrite F in CC; lia.
      * eapply near_clear; eauto. exists ch. split; [exact IC|]. destruct CC as [CC|CC]; [left|right]; intros s I; apply CC, in_map, I.
  - intros l c IL <-. apply negb_false_iff, light_b_light, IL.
Qed.
(* JPEG, or any format that changes each channel by at most t: a pixel is dark if it is nearer to black than to white *)
Theorem C72_jpeg_tells_apart :
  forall t o w h cs, 0 < w -> 0 < h -> dark_colors o w h cs -> (forall c, In c cs -> 2 * (brightness c + 3 * t) < 765) -> 765 <= 2 * (brightness (o_bgColor o) - 3 * t) ->
  tells_apart (within t) o w h looks_dark.
Proof.
  intros t o w h cs HW HH DC DK LT. split.
  - intros px py c X Y (W1 & W2 & W3). assert (B : brightness (ink o px py) <= 382 - 3 * t).
    { apply (ink_bright o w h cs px py _ HW HH DC X Y). intros c0 I. specialize (DK c0 I). lia. }
    unfold looks_dark, brightness in *. apply Z.ltb_lt. lia.
  - intros l c IL (W1 & W2 & W3). unfold looks_dark. apply Z.ltb_ge. assert (BL : brightness l = brightness (o_bgColor o)) by (rewrite IL; unfold brightness; destruct (o_bgTransparent o); reflexivity).
    unfold brightness in *. lia.
Qed.

(* ---- a full combination ---- *)
(* Rounded finders and liquid blocks, a gradient, a logo with safe zone, saved as JPEG with the default widths: *)
Theorem C72_jpeg_with_everything :
  forall sjis, shift_jis_contract sjis ->
  forall text opts sched q l, NewWith sjis text opts sched = Ok q -> ~ misdetected sjis opts (text_bytes text) ->
  eff_level opts = level_code l -> may_lose l 2 ->
  forall encode decode fails (cover : coverage) finder block id scale old t rnd fuse stops dx dy g i w h pix o,
  lossy t JpegEncoder encode decode -> (forall k, fails k = None) -> package_finder 20 finder -> package_block 20 block ->
  rounding rnd -> ((1 # 2) <= Qabs dx + Qabs dy)%Q -> stops <> [] -> opaque_stops stops -> float_stops stops ->
  (forall s, In s stops -> 2 * (brightness (s_color s) + 3 * t) < 765) -> 765 <= 2 * (765 - 3 * t) ->
  g = gradient_at64 rnd fuse stops dx dy (20 * q_dimension q + 80) (20 * q_dimension q + 80) ->
  0 < w -> 0 < h -> i = mkImage 0 0 w h pix ->
  NewWithWriter (fun _ => None) [WithCustomShape (Some (ShapeCustom id)); WithFgGradient (Some g); WithLogoImage (Some i); WithLogoSafeZone] = Some o ->
  exists s' o' cv side,
    Save (Some (qMat q)) (standard_writer encode fails (fun _ => Assemble cover finder block) scale) (standard_new old, o) = ((s', o'), [EvWrite (qMat q); EvClose], Returned None) /\
    s_open s' = false /\ side = 20 * q_dimension q + 80 /\ decode (o_content (s_file s')) = Some (side, side, cv) /\
    recovers_text sjis text (sampled (q_dimension q) (fun x y => looks_dark (cv (40 + x * 20 + 10) (40 + y * 20 + 10)))).
Proof.
  intros sjis C text opts sched q l HN NM HL LL encode decode fails cover finder block id scale old t rnd fuse stops dx dy g i w h pix o DEC NF PF PB HR DD NE OS FS DK LT -> HW HH -> HO.
  pose proof (PropsLossy.made_dimension sjis C _ _ _ _ HN) as N. destruct (made_square sjis C _ _ _ _ HN) as [SQ N21].
  set (g := gradient_at64 rnd fuse stops dx dy (20 * q_dimension q + 80) (20 * q_dimension q + 80)) in *.
  assert (EO : o = set_safeZone (set_logo (Some (mkImage 0 0 w h pix)) (set_gradient (Some g) (set_shape (Some (ShapeCustom id)) defaultOptions)))) by (cbn in HO; congruence). clear HO.
  assert (BW : qrBlockWidth o = 20) by (rewrite EO; reflexivity).
  assert (EW : img_w o (q_dimension q) = 20 * q_dimension q + 80) by (unfold img_w; rewrite BW; replace (b_left o) with 40 by (rewrite EO; reflexivity); replace (b_right o) with 40 by (rewrite EO; reflexivity); lia).
  assert (EHt : img_h o (q_dimension q) = 20 * q_dimension q + 80) by (unfold img_h; rewrite BW; replace (b_top o) with 40 by (rewrite EO; reflexivity); replace (b_bottom o) with 40 by (rewrite EO; reflexivity); lia).
  assert (PC : painter_colors o) by (rewrite EO; unfold painter_colors, opaque, good, byte; cbn; repeat split; lia).
  assert (DC : dark_colors o (img_w o (q_dimension q)) (img_h o (q_dimension q)) (map s_color stops)).
  { right. exists rnd, fuse, stops, dx, dy. repeat (split; [assumption|]). split; [|reflexivity]. rewrite EW, EHt, EO. reflexivity. }
  destruct (C72_logo sjis C text opts sched q l 2 HN NM HL LL (within t) encode decode fails (fun _ => Assemble cover finder block) scale o old 10 looks_dark) as (s' & o' & cv & A1 & A2 & A3 & A4).
  - rewrite EO. exact DEC.
  - rewrite EW, EHt. replace (o_encoder o) with JpegEncoder by (rewrite EO; reflexivity). cbn [encodable]. lia.
  - exact NF.
  - split; [|split; [rewrite BW; lia|intros F; contradiction F; rewrite EO; reflexivity]]. rewrite BW. unfold chosen_shape, getShape. rewrite EO. cbn [o_shape set_safeZone set_logo set_gradient set_shape].
    apply (C60_package_shapes cover 20); assumption.
  - exact PC.
  - intros _ _ F. rewrite EO in F. discriminate F.
  - intros px py _ _. eapply ink_opaque; eauto.
  - apply (C72_jpeg_tells_apart t o _ _ (map s_color stops)); try lia; [exact DC| |].
    + intros c I. apply in_map_iff in I as (s & <- & I). apply DK, I.
    + rewrite EO. exact LT.
  - rewrite EO. unfold logo_options. (split; [cbn; lia|]). (split; [reflexivity|]). (split; [reflexivity|]). (split; [cbn; lia|]). (split; [cbn; lia|]). intros j F. injection F as <-. cbn. auto.
  - rewrite EW, EHt in A3. exists s', o', cv, (20 * q_dimension q + 80). split; [exact A1|]. split; [exact A2|]. split; [reflexivity|]. split; [exact A3|].
    rewrite EO in A4. exact A4.
Qed.

(* ---- concrete cases ---- *)
(* the hypotheses of the last theorem are met: hello, red to blue, a logo of 100 x 100 pixels that is really drawn, an error of up to 42 *)
Example C72_example :
  (exists q, NewWith sample_sjis hello [] fair_schedule = Ok q) /\ ~ misdetected sample_sjis [] (text_bytes hello) /\
  (exists l, eff_level [] = level_code l /\ may_lose l 2) /\ (exists encode decode, lossy 42 JpegEncoder encode decode) /\
  package_finder 20 RoundedFinder /\ package_block 20 LiquidBlock /\ rounding round64 /\ ((1 # 2) <= Qabs half_sqrt2 + Qabs (- half_sqrt2))%Q /\
  red_blue <> [] /\ opaque_stops red_blue /\ float_stops red_blue /\ (forall s, In s red_blue -> 2 * (brightness (s_color s) + 3 * 42) < 765) /\ 765 <= 2 * (765 - 3 * 42) /\
  let logo := mkImage 0 0 100 100 (fun _ _ => mkRGBA 255 0 0 255) in
  exists o, NewWithWriter (fun _ => None) [WithCustomShape (Some (ShapeCustom 1)); WithFgGradient (Some (gradient_at64 round64 (fun _ => Separate) red_blue half_sqrt2 (- half_sqrt2) 500 500)); WithLogoImage (Some logo); WithLogoSafeZone] = Some o /\
    logo_fits o (img_w o 21) (img_h o 21) logo.
Proof.
  destruct C59_example as (E1 & E2 & _). destruct C59_rounded_example as (_ & _ & E3 & E4 & _).
  split; [apply PropsSymbol.symbol_example|]. split; [apply PropsSymbol.symbol_example|]. split; [eexists; split; [reflexivity|cbn; lia]|]. split.
  { exists PropsSaved.toy_encode, PropsSaved.toy_decode. intros w h cv _. unfold PropsSaved.toy_encode. eexists. split; [cbn [concat app]; rewrite app_nil_r; reflexivity|].
    intros px py X Y. cbn beta. rewrite PropsSaved.toy_pixel by assumption. unfold within. lia. }
  split; [apply rounded_finder; lia|]. split; [apply liquid_block; lia|]. split; [exact C59_ieee_rounding|]. split; [exact E3|]. split; [exact E1|]. split; [exact E2|]. split; [exact E4|].
  split; [intros s [<- | [<- | [<- | []]]]; cbn; lia|]. split; [lia|]. cbv zeta. eexists. split; [reflexivity|]. unfold logo_fits. cbn. lia.
Qed.
(* squares under a white halftone picture, with a gradient and a transparent background; sampled in the middle *)
Example C72_halftone_example :
  exists o, NewWithWriter (fun _ => None) [WithQRWidth 6; WithBorderWidth [1]; WithHalftoneImage (Some any_picture); WithFgGradient (Some (gradient_at64 round64 (fun _ => Separate) red_blue 1 0 14 14)); WithBgTransparent] = Some o /\
    readable_style (fun _ cv _ => cv) o 2 /\ painter_colors o /\ o_logo o = None /\ dark_colors o (img_w o 2) (img_h o 2) (map s_color red_blue) /\
    match draw (fun _ cv _ => cv) (fun _ _ _ _ => 255) dark_light o with
    | Some (_, _, cv, _) => (sampled 2 (fun x y => negb (light_b o (cv (sample_x o 2 x) (sample_y o 2 y)))), cv 3 9) | None => ([], color_BLACK) end = ([[false; true]; [true; false]], mkRGBA 200 0 54 255).
Proof.
  destruct C59_example as (E1 & E2 & _). destruct C59_rounded_example as (_ & _ & E3 & E4 & _).
  eexists. split; [reflexivity|]. split; [match goal with |- readable_style ?f ?oo _ => apply (C72_halftone_squares f oo eq_refl) end; right; cbn; lia|].
  split; [unfold painter_colors, opaque, good, byte; cbn; repeat split; try lia; discriminate|]. split; [reflexivity|]. split; [|vm_compute; reflexivity].
  right. exists round64, (fun _ => Separate), red_blue, 1%Q, 0%Q. split; [exact C59_ieee_rounding|]. split; [vm_compute; discriminate|]. split; [exact E1|]. split; [exact E2|]. split; [exact E4|]. split; reflexivity.
Qed.

(* circles, and liquid blocks with rounded finders, under a white halftone picture; and circles that are not drawn at all *)
Example C72_halftone_shapes_example :
  let read bw c others := match NewWithWriter (fun _ => None) [WithQRWidth bw; WithBorderWidth [0]; c; WithHalftoneImage (Some any_picture)] with
    | Some o => match draw others (fun _ _ _ _ => 255) dark_light o with Some (_, _, cv, _) => sampled 2 (fun x y => negb (light_b o (cv (sample_x o (bw / 2) x) (sample_y o (bw / 2) y)))) | None => [] end
    | None => [] end in
  halftone_circle_width 9 /\ package_finder 15 RoundedFinder /\ package_block 15 LiquidBlock /\ halftone_block 15 LiquidBlock /\
  read 9 WithCircleShape (fun _ => circle_draw (fun _ _ _ c => c)) = [[false; true]; [true; false]] /\
  read 15 (WithCustomShape (Some (ShapeCustom 1))) (fun _ => Assemble (fun _ _ _ => 0) RoundedFinder LiquidBlock) = [[false; true]; [true; false]] /\
  read 5 WithCircleShape (fun _ => circle_draw (fun _ _ _ c => c)) = [[false; false]; [true; false]].
Proof.
  cbv zeta. split; [left; reflexivity|]. split; [apply rounded_finder; lia|]. split; [apply liquid_block; lia|]. split; [apply ht_liquid; left; vm_compute; discriminate|].
  repeat split; vm_compute; reflexivity.
Qed.

Print Assumptions C72_proper_shapes_link.
Print Assumptions C72_halftone_squares.
Print Assumptions C72_halftone_circles.
Print Assumptions C72_halftone_package.
Print Assumptions C72_halftone_package_wide.
Print Assumptions C72_halftone_small_circles_refuted.
Print Assumptions C72_no_logo.
Print Assumptions C72_logo.
Print Assumptions C72_png_tells_apart.
Print Assumptions C72_jpeg_tells_apart.
Print Assumptions C72_jpeg_with_everything.
