(* C92: logos whose bounds do not start at the origin, such as a part of a picture taken with SubImage. *)
From Coq Require Import Lia.
From Verif Require Import ModelBase ModelMatrix ModelQRCode ModelSave ModelCompressed ModelStandard ModelWriters.
From Verif Require Import SpecIso SpecReader SpecSegment SpecRecovery SpecAPI SpecMatrix SpecStandard SpecMedium SpecShape SpecCombine SpecLogo SpecHidden SpecLocate SpecOrient Samples.
From Verif Require Import ProofBase ProofMatrix ProofStandard ProofMedium ProofShape ProofFrame ProofCombine ProofOrient ProofViews.
From Verif Require PropsStandard PropsLogo PropsHidden PropsOrient PropsNew.

(* every pixel, whatever the bounds of the logo *)
Theorem C92_pixels :
  forall others scale n m o, square n m -> getShape o = ShapeRectangle -> o_halftone o = None -> o_gradient o = None ->
  painter_colors o -> o_bgTransparent o = false -> proper_logo o ->
  exists cv o', draw others scale m o = Some (Z.abs (img_w o n), Z.abs (img_h o n), cv, o') /\
    forall px py, 0 <= px < img_w o n -> 0 <= py < img_h o n ->
    exists c,
      (forall x y, 0 <= x < n -> 0 <= y < n -> in_module o x y px py -> module_at (m_bitmap m) x y = true ->
         ~ in_safe_zone o (img_w o n) (img_h o n) x y -> c = o_qrColor o) /\
      (forall x y, 0 <= x < n -> 0 <= y < n -> in_module o x y px py ->
         module_at (m_bitmap m) x y = false \/ in_safe_zone o (img_w o n) (img_h o n) x y -> c = o_bgColor o) /\
      (~ in_symbol o n px py -> c = o_bgColor o) /\
      (forall i, o_logo o = Some i -> logo_fits o (img_w o n) (img_h o n) i -> logo_covers (img_w o n) (img_h o n) i px py ->
         cv px py = over_image c (i_at i (px - logo_left (img_w o n) i) (py - logo_top (img_h o n) i))) /\
      ((forall i, o_logo o = Some i -> logo_fits o (img_w o n) (img_h o n) i -> ~ logo_covers (img_w o n) (img_h o n) i px py) -> cv px py = c).
Proof. exact logo_pixels_any. Qed.

(* over gradients and halftone pictures as well *)
Theorem C92_logo_keeps_its_colors :
  forall others scale n m o, square n m -> getShape o = ShapeRectangle -> painter_colors o ->
  exists cv o', draw others scale m o = Some (Z.abs (img_w o n), Z.abs (img_h o n), cv, o') /\
    forall i px py, o_logo o = Some i -> logo_fits o (img_w o n) (img_h o n) i -> 0 <= px < img_w o n -> 0 <= py < img_h o n -> logo_covers (img_w o n) (img_h o n) i px py ->
      let c := i_at i (px - logo_left (img_w o n) i) (py - logo_top (img_h o n) i) in opaque c -> cv px py = c.
Proof.
  intros others scale n m o SQ RE PC. destruct (draw_spec others scale n m o SQ RE) as (t & o' & E & _). eexists _, o'. split; [exact E|].
  intros i px py EL LF X Y IL c OC. eapply logo_pixel_opaque_any; eauto.
Qed.

(* the place of the logo: the middle, displaced by the corner of its bounds; so it is the middle iff the bounds start at the origin *)
Theorem C92_displaced : forall w h i px py, logo_covers w h i px py <-> in_logo w h i (px - i_x0 i) (py - i_y0 i).
Proof. intros. unfold logo_covers, in_logo. lia. Qed.
Theorem C92_middle_iff_origin :
  forall w h i, i_x0 i < i_x1 i -> i_y0 i < i_y1 i ->
  ((forall px py, logo_covers w h i px py <-> in_logo w h i px py) <-> i_x0 i = 0 /\ i_y0 i = 0).
Proof.
  intros w h i X Y. split; [|intros [X0 Y0] px py; apply covers_middle; assumption]. unfold logo_covers, in_logo. intros K.
  pose proof (K (logo_left w i) (logo_top h i)) as K1. pose proof (K (logo_left w i + (i_x1 i - i_x0 i) - 1) (logo_top h i + (i_y1 i - i_y0 i) - 1)) as K2. lia.
Qed.
(* a logo that fits is entirely inside the picture iff it is displaced by no more than the room beside it *)
Theorem C92_inside_iff :
  forall w h i, i_x0 i < i_x1 i -> i_y0 i < i_y1 i ->
  ((forall px py, logo_covers w h i px py -> 0 <= px < w /\ 0 <= py < h) <->
   - logo_left w i <= i_x0 i /\ logo_left w i + i_x1 i <= w /\ - logo_top h i <= i_y0 i /\ logo_top h i + i_y1 i <= h).
Proof.
  intros w h i X Y. unfold logo_covers. split; [|intros H px py; lia]. intros K.
  pose proof (K (logo_left w i + i_x0 i) (logo_top h i + i_y0 i)) as K1. pose proof (K (logo_left w i + i_x1 i - 1) (logo_top h i + i_y1 i - 1)) as K2. lia.
Qed.

(* the text of a picture with such a logo is read, if error correction makes up for the modules that the logo covers where it is drawn and
   for those that the safe zone takes (in the middle) *)
Theorem C92_readable_partial :
  forall sjis, shift_jis_contract sjis ->
  forall text opts sched q l v hid, NewWith sjis text opts sched = Ok q -> ~ misdetected sjis opts (text_bytes text) ->
  eff_level opts = level_code l -> q_dimension q = side v -> correctable v l hid ->
  forall (near : rgba -> rgba -> Prop) encode decode fails others scale o old d dark_pixel, keeps near (o_encoder o) encode decode ->
  encodable (o_encoder o) (img_w o (q_dimension q)) (img_h o (q_dimension q)) -> (forall k, fails k = None) ->
  readable_style others o d -> painter_colors o -> (o_gradient o <> None -> o_bgTransparent o = false -> o_bgColor o <> o_qrColor o) ->
  (forall px py, 0 <= px < img_w o (q_dimension q) -> 0 <= py < img_h o (q_dimension q) -> opaque (ink o px py)) ->
  tells_apart near o (img_w o (q_dimension q)) (img_h o (q_dimension q)) dark_pixel -> proper_logo o ->
  0 <= b_left o -> 0 <= b_right o -> 0 <= b_top o -> 0 <= b_bottom o ->
  (forall x y, 0 <= x < q_dimension q -> 0 <= y < q_dimension q -> hid x y = false ->
     ~ in_safe_zone o (img_w o (q_dimension q)) (img_h o (q_dimension q)) x y /\ ~ in_safe_zone o (img_w o (q_dimension q)) (img_h o (q_dimension q)) y x /\
     forall i, o_logo o = Some i -> ~ logo_covers (img_w o (q_dimension q)) (img_h o (q_dimension q)) i (sample_x o d x) (sample_y o d y)) ->
  exists s' o' cv,
    Save (Some (qMat q)) (standard_writer encode fails others scale) (standard_new old, o) = ((s', o'), [EvWrite (qMat q); EvClose], Returned None) /\
    s_open s' = false /\ decode (o_content (s_file s')) = Some (img_w o (q_dimension q), img_h o (q_dimension q), cv) /\
    recovers_text sjis text (sampled (q_dimension q) (fun x y => dark_pixel (cv (sample_x o d x) (sample_y o d y)))).
Proof.
  intros sjis C text opts sched q l v hid HN NM HL HD CO near encode decode fails others scale o old d dk DEC ENC NF ST PC DIFF OP TA PL B1 B2 B3 B4 HID.
  apply (PropsHidden.C91_any_logo sjis C text opts sched q l v hid HN NM HL HD CO near encode decode); try assumption.
  intros x y X Y LH. destruct (hid x y) eqn:E; [reflexivity|]. exfalso. destruct (HID x y X Y E) as (S1 & S2 & NL).
  destruct LH as [(i & EL & _ & IL)|[S|S]]; [exact (NL i EL IL)|exact (S1 S)|exact (S2 S)].
Qed.

(* ---- what a user would expect does not hold ---- *)
(* A logo that passes the size check is shown: no.  Of a logo displaced past the edge of the picture no pixel is drawn, and nothing is reported *)
Theorem C92_not_shown :
  forall others scale n m o i, square n m -> getShape o = ShapeRectangle -> o_halftone o = None -> o_gradient o = None ->
  painter_colors o -> o_bgTransparent o = false -> proper_logo o -> o_logo o = Some i ->
  (img_w o n <= logo_left (img_w o n) i + i_x0 i \/ logo_left (img_w o n) i + i_x1 i <= 0 \/
   img_h o n <= logo_top (img_h o n) i + i_y0 i \/ logo_top (img_h o n) i + i_y1 i <= 0) ->
  exists cv o', draw others scale m o = Some (Z.abs (img_w o n), Z.abs (img_h o n), cv, o') /\
    forall px py, 0 <= px < img_w o n -> 0 <= py < img_h o n -> cv px py = o_qrColor o \/ cv px py = o_bgColor o.
Proof.
  intros others scale n m o i SQ RE EH EG PC BT PL EL OUT. destruct (C92_pixels others scale n m o SQ RE EH EG PC BT PL) as (cv & o' & E & K).
  exists cv, o'. split; [exact E|]. intros px py Hx Hy. destruct (K px py Hx Hy) as (c & K1 & K2 & K3 & _ & K5).
  rewrite K5; [|intros j F _ IL; rewrite EL in F; injection F as <-; unfold logo_covers in IL; lia].
  pose proof (block_width_range o) as HB.
  assert (D : in_symbol o n px py \/ ~ in_symbol o n px py) by (unfold in_symbol; lia). destruct D as [D|D]; [|right; apply K3, D]. unfold in_symbol in D.
  set (x := (px - b_left o) / qrBlockWidth o). set (y := (py - b_top o) / qrBlockWidth o).
  pose proof (Z.div_mod (px - b_left o) (qrBlockWidth o) ltac:(lia)) as DX. pose proof (Z.mod_pos_bound (px - b_left o) (qrBlockWidth o) ltac:(lia)) as MX.
  pose proof (Z.div_mod (py - b_top o) (qrBlockWidth o) ltac:(lia)) as DY. pose proof (Z.mod_pos_bound (py - b_top o) (qrBlockWidth o) ltac:(lia)) as MY.
  fold x in DX. fold y in DY. assert (IM : in_module o x y px py) by (unfold in_module; nia). assert (X : 0 <= x < n) by nia. assert (Y : 0 <= y < n) by nia.
  destruct (module_at (m_bitmap m) x y) eqn:EM; [|right; apply (K2 x y X Y IM); left; exact EM].
  destruct (safe_b o n x y) eqn:SB.
  - right. apply (K2 x y X Y IM). right. apply (safe_zone_spec o n x y PL), SB.
  - left. apply (K1 x y X Y IM EM). intros F. apply (safe_zone_spec o n x y PL) in F. rewrite F in SB. discriminate SB.
Qed.
Theorem C92_logo_is_shown_refuted :
  ~ (forall others scale n m o i c, square n m -> 21 <= n -> NewWithWriter (fun _ => None) [WithLogoImage (Some i)] = Some o -> o_logo o = Some i ->
     i_x0 i < i_x1 i -> i_y0 i < i_y1 i -> logo_fits o (img_w o n) (img_h o n) i -> opaque c -> (forall px py, i_at i px py = c) ->
     exists w h cv o' px py, draw others scale m o = Some (w, h, cv, o') /\ 0 <= px < w /\ 0 <= py < h /\ cv px py = c).
Proof.
  intros K. set (red := mkRGBA 255 0 0 255). set (i := mkImage 400 0 440 40 (fun _ _ => red)).
  assert (SQ : square 21 (newMatrix 21 21)) by (apply square_new; lia).
  destruct (K (fun _ cv _ => cv) (fun _ _ _ _ => 0) 21 (newMatrix 21 21) (set_logo (Some i) defaultOptions) i red SQ ltac:(lia) eq_refl eq_refl) as (w & h & cv & o' & px & py & E & X & Y & F);
    try (cbn; lia); [unfold logo_fits; cbn; lia|unfold red, opaque, good, byte; cbn; lia|reflexivity|].
  destruct (C92_not_shown (fun _ cv _ => cv) (fun _ _ _ _ => 0) 21 (newMatrix 21 21) (set_logo (Some i) defaultOptions) i SQ eq_refl eq_refl eq_refl) as (cv2 & o2 & E2 & G);
    try reflexivity; [unfold painter_colors, opaque, good, byte; cbn; repeat split; lia|intros j EJ; injection EJ as <-; cbn; lia|left; cbn; lia|].
  rewrite E in E2. injection E2 as -> -> <- <-. destruct (G px py X Y) as [G1|G1]; rewrite F in G1; discriminate G1.
Qed.

(* A logo that passes the size check leaves the finder patterns alone: no.  A white logo of 100 x 100 pixels, cropped so that its bounds
   start at a negative point, is drawn over the upper-left finder pattern of every symbol *)
Theorem C92_finder_refuted :
  forall others scale n m i o, square n m -> 21 <= n -> i = mkImage (70 - 10 * n) (70 - 10 * n) (170 - 10 * n) (170 - 10 * n) (fun _ _ => color_WHITE) ->
  NewWithWriter (fun _ => None) [WithLogoImage (Some i)] = Some o ->
  logo_fits o (img_w o n) (img_h o n) i /\
  exists side cv o', draw others scale m o = Some (side, side, cv, o') /\ side = 20 * n + 80 /\
    upright (sampled n (fun x y => looks_dark (cv (40 + x * 20 + 10) (40 + y * 20 + 10)))) = false.
Proof.
  intros others scale n m i o SQ N21 EI HO. assert (EO : o = set_logo (Some i) defaultOptions) by (cbn in HO; congruence). clear HO.
  assert (BW : qrBlockWidth o = 20) by (rewrite EO; reflexivity).
  assert (W : img_w o n = 20 * n + 80) by (unfold img_w; rewrite BW; replace (b_left o) with 40 by (rewrite EO; reflexivity); replace (b_right o) with 40 by (rewrite EO; reflexivity); lia).
  assert (H : img_h o n = 20 * n + 80) by (unfold img_h; rewrite BW; replace (b_top o) with 40 by (rewrite EO; reflexivity); replace (b_bottom o) with 40 by (rewrite EO; reflexivity); lia).
  assert (LF : logo_fits o (img_w o n) (img_h o n) i) by (unfold logo_fits; rewrite W, H, EO, EI; cbn [i_x0 i_x1 i_y0 i_y1 o_multiplier set_logo defaultOptions]; lia).
  split; [exact LF|].
  destruct (C92_logo_keeps_its_colors others scale n m o SQ) as (cv & o' & E & K); [rewrite EO; reflexivity|rewrite EO; unfold painter_colors, opaque, good, byte; cbn; repeat split; lia|].
  exists (20 * n + 80), cv, o'. rewrite W, H, Z.abs_eq in E by lia. split; [exact E|]. split; [reflexivity|].
  unfold upright. apply andb_false_iff. left. apply andb_false_iff. left. apply not_true_iff_false. unfold finder_at. intros F.
  assert (M : module_at (sampled n (fun x y => looks_dark (cv (40 + x * 20 + 10) (40 + y * 20 + 10)))) 3 3 = true).
  { rewrite forallb_forall in F. specialize (F 0 ltac:(cbn [In]; lia)). rewrite forallb_forall in F. specialize (F 0 ltac:(cbn [In]; lia)). apply eqb_prop in F. exact F. }
  rewrite PropsLogo.sampled_module in M by lia. rewrite (K i) in M.
  - rewrite EI in M. cbn [i_at] in M. discriminate M.
  - rewrite EO. reflexivity.
  - exact LF.
  - rewrite W. lia.
  - rewrite H. lia.
  - unfold logo_covers, logo_left, logo_top. rewrite W, H, EI. cbn [i_x0 i_x1 i_y0 i_y1]. rewrite !Z.quot_div_nonneg by lia.
    replace (20 * n + 80 - (170 - 10 * n - (70 - 10 * n))) with ((10 * n - 10) * 2) by lia. rewrite Z.div_mul by lia. lia.
  - rewrite EI. cbn [i_at]. unfold opaque, good, byte. cbn. lia.
Qed.

(* and then no reader that looks for three finder patterns reads the picture of any text, however it is held *)
Theorem C92_unreadable_refuted :
  forall sjis, shift_jis_contract sjis -> forall text opts sched q, NewWith sjis text opts sched = Ok q ->
  forall others scale i o, let n := q_dimension q in
  i = mkImage (70 - 10 * n) (70 - 10 * n) (170 - 10 * n) (170 - 10 * n) (fun _ _ => color_WHITE) ->
  NewWithWriter (fun _ => None) [WithLogoImage (Some i)] = Some o ->
  logo_fits o (img_w o n) (img_h o n) i /\
  exists side cv o', draw others scale (qMat q) o = Some (side, side, cv, o') /\ side = 20 * n + 80 /\
    forall ms, read_any_way (moved ms (sampled n (fun x y => looks_dark (cv (40 + x * 20 + 10) (40 + y * 20 + 10))))) = None.
Proof.
  intros sjis C text opts sched q HN others scale i o n EI HO. destruct (made_square sjis C _ _ _ _ HN) as [SQ N21]. fold n in SQ, N21.
  assert (EO : o = set_logo (Some i) defaultOptions) by (cbn in HO; congruence).
  destruct (C92_finder_refuted others scale n (qMat q) i o SQ N21 EI HO) as [LF (side & cv & o' & E & ES & UP)]. split; [exact LF|].
  exists side, cv, o'. split; [exact E|]. split; [exact ES|]. intros ms.
  assert (BW : qrBlockWidth o = 20) by (rewrite EO; reflexivity).
  assert (BL : b_left o = 40) by (rewrite EO; reflexivity). assert (BT : b_top o = 40) by (rewrite EO; reflexivity).
  assert (BR : b_right o = 40) by (rewrite EO; reflexivity). assert (BB : b_bottom o = 40) by (rewrite EO; reflexivity).
  assert (W : img_w o n = 20 * n + 80) by (unfold img_w; rewrite BW, BL, BR; lia).
  assert (H : img_h o n = 20 * n + 80) by (unfold img_h; rewrite BW, BT, BB; lia).
  assert (LC : forall px py, logo_covers (img_w o n) (img_h o n) i px py <-> 60 <= px < 160 /\ 60 <= py < 160).
  { intros px py. unfold logo_covers, logo_left, logo_top. rewrite W, H, EI. cbn [i_x0 i_x1 i_y0 i_y1]. rewrite !Z.quot_div_nonneg by lia.
    replace (20 * n + 80 - (170 - 10 * n - (70 - 10 * n))) with ((10 * n - 10) * 2) by lia. rewrite Z.div_mul by lia. lia. }
  destruct (C92_pixels others scale n (qMat q) o SQ) as (cv2 & o2 & E2 & K); try (rewrite EO; reflexivity);
    [rewrite EO; unfold painter_colors, opaque, good, byte; cbn; repeat split; lia|intros j F; rewrite EO in F; injection F as <-; rewrite EI; cbn [i_x0 i_x1 i_y0 i_y1]; lia|].
  rewrite E2 in E. injection E as EW EH <- <-. clear E2.
  set (f := fun x y => looks_dark (cv2 (40 + x * 20 + 10) (40 + y * 20 + 10))) in *.
  assert (F33 : f 3 3 = false).
  { unfold f. assert (R : 0 <= 40 + 3 * 20 + 10 < img_w o n) by (rewrite W; lia). assert (R' : 0 <= 40 + 3 * 20 + 10 < img_h o n) by (rewrite H; lia).
    destruct (K _ _ R R') as (c & K1 & K2 & _ & K4 & _). rewrite (K4 i); [|rewrite EO; reflexivity|exact LF|apply LC; lia]. rewrite EI. cbn [i_at].
    rewrite over_image_opaque; [reflexivity| |unfold opaque, good, byte; cbn; lia].
    assert (IM : in_module o 3 3 (40 + 3 * 20 + 10) (40 + 3 * 20 + 10)) by (unfold in_module; rewrite BW, BL, BT; lia).
    destruct (module_at (m_bitmap (qMat q)) 3 3) eqn:EM.
    - rewrite (K1 3 3 ltac:(lia) ltac:(lia) IM EM); [rewrite EO; unfold good, byte; cbn; lia|]. intros (F & _). rewrite EO in F. discriminate F.
    - rewrite (K2 3 3 ltac:(lia) ltac:(lia) IM (or_introl EM)). rewrite EO. unfold good, byte; cbn; lia. }
  assert (FO : forall x y, 6 < x < n -> 6 < y < n -> f x y = module_at (m_bitmap (qMat q)) x y).
  { intros x y X Y. unfold f. assert (R : 0 <= 40 + x * 20 + 10 < img_w o n) by (rewrite W; lia). assert (R' : 0 <= 40 + y * 20 + 10 < img_h o n) by (rewrite H; lia).
    destruct (K _ _ R R') as (c & K1 & K2 & _ & _ & K5). rewrite K5; [|intros j F _ IL; rewrite EO in F; injection F as <-; apply LC in IL; lia].
    assert (IM : in_module o x y (40 + x * 20 + 10) (40 + y * 20 + 10)) by (unfold in_module; rewrite BW, BL, BT; lia).
    destruct (module_at (m_bitmap (qMat q)) x y) eqn:EM.
    - rewrite (K1 x y ltac:(lia) ltac:(lia) IM EM); [rewrite EO; reflexivity|]. intros (F & _). rewrite EO in F. discriminate F.
    - rewrite (K2 x y ltac:(lia) ltac:(lia) IM (or_introl EM)). rewrite EO. reflexivity. }
  assert (SG : sampled n f = grid n f).
  { unfold sampled, grid. rewrite zseq_upto. reflexivity. }
  rewrite SG. destruct (moved_act n ms f ltac:(lia)) as [g ->]. unfold read_any_way.
  destruct (find looks_right (ways (grid n (act n g f)))) as [b|] eqn:FD; [|reflexivity]. exfalso.
  apply find_some in FD as [I T]. apply ways_act in I as [g' ->]; [|lia]. unfold looks_right in T. apply andb_true_iff in T as [T _].
  destruct (upright_view n g' f N21 T) as [->|[->|FC]].
  - assert (G : grid n (act n here f) = sampled n f) by (rewrite SG; apply grid_ext; reflexivity). rewrite G, UP in T. discriminate T.
  - unfold upright in T. apply andb_true_iff in T as [T _]. apply andb_true_iff in T as [T _]. rewrite finder_iff in T.
    specialize (T 0 0 ltac:(lia) ltac:(lia)). rewrite grid_at in T by lia. unfold act, flip in T. cbn [s_swap s_fx s_fy] in T. change (3 + 0) with 3 in T. rewrite F33 in T. discriminate T.
  - apply (PropsOrient.fourth_corner sjis C text opts sched q HN). intros dx dy DX DY. fold n. rewrite <- FC by assumption. symmetry. apply FO; lia.
Qed.

(* the hypotheses of C92_pixels are met by logos that are drawn elsewhere than in the middle: on a picture of 21 x 21 modules of one pixel
   without borders, a logo of 2 x 2 pixels cropped from (3, -5) on is drawn at (12, 4) instead of (9, 9) *)
Definition cropped : image := mkImage 3 (-5) 5 (-3) (fun x y => if x =? 3 then mkRGBA 255 0 0 255 else mkRGBA 0 0 255 255).
Example C92_example :
  (exists o, NewWithWriter (fun _ => None) [WithQRWidth 1; WithBorderWidth [0]; WithLogoImage (Some cropped)] = Some o /\ square 21 (newMatrix 21 21) /\
     getShape o = ShapeRectangle /\ o_halftone o = None /\ o_gradient o = None /\ painter_colors o /\ o_bgTransparent o = false /\ proper_logo o /\
     logo_fits o (img_w o 21) (img_h o 21) cropped /\ logo_covers (img_w o 21) (img_h o 21) cropped 12 4 /\ ~ in_logo (img_w o 21) (img_h o 21) cropped 12 4 /\
     in_logo (img_w o 21) (img_h o 21) cropped 9 9 /\ ~ logo_covers (img_w o 21) (img_h o 21) cropped 9 9 /\
     match draw (fun _ cv _ => cv) (fun _ _ _ _ => 0) (newMatrix 21 21) o with Some (_, _, cv, _) => cv 12 4 = mkRGBA 255 0 0 255 /\ cv 13 4 = mkRGBA 0 0 255 255 /\ cv 9 9 = color_WHITE | None => False end) /\
  (exists q, NewWith sample_sjis hello [] fair_schedule = Ok q).
Proof.
  split; [|destruct PropsNew.C01_C03_C08_example as (q & A & _); eauto].
  eexists. split; [reflexivity|]. split; [apply square_new; lia|]. split; [reflexivity|]. split; [reflexivity|]. split; [reflexivity|].
  split; [unfold painter_colors, opaque, good, byte; cbn; repeat split; lia|]. split; [reflexivity|]. split; [intros j F; injection F as <-; cbn; lia|].
  split; [unfold logo_fits; cbn; lia|]. split; [unfold logo_covers, logo_left, logo_top, img_w, img_h; cbn; lia|]. split; [unfold in_logo, logo_left, logo_top, img_w, img_h; cbn; lia|].
  split; [unfold in_logo, logo_left, logo_top, img_w, img_h; cbn; lia|]. split; [unfold logo_covers, logo_left, logo_top, img_w, img_h; cbn; lia|]. vm_compute. auto.
Qed.
Print Assumptions C92_pixels.
Print Assumptions C92_logo_keeps_its_colors.
Print Assumptions C92_displaced.
Print Assumptions C92_middle_iff_origin.
Print Assumptions C92_inside_iff.
Print Assumptions C92_readable_partial.
Print Assumptions C92_not_shown.
Print Assumptions C92_logo_is_shown_refuted.
Print Assumptions C92_finder_refuted.
Print Assumptions C92_unreadable_refuted.
