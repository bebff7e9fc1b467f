(* Theorems about the standard writer: properties C36-C41, C47, C48. *)
From Coq Require Import Lia.
From Verif Require Import ModelBase ModelMatrix ModelStandard.
From Verif Require Import SpecReader SpecMatrix SpecStandard ProofMatrix ProofEval ProofViews ProofStandard.

(* ---- C36 ---- *)
(* whatever the shape, logo, halftone picture and gradient are: draw does not fail, and its image is as Attribute says,
   if (negative) borders leave something of the image *)
Theorem C36_attribute :
  forall others scale n m o, square n m -> 0 <= img_w o n -> 0 <= img_h o n ->
  exists w h cv o', draw others scale m o = Some (w, h, cv, o') /\
    attribute o n = mkAttribute w h (b_top o, b_right o, b_bottom o, b_left o) (qrBlockWidth o) /\
    w = n * qrBlockWidth o + b_left o + b_right o /\ h = n * qrBlockWidth o + b_top o + b_bottom o /\
    attribute o' n = attribute o n.
Proof.
  intros others scale n m o HS SW SH. unfold draw, draw_with. destruct (plan_spec scale n m o HS) as (p & t & -> & -> & -> & _ & _ & _ & ST & _ & _).
  rewrite !Z.abs_eq by assumption. do 4 eexists. split; [reflexivity|]. destruct ST as [[A _] _]. destruct (same_fields _ _ A) as (_ & _ & _ & _ & _ & _ & F7 & _ & F9 & _).
  assert (EQ : qrBlockWidth (p_options p) = qrBlockWidth o) by (unfold qrBlockWidth; rewrite F7; reflexivity).
  unfold attribute. rewrite F9, EQ. unfold img_w, img_h, b_left, b_right, b_top, b_bottom. destruct (o_borders o) as [[[a b] c] d].
  repeat split. f_equal; lia.
Qed.

(* in general: draw does not fail, and the width and height of the image are the absolute values of those in Attribute *)
Theorem C36_size_general :
  forall others scale n m o, square n m ->
  exists cv o', draw others scale m o = Some (Z.abs (a_W (attribute o n)), Z.abs (a_H (attribute o n)), cv, o') /\ attribute o' n = attribute o n.
Proof.
  intros others scale n m o HS.
  assert (EA : a_W (attribute o n) = img_w o n /\ a_H (attribute o n) = img_h o n).
  { unfold attribute, img_w, img_h, b_left, b_right, b_top, b_bottom. destruct (o_borders o) as [[[a b] c] d]. cbn [a_W a_H]. lia. }
  destruct EA as [-> ->]. unfold draw, draw_with. destruct (plan_spec scale n m o HS) as (p & t & -> & -> & -> & _ & _ & _ & ST & _ & _).
  do 2 eexists. split; [reflexivity|]. destruct ST as [[A _] _]. destruct (same_fields _ _ A) as (_ & _ & _ & _ & _ & _ & F7 & _ & F9 & _).
  assert (EQ : qrBlockWidth (p_options p) = qrBlockWidth o) by (unfold qrBlockWidth; rewrite F7; reflexivity).
  unfold attribute; rewrite F9, EQ; reflexivity.
Qed.
(* Attribute gives a negative width for borders that are negative enough *)
Theorem C36_negative_size_refuted :
  ~ (forall others scale n m o, square n m -> exists w h cv o', draw others scale m o = Some (w, h, cv, o') /\ a_W (attribute o n) = w /\ a_H (attribute o n) = h).
Proof.
  intros G. pose (o := set_borders (-100, -100, -100, -100) defaultOptions).
  destruct (G (fun _ cv _ => cv) (fun _ _ _ _ => 0) 1 (newMatrix 1 1) o) as (w & h & cv & o' & E & EW & EH); [apply square_new; lia|].
  destruct (C36_size_general (fun _ cv _ => cv) (fun _ _ _ _ => 0) 1 (newMatrix 1 1) o) as (cv2 & o2 & E2 & _); [apply square_new; lia|].
  rewrite E in E2. injection E2 as E2 _ _ _. rewrite E2 in EW. cbv in EW. discriminate EW.
Qed.

(* the block width is the value given to WithQRWidth, except that 0 stands for the default *)
Theorem C36_block_width :
  forall scan opts o, NewWithWriter scan opts = Some o ->
  (forall k, In (WithQRWidth k) opts -> 0 <= k <= 255) ->
  1 <= qrBlockWidth o <= 255 /\
  (forall opts' k, opts = opts' ++ [WithQRWidth k] -> qrBlockWidth o = if k =? 0 then 20 else k).
Proof.
  intros scan opts o HN HK. split; [apply block_width_range|]. intros opts' k ->. unfold NewWithWriter in HN. rewrite fold_left_app in HN. cbn [fold_left] in HN.
  destruct (fold_left _ opts' _) as [o1|]; [|discriminate HN]. cbn [apply_option] in HN. injection HN as <-.
  assert (0 <= k <= 255) by (apply HK, in_or_app; right; left; reflexivity). unfold qrBlockWidth. cbn [o_qrWidth set_qrWidth].
  destruct (Z.leb_spec k 0), (Z.ltb_spec 255 k), (Z.eqb_spec k 0); cbn [orb]; lia.
Qed.

(* ---- C37 ---- *)
(* rectangle shape; no logo, halftone or gradient; an opaque foreground; a background that is opaque or made transparent.
   The borders may be anything (negative borders cut the image). *)
Theorem C37_pixels_partial :
  forall others scale n m o, square n m -> getShape o = ShapeRectangle -> o_logo o = None -> o_halftone o = None -> o_gradient o = None ->
  painter_colors o ->
  exists cv o', draw others scale m o = Some (Z.abs (img_w o n), Z.abs (img_h o n), cv, o') /\
    forall px py, 0 <= px < img_w o n -> 0 <= py < img_h o n ->
      (forall x y, 0 <= x < n -> 0 <= y < n -> in_module o x y px py ->
         if module_at (m_bitmap m) x y then cv px py = o_qrColor o
         else if o_bgTransparent o then c_a (cv px py) = 0 else cv px py = o_bgColor o) /\
      (~ in_symbol o n px py -> if o_bgTransparent o then c_a (cv px py) = 0 else cv px py = o_bgColor o).
Proof.
  intros others scale n m o HS EG EL EH EGr HC. destruct (pixels others scale n m o HS EG EH EGr HC) as (cv & o' & E & ST & HP).
  exists cv, o'. split; auto. intros px py Hx Hy. destruct (HP px py Hx Hy) as (c & [B1 B2] & EC).
  unfold logo_place in EC. rewrite EL in EC. rewrite EC.
  assert (NS : forall x y, safe_b o n x y = false) by (intros; unfold safe_b, logo_info; rewrite EL; reflexivity).
  split.
  - intros x y Rx Ry HM. rewrite (B1 x y Rx Ry HM), NS. cbn [negb]. rewrite andb_true_r. unfold border_color.
    destruct (module_at (m_bitmap m) x y); [reflexivity|]. destruct (o_bgTransparent o); reflexivity.
  - intros HN. rewrite (B2 HN). unfold border_color. destruct (o_bgTransparent o); reflexivity.
Qed.

Definition sample : Matrix := m_set (m_set (newMatrix 2 2) 1 0 QRValue_DATA_V1) 0 1 QRValue_FINDER_V0.

(* the hypotheses hold of the default options, with block width 1 and border 1, 0, 0, 1 *)
Example C37_example :
  exists o, NewWithWriter (fun _ => None) [WithQRWidth 1; WithBorderWidth [1; 0; 0; 1]] = Some o /\
    square 2 sample /\ getShape o = ShapeRectangle /\ o_logo o = None /\ o_halftone o = None /\ o_gradient o = None /\ painter_colors o /\
    rows (draw (fun _ cv _ => cv) (fun _ _ _ _ => 0) sample o) =
    Some [[color_WHITE; color_WHITE; color_WHITE]; [color_WHITE; color_WHITE; color_BLACK]; [color_WHITE; color_WHITE; color_WHITE]].
Proof.
  eexists. split; [reflexivity|]. split; [do 2 apply square_set; apply square_new; lia|]. do 4 (split; [reflexivity|]).
  split; [unfold painter_colors, opaque, good, byte; cbn; repeat split; lia|]. vm_compute. reflexivity.
Qed.

(* "light modules and border have the background colour" fails for a translucent background: it is painted twice under the
   symbol and once on the border *)
Theorem C37_translucent_background_refuted :
  ~ (forall others scale n m o, square n m -> getShape o = ShapeRectangle -> o_logo o = None -> o_halftone o = None -> o_gradient o = None ->
     good (o_qrColor o) -> good (o_bgColor o) -> o_bgTransparent o = false ->
     exists cv o', draw others scale m o = Some (Z.abs (img_w o n), Z.abs (img_h o n), cv, o') /\
       forall px py, 0 <= px < img_w o n -> 0 <= py < img_h o n ->
       (forall x y, 0 <= x < n -> 0 <= y < n -> in_module o x y px py -> module_at (m_bitmap m) x y = false -> cv px py = o_bgColor o)).
Proof.
  intros HA. pose (o := set_bgColor (mkRGBA 100 100 100 100) defaultOptions).
  destruct (HA (fun _ cv _ => cv) (fun _ _ _ _ => 0) 1 (newMatrix 1 1) o) as (cv & o' & E & HP); try reflexivity.
  { apply square_new. lia. } { unfold good, byte; cbn; lia. } { unfold good, byte; cbn; lia. }
  pose proof (HP 40 40 ltac:(vm_compute; split; congruence) ltac:(vm_compute; split; congruence) 0 0 ltac:(lia) ltac:(lia)) as F.
  assert (G : cv 40 40 = o_bgColor o).
  { apply F; [unfold in_module; cbn; lia|vm_compute; reflexivity]. }
  assert (X : match draw (fun _ cv _ => cv) (fun _ _ _ _ => 0) (newMatrix 1 1) o with Some (_, _, cv, _) => cv 40 40 | None => o_bgColor o end = o_bgColor o) by (rewrite E; exact G).
  clear - X. vm_compute in X. discriminate X.
Qed.

(* ---- C38 ---- *)
Theorem C38_border_widths :
  forall scan o ws,
  exists o', apply_option scan o (WithBorderWidth ws) = Some o' /\
    o' = set_borders (b_top o', b_right o', b_bottom o', b_left o') o /\
    (length ws = 0%nat -> b_top o' = 40 /\ b_right o' = 40 /\ b_bottom o' = 40 /\ b_left o' = 40) /\
    (forall a, ws = [a] -> b_top o' = a /\ b_right o' = a /\ b_bottom o' = a /\ b_left o' = a) /\
    (forall a b r, ws = a :: b :: r -> (length r <= 1)%nat -> b_top o' = a /\ b_right o' = b /\ b_bottom o' = a /\ b_left o' = b) /\
    (forall a b c d r, ws = a :: b :: c :: d :: r -> b_top o' = a /\ b_right o' = b /\ b_bottom o' = c /\ b_left o' = d).
Proof.
  intros scan o ws. eexists. split; [reflexivity|]. unfold b_top, b_right, b_bottom, b_left. cbn [o_borders set_borders].
  split. { destruct (border_widths ws) as [[[a b] c] d]. reflexivity. }
  destruct ws as [|a [|b [|c [|d r]]]]; cbn [border_widths length];
  (split; [intros F; try discriminate F; repeat split|]);
  (split; [intros a' F; try discriminate F; injection F as <-; repeat split|]);
  (split; [intros a' b' r' F HL; try discriminate F; injection F as <- <- <-; cbn [length] in HL; try lia; repeat split|]);
  (intros a' b' c' d' r' F; try discriminate F; injection F as <- <- <- <- <-; repeat split).
Qed.

(* ---- C39 ---- *)
(* the logo is drawn, at the centre, iff it fits *)
Theorem C39_logo_drawn_iff_it_fits :
  forall scale n m o p, square n m -> draw_plan scale m o = Some p ->
  forall i x y, p_logo p = Some (i, x, y) <->
    o_logo o = Some i /\ logo_fits o (img_w o n) (img_h o n) i /\ x = logo_left (img_w o n) i /\ y = logo_top (img_h o n) i.
Proof.
  intros scale n m o p HS E i x y. destruct (plan_spec scale n m o HS) as (p' & t & E' & _ & _ & _ & _ & _ & _ & _ & EL).
  rewrite E in E'. injection E' as <-. rewrite EL. apply place_spec.
Qed.

(* a logo that fits (multiplier at least 1) lies inside the image, centred to within a pixel *)
Theorem C39_logo_centred :
  forall o w h i, logo_fits o w h i -> 1 <= o_multiplier o -> i_x0 i <= i_x1 i -> i_y0 i <= i_y1 i ->
  let lw := i_x1 i - i_x0 i in let lh := i_y1 i - i_y0 i in
  0 <= logo_left w i /\ logo_left w i + lw <= w /\ 0 <= w - (logo_left w i + lw) - logo_left w i <= 1 /\
  0 <= logo_top h i /\ logo_top h i + lh <= h /\ 0 <= h - (logo_top h i + lh) - logo_top h i <= 1.
Proof.
  intros o w h i [FW FH] HM HX HY. cbv zeta. unfold logo_left, logo_top.
  assert (i_x1 i - i_x0 i <= w) by nia. assert (i_y1 i - i_y0 i <= h) by nia.
  rewrite !Z.quot_div_nonneg by lia.
  pose proof (Z.div_mod (w - (i_x1 i - i_x0 i)) 2 ltac:(lia)). pose proof (Z.mod_pos_bound (w - (i_x1 i - i_x0 i)) 2 ltac:(lia)).
  pose proof (Z.div_mod (h - (i_y1 i - i_y0 i)) 2 ltac:(lia)). pose proof (Z.mod_pos_bound (h - (i_y1 i - i_y0 i)) 2 ltac:(lia)). lia.
Qed.

(* any shape: the shape is called for a module unless the module is dark and in the safe zone *)
Theorem C39_safe_zone :
  forall scale n m o p, square n m -> proper_logo o -> draw_plan scale m o = Some p ->
  forall x y, 0 <= x < n -> 0 <= y < n ->
  (exists k, In k (p_calls p) /\ in_module o x y (k_x k) (k_y k)) <->
  ~ (module_at (m_bitmap m) x y = true /\ in_safe_zone o (img_w o n) (img_h o n) x y).
Proof. exact safe_zone_calls. Qed.

(* rectangle shape: every pixel *)
Theorem C39_pixels :
  forall others scale n m o, square n m -> getShape o = ShapeRectangle -> o_halftone o = None -> o_gradient o = None ->
  painter_colors o -> o_bgTransparent o = false -> proper_logo o ->
  (forall i, o_logo o = Some i -> i_x0 i = 0 /\ i_y0 i = 0) ->
  exists cv o', draw others scale m o = Some (Z.abs (img_w o n), Z.abs (img_h o n), cv, o') /\
    forall px py, 0 <= px < img_w o n -> 0 <= py < img_h o n ->
    exists c,
      (forall x y, 0 <= x < n -> 0 <= y < n -> in_module o x y px py -> module_at (m_bitmap m) x y = true ->
         ~ in_safe_zone o (img_w o n) (img_h o n) x y -> c = o_qrColor o) /\
      (forall x y, 0 <= x < n -> 0 <= y < n -> in_module o x y px py ->
         module_at (m_bitmap m) x y = false \/ in_safe_zone o (img_w o n) (img_h o n) x y -> c = o_bgColor o) /\
      (~ in_symbol o n px py -> c = o_bgColor o) /\
      (forall i, o_logo o = Some i -> logo_fits o (img_w o n) (img_h o n) i -> in_logo (img_w o n) (img_h o n) i px py ->
         cv px py = over_image c (i_at i (px - logo_left (img_w o n) i) (py - logo_top (img_h o n) i))) /\
      ((forall i, o_logo o = Some i -> logo_fits o (img_w o n) (img_h o n) i -> ~ in_logo (img_w o n) (img_h o n) i px py) -> cv px py = c).
Proof. exact logo_pixels. Qed.

(* an opaque logo pixel is shown as it is *)
Theorem C39_opaque_logo_pixel : forall c d, good c -> opaque d -> over_image c d = d.
Proof. exact over_image_opaque. Qed.

(* ---- C40 ---- *)
(* as the property has it, but for the coordinates of the safe zone, which are exchanged: the bit of module (a, b) is set iff
   it is dark and (b, a) is not in the safe zone.  [n >= 1] *)
Theorem C40_neighbours_partial :
  forall scale n m o p, square n m -> 1 <= n -> proper_logo o -> o_halftone o = None -> draw_plan scale m o = Some p ->
  forall k, In k (p_calls p) ->
  exists x y, 0 <= x < n /\ 0 <= y < n /\ k_x k = b_left o + x * qrBlockWidth o /\ k_y k = b_top o + y * qrBlockWidth o /\
    (forall i dx dy, In (i, (dx, dy)) neighbour_bits ->
       (Z.testbit (k_neighbours k) i = true <->
        dark m (x + dx) (y + dy) = true /\ ~ in_safe_zone o (img_w o n) (img_h o n) (y + dy) (x + dx))) /\
    (forall i, 8 < i -> Z.testbit (k_neighbours k) i = false).
Proof. exact neighbour_calls. Qed.

(* so it is right without safe zone, and when image and logo are square and left and top borders agree *)
Theorem C40_neighbours_symmetric_partial :
  forall scale n m o p, square n m -> 1 <= n -> proper_logo o -> o_halftone o = None -> draw_plan scale m o = Some p ->
  (o_safeZone o = false \/ o_logo o = None \/
   (b_left o = b_top o /\ b_right o = b_bottom o /\ forall i, o_logo o = Some i -> i_x1 i - i_x0 i = i_y1 i - i_y0 i)) ->
  forall k, In k (p_calls p) ->
  exists x y, 0 <= x < n /\ 0 <= y < n /\ k_x k = b_left o + x * qrBlockWidth o /\ k_y k = b_top o + y * qrBlockWidth o /\
    (forall i dx dy, In (i, (dx, dy)) neighbour_bits ->
       (Z.testbit (k_neighbours k) i = true <->
        dark m (x + dx) (y + dy) = true /\ ~ in_safe_zone o (img_w o n) (img_h o n) (x + dx) (y + dy))) /\
    (forall i, 8 < i -> Z.testbit (k_neighbours k) i = false).
Proof. exact neighbour_calls_symmetric. Qed.

(* a 3 x 3 symbol of dark modules, a logo of 3 x 1 pixels, blocks of one pixel: the safe zone is the middle row *)
Definition dark3 : Matrix := mkMatrix (repeat (repeat QRValue_DATA_V1 3) 3) 3 3.
Definition wide_logo : image := mkImage 0 0 3 1 (fun _ _ => mkRGBA 9 9 9 255).
Definition wide_options : list image_option :=
  [WithQRWidth 1; WithBorderWidth [0]; WithLogoImage (Some wide_logo); WithLogoSizeMultiplier 1; WithLogoSafeZone].

Lemma square_dark3 : square 3 dark3.
Proof. repeat split; cbn; try lia. repeat constructor. Qed.

Example C39_example :
  exists o, NewWithWriter (fun _ => None) wide_options = Some o /\ square 3 dark3 /\ proper_logo o /\ painter_colors o /\
    (forall i, o_logo o = Some i -> i_x0 i = 0 /\ i_y0 i = 0 /\ logo_fits o (img_w o 3) (img_h o 3) i) /\
    in_safe_zone o (img_w o 3) (img_h o 3) 0 1 /\ ~ in_safe_zone o (img_w o 3) (img_h o 3) 1 0 /\
    rows (draw (fun _ cv _ => cv) (fun _ _ _ _ => 0) dark3 o) =
    Some [[color_BLACK; color_BLACK; color_BLACK]; [mkRGBA 9 9 9 255; mkRGBA 9 9 9 255; mkRGBA 9 9 9 255]; [color_BLACK; color_BLACK; color_BLACK]].
Proof.
  eexists. split; [reflexivity|]. split; [apply square_dark3|].
  split; [intros i [= <-]; cbn; lia|]. split; [unfold painter_colors, opaque, good, byte; cbn; repeat split; lia|].
  split; [intros i [= <-]; unfold logo_fits; cbn; lia|].
  split. { split; [reflexivity|]. exists wide_logo. split; [reflexivity|]. split; [unfold logo_fits; cbn; lia|]. exists 0, 1. unfold in_module, in_logo. cbn. lia. }
  split. { intros (_ & i & [= <-] & _ & px & py & (M1 & M2) & L1 & L2). cbn in *. lia. }
  vm_compute. reflexivity.
Qed.

(* the property as stated, without exchanging the coordinates, fails *)
Theorem C40_neighbours_refuted :
  ~ (forall scale n m o p, square n m -> 1 <= n -> proper_logo o -> o_halftone o = None -> draw_plan scale m o = Some p ->
     forall k, In k (p_calls p) ->
     exists x y, 0 <= x < n /\ 0 <= y < n /\ k_x k = b_left o + x * qrBlockWidth o /\ k_y k = b_top o + y * qrBlockWidth o /\
       (forall i dx dy, In (i, (dx, dy)) neighbour_bits ->
          (Z.testbit (k_neighbours k) i = true <->
           dark m (x + dx) (y + dy) = true /\ ~ in_safe_zone o (img_w o n) (img_h o n) (x + dx) (y + dy)))).
Proof.
  intros HA. destruct C39_example as (o & EO & HS & HP & _ & _ & HZ & _). cbv in EO. injection EO as EO. subst o.
  match type of HZ with in_safe_zone ?oo _ _ _ _ => set (o := oo) in * end.
  destruct (draw_plan (fun _ _ _ _ => 0) dark3 o) as [p|] eqn:EP; [|vm_compute in EP; discriminate EP].
  pose proof (HA _ _ _ _ p HS ltac:(lia) HP eq_refl EP (mkCall false 0 0 0 0 1 1 color_BLACK 144)) as F.
  destruct F as (x & y & Hx & Hy & KX & KY & HB).
  { vm_compute in EP. injection EP as <-. left. reflexivity. }
  cbn in KX, KY. assert (x = 0) as -> by lia. assert (y = 0) as -> by lia.
  destruct (proj1 (HB 7 0 1 ltac:(cbn; tauto)) eq_refl) as [_ HN]. apply HN. exact HZ.
Qed.

(* ---- C41 ---- *)
(* what is stored is the low byte of each 16-bit channel, so it is right iff that equals the high byte *)
Theorem C41_exact_iff_partial :
  forall c, color_ok c ->
  (parseFromColor c = rgba8 c <->
   match c with ColorRGBA _ => True | ColorOther r g b a => r mod 256 = r / 256 /\ g mod 256 = g / 256 /\ b mod 256 = b / 256 /\ a mod 256 = a / 256 end).
Proof.
  intros [c|r g b a] _; cbn [parseFromColor rgba8]; [tauto|]. split; [intros [= -> -> -> ->]; auto|]. intros (-> & -> & -> & ->). reflexivity.
Qed.

(* color.RGBA, color.Gray and opaque color.NRGBA are stored right *)
Theorem C41_right_for_opaque_types_partial :
  (forall c, parseFromColor (ColorRGBA c) = c) /\
  (forall y, byte y -> parseFromColor (Gray y) = mkRGBA y y y 255) /\
  (forall r g b, byte r -> byte g -> byte b -> parseFromColor (NRGBA r g b 255) = mkRGBA r g b 255).
Proof.
  assert (K : forall y, byte y -> (y * 257) mod 256 = y).
  { intros y HY. replace (y * 257) with (y + y * 256) by lia. rewrite Z.mod_add by lia. apply Z.mod_small. exact HY. }
  split; [reflexivity|]. split.
  - intros y HY. unfold Gray, parseFromColor. rewrite K by auto. reflexivity.
  - intros r g b HR HG HB. unfold NRGBA, parseFromColor. rewrite !Z.div_mul by lia. rewrite !K by auto. reflexivity.
Qed.

(* a half-transparent red NRGBA and a 16-bit grey are stored wrong *)
Theorem C41_colour_refuted : ~ (forall c, color_ok c -> parseFromColor c = rgba8 c).
Proof. intros HA. pose proof (HA (NRGBA 200 0 0 100) ltac:(cbn; lia)) as F. vm_compute in F. discriminate F. Qed.

Example C41_gray16_example : color_ok (Gray16 0x80ff) /\ parseFromColor (Gray16 0x80ff) = color_WHITE /\ rgba8 (Gray16 0x80ff) = mkRGBA 128 128 128 255.
Proof. cbn. repeat split; lia. Qed.

(* ---- C48 ---- *)
Theorem C48_hex_colours :
  forall scan o,
  (forall r1 r2 g1 g2 b1 b2 c1 c2 c3 c4 c5 c6,
     hex_char r1 c1 -> hex_char r2 c2 -> hex_char g1 c3 -> hex_char g2 c4 -> hex_char b1 c5 -> hex_char b2 c6 ->
     let c := mkRGBA (16 * r1 + r2) (16 * g1 + g2) (16 * b1 + b2) 255 in
     apply_option scan o (WithFgColorRGBHex [35; c1; c2; c3; c4; c5; c6]) = Some (set_qrColor c o) /\
     apply_option scan o (WithBgColorRGBHex [35; c1; c2; c3; c4; c5; c6]) = Some (set_bgColor c o)) /\
  (forall r g b c1 c2 c3, hex_char r c1 -> hex_char g c2 -> hex_char b c3 ->
     let c := mkRGBA (16 * r + r) (16 * g + g) (16 * b + b) 255 in
     apply_option scan o (WithFgColorRGBHex [35; c1; c2; c3]) = Some (set_qrColor c o) /\
     apply_option scan o (WithBgColorRGBHex [35; c1; c2; c3]) = Some (set_bgColor c o)) /\
  (forall s, length s <> 4%nat -> length s <> 7%nat ->
     apply_option scan o (WithFgColorRGBHex s) = None /\
     apply_option scan o (WithBgColorRGBHex s) = match s with [] => Some o | _ => None end).
Proof. exact hex_options. Qed.

Example C48_example : hex_char 13 100 /\ hex_char 13 68 /\ hex_char 7 55 /\
  parseFromHex (fun _ => None) [35; 100; 68; 55; 55; 48; 48] = Some (mkRGBA 221 119 0 255).
Proof. unfold hex_char. split; [lia|]. split; [lia|]. split; [lia|]. vm_compute. reflexivity. Qed.

(* ---- C47 ---- *)
(* without WithBgTransparent a Write leaves the options as they are, so the next Write of the same matrix draws the same;
   with it, and the rectangle shape, no PNG decoder can tell the second image from the first *)
Theorem C47_repeatable_partial :
  forall others scale n m o, square n m ->
  exists w h cv o', draw others scale m o = Some (w, h, cv, o') /\
    (o_bgTransparent o = false -> o' = o) /\
    (o_bgTransparent o = true -> getShape o = ShapeRectangle -> o_logo o = None -> o_halftone o = None -> o_gradient o = None -> painter_colors o ->
     exists cv' o'', draw others scale m o' = Some (w, h, cv', o'') /\
       forall px py, 0 <= px < img_w o n -> 0 <= py < img_h o n -> png_same (cv px py) (cv' px py)).
Proof. exact repeatable. Qed.

(* but the pixels do change: with the default (JPEG) encoder, which ignores alpha, the second image is black all over *)
Theorem C47_repeatable_refuted :
  exists o, NewWithWriter (fun _ => None) [WithBgTransparent; WithQRWidth 1; WithBorderWidth [1; 0; 0; 1]] = Some o /\ o_encoder o = JpegEncoder /\
  let first := draw (fun _ cv _ => cv) (fun _ _ _ _ => 0) sample o in
  let second := match first with Some (_, _, _, o') => draw (fun _ cv _ => cv) (fun _ _ _ _ => 0) sample o' | None => None end in
  let W := mkRGBA 255 255 255 0 in let B := color_BLACK in let T := mkRGBA 0 0 0 0 in
  rows first = Some [[W; W; W]; [W; W; B]; [W; W; W]] /\ rows second = Some [[T; T; T]; [T; T; B]; [T; T; T]].
Proof. eexists. split; [reflexivity|]. split; [reflexivity|]. cbv zeta. split; vm_compute; reflexivity. Qed.

Print Assumptions C36_attribute.
Print Assumptions C36_size_general.
Print Assumptions C36_negative_size_refuted.
Print Assumptions C36_block_width.
Print Assumptions C37_pixels_partial.
Print Assumptions C37_translucent_background_refuted.
Print Assumptions C38_border_widths.
Print Assumptions C39_logo_drawn_iff_it_fits.
Print Assumptions C39_logo_centred.
Print Assumptions C39_safe_zone.
Print Assumptions C39_pixels.
Print Assumptions C39_opaque_logo_pixel.
Print Assumptions C40_neighbours_partial.
Print Assumptions C40_neighbours_symmetric_partial.
Print Assumptions C40_neighbours_refuted.
Print Assumptions C41_exact_iff_partial.
Print Assumptions C41_right_for_opaque_types_partial.
Print Assumptions C41_colour_refuted.
Print Assumptions C47_repeatable_partial.
Print Assumptions C47_repeatable_refuted.
Print Assumptions C48_hex_colours.
