(* C69: the drawing options of the standard writer do what they say. *)
From Coq Require Import Lia.
From Verif Require Import ModelBase ModelMatrix ModelStandard SpecReader SpecMatrix SpecStandard SpecMedium SpecShape SpecOptions ProofBase ProofMatrix ProofStandard ProofShape ProofOptions.
From Verif Require PropsStandard ProofViews.

(* every setting is what the last option that sets it sets it to; nil arguments and a logo or halftone file that cannot be read set nothing *)
Theorem C69_last_option_wins :
  forall scan opts, Forall accepted opts ->
  exists o, NewWithWriter scan opts = Some o /\
    last_set sets_foreground opts (mkRGBA 0 0 0 255) (o_qrColor o) /\
    last_set sets_background opts (mkRGBA 255 255 255 255) (o_bgColor o) /\
    (o_bgTransparent o = true <-> In WithBgTransparent opts) /\
    last_set sets_block opts 20 (qrBlockWidth o) /\
    last_set sets_borders opts (40, 40, 40, 40) (o_borders o) /\
    last_set sets_shape opts ShapeRectangle (getShape o) /\
    last_set sets_encoder opts JpegEncoder (o_encoder o) /\
    last_set sets_gradient opts None (o_gradient o) /\
    last_set sets_logo opts None (o_logo o) /\
    last_set sets_multiplier opts 5 (o_multiplier o) /\
    (o_safeZone o = true <-> In WithLogoSafeZone opts) /\
    last_set sets_halftone opts None (o_halftone o).
Proof. exact as_told_all. Qed.

(* one bad colour or format panics *)
Theorem C69_rejected :
  forall scan opts opt, In opt opts -> rejected opt -> NewWithWriter scan opts = None.
Proof.
  intros scan opts opt I R. apply in_split in I as (b & a & ->). unfold NewWithWriter. rewrite fold_left_app. cbn [fold_left].
  assert (N : forall l, fold_left (fun o opt => match o with Some o => apply_option scan o opt | None => None end) l None = None) by (induction l; auto).
  destruct (fold_left _ b _) as [o|]; [|apply N].
  assert (E : apply_option scan o opt = None).
  { destruct opt; cbn [rejected] in R; try contradiction.
    - destruct R as (R0 & R4 & R7). destruct (hex_options scan o) as (_ & _ & K). destruct (K _ R4 R7) as [_ E]. rewrite E. destruct hex; congruence.
    - destruct R as (R4 & R7). destruct (hex_options scan o) as (_ & _ & K). apply (K _ R4 R7).
    - destruct R as (R0 & R1). cbn [apply_option]. destruct (Z.eqb_spec format 0), (Z.eqb_spec format 1); congruence. }
  rewrite E. apply N.
Qed.

(* the picture of a writer with colours, block width, borders and formats only: every pixel is told by the options *)
Theorem C69_plain_picture :
  forall scan opts fg bg bw top right_ bottom left_, Forall accepted opts -> Forall plain_option opts ->
  last_set sets_foreground opts (mkRGBA 0 0 0 255) fg -> last_set sets_background opts (mkRGBA 255 255 255 255) bg ->
  last_set sets_block opts 20 bw -> last_set sets_borders opts (40, 40, 40, 40) (top, right_, bottom, left_) ->
  opaque fg -> opaque bg ->
  exists o, NewWithWriter scan opts = Some o /\
  forall others scale n m, square n m ->
  let w := n * bw + left_ + right_ in let h := n * bw + top + bottom in
  exists cv o', draw others scale m o = Some (Z.abs w, Z.abs h, cv, o') /\
    forall px py, 0 <= px < w -> 0 <= py < h ->
      (forall x y, 0 <= x < n -> 0 <= y < n -> left_ + x * bw <= px < left_ + (x + 1) * bw -> top + y * bw <= py < top + (y + 1) * bw ->
         if module_at (m_bitmap m) x y then cv px py = fg else is_ground opts bg (cv px py)) /\
      (~ (left_ <= px < left_ + n * bw /\ top <= py < top + n * bw) -> is_ground opts bg (cv px py)).
Proof.
  intros scan opts fg bg bw top right_ bottom left_ AC PL L1 L2 L4 L5 OF OB.
  destruct (as_told_all scan opts AC) as (o & E & F1 & F2 & F3 & F4 & F5 & F6 & _ & F8 & F9 & _ & _ & F12).
  exists o. split; [exact E|]. intros others scale n m HS w h.
  apply (last_unique _ _ _ _ _ foreground_unique L1) in F1. apply (last_unique _ _ _ _ _ background_unique L2) in F2.
  apply (last_unique _ _ _ _ _ block_unique L4) in F4. apply (last_unique _ _ _ _ _ borders_unique L5) in F5.
  rewrite Forall_forall in PL.
  assert (N : forall {A} (sets : image_option -> A -> Prop) d v, (forall opt w, plain_option opt -> sets opt w -> w = d) -> last_set sets opts d v -> v = d).
  { intros A sets d v K [(b & p & a & EO & S & _)|[_ V]]; [|exact V]. apply (K p); [apply PL; rewrite EO; apply in_elt|exact S]. }
  apply N in F6; [|intros opt x P S; destruct S; cbn in P; try contradiction; reflexivity].
  apply N in F8; [|intros opt x P S; destruct S; cbn in P; contradiction].
  apply N in F9; [|intros opt x P S; destruct S; cbn in P; contradiction].
  apply N in F12; [|intros opt x P S; destruct S; cbn in P; contradiction].
  destruct (PropsStandard.C37_pixels_partial others scale n m o HS F6 F9 F12 F8) as (cv & o' & ED & HP).
  { subst fg bg. split; [exact OF|]. split; [apply OB|]. intros _. apply OB. }
  assert (EW : img_w o n = w) by (unfold img_w, b_left, b_right, w; rewrite <- F4, <- F5; lia).
  assert (EH : img_h o n = h) by (unfold img_h, b_top, b_bottom, h; rewrite <- F4, <- F5; lia).
  rewrite EW, EH in ED, HP. exists cv, o'. split; [exact ED|]. intros px py Hx Hy. destruct (HP px py Hx Hy) as [P1 P2].
  assert (G : forall c, (if o_bgTransparent o then c_a c = 0 else c = o_bgColor o) -> is_ground opts bg c).
  { intros c. unfold is_ground. rewrite <- F2. destruct (o_bgTransparent o).
    - intros EA. split; [auto|]. intros NI. exfalso. apply NI, F3. reflexivity.
    - intros EA. split; [|auto]. intros I. apply F3 in I. discriminate I. }
  split.
  - intros x y X Y IX IY. specialize (P1 x y X Y). unfold in_module, b_left, b_top in P1. rewrite <- F4, <- F5 in P1. specialize (P1 (conj IX IY)).
    destruct (module_at (m_bitmap m) x y); [congruence|apply G, P1].
  - intros NI. apply G, P2. unfold in_symbol, b_left, b_top. rewrite <- F4, <- F5. exact NI.
Qed.

(* no options: black squares of 20 pixels on white, 40 pixels of border, JPEG *)
Theorem C69_default_picture :
  forall scan, exists o, NewWithWriter scan [] = Some o /\ o_encoder o = JpegEncoder /\
  forall others scale n m, square n m ->
  exists cv o', draw others scale m o = Some (20 * n + 80, 20 * n + 80, cv, o') /\
    forall px py, 0 <= px < 20 * n + 80 -> 0 <= py < 20 * n + 80 ->
      (forall x y, 0 <= x < n -> 0 <= y < n -> 40 + 20 * x <= px < 60 + 20 * x -> 40 + 20 * y <= py < 60 + 20 * y ->
         cv px py = if module_at (m_bitmap m) x y then mkRGBA 0 0 0 255 else mkRGBA 255 255 255 255) /\
      (px < 40 \/ 20 * n + 40 <= px \/ py < 40 \/ 20 * n + 40 <= py -> cv px py = mkRGBA 255 255 255 255).
Proof.
  intros scan.
  destruct (C69_plain_picture scan [] (mkRGBA 0 0 0 255) (mkRGBA 255 255 255 255) 20 40 40 40 40) as (o & E & HP);
  try apply last_nil; try (constructor; fail); try (unfold opaque, good, byte; cbn; lia).
  exists o. split; [exact E|]. split; [unfold NewWithWriter in E; cbn in E; injection E as <-; reflexivity|].
  intros others scale n m HS. destruct (HP others scale n m HS) as (cv & o' & ED & HQ). pose proof HS as ((N1 & N2 & _) & EW & _). exists cv, o'.
  rewrite !Z.abs_eq in ED by nia. split; [replace (20 * n + 80) with (n * 20 + 40 + 40) by lia; exact ED|].
  intros px py Hx Hy. destruct (HQ px py ltac:(lia) ltac:(lia)) as [P1 P2]. assert (NI : ~ In WithBgTransparent []) by (intros []). split.
  - intros x y X Y IX IY. specialize (P1 x y X Y ltac:(lia) ltac:(lia)). destruct (module_at (m_bitmap m) x y); [exact P1|apply P1, NI].
  - intros OUT. apply P2; [lia|exact NI].
Qed.

(* circles: the middle of a module shows it, its four corners are ground; from blocks of 9 pixels on (and for 7) *)
Theorem C69_circles :
  forall edge others scale n m o, square n m -> getShape o = ShapeCircle -> others ShapeCircle = circle_draw edge -> 
  o_halftone o = None -> o_gradient o = None -> o_logo o = None -> painter_colors o -> (qrBlockWidth o = 7 \/ 9 <= qrBlockWidth o) ->
  exists cv o', draw others scale m o = Some (Z.abs (img_w o n), Z.abs (img_h o n), cv, o') /\
    forall x y, 0 <= x < n -> 0 <= y < n -> forall px py, 0 <= px < img_w o n -> 0 <= py < img_h o n ->
      let bw := qrBlockWidth o in let x0 := b_left o + x * bw in let y0 := b_top o + y * bw in
      (px = x0 + bw / 2 -> py = y0 + bw / 2 -> if module_at (m_bitmap m) x y then cv px py = o_qrColor o else is_light o (cv px py)) /\
      (px = x0 \/ px = x0 + bw - 1 -> py = y0 \/ py = y0 + bw - 1 -> is_light o (cv px py)).
Proof.
  intros edge others scale n m o HS EG EO EH EGr EL HC HB.
  assert (CS : chosen_shape others o = circle_draw edge) by (unfold chosen_shape; rewrite EG; exact EO).
  set (bw := qrBlockWidth o) in *. assert (B2 : 0 <= bw / 2 < bw) by (split; [apply Z.div_pos; lia|apply Z.div_lt; lia]).
  assert (PS : proper_shape (chosen_shape others o) bw (bw / 2)) by (rewrite CS; apply circle_proper; lia).
  destruct (shape_samples others scale n m o (bw / 2) HS PS B2 EH EGr HC) as (cv & o' & E & HP).
  { intros i F. congruence. } { intros i F. congruence. }
  exists cv, o'. split; [exact E|]. intros x y X Y px py PX PY. cbv zeta. split.
  - intros EX EY. destruct (HP px py PX PY) as [P1 _]; [intros i F; congruence|]. destruct (P1 x y X Y) as [Q1 Q2]; [unfold sample_x; fold bw; lia|unfold sample_y; fold bw; lia|].
    destruct (module_at (m_bitmap m) x y); [apply Q1; [reflexivity|]|apply Q2; left; reflexivity]. intros (_ & i & F & _). congruence.
  - intros CX CY. destruct (draw_shape_spec others scale n m o HS) as (t & o2 & E2 & _ & _). rewrite E in E2. injection E2 as EC _.
    apply (f_equal (fun f => f px py)) in EC. rewrite EC. rewrite EGr, CS. cbv zeta.
    assert (LP : logo_place o n = None) by (unfold logo_place; rewrite EL; reflexivity). rewrite LP.
    assert (GB : good (border_color o)) by (apply good_border, HC).
    assert (K : forall l cv, (forall k, In k l -> exists x' y', k_x k = x' * bw + b_left o /\ k_tx k = 0 /\ k_y k = y' * bw + b_top o /\ k_ty k = 0 /\ k_w k = bw /\ k_h k = bw) ->
      fold_left (circle_draw edge) l cv px py = cv px py).
    { induction l as [|k l IH]; intros cv0 HK; [reflexivity|]. cbn [fold_left]. rewrite IH by (intros k' I; apply HK; right; exact I).
      destruct (HK k (or_introl eq_refl)) as (x' & y' & KX & KTX & KY & KTY & KW & KH). unfold circle_draw.
      assert (ER : circle_radius k = bw / 2). { unfold circle_radius. rewrite KW, KH, Z.leb_refl. apply Z.quot_div_nonneg; lia. }
      assert (OUT : circle_outside k px py = true); [|rewrite OUT, orb_true_r; reflexivity].
      unfold circle_outside, circle_cx6, circle_cy6. rewrite ER, KX, KTX, KY, KTY, KW, KH.
      pose proof (Z.div_mod bw 2 ltac:(lia)) as DM. pose proof (Z.mod_pos_bound bw 2 ltac:(lia)) as MM. set (r := bw / 2) in *.
      rewrite !orb_true_iff, !Z.leb_le.
      destruct (Z.eq_dec x' x) as [->|NX]; [|left; assert (x' <= x - 1 \/ x + 1 <= x') as [G|G] by lia; nia].
      destruct (Z.eq_dec y' y) as [->|NY]; [|left; assert (y' <= y - 1 \/ y + 1 <= y') as [G|G] by lia; nia].
      right. cbv zeta.
      match goal with |- _ <= 100 * (?u * ?u + ?v * ?v) => assert (UE : u = 3 * bw - 6) by (destruct CX; lia); assert (VE : v = 3 * bw - 6) by (destruct CY; lia); rewrite UE, VE end.
      clear - DM MM HB. nia. }
    rewrite K.
    + rewrite blank_pixel by assumption. apply border_light.
    + intros k I. apply in_flat_map in I as ([x' y'] & _ & I). unfold calls_at, module_calls in I. rewrite EH in I. fold bw in I.
      exists x', y'. destruct (safe_b o n x' y' && qrbool (rawget m x' y')); [destruct I|].
      destruct (qrtype (rawget m x' y') =? QRType_FINDER), (qrtype (rawget m x' y') =? QRType_DATA); destruct I as [<-|[]]; cbn; auto 10.
Qed.

(* ---- the hypotheses can be met ---- *)
Definition sample_options : list image_option :=
  [WithFgColorRGBHex [35; 102; 48; 48]; WithBgTransparent; WithQRWidth 9; WithFgColor (Some (ColorRGBA (mkRGBA 0 0 200 255))); WithFgColor None; WithBorderWidth [5; 7]; WithBuiltinImageEncoder 1].
Example C69_example : Forall accepted sample_options /\ Forall plain_option sample_options /\
  last_set sets_foreground sample_options (mkRGBA 0 0 0 255) (mkRGBA 0 0 200 255) /\ last_set sets_background sample_options (mkRGBA 255 255 255 255) (mkRGBA 255 255 255 255) /\
  last_set sets_block sample_options 20 9 /\ last_set sets_borders sample_options (40, 40, 40, 40) (5, 7, 5, 7) /\ opaque (mkRGBA 0 0 200 255) /\ square 2 (newMatrix 2 2) /\
  rejected (WithFgColorRGBHex [35]) /\
  exists o, NewWithWriter (fun _ => None) [WithCircleShape; WithQRWidth 9] = Some o /\ getShape o = ShapeCircle /\ painter_colors o /\ o_logo o = None /\ qrBlockWidth o = 9.
Proof.
  split. { constructor; [|repeat (apply Forall_cons || apply Forall_nil); cbn; try exact I; lia]. exists (mkRGBA 255 0 0 255). right. exists 15, 0, 0, 102, 48, 48. unfold hex_char. repeat split; lia. }
  split. { repeat constructor. }
  split. { left. exists [WithFgColorRGBHex [35; 102; 48; 48]; WithBgTransparent; WithQRWidth 9]. do 2 eexists. split; [reflexivity|]. split; [constructor; reflexivity|].
    intros later w I S. destruct S; cbn in I; intuition discriminate. }
  split. { right. split; [|reflexivity]. intros opt w I S. destruct S; cbn in I; intuition discriminate. }
  split. { left. exists [WithFgColorRGBHex [35; 102; 48; 48]; WithBgTransparent]. do 2 eexists. split; [reflexivity|]. split; [constructor; lia|].
    intros later w I S. destruct S; cbn in I; intuition discriminate. }
  split. { left. exists [WithFgColorRGBHex [35; 102; 48; 48]; WithBgTransparent; WithQRWidth 9; WithFgColor (Some (ColorRGBA (mkRGBA 0 0 200 255))); WithFgColor None]. do 2 eexists.
    split; [reflexivity|]. split; [constructor; cbn; lia|]. intros later w I S. destruct S; cbn in I; intuition discriminate. }
  split. { unfold opaque, good, byte. cbn. lia. } split. { apply ProofViews.square_new. lia. } split. { cbn. lia. }
  eexists. split; [reflexivity|]. split; [reflexivity|]. split; [|split; reflexivity]. unfold painter_colors, opaque, good, byte. cbn. lia.
Qed.
Print Assumptions C69_last_option_wins.
Print Assumptions C69_rejected.
Print Assumptions C69_plain_picture.
Print Assumptions C69_default_picture.
Print Assumptions C69_circles.
