(* Shapes, halftone pictures. *)
From Coq Require Import Lia.
From Verif Require Import ModelBase ModelMatrix ModelStandard.
From Verif Require Import SpecReader SpecMatrix SpecStandard SpecMedium SpecShape ProofBase ProofMatrix ProofEval ProofViews ProofStandard.

Section Shape.
Context (shape_draw : canvas -> call -> canvas) (d : Z) (scale : image -> Z -> Z -> Z -> Z) (o : options) (n : Z) (t : list (list bool)) (m : Matrix).
Context (PS : proper_shape shape_draw (qrBlockWidth o) d) (HD : 0 <= d < qrBlockWidth o) (EH : o_halftone o = None).

Lemma shape_call_other x y px py cv : ~ in_module o x y px py -> fold_left shape_draw (calls_at scale o n t m x y) cv px py = cv px py.
Proof.
  intros HN. rewrite calls_plain by exact EH. destruct (safe_b o n x y && qrbool (rawget m x y)); [reflexivity|]. cbn [fold_left].
  apply PS; try reflexivity. unfold in_box. cbn [k_x k_y k_w k_h]. intros F. apply HN. unfold in_module. lia.
Qed.

Lemma shape_call_sample x y cv :
  fold_left shape_draw (calls_at scale o n t m x y) cv (sample_x o d x) (sample_y o d y) =
    if safe_b o n x y && qrbool (rawget m x y) then cv (sample_x o d x) (sample_y o d y)
    else over (cv (sample_x o d x) (sample_y o d y)) (if qrbool (rawget m x y) then o_qrColor o else light o).
Proof.
  rewrite calls_plain by exact EH. destruct (safe_b o n x y && qrbool (rawget m x y)); [reflexivity|]. cbn [fold_left].
  match goal with |- shape_draw _ ?k _ _ = _ => destruct (PS cv k eq_refl eq_refl eq_refl eq_refl) as [_ P] end. cbn [k_x k_y k_color] in P.
  unfold sample_x, sample_y. rewrite (Z.add_comm (b_left o)), (Z.add_comm (b_top o)). exact P.
Qed.

Lemma shape_calls_other px py : forall coords cv, (forall x y, In (x, y) coords -> ~ in_module o x y px py) ->
  fold_left shape_draw (flat_map (fun '(x, y) => calls_at scale o n t m x y) coords) cv px py = cv px py.
Proof.
  induction coords as [|[a b] coords IH]; intros cv HN; [reflexivity|]. cbn [flat_map]. rewrite fold_left_app.
  rewrite IH by (intros x y HI; apply HN; right; exact HI). apply shape_call_other. apply HN. left. reflexivity.
Qed.

Lemma sample_in x y : in_module o x y (sample_x o d x) (sample_y o d y).
Proof. unfold in_module, sample_x, sample_y. lia. Qed.

Lemma in_module_unique x y x' y' px py : in_module o x y px py -> in_module o x' y' px py -> x = x' /\ y = y'.
Proof. pose proof (block_width_range o) as HB. intros [A B] [A' B']. split; eapply cell_eq; eauto; lia. Qed.

Lemma shape_calls_sample x y : forall coords cv, NoDup coords -> In (x, y) coords ->
  fold_left shape_draw (flat_map (fun '(x, y) => calls_at scale o n t m x y) coords) cv (sample_x o d x) (sample_y o d y) =
    if safe_b o n x y && qrbool (rawget m x y) then cv (sample_x o d x) (sample_y o d y)
    else over (cv (sample_x o d x) (sample_y o d y)) (if qrbool (rawget m x y) then o_qrColor o else light o).
Proof.
  induction coords as [|[a b] coords IH]; intros cv ND HI; [contradiction|]. cbn [flat_map]. rewrite fold_left_app.
  inversion ND as [|? ? NI ND']; subst. destruct HI as [E|HI].
  - injection E as -> ->. rewrite shape_calls_other; [apply shape_call_sample|].
    intros a b HAB HM. destruct (in_module_unique _ _ _ _ _ _ (sample_in x y) HM) as [-> ->]. contradiction.
  - rewrite IH by assumption. rewrite shape_call_other; [reflexivity|].
    intros HM. destruct (in_module_unique _ _ _ _ _ _ (sample_in x y) HM) as [-> ->]. contradiction.
Qed.
End Shape.

Lemma blank_pixel o n px py : 0 <= px < img_w o n -> 0 <= py < img_h o n -> good (border_color o) ->
  fill_rect blank 0 0 (img_w o n) (img_h o n) (border_color o) px py = border_color o.
Proof.
  intros Hx Hy HG. unfold fill_rect.
  destruct (Z.leb_spec 0 px), (Z.ltb_spec px (0 + img_w o n)), (Z.leb_spec 0 py), (Z.ltb_spec py (0 + img_h o n)); try lia.
  cbn [andb]. apply over_blank. exact HG.
Qed.

(* what the logo leaves *)
Lemma logo_out_any o n cv px py :
  (forall i, o_logo o = Some i -> logo_fits o (img_w o n) (img_h o n) i -> ~ logo_covers (img_w o n) (img_h o n) i px py) ->
  match logo_place o n with Some (i, x, y) => draw_image cv i x y | None => cv end px py = cv px py.
Proof.
  intros HN. destruct (logo_place o n) as [[[i x] y]|] eqn:EP; [|reflexivity].
  apply place_spec in EP as (EI & HF & -> & ->). pose proof (HN i EI HF) as HNI. unfold logo_covers in HNI. unfold draw_image.
  destruct (Z.leb_spec (logo_left (img_w o n) i + i_x0 i) px), (Z.ltb_spec px (logo_left (img_w o n) i + i_x1 i)), (Z.leb_spec (logo_top (img_h o n) i + i_y0 i) py), (Z.ltb_spec py (logo_top (img_h o n) i + i_y1 i)); cbn [andb]; try reflexivity. exfalso. apply HNI. lia.
Qed.
Lemma logo_out o n cv px py : (forall i, o_logo o = Some i -> i_x0 i = 0 /\ i_y0 i = 0) ->
  (forall i, o_logo o = Some i -> logo_fits o (img_w o n) (img_h o n) i -> ~ in_logo (img_w o n) (img_h o n) i px py) ->
  match logo_place o n with Some (i, x, y) => draw_image cv i x y | None => cv end px py = cv px py.
Proof.
  intros H0 HN. apply logo_out_any. intros i EI HF IL. destruct (H0 i EI) as [X0 Y0]. apply (HN i EI HF). apply covers_middle in IL; auto.
Qed.

Lemma border_light o : is_light o (border_color o).
Proof. unfold is_light, border_color. destruct (o_bgTransparent o); reflexivity. Qed.

Lemma draw_shape_spec others scale n m o : square n m ->
  exists t o', draw others scale m o = Some (Z.abs (img_w o n), Z.abs (img_h o n),
    (let cv := fold_left (chosen_shape others o) (flat_map (fun '(x, y) => calls_at scale o n t m x y) (iter_coords IterDirection_ROW n n))
              (fill_rect blank 0 0 (img_w o n) (img_h o n) (border_color o)) in
     let cv := match o_gradient o with Some g => apply_gradient cv (o_qrColor o) g | None => cv end in
     match logo_place o n with Some (i, x, y) => draw_image cv i x y | None => cv end), o') /\ stable o o' /\ twf t n n /\
    (forall x y, bget t y x = dark m x y && negb (safe_b o n y x)).
Proof.
  intros HS. unfold draw, draw_with, chosen_shape. destruct (plan_spec scale n m o HS) as (p & t & -> & -> & -> & TT & GT & -> & ST & -> & ->).
  exists t, (p_options p). pose proof ST as [[A GA] _]. destruct (same_fields _ _ A) as (_ & -> & -> & _). split; [reflexivity|]. auto.
Qed.

(* the modules before gradient and logo *)
Definition shape_base (others : shape -> canvas -> call -> canvas) (scale : image -> Z -> Z -> Z -> Z) (n : Z) (t : list (list bool)) (m : Matrix) (o : options) : canvas :=
  fold_left (chosen_shape others o) (flat_map (fun '(x, y) => calls_at scale o n t m x y) (iter_coords IterDirection_ROW n n))
            (fill_rect blank 0 0 (img_w o n) (img_h o n) (border_color o)).

Lemma shape_base_samples others scale n t m o d : square n m -> proper_shape (chosen_shape others o) (qrBlockWidth o) d -> 0 <= d < qrBlockWidth o ->
  o_halftone o = None -> painter_colors o -> proper_logo o ->
  forall px py, 0 <= px < img_w o n -> 0 <= py < img_h o n ->
    (forall x y, 0 <= x < n -> 0 <= y < n -> px = sample_x o d x -> py = sample_y o d y ->
       (module_at (m_bitmap m) x y = true -> ~ in_safe_zone o (img_w o n) (img_h o n) x y -> shape_base others scale n t m o px py = o_qrColor o) /\
       (module_at (m_bitmap m) x y = false \/ in_safe_zone o (img_w o n) (img_h o n) x y -> shape_base others scale n t m o px py = border_color o)) /\
    (~ in_symbol o n px py -> shape_base others scale n t m o px py = border_color o).
Proof.
  intros HS PS HD EH HC HP px py Hx Hy. pose proof HS as (HW & EW & EHt). pose proof (block_width_range o) as HB. unfold shape_base.
  pose proof HC as (HF & HG & HT). pose proof (good_border o HG) as GB. split.
  - intros x y Rx Ry -> ->. rewrite (shape_calls_sample _ d scale o n t m PS HD EH x y); [|apply NoDup_iter_coords|apply in_iter_coords; auto].
    rewrite !blank_pixel by assumption. rewrite module_at_bitmap by (auto; split; lia). rewrite <- safe_zone_spec by assumption.
    destruct (qrbool (rawget m x y)) eqn:EQ; rewrite ?andb_true_r, ?andb_false_r.
    + destruct (safe_b o n x y) eqn:ES.
      * split; [intros _ F; contradiction F; reflexivity|reflexivity].
      * split; [|intros [F|F]; discriminate F]. intros _ _. apply over_opaque; auto; apply HF.
    + split; [intros F; discriminate F|]. intros _. rewrite over_light by exact HC. reflexivity.
  - intros HN. rewrite (shape_calls_other _ d scale o n t m PS EH).
    + rewrite blank_pixel by assumption. reflexivity.
    + intros x y HI (M1 & M2). apply in_iter_coords in HI. apply HN. unfold in_symbol. nia.
Qed.

(* any proper shape *)
Lemma shape_samples others scale n m o d : square n m -> proper_shape (chosen_shape others o) (qrBlockWidth o) d -> 0 <= d < qrBlockWidth o ->
  o_halftone o = None -> o_gradient o = None -> painter_colors o -> proper_logo o -> (forall i, o_logo o = Some i -> i_x0 i = 0 /\ i_y0 i = 0) ->
  exists cv o', draw others scale m o = Some (Z.abs (img_w o n), Z.abs (img_h o n), cv, o') /\
    forall px py, 0 <= px < img_w o n -> 0 <= py < img_h o n ->
    (forall i, o_logo o = Some i -> logo_fits o (img_w o n) (img_h o n) i -> ~ in_logo (img_w o n) (img_h o n) i px py) ->
    (forall x y, 0 <= x < n -> 0 <= y < n -> px = sample_x o d x -> py = sample_y o d y ->
       (module_at (m_bitmap m) x y = true -> ~ in_safe_zone o (img_w o n) (img_h o n) x y -> cv px py = o_qrColor o) /\
       (module_at (m_bitmap m) x y = false \/ in_safe_zone o (img_w o n) (img_h o n) x y -> is_light o (cv px py))) /\
    (~ in_symbol o n px py -> is_light o (cv px py)).
Proof.
  intros HS PS HD EH EG HC HP H0.
  destruct (draw_shape_spec others scale n m o HS) as (t & o' & E & ST & _). rewrite E, EG. cbv zeta. eexists. exists o'. split; [reflexivity|].
  intros px py Hx Hy HL. rewrite logo_out by assumption. fold (shape_base others scale n t m o).
  destruct (shape_base_samples others scale n t m o d HS PS HD EH HC HP px py Hx Hy) as [P1 P2]. split.
  - intros x y Rx Ry EX EY. destruct (P1 x y Rx Ry EX EY) as [Q1 Q2]. split; [exact Q1|]. intros F. rewrite (Q2 F). apply border_light.
  - intros HN. rewrite (P2 HN). apply border_light.
Qed.

Lemma rectangle_proper bw d : 0 <= d < bw -> proper_shape rectangle_draw bw d.
Proof.
  intros HD cv k TX TY EW EH. unfold rectangle_draw. split.
  - intros px py HN. assert (EA : k_area k px py = 0).
    { unfold k_area. rewrite TX, TY, EW, EH, !fix_plain. unfold in_box in HN. rewrite EW, EH in HN.
      destruct (Z.le_gt_cases (k_x k) px); [|rewrite overlap_none by lia; reflexivity].
      destruct (Z.lt_ge_cases px (k_x k + bw)); [|rewrite overlap_none by lia; reflexivity].
      rewrite (overlap_none _ _ py) by lia. apply Z.mul_0_r. }
    rewrite EA. reflexivity.
  - assert (EA : k_area k (k_x k + d) (k_y k + d) = 64 * 64).
    { unfold k_area. rewrite TX, TY, EW, EH, !fix_plain. rewrite !overlap_full by lia. reflexivity. }
    rewrite EA. change (64 * 64 =? 0) with false. cbn iota. apply over_full.
Qed.

Lemma circle_proper edge bw : 3 <= bw -> proper_shape (circle_draw edge) bw (bw / 2).
Proof.
  intros HB cv k TX TY EW EH. unfold circle_draw.
  assert (ER : circle_radius k = bw / 2). { unfold circle_radius. rewrite EW, EH, Z.leb_refl. apply Z.quot_div_nonneg; lia. }
  pose proof (Z.div_mod bw 2 ltac:(lia)) as DM. pose proof (Z.mod_pos_bound bw 2 ltac:(lia)) as MM. set (r := bw / 2) in *.
  assert (R1 : 1 <= r) by lia. rewrite ER. destruct (Z.eqb_spec r 0); [lia|]. cbn [orb].
  assert (CX : circle_cx6 k = 6 * k_x k + 3 * bw) by (unfold circle_cx6; lia). assert (CY : circle_cy6 k = 6 * k_y k + 3 * bw) by (unfold circle_cy6; lia). split.
  - intros px py HN. assert (EO : circle_outside k px py = true).
    { unfold circle_outside. rewrite CX, CY, ER. unfold in_box in HN. rewrite EW, EH in HN. rewrite !orb_true_iff, !Z.leb_le. lia. }
    rewrite EO. reflexivity.
  - assert (EO : circle_outside k (k_x k + r) (k_y k + r) = false).
    { unfold circle_outside. rewrite CX, CY, ER. cbv zeta.
      replace (Z.max 0 (Z.max (6 * (k_x k + r) - (6 * k_x k + 3 * bw)) (6 * k_x k + 3 * bw - 6 * (k_x k + r) - 6))) with 0 by lia.
      replace (Z.max 0 (Z.max (6 * (k_y k + r) - (6 * k_y k + 3 * bw)) (6 * k_y k + 3 * bw - 6 * (k_y k + r) - 6))) with 0 by lia.
      rewrite !orb_false_iff, !Z.leb_gt. repeat split; try lia. }
    assert (EI : circle_inside k (k_x k + r) (k_y k + r) = true).
    { unfold circle_inside. rewrite CX, CY, ER. cbn [forallb]. rewrite !andb_true_iff, !Z.leb_le.
      set (e := bw mod 2) in *. replace (3 * bw) with (6 * r + 3 * e) by lia.
      assert (e = 0 \/ e = 1) as [-> | ->] by lia.
      - assert (2 <= r) by lia. repeat split; try reflexivity; 
        match goal with |- 100 * (?u * ?u + ?v * ?v) <= _ => assert (-6 <= u <= 6) by lia; assert (-6 <= v <= 6) by lia; assert (u * u <= 36) by nia; assert (v * v <= 36) by nia; nia end.
      - repeat split; try reflexivity;
        match goal with |- 100 * (?u * ?u + ?v * ?v) <= _ => assert (-3 <= u <= 3) by lia; assert (-3 <= v <= 3) by lia; assert (u * u <= 9) by nia; assert (v * v <= 9) by nia; nia end. }
    rewrite EO, EI. reflexivity.
Qed.

(* ---- halftone ---- *)
Lemma fix_quot x t : exists r, 64 * (3 * x + t) = 3 * fix26_6 x t + r /\ -2 <= r <= 2.
Proof. apply quot3. Qed.

(* the middle pixel of a module with a halftone block *)
Lemma area_full k px py :
  3 * k_x k + k_tx k <= 3 * px -> 3 * px + 3 <= 3 * (k_x k + k_w k) + k_tx k ->
  3 * k_y k + k_ty k <= 3 * py -> 3 * py + 3 <= 3 * (k_y k + k_h k) + k_ty k -> k_area k px py = 64 * 64.
Proof.
  intros. unfold k_area.
  destruct (fix_quot (k_x k) (k_tx k)) as (r1 & E1 & R1). destruct (fix_quot (k_x k + k_w k) (k_tx k)) as (r2 & E2 & R2).
  destruct (fix_quot (k_y k) (k_ty k)) as (r3 & E3 & R3). destruct (fix_quot (k_y k + k_h k) (k_ty k)) as (r4 & E4 & R4).
  rewrite !overlap_full by lia. reflexivity.
Qed.
Lemma area_none k px py :
  3 * px + 3 <= 3 * k_x k + k_tx k \/ 3 * (k_x k + k_w k) + k_tx k <= 3 * px \/
  3 * py + 3 <= 3 * k_y k + k_ty k \/ 3 * (k_y k + k_h k) + k_ty k <= 3 * py -> k_area k px py = 0.
Proof.
  intros HO. unfold k_area.
  destruct (fix_quot (k_x k) (k_tx k)) as (r1 & E1 & R1). destruct (fix_quot (k_x k + k_w k) (k_tx k)) as (r2 & E2 & R2).
  destruct (fix_quot (k_y k) (k_ty k)) as (r3 & E3 & R3). destruct (fix_quot (k_y k + k_h k) (k_ty k)) as (r4 & E4 & R4).
  destruct HO as [HO|[HO|HO]]; [rewrite overlap_none by lia; reflexivity|rewrite overlap_none by lia; reflexivity|].
  rewrite (overlap_none _ _ py) by lia. apply Z.mul_0_r.
Qed.

Lemma paint_halftone grey tr bw x y cx cy color px py c i j : 1 <= bw ->
  sub_pixel bw i (px - cx) -> sub_pixel bw j (py - cy) ->
  paint px py (halftone_calls grey tr bw x y cx cy color) c =
  over c (if (i =? 1) && (j =? 1) then color else halftoneColor (grey (x * 3 + i) (y * 3 + j)) tr).
Proof.
  intros HB (I0 & I1 & I2) (J0 & J1 & J2). unfold halftone_calls. rewrite Z.quot_div_nonneg by lia.
  pose proof (Z.div_mod bw 3 ltac:(lia)) as DM. pose proof (Z.mod_pos_bound bw 3 ltac:(lia)) as MM. set (h := bw / 3) in *.
  assert (SP : forall i', 0 <= i' <= 2 -> i' <> i -> 3 * px + 3 <= 3 * cx + i' * bw \/ 3 * (cx + h) + i' * bw <= 3 * px) by (intros; nia).
  assert (SQ : forall j', 0 <= j' <= 2 -> j' <> j -> 3 * py + 3 <= 3 * cy + j' * bw \/ 3 * (cy + h) + j' * bw <= 3 * py) by (intros; nia).
  assert (ST : forall i' j' col c0, 0 <= i' <= 2 -> 0 <= j' <= 2 ->
    paint px py [mkCall false cx (i' * bw) cy (j' * bw) h h col 0] c0 = if (i' =? i) && (j' =? j) then over c0 col else c0).
  { intros i' j' col c0 R1 R2. cbn [paint fold_left].
    destruct (Z.eqb_spec i' i) as [->|NE].
    - destruct (Z.eqb_spec j' j) as [->|NE].
      + rewrite area_full by (cbn [k_x k_tx k_y k_ty k_w k_h]; lia). change (64 * 64 =? 0) with false. cbn [andb]. apply over_full.
      + rewrite area_none; [reflexivity|]. cbn [k_x k_tx k_y k_ty k_w k_h]. destruct (SQ j' R2 NE); auto.
    - rewrite area_none; [reflexivity|]. cbn [k_x k_tx k_y k_ty k_w k_h]. destruct (SP i' R1 NE); auto. }
  change (zseq 0 3) with [0; 1; 2]. cbn [flat_map map app].
  repeat match goal with |- paint px py (?k :: ?k' :: ?l) ?c0 = _ => change (paint px py (k :: k' :: l) c0) with (paint px py (k' :: l) (paint px py [k] c0)) end.
  rewrite !ST by lia.
  assert (i = 0 \/ i = 1 \/ i = 2) as [-> |[-> | ->]] by lia; assert (j = 0 \/ j = 1 \/ j = 2) as [-> |[-> | ->]] by lia; reflexivity.
Qed.

Lemma middle_sub bw : halftone_width bw -> sub_pixel bw 1 ((bw - 1) / 2).
Proof.
  intros HW. unfold sub_pixel. pose proof (Z.div_mod bw 3 ltac:(lia)). pose proof (Z.mod_pos_bound bw 3 ltac:(lia)).
  pose proof (Z.div_mod (bw - 1) 2 ltac:(lia)). pose proof (Z.mod_pos_bound (bw - 1) 2 ltac:(lia)). unfold halftone_width in HW. lia.
Qed.

Lemma calls_halftone scale o n t m x y i : o_halftone o = Some i -> o_logo o = None ->
  calls_at scale o n t m x y =
    if qrtype (rawget m x y) =? QRType_DATA
    then halftone_calls (scale i (n * 3)) (o_bgTransparent o) (qrBlockWidth o) x y (x * qrBlockWidth o + b_left o) (y * qrBlockWidth o + b_top o)
           (if qrbool (rawget m x y) then o_qrColor o else light o)
    else [mkCall (qrtype (rawget m x y) =? QRType_FINDER) (x * qrBlockWidth o + b_left o) 0 (y * qrBlockWidth o + b_top o) 0 (qrBlockWidth o) (qrBlockWidth o)
            (if qrbool (rawget m x y) then o_qrColor o else light o) (getNeighbours t x y)].
Proof.
  intros EH EL. unfold calls_at, module_calls. rewrite EH. assert (ES : safe_b o n x y = false) by (unfold safe_b, logo_info; rewrite EL; reflexivity).
  rewrite ES. cbn [andb]. cbv zeta.
  destruct (Z.eqb_spec (qrtype (rawget m x y)) QRType_FINDER) as [->|]; [reflexivity|].
  destruct (Z.eqb_spec (qrtype (rawget m x y)) QRType_DATA); reflexivity.
Qed.

Lemma over_halftone o g : painter_colors o ->
  over (border_color o) (halftoneColor g (o_bgTransparent o)) = if g =? 255 then (if o_bgTransparent o then border_color o else color_WHITE) else color_BLACK.
Proof.
  intros (_ & HG & _). pose proof (good_border o HG) as GB. unfold halftoneColor.
  destruct (g =? 255); [destruct (o_bgTransparent o)|]; try (apply over_clear; exact GB); (apply over_opaque; [exact GB|unfold good, byte; cbn; lia|reflexivity]).
Qed.

Lemma halftone_pixels others scale n m o i : square n m -> getShape o = ShapeRectangle -> o_halftone o = Some i -> o_logo o = None ->
  o_gradient o = None -> painter_colors o ->
  exists cv o', draw others scale m o = Some (Z.abs (img_w o n), Z.abs (img_h o n), cv, o') /\
    forall px py, 0 <= px < img_w o n -> 0 <= py < img_h o n ->
    (forall x y, 0 <= x < n -> 0 <= y < n ->
       (~ data_module m x y -> in_module o x y px py ->
          if module_at (m_bitmap m) x y then cv px py = o_qrColor o else is_light o (cv px py)) /\
       (data_module m x y -> forall a b, sub_pixel (qrBlockWidth o) a (px - (b_left o + x * qrBlockWidth o)) -> sub_pixel (qrBlockWidth o) b (py - (b_top o + y * qrBlockWidth o)) ->
          if (a =? 1) && (b =? 1) then (if module_at (m_bitmap m) x y then cv px py = o_qrColor o else is_light o (cv px py))
          else if scale i (3 * n) (3 * x + a) (3 * y + b) =? 255 then (if o_bgTransparent o then is_light o (cv px py) else cv px py = color_WHITE)
          else cv px py = color_BLACK)) /\
    (~ in_symbol o n px py -> is_light o (cv px py)).
Proof.
  intros HS EG EH EL EGr HC. pose proof HS as (HW & EW & EHt). pose proof (block_width_range o) as HB. destruct (draw_spec others scale n m o HS EG) as (t & o' & E & ST & _).
  assert (EP : logo_place o n = None) by (unfold logo_place; rewrite EL; reflexivity).
  rewrite E, EGr, EP. cbv zeta. eexists. exists o'. split; [reflexivity|]. intros px py Hx Hy.
  pose proof HC as ((HFG & HFA) & HG & _). pose proof (good_border o HG) as GB.
  destruct (canvas_spec scale o n t m px py Hx Hy GB) as [C1 C2].
  set (cv := fold_left rectangle_draw _ _) in *. split; [|intros HN; rewrite (C2 HN); apply border_light].
  intros x y Rx Ry. rewrite module_at_bitmap by (auto; split; lia).
  assert (OC : forall b : bool, if b then over (border_color o) (if b then o_qrColor o else light o) = o_qrColor o else is_light o (over (border_color o) (if b then o_qrColor o else light o))).
  { intros []; [apply over_opaque; auto|]. rewrite over_light by exact HC. apply border_light. }
  split.
  - intros ND HM. rewrite (C1 x y Rx Ry HM), (calls_halftone scale o n t m x y i EH EL).
    destruct (Z.eqb_spec (qrtype (rawget m x y)) QRType_DATA) as [F|_]; [contradiction|]. destruct HM as [M1 M2].
    cbn [paint fold_left]. rewrite area_full by (cbn [k_x k_tx k_y k_ty k_w k_h]; lia). change (64 * 64 =? 0) with false. cbn iota. rewrite over_full. cbn [k_color]. apply OC.
  - intros DD a b SA SB. assert (HM : in_module o x y px py).
    { pose proof (Z.div_mod (qrBlockWidth o) 3 ltac:(lia)). pose proof (Z.mod_pos_bound (qrBlockWidth o) 3 ltac:(lia)). unfold sub_pixel in SA, SB. unfold in_module. nia. }
    rewrite (C1 x y Rx Ry HM), (calls_halftone scale o n t m x y i EH EL). rewrite DD, Z.eqb_refl.
    rewrite (paint_halftone _ _ _ _ _ _ _ _ _ _ _ a b) by (first [lia | rewrite (Z.add_comm _ (b_left o)); assumption | rewrite (Z.add_comm _ (b_top o)); assumption]).
    destruct ((a =? 1) && (b =? 1)); [apply OC|]. rewrite (Z.mul_comm n), (Z.mul_comm x), (Z.mul_comm y). rewrite over_halftone by exact HC.
    destruct (_ =? 255); [|reflexivity]. destruct (o_bgTransparent o) eqn:ET; [|reflexivity]. apply border_light.
Qed.
