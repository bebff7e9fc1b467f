(* C59: foreground gradients (writer/standard/gradient.go). *)
From Coq Require Import Lia.
From Verif Require Import ModelBase ModelMatrix ModelQRCode ModelSave ModelCompressed ModelStandard ModelWriters ModelGradient.
From Verif Require Import SpecReader SpecSegment SpecAPI SpecMatrix SpecStandard SpecMedium SpecShape SpecGradient.
From Verif Require Import ProofMatrix ProofViews ProofStandard ProofMedium ProofShape ProofGradient PropsShape.
From Coq Require Import QArith Qminmax Qabs Qround Lqa Permutation.
Open Scope Z_scope.

(* the colour at t, for any stops, in order or not: the first stop's before the first, the last stop's after the last, otherwise an
   opaque mixture of two neighbours with t between them; the division never is by zero and the fallback colour is never used *)
Theorem C59_colour :
  forall stops t, stops <> [] -> good_stops stops -> exists c, interpolateColor stops t = Some c /\ gradient_color stops t c.
Proof. exact interpolate_spec. Qed.

(* for stops in order at different places this determines the colour *)
Theorem C59_colour_determined :
  forall stops t c, strictly_sorted stops -> opaque_stops stops -> stops <> [] ->
  (interpolateColor stops t = Some c <-> gradient_color stops t c).
Proof.
  intros stops t c HS HO HN. destruct (interpolate_spec stops t HN) as (c' & E & HC). { intros s IS. apply HO, IS. }
  rewrite E. split.
  - intros F. injection F as <-. exact HC.
  - intros HC'. f_equal. eapply color_unique; eauto.
Qed.

(* in every channel the colour is within the range of the stops *)
Theorem C59_channels_bounded :
  forall stops t c ch lo hi, stops <> [] -> good_stops stops -> In ch color_channels -> (forall s, In s stops -> lo <= ch (s_color s) <= hi) ->
  interpolateColor stops t = Some c -> lo <= ch c <= hi.
Proof.
  intros stops t c ch lo hi HN HG IC HB E. destruct (interpolate_spec stops t HN HG) as (c' & E' & HC). rewrite E in E'. injection E' as <-.
  eapply gradient_range; eauto.
Qed.

(* without stops there is no colour (the Go code panics); WithFgGradient ignores such gradients *)
Theorem C59_no_stops : forall t, interpolateColor [] t = None.
Proof. reflexivity. Qed.
Theorem C59_no_stops_ignored : forall scan o, apply_option scan o (WithFgGradient None) = Some o.
Proof. reflexivity. Qed.

(* where a pixel is on the way from the first to the last corner: at 0 to 1, along the direction of the angle *)
Theorem C59_position :
  forall dx dy w h x y, 0 < w -> 0 < h -> ~ (dx == 0 /\ dy == 0)%Q -> 0 <= x <= w -> 0 <= y <= h ->
  (position dx dy w h x y == along dx dy w h x y)%Q /\ (0 <= position dx dy w h x y)%Q /\ (position dx dy w h x y <= 1)%Q.
Proof.
  intros dx dy w h x y HW HH ND HX HY. assert (E : (position dx dy w h x y == along dx dy w h x y)%Q) by (apply position_along; lia).
  rewrite E. split; [reflexivity|]. apply along_range; auto.
Qed.

(* a pixel further in the direction of the angle is not earlier in the gradient; pixels side by side have the same colour *)
Theorem C59_direction :
  forall dx dy w h x y x' y', 0 < w -> 0 < h -> ~ (dx == 0 /\ dy == 0)%Q ->
  (inject_Z x * dx + inject_Z y * dy <= inject_Z x' * dx + inject_Z y' * dy <-> position dx dy w h x y <= position dx dy w h x' y')%Q.
Proof.
  intros dx dy w h x y x' y' HW HH ND. pose proof (span_pos dx dy w h HW HH ND) as SP. rewrite !position_along by lia. unfold along, Qdiv.
  assert (SI : (0 < / (inject_Z w * Qabs dx + inject_Z h * Qabs dy))%Q) by (apply Qinv_lt_0_compat, SP).
  rewrite Qmult_le_r by exact SI. split; intros; lra.
Qed.

(* the four angles of the documentation: 0 - right, 90 - up, 180 - left, 270 - down *)
Theorem C59_four_angles :
  forall w h x y, 0 < w -> 0 < h ->
  (position 1 0 w h x y == inject_Z x / inject_Z w)%Q /\ (position 0 (-1) w h x y == inject_Z (h - y) / inject_Z h)%Q /\
  (position (-1) 0 w h x y == inject_Z (w - x) / inject_Z w)%Q /\ (position 0 1 w h x y == inject_Z y / inject_Z h)%Q.
Proof.
  intros w h x y HW HH. assert (W : (0 < inject_Z w)%Q) by (rewrite <- (Zlt_Qlt 0); lia). assert (HQ : (0 < inject_Z h)%Q) by (rewrite <- (Zlt_Qlt 0); lia).
  rewrite !position_along by lia. unfold along. change (Qmin 1 0) with 0%Q. change (Qmin 0 0) with 0%Q. change (Qmin (-1) 0) with (-1)%Q.
  change (Qabs 1) with 1%Q. change (Qabs 0) with 0%Q. change (Qabs (-1)) with 1%Q. unfold Zminus. rewrite !inject_Z_plus, !inject_Z_opp.
  repeat split; field; try (split; lra); lra.
Qed.

(* "the last column has the colour of the last stop" is false for angle 0: pixels are measured at their left edge *)
Theorem C59_last_column_refuted :
  ~ (forall w h c0 c1, 0 < w -> 0 < h -> opaque c0 -> opaque c1 -> gradient_at [mkStop 0 c0; mkStop 1 c1] 1 0 w h (w - 1) 0 = c1).
Proof.
  intros HA. specialize (HA 4 4 color_BLACK color_WHITE ltac:(lia) ltac:(lia)). specialize (HA ltac:(unfold opaque, good, byte; cbn; lia) ltac:(unfold opaque, good, byte; cbn; lia)).
  vm_compute in HA. discriminate HA.
Qed.

(* NewGradient: the stops in order; it always can be done; and it reorders the slice of the caller *)
Theorem C59_new_gradient :
  (forall stops after g, NewGradient stops after g -> Permutation stops g /\ forall l s k e r, g = l ++ s :: k ++ e :: r -> (s_T s <= s_T e)%Q) /\
  (forall stops, exists after g, NewGradient stops after g).
Proof.
  split.
  - intros stops after g (P & S & ->). split; [exact P|]. intros l s k e r ->. eapply sorted_app; exact S.
  - intros stops. destruct (sort_exists stops) as (l & P & S). exists l, l. repeat split; assumption.
Qed.
Theorem C59_caller_slice_refuted : ~ (forall stops after g, NewGradient stops after g -> after = stops).
Proof.
  intros HA. pose (a := mkStop 0 color_BLACK). pose (b := mkStop 1 color_WHITE).
  assert (F : [a; b] = [b; a]). { apply (HA [b; a] [a; b] [a; b]). repeat split; [apply perm_swap|]. cbn. unfold Qle. cbn. lia. }
  discriminate F.
Qed.

(* The picture: with a gradient each pixel of exactly the foreground colour gets the gradient's colour; all other pixels that are
   opaque or fully transparent stay.  For every shape, halftone picture, symbol and option, but for a logo. *)
Theorem C59_pixels :
  forall others scale m o g w h cv o', o_gradient o = Some g -> o_logo o = None ->
  draw others scale m (set_gradient None o) = Some (w, h, cv, o') ->
  exists cv' o'', draw others scale m o = Some (w, h, cv', o'') /\
    forall px py, good (cv px py) ->
    (cv px py = o_qrColor o -> opaque (g px py) -> cv' px py = g px py) /\
    (cv px py <> o_qrColor o -> c_a (cv px py) = 255 \/ c_a (cv px py) = 0 -> cv' px py = cv px py).
Proof.
  intros others scale m o g w h cv o' EG EL E. rewrite (draw_gradient others scale m o g EG EL), E. eexists _, _. split; [reflexivity|].
  intros px py HG. apply gradient_pixel. exact HG.
Qed.

(* the colour of a stop that is not opaque is mixed with the foreground colour *)
Theorem C59_translucent_stop_refuted :
  ~ (forall cv fg g px py, opaque fg -> good (g px py) -> cv px py = fg -> apply_gradient cv fg g px py = g px py).
Proof.
  intros HA. specialize (HA (fun _ _ => color_BLACK) color_BLACK (fun _ _ => mkRGBA 100 0 0 128) 0 0 ltac:(unfold opaque, good, byte; cbn; lia) ltac:(unfold good, byte; cbn; lia) eq_refl).
  vm_compute in HA. discriminate HA.
Qed.

(* and the sampled pixel of a dark module has the gradient's colour at its place *)
Theorem C59_samples :
  forall others scale n m o d stops dx dy, square n m -> proper_shape (chosen_shape others o) (qrBlockWidth o) d -> 0 <= d < qrBlockWidth o ->
  o_halftone o = None -> o_gradient o = Some (gradient_at stops dx dy (img_w o n) (img_h o n)) -> stops <> [] -> opaque_stops stops ->
  painter_colors o -> (o_bgTransparent o = false -> o_bgColor o <> o_qrColor o) -> proper_logo o -> (forall i, o_logo o = Some i -> i_x0 i = 0 /\ i_y0 i = 0) ->
  exists cv o', draw others scale m o = Some (Z.abs (img_w o n), Z.abs (img_h o n), cv, o') /\
    forall px py, 0 <= px < img_w o n -> 0 <= py < img_h o n ->
    (forall i, o_logo o = Some i -> logo_fits o (img_w o n) (img_h o n) i -> ~ in_logo (img_w o n) (img_h o n) i px py) ->
    (forall x y, 0 <= x < n -> 0 <= y < n -> px = sample_x o d x -> py = sample_y o d y ->
       (module_at (m_bitmap m) x y = true -> ~ in_safe_zone o (img_w o n) (img_h o n) x y -> gradient_color stops (along dx dy (img_w o n) (img_h o n) px py) (cv px py)) /\
       (module_at (m_bitmap m) x y = false \/ in_safe_zone o (img_w o n) (img_h o n) x y -> is_light o (cv px py))) /\
    (~ in_symbol o n px py -> is_light o (cv px py)).
Proof. exact gradient_samples. Qed.

Lemma light_b_light o c : is_light o c -> light_b o c = true.
Proof. unfold light_b, is_light. intros ->. destruct (o_bgTransparent o); [reflexivity|apply rgba_eqb_iff; reflexivity]. Qed.

(* A saved symbol with a gradient is readable, module by module: dark modules are those that are not of the background colour;
   provided in one channel all stops are on one side of the background, or the background is transparent *)
Theorem C59_saved_symbol_reads_back :
  forall sjis, shift_jis_contract sjis ->
  forall text opts sched q, NewWith sjis text opts sched = Ok q -> ~ misdetected sjis opts (text_bytes text) ->
  forall encode decode fails others scale o old d stops dx dy, lossless (o_encoder o) encode decode ->
  encodable (o_encoder o) (img_w o (q_dimension q)) (img_h o (q_dimension q)) -> (forall k, fails k = None) ->
  proper_shape (chosen_shape others o) (qrBlockWidth o) d -> 0 <= d < qrBlockWidth o ->
  o_logo o = None -> o_halftone o = None -> o_gradient o = Some (gradient_at stops dx dy (img_w o (q_dimension q)) (img_h o (q_dimension q))) ->
  stops <> [] -> opaque_stops stops -> (o_bgTransparent o = false -> contrast stops (o_bgColor o)) ->
  painter_colors o -> (o_bgTransparent o = false -> o_bgColor o <> o_qrColor o) ->
  0 <= b_left o -> 0 <= b_right o -> 0 <= b_top o -> 0 <= b_bottom o ->
  exists s' o' cv,
    Save (Some (qMat q)) (standard_writer encode fails others scale) (standard_new old, o) = ((s', o'), [EvWrite (qMat q); EvClose], Returned None) /\
    s_open s' = false /\ decode (o_content (s_file s')) = Some (img_w o (q_dimension q), img_h o (q_dimension q), cv) /\
    reads_back sjis text (scan_not_light d cv o (q_dimension q)).
Proof.
  intros sjis C text opts sched q HN NM encode decode fails others scale o old d stops dx dy DEC ENC NF PS HD EL EH EG NE OS CT PC DIFF B1 B2 B3 B4.
  destruct (symbol_reads_back sjis C text opts sched q HN NM) as (SQ & _ & _).
  apply (saved_by (fun c => negb (light_b o c)) eq sjis C text opts sched q HN NM encode decode fails others scale o old d DEC ENC NF B1 B2 B3 B4 HD).
  destruct (gradient_samples others scale (q_dimension q) (qMat q) o d stops dx dy SQ PS HD EH EG NE OS PC DIFF) as (cv & o' & E & HP).
  { intros i F. rewrite EL in F. discriminate F. } { intros i F. rewrite EL in F. discriminate F. }
  exists cv, o'. split; [exact E|]. intros x y Rx Ry c <-. destruct (sample_range o _ d x y B1 B2 B3 B4 HD Rx Ry) as [RX RY].
  destruct (HP _ _ RX RY) as [P _]; [intros i F; rewrite EL in F; discriminate F|]. destruct (P x y Rx Ry eq_refl eq_refl) as [P1 P2].
  destruct (module_at (m_bitmap (qMat q)) x y).
  - apply negb_true_iff, not_true_iff_false.
    assert (GC := P1 eq_refl ltac:(intros (_ & i & F & _); rewrite EL in F; discriminate F)).
    unfold light_b. destruct (o_bgTransparent o) eqn:ET.
    + destruct (gradient_opaque _ _ _ OS GC) as [_ A]. rewrite A. discriminate.
    + rewrite rgba_eqb_iff. eapply gradient_contrast; eauto.
  - apply negb_false_iff. apply light_b_light. apply P2. auto.
Qed.

(* that all stops differ from the background would not be enough: a gradient from black to white goes through any grey *)
Theorem C59_stops_differ_refuted :
  ~ (forall stops bg t, stops <> [] -> opaque_stops stops -> (forall s, In s stops -> s_color s <> bg) -> interpolateColor stops t <> Some bg).
Proof.
  intros HA. apply (HA [mkStop 0 color_BLACK; mkStop 1 color_WHITE] (mkRGBA 127 127 127 255) (1 # 2)%Q); [discriminate| | |vm_compute; reflexivity].
  - intros s [<- | [<- | []]]; unfold opaque, good, byte; cbn; lia.
  - intros s [<- | [<- | []]]; discriminate.
Qed.

(* the hypotheses: red to blue at 45 degrees (any direction along the diagonal), default colours *)
Definition red_blue : list stop := [mkStop 0 (mkRGBA 255 0 0 255); mkStop (1 # 2) (mkRGBA 128 0 128 255); mkStop 1 (mkRGBA 0 0 255 255)].
Example C59_example :
  red_blue <> [] /\ opaque_stops red_blue /\ strictly_sorted red_blue /\ contrast red_blue color_WHITE /\
  NewGradient (rev red_blue) red_blue red_blue /\
  interpolateColor red_blue (1 # 4) = Some (mkRGBA 191 0 64 255) /\ gradient_at red_blue 1 (-1) 100 100 50 50 = mkRGBA 128 0 128 255 /\
  exists o, NewWithWriter (fun _ => None) [WithFgGradient (Some (gradient_at red_blue 1 (-1) 46 46)); WithQRWidth 3; WithBorderWidth [20]] = Some o /\
    square 2 dark_light /\ proper_shape (chosen_shape (fun _ cv _ => cv) o) (qrBlockWidth o) 1 /\ painter_colors o /\ o_bgColor o <> o_qrColor o /\
    img_w o 2 = 46 /\ img_h o 2 = 46 /\ 0 <= 1 < qrBlockWidth o /\ o_halftone o = None /\ o_logo o = None /\
    match draw (fun _ cv _ => cv) (fun _ _ _ _ => 0) dark_light o with
    | Some (_, _, cv, _) => (scan_not_light 1 cv o 2, cv 24 21) | None => ([], color_BLACK) end = ([[false; true]; [true; false]], mkRGBA 119 0 136 255).
Proof.
  split; [discriminate|]. split; [intros s [<- | [<- | [<- | []]]]; unfold opaque, good, byte; cbn; lia|].
  split.
  { intros l s k e r E. unfold red_blue in E. destruct l as [|a1 [|a2 [|a3 l]]]; cbn [app] in E.
    - injection E as E1 E2. subst s. destruct k as [|b1 [|b2 k]]; cbn [app] in E2.
      + injection E2 as E2 _. subst e. reflexivity.
      + injection E2 as _ E2 _. subst e. reflexivity.
      + injection E2 as _ _ E2. destruct k; discriminate E2.
    - injection E as _ E1 E2. subst s. destruct k as [|b1 k]; cbn [app] in E2.
      + injection E2 as E2 _. subst e. reflexivity.
      + injection E2 as _ E2. destruct k; discriminate E2.
    - injection E as _ _ _ E2. destruct k; discriminate E2.
    - injection E as _ _ _ E2. destruct l; discriminate E2. }
  split. { exists c_g. split; [cbn; auto|]. left. intros s [<- | [<- | [<- | []]]]; cbn; lia. }
  split. { repeat split; [apply Permutation_sym, Permutation_rev|..]; cbn; unfold Qle; cbn; lia. }
  split; [vm_compute; reflexivity|]. split; [vm_compute; reflexivity|].
  eexists. split; [reflexivity|]. split; [do 2 apply square_set; apply square_new; lia|]. split; [apply (rectangle_proper 3 1); lia|].
  split; [unfold painter_colors, opaque, good, byte; cbn; repeat split; lia|]. split; [discriminate|]. repeat (split; [reflexivity || (cbn; lia)|]). vm_compute. reflexivity.
Qed.

Print Assumptions C59_colour.
Print Assumptions C59_colour_determined.
Print Assumptions C59_channels_bounded.
Print Assumptions C59_no_stops.
Print Assumptions C59_no_stops_ignored.
Print Assumptions C59_position.
Print Assumptions C59_direction.
Print Assumptions C59_four_angles.
Print Assumptions C59_last_column_refuted.
Print Assumptions C59_new_gradient.
Print Assumptions C59_caller_slice_refuted.
Print Assumptions C59_pixels.
Print Assumptions C59_translucent_stop_refuted.
Print Assumptions C59_samples.
Print Assumptions C59_saved_symbol_reads_back.
Print Assumptions C59_stops_differ_refuted.
