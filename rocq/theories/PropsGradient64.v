(* C59 in float64 arithmetic: for every rounding with the properties of IEEE 754's (round64 is one), with or without fused multiply-add. *)
From Coq Require Import Lia.
From Verif Require Import ModelBase ModelMatrix ModelQRCode ModelSave ModelCompressed ModelStandard ModelWriters ModelFloat ModelGradient ModelGradient64.
From Verif Require Import SpecReader SpecSegment SpecAPI SpecMatrix SpecStandard SpecMedium SpecShape SpecFloat64 SpecGradient SpecGradient64.
From Verif Require Import ProofMatrix ProofViews ProofStandard ProofMedium ProofShape ProofFloat ProofGradient ProofGradient64 PropsShape PropsGradient.
From Coq Require Import QArith Qminmax Qabs Qround Lqa.
Open Scope Z_scope.

(* rounding to nearest, ties to even, is a rounding in the sense used here *)
Theorem C59_ieee_rounding : rounding round64.
Proof. exact round64_rounding. Qed.

(* the colour at t: as in C59_colour, with an error of 2^-36 before the fraction is cut off *)
Theorem C59_rounded_colour :
  forall rnd fuse stops t, rounding rnd -> stops <> [] -> good_stops stops -> float_stops stops -> float64 t ->
  exists c, interpolateColor64 rnd fuse stops t = Some c /\ near_color (pow2 (-36)) stops t c.
Proof. intros. apply interpolate64_spec; assumption. Qed.

(* no channel is above the stops' or more than one step below *)
Theorem C59_rounded_channels :
  forall rnd fuse stops t c ch lo hi, rounding rnd -> stops <> [] -> good_stops stops -> float_stops stops -> float64 t ->
  In ch color_channels -> (forall s, In s stops -> lo <= ch (s_color s) <= hi) ->
  interpolateColor64 rnd fuse stops t = Some c -> lo - 1 <= ch c <= hi.
Proof.
  intros rnd fuse stops t c ch lo hi HR HN HG HF FT IC HB E. destruct (interpolate64_spec rnd HR fuse stops t HN HG HF FT) as (c' & E' & HC).
  rewrite E in E'. injection E' as <-. eapply near_range; eauto.
Qed.
(* ... and that one step does happen: a gradient from white to white is not white *)
Theorem C59_constant_gradient_refuted :
  ~ (forall stops dx dy w h x y v, stops <> [] -> float_stops stops -> (forall s, In s stops -> s_color s = mkRGBA v v v 255) ->
     0 < w -> 0 < h -> 0 <= x < w -> 0 <= y < h -> gradient_at64 round64 (fun _ => Separate) stops dx dy w h x y = mkRGBA v v v 255).
Proof.
  intros HA. specialize (HA [mkStop 0 color_WHITE; mkStop 1 color_WHITE] 1%Q 0%Q 500 500 73 0 255 ltac:(discriminate)).
  assert (E : gradient_at64 round64 (fun _ => Separate) [mkStop 0 color_WHITE; mkStop 1 color_WHITE] 1 0 500 500 73 0 = mkRGBA 254 254 254 255) by (vm_compute; reflexivity).
  rewrite HA in E; [discriminate E| | |lia..].
  - intros s [<- | [<- | []]]; [apply (float64_Z 0)|apply (float64_Z 1)]; cbn; lia.
  - intros s [<- | [<- | []]]; reflexivity.
Qed.

(* the position has an error of at most 2^-47: no division by zero, for any direction and size of picture *)
Theorem C59_rounded_position :
  forall rnd fuse dx dy w h x y, rounding rnd -> 0 < w -> 0 < h -> ((1 # 2) <= Qabs dx + Qabs dy)%Q -> 0 <= x <= w -> 0 <= y <= h ->
  (Qabs (position64 rnd fuse dx dy w h x y - along dx dy w h x y) <= pow2 (-47))%Q.
Proof. intros. apply near_abs. apply position_near; assumption. Qed.

(* what math.Cos and math.Sin have to give for the directions asked for here: values from -1 to 1 whose squares add up to 1, or at
   least to a half *)
Theorem C59_unit_direction :
  forall dx dy, (-(1) <= dx)%Q -> (dx <= 1)%Q -> (-(1) <= dy)%Q -> (dy <= 1)%Q -> ((1 # 2) <= dx * dx + dy * dy)%Q -> ((1 # 2) <= Qabs dx + Qabs dy)%Q.
Proof.
  intros dx dy X1 X2 Y1 Y2 HS.
  assert (K : forall q, (-(1) <= q)%Q -> (q <= 1)%Q -> (q * q <= Qabs q)%Q).
  { intros q L R. apply Qabs_case; intros S; nra. }
  pose proof (K dx X1 X2). pose proof (K dy Y1 Y2). lra.
Qed.

(* together: the colour of a pixel *)
Theorem C59_rounded_pixel :
  forall rnd fuse stops dx dy w h x y, rounding rnd -> stops <> [] -> good_stops stops -> float_stops stops ->
  0 < w -> 0 < h -> ((1 # 2) <= Qabs dx + Qabs dy)%Q -> 0 <= x <= w -> 0 <= y <= h ->
  exists t, (Qabs (t - along dx dy w h x y) <= pow2 (-47))%Q /\ near_color (pow2 (-36)) stops t (gradient_at64 rnd fuse stops dx dy w h x y).
Proof. intros. apply gradient_at64_spec; assumption. Qed.

(* a saved symbol with a gradient is readable, module by module, in float64 arithmetic *)
Theorem C59_rounded_symbol_reads_back :
  forall sjis, shift_jis_contract sjis ->
  forall text opts sched q, NewWith sjis text opts sched = Ok q -> ~ misdetected sjis opts (text_bytes text) ->
  forall encode decode fails others scale o old d rnd fuse stops dx dy, lossless (o_encoder o) encode decode ->
  encodable (o_encoder o) (img_w o (q_dimension q)) (img_h o (q_dimension q)) -> (forall k, fails k = None) ->
  proper_shape (chosen_shape others o) (qrBlockWidth o) d -> 0 <= d < qrBlockWidth o ->
  o_logo o = None -> o_halftone o = None ->
  rounding rnd -> ((1 # 2) <= Qabs dx + Qabs dy)%Q ->
  o_gradient o = Some (gradient_at64 rnd fuse stops dx dy (img_w o (q_dimension q)) (img_h o (q_dimension q))) ->
  stops <> [] -> opaque_stops stops -> float_stops stops -> (o_bgTransparent o = false -> clear_contrast stops (o_bgColor o)) ->
  painter_colors o -> (o_bgTransparent o = false -> o_bgColor o <> o_qrColor o) ->
  0 <= b_left o -> 0 <= b_right o -> 0 <= b_top o -> 0 <= b_bottom o ->
  exists s' o' cv,
    Save (Some (qMat q)) (standard_writer encode fails others scale) (standard_new old, o) = ((s', o'), [EvWrite (qMat q); EvClose], Returned None) /\
    s_open s' = false /\ decode (o_content (s_file s')) = Some (img_w o (q_dimension q), img_h o (q_dimension q), cv) /\
    reads_back sjis text (scan_not_light d cv o (q_dimension q)).
Proof.
  intros sjis C text opts sched q HN NM encode decode fails others scale o old d rnd fuse stops dx dy DEC ENC NF PS HD EL EH HR DD EG NE OS FS CT PC DIFF B1 B2 B3 B4.
  destruct (symbol_reads_back sjis C text opts sched q HN NM) as (SQ & _ & _).
  apply (saved_by (fun c => negb (light_b o c)) eq sjis C text opts sched q HN NM encode decode fails others scale o old d DEC ENC NF B1 B2 B3 B4 HD).
  destruct (any_gradient_samples others scale (q_dimension q) (qMat q) o d _ SQ PS HD EH EG) as (cv & o' & E & HP); [|exact PC|exact DIFF|..].
  { intros px py. apply gradient_opaque64; assumption. }
  { intros i F. rewrite EL in F. discriminate F. } { intros i F. rewrite EL in F. discriminate F. }
  exists cv, o'. split; [exact E|]. intros x y Rx Ry c <-. destruct (sample_range o _ d x y B1 B2 B3 B4 HD Rx Ry) as [RX RY].
  destruct (HP _ _ RX RY) as [P _]; [intros i F; rewrite EL in F; discriminate F|]. destruct (P x y Rx Ry eq_refl eq_refl) as [P1 P2].
  destruct (module_at (m_bitmap (qMat q)) x y).
  - apply negb_true_iff, not_true_iff_false. rewrite (P1 eq_refl ltac:(intros (_ & i & F & _); rewrite EL in F; discriminate F)).
    unfold light_b. destruct (o_bgTransparent o) eqn:ET.
    + destruct (gradient_opaque64 rnd fuse stops dx dy (img_w o (q_dimension q)) (img_h o (q_dimension q)) (sample_x o d x) (sample_y o d y) NE OS) as [_ A]. rewrite A. discriminate.
    + rewrite rgba_eqb_iff. destruct (gradient_at64_spec rnd fuse stops dx dy (img_w o (q_dimension q)) (img_h o (q_dimension q)) (sample_x o d x) (sample_y o d y) HR NE) as (t & _ & HC); auto; try lia.
      { intros s IS. apply OS, IS. }
      eapply near_clear; eauto.
  - apply negb_false_iff. apply light_b_light. apply P2. auto.
Qed.

(* the hypotheses: red to blue at 45 degrees; cos 45 and -sin 45 as Go computes them *)
Definition half_sqrt2 : Q := (6369051672525773 # 9007199254740992)%Q.
Example C59_rounded_example :
  float64 half_sqrt2 /\ float64 (- half_sqrt2) /\ ((1 # 2) <= Qabs half_sqrt2 + Qabs (- half_sqrt2))%Q /\ float_stops red_blue /\ clear_contrast red_blue color_WHITE /\
  gradient_at64 round64 (fun _ => Separate) red_blue half_sqrt2 (- half_sqrt2) 46 46 24 21 = mkRGBA 119 0 136 255 /\
  gradient_at64 round64 (fun _ => FuseFirst) red_blue half_sqrt2 (- half_sqrt2) 46 46 24 21 = mkRGBA 119 0 136 255.
Proof.
  assert (F : float64 half_sqrt2). { exists 6369051672525773, (-53). split; [vm_compute; discriminate|]. split; [lia|vm_compute; reflexivity]. }
  split; [exact F|]. split; [apply float64_opp, F|]. split; [vm_compute; discriminate|]. split.
  { intros s [<- | [<- | [<- | []]]]; [apply (float64_Z 0); cbn; lia| |apply (float64_Z 1); cbn; lia]. exists 1, (-1). split; [vm_compute; discriminate|]. split; [lia|vm_compute; reflexivity]. }
  split. { exists c_g. split; [cbn; auto|]. left. intros s [<- | [<- | [<- | []]]]; cbn; lia. }
  split; vm_compute; reflexivity.
Qed.

Print Assumptions C59_ieee_rounding.
Print Assumptions C59_rounded_colour.
Print Assumptions C59_rounded_channels.
Print Assumptions C59_constant_gradient_refuted.
Print Assumptions C59_rounded_position.
Print Assumptions C59_unit_direction.
Print Assumptions C59_rounded_pixel.
Print Assumptions C59_rounded_symbol_reads_back.
