(* C56: block shapes (rectangle, circle, user-defined).  C57: halftone pictures. *)
From Coq Require Import Lia.
From Verif Require Import ModelBase ModelMatrix ModelQRCode ModelSave ModelCompressed ModelStandard ModelWriters.
From Verif Require Import SpecReader SpecSegment SpecAPI SpecMatrix SpecStandard SpecMedium SpecShape.
From Verif Require Import ProofMatrix ProofEval ProofViews ProofStandard ProofMedium ProofShape.
From Verif Require PropsCompressed.

(* ---- C56 ---- *)
(* Any shape that keeps to its box and fills the pixel at offset (d, d) of it: outside the logo, that pixel of a module shows whether
   the module is dark, and the border shows the background.  The logo's safe zone counts as light. *)
Theorem C56_any_proper_shape :
  forall others scale n m o d, square n m -> proper_shape (chosen_shape others o) (qrBlockWidth o) d -> 0 <= d < qrBlockWidth o ->
  o_halftone o = None -> o_gradient o = None -> painter_colors o -> proper_logo o -> (forall i, o_logo o = Some i -> i_x0 i = 0 /\ i_y0 i = 0) ->
  exists cv o', draw others scale m o = Some (Z.abs (img_w o n), Z.abs (img_h o n), cv, o') /\
    forall px py, 0 <= px < img_w o n -> 0 <= py < img_h o n ->
    (forall i, o_logo o = Some i -> logo_fits o (img_w o n) (img_h o n) i -> ~ in_logo (img_w o n) (img_h o n) i px py) ->
    (forall x y, 0 <= x < n -> 0 <= y < n -> px = sample_x o d x -> py = sample_y o d y ->
       (module_at (m_bitmap m) x y = true -> ~ in_safe_zone o (img_w o n) (img_h o n) x y -> cv px py = o_qrColor o) /\
       (module_at (m_bitmap m) x y = false \/ in_safe_zone o (img_w o n) (img_h o n) x y -> is_light o (cv px py))) /\
    (~ in_symbol o n px py -> is_light o (cv px py)).
Proof. exact shape_samples. Qed.

(* the rectangle is such a shape for every pixel of the block *)
Theorem C56_rectangle_is_proper : forall bw d, 0 <= d < bw -> proper_shape rectangle_draw bw d.
Proof. exact rectangle_proper. Qed.

(* the circle for the middle pixel of blocks of at least 3 pixels, whatever it does to the pixels at its edge *)
Theorem C56_circle_is_proper : forall edge bw, 3 <= bw -> proper_shape (circle_draw edge) bw (bw / 2).
Proof. exact circle_proper. Qed.

(* in blocks of one pixel the circle draws nothing: symbols of the same size all look the same *)
Theorem C56_circle_width_one_refuted :
  exists o, NewWithWriter (fun _ => None) [WithCircleShape; WithQRWidth 1] = Some o /\
  forall edge scale n m m', square n m -> square n m' ->
    rows (draw (fun _ => circle_draw edge) scale m o) = rows (draw (fun _ => circle_draw edge) scale m' o).
Proof.
  eexists. split; [reflexivity|]. match goal with |- forall _ _ _ _ _, _ -> _ -> rows (draw _ _ _ ?oo) = _ => set (o := oo) end.
  intros edge scale n m m' S1 S2.
  assert (K : forall m, square n m -> exists cv o', draw (fun _ => circle_draw edge) scale m o = Some (Z.abs (img_w o n), Z.abs (img_h o n), cv, o') /\
    forall px py, cv px py = fill_rect blank 0 0 (img_w o n) (img_h o n) (border_color o) px py).
  { intros m0 S. destruct (draw_shape_spec (fun _ => circle_draw edge) scale n m0 o S) as (t & o' & E & _). rewrite E. cbv zeta.
    change (o_gradient o) with (@None (Z -> Z -> rgba)). change (logo_place o n) with (@None (image * Z * Z)). cbn iota.
    eexists. exists o'. split; [reflexivity|]. intros px py. change (chosen_shape (fun _ => circle_draw edge) o) with (circle_draw edge). clear E.
    generalize (fill_rect blank 0 0 (img_w o n) (img_h o n) (border_color o)). induction (iter_coords IterDirection_ROW n n) as [|[x y] l IH]; intros cv; [reflexivity|].
    cbn [flat_map]. rewrite fold_left_app, IH, calls_plain by reflexivity. destruct (_ && _); reflexivity. }
  destruct (K m S1) as (cv1 & o1 & -> & C1). destruct (K m' S2) as (cv2 & o2 & -> & C2). unfold rows. f_equal.
  apply map_ext. intros y. apply map_ext. intros x. rewrite C1, C2. reflexivity.
Qed.

Lemma eqb_fg o c : rgba_eqb c (o_qrColor o) = true <-> c = o_qrColor o.
Proof.
  unfold rgba_eqb. rewrite !andb_true_iff, !Z.eqb_eq. split; [|intros ->; auto]. destruct c, (o_qrColor o). cbn. intros [[[-> ->] ->] ->]. reflexivity.
Qed.
Lemma light_not_fg o c : painter_colors o -> (o_bgTransparent o = false -> o_bgColor o <> o_qrColor o) -> is_light o c -> rgba_eqb c (o_qrColor o) = false.
Proof.
  intros ((_ & HA) & _ & _) DIFF HL. apply not_true_iff_false. rewrite eqb_fg. intros ->. unfold is_light in HL. destruct (o_bgTransparent o); [rewrite HL in HA; discriminate HA|]. apply DIFF; auto.
Qed.

Lemma sample_range o n d x y : 0 <= b_left o -> 0 <= b_right o -> 0 <= b_top o -> 0 <= b_bottom o -> 0 <= d < qrBlockWidth o -> 0 <= x < n -> 0 <= y < n ->
  0 <= sample_x o d x < img_w o n /\ 0 <= sample_y o d y < img_h o n.
Proof. intros. unfold sample_x, sample_y, img_w, img_h. nia. Qed.

Lemma scan_bitmap o n m cv d : square n m -> painter_colors o -> (o_bgTransparent o = false -> o_bgColor o <> o_qrColor o) ->
  (forall x y, 0 <= x < n -> 0 <= y < n ->
     if module_at (m_bitmap m) x y then cv (sample_x o d x) (sample_y o d y) = o_qrColor o else is_light o (cv (sample_x o d x) (sample_y o d y))) ->
  scan_at d cv o n = m_bitmap m.
Proof.
  intros HS HC DIFF HP. unfold scan_at. apply sampled_bitmap; [exact HS|]. intros x y Rx Ry. specialize (HP x y Rx Ry).
  destruct (module_at (m_bitmap m) x y); [apply eqb_fg; exact HP|]. apply light_not_fg; auto.
Qed.

Lemma shape_scan others scale n m o d : square n m -> proper_shape (chosen_shape others o) (qrBlockWidth o) d -> 0 <= d < qrBlockWidth o ->
  o_halftone o = None -> o_gradient o = None -> o_logo o = None -> painter_colors o -> (o_bgTransparent o = false -> o_bgColor o <> o_qrColor o) ->
  0 <= b_left o -> 0 <= b_right o -> 0 <= b_top o -> 0 <= b_bottom o ->
  exists cv o', draw others scale m o = Some (Z.abs (img_w o n), Z.abs (img_h o n), cv, o') /\
    forall x y, 0 <= x < n -> 0 <= y < n ->
     if module_at (m_bitmap m) x y then cv (sample_x o d x) (sample_y o d y) = o_qrColor o else is_light o (cv (sample_x o d x) (sample_y o d y)).
Proof.
  intros HS PS HD EH EG EL HC DIFF B1 B2 B3 B4.
  destruct (shape_samples others scale n m o d HS PS HD EH EG HC) as (cv & o' & E & HP).
  { intros i F. rewrite EL in F. discriminate F. } { intros i F. rewrite EL in F. discriminate F. }
  exists cv, o'. split; [exact E|]. intros x y Rx Ry. destruct (sample_range o n d x y B1 B2 B3 B4 HD Rx Ry) as [RX RY].
  destruct (HP _ _ RX RY) as [P _]; [intros i F; rewrite EL in F; discriminate F|].
  destruct (P x y Rx Ry eq_refl eq_refl) as [P1 P2]. destruct (module_at (m_bitmap m) x y); [|apply P2; auto].
  apply P1; auto. intros (_ & i & F & _). rewrite EL in F. discriminate F.
Qed.

(* without a logo: the pixels at offset d are the symbol *)
Theorem C56_scan :
  forall others scale n m o d, square n m -> proper_shape (chosen_shape others o) (qrBlockWidth o) d -> 0 <= d < qrBlockWidth o ->
  o_halftone o = None -> o_gradient o = None -> o_logo o = None -> painter_colors o -> (o_bgTransparent o = false -> o_bgColor o <> o_qrColor o) ->
  0 <= b_left o -> 0 <= b_right o -> 0 <= b_top o -> 0 <= b_bottom o ->
  exists cv o', draw others scale m o = Some (img_w o n, img_h o n, cv, o') /\ scan_at d cv o n = m_bitmap m.
Proof.
  intros others scale n m o d HS PS HD EH EG EL HC DIFF B1 B2 B3 B4.
  destruct (shape_scan others scale n m o d HS PS HD EH EG EL HC DIFF B1 B2 B3 B4) as (cv & o' & E & HP).
  exists cv, o'. pose proof HS as ((N1 & N2 & _) & EW & _).
  rewrite E, !Z.abs_eq by (unfold img_w, img_h; nia). split; [reflexivity|]. apply scan_bitmap; auto.
Qed.

(* Save with an image whose sampled pixels tell the modules *)
Lemma saved_by (dark_pixel : rgba -> bool) (near : rgba -> rgba -> Prop) sjis : shift_jis_contract sjis ->
  forall text opts sched q, NewWith sjis text opts sched = Ok q -> ~ misdetected sjis opts (text_bytes text) ->
  forall encode decode fails others scale o old d, keeps near (o_encoder o) encode decode ->
  encodable (o_encoder o) (img_w o (q_dimension q)) (img_h o (q_dimension q)) -> (forall k, fails k = None) ->
  0 <= b_left o -> 0 <= b_right o -> 0 <= b_top o -> 0 <= b_bottom o -> 0 <= d < qrBlockWidth o ->
  (exists cv o', draw others scale (qMat q) o = Some (Z.abs (img_w o (q_dimension q)), Z.abs (img_h o (q_dimension q)), cv, o') /\
     forall x y, 0 <= x < q_dimension q -> 0 <= y < q_dimension q -> forall c, near (cv (sample_x o d x) (sample_y o d y)) c -> dark_pixel c = module_at (m_bitmap (qMat q)) x y) ->
  exists s' o' cv,
    Save (Some (qMat q)) (standard_writer encode fails others scale) (standard_new old, o) = ((s', o'), [EvWrite (qMat q); EvClose], Returned None) /\
    s_open s' = false /\ decode (o_content (s_file s')) = Some (img_w o (q_dimension q), img_h o (q_dimension q), cv) /\
    reads_back sjis text (sampled (q_dimension q) (fun x y => dark_pixel (cv (sample_x o d x) (sample_y o d y)))).
Proof.
  intros C text opts sched q HN NM encode decode fails others scale o old d DEC ENC NF B1 B2 B3 B4 HD (cv & o' & ED & PX).
  destruct (symbol_reads_back sjis C text opts sched q HN NM) as (SQ & N21 & RB).
  assert (IW : 0 <= img_w o (q_dimension q)) by (unfold img_w; pose proof (block_width_range o); nia).
  assert (IH : 0 <= img_h o (q_dimension q)) by (unfold img_h; pose proof (block_width_range o); nia).
  rewrite !Z.abs_eq in ED by assumption.
  destruct (sink_all fails NF (encode (o_encoder o') (img_w o (q_dimension q), img_h o (q_dimension q), cv)) (standard_open old) 0) as [calls EW].
  rewrite <- (draw_encoder _ _ _ _ _ _ _ _ _ SQ ED) in DEC, ENC. destruct (DEC (img_w o (q_dimension q)) (img_h o (q_dimension q)) cv ENC) as (cv' & D1 & D2).
  eexists _, o', cv'. split; [|split; [|split]].
  - unfold Save, standard_writer, standard_new. cbn [wr_write wr_close]. rewrite ED, (encodable_ok _ _ _ ENC), EW. reflexivity.
  - reflexivity.
  - cbn [s_file]. change (standard_open old) with (compressed_open None).
    rewrite (PropsCompressed.C35_file_content_partial None). rewrite skipn_nil, app_nil_r. apply D1.
  - rewrite (sampled_bitmap (q_dimension q) (qMat q)); auto. intros x y Rx Ry.
    destruct (sample_range o _ d x y B1 B2 B3 B4 HD Rx Ry) as [RX RY]. apply PX; auto.
Qed.

Lemma saved_samples sjis : shift_jis_contract sjis ->
  forall text opts sched q, NewWith sjis text opts sched = Ok q -> ~ misdetected sjis opts (text_bytes text) ->
  forall encode decode fails others scale o old d, lossless (o_encoder o) encode decode ->
  encodable (o_encoder o) (img_w o (q_dimension q)) (img_h o (q_dimension q)) -> (forall k, fails k = None) -> painter_colors o -> (o_bgTransparent o = false -> o_bgColor o <> o_qrColor o) ->
  0 <= b_left o -> 0 <= b_right o -> 0 <= b_top o -> 0 <= b_bottom o -> 0 <= d < qrBlockWidth o ->
  (exists cv o', draw others scale (qMat q) o = Some (Z.abs (img_w o (q_dimension q)), Z.abs (img_h o (q_dimension q)), cv, o') /\
     forall x y, 0 <= x < q_dimension q -> 0 <= y < q_dimension q ->
     if module_at (m_bitmap (qMat q)) x y then cv (sample_x o d x) (sample_y o d y) = o_qrColor o else is_light o (cv (sample_x o d x) (sample_y o d y))) ->
  exists s' o' cv,
    Save (Some (qMat q)) (standard_writer encode fails others scale) (standard_new old, o) = ((s', o'), [EvWrite (qMat q); EvClose], Returned None) /\
    s_open s' = false /\ decode (o_content (s_file s')) = Some (img_w o (q_dimension q), img_h o (q_dimension q), cv) /\
    reads_back sjis text (scan_at d cv o (q_dimension q)).
Proof.
  intros C text opts sched q HN NM encode decode fails others scale o old d DEC ENC NF PC DIFF B1 B2 B3 B4 HD (cv & o' & ED & PX).
  apply (saved_by (fun c => rgba_eqb c (o_qrColor o)) eq sjis C text opts sched q HN NM encode decode fails others scale o old d DEC ENC NF B1 B2 B3 B4 HD).
  exists cv, o'. split; [exact ED|]. intros x y Rx Ry c <-. specialize (PX x y Rx Ry).
  destruct (module_at (m_bitmap (qMat q)) x y); [apply eqb_fg; exact PX|]. apply light_not_fg; auto.
Qed.

(* the whole way: what New made, Save wrote with such a shape and a lossless image encoder; an ISO reader gets the text back *)
Theorem C56_saved_symbol_reads_back :
  forall sjis, shift_jis_contract sjis ->
  forall text opts sched q, NewWith sjis text opts sched = Ok q -> ~ misdetected sjis opts (text_bytes text) ->
  forall encode decode fails others scale o old d, lossless (o_encoder o) encode decode ->
  encodable (o_encoder o) (img_w o (q_dimension q)) (img_h o (q_dimension q)) -> (forall k, fails k = None) ->
  proper_shape (chosen_shape others o) (qrBlockWidth o) d -> 0 <= d < qrBlockWidth o ->
  o_logo o = None -> o_halftone o = None -> o_gradient o = None -> painter_colors o -> (o_bgTransparent o = false -> o_bgColor o <> o_qrColor o) ->
  0 <= b_left o -> 0 <= b_right o -> 0 <= b_top o -> 0 <= b_bottom o ->
  exists s' o' cv,
    Save (Some (qMat q)) (standard_writer encode fails others scale) (standard_new old, o) = ((s', o'), [EvWrite (qMat q); EvClose], Returned None) /\
    s_open s' = false /\ decode (o_content (s_file s')) = Some (img_w o (q_dimension q), img_h o (q_dimension q), cv) /\
    reads_back sjis text (scan_at d cv o (q_dimension q)).
Proof.
  intros sjis C text opts sched q HN NM encode decode fails others scale o old d DEC ENC NF PS HD EL EH EG PC DIFF B1 B2 B3 B4.
  destruct (symbol_reads_back sjis C text opts sched q HN NM) as (SQ & _ & _).
  eapply saved_samples; eauto. apply shape_scan; auto.
Qed.

(* the default options with the circle shape meet the hypotheses, and a symbol of two modules is drawn as it should *)
Definition dark_light : Matrix := m_set (m_set (newMatrix 2 2) 1 0 QRValue_DATA_V1) 0 1 QRValue_FINDER_V1.
Example C56_example :
  exists o, NewWithWriter (fun _ => None) [WithCircleShape; WithQRWidth 3; WithBorderWidth [1]] = Some o /\
    square 2 dark_light /\ proper_shape (chosen_shape (fun _ => circle_draw (fun _ _ _ c => c)) o) (qrBlockWidth o) 1 /\ 0 <= 1 < qrBlockWidth o /\
    o_halftone o = None /\ o_gradient o = None /\ o_logo o = None /\ painter_colors o /\ o_bgColor o <> o_qrColor o /\
    0 <= b_left o /\ 0 <= b_right o /\ 0 <= b_top o /\ 0 <= b_bottom o /\
    match draw (fun _ => circle_draw (fun _ _ _ c => c)) (fun _ _ _ _ => 0) dark_light o with
    | Some (_, _, cv, _) => scan_at 1 cv o 2 | None => [] end = [[false; true]; [true; false]].
Proof.
  eexists. split; [reflexivity|]. split; [do 2 apply square_set; apply square_new; lia|]. split; [apply (circle_proper _ 3); lia|].
  split; [cbn; lia|]. do 3 (split; [reflexivity|]). split; [unfold painter_colors, opaque, good, byte; cbn; repeat split; lia|].
  split; [intros F; discriminate F|]. cbn [b_left b_right b_top b_bottom]. do 4 (split; [cbn; lia|]). vm_compute. reflexivity.
Qed.

(* ---- C57 ---- *)
(* Rectangle shape, a halftone picture: a module of a function pattern is drawn as without the picture; of a data module, the
   middle one of 3 x 3 sub-blocks shows the module, the other eight show the picture (3 x 3 pixels of it for a module), white or
   black.  [scale i k x y]: the grey value of pixel (x, y) of the picture, scaled to k x k pixels.  Pixels that lie in no
   sub-block entirely (if 3 does not divide the block width) are left open. *)
Theorem C57_pixels :
  forall others scale n m o i, square n m -> getShape o = ShapeRectangle -> o_halftone o = Some i -> o_logo o = None ->
  o_gradient o = None -> painter_colors o ->
  exists cv o', draw others scale m o = Some (Z.abs (img_w o n), Z.abs (img_h o n), cv, o') /\
    forall px py, 0 <= px < img_w o n -> 0 <= py < img_h o n ->
    (forall x y, 0 <= x < n -> 0 <= y < n ->
       (~ data_module m x y -> in_module o x y px py ->
          if module_at (m_bitmap m) x y then cv px py = o_qrColor o else is_light o (cv px py)) /\
       (data_module m x y -> forall a b, sub_pixel (qrBlockWidth o) a (px - (b_left o + x * qrBlockWidth o)) -> sub_pixel (qrBlockWidth o) b (py - (b_top o + y * qrBlockWidth o)) ->
          if (a =? 1) && (b =? 1) then (if module_at (m_bitmap m) x y then cv px py = o_qrColor o else is_light o (cv px py))
          else if scale i (3 * n) (3 * x + a) (3 * y + b) =? 255 then (if o_bgTransparent o then is_light o (cv px py) else cv px py = color_WHITE)
          else cv px py = color_BLACK)) /\
    (~ in_symbol o n px py -> is_light o (cv px py)).
Proof. exact halftone_pixels. Qed.

(* every pixel is in a sub-block iff 3 divides the block width *)
Theorem C57_exact_iff_divisible :
  forall bw, 1 <= bw -> ((forall u, 0 <= u < bw -> exists a, sub_pixel bw a u) <-> bw mod 3 = 0).
Proof.
  intros bw HB. pose proof (Z.div_mod bw 3 ltac:(lia)) as DM. pose proof (Z.mod_pos_bound bw 3 ltac:(lia)) as MM. split.
  - intros HA. destruct (HA (bw - 1) ltac:(lia)) as (a & A1 & A2 & A3). nia.
  - intros HZ u Hu. exists (u / (bw / 3)). assert (1 <= bw / 3) by lia.
    pose proof (Z.div_mod u (bw / 3) ltac:(lia)). pose proof (Z.mod_pos_bound u (bw / 3) ltac:(lia)).
    assert (0 <= u / (bw / 3)) by (apply Z.div_pos; lia). assert (u / (bw / 3) < 3) by (apply Z.div_lt_upper_bound; lia). unfold sub_pixel. nia.
Qed.

Lemma halftone_scan others scale n m o i : square n m -> getShape o = ShapeRectangle -> o_halftone o = Some i -> o_logo o = None ->
  o_gradient o = None -> painter_colors o -> halftone_width (qrBlockWidth o) ->
  0 <= b_left o -> 0 <= b_right o -> 0 <= b_top o -> 0 <= b_bottom o ->
  exists cv o', draw others scale m o = Some (Z.abs (img_w o n), Z.abs (img_h o n), cv, o') /\
    forall x y, 0 <= x < n -> 0 <= y < n ->
     if module_at (m_bitmap m) x y then cv (sample_x o ((qrBlockWidth o - 1) / 2) x) (sample_y o ((qrBlockWidth o - 1) / 2) y) = o_qrColor o
     else is_light o (cv (sample_x o ((qrBlockWidth o - 1) / 2) x) (sample_y o ((qrBlockWidth o - 1) / 2) y)).
Proof.
  intros HS EG EH EL EGr HC HW B1 B2 B3 B4. pose proof (middle_sub _ HW) as SUB. set (d := (qrBlockWidth o - 1) / 2) in *.
  assert (HD : 0 <= d < qrBlockWidth o).
  { unfold d. pose proof (block_width_range o). split; [apply Z.div_pos; lia|apply Z.div_lt_upper_bound; lia]. }
  destruct (halftone_pixels others scale n m o i HS EG EH EL EGr HC) as (cv & o' & E & HP). exists cv, o'. split; [exact E|].
  intros x y Rx Ry. destruct (sample_range o n d x y B1 B2 B3 B4 HD Rx Ry) as [RX RY].
  destruct (HP _ _ RX RY) as [P _]. destruct (P x y Rx Ry) as [P1 P2].
  destruct (Z.eq_dec (qrtype (rawget m x y)) QRType_DATA) as [DD|ND].
  - apply (P2 DD 1 1); unfold sample_x, sample_y; [replace (_ - _) with d by lia|replace (_ - _) with d by lia]; exact SUB.
  - apply P1; [exact ND|]. unfold in_module, sample_x, sample_y. lia.
Qed.

(* blocks of 3, or at least 6, pixels: the symbol can be read from the pixels at offset (width-1)/2, whatever the picture is *)
Theorem C57_readable_partial :
  forall sjis, shift_jis_contract sjis ->
  forall text opts sched q, NewWith sjis text opts sched = Ok q -> ~ misdetected sjis opts (text_bytes text) ->
  forall encode decode fails others scale o old i, lossless (o_encoder o) encode decode ->
  encodable (o_encoder o) (img_w o (q_dimension q)) (img_h o (q_dimension q)) -> (forall k, fails k = None) ->
  getShape o = ShapeRectangle -> o_halftone o = Some i -> o_logo o = None -> o_gradient o = None -> painter_colors o ->
  (o_bgTransparent o = false -> o_bgColor o <> o_qrColor o) ->
  0 <= b_left o -> 0 <= b_right o -> 0 <= b_top o -> 0 <= b_bottom o -> halftone_width (qrBlockWidth o) ->
  exists s' o' cv,
    Save (Some (qMat q)) (standard_writer encode fails others scale) (standard_new old, o) = ((s', o'), [EvWrite (qMat q); EvClose], Returned None) /\
    s_open s' = false /\ decode (o_content (s_file s')) = Some (img_w o (q_dimension q), img_h o (q_dimension q), cv) /\
    reads_back sjis text (scan_at ((qrBlockWidth o - 1) / 2) cv o (q_dimension q)).
Proof.
  intros sjis C text opts sched q HN NM encode decode fails others scale o old i DEC ENC NF EG EH EL EGr PC DIFF B1 B2 B3 B4 HW.
  destruct (symbol_reads_back sjis C text opts sched q HN NM) as (SQ & _ & _).
  eapply saved_samples; eauto; [|eapply halftone_scan; eauto].
  pose proof (block_width_range o). split; [apply Z.div_pos; lia|apply Z.div_lt_upper_bound; lia].
Qed.

Definition any_picture : image := mkImage 0 0 1 1 (fun _ _ => color_WHITE).
Definition one_module (v : Z) : Matrix := mkMatrix [[v]] 1 1.
Lemma square_one v : square 1 (one_module v). Proof. repeat split; cbn; try lia. repeat constructor. Qed.

(* Blocks of 1 or 2 pixels: the sub-blocks have width 0 and data modules are not drawn at all.  A dark and a light one look the same *)
Theorem C57_one_or_two_pixels_refuted :
  forall bw, bw = 1 \/ bw = 2 ->
  exists o m m', NewWithWriter (fun _ => None) [WithQRWidth bw; WithHalftoneImage (Some any_picture)] = Some o /\ square 1 m /\ square 1 m' /\
    m_bitmap m <> m_bitmap m' /\ forall others scale, rows (draw others scale m o) = rows (draw others scale m' o).
Proof.
  intros bw HB.
  destruct HB as [-> | ->]; eexists; exists (one_module QRValue_DATA_V0), (one_module QRValue_DATA_V1); (split; [reflexivity|]);
  (split; [apply square_one|]); (split; [apply square_one|]); (split; [vm_compute; discriminate|]);
  intros others scale;
  match goal with |- rows (draw _ _ _ ?oo) = _ => set (o := oo) end;
  (assert (K : forall v, v = QRValue_DATA_V0 \/ v = QRValue_DATA_V1 ->
     exists o' cv, draw others scale (one_module v) o = Some (Z.abs (img_w o 1), Z.abs (img_h o 1), cv, o') /\
       forall px py, cv px py = fill_rect blank 0 0 (img_w o 1) (img_h o 1) (border_color o) px py);
   [intros v HV; destruct (draw_spec others scale 1 (one_module v) o (square_one v) eq_refl) as (t & o' & E & _); exists o'; rewrite E; cbv zeta;
    change (o_gradient o) with (@None (Z -> Z -> rgba)); change (logo_place o 1) with (@None (image * Z * Z)); cbn iota;
    eexists; split; [reflexivity|]; intros px py; rewrite paint_canvas;
    change (iter_coords IterDirection_ROW 1 1) with [(0, 0)]; cbn [flat_map]; rewrite app_nil_r, (calls_halftone scale o 1 t (one_module v) 0 0 any_picture eq_refl eq_refl);
    assert (qrtype (rawget (one_module v) 0 0) =? QRType_DATA = true) as -> by (destruct HV as [-> | ->]; reflexivity);
    apply paint_none; intros k HK; unfold halftone_calls in HK; apply in_flat_map in HK as (a & _ & HK); apply in_map_iff in HK as (b & <- & _);
    unfold covers, k_area; cbn [k_x k_y k_tx k_ty k_w k_h];
    match goal with |- context [Z.quot ?u 3] => change (Z.quot u 3) with 0 end; rewrite Z.add_0_r;
    match goal with |- negb (overlap64 ?a ?a px * _ =? 0) = false => assert (overlap64 a a px = 0) as -> by (unfold overlap64; lia) end; reflexivity
   |]);
  destruct (K _ (or_introl eq_refl)) as (o1 & cv1 & -> & C1); destruct (K _ (or_intror eq_refl)) as (o2 & cv2 & -> & C2);
  unfold rows; f_equal; apply map_ext; intros y; apply map_ext; intros x; rewrite C1, C2; reflexivity.
Qed.

(* Blocks of 4 or 5 pixels: under a white picture all pixels of a dark data module are lighter than medium grey, so a reader that
   compares one pixel with medium grey sees a light module, at any offset *)
Theorem C57_four_or_five_pixels_refuted :
  forall bw, bw = 4 \/ bw = 5 ->
  exists o m, NewWithWriter (fun _ => None) [WithQRWidth bw; WithHalftoneImage (Some any_picture)] = Some o /\ square 1 m /\
    forall others, exists w h cv o', draw others (fun _ _ _ _ => 255) m o = Some (w, h, cv, o') /\
      forall d, 0 <= d < bw -> scan_threshold d cv o 1 <> m_bitmap m.
Proof.
  assert (R : forall bw d, 0 <= d < bw -> In d (zseq 0 bw)).
  { intros bw d Hd. apply ProofBase.in_zseq. lia. }
  intros bw HB.
  destruct HB as [-> | ->]; eexists; exists (one_module QRValue_DATA_V1); (split; [reflexivity|]); (split; [apply square_one|]);
  intros others;
  match goal with |- context [draw _ _ _ ?oo] => set (o := oo) end;
  pose (test := fun bw => match draw others (fun _ _ _ _ => 255) (one_module QRValue_DATA_V1) o with
                        | Some (_, _, cv, _) => forallb (fun d => match scan_threshold d cv o 1 with [[b]] => negb b | _ => false end) (zseq 0 bw)
                        | None => false end);
  [assert (T : test 4 = true) by (unfold test; vm_compute; reflexivity) | assert (T : test 5 = true) by (unfold test; vm_compute; reflexivity)];
  unfold test in T; destruct (draw others (fun _ _ _ _ => 255) (one_module QRValue_DATA_V1) o) as [[[[w h] cv] o']|]; try discriminate T;
  exists w, h, cv, o'; (split; [reflexivity|]); intros d Hd F; rewrite forallb_forall in T; specialize (T d (R _ d Hd)); rewrite F in T; discriminate T.
Qed.

(* the hypotheses of C57 are met, a picture that is white on its left part *)
Example C57_example :
  exists o, NewWithWriter (fun _ => None) [WithQRWidth 3; WithBorderWidth [0]; WithHalftoneImage (Some any_picture)] = Some o /\
    getShape o = ShapeRectangle /\ o_logo o = None /\ o_gradient o = None /\ painter_colors o /\ o_halftone o = Some any_picture /\ halftone_width (qrBlockWidth o) /\
    data_module (one_module QRValue_DATA_V1) 0 0 /\ sub_pixel 3 1 1 /\
    let W := color_WHITE in let B := color_BLACK in
    rows (draw (fun _ cv _ => cv) (fun _ _ x y => if x =? 2 then 0 else 255) (one_module QRValue_DATA_V1) o) = Some [[W; W; B]; [W; B; B]; [W; W; B]].
Proof.
  eexists. split; [reflexivity|]. do 3 (split; [reflexivity|]). split; [unfold painter_colors, opaque, good, byte; cbn; repeat split; lia|].
  split; [reflexivity|]. split; [left; reflexivity|]. split; [reflexivity|]. split; [unfold sub_pixel; cbn; lia|]. vm_compute. reflexivity.
Qed.

Print Assumptions C56_any_proper_shape.
Print Assumptions C56_rectangle_is_proper.
Print Assumptions C56_circle_is_proper.
Print Assumptions C56_circle_width_one_refuted.
Print Assumptions C56_scan.
Print Assumptions C56_saved_symbol_reads_back.
Print Assumptions C57_pixels.
Print Assumptions C57_exact_iff_divisible.
Print Assumptions C57_readable_partial.
Print Assumptions C57_one_or_two_pixels_refuted.
Print Assumptions C57_four_or_five_pixels_refuted.
