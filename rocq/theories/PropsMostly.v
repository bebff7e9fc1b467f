(* C56: shapes that cover the sampled pixel only for the most part, such as circles in blocks of two pixels. *)
From Coq Require Import Lia.
From Verif Require Import ModelBase ModelMatrix ModelQRCode ModelSave ModelCompressed ModelStandard ModelWriters.
From Verif Require Import SpecReader SpecSegment SpecAPI SpecMatrix SpecStandard SpecMedium SpecShape SpecMostly.
From Verif Require Import ProofBase ProofMatrix ProofEval ProofViews ProofStandard ProofMedium ProofShape Samples.
From Verif Require PropsShape.

Section Mostly.
Context (shape_draw : canvas -> call -> canvas) (d : Z) (scale : image -> Z -> Z -> Z -> Z) (o : options) (n : Z) (t : list (list bool)) (m : Matrix).
Context (PS : mostly_covers shape_draw (qrBlockWidth o) d) (HD : 0 <= d < qrBlockWidth o) (EH : o_halftone o = None).

Lemma mostly_other x y px py cv : ~ in_module o x y px py -> fold_left shape_draw (calls_at scale o n t m x y) cv px py = cv px py.
Proof.
  intros HN. rewrite calls_plain by exact EH. destruct (safe_b o n x y && qrbool (rawget m x y)); [reflexivity|]. cbn [fold_left].
  apply PS; try reflexivity. unfold in_box. cbn [k_x k_y k_w k_h]. intros F. apply HN. unfold in_module. lia.
Qed.
Lemma mostly_sample x y cv : safe_b o n x y && qrbool (rawget m x y) = false ->
  exists part, 39322 <= part <= 65535 /\ fold_left shape_draw (calls_at scale o n t m x y) cv (sample_x o d x) (sample_y o d y) =
    over_at part (cv (sample_x o d x) (sample_y o d y)) (if qrbool (rawget m x y) then o_qrColor o else light o).
Proof.
  intros ES. rewrite calls_plain by exact EH. rewrite ES. cbn [fold_left].
  match goal with |- exists _, _ /\ shape_draw _ ?k _ _ = _ => destruct (PS cv k eq_refl eq_refl eq_refl eq_refl) as [_ (part & R & P)] end. cbn [k_x k_y k_color] in P.
  exists part. split; [exact R|]. unfold sample_x, sample_y. rewrite (Z.add_comm (b_left o)), (Z.add_comm (b_top o)). exact P.
Qed.
Lemma mostly_others px py : forall coords cv, (forall x y, In (x, y) coords -> ~ in_module o x y px py) ->
  fold_left shape_draw (flat_map (fun '(x, y) => calls_at scale o n t m x y) coords) cv px py = cv px py.
Proof.
  induction coords as [|[a b] coords IH]; intros cv HN; [reflexivity|]. cbn [flat_map]. rewrite fold_left_app.
  rewrite IH by (intros x y HI; apply HN; right; exact HI). apply mostly_other. apply HN. left. reflexivity.
Qed.
Lemma mostly_samples x y : safe_b o n x y && qrbool (rawget m x y) = false -> forall coords cv, NoDup coords -> In (x, y) coords ->
  exists part, 39322 <= part <= 65535 /\ fold_left shape_draw (flat_map (fun '(x, y) => calls_at scale o n t m x y) coords) cv (sample_x o d x) (sample_y o d y) =
    over_at part (cv (sample_x o d x) (sample_y o d y)) (if qrbool (rawget m x y) then o_qrColor o else light o).
Proof.
  intros ES. assert (IN : in_module o x y (sample_x o d x) (sample_y o d y)) by (unfold in_module, sample_x, sample_y; lia).
  assert (UN : forall a b, in_module o a b (sample_x o d x) (sample_y o d y) -> x = a /\ y = b).
  { pose proof (block_width_range o) as HB. intros a b [A B]. destruct IN as [A' B']. split; eapply cell_eq; eauto; lia. }
  induction coords as [|[a b] coords IH]; intros cv ND HI; [contradiction|]. cbn [flat_map]. rewrite fold_left_app.
  inversion ND as [|? ? NI ND']; subst. destruct HI as [E|HI].
  - injection E as -> ->. rewrite mostly_others; [apply mostly_sample; exact ES|]. intros a b HAB HM. destruct (UN a b HM) as [-> ->]. contradiction.
  - destruct (IH (fold_left shape_draw (calls_at scale o n t m a b) cv) ND' HI) as (part & R & E). exists part. split; [exact R|]. rewrite E.
    rewrite mostly_other; [reflexivity|]. intros HM. destruct (UN a b HM) as [-> ->]. contradiction.
Qed.
End Mostly.

(* black over white, and white over white, at a coverage of three fifths and more *)
Lemma channel_dark part : 39322 <= part <= 65535 -> 0 <= over_at_channel part 255 0 255 <= 102.
Proof.
  intros R. unfold over_at_channel. replace (255 * 257 * part) with (part * 65535) by lia. rewrite Z.div_mul by lia.
  replace (255 * ((65535 - part) * 257) + 0 * 257 * part) with (65535 * (65535 - part)) by lia. change (2 ^ 32) with 4294967296.
  rewrite (Z.mod_small (65535 * (65535 - part)) 4294967296) by lia. rewrite (Z.mul_comm 65535), Z.div_mul by lia.
  assert (D : 0 <= (65535 - part) / 256 <= 102) by (split; [apply Z.div_pos; lia|apply Z.lt_succ_r, Z.div_lt_upper_bound; lia]). rewrite Z.mod_small by lia. exact D.
Qed.
Lemma channel_light part : 0 <= part <= 65535 -> over_at_channel part 255 255 255 = 255.
Proof.
  intros R. unfold over_at_channel. replace (255 * 257 * part) with (part * 65535) by lia. rewrite Z.div_mul by lia.
  replace (255 * ((65535 - part) * 257) + part * 65535) with (65535 * 65535) by lia. reflexivity.
Qed.

Definition sum3 (c : rgba) : Z := c_r c + c_g c + c_b c.
Lemma mostly_scan others scale n m o d : square n m -> mostly_covers (chosen_shape others o) (qrBlockWidth o) d -> 0 <= d < qrBlockWidth o ->
  o_halftone o = None -> o_gradient o = None -> o_logo o = None -> o_qrColor o = black -> o_bgColor o = white -> o_bgTransparent o = false ->
  0 <= b_left o -> 0 <= b_right o -> 0 <= b_top o -> 0 <= b_bottom o ->
  exists cv o', draw others scale m o = Some (Z.abs (img_w o n), Z.abs (img_h o n), cv, o') /\
    forall x y, 0 <= x < n -> 0 <= y < n -> forall c, within 25 (cv (sample_x o d x) (sample_y o d y)) c ->
    (sum3 c <? 3 * 128) = module_at (m_bitmap m) x y.
Proof.
  intros HS PS HD EH EG EL EF EB NT B1 B2 B3 B4. destruct (draw_shape_spec others scale n m o HS) as (t & o' & E & ST & _). rewrite E, EG. cbv zeta.
  eexists. exists o'. split; [reflexivity|]. intros x y Rx Ry c W. rewrite logo_out in W by (intros i F; rewrite EL in F; discriminate F).
  pose proof HS as (HW & EW & EHt). assert (R : in_module o x y (sample_x o d x) (sample_y o d y)) by (unfold in_module, sample_x, sample_y; lia).
  assert (NS : safe_b o n x y && qrbool (rawget m x y) = false).
  { replace (safe_b o n x y) with false; [reflexivity|]. symmetry. unfold safe_b, logo_info. rewrite EL. reflexivity. }
  destruct (mostly_samples (chosen_shape others o) d scale o n t m PS HD EH x y NS (iter_coords IterDirection_ROW n n) (fill_rect blank 0 0 (img_w o n) (img_h o n) (border_color o)))
    as (part & RP & EP); [apply NoDup_iter_coords|apply in_iter_coords; auto|].
  rewrite EP in W. assert (BC : border_color o = white) by (unfold border_color; rewrite NT, EB; reflexivity).
  assert (LI : light o = white) by (unfold light; rewrite ?NT, EB; reflexivity).
  rewrite blank_pixel in W; [|unfold sample_x, img_w; nia|unfold sample_y, img_h; nia|rewrite BC; unfold good, byte; cbn; lia].
  rewrite module_at_bitmap by (auto; split; lia). rewrite BC, LI, EF in W. unfold within, over_at, white, black in W. destruct (qrbool (rawget m x y)); cbn [c_r c_g c_b c_a] in W.
  - pose proof (channel_dark part RP) as CD. apply Z.ltb_lt. unfold sum3. lia.
  - rewrite channel_light in W by lia. apply Z.ltb_ge. unfold sum3. lia.
Qed.

(* black on white with such a shape, saved without loss or with a loss of at most 25 of 255: an ISO reader that tells dark from light at
   medium grey gets the text back *)
Theorem C56_mostly_covering_reads_back :
  forall sjis, shift_jis_contract sjis ->
  forall text opts sched q, NewWith sjis text opts sched = Ok q -> ~ misdetected sjis opts (text_bytes text) ->
  forall encode decode fails others scale o old d, lossy 25 (o_encoder o) encode decode ->
  encodable (o_encoder o) (img_w o (q_dimension q)) (img_h o (q_dimension q)) -> (forall k, fails k = None) ->
  mostly_covers (chosen_shape others o) (qrBlockWidth o) d -> 0 <= d < qrBlockWidth o ->
  o_logo o = None -> o_halftone o = None -> o_gradient o = None -> o_qrColor o = black -> o_bgColor o = white -> o_bgTransparent o = false ->
  0 <= b_left o -> 0 <= b_right o -> 0 <= b_top o -> 0 <= b_bottom o ->
  exists s' o' cv,
    Save (Some (qMat q)) (standard_writer encode fails others scale) (standard_new old, o) = ((s', o'), [EvWrite (qMat q); EvClose], Returned None) /\
    s_open s' = false /\ decode (o_content (s_file s')) = Some (img_w o (q_dimension q), img_h o (q_dimension q), cv) /\
    reads_back sjis text (scan_threshold d cv o (q_dimension q)).
Proof.
  intros sjis C text opts sched q HN NM encode decode fails others scale o old d DEC ENC NF PS HD EL EH EG EF EB NT B1 B2 B3 B4.
  destruct (symbol_reads_back sjis C text opts sched q HN NM) as (SQ & _ & _).
  apply (PropsShape.saved_by (fun c => sum3 c <? 3 * 128) (within 25) sjis C text opts sched q HN NM encode decode fails others scale o old d DEC ENC NF B1 B2 B3 B4 HD).
  apply mostly_scan; assumption.
Qed.

(* the circle in blocks of two pixels is such a shape, at either pixel, if the rasterizer covers what a disc of radius 1 should cover *)
Theorem C56_circle_width_two :
  forall edge d, fair_edge edge -> 0 <= d < 2 -> mostly_covers (circle_draw edge) 2 d.
Proof.
  intros edge d FE HD cv k TX TY EW EH. unfold circle_draw.
  assert (ER : circle_radius k = 1) by (unfold circle_radius; rewrite EW, EH; reflexivity).
  assert (CX : circle_cx6 k = 6 * k_x k + 6) by (unfold circle_cx6; lia). assert (CY : circle_cy6 k = 6 * k_y k + 6) by (unfold circle_cy6; lia). rewrite ER. cbn [Z.eqb orb]. split.
  - intros px py HN. assert (EO : circle_outside k px py = true).
    { unfold circle_outside. rewrite CX, CY, ER. unfold in_box in HN. rewrite EW, EH in HN. rewrite !orb_true_iff, !Z.leb_le. lia. }
    rewrite EO. reflexivity.
  - assert (IB : in_box k (k_x k + d) (k_y k + d)) by (unfold in_box; rewrite EW, EH; lia).
    assert (EO : circle_outside k (k_x k + d) (k_y k + d) = false).
    { unfold circle_outside. rewrite CX, CY, ER. cbv zeta. rewrite !orb_false_iff, !Z.leb_gt. assert (D : d = 0 \/ d = 1) by lia.
      repeat split; lia. }
    rewrite EO. destruct (circle_inside k (k_x k + d) (k_y k + d)).
    + exists 65535. split; [lia|]. symmetry. apply over_full.
    + destruct (FE k (k_x k + d) (k_y k + d) (cv (k_x k + d) (k_y k + d)) TX TY EW EH IB) as (part & R & ->). exists part. auto.
Qed.

(* the default colours and the circle shape in blocks of two pixels *)
Example C56_mostly_example :
  exists o, NewWithWriter (fun _ => None) [WithCircleShape; WithQRWidth 2] = Some o /\ qrBlockWidth o = 2 /\
    fair_edge (fun k _ _ c => over_at 51471 c (k_color k)) /\
    mostly_covers (chosen_shape (fun _ => circle_draw (fun k _ _ c => over_at 51471 c (k_color k))) o) (qrBlockWidth o) 1 /\
    o_logo o = None /\ o_halftone o = None /\ o_gradient o = None /\ o_qrColor o = black /\ o_bgColor o = white /\ o_bgTransparent o = false /\
    0 <= b_left o /\ 0 <= b_right o /\ 0 <= b_top o /\ 0 <= b_bottom o.
Proof.
  assert (F : fair_edge (fun k _ _ c => over_at 51471 c (k_color k))) by (intros k px py c _ _ _ _ _; exists 51471; split; [lia|reflexivity]).
  eexists. split; [reflexivity|]. split; [reflexivity|]. split; [exact F|]. split; [apply C56_circle_width_two; [exact F|lia]|]. repeat apply conj; try reflexivity; cbn; lia.
Qed.

Print Assumptions C56_mostly_covering_reads_back.
Print Assumptions C56_circle_width_two.
