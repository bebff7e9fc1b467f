(* C60: the shapes package (blocks and finders that link to their neighbours). *)
From Coq Require Import Lia.
From Verif Require Import ModelBase ModelMatrix ModelQRCode ModelSave ModelCompressed ModelStandard ModelWriters ModelShapes.
From Verif Require Import SpecReader SpecSegment SpecAPI SpecMatrix SpecStandard SpecMedium SpecShape SpecShapes.
From Verif Require Import ProofMatrix ProofEval ProofViews ProofStandard ProofMedium ProofShape ProofLinks ProofShapes.
From Verif Require Import PropsShape.
From Coq Require Import QArith Lqa Lia.
Open Scope Z_scope.

(* ---- what is read ---- *)
(* Any shape that, at the sampled pixels, paints dark modules and no light ones: outside the logo the sampled pixels of the picture
   are the symbol.  (Without a safe zone around the logo.) *)
Theorem C60_any_linking_shape :
  forall others scale n m o d, square n m -> linking_shape (chosen_shape others o) (qrBlockWidth o) d -> 0 <= d < qrBlockWidth o ->
  o_halftone o = None -> o_gradient o = None -> o_safeZone o = false -> painter_colors o ->
  0 <= b_left o -> 0 <= b_right o -> 0 <= b_top o -> 0 <= b_bottom o -> (forall i, o_logo o = Some i -> i_x0 i = 0 /\ i_y0 i = 0) ->
  exists cv o', draw others scale m o = Some (Z.abs (img_w o n), Z.abs (img_h o n), cv, o') /\
    forall x y, 0 <= x < n -> 0 <= y < n ->
    (forall i, o_logo o = Some i -> logo_fits o (img_w o n) (img_h o n) i -> ~ in_logo (img_w o n) (img_h o n) i (sample_x o d x) (sample_y o d y)) ->
    if module_at (m_bitmap m) x y then cv (sample_x o d x) (sample_y o d y) = o_qrColor o else is_light o (cv (sample_x o d x) (sample_y o d y)).
Proof.
  intros others scale n m o d HS LS HD EH EG ES HC B1 B2 B3 B4 H0.
  destruct (draw_shape_spec others scale n m o HS) as (t & o' & E & ST & TT & GT). rewrite E, EG. cbv zeta. eexists. exists o'. split; [reflexivity|].
  intros x y Rx Ry HL. rewrite logo_out by assumption. fold (shape_base others scale n t m o).
  pose proof HS as (HW & EW & _). destruct (sample_range o n d x y B1 B2 B3 B4 HD Rx Ry) as [RX RY].
  rewrite (links_base others scale n t m o d HS LS HD EH HC); auto; [|lia|].
  - destruct (module_at (m_bitmap m) x y); [reflexivity|apply border_light].
  - intros a b. unfold safe_b. rewrite ES. destruct (logo_info o (img_w o n) (img_h o n)) as [[lv lw] lh]. rewrite andb_false_r. reflexivity.
Qed.

Theorem C60_saved_symbol_reads_back :
  forall sjis, shift_jis_contract sjis ->
  forall text opts sched q, NewWith sjis text opts sched = Ok q -> ~ misdetected sjis opts (text_bytes text) ->
  forall encode decode fails others scale o old d, lossless (o_encoder o) encode decode ->
  encodable (o_encoder o) (img_w o (q_dimension q)) (img_h o (q_dimension q)) -> (forall k, fails k = None) ->
  linking_shape (chosen_shape others o) (qrBlockWidth o) d -> 0 <= d < qrBlockWidth o ->
  o_logo o = None -> o_halftone o = None -> o_gradient o = None -> painter_colors o -> (o_bgTransparent o = false -> o_bgColor o <> o_qrColor o) ->
  o_safeZone o = false -> 0 <= b_left o -> 0 <= b_right o -> 0 <= b_top o -> 0 <= b_bottom o ->
  exists s' o' cv,
    Save (Some (qMat q)) (standard_writer encode fails others scale) (standard_new old, o) = ((s', o'), [EvWrite (qMat q); EvClose], Returned None) /\
    s_open s' = false /\ decode (o_content (s_file s')) = Some (img_w o (q_dimension q), img_h o (q_dimension q), cv) /\
    reads_back sjis text (scan_at d cv o (q_dimension q)).
Proof.
  intros sjis C text opts sched q HN NM encode decode fails others scale o old d DEC ENC NF LS HD EL EH EG PC DIFF ES B1 B2 B3 B4.
  destruct (symbol_reads_back sjis C text opts sched q HN NM) as (SQ & _ & _).
  eapply saved_samples; eauto.
  destruct (C60_any_linking_shape others scale _ _ o d SQ LS HD EH EG ES PC B1 B2 B3 B4) as (cv & o' & E & HP); [intros i F; rewrite EL in F; discriminate F|].
  exists cv, o'. split; [exact E|]. intros x y Rx Ry. apply HP; auto. intros i F. rewrite EL in F. discriminate F.
Qed.

(* ---- the package's shapes ---- *)
Lemma finder_links cover bw f : package_finder bw f -> linking_shape (draw_ops cover f) bw (bw / 2).
Proof. intros [HB|HB]; [apply rounded_links; exact HB|apply square_finder_links]. pose proof (Z.div_mod bw 2). pose proof (Z.mod_pos_bound bw 2). lia. Qed.
Lemma clamped_size s : (s < 1 # 10)%Q \/ (1 < s)%Q -> block_size s = 1%Q.
Proof.
  intros [L|L]; unfold block_size.
  - rewrite (qnl (1 # 10) s L). reflexivity.
  - rewrite (qnl s 1 L). destruct (Qle_bool (1 # 10) s); reflexivity.
Qed.
Lemma size_kept s : (1 # 10 <= s)%Q -> (s <= 1)%Q -> block_size s = s.
Proof. intros A B. unfold block_size. rewrite (ql _ _ A), (ql _ _ B). reflexivity. Qed.
Lemma ratio_kept s : (6 # 10 <= s)%Q -> (s <= 1)%Q -> stripe_ratio s = s.
Proof. intros A B. unfold stripe_ratio. rewrite (ql _ _ A), (ql _ _ B). reflexivity. Qed.
Lemma ratio_default s : (s < 6 # 10)%Q \/ (1 < s)%Q -> stripe_ratio s = (85 # 100)%Q.
Proof.
  intros [L|L]; unfold stripe_ratio.
  - rewrite (qnl (6 # 10) s L). reflexivity.
  - rewrite (qnl s 1 L). destruct (Qle_bool (6 # 10) s); reflexivity.
Qed.
Lemma q_cases s a b : (s < a \/ b < s \/ (a <= s /\ s <= b))%Q.
Proof. destruct (Qlt_le_dec s a); auto. destruct (Qlt_le_dec b s); auto. Qed.
Lemma square_one bw : 1 <= bw -> wide_square bw 1.
Proof.
  intros HB. destruct (Z.eq_dec bw 1) as [->|N]; [right; split; [reflexivity|change (inject_Z 1) with 1%Q; lra]|left].
  assert (Q2 : (2 <= inject_Z bw)%Q) by (change 2%Q with (inject_Z 2); rewrite <- Zle_Qle; lia). lra.
Qed.
Lemma circle_one bw : 3 <= bw -> wide_circle bw 1.
Proof. intros HB. apply (wide_more _ (85 # 100)); [lia|lra|apply wide_85; exact HB]. Qed.
Lemma block_links cover bw b : package_block bw b -> linking_shape (draw_ops cover b) bw (bw / 2).
Proof.
  intros [HB|HB|HB|HB|ratio HB|ratio HB HR|size HB HS|size HB HS];
    [apply liquid_links|apply chain_links|apply vchain_links|apply hchain_links|apply hstripe_links|apply vstripe_links|apply squares_links|apply circles_links]; try lia.
  - assert (K : (84 # 100 <= stripe_ratio ratio)%Q \/ bw <> 4).
    { destruct HR as [HR|HR]; [right; exact HR|left]. destruct (q_cases ratio (6 # 10) 1) as [L|[L|[L1 L2]]].
      - rewrite ratio_default by auto. lra.
      - rewrite ratio_default by auto. lra.
      - rewrite ratio_kept by assumption. auto. }
    destruct (ratio_range ratio) as [R1 R2].
    destruct (Z.eq_dec bw 3) as [->|N3]; [right; split; [reflexivity|change (inject_Z 3) with 3%Q; lra]|].
    destruct (Z.eq_dec bw 4) as [->|N4]; [destruct K as [K|K]; [left; change (inject_Z 4) with 4%Q; lra|lia]|].
    destruct (Z.eq_dec bw 5) as [->|N5]; [right; split; [reflexivity|change (inject_Z 5) with 5%Q; lra]|].
    left. assert (Q6 : (6 <= inject_Z bw)%Q) by (change 6%Q with (inject_Z 6); rewrite <- Zle_Qle; lia). nra.
  - destruct (q_cases size (1 # 10) 1) as [L|[L|[L1 L2]]]; [rewrite clamped_size by auto; apply square_one; exact HB..|].
    rewrite size_kept by assumption. destruct HS as [HS|[F|F]]; [exact HS|lra|lra].
  - destruct (q_cases size (1 # 10) 1) as [L|[L|[L1 L2]]]; [rewrite clamped_size by auto; apply circle_one; exact HB..|].
    rewrite size_kept by assumption. destruct HS as [HS|[F|F]]; [exact HS|lra|lra].
Qed.

(* every finder of the package with every block of the package, whatever the rasterizer does at the edges *)
Theorem C60_package_shapes :
  forall (cover : coverage) bw finder block, package_finder bw finder -> package_block bw block ->
  linking_shape (Assemble cover finder block) bw (bw / 2).
Proof. intros. apply assemble_links; [apply finder_links|apply block_links]; assumption. Qed.

(* New, Save with an assembled shape of the package, read the picture in the middle of the modules: the text *)
Theorem C60_package_reads_back :
  forall sjis, shift_jis_contract sjis ->
  forall text opts sched q, NewWith sjis text opts sched = Ok q -> ~ misdetected sjis opts (text_bytes text) ->
  forall encode decode fails (cover : coverage) finder block id scale o old, lossless (o_encoder o) encode decode ->
  encodable (o_encoder o) (img_w o (q_dimension q)) (img_h o (q_dimension q)) -> (forall k, fails k = None) ->
  package_finder (qrBlockWidth o) finder -> package_block (qrBlockWidth o) block -> o_shape o = Some (ShapeCustom id) ->
  o_logo o = None -> o_halftone o = None -> o_gradient o = None -> painter_colors o -> (o_bgTransparent o = false -> o_bgColor o <> o_qrColor o) ->
  o_safeZone o = false -> 0 <= b_left o -> 0 <= b_right o -> 0 <= b_top o -> 0 <= b_bottom o ->
  exists s' o' cv,
    Save (Some (qMat q)) (standard_writer encode fails (fun _ => Assemble cover finder block) scale) (standard_new old, o) = ((s', o'), [EvWrite (qMat q); EvClose], Returned None) /\
    s_open s' = false /\ decode (o_content (s_file s')) = Some (img_w o (q_dimension q), img_h o (q_dimension q), cv) /\
    reads_back sjis text (scan_at (qrBlockWidth o / 2) cv o (q_dimension q)).
Proof.
  intros sjis C text opts sched q HN NM encode decode fails cover finder block id scale o old DEC ENC NF PF PB EO EL EH EG PC DIFF ES B1 B2 B3 B4.
  apply (C60_saved_symbol_reads_back sjis C text opts sched q HN NM encode decode); auto.
  - unfold chosen_shape, getShape. rewrite EO. apply C60_package_shapes; assumption.
  - assert (1 <= qrBlockWidth o) by (inversion PF; lia). pose proof (Z.div_mod (qrBlockWidth o) 2). pose proof (Z.mod_pos_bound (qrBlockWidth o) 2). lia.
Qed.

(* ---- where they paint: every pixel ---- *)
Lemma box_q k px py : k_tx k = 0 -> k_ty k = 0 -> ~ in_box k px py ->
  (qpx px + 1 <= ul_x k \/ ul_x k + edge_w k <= qpx px \/ qpx py + 1 <= ul_y k \/ ul_y k + edge_h k <= qpx py)%Q.
Proof.
  intros TX TY HN. unfold in_box in HN.
  assert (C : px + 1 <= k_x k \/ k_x k + k_w k <= px \/ py + 1 <= k_y k \/ k_y k + k_h k <= py) by lia.
  assert (EX : (ul_x k == inject_Z (k_x k))%Q) by (unfold ul_x; rewrite TX; change (inject_Z 0) with 0%Q; field).
  assert (EY : (ul_y k == inject_Z (k_y k))%Q) by (unfold ul_y; rewrite TY; change (inject_Z 0) with 0%Q; field).
  unfold qpx, edge_w, edge_h. rewrite !Zle_Qle, !inject_Z_plus in C. change (inject_Z 1) with 1%Q in C. rewrite EX, EY. exact C.
Qed.
Ltac misses_box f := let I := fresh "I" in intros g I; unfold missed; unfold f, rect, Qdiv in I; cbv zeta in I; change (/ 2)%Q with (1 # 2)%Q in I; repeat add_in I; outside.

(* these stay in their own box *)
Inductive boxed : drawing -> Prop :=
| b_square : boxed SquareFinder
| b_chain : boxed ChainBlock | b_vchain : boxed VChainBlock | b_hchain : boxed HChainBlock
| b_hstripe r : boxed (HStripeBlock r) | b_vstripe r : boxed (VStripeBlock r) | b_squares s : boxed (SquareBlocks s) | b_circles s : boxed (CircleBlocks s).

Theorem C60_stay_in_box :
  forall (cover : coverage) f, boxed f -> forall cv k, k_tx k = 0 -> k_ty k = 0 -> 0 <= k_w k -> k_h k = k_w k ->
  forall px py, ~ in_box k px py -> draw_ops cover f cv k px py = cv px py.
Proof.
  intros cover f HF cv k TX TY W0 WH px py HN. pose proof (box_q k px py TX TY HN) as C.
  assert (QW : (0 <= edge_w k /\ edge_h k == edge_w k)%Q).
  { unfold edge_w, edge_h. rewrite WH. split; [|reflexivity]. change 0%Q with (inject_Z 0). rewrite <- Zle_Qle. exact W0. }
  destruct QW as [QW QH]. unfold draw_ops. apply ops_missed; [constructor|].
  destruct HF as [| | | |r|r|s|s]; destruct C as [C|[C|[C|C]]];
    try (destruct (ratio_range r) as [R1 R2]; destruct (part_q (edge_w k) (stripe_ratio r) ltac:(lra) ltac:(lra) R2) as [P1 P2]; destruct (part_q (edge_h k) (stripe_ratio r) ltac:(lra) ltac:(lra) R2) as [P3 P4]);
    try (destruct (size_range s) as [R1 R2]; destruct (part_q (edge_w k) (block_size s) ltac:(lra) ltac:(lra) R2) as [P1 P2]; destruct (part_q (edge_h k) (block_size s) ltac:(lra) ltac:(lra) R2) as [P3 P4]).
  1-4: misses_box SquareFinder.
  1-4: misses_box ChainBlock.
  1-4: misses_box VChainBlock.
  1-4: misses_box HChainBlock.
  1-4: misses_box HStripeBlock.
  1-4: misses_box VStripeBlock.
  1-4: misses_box SquareBlocks.
  1-4: misses_box CircleBlocks.
Qed.

(* the other two reach half a block into the neighbours, no further *)
Lemma reach_q k px py : k_tx k = 0 -> k_ty k = 0 -> out_of_reach k px py ->
  (qpx px + 1 <= ul_x k - edge_w k * (1 # 2) \/ ul_x k + (3 # 2) * edge_w k <= qpx px \/ qpx py + 1 <= ul_y k - edge_h k * (1 # 2) \/ ul_y k + (3 # 2) * edge_h k <= qpx py)%Q.
Proof.
  intros TX TY C. unfold out_of_reach in C.
  assert (EX : (ul_x k == inject_Z (k_x k))%Q) by (unfold ul_x; rewrite TX; change (inject_Z 0) with 0%Q; field).
  assert (EY : (ul_y k == inject_Z (k_y k))%Q) by (unfold ul_y; rewrite TY; change (inject_Z 0) with 0%Q; field).
  unfold Z.sub in C. rewrite !Zle_Qle, !inject_Z_plus, !inject_Z_opp, !inject_Z_mult, !inject_Z_plus in C. change (inject_Z 1) with 1%Q in C. change (inject_Z 2) with 2%Q in C. change (inject_Z 3) with 3%Q in C.
  unfold qpx, edge_w, edge_h. rewrite EX, EY. destruct C as [C|[C|[C|C]]]; [left|right; left|right; right; left|right; right; right]; lra.
Qed.
Lemma reach_missed f : f = LiquidBlock \/ f = RoundedFinder -> forall k, k_tx k = 0 -> k_ty k = 0 -> 0 <= k_w k -> k_h k = k_w k ->
  forall px py, out_of_reach k px py -> misses px py (f k).
Proof.
  intros HF k TX TY W0 WH px py HN. pose proof (reach_q k px py TX TY HN) as C.
  assert (QW : (0 <= edge_w k /\ edge_h k == edge_w k)%Q).
  { unfold edge_w, edge_h. rewrite WH. split; [|reflexivity]. change 0%Q with (inject_Z 0). rewrite <- Zle_Qle. exact W0. }
  destruct QW as [QW QH]. intros g I. unfold missed. destruct HF as [-> | ->].
  - unfold LiquidBlock, rect, Qdiv in I; cbv zeta in I; change (/ 2)%Q with (1 # 2)%Q in I. apply in_app_iff in I.
    destruct C as [C|[C|[C|C]]]; (destruct I as [I|I]; [repeat match type of I with In _ (if ?b then _ else _) => destruct b end|]; repeat add_in I; outside).
  - unfold RoundedFinder, Qdiv in I; cbv zeta in I. change (/ 2)%Q with (1 # 2)%Q in I. change (/ 4)%Q with (1 # 4)%Q in I.
    destruct (negb _); [destruct I|]. apply in_app_iff in I. destruct I as [I|I]; [|repeat add_in I].
    destruct C as [C|[C|[C|C]]]; (repeat match type of I with In _ (if ?b then _ else _) => destruct b end; repeat add_in I; outside).
Qed.
Theorem C60_reach_half_a_block :
  forall (cover : coverage) f, f = LiquidBlock \/ f = RoundedFinder -> forall cv k, k_tx k = 0 -> k_ty k = 0 -> 0 <= k_w k -> k_h k = k_w k ->
  forall px py, out_of_reach k px py -> draw_ops cover f cv k px py = cv px py.
Proof. intros. unfold draw_ops. apply ops_missed; [constructor|]. apply reach_missed; assumption. Qed.

(* a light module is painted in its own box, if at all *)
Lemma light_missed f : f = LiquidBlock \/ f = RoundedFinder -> forall k, k_tx k = 0 -> k_ty k = 0 -> 0 <= k_w k -> k_h k = k_w k ->
  self_dark k = false -> forall px py, ~ in_box k px py -> misses px py (f k).
Proof.
  intros HF k TX TY W0 WH SD px py HN. pose proof (box_q k px py TX TY HN) as C.
  assert (QW : (0 <= edge_w k /\ edge_h k == edge_w k)%Q).
  { unfold edge_w, edge_h. rewrite WH. split; [|reflexivity]. change 0%Q with (inject_Z 0). rewrite <- Zle_Qle. exact W0. }
  destruct QW as [QW QH]. intros g I. unfold missed. destruct HF as [-> | ->].
  - unfold LiquidBlock, rect, Qdiv in I; cbv zeta in I; change (/ 2)%Q with (1 # 2)%Q in I.
    repeat match type of I with context [has (k_neighbours k) ?N] => rewrite (proj1 (no_self k N SD eq_refl)) in I end.
    repeat match type of I with context [k_neighbours k =? ?N] => rewrite (proj2 (no_self k N SD eq_refl)) in I end.
    cbn [app andb when] in I. repeat add_in I. destruct C as [C|[C|[C|C]]]; outside.
  - unfold RoundedFinder in I. cbv zeta in I. destruct (Z.eqb_spec (Z.land (k_neighbours k) NSelf) NSelf) as [E|E]; [|destruct I].
    apply Z.eqb_eq in E. apply self_mask in E. rewrite SD in E. discriminate E.
Qed.
Theorem C60_light_modules_in_box :
  forall (cover : coverage) f, boxed f \/ f = LiquidBlock \/ f = RoundedFinder -> forall cv k, k_tx k = 0 -> k_ty k = 0 -> 0 <= k_w k -> k_h k = k_w k ->
  self_dark k = false -> forall px py, ~ in_box k px py -> draw_ops cover f cv k px py = cv px py.
Proof.
  intros cover f [HF|HF] cv k TX TY W0 WH SD px py HN; [apply C60_stay_in_box; assumption|]. unfold draw_ops. apply ops_missed; [constructor|]. apply light_missed; assumption.
Qed.

(* ---- the parameters ---- *)
(* out of range: the documented defaults *)
Theorem C60_parameters_clamped :
  forall r s, (r < 6 # 10)%Q \/ (1 < r)%Q -> (s < 1 # 10)%Q \/ (1 < s)%Q ->
  VStripeBlock r = VStripeBlock (85 # 100) /\ SquareBlocks s = SquareBlocks 1 /\ CircleBlocks s = CircleBlocks 1.
Proof.
  intros r s HR HS. unfold VStripeBlock, SquareBlocks, CircleBlocks. rewrite (ratio_default r HR), (clamped_size s HS). repeat split; reflexivity.
Qed.
(* "The width of each stripe is determined by the stripeRatio parameter": of the vertical stripes yes *)
Theorem C60_vstripe_ratio :
  forall r1 r2, (6 # 10 <= r1)%Q -> (r1 < r2)%Q -> (r2 <= 1)%Q -> forall k, 0 < k_w k -> VStripeBlock r1 k <> VStripeBlock r2 k.
Proof.
  intros r1 r2 A B C k W E. unfold VStripeBlock in E. cbv zeta in E. cbn [app] in E.
  apply (f_equal (fun l => match l with ModelShapes.Add (Disc _ _ r) :: _ => r | _ => 0%Q end)) in E. cbv beta iota in E. rewrite !ratio_kept in E by lra.
  assert (QE : (edge_w k * r1 / 2 == edge_w k * r2 / 2)%Q) by (rewrite E; reflexivity). unfold Qdiv in QE. change (/ 2)%Q with (1 # 2)%Q in QE.
  assert (QW : (0 < edge_w k)%Q) by (unfold edge_w; change 0%Q with (inject_Z 0); rewrite <- Zlt_Qlt; exact W). nra.
Qed.
(* of the horizontal ones no: all ratios draw the same *)
Theorem C60_hstripe_ratio_refuted :
  ~ (forall r1 r2, (6 # 10 <= r1)%Q -> (r1 < r2)%Q -> (r2 <= 1)%Q -> exists k, HStripeBlock r1 k <> HStripeBlock r2 k).
Proof. intros F. destruct (F (6 # 10) 1 ltac:(lra) ltac:(lra) ltac:(lra))%Q as [k E]. apply E. reflexivity. Qed.

(* ---- a concrete case ---- *)
(* Liquid blocks with rounded finders, blocks of 3 pixels, a symbol of two dark modules that touch at a corner; a rasterizer that
   covers half of every pixel at an edge.  The hypotheses hold, and the drawing is the one the theorem speaks about. *)
Definition half_cover : coverage := fun _ _ _ => 32768.
Example C60_example :
  exists o, NewWithWriter (fun _ => None) [WithCustomShape (Some (ShapeCustom 1)); WithQRWidth 3; WithBorderWidth [1]] = Some o /\
    square 2 dark_light /\ package_finder (qrBlockWidth o) RoundedFinder /\ package_block (qrBlockWidth o) LiquidBlock /\ o_shape o = Some (ShapeCustom 1) /\
    o_halftone o = None /\ o_gradient o = None /\ o_logo o = None /\ o_safeZone o = false /\ painter_colors o /\ o_bgColor o <> o_qrColor o /\
    0 <= b_left o /\ 0 <= b_right o /\ 0 <= b_top o /\ 0 <= b_bottom o /\
    match draw (fun _ => Assemble half_cover RoundedFinder LiquidBlock) (fun _ _ _ _ => 0) dark_light o with
    | Some (_, _, cv, _) => scan_at 1 cv o 2 | None => [] end = [[false; true]; [true; false]].
Proof.
  eexists. split; [reflexivity|]. split; [do 2 apply square_set; apply square_new; lia|]. split; [apply rounded_finder; cbn; lia|]. split; [apply liquid_block; cbn; lia|].
  do 5 (split; [reflexivity|]). split; [unfold painter_colors, opaque, good, byte; cbn; repeat split; lia|].
  split; [intros F; discriminate F|]. cbn [b_left b_right b_top b_bottom]. do 4 (split; [cbn; lia|]). vm_compute. reflexivity.
Qed.
(* the liquid block of a dark module with dark neighbours below and on the right does reach into them, and paints its middle *)
Definition corner_call : call := mkCall false 0 0 0 0 4 4 (mkRGBA 0 0 0 255) (bits [NSelf; NRight; NBot]).
Example C60_reaches_neighbour :
  let cv := draw_ops half_cover LiquidBlock (fun _ _ => mkRGBA 255 255 255 255) corner_call in
  cv 2 2 = mkRGBA 0 0 0 255 /\ cv 4 2 <> mkRGBA 255 255 255 255 /\ cv 6 6 = mkRGBA 255 255 255 255 /\ cv 6 2 = mkRGBA 255 255 255 255.
Proof. vm_compute. repeat split; intros F; discriminate F. Qed.
(* every block of the package at the writer's default width of 20 pixels *)
Example C60_default_width : forall r s, (1 # 6 <= s)%Q -> (s <= 1)%Q ->
  package_finder 20 RoundedFinder /\ package_block 20 LiquidBlock /\ package_block 20 (VStripeBlock r) /\ package_block 20 (SquareBlocks s) /\ package_block 20 (CircleBlocks s).
Proof.
  intros r s S1 S2. assert (W : (10 # 3 <= inject_Z 20 * s)%Q) by (change (inject_Z 20) with 20%Q; lra).
  split; [constructor; lia|]. split; [constructor; lia|]. split; [constructor; [lia|left; lia]|]. split; constructor; try lia; left; left; [lra|exact W].
Qed.

Print Assumptions C60_any_linking_shape.
Print Assumptions C60_saved_symbol_reads_back.
Print Assumptions C60_package_shapes.
Print Assumptions C60_package_reads_back.
Print Assumptions C60_stay_in_box.
Print Assumptions C60_reach_half_a_block.
Print Assumptions C60_light_modules_in_box.
Print Assumptions C60_parameters_clamped.
Print Assumptions C60_vstripe_ratio.
Print Assumptions C60_hstripe_ratio_refuted.
