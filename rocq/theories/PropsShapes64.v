(* C60 in float64 arithmetic: the shapes package as the program computes it. *)
From Coq Require Import Lia.
From Verif Require Import ModelBase ModelMatrix ModelQRCode ModelSave ModelCompressed ModelStandard ModelWriters ModelFloat ModelShapes ModelShapes64.
From Verif Require Import SpecReader SpecSegment SpecAPI SpecMatrix SpecStandard SpecMedium SpecFloat64 SpecShape SpecShapes SpecShapes64.
From Verif Require Import ProofMatrix ProofEval ProofViews ProofStandard ProofMedium ProofShape ProofLinks ProofFloat ProofFloatNear ProofShapes ProofShapes64 ProofShapes64b.
From Verif Require Import PropsShape PropsShapes.
From Coq Require Import QArith Lqa Lia.
Open Scope Z_scope.

Lemma boxed_reach f bw d k : 0 <= d < bw -> on_grid k bw -> (forall g, In (ModelShapes.Add g) (f k) -> inb k g) -> call_reach f bw d k.
Proof.
  intros HD [E1 E2 E3 E4] IN i j NE g I. left. apply (inb_none k); [apply IN, I|]. unfold in_box. rewrite E3, E4. intros [A B].
  apply NE. split; nia.
Qed.

Definition works (f : drawing) (bw : Z) : Prop := forall k, call_in_range k -> on_grid k bw -> call_reach f bw (bw / 2) k /\ call_solid f (bw / 2) k.
Lemma works_boxed f bw : 1 <= bw -> (forall k, call_in_range k -> on_grid k bw -> (forall g, In (ModelShapes.Add g) (f k) -> inb k g) /\ call_solid f (k_w k / 2) k) -> works f bw.
Proof.
  intros HB HF k RK G. destruct (HF k RK G) as [A B]. pose proof G as [E1 E2 E3 E4]. rewrite E3 in B. split; [|exact B].
  apply boxed_reach; auto. pose proof (Z.div_mod bw 2). pose proof (Z.mod_pos_bound bw 2). lia.
Qed.
Lemma finder64_works bw f : package_finder64 bw f -> works f bw.
Proof.
  intros [HB|HB].
  - intros k RK G. pose proof G as [E1 E2 E3 E4]. destruct (rounded_calls bw HB) as [R S].
    assert (EQ : Forall2 opeq (RoundedFinder64 round64 k) (RoundedFinder k)) by (apply rounded_eq; auto using round64_nearest; congruence).
    split; [eapply reach_eq; eauto|eapply solid_eq; eauto].
  - apply works_boxed; [exact HB|]. intros k RK [E1 E2 E3 E4]. assert (EH : k_h k = k_w k) by congruence. split.
    + intros g. apply (square_finder_in round64 round64_nearest k RK EH).
    + apply (square_finder_solid round64 round64_nearest k RK EH). lia.
Qed.
Lemma block64_works bw b : package_block64 bw b -> works b bw.
Proof.
  intros [HB|fused HB|fused HB|fused HB|ratio HB|ratio FR HB HR|size FS HB HS|size FS HB HS].
  1: { intros k RK G. pose proof G as [E1 E2 E3 E4]. destruct (liquid_calls bw HB) as [R S].
    assert (EQ : Forall2 opeq (LiquidBlock64 round64 k) (LiquidBlock k)) by (apply liquid_eq; auto using round64_nearest; congruence).
    split; [eapply reach_eq; eauto|eapply solid_eq; eauto]. }
  all: apply works_boxed; [lia|]; intros k RK [E1 E2 E3 E4]; assert (EH : k_h k = k_w k) by congruence; subst bw; split; [intros g|].
  - apply (chain_in round64 round64_nearest k RK EH).
  - apply (chain_solid round64 round64_nearest k RK EH); assumption.
  - apply (vchain_in round64 round64_nearest k RK EH).
  - apply (vchain_solid round64 round64_nearest k RK EH); assumption.
  - apply (hchain_in round64 round64_nearest k RK EH).
  - apply (hchain_solid round64 round64_nearest k RK EH); assumption.
  - apply (hstripe_in round64 round64_nearest k RK EH).
  - apply (hstripe_solid round64 round64_nearest k RK EH); assumption.
  - apply (vstripe_in round64 round64_nearest k RK EH).
  - apply (vstripe_solid round64 round64_nearest k RK EH); assumption.
  - apply (squares_in round64 round64_nearest k RK EH); assumption.
  - apply (squares_solid round64 round64_nearest k RK EH); assumption.
  - apply (circles_in round64 round64_nearest k RK EH).
  - apply (circles_solid round64 round64_nearest k RK EH); assumption.
Qed.

(* every finder with every block, whatever the rasterizer does at the edges: readable for all pictures of up to 2^32 pixels a side *)
Theorem C60_float64_shapes :
  forall (cover : coverage) bw finder block, package_finder64 bw finder -> package_block64 bw block ->
  linking_within (Assemble cover finder block) bw (bw / 2).
Proof.
  intros cover bw finder block PF PB cv k RK E1 E2 E3 E4 _. assert (G : on_grid k bw) by (split; assumption). unfold Assemble.
  destruct (k_finder k); [destruct (finder64_works bw finder PF k RK G)|destruct (block64_works bw block PB k RK G)]; apply linking_call; assumption.
Qed.

(* ---- the calls of a picture are in this range ---- *)
Definition safe_call (f g : canvas -> call -> canvas) (cv : canvas) (k : call) : canvas :=
  if (0 <=? k_x k) && (k_x k <=? 2 ^ 32) && (0 <=? k_y k) && (k_y k <=? 2 ^ 32) && (0 <=? k_w k) && (k_w k <=? 2 ^ 32) && (0 <=? k_h k) && (k_h k <=? 2 ^ 32) then f cv k else g cv k.
Lemma safe_in f g cv k : call_in_range k -> safe_call f g cv k = f cv k.
Proof.
  intros ((A1 & A2) & (B1 & B2) & (C1 & C2) & (D1 & D2)). unfold safe_call. rewrite !(proj2 (Z.leb_le _ _)) by assumption. reflexivity.
Qed.
Lemma safe_links f g bw d : linking_within f bw d -> linking_shape g bw d -> linking_shape (safe_call f g) bw d.
Proof.
  intros LF LG cv k E1 E2 E3 E4 E5. unfold safe_call.
  destruct ((0 <=? k_x k) && (k_x k <=? 2 ^ 32) && (0 <=? k_y k) && (k_y k <=? 2 ^ 32) && (0 <=? k_w k) && (k_w k <=? 2 ^ 32) && (0 <=? k_h k) && (k_h k <=? 2 ^ 32)) eqn:E;
    [|apply (LG cv k E1 E2 E3 E4 E5)].
  rewrite !andb_true_iff, !Z.leb_le in E. destruct E as (((((((A1 & A2) & B1) & B2) & C1) & C2) & D1) & D2).
  apply (LF cv k); auto. unfold call_in_range, picture_range. auto.
Qed.
Lemma picture_calls scale n m o p : square n m -> draw_plan scale m o = Some p -> o_halftone o = None ->
  0 <= b_left o -> 0 <= b_right o -> 0 <= b_top o -> 0 <= b_bottom o -> img_w o n <= 2 ^ 32 -> img_h o n <= 2 ^ 32 ->
  forall k, In k (p_calls p) -> call_in_range k.
Proof.
  intros HS EP EH B1 B2 B3 B4 W H k I. destruct (plan_spec scale n m o HS) as (p' & t & EP' & _ & _ & _ & _ & EC & _). rewrite EP in EP'. injection EP' as <-.
  rewrite EC in I. apply in_flat_map in I as ([x y] & IC & I). apply in_iter_coords in IC as [X Y]. rewrite calls_plain in I by exact EH.
  destruct (safe_b o n x y && qrbool (rawget m x y)); [destruct I|]. destruct I as [<-|[]]. pose proof (block_width_range o) as BW.
  unfold img_w in W. unfold img_h in H. assert (P : 255 <= 2 ^ 32) by (cbn; lia). unfold call_in_range, picture_range. cbn [k_x k_y k_w k_h]. repeat split; nia.
Qed.
Lemma fold_same {A B} (f g : A -> B -> A) l : (forall a b, In b l -> f a b = g a b) -> forall a, fold_left f l a = fold_left g l a.
Proof. induction l as [|b l IH]; intros E a; [reflexivity|]. cbn [fold_left]. rewrite (E a b (or_introl eq_refl)). apply IH. intros a' b' I. apply E. right. exact I. Qed.
Lemma draw_safe f g scale n m o : square n m -> o_halftone o = None ->
  0 <= b_left o -> 0 <= b_right o -> 0 <= b_top o -> 0 <= b_bottom o -> img_w o n <= 2 ^ 32 -> img_h o n <= 2 ^ 32 ->
  draw (fun _ => f) scale m o = draw (fun _ => safe_call f g) scale m o.
Proof.
  intros HS EH B1 B2 B3 B4 W H. unfold draw, draw_with. destruct (draw_plan scale m o) as [p|] eqn:EP; [|reflexivity].
  pose proof (picture_calls scale n m o p HS EP EH B1 B2 B3 B4 W H) as RC.
  assert (E : forall cv, fold_left (match getShape o with ShapeRectangle => rectangle_draw | _ => f end) (p_calls p) cv =
                         fold_left (match getShape o with ShapeRectangle => rectangle_draw | _ => safe_call f g end) (p_calls p) cv).
  { intros cv. apply fold_same. intros a k I. destruct (getShape o); try reflexivity; symmetry; apply safe_in, RC, I. }
  cbv zeta. destruct (getShape o); rewrite ?E; reflexivity.
Qed.

(* Whatever is proved of pictures drawn with shapes that link (C60, C61, C62) holds of the package's shapes: a picture drawn with one
   of them is the picture drawn with a shape that links for all calls *)
Theorem C60_float64_as_linking :
  forall (cover : coverage) bw finder block, package_finder64 bw finder -> package_block64 bw block ->
  exists f, linking_shape f bw (bw / 2) /\
  forall scale n m o, square n m -> o_halftone o = None ->
  0 <= b_left o -> 0 <= b_right o -> 0 <= b_top o -> 0 <= b_bottom o -> img_w o n <= 2 ^ 32 -> img_h o n <= 2 ^ 32 ->
  draw (fun _ => Assemble cover finder block) scale m o = draw (fun _ => f) scale m o.
Proof.
  intros cover bw finder block PF PB. exists (safe_call (Assemble cover finder block) (draw_ops cover SquareFinder)). split.
  - apply safe_links; [apply C60_float64_shapes; assumption|]. apply square_finder_links.
    assert (1 <= bw) by (inversion PF; lia). pose proof (Z.div_mod bw 2). pose proof (Z.mod_pos_bound bw 2). lia.
  - intros. eapply draw_safe; eauto.
Qed.

(* New, Save with an assembled shape of the package, read the picture in the middle of the modules: the text *)
Theorem C60_float64_reads_back :
  forall sjis, shift_jis_contract sjis ->
  forall text opts sched q, NewWith sjis text opts sched = Ok q -> ~ misdetected sjis opts (text_bytes text) ->
  forall encode decode fails (cover : coverage) finder block id scale o old, lossless (o_encoder o) encode decode ->
  encodable (o_encoder o) (img_w o (q_dimension q)) (img_h o (q_dimension q)) -> (forall k, fails k = None) ->
  package_finder64 (qrBlockWidth o) finder -> package_block64 (qrBlockWidth o) block -> o_shape o = Some (ShapeCustom id) ->
  o_logo o = None -> o_halftone o = None -> o_gradient o = None -> painter_colors o -> (o_bgTransparent o = false -> o_bgColor o <> o_qrColor o) ->
  o_safeZone o = false -> 0 <= b_left o -> 0 <= b_right o -> 0 <= b_top o -> 0 <= b_bottom o ->
  img_w o (q_dimension q) <= 2 ^ 32 -> img_h o (q_dimension q) <= 2 ^ 32 ->
  exists s' o' cv,
    Save (Some (qMat q)) (standard_writer encode fails (fun _ => Assemble cover finder block) scale) (standard_new old, o) = ((s', o'), [EvWrite (qMat q); EvClose], Returned None) /\
    s_open s' = false /\ decode (o_content (s_file s')) = Some (img_w o (q_dimension q), img_h o (q_dimension q), cv) /\
    reads_back sjis text (scan_at (qrBlockWidth o / 2) cv o (q_dimension q)).
Proof.
  intros sjis C text opts sched q HN NM encode decode fails cover finder block id scale o old DEC ENC NF PF PB EO EL EH EG PC DIFF ES B1 B2 B3 B4 W H.
  destruct (C60_float64_as_linking cover _ finder block PF PB) as (f & LF & ED).
  destruct (symbol_reads_back sjis C text opts sched q HN NM) as (SQ & _ & _).
  assert (HD : 0 <= qrBlockWidth o / 2 < qrBlockWidth o).
  { assert (1 <= qrBlockWidth o) by (inversion PF; lia). pose proof (Z.div_mod (qrBlockWidth o) 2). pose proof (Z.mod_pos_bound (qrBlockWidth o) 2). lia. }
  assert (LS : linking_shape (chosen_shape (fun _ => f) o) (qrBlockWidth o) (qrBlockWidth o / 2)) by (unfold chosen_shape, getShape; rewrite EO; exact LF).
  destruct (C60_any_linking_shape (fun _ => f) scale _ _ o _ SQ LS HD EH EG ES PC B1 B2 B3 B4) as (cv & o' & E & HP); [intros i F; rewrite EL in F; discriminate F|].
  eapply saved_samples; eauto. exists cv, o'. split; [rewrite (ED scale (q_dimension q) (qMat q) o SQ EH B1 B2 B3 B4 W H); exact E|].
  intros x y Rx Ry. apply HP; auto. intros i F. rewrite EL in F. discriminate F.
Qed.

(* ---- where they paint: every pixel ---- *)
Inductive boxed64 : drawing -> Prop :=
| b64_square : boxed64 (SquareFinder64 round64)
| b64_chain fused : boxed64 (ChainBlock64 round64 fused) | b64_vchain fused : boxed64 (VChainBlock64 round64 fused) | b64_hchain fused : boxed64 (HChainBlock64 round64 fused)
| b64_hstripe r : boxed64 (HStripeBlock64 round64 r) | b64_vstripe r : boxed64 (VStripeBlock64 round64 r)
| b64_squares s : boxed64 (SquareBlocks64 round64 s) | b64_circles s : boxed64 (CircleBlocks64 round64 s).
Theorem C60_float64_stay_in_box :
  forall (cover : coverage) f, boxed64 f -> forall cv k, call_in_range k -> 1 <= k_w k -> k_h k = k_w k ->
  forall px py, ~ in_box k px py -> draw_ops cover f cv k px py = cv px py.
Proof.
  intros cover f HF cv k RK W1 EH px py HN. unfold draw_ops. apply ops_missed; [constructor|]. intros g I. unfold missed. apply (inb_none k); [|exact HN].
  destruct HF; [eapply square_finder_in|eapply chain_in|eapply vchain_in|eapply hchain_in|eapply hstripe_in|eapply vstripe_in|eapply squares_in|eapply circles_in]; eauto using round64_nearest.
Qed.
(* the other two reach half a block into the neighbours, no further; and of a light module they paint at most its own box *)
Theorem C60_float64_reach :
  forall (cover : coverage) f, f = LiquidBlock64 round64 \/ f = RoundedFinder64 round64 ->
  forall cv k, call_in_range k -> k_tx k = 0 -> k_ty k = 0 -> k_h k = k_w k ->
  forall px py, out_of_reach k px py \/ (self_dark k = false /\ ~ in_box k px py) -> draw_ops cover f cv k px py = cv px py.
Proof.
  intros cover f HF cv k RK TX TY EH px py HN. assert (W0 : 0 <= k_w k) by apply RK. unfold draw_ops. apply ops_missed; [constructor|].
  assert (K : exists f', (f' = LiquidBlock \/ f' = RoundedFinder) /\ Forall2 opeq (f k) (f' k)).
  { destruct HF as [-> | ->]; [exists LiquidBlock|exists RoundedFinder]; (split; [auto|]); [apply liquid_eq|apply rounded_eq]; auto using round64_nearest. }
  destruct K as (f' & HF' & EQ).
  assert (M : misses px py (f' k)) by (destruct HN as [HN|[SD HN]]; [apply reach_missed|apply light_missed]; assumption).
  intros g I. destruct (ops_in _ _ g EQ I) as (g' & I' & P). unfold missed. rewrite (none_eq _ _ _ _ P). apply M, I'.
Qed.

(* ---- concrete cases ---- *)
(* the default width of 20 pixels, all shapes; a size of 0.3 as a float64 is not three tenths *)
Example C60_float64_default_width :
  package_finder64 20 (RoundedFinder64 round64) /\ package_block64 20 (LiquidBlock64 round64) /\ package_block64 20 (ChainBlock64 round64 true) /\
  package_block64 20 (VStripeBlock64 round64 (round64 (7 # 10))) /\ package_block64 20 (SquareBlocks64 round64 (round64 (3 # 10))) /\ package_block64 20 (CircleBlocks64 round64 (round64 (3 # 10))) /\
  ~ (round64 (3 # 10) == 3 # 10)%Q.
Proof.
  assert (F : forall q, float64 (round64 q)) by apply (r_float _ round64_rounding).
  split; [apply rounded_finder64; lia|]. split; [apply liquid_block64; lia|]. split; [apply chain_block64; lia|]. split; [apply vstripe_block64; [apply F|lia|left; lia]|].
  split; [apply square_blocks64; [apply F|lia|left; left; vm_compute; discriminate]|]. split; [apply circle_blocks64; [apply F|lia|left; left; vm_compute; discriminate]|vm_compute; discriminate].
Qed.
(* rounding does change what is drawn: 9/10 of a block 3 wide, halved *)
Definition some_call : call := mkCall false 30 0 60 0 3 3 (mkRGBA 0 0 0 255) (bits [NSelf; NRight]).
Example C60_float64_is_not_exact :
  call_in_range some_call /\
  match ChainBlock64 round64 false some_call, ChainBlock some_call with
  | ModelShapes.Add (Disc _ _ r) :: _, ModelShapes.Add (Disc _ _ r') :: _ => ~ (r == r')%Q | _, _ => False end.
Proof. split; [unfold call_in_range, picture_range; cbn; lia|]. vm_compute. discriminate. Qed.
(* a drawing: liquid blocks and rounded finders, the symbol and options of C60_example *)
Example C60_float64_example :
  exists o, NewWithWriter (fun _ => None) [WithCustomShape (Some (ShapeCustom 1)); WithQRWidth 3; WithBorderWidth [1]] = Some o /\
    square 2 dark_light /\ package_finder64 (qrBlockWidth o) (RoundedFinder64 round64) /\ package_block64 (qrBlockWidth o) (ChainBlock64 round64 false) /\ o_shape o = Some (ShapeCustom 1) /\
    img_w o 2 <= 2 ^ 32 /\ img_h o 2 <= 2 ^ 32 /\
    match draw (fun _ => Assemble half_cover (RoundedFinder64 round64) (ChainBlock64 round64 false)) (fun _ _ _ _ => 0) dark_light o with
    | Some (_, _, cv, _) => scan_at 1 cv o 2 | None => [] end = [[false; true]; [true; false]].
Proof.
  eexists. split; [reflexivity|]. split; [do 2 apply square_set; apply square_new; lia|]. split; [apply rounded_finder64; cbn; lia|]. split; [apply chain_block64; cbn; lia|].
  split; [reflexivity|]. split; [vm_compute; discriminate|]. split; [vm_compute; discriminate|]. vm_compute. reflexivity.
Qed.

Print Assumptions C60_float64_shapes.
Print Assumptions C60_float64_as_linking.
Print Assumptions C60_float64_reads_back.
Print Assumptions C60_float64_stay_in_box.
Print Assumptions C60_float64_reach.
