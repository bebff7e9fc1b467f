(* C57 and C72 with float64 coordinates: what the program draws, sub-blocks of a halftone picture included, is what ModelStandard.v says. *)
From Coq Require Import Lia.
From Verif Require Import ModelBase ModelMatrix ModelFloat ModelQRCode ModelStandard ModelExample ModelHalftone64.
From Verif Require Import SpecIso SpecReader SpecAPI SpecMatrix SpecStandard SpecMedium SpecFloat64 SpecShape SpecShapes SpecCombine.
From Verif Require Import ProofBase ProofMatrix ProofStandard ProofFloat ProofShape ProofMedium ProofLinks ProofCombine ProofHalftone ProofShapes64 ProofHalftone64 ProofHalftone64b.
From Verif Require PropsCombine PropsLossy.
From Verif Require Import PropsShape Samples.
From Coq Require Import QArith Lia.
Open Scope Z_scope.

(* ---- the calls of a picture ---- *)
Definition picture_bound (n : Z) (o : options) : Prop := n <= 2 ^ 20 /\ Z.abs (b_left o) <= 2 ^ 31 /\ Z.abs (b_top o) <= 2 ^ 31.
Lemma halftone_call_range grey tr bw x y cx cy color k : 1 <= bw <= 255 -> in_range cx -> in_range cy -> in_range (cx + 255) -> in_range (cy + 255) ->
  In k (halftone_calls grey tr bw x y cx cy color) -> call_range bw k.
Proof.
  intros BW RX RY RX' RY' I. unfold halftone_calls in I. apply in_flat_map in I as (i & HI & I). apply in_map_iff in I as (j & <- & HJ). apply in_zseq in HI, HJ.
  pose proof (Z.quot_div_nonneg bw 3 ltac:(lia) ltac:(lia)) as EQ. pose proof (Z.div_pos bw 3 ltac:(lia) ltac:(lia)). pose proof (Z.div_le_upper_bound bw 3 255 ltac:(lia) ltac:(lia)).
  unfold call_range, in_range in *. cbn [k_x k_y k_w k_h k_tx k_ty]. rewrite EQ. repeat apply conj; try lia. exists i, j. lia.
Qed.
Lemma plan_calls_range scale n m o p : square n m -> draw_plan scale m o = Some p -> picture_bound n o -> forall k, In k (p_calls p) -> call_range (qrBlockWidth o) k.
Proof.
  intros HS EP (BN & BL & BT) k I. destruct (plan_spec scale n m o HS) as (p' & t & EP' & _ & _ & _ & _ & EC & _). rewrite EP in EP'. injection EP' as <-.
  rewrite EC in I. apply in_flat_map in I as ([x y] & IC & I). apply in_iter_coords in IC as [X Y]. pose proof (block_width_range o) as BW.
  assert (RX : 0 <= x * qrBlockWidth o <= 2 ^ 20 * 255) by nia. assert (RY : 0 <= y * qrBlockWidth o <= 2 ^ 20 * 255) by nia.
  destruct (calls_form scale o n t m x y) as [E|[E|(i & EI & E)]]; rewrite E in I; [destruct I| |].
  - destruct I as [<-|[]]. unfold call_range, in_range. cbn [k_x k_y k_w k_h k_tx k_ty]. repeat apply conj; try lia. exists 0, 0. lia.
  - eapply halftone_call_range; [exact BW| | | | |exact I]; unfold in_range; lia.
Qed.
Lemma fold_pixels (f g : canvas -> call -> canvas) l : (forall k, In k l -> forall cv cv' px py, cv px py = cv' px py -> f cv k px py = g cv' k px py) ->
  forall cv cv', (forall px py, cv px py = cv' px py) -> forall px py, fold_left f l cv px py = fold_left g l cv' px py.
Proof.
  induction l as [|k l IH]; intros E cv cv' EC px py; [apply EC|]. cbn [fold_left]. apply IH.
  - intros k' I. apply E. right. exact I.
  - intros px' py'. apply E; [left; reflexivity|apply EC].
Qed.

(* Squares, with or without halftone picture, gradient, logo, safe zone: float64 arithmetic (products fused into sums or not) gives, pixel
   for pixel, the picture of exact thirds, so that C37-C41, C47, C57 and what follows from them holds of it. *)
Theorem C57_float64_same_picture :
  forall fused others scale n m o, square n m -> getShape o = ShapeRectangle -> picture_bound n o ->
  exists w h o' cv cv', draw_f round64 fused (rectangle_f round64) scale m o = Some (w, h, cv, o') /\ draw others scale m o = Some (w, h, cv', o') /\
    forall px py, cv px py = cv' px py.
Proof.
  intros fused others scale n m o HS ES PB. rewrite (draw_f_exact round64 fused round64_rounding). unfold draw. rewrite ES. unfold draw_with.
  destruct (plan_spec scale n m o HS) as (p & t & EP & _). rewrite EP. pose proof (plan_calls_range scale n m o p HS EP PB) as RC.
  do 5 eexists. split; [reflexivity|]. split; [reflexivity|]. intros px py.
  assert (K : forall px py, fold_left (fun cv k => rectangle_f round64 cv (as_call round64 fused (qrBlockWidth o) k)) (p_calls p) (fill_rect blank 0 0 (p_w p) (p_h p) (p_bg p)) px py =
                            fold_left rectangle_draw (p_calls p) (fill_rect blank 0 0 (p_w p) (p_h p) (p_bg p)) px py).
  { apply fold_pixels; [|reflexivity]. intros k I cv cv' px' py' E. rewrite (rectangle_same round64 fused round64_rounding _ k (block_width_range o) (RC k I)).
    unfold rectangle_draw. rewrite E. reflexivity. }
  assert (G : forall px py, (match o_gradient (p_options p) with Some g => apply_gradient (fold_left (fun cv k => rectangle_f round64 cv (as_call round64 fused (qrBlockWidth o) k)) (p_calls p) (fill_rect blank 0 0 (p_w p) (p_h p) (p_bg p))) (o_qrColor (p_options p)) g
      | None => fold_left (fun cv k => rectangle_f round64 cv (as_call round64 fused (qrBlockWidth o) k)) (p_calls p) (fill_rect blank 0 0 (p_w p) (p_h p) (p_bg p)) end) px py =
      (match o_gradient (p_options p) with Some g => apply_gradient (fold_left rectangle_draw (p_calls p) (fill_rect blank 0 0 (p_w p) (p_h p) (p_bg p))) (o_qrColor (p_options p)) g
      | None => fold_left rectangle_draw (p_calls p) (fill_rect blank 0 0 (p_w p) (p_h p) (p_bg p)) end) px py).
  { intros px' py'. destruct (o_gradient (p_options p)); [unfold apply_gradient; rewrite !K; reflexivity|apply K]. }
  destruct (p_logo p) as [[[i lx] ly]|]; [unfold draw_image; rewrite !G; reflexivity|apply G].
Qed.

(* ---- circles ---- *)
(* a call within range or not *)
Definition in_range_b (k : call) : bool := (Z.abs (k_x k) <=? 2 ^ 32) && (Z.abs (k_y k) <=? 2 ^ 32).
Definition guarded (f g : canvas -> call -> canvas) (cv : canvas) (k : call) : canvas := if in_range_b k then f cv k else g cv k.
Lemma guarded_in f g cv k : in_range (k_x k) -> in_range (k_y k) -> guarded f g cv k = f cv k.
Proof. unfold guarded, in_range_b, in_range. intros A B. rewrite !(proj2 (Z.leb_le _ _)) by assumption. reflexivity. Qed.
Lemma guarded_cases k : (in_range_b k = true /\ in_range (k_x k) /\ in_range (k_y k)) \/ in_range_b k = false.
Proof. unfold in_range_b, in_range. destruct (Z.leb_spec (Z.abs (k_x k)) (2 ^ 32)); destruct (Z.leb_spec (Z.abs (k_y k)) (2 ^ 32)); cbn [andb]; auto. Qed.

(* what the program draws is what ModelStandard.v's drawing loop draws with a readable shape: C72 applies (gradient, logo, safe zone,
   JPEG).  [edge]: what happens to the pixels at the edge of a disc *)
Theorem C72_float64_circles :
  forall fused edge o, getShape o = ShapeCircle -> halftone_circle_width (qrBlockWidth o) ->
  exists f, readable_style (fun _ => f) o ((qrBlockWidth o - 1) / 2) /\
    forall scale n m, square n m -> picture_bound n o -> draw_f round64 fused (circle_f round64 edge) scale m o = draw (fun _ => f) scale m o.
Proof.
  intros fused edge o ES HW. pose proof (block_width_range o) as BW. set (bw := qrBlockWidth o) in *.
  assert (B9 : 9 <= bw) by (unfold halftone_circle_width in HW; lia).
  set (e0 := fun (_ : call) (_ _ : Z) (c : rgba) => c).
  exists (guarded (fun cv k => circle_f round64 edge cv (as_call round64 fused bw k)) (circle_draw e0)).
  assert (HD : 0 <= (bw - 1) / 2 < bw) by (split; [apply Z.div_pos; lia|apply Z.div_lt_upper_bound; lia]). split.
  - unfold readable_style, chosen_shape. rewrite ES. fold bw. split; [|split; [exact HD|intros _]].
    + apply proper_links; [|exact HD]. intros cv k TX TY KW KH. unfold guarded. destruct (guarded_cases k) as [(-> & RX & RY)| ->].
      * apply (circle_plain round64 fused round64_rounding edge bw cv k ltac:(lia) RX RY TX TY KW KH).
      * apply (circle_left e0 bw ltac:(lia) cv k TX TY KW KH).
    + intros cv k i j SB. unfold guarded. destruct (guarded_cases k) as [(-> & RX & RY)| ->].
      * destruct (circle_sub_f round64 fused round64_rounding edge bw cv k i j HW ltac:(lia) RX RY SB) as [A B]. split; [exact A|]. intros HI HJ. cbv zeta. rewrite (B HI HJ).
        split; [apply tinted_over|]. intros [O AL] G. apply over_opaque; assumption.
      * apply (circles_halftone e0 bw HW cv k i j SB).
  - intros scale n m HS PB. rewrite (draw_f_exact round64 fused round64_rounding). unfold draw. rewrite ES. unfold draw_with.
    destruct (plan_spec scale n m o HS) as (p & t & EP & _). rewrite EP. pose proof (plan_calls_range scale n m o p HS EP PB) as RC.
    assert (K : forall cv, fold_left (fun cv k => circle_f round64 edge cv (as_call round64 fused bw k)) (p_calls p) cv =
                           fold_left (guarded (fun cv k => circle_f round64 edge cv (as_call round64 fused bw k)) (circle_draw e0)) (p_calls p) cv).
    { revert RC. generalize (p_calls p) as l. induction l as [|k l IH]; intros RC cv; [reflexivity|]. cbn [fold_left]. destruct (RC k (or_introl eq_refl)) as (RX & RY & _).
      rewrite guarded_in by assumption. apply IH. intros k' I. apply RC. right. exact I. }
    cbv zeta. fold bw. rewrite K. reflexivity.
Qed.

(* New, and the picture drawn with float64 arithmetic under any halftone picture: the modules read at (width-1)/2 give the text *)
Theorem C72_float64_reads_back :
  forall sjis, shift_jis_contract sjis ->
  forall text opts sched q, NewWith sjis text opts sched = Ok q -> ~ misdetected sjis opts (text_bytes text) ->
  forall fused edge scale o s,
  (getShape o = ShapeRectangle /\ halftone_width (qrBlockWidth o) /\ s = rectangle_f round64) \/
  (getShape o = ShapeCircle /\ halftone_circle_width (qrBlockWidth o) /\ s = circle_f round64 edge) ->
  o_logo o = None -> o_gradient o = None -> painter_colors o -> (o_bgTransparent o = false -> o_bgColor o <> o_qrColor o) ->
  0 <= b_left o <= 2 ^ 31 -> 0 <= b_right o -> 0 <= b_top o <= 2 ^ 31 -> 0 <= b_bottom o ->
  exists cv o', draw_f round64 fused s scale (qMat q) o = Some (img_w o (q_dimension q), img_h o (q_dimension q), cv, o') /\
    reads_back sjis text (scan_at ((qrBlockWidth o - 1) / 2) cv o (q_dimension q)).
Proof.
  intros sjis C text opts sched q HN NM fused edge scale o s HS EL EG PC DIFF [B1 B1'] B2 [B3 B3'] B4.
  destruct (symbol_reads_back sjis C text opts sched q HN NM) as (SQ & N21 & RB). pose proof (block_width_range o) as BW.
  assert (N177 : q_dimension q <= 2 ^ 20).
  { pose proof (PropsLossy.made_dimension sjis C text opts sched q HN). lia. }
  assert (PB : picture_bound (q_dimension q) o) by (unfold picture_bound; lia).
  assert (IW : Z.abs (img_w o (q_dimension q)) = img_w o (q_dimension q)) by (unfold img_w; nia). assert (IH : Z.abs (img_h o (q_dimension q)) = img_h o (q_dimension q)) by (unfold img_h; nia).
  assert (OP : forall px py, 0 <= px < img_w o (q_dimension q) -> 0 <= py < img_h o (q_dimension q) -> opaque (ink o px py)).
  { intros px py _ _. unfold ink. rewrite EG. apply PC. }
  assert (ST : forall others d, readable_style others o d -> exists cv o', draw others scale (qMat q) o = Some (img_w o (q_dimension q), img_h o (q_dimension q), cv, o') /\
    forall x y, 0 <= x < q_dimension q -> 0 <= y < q_dimension q ->
      if module_at (m_bitmap (qMat q)) x y then cv (sample_x o d x) (sample_y o d y) = o_qrColor o else is_light o (cv (sample_x o d x) (sample_y o d y))).
  { intros others d ST. destruct (style_samples others scale (q_dimension q) (qMat q) o d SQ ltac:(lia) ST PC) as (cv & o' & E & P); auto; [intros i F; rewrite EL in F; discriminate F|].
    exists cv, o'. rewrite IW, IH in E. split; [exact E|]. intros x y X Y.
    assert (NS : forall x y, safe_b o (q_dimension q) x y = false) by (intros; unfold safe_b, logo_info; rewrite EL; reflexivity).
    specialize (P x y X Y (NS _ _) (NS _ _) ltac:(intros i F; rewrite EL in F; discriminate F)). unfold ink in P. rewrite EG in P. exact P. }
  assert (FIN : forall cv, (forall x y, 0 <= x < q_dimension q -> 0 <= y < q_dimension q ->
      if module_at (m_bitmap (qMat q)) x y then cv (sample_x o ((qrBlockWidth o - 1) / 2) x) (sample_y o ((qrBlockWidth o - 1) / 2) y) = o_qrColor o
      else is_light o (cv (sample_x o ((qrBlockWidth o - 1) / 2) x) (sample_y o ((qrBlockWidth o - 1) / 2) y))) ->
      reads_back sjis text (scan_at ((qrBlockWidth o - 1) / 2) cv o (q_dimension q))).
  { intros cv P. unfold scan_at. rewrite (sampled_bitmap _ (qMat q)); [exact RB|exact SQ|]. intros x y X Y. specialize (P x y X Y).
    destruct (module_at (m_bitmap (qMat q)) x y); [apply eqb_fg; exact P|]. apply light_not_fg; auto. }
  destruct HS as [(ES & HW & ->)|(ES & HW & ->)].
  - destruct (ST (fun _ => rectangle_draw) _ (PropsCombine.C72_halftone_squares (fun _ => rectangle_draw) o ES HW)) as (cv & o' & E & P).
    destruct (C57_float64_same_picture fused (fun _ => rectangle_draw) scale _ _ o SQ ES PB) as (w & h & o2 & cv1 & cv2 & E1 & E2 & EP).
    rewrite E in E2. injection E2 as <- <- <- <-. exists cv1, o'. split; [exact E1|]. apply FIN. intros x y X Y. rewrite !EP. apply P; assumption.
  - destruct (C72_float64_circles fused edge o ES HW) as (f & RS & ED). destruct (ST _ _ RS) as (cv & o' & E & P). exists cv, o'. split; [rewrite (ED scale _ _ SQ PB); exact E|]. apply FIN. exact P.
Qed.

(* ---- concrete cases ---- *)
(* a third of 20 pixels is not a third; the sub-blocks start at 6.666 and 13.333, in 1/64 pixel at 426 and 853, as with exact thirds *)
Example C57_float64_third :
  ~ (halftoneW round64 20 == 20 # 3)%Q /\ to_int (halftoneW round64 20) = 6 /\
  map (fun i => fix_f round64 (sub_at round64 false (keep round64 (inject_Z 40)) i (halftoneW round64 20))) [0; 1; 2] = [2560; 2986; 3413] /\
  map (fun i => fix26_6 40 (i * 20)) [0; 1; 2] = [2560; 2986; 3413].
Proof. split; [vm_compute; discriminate|]. split; [vm_compute; reflexivity|]. split; vm_compute; reflexivity. Qed.
(* the default options with a halftone picture meet the conditions, for squares and circles *)
Example C72_float64_options :
  exists o o', NewWithWriter (fun _ => None) [WithHalftoneImage (Some any_picture)] = Some o /\ NewWithWriter (fun _ => None) [WithHalftoneImage (Some any_picture); WithCircleShape] = Some o' /\
    getShape o = ShapeRectangle /\ halftone_width (qrBlockWidth o) /\ getShape o' = ShapeCircle /\ halftone_circle_width (qrBlockWidth o') /\
    picture_bound 177 o /\ picture_bound 177 o' /\ o_logo o = None /\ o_gradient o = None /\ 0 <= b_left o <= 2 ^ 31 /\ 0 <= b_top o <= 2 ^ 31.
Proof.
  do 2 eexists. split; [reflexivity|]. split; [reflexivity|]. unfold halftone_width, halftone_circle_width, picture_bound. repeat apply conj; try reflexivity; try (cbn; lia); try (vm_compute; discriminate).
Qed.
(* one data module, 4 pixels wide: dark in the middle of a white picture *)
Example C57_float64_example :
  match draw_f round64 false (rectangle_f round64) (fun _ _ _ _ => 255) (one_module QRValue_DATA_V1) (set_borders (0, 0, 0, 0) (set_qrWidth 4 (set_halftone (Some any_picture) defaultOptions))) with
  | Some (w, h, cv, _) => w = 4 /\ h = 4 /\ cv 0 0 = color_WHITE /\ c_r (cv 1 1) < 255
  | None => False end.
Proof. vm_compute. repeat split; reflexivity. Qed.

Print Assumptions C57_float64_same_picture.
Print Assumptions C72_float64_circles.
Print Assumptions C72_float64_reads_back.
