(* Pictures with gradient, halftone and logo: all pixels of the parts by which a reader finds the symbol. *)
From Coq Require Import Lia.
From Verif Require Import ModelBase ModelMatrix ModelQRCode ModelSave ModelCompressed ModelStandard ModelWriters.
From Verif Require Import SpecIso SpecReader SpecSegment SpecRecovery SpecAPI SpecMatrix SpecImage SpecStandard SpecMedium SpecShape SpecShapes SpecLogo SpecTypes SpecLocate SpecCombine.
From Verif Require Import ProofBase ProofMatrix ProofEval ProofViews ProofCompressed ProofStandard ProofMedium ProofShape ProofGradient ProofLocate ProofLogo ProofCombine.
From Verif Require Import PropsShape PropsLogo PropsTypes.

Lemma good_over_at ma d s : good (over_at ma d s).
Proof. unfold over_at, good, byte, over_at_channel. cbn [c_r c_g c_b c_a]. repeat split; try (apply Z.mod_pos_bound; lia). Qed.
Lemma good_paint px py : forall ks c, good c -> good (paint px py ks c).
Proof. unfold paint. induction ks as [|k ks IH]; intros c G; [exact G|]. cbn [fold_left]. apply IH. destruct (k_area k px py =? 0); [exact G|apply good_over_at]. Qed.

(* a module that is drawn as one square *)
Definition whole (o : options) (m : Matrix) (x y : Z) : Prop := o_halftone o = None \/ qrtype (rawget m x y) <> QRType_DATA.
Lemma paint_whole scale o n t m x y px py : whole o m x y -> painter_colors o -> in_module o x y px py -> safe_b o n x y = false ->
  paint px py (calls_at scale o n t m x y) (border_color o) = if qrbool (rawget m x y) then o_qrColor o else border_color o.
Proof.
  intros [EH|ND] HC HM HS; [rewrite paint_module, HS, andb_true_r by auto; reflexivity|].
  destruct (o_halftone o) as [i|] eqn:EH; [|rewrite paint_module, HS, andb_true_r by auto; reflexivity].
  rewrite (calls_halftone_out scale o n t m x y i EH HS). rewrite (proj2 (Z.eqb_neq _ _) ND).
  destruct HM as (M1 & M2). cbn [paint fold_left]. rewrite area_full by (cbn [k_x k_tx k_y k_ty k_w k_h]; lia). change (64 * 64 =? 0) with false. cbn iota. rewrite over_full. cbn [k_color].
  destruct (qrbool (rawget m x y)); [|apply over_light; exact HC]. destruct HC as ((HF & HA) & HG & HB). apply over_opaque; auto. apply good_border, HG.
Qed.

Lemma frame_pixels others scale n m o : square n m -> getShape o = ShapeRectangle -> painter_colors o ->
  (o_gradient o <> None -> o_bgTransparent o = false -> o_bgColor o <> o_qrColor o) ->
  (forall px py, 0 <= px < img_w o n -> 0 <= py < img_h o n -> opaque (ink o px py)) ->
  (forall i, o_logo o = Some i -> i_x0 i = 0 /\ i_y0 i = 0) ->
  forall cv o', draw others scale m o = Some (Z.abs (img_w o n), Z.abs (img_h o n), cv, o') ->
    forall px py, 0 <= px < img_w o n -> 0 <= py < img_h o n ->
    (forall i, o_logo o = Some i -> logo_fits o (img_w o n) (img_h o n) i -> ~ in_logo (img_w o n) (img_h o n) i px py) ->
      (forall x y, 0 <= x < n -> 0 <= y < n -> in_module o x y px py -> whole o m x y -> safe_b o n x y = false ->
         if module_at (m_bitmap m) x y then cv px py = ink o px py else is_light o (cv px py)) /\
      (~ in_symbol o n px py -> is_light o (cv px py)).
Proof.
  intros HS EG HC DIFF OP H0 cv o' ED px py Hx Hy. pose proof HS as (HW & EW & EHt).
  destruct (draw_spec others scale n m o HS EG) as (t & o'' & E & _ & _ & _). rewrite E in ED. injection ED as <- <-. clear E. cbv zeta.
  pose proof HC as (HF & HG & HB). pose proof (good_border o HG) as GB.
  destruct (canvas_spec scale o n t m px py Hx Hy GB) as [C1 C2]. cbv zeta in C1, C2.
  assert (GP : good (fold_left rectangle_draw (flat_map (fun '(x, y) => calls_at scale o n t m x y) (iter_coords IterDirection_ROW n n)) (fill_rect blank 0 0 (img_w o n) (img_h o n) (border_color o)) px py)).
  { rewrite paint_canvas. apply good_paint. rewrite blank_pixel by assumption. exact GB. }
  set (cv0 := fold_left rectangle_draw _ _) in *.
  assert (LG : cv0 px py = border_color o -> is_light o (match o_gradient o with Some g => apply_gradient cv0 (o_qrColor o) g | None => cv0 end px py)).
  { intros EB. destruct (o_gradient o) as [g|] eqn:EGr; [|rewrite EB; apply border_light].
    destruct (gradient_pixel cv0 (o_qrColor o) g px py GP) as [_ K]. rewrite K.
    - rewrite EB. apply border_light.
    - rewrite EB. unfold border_color. destruct (o_bgTransparent o) eqn:ET; [|apply DIFF; [discriminate|reflexivity]]. intros F. destruct HF as [_ HF]. rewrite <- F in HF. discriminate HF.
    - rewrite EB. unfold border_color. destruct (o_bgTransparent o) eqn:ET; [right; reflexivity|left; apply HB; reflexivity]. }
  intros HL. rewrite logo_out by assumption. split.
  - intros x y Rx Ry HM WH SF. specialize (C1 x y Rx Ry HM). rewrite paint_whole in C1 by assumption. rewrite module_at_bitmap by (auto; split; lia).
    destruct (qrbool (rawget m x y)); [|apply LG, C1]. specialize (OP px py Hx Hy). unfold ink in *. destruct (o_gradient o) as [g|] eqn:EGr; [|exact C1].
    destruct (gradient_pixel cv0 (o_qrColor o) g px py GP) as [K _]. apply K; assumption.
  - intros HN. apply LG, C2, HN.
Qed.

(* the pixels of the logo *)
Lemma logo_pixel_opaque_any others scale n m o : square n m -> getShape o = ShapeRectangle -> painter_colors o ->
  forall cv o', draw others scale m o = Some (Z.abs (img_w o n), Z.abs (img_h o n), cv, o') ->
    forall px py i, 0 <= px < img_w o n -> 0 <= py < img_h o n ->
    o_logo o = Some i -> logo_fits o (img_w o n) (img_h o n) i -> logo_covers (img_w o n) (img_h o n) i px py ->
    opaque (i_at i (px - logo_left (img_w o n) i) (py - logo_top (img_h o n) i)) -> cv px py = i_at i (px - logo_left (img_w o n) i) (py - logo_top (img_h o n) i).
Proof.
  intros HS EG HC cv o' ED px py i Hx Hy EI HFi [L1 L2] OI.
  destruct (draw_spec others scale n m o HS EG) as (t & o'' & E & _ & _ & _). rewrite E in ED. injection ED as <- <-. clear E. cbv zeta.
  pose proof HC as (HF & HG & HB). pose proof (good_border o HG) as GB.
  assert (GP : good (fold_left rectangle_draw (flat_map (fun '(x, y) => calls_at scale o n t m x y) (iter_coords IterDirection_ROW n n)) (fill_rect blank 0 0 (img_w o n) (img_h o n) (border_color o)) px py)).
  { rewrite paint_canvas. apply good_paint. rewrite blank_pixel by assumption. exact GB. }
  set (cv0 := fold_left rectangle_draw _ _) in *.
  rewrite (proj2 (place_spec o n i _ _) (conj EI (conj HFi (conj eq_refl eq_refl)))). unfold draw_image.
  destruct (Z.leb_spec (logo_left (img_w o n) i + i_x0 i) px), (Z.ltb_spec px (logo_left (img_w o n) i + i_x1 i)), (Z.leb_spec (logo_top (img_h o n) i + i_y0 i) py), (Z.ltb_spec py (logo_top (img_h o n) i + i_y1 i)); try lia. cbn [andb].
  apply over_image_opaque; [|exact OI]. destruct (o_gradient o) as [g|]; [|exact GP]. unfold apply_gradient, over_image. apply good_over.
Qed.
Lemma logo_pixel_opaque others scale n m o : square n m -> getShape o = ShapeRectangle -> painter_colors o ->
  (forall i, o_logo o = Some i -> i_x0 i = 0 /\ i_y0 i = 0) ->
  forall cv o', draw others scale m o = Some (Z.abs (img_w o n), Z.abs (img_h o n), cv, o') ->
    forall px py i, 0 <= px < img_w o n -> 0 <= py < img_h o n ->
    o_logo o = Some i -> logo_fits o (img_w o n) (img_h o n) i -> in_logo (img_w o n) (img_h o n) i px py ->
    opaque (i_at i (px - logo_left (img_w o n) i) (py - logo_top (img_h o n) i)) -> cv px py = i_at i (px - logo_left (img_w o n) i) (py - logo_top (img_h o n) i).
Proof.
  intros HS EG HC H0 cv o' ED px py i Hx Hy EI HFi IL OI. destruct (H0 i EI) as [X0 Y0].
  apply (logo_pixel_opaque_any others scale n m o HS EG HC cv o' ED px py i Hx Hy EI HFi); [apply covers_middle; auto|exact OI].
Qed.

(* what a reader needs of the picture to find the symbol *)
Record framed (dark : Z -> Z -> bool) (w h left top b n : Z) : Prop := mkFramed {
  fr_size : 0 <= left /\ 0 <= top /\ 1 <= b /\ 21 <= n /\ left + n * b <= w /\ top + n * b <= h;
  fr_out : forall px py, 0 <= px < w -> 0 <= py < h -> ~ (left <= px < left + n * b /\ top <= py < top + n * b) -> dark px py = false;
  fr_first : forall px, left <= px < left + 7 * b -> dark px top = true;
  fr_gap : dark (left + 7 * b) top = false;
  fr_right : dark (left + n * b - 1) top = true;
  fr_bottom : dark left (top + n * b - 1) = true }.
Lemma locate_framed dark w h left top b n : framed dark w h left top b n -> locate dark w h = Some (left, top, b, n).
Proof.
  intros [(L & T & B & N & W & HH) O D0 G R _]. assert (NB : 21 * b <= n * b) by nia.
  unfold locate. rewrite (find_first _ top).
  - rewrite (find_first _ left 0 w); [|nia|intros x X; apply O; nia|apply D0; nia].
    rewrite (find_last _ (left + n * b - 1)); [|nia|intros x X; apply O; nia|exact R].
    rewrite (find_first _ (left + 7 * b)); [|nia|intros x X; rewrite D0 by lia; reflexivity|rewrite G; reflexivity].
    cbv zeta. replace (left + 7 * b - left) with (b * 7) by lia. rewrite Z.div_mul by lia. replace (left + n * b - 1 + 1 - left) with (n * b) by lia. rewrite Z.div_mul by lia. reflexivity.
  - nia.
  - intros y Y. apply not_true_iff_false. rewrite existsb_exists. intros (x & IX & DX). apply in_zseq in IX. rewrite O in DX by lia. discriminate DX.
  - apply existsb_exists. exists left. split; [apply in_zseq; nia|apply D0; nia].
Qed.
Lemma margins_framed dark w h left top b n : framed dark w h left top b n -> margins dark w h left top (w - left - n * b) (h - top - n * b).
Proof.
  intros [(L & T & B & N & W & HH) O D0 G R BO]. assert (NB : 21 * b <= n * b) by nia. constructor.
  - lia.
  - intros x y X Y D. destruct (Z_lt_ge_dec x left); [|destruct (Z_lt_ge_dec x (left + n * b))]; [| |].
    1,3: rewrite O in D by lia; discriminate D.
    destruct (Z_lt_ge_dec y top); [|destruct (Z_lt_ge_dec y (top + n * b))]; [| |].
    1,3: rewrite O in D by lia; discriminate D. lia.
  - exists top. split; [lia|]. apply D0. nia.
  - exists left. split; [lia|]. apply D0. nia.
  - exists top. split; [lia|]. replace (w - (w - left - n * b) - 1) with (left + n * b - 1) by lia. exact R.
  - exists left. split; [lia|]. replace (h - (h - top - n * b) - 1) with (top + n * b - 1) by lia. exact BO.
Qed.

(* the modules used are whole squares *)
Lemma edge_whole sjis : shift_jis_contract sjis -> forall text opts sched q, NewWith sjis text opts sched = Ok q ->
  forall o x y, In (x, y) [(7, 0); (q_dimension q - 1, 0); (0, q_dimension q - 1)] \/ (0 <= x < 7 /\ y = 0) -> whole o (qMat q) x y.
Proof.
  intros C text opts sched q HN o x y I. right. destruct (types_made sjis C text opts sched q HN) as (v & _ & [V1 V2] & (_ & EW & _) & T).
  assert (J : (x = 7 /\ y = 0) \/ (x = 4 * v + 16 /\ y = 0) \/ (x = 0 /\ y = 4 * v + 16) \/ (0 <= x < 7 /\ y = 0)).
  { unfold q_dimension in I. rewrite EW in I. unfold side in I. cbn [In] in I. assert (PI : forall a b c d : Z, (a, b) = (c, d) -> a = c /\ b = d) by (intros a b c d E; split; congruence).
    destruct I as [[E|[E|[E|[]]]]|I]; [apply PI in E; lia..|lia]. }
  clear I. rewrite T by (unfold side; lia).
  assert (NT : forall r, (exists d, r = Finder d) \/ r = Separator -> type_of_region r x y <> QRType_DATA) by (intros r [[d ->]| ->] F; discriminate F).
  apply NT. unfold region_of, region_of_with.
  assert (NE : exists d, nearest x y (finder_centres v) 4 = Some d).
  { unfold nearest, finder_centres. cbn [find]. unfold dist, side.
    repeat match goal with |- context [?a <=? 4] => destruct (Z.leb_spec a 4) end; try (eexists; reflexivity).
    exfalso. lia. }
  destruct NE as [d ->]. destruct (d =? 4); [right; reflexivity|left; eexists; reflexivity].
Qed.

Section PICTURE.
Context (sjis : Z -> option (list Z)) (C : shift_jis_contract sjis) (text : GoText) (opts : list EncodeOption) (sched : list actor) (q : QRCode)
  (HN : NewWith sjis text opts sched = Ok q) (near : rgba -> rgba -> Prop) (others : shape -> canvas -> call -> canvas) (scale : image -> Z -> Z -> Z -> Z) (o : options) (z : Z)
  (dk : rgba -> bool) (RE : getShape o = ShapeRectangle) (PC : painter_colors o)
  (DIFF : o_gradient o <> None -> o_bgTransparent o = false -> o_bgColor o <> o_qrColor o)
  (OP : forall px py, 0 <= px < img_w o (q_dimension q) -> 0 <= py < img_h o (q_dimension q) -> opaque (ink o px py))
  (TA : tells_apart near o (img_w o (q_dimension q)) (img_h o (q_dimension q)) dk)
  (B1 : 0 <= b_left o) (B2 : 0 <= b_right o) (B3 : 0 <= b_top o) (B4 : 0 <= b_bottom o)
  (LO : o_logo o = None \/ (logo_options o z /\ 0 <= z <= 2)).
Let n := q_dimension q.

Lemma edge_outside x y : 21 <= n -> 0 <= x < n -> 0 <= y < n -> x <= 7 \/ y <= 7 \/ x = n - 1 \/ y = n - 1 -> ~ (middle n z x /\ middle n z y) \/ o_logo o = None.
Proof. intros N X Y E. destruct LO as [L|[_ Z2]]; [right; exact L|left]. unfold middle. lia. Qed.

Lemma picture_framed cv o' cv' : draw others scale (qMat q) o = Some (Z.abs (img_w o n), Z.abs (img_h o n), cv, o') ->
  (forall px py, 0 <= px < img_w o n -> 0 <= py < img_h o n -> near (cv px py) (cv' px py)) ->
  framed (fun px py => dk (cv' px py)) (img_w o n) (img_h o n) (b_left o) (b_top o) (qrBlockWidth o) n.
Proof.
  intros ED NR. destruct (made_square sjis C _ _ _ _ HN) as [SQ N21]. fold n in SQ, N21.
  destruct (made_corners sjis C _ _ _ _ HN) as [_ FI GA RI BO]. fold n in FI, GA, RI, BO.
  pose proof (edge_whole sjis C _ _ _ _ HN o) as EWh. fold n in EWh.
  assert (H0 : forall i, o_logo o = Some i -> i_x0 i = 0 /\ i_y0 i = 0).
  { intros i EL. destruct LO as [L|[(_ & _ & _ & _ & _ & LG) _]]; [rewrite L in EL; discriminate EL|]. destruct (LG i EL) as (-> & -> & _). auto. }
  pose proof (frame_pixels others scale n (qMat q) o SQ RE PC DIFF OP H0 cv o' ED) as PX. destruct TA as [TD TL]. fold n in TD.
  pose proof (block_width_range o) as BW. assert (NB : 21 * qrBlockWidth o <= n * qrBlockWidth o) by nia.
  assert (CL : forall x y px py, 0 <= x < n -> 0 <= y < n -> in_module o x y px py -> x <= 7 \/ y <= 7 \/ x = n - 1 \/ y = n - 1 ->
    (forall i, o_logo o = Some i -> logo_fits o (img_w o n) (img_h o n) i -> ~ in_logo (img_w o n) (img_h o n) i px py) /\ safe_b o n x y = false).
  { intros x y px py X Y IM E. destruct (edge_outside x y N21 X Y E) as [NM|EL]; [|split; [intros i F; rewrite EL in F; discriminate F|apply no_logo_safe, EL]].
    destruct LO as [EL|[LOp Z2]]; [split; [intros i F; rewrite EL in F; discriminate F|apply no_logo_safe, EL]|]. split.
    - intros i EL LF IL. apply NM. eapply logo_middle; eauto. lia.
    - apply (outside_safe o n z 0 x y LOp); [lia|lia|exact NM]. }
  assert (MO : forall x y px py, 0 <= x < n -> 0 <= y < n -> in_module o x y px py -> x <= 7 \/ y <= 7 \/ x = n - 1 \/ y = n - 1 -> whole o (qMat q) x y ->
    dk (cv' px py) = module_at (m_bitmap (qMat q)) x y).
  { intros x y px py X Y IM E WH. destruct (CL x y px py X Y IM E) as [NL SF]. destruct IM as [M1 M2].
    assert (R1 : 0 <= px < img_w o n) by (unfold img_w; nia). assert (R2 : 0 <= py < img_h o n) by (unfold img_h; nia).
    destruct (PX px py R1 R2 NL) as [P1 _]. specialize (P1 x y X Y (conj M1 M2) WH SF). specialize (NR px py R1 R2).
    destruct (module_at (m_bitmap (qMat q)) x y); [rewrite P1 in NR; eapply TD; eauto|eapply TL; eauto]. }
  constructor.
  - unfold img_w, img_h. lia.
  - intros px py X Y NI.
    assert (NL : forall i, o_logo o = Some i -> logo_fits o (img_w o n) (img_h o n) i -> ~ in_logo (img_w o n) (img_h o n) i px py).
    { intros i EL [F1 F2] [I1 I2]. destruct LO as [L|[(M5 & LR & TB & BL & BT & LG) Z2]]; [rewrite L in EL; discriminate EL|]. destruct (LG i EL) as (X0 & Y0 & X1 & Y1).
      apply NI. unfold logo_left, logo_top, img_w, img_h in *. rewrite X0, Y0, !Z.sub_0_r in *. rewrite <- LR, <- TB in *.
      rewrite !Z.quot_div_nonneg in I1, I2 by nia.
      pose proof (Z.div_mod (n * qrBlockWidth o + b_left o + b_left o - i_x1 i) 2 ltac:(lia)). pose proof (Z.mod_pos_bound (n * qrBlockWidth o + b_left o + b_left o - i_x1 i) 2 ltac:(lia)).
      pose proof (Z.div_mod (n * qrBlockWidth o + b_top o + b_top o - i_y1 i) 2 ltac:(lia)). pose proof (Z.mod_pos_bound (n * qrBlockWidth o + b_top o + b_top o - i_y1 i) 2 ltac:(lia)).
      assert (5 * i_x1 i <= n * qrBlockWidth o + 2 * b_left o) by nia. assert (5 * i_y1 i <= n * qrBlockWidth o + 2 * b_top o) by nia. nia. }
    destruct (PX px py X Y NL) as [_ P2]. eapply TL; [apply P2; exact NI|apply NR; assumption].
  - intros px R. pose proof (Z.div_mod (px - b_left o) (qrBlockWidth o) ltac:(lia)). pose proof (Z.mod_pos_bound (px - b_left o) (qrBlockWidth o) ltac:(lia)).
    set (x := (px - b_left o) / qrBlockWidth o) in *. assert (0 <= x < 7) by nia.
    rewrite (MO x 0); [apply FI; lia|lia|lia|unfold in_module; lia|lia|apply EWh; right; lia].
  - rewrite (MO 7 0); [exact GA|lia|lia|unfold in_module; lia|lia|apply EWh; left; left; reflexivity].
  - rewrite (MO (n - 1) 0); [exact RI|lia|lia|unfold in_module; lia|lia|apply EWh; left; right; left; reflexivity].
  - rewrite (MO 0 (n - 1)); [exact BO|lia|lia|unfold in_module; lia|lia|apply EWh; left; right; right; left; reflexivity].
Qed.
End PICTURE.
