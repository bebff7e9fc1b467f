(* C78: the image writers with ints of w bits, for every w from 32 on. *)
From Coq Require Import Lia.
From Verif Require Import ModelBase ModelMatrix ModelQRCode ModelStandard ModelCompressed ModelInt ModelIntBits.
From Verif Require Import SpecReader SpecMatrix SpecStandard SpecAPI SpecIntBits Samples.
From Verif Require Import ProofBase ProofMatrix ProofEval ProofViews ProofStandard ProofCompressed.
From Verif Require ProofMedium PropsLossy PropsLogo PropsStandard PropsSymbol.
Open Scope Z_scope.

Lemma pow_parts w : 32 <= w -> 2 ^ (w - 1) = 8 * 2 ^ (w - 4) /\ 2 ^ w = 16 * 2 ^ (w - 4) /\ 268435456 <= 2 ^ (w - 4).
Proof.
  intros W. assert (E : forall h, 0 <= h -> 2 ^ (3 + h) = 8 * 2 ^ h /\ 2 ^ (4 + h) = 16 * 2 ^ h) by (intros h Hh; rewrite !Z.pow_add_r by lia; split; reflexivity).
  destruct (E (w - 4) ltac:(lia)) as [E1 E2]. replace (3 + (w - 4)) with (w - 1) in E1 by lia. replace (4 + (w - 4)) with w in E2 by lia.
  split; [exact E1|]. split; [exact E2|]. change 268435456 with (2 ^ 28). apply Z.pow_le_mono_r; lia.
Qed.

Lemma wrap_id w z : 32 <= w -> - (8 * 2 ^ (w - 4)) <= z < 8 * 2 ^ (w - 4) -> wrap_bits w z = z.
Proof.
  intros W B. destruct (pow_parts w W) as (E1 & E2 & _). unfold wrap_bits. rewrite E1, E2. rewrite Z.mod_small by lia. lia.
Qed.

Lemma facts w : 32 <= w -> exists H, 2 ^ (w - 4) = H /\ 2 ^ (w - 1) = 8 * H /\ 2 ^ w = 16 * H /\ 268435456 <= H /\
  forall z, - (8 * H) <= z < 8 * H -> wrap_bits w z = z.
Proof.
  intros W. destruct (pow_parts w W) as (E1 & E2 & E3). exists (2 ^ (w - 4)). do 4 (split; [first [reflexivity|assumption]|]). intros z. apply wrap_id, W.
Qed.

(* folds with functions that agree on the modules of the matrix *)
Lemma iter_ext {S} dir m (f g : S -> Z -> Z -> Z -> S) : (forall s x y v, 0 <= x < mwidth m -> 0 <= y < mheight m -> f s x y v = g s x y v) ->
  forall s, m_iter dir m f s = m_iter dir m g s.
Proof.
  intros E s. unfold m_iter. assert (R : forall x y, In (x, y) (iter_coords dir (mwidth m) (mheight m)) -> 0 <= x < mwidth m /\ 0 <= y < mheight m) by (intros x y; apply in_iter_coords).
  revert R s. generalize (iter_coords dir (mwidth m) (mheight m)) as l. induction l as [|[x y] l IH]; intros R s; [reflexivity|]. cbn [fold_left].
  destruct (R x y (or_introl eq_refl)) as [X Y]. rewrite (E s x y) by assumption. apply IH. intros x' y' I. apply R. right. exact I.
Qed.

Lemma new_image_ok w alloc k a b : 32 <= w -> 0 < k <= 4 -> Z.abs a < 2 ^ 25 -> Z.abs b < 2 ^ 25 -> k * Z.abs a * Z.abs b < 2 ^ (w - 1) ->
  alloc (k * Z.abs a * Z.abs b) = true -> new_image w alloc k a b = true.
Proof.
  intros HW K W Hh B A. destruct (facts w HW) as (H & HE & P1 & P2 & HL & WI). unfold new_image.
  replace (Z.max 0 a - Z.min 0 a) with (Z.abs a) by lia. replace (Z.max 0 b - Z.min 0 b) with (Z.abs b) by lia.
  rewrite P1 in *. rewrite !WI by lia. rewrite A, (proj2 (Z.leb_le 0 _)) by lia. rewrite (proj2 (Z.leb_le 0 _)) by lia.
  assert (KW : k * Z.abs a <= 2 ^ 27) by nia. rewrite (proj2 (Z.ltb_lt (k * Z.abs a) _)) by lia. rewrite (proj2 (Z.ltb_lt _ (8 * H))) by exact B. reflexivity.
Qed.

Theorem C78_attribute :
  forall w o n, 32 <= w -> 0 <= n <= 2 ^ 20 -> moderate w (b_left o) -> moderate w (b_right o) -> moderate w (b_top o) -> moderate w (b_bottom o) ->
  attribute_bits w o n = attribute o n.
Proof.
  intros w o n HW N L R T B. destruct (facts w HW) as (H & HE & P1 & P2 & HL & WI).
  unfold attribute_bits, attribute, b_left, b_right, b_top, b_bottom, moderate in *. rewrite HE in *. destruct (o_borders o) as [[[t r] b] l].
  pose proof (block_width_range o). assert (0 <= n * qrBlockWidth o <= 2 ^ 20 * 255) by nia. rewrite !WI by lia. reflexivity.
Qed.

Theorem C78_standard_writer :
  forall wd alloc others scale n m o, 32 <= wd -> square n m -> 0 <= n <= 2 ^ 20 -> sane wd o n -> alloc (4 * Z.abs (img_w o n) * Z.abs (img_h o n)) = true ->
  draw_bits wd alloc others scale m o = draw others scale m o.
Proof.
  intros wd alloc others scale n m o HW SQ N (ML & MR & MT & MB & SW & SH & SB & LG) AL. destruct (facts wd HW) as (H & HE & P1 & P2 & HL & WI). pose proof (block_width_range o) as HB.
  pose proof SQ as SQ'. unfold square in SQ'.
  assert (EW : mwidth m = n) by apply SQ. assert (EH : mheight m = n) by apply SQ.
  assert (PE : draw_plan_bits wd scale m o = draw_plan scale m o).
  { unfold draw_plan_bits, draw_plan. rewrite EW, EH. revert SW SH ML MR MT MB. unfold img_w, img_h, b_left, b_right, b_top, b_bottom, moderate. rewrite !HE.
    destruct (o_borders o) as [[[t r] b] l]. cbv iota beta. intros SW SH ML MR MT MB.
    destruct (backgroundColor o) as [bg o1] eqn:EB.
    assert (O1 : o_logo o1 = o_logo o /\ o_multiplier o1 = o_multiplier o).
    { unfold backgroundColor in EB. destruct (o_bgTransparent o); injection EB as _ <-; split; reflexivity. }
    destruct O1 as [OL OM].
    assert (NB : 0 <= n * qrBlockWidth o <= 2 ^ 20 * 255) by nia.
    rewrite (WI (n * qrBlockWidth o + l + r)) by lia. rewrite (WI (n * qrBlockWidth o + t + b)) by lia. rewrite (WI (n * 3)) by lia.
    set (w := n * qrBlockWidth o + l + r) in *. set (h := n * qrBlockWidth o + t + b) in *.
    assert (LI : logo_info_bits wd o1 w h = logo_info o1 w h /\ forall lv lw lh, logo_info o1 w h = (lv, lw, lh) -> - H <= lw / 2 <= H /\ - H <= lh / 2 <= H).
    { unfold logo_info_bits, logo_info. rewrite OL. destruct (o_logo o) as [i|] eqn:EL.
      - destruct (LG i eq_refl) as (X0 & X1 & Y0 & Y1 & I1 & I2). unfold moderate, is_int in X0, X1, Y0, Y1, I1, I2. rewrite HE in X0, X1, Y0, Y1. rewrite P1 in I1, I2.
        rewrite (WI (i_x1 i - i_x0 i)) by lia. rewrite (WI (i_y1 i - i_y0 i)) by lia. cbv zeta.
        unfold validLogoImage_bits, validLogoImage. rewrite OM, (WI _ I1), (WI _ I2). split; [reflexivity|].
        intros lv lw lh E. apply (f_equal (fun p => (snd (fst p), snd p))) in E. cbn [fst snd] in E. injection E as <- <-.
        split; (split; [apply Z.div_le_lower_bound; lia|apply Z.div_le_upper_bound; lia]).
      - split; [reflexivity|]. intros lv lw lh E. injection E as _ <- <-. change (0 / 2) with 0. lia. }
    destruct LI as [LI LM]. rewrite LI. destruct (logo_info o1 w h) as [[lv lw] lh]. destruct (LM lv lw lh eq_refl) as [M1 M2].
    assert (B1 : - (2 * H) <= lw <= 2 * H + 1) by (pose proof (Z.div_mod lw 2 ltac:(lia)); pose proof (Z.mod_pos_bound lw 2 ltac:(lia)); lia).
    assert (B2 : - (2 * H) <= lh <= 2 * H + 1) by (pose proof (Z.div_mod lh 2 ltac:(lia)); pose proof (Z.mod_pos_bound lh 2 ltac:(lia)); lia).
    rewrite (WI (w - lw)) by lia. rewrite (WI (h - lh)) by lia.
    assert (SF : forall x y, 0 <= x < n -> 0 <= y < n ->
      blockOverlapsLogo_bits wd x y (qrBlockWidth o) l t w h lw lh = blockOverlapsLogo x y (qrBlockWidth o) l t w h lw lh).
    { intros x y X Y. unfold blockOverlapsLogo_bits, blockOverlapsLogo. cbv zeta.
      assert (QB : forall a, - (2 * H) - 2 ^ 25 - 1 <= a <= 2 * H + 2 ^ 25 -> - (2 * H) <= Z.quot a 2 <= 2 * H).
      { intros a HA. pose proof (Z.quot_rem a 2 ltac:(lia)). pose proof (Z.rem_bound_abs a 2 ltac:(lia)). lia. }
      pose proof (QB (w - lw) ltac:(lia)). pose proof (QB (h - lh) ltac:(lia)).
      assert (0 <= x * qrBlockWidth o <= 2 ^ 20 * 255) by nia. assert (0 <= y * qrBlockWidth o <= 2 ^ 20 * 255) by nia.
      rewrite (WI (x * qrBlockWidth o + l)) by lia. rewrite (WI (y * qrBlockWidth o + t)) by lia.
      rewrite (WI (w - lw)) by lia. rewrite (WI (h - lh)) by lia.
      rewrite (WI (x * qrBlockWidth o + l + qrBlockWidth o)) by lia. rewrite (WI (y * qrBlockWidth o + t + qrBlockWidth o)) by lia.
      rewrite (WI (Z.quot (w - lw) 2 + lw)) by lia. rewrite (WI (Z.quot (h - lh) 2 + lh)) by lia. reflexivity. }
    set (hw := match o_halftone o1 with Some i => Some (scale i (n * 3)) | None => None end).
    replace (if lv && o_safeZone o1
             then m_iter IterDirection_ROW m (clear_cell (fun x y => lv && o_safeZone o1 && blockOverlapsLogo_bits wd x y (qrBlockWidth o) l t w h lw lh)) (Some (m_bitmap m))
             else Some (m_bitmap m))
      with (if lv && o_safeZone o1
            then m_iter IterDirection_ROW m (clear_cell (fun x y => lv && o_safeZone o1 && blockOverlapsLogo x y (qrBlockWidth o) l t w h lw lh)) (Some (m_bitmap m))
            else Some (m_bitmap m)).
    2:{ destruct (lv && o_safeZone o1); [|reflexivity]. apply iter_ext. intros s x y v X Y. rewrite EW in X. rewrite EH in Y. unfold clear_cell. rewrite SF by assumption. reflexivity. }
    destruct (if lv && o_safeZone o1 then _ else _) as [bm|]; [|reflexivity].
    rewrite (iter_ext IterDirection_ROW m (draw_module_bits wd hw bm (fun x y => lv && o_safeZone o1 && blockOverlapsLogo_bits wd x y (qrBlockWidth o) l t w h lw lh) (qrBlockWidth o) l t)
               (draw_module hw bm (fun x y => lv && o_safeZone o1 && blockOverlapsLogo x y (qrBlockWidth o) l t w h lw lh) (qrBlockWidth o) l t)).
    2:{ intros s x y v X Y. rewrite EW in X. rewrite EH in Y. unfold draw_module_bits, draw_module. rewrite SF by assumption.
        assert (0 <= x * qrBlockWidth o <= 2 ^ 20 * 255) by nia. assert (0 <= y * qrBlockWidth o <= 2 ^ 20 * 255) by nia.
        rewrite (WI (x * qrBlockWidth o + l)) by lia. rewrite (WI (y * qrBlockWidth o + t)) by lia. reflexivity. }
    reflexivity. }
  unfold draw_bits, draw, draw_with. rewrite PE. destruct (plan_spec scale n m o SQ) as (p & t & E & PW & PH & _). rewrite E.
  rewrite PW, PH, (new_image_ok wd alloc 4) by (try assumption; lia). reflexivity.
Qed.

(* a picture whose bytes an int cannot count makes Write panic *)
Theorem C78_too_large :
  forall wd alloc others scale n m o, 32 <= wd -> square n m -> 0 <= n <= 2 ^ 20 ->
  moderate wd (b_left o) -> moderate wd (b_right o) -> moderate wd (b_top o) -> moderate wd (b_bottom o) ->
  2 ^ (wd - 1) <= 4 * Z.abs (img_w o n) * Z.abs (img_h o n) -> draw_bits wd alloc others scale m o = None.
Proof.
  intros wd alloc others scale n m o HW SQ N ML MR MT MB BIG. destruct (facts wd HW) as (H & HE & P1 & P2 & HL & WI). rewrite P1 in BIG. pose proof (block_width_range o) as HB.
  assert (EW : mwidth m = n) by apply SQ. assert (EH : mheight m = n) by apply SQ.
  assert (PE : forall p, draw_plan_bits wd scale m o = Some p -> p_w p = img_w o n /\ p_h p = img_h o n).
  { intros p. unfold draw_plan_bits. rewrite EW, EH. revert ML MR MT MB. unfold img_w, img_h, b_left, b_right, b_top, b_bottom, moderate. rewrite !HE.
    destruct (o_borders o) as [[[t r] b] l]. cbv iota beta. intros ML MR MT MB. destruct (backgroundColor o) as [bg o1].
    assert (0 <= n * qrBlockWidth o <= 2 ^ 20 * 255) by nia.
    rewrite (WI (n * qrBlockWidth o + l + r)) by lia. rewrite (WI (n * qrBlockWidth o + t + b)) by lia.
    destruct (logo_info_bits wd o1 _ _) as [[lv lw] lh].
    match goal with |- match ?x with _ => _ end = _ -> _ => destruct x as [bm|] end; [|discriminate].
    match goal with |- (let '(_, _) := ?x in _) = _ -> _ => destruct x as [calls o2] end.
    intros E. apply (f_equal (fun s => match s with Some p => (p_w p, p_h p) | None => (0, 0) end)) in E. cbn [p_w p_h] in E. injection E as <- <-. split; reflexivity. }
  unfold draw_bits. destruct (draw_plan_bits wd scale m o) as [p|]; [|reflexivity]. destruct (PE p eq_refl) as [-> ->].
  assert (BW : Z.abs (img_w o n) <= 4 * H /\ Z.abs (img_h o n) <= 4 * H).
  { unfold img_w, img_h, moderate in *. rewrite HE in *. assert (0 <= n * qrBlockWidth o <= 2 ^ 20 * 255) by nia. lia. }
  unfold new_image. set (w := img_w o n) in *. set (h := img_h o n) in *.
  replace (Z.max 0 w - Z.min 0 w) with (Z.abs w) by lia. replace (Z.max 0 h - Z.min 0 h) with (Z.abs h) by lia.
  rewrite !WI by lia. rewrite P1, (proj2 (Z.ltb_ge (4 * Z.abs w * Z.abs h) (8 * H))) by exact BIG.
  rewrite andb_false_r. reflexivity.
Qed.

(* the multiplier is used in the check of the size of the logo only *)
Lemma module_multiplier wd k halftone bm safe bw l t x y v : forall calls o,
  draw_module_bits wd halftone bm safe bw l t (calls, set_multiplier k o) x y v =
  (fun s => (fst s, set_multiplier k (snd s))) (draw_module_bits wd halftone bm safe bw l t (calls, o) x y v).
Proof.
  intros calls o. unfold draw_module_bits, translateToRGBA. destruct (safe x y && qrbool v); [reflexivity|]. destruct (qrbool v); [reflexivity|].
  unfold set_multiplier. destruct o. cbn. destruct o_bgTransparent; reflexivity.
Qed.

Lemma iter_multiplier wd k dir m halftone bm safe bw l t : forall calls o,
  m_iter dir m (draw_module_bits wd halftone bm safe bw l t) (calls, set_multiplier k o) =
  (fun s => (fst s, set_multiplier k (snd s))) (m_iter dir m (draw_module_bits wd halftone bm safe bw l t) (calls, o)).
Proof.
  unfold m_iter. generalize (iter_coords dir (mwidth m) (mheight m)) as cs. induction cs as [|[x y] cs IH]; intros calls o; [reflexivity|].
  cbn [fold_left]. rewrite module_multiplier. destruct (draw_module_bits wd _ _ _ _ _ _ (calls, o) _ _ _) as [c' o']. cbn [fst snd]. apply IH.
Qed.

Lemma draw_multiplier wd alloc others scale m o j k :
  (forall w h, logo_info_bits wd (set_multiplier j o) w h = logo_info_bits wd (set_multiplier k o) w h) ->
  forall w h cv o', draw_bits wd alloc others scale m (set_multiplier j o) = Some (w, h, cv, o') ->
  exists o'', draw_bits wd alloc others scale m (set_multiplier k o) = Some (w, h, cv, o'').
Proof.
  intros LI w h cv o'.
  assert (PE : forall p, draw_plan_bits wd scale m (set_multiplier j o) = Some p ->
    draw_plan_bits wd scale m (set_multiplier k o) = Some (mkPlan (p_w p) (p_h p) (p_bg p) (p_logo p) (p_calls p) (set_multiplier k (p_options p)))).
  { intros p. unfold draw_plan_bits. change (o_borders (set_multiplier j o)) with (o_borders o). change (o_borders (set_multiplier k o)) with (o_borders o).
    destruct (o_borders o) as [[[t r] b] l]. change (qrBlockWidth (set_multiplier j o)) with (qrBlockWidth o). change (qrBlockWidth (set_multiplier k o)) with (qrBlockWidth o).
    assert (BG : forall i, backgroundColor (set_multiplier i o) = (fst (backgroundColor o), set_multiplier i (snd (backgroundColor o)))).
    { intros i. unfold backgroundColor, set_multiplier. destruct o. cbn. destruct o_bgTransparent; reflexivity. }
    rewrite !BG. destruct (backgroundColor o) as [bg o1] eqn:EB. cbn [fst snd].
    assert (LJ : forall w h, logo_info_bits wd (set_multiplier j o1) w h = logo_info_bits wd (set_multiplier k o1) w h).
    { intros w0 h0. specialize (LI w0 h0). unfold backgroundColor in EB. destruct (o_bgTransparent o); injection EB as _ <-; exact LI. }
    rewrite LJ. destruct (logo_info_bits wd (set_multiplier k o1) _ _) as [[lv lw] lh].
    change (o_safeZone (set_multiplier j o1)) with (o_safeZone o1). change (o_safeZone (set_multiplier k o1)) with (o_safeZone o1).
    change (o_halftone (set_multiplier j o1)) with (o_halftone o1). change (o_halftone (set_multiplier k o1)) with (o_halftone o1).
    match goal with |- match ?x with _ => _ end = _ -> _ => destruct x as [bm|] end; [|discriminate].
    rewrite !iter_multiplier.
    match goal with |- context [m_iter IterDirection_ROW m ?f ([], o1)] => destruct (m_iter IterDirection_ROW m f ([], o1)) as [calls o2] end. cbn [fst snd].
    intros E. apply (f_equal (fun s => match s with Some p => p | None => p end)) in E. subst p. reflexivity. }
  unfold draw_bits. change (getShape (set_multiplier k o)) with (getShape o). change (getShape (set_multiplier j o)) with (getShape o).
  destruct (draw_plan_bits wd scale m (set_multiplier j o)) as [p|] eqn:EP; [|discriminate]. rewrite (PE p eq_refl). cbn [p_w p_h p_bg p_logo p_calls p_options].
  change (o_gradient (set_multiplier k (p_options p))) with (o_gradient (p_options p)). change (o_qrColor (set_multiplier k (p_options p))) with (o_qrColor (p_options p)).
  destruct (new_image wd alloc 4 (p_w p) (p_h p)); [|discriminate].
  intros E. eexists. apply (f_equal (fun s => match s with Some (a, b, c, _) => (a, b, c) | None => (0, 0, blank) end)) in E.
  apply (f_equal (fun s => Some (s, set_multiplier k (p_options p)))) in E. exact E.
Qed.

Lemma default_sane wd n : 32 <= wd -> 0 <= n <= 177 -> sane wd defaultOptions n.
Proof.
  intros HW N. destruct (facts wd HW) as (H & HE & P1 & P2 & HL & WI). unfold sane, moderate. rewrite HE, P1.
  change (img_w defaultOptions n) with (n * 20 + 40 + 40). change (img_h defaultOptions n) with (n * 20 + 40 + 40). change (b_left defaultOptions) with 40.
  change (b_right defaultOptions) with 40. change (b_top defaultOptions) with 40. change (b_bottom defaultOptions) with 40. do 6 (split; [lia|]).
  split; [nia|]. intros i F; discriminate F.
Qed.

(* With a multiplier for which the product overflows, a logo much too large passes the check: the whole symbol is hidden.
   2^(w-2) * 500 is 0 as an int of w bits. *)
Theorem C78_multiplier_refuted :
  forall wd, 32 <= wd ->
  exists o, NewWithWriter (fun _ => None) [WithLogoImage (Some (PropsLogo.white_square 500)); WithLogoSizeMultiplier (2 ^ (wd - 2))] = Some o /\
  ~ logo_fits o (img_w o 21) (img_h o 21) (PropsLogo.white_square 500) /\
  forall others scale m, square 21 m ->
  exists cv o', draw_bits wd (fun _ => true) others scale m o = Some (500, 500, cv, o') /\ forall px py, 0 <= px < 500 -> 0 <= py < 500 -> cv px py = color_WHITE.
Proof.
  intros wd HW. destruct (facts wd HW) as (H & HE & P1 & P2 & HL & WI).
  assert (P4 : 2 ^ (wd - 2) = 4 * H) by (rewrite <- HE; replace (wd - 2) with (2 + (wd - 4)) by lia; rewrite Z.pow_add_r by lia; reflexivity).
  rewrite P4. eexists. split; [reflexivity|]. split; [unfold logo_fits; intros [A _]; change (4 * H * 500 <= 500) in A; lia|]. intros others scale m SQ.
  set (o := set_logo _ _).
  assert (S0 : sane wd (set_multiplier 0 o) 21).
  { destruct (default_sane wd 21 HW ltac:(lia)) as (A1 & A2 & A3 & A4 & A5 & A6 & A7 & _). unfold sane. do 6 (split; [first [exact A1|exact A2|exact A3|exact A4|exact A5|exact A6]|]).
    split; [exact A7|]. intros i F. apply (f_equal (fun s => match s with Some i => i | None => i end)) in F. change (PropsLogo.white_square 500 = i) in F. subst i. unfold moderate, is_int. rewrite HE, P1.
    change (i_x0 (PropsLogo.white_square 500)) with 0. change (i_x1 (PropsLogo.white_square 500)) with 500. change (i_y0 (PropsLogo.white_square 500)) with 0. change (i_y1 (PropsLogo.white_square 500)) with 500.
    change (o_multiplier (set_multiplier 0 o)) with 0. lia. }
  destruct (PropsStandard.C39_pixels others scale 21 m (set_multiplier 0 o) SQ eq_refl eq_refl eq_refl) as (cv & o' & E & P).
  - cbv; intuition congruence.
  - reflexivity.
  - intros i F. injection F as <-. cbn. lia.
  - intros i F. injection F as <-. cbn. lia.
  - rewrite <- (C78_standard_writer wd (fun _ => true) others scale 21 m _ HW SQ ltac:(lia) S0 eq_refl) in E.
    destruct (draw_multiplier wd (fun _ => true) others scale m o 0 (4 * H)) with (w := 500) (h := 500) (cv := cv) (o' := o') as (o'' & E''); [|exact E|].
    { intros w h. unfold logo_info_bits. cbn [o_logo set_logo set_multiplier o PropsLogo.white_square i_x0 i_x1 i_y0 i_y1 o_multiplier]. unfold validLogoImage_bits. change (500 - 0) with 500. rewrite (WI 500) by lia. rewrite (WI (0 * 500)) by lia.
      replace (wrap_bits wd (4 * H * 500)) with 0; [reflexivity|].
      unfold wrap_bits. rewrite P1, P2. replace (4 * H * 500 + 8 * H) with (8 * H + 125 * (16 * H)) by lia. rewrite Z.mod_add, Z.mod_small by lia. lia. }
    exists cv, o''. split; [exact E''|]. intros px py X Y. clear P1 P2 P4; destruct (P px py X Y) as (c & P1 & P2 & P3 & P4 & P5).
    rewrite (P4 (PropsLogo.white_square 500)); [|reflexivity|unfold logo_fits; cbn; lia|].
    + apply PropsStandard.C39_opaque_logo_pixel; [|cbv; intuition congruence].
      assert (D : in_symbol (set_multiplier 0 o) 21 px py \/ ~ in_symbol (set_multiplier 0 o) 21 px py) by (unfold in_symbol; cbn; lia).
      destruct D as [D|D]; [|rewrite (P3 D); cbv; intuition congruence].
      assert (G : c = color_BLACK \/ c = color_WHITE).
      { set (x := (px - 40) / 20). set (y := (py - 40) / 20).
        unfold in_symbol in D. change (b_left (set_multiplier 0 o)) with 40 in D. change (b_top (set_multiplier 0 o)) with 40 in D. change (qrBlockWidth (set_multiplier 0 o)) with 20 in D.
        pose proof (Z.div_mod (px - 40) 20 ltac:(lia)) as D1. pose proof (Z.mod_pos_bound (px - 40) 20 ltac:(lia)).
        pose proof (Z.div_mod (py - 40) 20 ltac:(lia)) as D2. pose proof (Z.mod_pos_bound (py - 40) 20 ltac:(lia)).
        fold x in D1. fold y in D2.
        assert (IM : in_module (set_multiplier 0 o) x y px py) by (unfold in_module; change (b_left (set_multiplier 0 o)) with 40; change (b_top (set_multiplier 0 o)) with 40; change (qrBlockWidth (set_multiplier 0 o)) with 20; lia).
        destruct (module_at (m_bitmap m) x y) eqn:EM.
        - left. apply (P1 x y); [lia|lia|exact IM|exact EM|]. intros (F & _). discriminate F.
        - right. apply (P2 x y); [lia|lia|exact IM|]. left. exact EM. }
      destruct G as [-> | ->]; cbv; intuition congruence.
    + unfold in_logo. change (logo_left (img_w (set_multiplier 0 o) 21) (PropsLogo.white_square 500)) with 0. change (logo_top (img_h (set_multiplier 0 o) 21) (PropsLogo.white_square 500)) with 0.
      cbn [PropsLogo.white_square i_x0 i_x1 i_y0 i_y1]. lia.
Qed.

Theorem C78_compressed_writer :
  forall wd alloc n m padding block, 32 <= wd -> square n m -> 0 <= n <= 2 ^ 20 -> moderate wd padding ->
  Z.abs (n * block + 2 * padding) < 2 ^ 25 -> Z.abs (n * block + 2 * padding) * Z.abs (n * block + 2 * padding) < 2 ^ (wd - 1) -> alloc (Z.abs (n * block + 2 * padding) * Z.abs (n * block + 2 * padding)) = true ->
  compressed_draw_bits wd alloc padding block m = compressed_draw padding block m.
Proof.
  intros wd alloc n m padding block HW SQ N MP W SB A. destruct (facts wd HW) as (H & HE & P1 & P2 & HL & WI). assert (EW : mwidth m = n) by apply SQ. assert (EH : mheight m = n) by apply SQ.
  unfold moderate in MP. rewrite HE in MP. unfold compressed_draw_bits, compressed_draw. rewrite EW. rewrite (WI (n * block + 2 * padding)) by lia.
  rewrite (new_image_ok wd alloc 1) by (try lia; rewrite Z.mul_1_l; assumption). cbv zeta.
  destruct (rectangle 0 0 _ _ _ 0) as [img|]; [|reflexivity]. apply iter_ext. intros s x y v X Y. rewrite EW in X. rewrite EH in Y.
  destruct s as [i|]; [|reflexivity].
  assert (K : forall z, 0 <= z <= n -> - (8 * H) <= z * block + padding < 8 * H).
  { intros z HZ. assert (Z.abs (z * block) <= Z.abs (n * block)) by (rewrite !Z.abs_mul; nia). lia. }
  rewrite !WI by (apply K; lia). reflexivity.
Qed.

(* the symbols of the library, with the default options *)
Theorem C78_default :
  forall wd, 32 <= wd -> forall sjis, shift_jis_contract sjis -> forall text opts sched q, NewWith sjis text opts sched = Ok q ->
  forall others scale alloc, (forall k, 0 <= k <= 2 ^ 26 -> alloc k = true) ->
  draw_bits wd alloc others scale (qMat q) defaultOptions = draw others scale (qMat q) defaultOptions /\
  compressed_draw_bits wd alloc 40 8 (qMat q) = compressed_draw 40 8 (qMat q).
Proof.
  intros wd HW sjis C text opts sched q HN others scale alloc A. destruct (facts wd HW) as (H & HE & P1 & P2 & HL & WI).
  pose proof (PropsLossy.made_dimension sjis C text opts sched q HN) as D. pose proof (ProofMedium.made_square sjis C text opts sched q HN) as [SQ D1].
  split.
  - apply (C78_standard_writer wd alloc others scale (q_dimension q)); [exact HW|exact SQ|lia| |].
    + apply default_sane; [exact HW|lia].
    + change (img_w defaultOptions (q_dimension q)) with (q_dimension q * 20 + 40 + 40). change (img_h defaultOptions (q_dimension q)) with (q_dimension q * 20 + 40 + 40).
      rewrite Z.abs_eq by lia. set (z := q_dimension q * 20 + 40 + 40). assert (0 <= z <= 3620) by lia. apply A. nia.
  - apply (C78_compressed_writer wd alloc (q_dimension q) (qMat q) 40 8); [exact HW|exact SQ|lia|unfold moderate; rewrite HE; lia|lia| |]; rewrite Z.abs_eq by lia; set (z := q_dimension q * 8 + 2 * 40); assert (0 <= z <= 1496) by lia; [rewrite P1; nia|apply A; nia].
Qed.

Example C78_example :
  (exists q, NewWith sample_sjis hello [] fair_schedule = Ok q) /\ sane 32 defaultOptions 21 /\ sane 64 defaultOptions 177 /\
  (exists o, NewWithWriter (fun _ => None) [WithBorderWidth [2 ^ 28]] = Some o /\ moderate 32 (b_left o) /\ 2 ^ 31 <= 4 * Z.abs (img_w o 21) * Z.abs (img_h o 21)) /\
  (exists o, NewWithWriter (fun _ => None) [WithBorderWidth [2 ^ 40]] = Some o /\ moderate 64 (b_left o) /\ 2 ^ 63 <= 4 * Z.abs (img_w o 21) * Z.abs (img_h o 21)).
Proof.
  split; [apply PropsSymbol.symbol_example|]. split; [apply default_sane; lia|]. split; [apply default_sane; lia|]. split.
  - eexists. split; [reflexivity|]. unfold moderate, img_w, img_h. cbn. lia.
  - eexists. split; [reflexivity|]. unfold moderate, img_w, img_h. cbn. lia.
Qed.

Print Assumptions C78_attribute.
Print Assumptions C78_standard_writer.
Print Assumptions C78_too_large.
Print Assumptions C78_multiplier_refuted.
Print Assumptions C78_compressed_writer.
Print Assumptions C78_default.
