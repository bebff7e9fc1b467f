(* C89: goroutines that draw at once with the same options. *)
From Coq Require Import Lia.
From Verif Require Import ModelBase ModelMatrix ModelStandard ModelPaint.
From Verif Require Import SpecReader SpecMatrix SpecStandard SpecPaint ProofBase ProofViews ProofStandard ProofPaint PropsStandard.

(* whatever the schedule, a goroutine that has finished has drawn a picture that Write draws, with a background colour as in
   a_background: no mixture of two pictures, no half-assigned colour of a module *)
Theorem C89_every_picture :
  forall others scale o ms sched i m bytes, nth_error ms i = Some m -> has_drawn (paint_run (paint_start o ms) sched) i bytes ->
  exists c, a_background o c /\ painted others scale m o bytes = picture (draw others scale m (set_bgColor c o)).
Proof.
  intros others scale o ms sched i m bytes EM HD. destruct (inv_run o ms sched _ (inv_start o ms)) as (_ & _ & HP).
  destruct (HP i m _ EM HD) as (done & D1 & D2 & _). cbn [pt_left pt_bytes] in *. rewrite app_nil_r in D1. subst done.
  exact (painted_bytes others scale m o bytes D2).
Qed.
Print Assumptions C89_every_picture.

(* without WithBgTransparent it is the picture of a goroutine on its own *)
Theorem C89_opaque :
  forall others scale o ms sched i m bytes, o_bgTransparent o = false -> nth_error ms i = Some m -> has_drawn (paint_run (paint_start o ms) sched) i bytes ->
  painted others scale m o bytes = picture (draw others scale m o).
Proof.
  intros others scale o ms sched i m bytes ET EM HD. destruct (C89_every_picture others scale o ms sched i m bytes EM HD) as (c & A & ->).
  unfold a_background in A. rewrite ET in A. subst c. destruct o; reflexivity.
Qed.
Print Assumptions C89_opaque.

Lemma bg_png others scale n m o c : square n m -> o_bgTransparent o = true -> a_background o c -> getShape o = ShapeRectangle -> o_logo o = None -> o_halftone o = None -> o_gradient o = None ->
  painter_colors o ->
  exists w h cv cv' o1 o2, draw others scale m o = Some (w, h, cv, o1) /\ draw others scale m (set_bgColor c o) = Some (w, h, cv', o2) /\
    forall px py, 0 <= px < img_w o n -> 0 <= py < img_h o n -> png_same (cv px py) (cv' px py).
Proof.
  intros HS ET AB EG ELo EHa EGr HC. destruct (pixels others scale n m o HS EG EHa EGr HC) as (cv1 & o1 & E1 & _ & HP1).
  set (o2 := set_bgColor c o).
  assert (HC2 : painter_colors o2).
  { destruct HC as (X & Y & Z0). unfold a_background in AB. rewrite ET in AB. unfold painter_colors, o2. cbn [o_qrColor o_bgColor o_bgTransparent set_bgColor]. split; [exact X|]. rewrite ET. split; [|discriminate].
    destruct AB as (A1 & A2 & A3 & A4). destruct Y as (Y1 & Y2 & Y3 & Y4). unfold good, SpecStandard.byte in *.
    repeat split; [destruct A2 as [-> | ->]|destruct A2 as [-> | ->]|destruct A3 as [-> | ->]|destruct A3 as [-> | ->]|destruct A4 as [-> | ->]|destruct A4 as [-> | ->]|rewrite A1|rewrite A1]; lia. }
  destruct (pixels others scale n m o2 HS EG EHa EGr HC2) as (cv2 & o3 & E2 & _ & HP2).
  exists (Z.abs (img_w o n)), (Z.abs (img_h o n)), cv1, cv2, o1, o3. split; [exact E1|]. split; [exact E2|]. intros px py Hx Hy.
  destruct (HP1 px py Hx Hy) as (c1 & [B11 B12] & C1). destruct (HP2 px py Hx Hy) as (c2 & [B21 B22] & C2).
  unfold logo_place in C1, C2. change (o_logo o2) with (o_logo o) in C2. rewrite ELo in C1, C2. rewrite C1, C2.
  assert (S1 : forall x y, safe_b o n x y = false) by (intros; unfold safe_b, logo_info; rewrite ELo; reflexivity).
  assert (S2 : forall x y, safe_b o2 n x y = false) by (intros; unfold safe_b, logo_info; change (o_logo o2) with (o_logo o); rewrite ELo; reflexivity).
  assert (A1 : c_a (border_color o) = 0) by (unfold border_color; rewrite ET; reflexivity).
  assert (A2 : c_a (border_color o2) = 0) by (unfold border_color; change (o_bgTransparent o2) with (o_bgTransparent o); rewrite ET; reflexivity).
  change (in_module o2) with (in_module o) in *. change (in_symbol o2) with (in_symbol o) in *.
  destruct (Z.ltb_spec px (b_left o)); [right; rewrite B12, B22 by (unfold in_symbol; lia); auto|].
  destruct (Z.ltb_spec px (b_left o + n * qrBlockWidth o)); [|right; rewrite B12, B22 by (unfold in_symbol; lia); auto].
  destruct (Z.ltb_spec py (b_top o)); [right; rewrite B12, B22 by (unfold in_symbol; lia); auto|].
  destruct (Z.ltb_spec py (b_top o + n * qrBlockWidth o)); [|right; rewrite B12, B22 by (unfold in_symbol; lia); auto].
  pose proof (block_width_range o) as HB.
  set (x := (px - b_left o) / qrBlockWidth o). set (y := (py - b_top o) / qrBlockWidth o).
  pose proof (Z.div_mod (px - b_left o) (qrBlockWidth o) ltac:(lia)) as DX. pose proof (Z.mod_pos_bound (px - b_left o) (qrBlockWidth o) ltac:(lia)) as MX. fold x in DX.
  pose proof (Z.div_mod (py - b_top o) (qrBlockWidth o) ltac:(lia)) as DY. pose proof (Z.mod_pos_bound (py - b_top o) (qrBlockWidth o) ltac:(lia)) as MY. fold y in DY.
  assert (Rx : 0 <= x < n) by (split; [apply Z.div_pos; lia|apply Z.div_lt_upper_bound; lia]).
  assert (Ry : 0 <= y < n) by (split; [apply Z.div_pos; lia|apply Z.div_lt_upper_bound; lia]).
  assert (M1 : in_module o x y px py) by (unfold in_module; lia).
  rewrite (B11 x y Rx Ry M1), (B21 x y Rx Ry M1), S1, S2. change (o_qrColor o2) with (o_qrColor o). destruct (module_at (m_bitmap m) x y); cbn [negb andb]; [left; reflexivity|right; auto].
Qed.

(* with it, and the default shape, a PNG shows the same: pixels differ only where both are fully transparent *)
Theorem C89_transparent_partial :
  forall others scale n o ms sched i m bytes, square n m -> o_bgTransparent o = true -> getShape o = ShapeRectangle -> o_logo o = None -> o_halftone o = None -> o_gradient o = None -> painter_colors o ->
  nth_error ms i = Some m -> has_drawn (paint_run (paint_start o ms) sched) i bytes ->
  exists w h cv cv' o', draw others scale m o = Some (w, h, cv, o') /\ painted others scale m o bytes = Some (w, h, cv') /\
    forall px py, 0 <= px < img_w o n -> 0 <= py < img_h o n -> png_same (cv px py) (cv' px py).
Proof.
  intros others scale n o ms sched i m bytes HS ET EG ELo EHa EGr HC EM HD. destruct (C89_every_picture others scale o ms sched i m bytes EM HD) as (c & A & E).
  destruct (bg_png others scale n m o c HS ET A EG ELo EHa EGr HC) as (w & h & cv & cv' & o1 & o2 & E1 & E2 & P). exists w, h, cv, cv', o1. rewrite E, E2. auto.
Qed.
Print Assumptions C89_transparent_partial.

(* ---- a goroutine on its own draws what Write draws (this ties the steps to the model of Write) ---- *)
Lemma run_alone l : forall bg bytes tr, exists bg' bytes' tr', paint_run (mkStudio bg [mkPainter l bytes] tr) (repeat 0%nat (length l)) = mkStudio bg' [mkPainter [] (bytes ++ bytes')] tr'.
Proof.
  induction l as [|a l IH]; intros bg bytes tr; [exists bg, [], tr; rewrite app_nil_r; reflexivity|]. cbn [length repeat]. unfold paint_run in *. cbn [fold_left].
  destruct a as [c|c]; cbn [paint_step st_painters nth_error upd_nat st_bg st_trace]; [destruct (IH (zero c bg) bytes (tr ++ [(0%nat, Store c)])) as (b & y & t & ->); exists b, y, t; reflexivity|].
  destruct (IH bg (bytes ++ [chan c bg]) (tr ++ [(0%nat, Load c)])) as (b & y & t & ->). exists b, (chan c bg :: y), t. rewrite <- app_assoc. reflexivity.
Qed.
Theorem C89_alone :
  forall others scale o m, exists bytes, has_drawn (paint_run (paint_start o [m]) (repeat 0%nat (length (paint_accesses m o)))) 0 bytes /\
    painted others scale m o bytes = picture (draw others scale m o).
Proof.
  intros others scale o m. set (sched := repeat 0%nat (length (paint_accesses m o))).
  destruct (run_alone (paint_accesses m o) (o_bgColor o) [] []) as (bg & bytes & tr & E). change (paint_run (paint_start o [m]) sched = mkStudio bg [mkPainter [] ([] ++ bytes)] tr) in E. cbn [app] in E.
  exists bytes. assert (HD : has_drawn (paint_run (paint_start o [m]) sched) 0 bytes) by (rewrite E; reflexivity). split; [exact HD|].
  destruct (inv_run o [m] sched _ (inv_start o [m])) as (_ & _ & HP). destruct (HP 0%nat m _ eq_refl HD) as (done & D1 & D2 & _). cbn [pt_left pt_bytes] in *. rewrite app_nil_r in D1. subst done.
  destruct (o_bgTransparent o) eqn:T.
  2:{ apply (C89_opaque others scale o [m] sched 0 m bytes T eq_refl HD). }
  (* the first bytes loaded are the channels of the options *)
  assert (NX : exists rest, bytes = c_r (o_bgColor o) :: c_g (o_bgColor o) :: c_b (o_bgColor o) :: 0 :: rest).
  { unfold sched, paint_start in E. cbn [map] in E. rewrite accesses_flat, T in E. unfold background_accesses in E. cbn [app copy_colour length repeat map] in E. unfold paint_run in E.
    cbn [fold_left paint_step st_painters nth_error upd_nat st_bg st_trace] in E.
    match type of E with fold_left paint_step (repeat 0%nat (length ?l)) (mkStudio ?b [mkPainter ?l ?bs] ?t) = _ => destruct (run_alone l b bs t) as (b2 & y2 & t2 & E2) end.
    unfold paint_run in E2. rewrite E2 in E. cbn [app chan zero c_r c_g c_b c_a] in E. exists y2. congruence. }
  destruct NX as (rest & EBy). destruct (plan_bytes scale m o bytes) as (c & LB & G); [rewrite T; exact D2|].
  destruct (painted_bytes others scale m o bytes) as (c2 & LB2 & EP); [rewrite T; exact D2|].
  (* the background is loaded from the first four bytes *)
  assert (EQ : paint_plan scale m o bytes = None \/ exists p, paint_plan scale m o bytes = Some p /\ p_bg p = mkRGBA (c_r (o_bgColor o)) (c_g (o_bgColor o)) (c_b (o_bgColor o)) 0).
  { unfold paint_plan. rewrite EBy. cbn [next_colour]. destruct (o_borders o) as [[[t0 r0] b0] l0]. destruct (logo_info o _ _) as [[lv lw] lh].
    destruct (if lv && o_safeZone o then _ else _) as [bm|]; [right|left; reflexivity]. destruct (m_iter IterDirection_ROW m _ _) as [cl bs0]. eexists. split; reflexivity. }
  unfold painted. unfold draw, draw_with.
  assert (DP : draw_plan scale m o = draw_plan scale m (set_bgColor (mkRGBA (c_r (o_bgColor o)) (c_g (o_bgColor o)) (c_b (o_bgColor o)) 0) o)).
  { assert (B : backgroundColor (set_bgColor (mkRGBA (c_r (o_bgColor o)) (c_g (o_bgColor o)) (c_b (o_bgColor o)) 0) o) = backgroundColor o) by (unfold backgroundColor; cbn [o_bgTransparent set_bgColor]; rewrite T; reflexivity).
    unfold draw_plan. rewrite B. reflexivity. }
  assert (CE : paint_plan scale m o bytes <> None -> c = mkRGBA (c_r (o_bgColor o)) (c_g (o_bgColor o)) (c_b (o_bgColor o)) 0).
  { intros NN. destruct EQ as [EQ|(p & EQ & BG)]; [contradiction|]. rewrite EQ in G. destruct (draw_plan scale m (set_bgColor c o)) as [q|] eqn:DQ; [|contradiction].
    destruct G as (_ & _ & GB & _). assert (QB : p_bg q = c).
    { unfold draw_plan in DQ. destruct (o_borders (set_bgColor c o)) as [[[t0 r0] b0] l0]. unfold backgroundColor in DQ. change (o_bgTransparent (set_bgColor c o)) with (o_bgTransparent o) in DQ. rewrite T in DQ.
      destruct (logo_info _ _ _) as [[lv lw] lh]. destruct (if lv && _ then _ else _) as [bm|]; [|discriminate DQ]. destruct (m_iter IterDirection_ROW m _ _) as [cl o9].
      assert (X := f_equal (fun z => match z with Some p => p_bg p | None => c end) DQ). cbn [p_bg] in X. rewrite <- X. unfold loaded_bg in LB. rewrite T in LB. destruct LB as (LA & _). destruct c; cbn in *; congruence. }
    congruence. }
  rewrite DP. destruct (paint_plan scale m o bytes) as [p|] eqn:PP.
  - rewrite <- (CE ltac:(discriminate)). destruct (draw_plan scale m (set_bgColor c o)) as [q|]; [|contradiction G]. destruct G as (-> & -> & -> & -> & -> & HSo). destruct (same_fields _ _ HSo) as (_ & -> & -> & _). reflexivity.
  - (* a panic when the bit map is cleared does not depend on the colour *)
    assert (N : forall d, draw_plan scale m (set_bgColor d o) = None -> draw_plan scale m (set_bgColor (mkRGBA (c_r (o_bgColor o)) (c_g (o_bgColor o)) (c_b (o_bgColor o)) 0) o) = None).
    { intros d. unfold draw_plan. change (o_borders (set_bgColor d o)) with (o_borders o). change (o_borders (set_bgColor (mkRGBA (c_r (o_bgColor o)) (c_g (o_bgColor o)) (c_b (o_bgColor o)) 0) o)) with (o_borders o).
      destruct (o_borders o) as [[[t0 r0] b0] l0]. unfold backgroundColor. cbn [o_bgTransparent set_bgColor]. rewrite T. unfold logo_info. cbn [o_logo o_safeZone o_multiplier set_bgColor].
      change (qrBlockWidth (set_bgColor d o)) with (qrBlockWidth o). change (qrBlockWidth (set_bgColor (mkRGBA (c_r (o_bgColor o)) (c_g (o_bgColor o)) (c_b (o_bgColor o)) 0) o)) with (qrBlockWidth o).
      destruct (match o_logo o with Some _ => _ | None => _ end) as [[lv lw] lh]. destruct (if lv && o_safeZone o then _ else _) as [bm|]; [|reflexivity].
      destruct (m_iter IterDirection_ROW m _ _) as [cl o9]. discriminate. }
    destruct (draw_plan scale m (set_bgColor c o)) as [q|] eqn:DQ; [contradiction G|]. rewrite (N c DQ). reflexivity.
Qed.
Print Assumptions C89_alone.

(* ---- data races ---- *)
Lemma trace_from o ms sched : forall s, (forall i p, nth_error (st_painters s) i = Some p -> exists m, nth_error ms i = Some m /\ exists done, paint_accesses m o = done ++ pt_left p) ->
  (forall g a, In (g, a) (st_trace s) -> exists m, nth_error ms g = Some m /\ In a (paint_accesses m o)) ->
  forall g a, In (g, a) (st_trace (paint_run s sched)) -> exists m, nth_error ms g = Some m /\ In a (paint_accesses m o).
Proof.
  unfold paint_run. induction sched as [|i l IH]; intros s HP HT; [exact HT|]. cbn [fold_left]. apply IH.
  - intros j p E. unfold paint_step in E. destruct (nth_error (st_painters s) i) as [[[|[c|c] r] bs]|] eqn:EI; try exact (HP j p E); cbn [st_painters] in E; rewrite nth_upd in E;
      (destruct (Nat.eqb_spec i j) as [<-|NE]; [|exact (HP j p E)]); rewrite EI in E; destruct (HP i _ EI) as (m & M1 & done & M2); exists m; (split; [exact M1|]); assert (EL := f_equal (option_map pt_left) E); cbn [option_map pt_left] in EL, M2.
    + exists (done ++ [Store c]). rewrite <- app_assoc. cbn [app]. congruence.
    + exists (done ++ [Load c]). rewrite <- app_assoc. cbn [app]. congruence.
  - intros g a E. unfold paint_step in E. destruct (nth_error (st_painters s) i) as [[[|[c|c] r] bs]|] eqn:EI; try exact (HT g a E); cbn [st_trace] in E; (apply in_app_or in E as [E|[E|[]]]; [exact (HT g a E)|]);
      destruct (HP i _ EI) as (m & M1 & done & M2); cbn [pt_left] in M2; exists m; assert (EG := f_equal fst E); assert (EA := f_equal snd E); cbn [fst snd] in EG, EA; subst g a; (split; [exact M1|]); rewrite M2; apply in_or_app; right; left; reflexivity.
Qed.
Lemma all_in_trace o ms sched g a : In (g, a) (st_trace (paint_run (paint_start o ms) sched)) -> exists m, nth_error ms g = Some m /\ In a (paint_accesses m o).
Proof.
  apply trace_from; [|intros ? ? []]. intros i p E. unfold paint_start in E. cbn [st_painters] in E. rewrite nth_error_map in E. destruct (nth_error ms i) as [m|] eqn:EM; [|discriminate E].
  exists m. split; [reflexivity|]. exists []. cbn in E |- *. assert (p = mkPainter (paint_accesses m o) []) by congruence. subst p. reflexivity.
Qed.

(* there is a schedule with a data race exactly if the background is transparent and there are two goroutines *)
Theorem C89_race_iff :
  forall o ms, (exists sched, data_race (st_trace (paint_run (paint_start o ms) sched))) <-> o_bgTransparent o = true /\ (2 <= length ms)%nat.
Proof.
  intros o ms. split.
  - intros (sched & i & j & g & g' & a & b & E1 & E2 & NE & TG & c & ->). apply nth_error_In in E1, E2. apply all_in_trace in E1 as (m & M1 & M2). apply all_in_trace in E2 as (m' & M3 & M4).
    split; [exact (accesses_stores m o c M2)|]. assert (X : (g < length ms)%nat) by (apply nth_error_Some; congruence). assert (Y : (g' < length ms)%nat) by (apply nth_error_Some; congruence). lia.
  - intros [T HL]. destruct ms as [|m1 [|m2 ms]]; cbn [length] in HL; try lia. exists [0%nat; 1%nat].
    exists 0%nat, 1%nat, 0%nat, 1%nat, (Store ChA), (Store ChA). unfold paint_run, paint_start. cbn [map fold_left].
    assert (A : forall m, exists r, paint_accesses m o = Store ChA :: r) by (intros m; rewrite accesses_flat, T; eexists; reflexivity).
    destruct (A m1) as (r1 & ->). destruct (A m2) as (r2 & ->). cbn. repeat (split; [solve [reflexivity|discriminate]|]). exists ChA. reflexivity.
Qed.
Print Assumptions C89_race_iff.
Corollary C89_no_race_refuted : exists o ms sched, NewWithWriter (fun _ => None) [WithBgTransparent] = Some o /\ data_race (st_trace (paint_run (paint_start o ms) sched)).
Proof.
  eexists. exists [sample; sample].
  destruct (proj2 (C89_race_iff (set_bgTransparent defaultOptions) [sample; sample])) as (sched & R); [split; [reflexivity|cbn; lia]|]. exists sched. split; [reflexivity|exact R].
Qed.

(* every goroutine finishes once it has had its turns *)
Theorem C89_finishes :
  forall o ms sched i m, nth_error ms i = Some m -> (length (paint_accesses m o) <= count_occ Nat.eq_dec sched i)%nat ->
  exists bytes, has_drawn (paint_run (paint_start o ms) sched) i bytes.
Proof.
  intros o ms sched i m EM. assert (G : forall sched s l bs, nth_error (st_painters s) i = Some (mkPainter l bs) -> (length l <= count_occ Nat.eq_dec sched i)%nat -> exists bytes, has_drawn (paint_run s sched) i bytes).
  { clear. unfold paint_run. induction sched as [|j r IH]; intros s l bs E HL; cbn [count_occ fold_left] in *.
    - destruct l; [|cbn in HL; lia]. exists bs. exact E.
    - destruct (Nat.eq_dec j i) as [->|NE].
      + unfold paint_step. rewrite E. destruct l as [|[c|c] l]; [apply (IH s [] bs E); cbn; lia| |]; cbn [length] in HL; (eapply IH; [cbn [st_painters]; rewrite nth_upd, Nat.eqb_refl, E; reflexivity|lia]).
      + apply (IH _ l bs); [|exact HL]. unfold paint_step. destruct (nth_error (st_painters s) j) as [[[|[c|c] r'] bs']|]; try exact E; cbn [st_painters]; rewrite nth_upd; destruct (Nat.eqb_spec j i); try contradiction; exact E. }
  intros HL. apply (G sched (paint_start o ms) (paint_accesses m o) []); [|exact HL]. unfold paint_start. cbn [st_painters]. rewrite nth_error_map, EM. reflexivity.
Qed.
Print Assumptions C89_finishes.

(* with the default encoder (JPEG, which ignores alpha) the picture does depend on the schedule: of two goroutines that draw the same
   symbol the first paints the background white, the second black *)
Theorem C89_same_picture_refuted :
  exists o sched b1 b2, NewWithWriter (fun _ => None) [WithBgTransparent; WithQRWidth 1; WithBorderWidth [1; 0; 0; 1]] = Some o /\ o_encoder o = JpegEncoder /\
  let s := paint_run (paint_start o [sample; sample]) sched in has_drawn s 0 b1 /\ has_drawn s 1 b2 /\
  let show b := match painted (fun _ cv _ => cv) (fun _ _ _ _ => 0) sample o b with Some (w, h, cv) => rows (Some (w, h, cv, o)) | None => None end in
  let W := mkRGBA 255 255 255 0 in let B := color_BLACK in let T := mkRGBA 0 0 0 0 in
  show b1 = Some [[W; W; W]; [W; W; B]; [W; W; W]] /\ show b2 = Some [[T; T; T]; [T; T; B]; [T; T; T]].
Proof.
  eexists. exists (repeat 0%nat 40 ++ repeat 1%nat 40). do 2 eexists. split; [reflexivity|]. split; [reflexivity|]. cbv zeta.
  split; [vm_compute; reflexivity|]. split; [vm_compute; reflexivity|]. split; vm_compute; reflexivity.
Qed.
Print Assumptions C89_same_picture_refuted.

(* the hypotheses: two goroutines, taking turns, both finish *)
Example C89_example :
  exists o b1 b2, NewWithWriter (fun _ => None) [WithBgTransparent; WithQRWidth 1; WithBorderWidth [1; 0; 0; 1]] = Some o /\
    let s := paint_run (paint_start o [sample; sample]) (concat (repeat [0%nat; 1%nat] 40)) in has_drawn s 0 b1 /\ has_drawn s 1 b2 /\
    square 2 sample /\ getShape o = ShapeRectangle /\ o_logo o = None /\ o_halftone o = None /\ o_gradient o = None /\ painter_colors o.
Proof.
  do 3 eexists. split; [reflexivity|]. cbv zeta. split; [vm_compute; reflexivity|]. split; [vm_compute; reflexivity|].
  split; [repeat apply square_set; apply square_new; lia|]. repeat (split; [reflexivity|]). unfold painter_colors, opaque, good, SpecStandard.byte. vm_compute. intuition congruence.
Qed.
Print Assumptions C89_no_race_refuted.
