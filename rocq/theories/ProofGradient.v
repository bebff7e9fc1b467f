From Verif Require Import ModelBase ModelMatrix ModelStandard ModelGradient.
From Verif Require Import SpecReader SpecMatrix SpecStandard SpecMedium SpecShape SpecGradient.
From Verif Require Import ProofStandard ProofMedium ProofShape.
From Coq Require Import Lia QArith Qround Qminmax Qabs Lqa Permutation.
Open Scope Z_scope.

Lemma Qlt_b_spec a b : Qlt_b a b = true <-> (a < b)%Q.
Proof.
  unfold Qlt_b. rewrite negb_true_iff. split.
  - intros HF. apply Qnot_le_lt. intros F. apply Qle_bool_iff in F. rewrite F in HF. discriminate HF.
  - intros HL. apply not_true_iff_false. intros F. apply Qle_bool_iff in F. apply (Qlt_not_le _ _ HL F).
Qed.
Lemma Qle_bool_false a b : Qle_bool a b = false <-> (b < a)%Q.
Proof. rewrite <- Qlt_b_spec. unfold Qlt_b. symmetry. apply negb_true_iff. Qed.

(* ---- interpolation ---- *)
Lemma blend_spec a b (f : Q) : byte a -> byte b -> (0 <= f)%Q -> (f <= 1)%Q ->
  rounds_down (inject_Z a + (inject_Z b - inject_Z a) * f) (blend_channel a b f) /\ byte (blend_channel a b f).
Proof.
  intros [A1 A2] [B1 B2] F0 F1. unfold blend_channel. set (q := (inject_Z a * (1 - f) + inject_Z b * f)%Q).
  assert (QE : (q == inject_Z a + (inject_Z b - inject_Z a) * f)%Q) by (unfold q; ring).
  assert (A1' : (0 <= inject_Z a)%Q) by (rewrite <- (Zle_Qle 0); lia). assert (B1' : (0 <= inject_Z b)%Q) by (rewrite <- (Zle_Qle 0); lia).
  assert (A2' : (inject_Z a <= 255)%Q) by (change 255%Q with (inject_Z 255); rewrite <- Zle_Qle; lia).
  assert (B2' : (inject_Z b <= 255)%Q) by (change 255%Q with (inject_Z 255); rewrite <- Zle_Qle; lia).
  assert (Q0 : (0 <= q)%Q) by (unfold q; nra). assert (Q1 : (q <= 255)%Q) by (unfold q; nra).
  pose proof (Qfloor_le q) as L1. pose proof (Qlt_floor q) as L2.
  assert (R0 : 0 <= Qfloor q). { change 0 with (Qfloor (inject_Z 0)). apply Qfloor_resp_le. exact Q0. }
  assert (R1 : Qfloor q <= 255). { change 255 with (Qfloor (inject_Z 255)). apply Qfloor_resp_le. exact Q1. }
  rewrite Z.mod_small by lia. unfold rounds_down. rewrite <- QE. split; [|unfold byte; lia].
  split; [exact L1|]. rewrite inject_Z_plus in L2. exact L2.
Qed.

Lemma blend_color s e t : good (s_color s) -> good (s_color e) -> (s_T s < t)%Q -> (t <= s_T e)%Q ->
  mixed s e t (blendColors (s_color s) (s_color e) ((t - s_T s) / (s_T e - s_T s))).
Proof.
  intros (S1 & S2 & S3 & S4) (E1 & E2 & E3 & E4) H1 H2. set (f := ((t - s_T s) / (s_T e - s_T s))%Q).
  assert (F0 : (0 <= f)%Q) by (apply Qle_shift_div_l; lra). assert (F1 : (f <= 1)%Q) by (apply Qle_shift_div_r; lra).
  split; [reflexivity|]. unfold line. fold f. intros ch [<- | [<- | [<- | []]]]; apply blend_spec; auto.
Qed.

Lemma last_default (l : list stop) d d' : l <> [] -> last l d = last l d'.
Proof. intros HN. induction l as [|a l IH]; [contradiction HN; reflexivity|]. destruct l; [reflexivity|]. apply IH. discriminate. Qed.

Lemma loop_spec t : forall stops first r, stops = first :: r -> (s_T first < t)%Q -> (t < s_T (last stops first))%Q ->
  exists l s e r', stops = l ++ s :: e :: r' /\ (s_T s < t)%Q /\ (t <= s_T e)%Q /\
    interpolate_loop stops t = Some (blendColors (s_color s) (s_color e) ((t - s_T s) / (s_T e - s_T s))).
Proof.
  induction stops as [|s0 stops IH]; intros first r ES HF HL; [discriminate ES|]. injection ES as -> _.
  destruct stops as [|s1 r1]; [exfalso; cbn in HL; lra|]. cbn [interpolate_loop].
  assert (E0 : Qle_bool (s_T first) t = true) by (apply Qle_bool_iff; lra). rewrite E0. cbn [andb].
  destruct (Qle_bool t (s_T s1)) eqn:E1.
  - apply Qle_bool_iff in E1. exists [], first, s1, r1. auto.
  - apply Qle_bool_false in E1. destruct (IH s1 r1 eq_refl E1) as (l & s & e & r' & ES & A).
    { change (last (first :: s1 :: r1) first) with (last (s1 :: r1) first) in HL.
      rewrite (last_default (s1 :: r1) s1 first) by discriminate. exact HL. }
    exists (first :: l), s, e, r'. split; [rewrite ES; reflexivity|exact A].
Qed.

Lemma last_app (l : list stop) d : l <> [] -> exists l', l = l' ++ [last l d].
Proof. intros HN. exists (removelast l). apply app_removelast_last. exact HN. Qed.

Lemma interpolate_spec stops t : stops <> [] -> good_stops stops -> exists c, interpolateColor stops t = Some c /\ gradient_color stops t c.
Proof.
  intros HN HG. unfold interpolateColor. destruct stops as [|first r]; [contradiction HN; reflexivity|].
  destruct (Qle_bool t (s_T first)) eqn:E0.
  { apply Qle_bool_iff in E0. eexists. split; [reflexivity|]. eapply before_first; eauto. }
  apply Qle_bool_false in E0. destruct (Qle_bool (s_T (last (first :: r) first)) t) eqn:E1.
  { apply Qle_bool_iff in E1. eexists. split; [reflexivity|]. destruct (last_app (first :: r) first HN) as [l' EL]. eapply after_last; eauto. }
  apply Qle_bool_false in E1. destruct (loop_spec t _ first r eq_refl E0 E1) as (l & s & e & r' & ES & H1 & H2 & ->).
  eexists. split; [reflexivity|]. eapply in_between; eauto. rewrite ES in HG. apply blend_color; auto; apply HG, in_app_iff; right; cbn; auto.
Qed.

(* each channel is within the range of the stops *)
Lemma rounds_between a b (f : Q) v : (0 <= f)%Q -> (f <= 1)%Q -> rounds_down (inject_Z a + (inject_Z b - inject_Z a) * f) v -> Z.min a b <= v <= Z.max a b.
Proof.
  intros F0 F1 [R1 R2].
  assert (M1 : (inject_Z (Z.min a b) <= inject_Z a)%Q) by (rewrite <- Zle_Qle; lia). assert (M2 : (inject_Z (Z.min a b) <= inject_Z b)%Q) by (rewrite <- Zle_Qle; lia).
  assert (N1 : (inject_Z a <= inject_Z (Z.max a b))%Q) by (rewrite <- Zle_Qle; lia). assert (N2 : (inject_Z b <= inject_Z (Z.max a b))%Q) by (rewrite <- Zle_Qle; lia).
  assert (L : (inject_Z (Z.min a b) < inject_Z v + 1)%Q) by nra. assert (U : (inject_Z v <= inject_Z (Z.max a b))%Q) by nra.
  rewrite <- Zle_Qle in U. change 1%Q with (inject_Z 1) in L. rewrite <- inject_Z_plus, <- Zlt_Qlt in L. lia.
Qed.

Lemma factor_range s e t : (s_T s < t)%Q -> (t <= s_T e)%Q -> (0 <= (t - s_T s) / (s_T e - s_T s))%Q /\ ((t - s_T s) / (s_T e - s_T s) <= 1)%Q.
Proof. intros. split; [apply Qle_shift_div_l; lra|apply Qle_shift_div_r; lra]. Qed.

Lemma gradient_range stops t c ch lo hi : gradient_color stops t c -> In ch color_channels ->
  (forall s, In s stops -> lo <= ch (s_color s) <= hi) -> lo <= ch c <= hi.
Proof.
  intros HC IC HS. destruct HC as [s r -> _ -> | s l -> _ -> | s e l r -> H1 H2 [_ M]].
  - apply HS. left. reflexivity.
  - apply HS, in_app_iff. right. left. reflexivity.
  - destruct (factor_range s e t H1 H2) as [F0 F1]. specialize (M ch IC). apply rounds_between in M; auto.
    pose proof (HS s ltac:(apply in_app_iff; right; left; reflexivity)). pose proof (HS e ltac:(apply in_app_iff; right; right; left; reflexivity)). lia.
Qed.

Lemma gradient_opaque stops t c : opaque_stops stops -> gradient_color stops t c -> opaque c.
Proof.
  intros HO HC. assert (A : c_a c = 255).
  { destruct HC as [s r -> _ -> | s l -> _ -> | s e l r _ _ _ [A _]]; [apply HO; left; reflexivity|apply HO, in_app_iff; right; left; reflexivity|exact A]. }
  assert (B : forall ch, In ch color_channels -> byte (ch c)).
  { intros ch IC. unfold byte. cut (0 <= ch c <= 255); [lia|]. eapply gradient_range; eauto. intros s IS. destruct (HO s IS) as ((G1 & G2 & G3 & G4) & _).
    unfold byte in *. destruct IC as [<- | [<- | [<- | []]]]; lia. }
  split; [|exact A]. split; [|split; [|split]]; [apply B; cbn; auto..|unfold byte; lia].
Qed.

Lemma gradient_contrast stops t c bg : gradient_color stops t c -> stops <> [] -> contrast stops bg -> c <> bg.
Proof.
  intros HC HN (ch & IC & [HS|HS]) ->.
  - cut (ch bg <= ch bg - 1); [lia|]. destruct HC as [s r -> _ -> | s l -> _ -> | s e l r -> H1 H2 [_ M]].
    + pose proof (HS s ltac:(left; reflexivity)). lia.
    + pose proof (HS s ltac:(apply in_app_iff; right; left; reflexivity)). lia.
    + destruct (factor_range s e t H1 H2) as [F0 F1]. specialize (M ch IC). apply rounds_between in M; auto.
      pose proof (HS s ltac:(apply in_app_iff; right; left; reflexivity)). pose proof (HS e ltac:(apply in_app_iff; right; right; left; reflexivity)). lia.
  - cut (ch bg + 1 <= ch bg); [lia|]. destruct HC as [s r -> _ -> | s l -> _ -> | s e l r -> H1 H2 [_ M]].
    + pose proof (HS s ltac:(left; reflexivity)). lia.
    + pose proof (HS s ltac:(apply in_app_iff; right; left; reflexivity)). lia.
    + destruct (factor_range s e t H1 H2) as [F0 F1]. specialize (M ch IC). apply rounds_between in M; auto.
      pose proof (HS s ltac:(apply in_app_iff; right; left; reflexivity)). pose proof (HS e ltac:(apply in_app_iff; right; right; left; reflexivity)). lia.
Qed.

(* ---- position ---- *)
Lemma min_step m p : ((if Qlt_b p m then p else m) == Qmin m p)%Q.
Proof.
  destruct (Qlt_b p m) eqn:E.
  - apply Qlt_b_spec in E. symmetry. apply Q.min_r. lra.
  - assert (N : ~ (p < m)%Q) by (rewrite <- Qlt_b_spec, E; intros F; discriminate F). symmetry. apply Q.min_l. lra.
Qed.
Lemma max_step m p : ((if Qlt_b m p then p else m) == Qmax m p)%Q.
Proof.
  destruct (Qlt_b m p) eqn:E.
  - apply Qlt_b_spec in E. symmetry. apply Q.max_r. lra.
  - assert (N : ~ (m < p)%Q) by (rewrite <- Qlt_b_spec, E; intros F; discriminate F). symmetry. apply Q.max_l. lra.
Qed.

Lemma min_spec dx dy w h : 0 <= w -> 0 <= h -> (minProj dx dy w h == inject_Z w * Qmin dx 0 + inject_Z h * Qmin dy 0)%Q.
Proof.
  intros HW HH. unfold minProj, corners. cbn [map fold_left]. rewrite !min_step. unfold proj.
  assert (W : (0 <= inject_Z w)%Q) by (rewrite <- (Zle_Qle 0); lia). assert (HHQ : (0 <= inject_Z h)%Q) by (rewrite <- (Zle_Qle 0); lia).
  change (inject_Z 0) with 0%Q. set (W' := inject_Z w) in *. set (H' := inject_Z h) in *. clearbody W' H'.
  destruct (Q.min_spec dx 0) as [[D1 ->]|[D1 ->]]; destruct (Q.min_spec dy 0) as [[D2 ->]|[D2 ->]];
   [assert (SX : (W' * dx <= 0)%Q) by nra; assert (SY : (H' * dy <= 0)%Q) by nra|assert (SX : (W' * dx <= 0)%Q) by nra; assert (SY : (0 <= H' * dy)%Q) by nra
  |assert (SX : (0 <= W' * dx)%Q) by nra; assert (SY : (H' * dy <= 0)%Q) by nra|assert (SX : (0 <= W' * dx)%Q) by nra; assert (SY : (0 <= H' * dy)%Q) by nra];
  set (X := (W' * dx)%Q) in *; set (Y := (H' * dy)%Q) in *; clearbody X Y;
  repeat match goal with |- context [Qmin ?a ?b] => lazymatch a with context [Qmin] => fail | _ => destruct (Q.min_spec a b) as [[? ->]|[? ->]] end end; lra.
Qed.
Lemma max_spec dx dy w h : 0 <= w -> 0 <= h -> (maxProj dx dy w h == inject_Z w * Qmax dx 0 + inject_Z h * Qmax dy 0)%Q.
Proof.
  intros HW HH. unfold maxProj, corners. cbn [map fold_left]. rewrite !max_step. unfold proj.
  assert (W : (0 <= inject_Z w)%Q) by (rewrite <- (Zle_Qle 0); lia). assert (HHQ : (0 <= inject_Z h)%Q) by (rewrite <- (Zle_Qle 0); lia).
  change (inject_Z 0) with 0%Q. set (W' := inject_Z w) in *. set (H' := inject_Z h) in *. clearbody W' H'.
  destruct (Q.max_spec dx 0) as [[D1 ->]|[D1 ->]]; destruct (Q.max_spec dy 0) as [[D2 ->]|[D2 ->]];
     [assert (SX : (W' * dx <= 0)%Q) by nra; assert (SY : (H' * dy <= 0)%Q) by nra|assert (SX : (W' * dx <= 0)%Q) by nra; assert (SY : (0 <= H' * dy)%Q) by nra
  |assert (SX : (0 <= W' * dx)%Q) by nra; assert (SY : (H' * dy <= 0)%Q) by nra|assert (SX : (0 <= W' * dx)%Q) by nra; assert (SY : (0 <= H' * dy)%Q) by nra];
  set (X := (W' * dx)%Q) in *; set (Y := (H' * dy)%Q) in *; clearbody X Y;
  repeat match goal with |- context [Qmax ?a ?b] => lazymatch a with context [Qmax] => fail | _ => destruct (Q.max_spec a b) as [[? ->]|[? ->]] end end; lra.
Qed.

Lemma abs_split (q : Q) : (Qabs q == Qmax q 0 - Qmin q 0)%Q.
Proof.
  destruct (Q.min_spec q 0) as [[D1 ->]|[D1 ->]]; destruct (Q.max_spec q 0) as [[D2 ->]|[D2 ->]].
  - rewrite Qabs_neg by lra. lra.
  - rewrite Qabs_neg by lra. lra.
  - rewrite Qabs_pos by lra. lra.
  - rewrite Qabs_pos by lra. lra.
Qed.

Lemma position_along dx dy w h x y : 0 <= w -> 0 <= h -> (position dx dy w h x y == along dx dy w h x y)%Q.
Proof.
  intros HW HH. unfold position, along. rewrite !min_spec, max_spec by assumption. rewrite !abs_split. unfold proj, Qdiv.
  apply Qmult_comp; [ring|]. apply Qinv_comp. ring.
Qed.

Lemma span_pos dx dy w h : 0 < w -> 0 < h -> ~ (dx == 0 /\ dy == 0)%Q -> (0 < inject_Z w * Qabs dx + inject_Z h * Qabs dy)%Q.
Proof.
  intros HW HH ND. assert (W : (0 < inject_Z w)%Q) by (rewrite <- (Zlt_Qlt 0); lia). assert (HQ : (0 < inject_Z h)%Q) by (rewrite <- (Zlt_Qlt 0); lia).
  pose proof (Qabs_nonneg dx). pose proof (Qabs_nonneg dy).
  destruct (Qlt_le_dec 0 (Qabs dx)) as [A|A]; [nra|]. destruct (Qlt_le_dec 0 (Qabs dy)) as [B|B]; [nra|].
  exfalso. apply ND. split.
  - apply (Qabs_case dx (fun q => (q <= 0)%Q -> (dx == 0)%Q)); intros; lra.
  - apply (Qabs_case dy (fun q => (q <= 0)%Q -> (dy == 0)%Q)); intros; lra.
Qed.

Lemma along_range dx dy w h x y : 0 < w -> 0 < h -> ~ (dx == 0 /\ dy == 0)%Q -> 0 <= x <= w -> 0 <= y <= h -> (0 <= along dx dy w h x y)%Q /\ (along dx dy w h x y <= 1)%Q.
Proof.
  intros HW HH ND HX HY. pose proof (span_pos dx dy w h HW HH ND) as SP. unfold along.
  assert (A : forall d u v, 0 <= u <= v -> (0 <= inject_Z u * d - inject_Z v * Qmin d 0)%Q /\ (inject_Z u * d - inject_Z v * Qmin d 0 <= inject_Z v * Qabs d)%Q).
  { intros d u v [U1 U2]. assert (U : (0 <= inject_Z u)%Q) by (rewrite <- (Zle_Qle 0); lia). assert (V : (inject_Z u <= inject_Z v)%Q) by (rewrite <- Zle_Qle; lia).
    destruct (Q.min_spec d 0) as [[D ->]|[D ->]]; [rewrite Qabs_neg by lra|rewrite Qabs_pos by lra]; nra. }
  destruct (A dx x w HX), (A dy y h HY). split; [apply Qle_shift_div_l; lra|apply Qle_shift_div_r; lra].
Qed.

(* ---- the picture with a gradient, and without ---- *)
Lemma iter_fold {S T} dir (m : Matrix) (f : S -> Z -> Z -> Z -> S) (f' : T -> Z -> Z -> Z -> T) (R : S -> T -> Prop) s t :
  R s t -> (forall s t x y v, R s t -> R (f s x y v) (f' t x y v)) -> R (m_iter dir m f s) (m_iter dir m f' t).
Proof.
  intros H0 HR. unfold m_iter. revert s t H0. induction (iter_coords dir (mwidth m) (mheight m)) as [|[x y] l IH]; intros s t H0; [exact H0|].
  cbn [fold_left]. apply IH. auto.
Qed.

Lemma set_gradient_background g o : backgroundColor (set_gradient g o) = (fst (backgroundColor o), set_gradient g (snd (backgroundColor o))).
Proof. unfold backgroundColor. cbn [o_bgTransparent set_gradient]. destruct (o_bgTransparent o); reflexivity. Qed.
Lemma set_gradient_translate g o v : translateToRGBA (set_gradient g o) v = (fst (translateToRGBA o v), set_gradient g (snd (translateToRGBA o v))).
Proof. unfold translateToRGBA. cbn [o_bgTransparent set_gradient]. destruct (qrbool v); [reflexivity|]. destruct (o_bgTransparent o); reflexivity. Qed.

Lemma set_gradient_plan scale m g o :
  draw_plan scale m (set_gradient g o) =
  match draw_plan scale m o with
  | Some p => Some (mkPlan (p_w p) (p_h p) (p_bg p) (p_logo p) (p_calls p) (set_gradient g (p_options p)))
  | None => None
  end.
Proof.
  unfold draw_plan. change (o_borders (set_gradient g o)) with (o_borders o). change (qrBlockWidth (set_gradient g o)) with (qrBlockWidth o).
  rewrite set_gradient_background. destruct (o_borders o) as [[[top right_] bottom] left_]. destruct (backgroundColor o) as [bg o1]. cbn [fst snd].
  change (o_halftone (set_gradient g o1)) with (o_halftone o1). change (o_safeZone (set_gradient g o1)) with (o_safeZone o1).
  assert (EL : forall w h, logo_info (set_gradient g o1) w h = logo_info o1 w h) by (intros; reflexivity). rewrite EL.
  destruct (logo_info o1 _ _) as [[lv lw] lh].
  match goal with |- match ?b with _ => _ end = _ => destruct b as [t|] end; [|reflexivity].
  match goal with |- context [m_iter IterDirection_ROW m ?f ([], o1)] =>
    pose proof (iter_fold IterDirection_ROW m f f (fun a b => fst b = fst a /\ snd b = set_gradient g (snd a)) ([], o1) ([], set_gradient g o1)) as R end.
  match type of R with _ -> _ -> ?C => assert (R' : C) end.
  - apply R; [auto|]. clear. intros [c1 u1] [c2 u2] x y v [A B]. cbn [fst snd] in A, B. subst c2 u2. unfold draw_module.
    destruct (_ && _); [auto|]. rewrite set_gradient_translate. destruct (translateToRGBA u1 v) as [col u2]. cbn [fst snd]. auto.
  - clear R. destruct (m_iter _ _ _ ([], o1)) as [calls o2]. destruct (m_iter _ _ _ ([], set_gradient g o1)) as [calls' o2']. cbn [fst snd] in R'.
    destruct R' as [-> ->]. reflexivity.
Qed.

Lemma draw_gradient others scale m o g : o_gradient o = Some g -> o_logo o = None ->
  draw others scale m o = match draw others scale m (set_gradient None o) with
                          | Some (w, h, cv, o') => Some (w, h, apply_gradient cv (o_qrColor o) g, set_gradient (Some g) o')
                          | None => None
                          end.
Proof.
  intros EG EL. unfold draw, draw_with. change (getShape (set_gradient None o)) with (getShape o). rewrite set_gradient_plan.
  assert (K : draw_plan scale m o = match draw_plan scale m o with Some p => Some (mkPlan (p_w p) (p_h p) (p_bg p) (p_logo p) (p_calls p) (set_gradient (Some g) (p_options p))) | None => None end).
  { rewrite <- set_gradient_plan. f_equal. rewrite <- EG. destruct o; reflexivity. }
  assert (P : forall p, draw_plan scale m o = Some p -> o_gradient (p_options p) = Some g /\ o_qrColor (p_options p) = o_qrColor o /\ p_logo p = None).
  { intros p EP. rewrite EP in K. injection K as K. split; [rewrite K; reflexivity|].
    unfold draw_plan in EP. destruct (o_borders o) as [[[top right_] bottom] left_]. destruct (backgroundColor o) as [bg o1] eqn:EB.
    assert (S1 : o_qrColor o1 = o_qrColor o /\ o_logo o1 = None). { unfold backgroundColor in EB. injection EB as _ <-. destruct (o_bgTransparent o); auto. }
    destruct (logo_info o1 _ _) as [[lv lw] lh]. match type of EP with match ?b with _ => _ end = _ => destruct b as [t|] end; [|discriminate EP].
    match type of EP with context [m_iter IterDirection_ROW m ?f ([], o1)] =>
      pose proof (iter_fold IterDirection_ROW m f (fun (u : unit) _ _ _ => u) (fun a _ => o_qrColor (snd a) = o_qrColor o /\ o_logo (snd a) = None) ([], o1) tt) as R end.
    match type of R with _ -> _ -> ?C => assert (R' : C) end.
    - apply R; [exact S1|]. clear. intros [c1 u1] u x y v [A B]. unfold draw_module. cbn [snd] in *. destruct (_ && _); [auto|].
      destruct (translateToRGBA u1 v) as [col u2] eqn:ET. cbn [snd].
      unfold translateToRGBA in ET. destruct (qrbool v); injection ET as _ <-; [auto|]. destruct (o_bgTransparent u1); auto.
    - clear R. destruct (m_iter _ _ _ ([], o1)) as [calls o2]. cbn [snd] in R'. destruct R' as [R1 R2]. rewrite R2 in EP. injection EP as <-. auto. }
  destruct (draw_plan scale m o) as [p|] eqn:EP; [|reflexivity]. destruct (P p eq_refl) as (P1 & P2 & P3). cbn [p_w p_h p_bg p_logo p_calls p_options].
  rewrite P1, P2, P3. injection K as K. assert (KO : p_options p = set_gradient (Some g) (set_gradient None (p_options p))) by (transitivity (set_gradient (Some g) (p_options p)); [rewrite K at 1|]; reflexivity).
  rewrite KO at 1. reflexivity.
Qed.

Lemma clamp_opaque c : opaque c -> clamp c = c.
Proof. intros ((R & G & B & A) & E). unfold clamp, byte in *. rewrite E, !Z.min_l by lia. destruct c. cbn in *. subst. reflexivity. Qed.
Lemma clamp_clear c : good c -> c_a c = 0 -> clamp c = mkRGBA 0 0 0 0.
Proof. intros (R & G & B & A) E. unfold clamp, byte in *. rewrite E, !Z.min_r by lia. reflexivity. Qed.

Lemma rgba_eqb_iff c d : rgba_eqb c d = true <-> c = d.
Proof.
  unfold rgba_eqb. rewrite !andb_true_iff, !Z.eqb_eq. split; [|intros ->; auto]. destruct c, d. cbn. intros [[[-> ->] ->] ->]. reflexivity.
Qed.

(* one pixel *)
Lemma gradient_pixel cv fg g px py : good (cv px py) ->
  (cv px py = fg -> opaque (g px py) -> apply_gradient cv fg g px py = g px py) /\
  (cv px py <> fg -> c_a (cv px py) = 255 \/ c_a (cv px py) = 0 -> apply_gradient cv fg g px py = cv px py).
Proof.
  intros HG. unfold apply_gradient, over_image. split.
  - intros E OP. rewrite (proj2 (rgba_eqb_iff _ _) E). rewrite clamp_opaque by exact OP. destruct OP. apply over_opaque; auto.
  - intros NE HA. assert (EB : rgba_eqb (cv px py) fg = false) by (apply not_true_iff_false; rewrite rgba_eqb_iff; exact NE). rewrite EB.
    destruct HA as [HA|HA]; [rewrite clamp_opaque by (split; auto); apply over_opaque; auto|]. rewrite clamp_clear by auto. apply over_clear. exact HG.
Qed.

Lemma gradient_color_comp stops t t' c : (t == t')%Q -> gradient_color stops t c -> gradient_color stops t' c.
Proof.
  intros ET [s r H1 H2 H3 | s l H1 H2 H3 | s e l r H1 H2 H3 [H4 H5]].
  - eapply before_first; eauto. rewrite <- ET. exact H2.
  - eapply after_last; eauto. rewrite <- ET. exact H2.
  - eapply in_between; eauto; [rewrite <- ET; exact H2|rewrite <- ET; exact H3|]. split; [exact H4|]. intros ch IC. destruct (H5 ch IC) as [R1 R2].
    unfold rounds_down, line in *. rewrite <- ET. auto.
Qed.

Lemma gradient_at_spec stops dx dy w h x y : stops <> [] -> good_stops stops -> 0 <= w -> 0 <= h ->
  gradient_color stops (along dx dy w h x y) (gradient_at stops dx dy w h x y).
Proof.
  intros HN HG HW HH. unfold gradient_at. destruct (interpolate_spec stops (position dx dy w h x y) HN HG) as (c & -> & HC).
  eapply gradient_color_comp; [|exact HC]. apply position_along; assumption.
Qed.

Lemma gradient_samples others scale n m o d stops dx dy : square n m -> proper_shape (chosen_shape others o) (qrBlockWidth o) d -> 0 <= d < qrBlockWidth o ->
  o_halftone o = None -> o_gradient o = Some (gradient_at stops dx dy (img_w o n) (img_h o n)) -> stops <> [] -> opaque_stops stops ->
  painter_colors o -> (o_bgTransparent o = false -> o_bgColor o <> o_qrColor o) -> proper_logo o -> (forall i, o_logo o = Some i -> i_x0 i = 0 /\ i_y0 i = 0) ->
  exists cv o', draw others scale m o = Some (Z.abs (img_w o n), Z.abs (img_h o n), cv, o') /\
    forall px py, 0 <= px < img_w o n -> 0 <= py < img_h o n ->
    (forall i, o_logo o = Some i -> logo_fits o (img_w o n) (img_h o n) i -> ~ in_logo (img_w o n) (img_h o n) i px py) ->
    (forall x y, 0 <= x < n -> 0 <= y < n -> px = sample_x o d x -> py = sample_y o d y ->
       (module_at (m_bitmap m) x y = true -> ~ in_safe_zone o (img_w o n) (img_h o n) x y -> gradient_color stops (along dx dy (img_w o n) (img_h o n) px py) (cv px py)) /\
       (module_at (m_bitmap m) x y = false \/ in_safe_zone o (img_w o n) (img_h o n) x y -> is_light o (cv px py))) /\
    (~ in_symbol o n px py -> is_light o (cv px py)).
Proof.
  intros HS PS HD EH EG NE OS HC DIFF HP H0.
  destruct (draw_shape_spec others scale n m o HS) as (t & o' & E & ST & _). rewrite E, EG. cbv zeta. eexists. exists o'. split; [reflexivity|].
  intros px py Hx Hy HL. rewrite logo_out by assumption. fold (shape_base others scale n t m o).
  destruct (shape_base_samples others scale n t m o d HS PS HD EH HC HP px py Hx Hy) as [P1 P2]. set (cv := shape_base others scale n t m o) in *.
  set (g := gradient_at stops dx dy (img_w o n) (img_h o n)).
  assert (GG : good_stops stops) by (intros s IS; apply OS; exact IS). pose proof HC as (HF & HG & HB). pose proof (good_border o HG) as GB.
  assert (GC : gradient_color stops (along dx dy (img_w o n) (img_h o n) px py) (g px py)) by (apply gradient_at_spec; auto; lia).
  assert (LIGHT : cv px py = border_color o -> is_light o (apply_gradient cv (o_qrColor o) g px py)).
  { intros EV. destruct (gradient_pixel cv (o_qrColor o) g px py) as [_ K]; [rewrite EV; exact GB|]. rewrite K.
    - rewrite EV. apply border_light.
    - rewrite EV. unfold border_color. destruct (o_bgTransparent o) eqn:ET; [|apply DIFF; reflexivity]. intros F. destruct HF as [_ HF]. rewrite <- F in HF. discriminate HF.
    - rewrite EV. unfold border_color. destruct (o_bgTransparent o) eqn:ET; [right; reflexivity|left; apply HB; reflexivity]. }
  split; [|intros HN; apply LIGHT, P2, HN]. intros x y Rx Ry EX EY. destruct (P1 x y Rx Ry EX EY) as [Q1 Q2]. split; [|intros F; apply LIGHT, Q2, F].
  intros M1 M2. destruct (gradient_pixel cv (o_qrColor o) g px py) as [K _]; [rewrite (Q1 M1 M2); apply HF|]. rewrite K; auto. eapply gradient_opaque; eauto.
Qed.

(* ---- sorted stops ---- *)
Fixpoint insert_stop (s : stop) (l : list stop) : list stop :=
  match l with a :: r => if Qle_bool (s_T s) (s_T a) then s :: a :: r else a :: insert_stop s r | [] => [s] end.
Lemma insert_perm s l : Permutation (s :: l) (insert_stop s l).
Proof. induction l as [|a l IH]; cbn [insert_stop]; [reflexivity|]. destruct (Qle_bool _ _); [reflexivity|]. rewrite perm_swap. constructor. exact IH. Qed.
Lemma insert_sorted s l : sorted_T l -> sorted_T (insert_stop s l).
Proof.
  induction l as [|a l IH]; intros HS; [exact I|]. cbn [insert_stop]. destruct (Qle_bool (s_T s) (s_T a)) eqn:E.
  - apply Qle_bool_iff in E. split; assumption.
  - apply Qle_bool_false in E. destruct l as [|b l]; [split; [lra|exact I]|]. destruct HS as [H1 H2]. specialize (IH H2). cbn [insert_stop] in *.
    destruct (Qle_bool (s_T s) (s_T b)); split; auto; lra.
Qed.
Lemma sort_exists l : exists l', Permutation l l' /\ sorted_T l'.
Proof.
  induction l as [|a l (l' & P & S)]; [exists []; split; [constructor|exact I]|]. exists (insert_stop a l'). split; [|apply insert_sorted, S].
  rewrite P. apply insert_perm.
Qed.

Lemma sorted_tail a l : sorted_T (a :: l) -> sorted_T l.
Proof. destruct l; [intros _; exact I|intros [_ A]; exact A]. Qed.
Lemma sorted_head a l s : sorted_T (a :: l) -> In s l -> (s_T a <= s_T s)%Q.
Proof.
  revert a. induction l as [|b l IH]; intros a HS HI; [contradiction HI|]. destruct HS as [H1 H2]. destruct HI as [->|HI]; [exact H1|].
  specialize (IH b H2 HI). lra.
Qed.
Lemma sorted_app l1 s l2 e l3 : sorted_T (l1 ++ s :: l2 ++ e :: l3) -> (s_T s <= s_T e)%Q.
Proof.
  induction l1 as [|a l1 IH]; cbn [app]; intros HS; [|apply IH; eapply sorted_tail; exact HS]. eapply sorted_head; [exact HS|]. apply in_app_iff. right. left. reflexivity.
Qed.

Lemma pair_half l l' k s e r s' e' r' (t : Q) stops : strictly_sorted stops -> stops = l ++ s :: e :: r -> l = l' ++ k -> s' :: e' :: r' = k ++ s :: e :: r ->
  (s_T s < t)%Q -> (t <= s_T e')%Q -> s = s' /\ e = e'.
Proof.
  intros HS ES -> EK T1 T4. destruct k as [|a [|b k]]; cbn [app] in EK.
  - injection EK as -> -> _. auto.
  - injection EK as _ -> _. exfalso. lra.
  - injection EK as _ -> _. exfalso. rewrite <- app_assoc in ES. cbn [app] in ES.
    pose proof (HS (l' ++ [a]) b k s (e :: r)) as L. rewrite <- app_assoc in L. specialize (L ES). lra.
Qed.
Lemma pair_unique l s e r l' s' e' r' (t : Q) stops : strictly_sorted stops -> stops = l ++ s :: e :: r -> stops = l' ++ s' :: e' :: r' ->
  (s_T s < t)%Q -> (t <= s_T e)%Q -> (s_T s' < t)%Q -> (t <= s_T e')%Q -> s = s' /\ e = e'.
Proof.
  intros HS E1 E2 T1 T2 T3 T4. pose proof E1 as E3. rewrite E2 in E3. destruct (app_eq_app _ _ _ _ E3) as (k & [[A B]|[A B]]).
  - destruct (pair_half l' l k s' e' r' s e r t stops HS E2 A B T3 T2) as [-> ->]. auto.
  - apply (pair_half l l' k s e r s' e' r' t stops HS E1 A B T1 T4).
Qed.

Lemma rounds_unique q v v' : rounds_down q v -> rounds_down q v' -> v = v'.
Proof.
  intros [A1 A2] [B1 B2]. assert (L1 : (inject_Z v < inject_Z v' + 1)%Q) by lra. assert (L2 : (inject_Z v' < inject_Z v + 1)%Q) by lra.
  change 1%Q with (inject_Z 1) in L1, L2. rewrite <- inject_Z_plus, <- Zlt_Qlt in L1, L2. lia.
Qed.
Lemma rounds_exact v : rounds_down (inject_Z v) v.
Proof. split; lra. Qed.
Lemma color_ext c c' : c_a c = c_a c' -> (forall ch, In ch color_channels -> ch c = ch c') -> c = c'.
Proof.
  intros A B. pose proof (B c_r ltac:(cbn; auto)). pose proof (B c_g ltac:(cbn; auto)). pose proof (B c_b ltac:(cbn; auto)). destruct c, c'. cbn in *. congruence.
Qed.

Lemma after_between stops t c c' s l s' e' l' r' : strictly_sorted stops -> opaque_stops stops -> stops = l ++ [s] -> (s_T s <= t)%Q -> c = s_color s ->
  stops = l' ++ s' :: e' :: r' -> (s_T s' < t)%Q -> (t <= s_T e')%Q -> mixed s' e' t c' -> c = c'.
Proof.
  intros HS HO E1 T1 -> E2 T2 T3 [MA MB].
  assert (EE : e' = s /\ r' = []).
  { destruct r' as [|b r'] using rev_ind.
    - rewrite E2 in E1. change (l' ++ [s'; e']) with (l' ++ [s'] ++ [e']) in E1. rewrite app_assoc in E1. apply app_inj_tail in E1 as [_ E1]. auto.
    - exfalso. assert (K : b = s). { rewrite E2 in E1. change (l' ++ s' :: e' :: r' ++ [b]) with (l' ++ (s' :: e' :: r') ++ [b]) in E1. rewrite app_assoc in E1. apply app_inj_tail in E1 as [_ E1]. exact E1. }
      subst b. pose proof (HS (l' ++ [s']) e' r' s []) as L. rewrite <- app_assoc in L. specialize (L E2). lra. }
  destruct EE as [-> ->]. apply color_ext.
  - rewrite MA. apply HO. rewrite E1. apply in_app_iff. right. left. reflexivity.
  - intros ch IC. eapply rounds_unique; [|apply (MB ch IC)]. unfold line.
    assert (F : ((t - s_T s') / (s_T s - s_T s') == 1)%Q) by (field_simplify_eq; lra). 
    destruct (rounds_exact (ch (s_color s))) as [R1 R2]. unfold rounds_down. rewrite F. split; lra.
Qed.

Lemma color_unique stops t c c' : strictly_sorted stops -> opaque_stops stops -> gradient_color stops t c -> gradient_color stops t c' -> c = c'.
Proof.
  intros HS HO.
  assert (BA : forall s r s' l, stops = s :: r -> stops = l ++ [s'] -> (t <= s_T s)%Q -> (s_T s' <= t)%Q -> s = s').
  { intros s r s' l E1 E2 T1 T2. destruct l as [|a l]; rewrite E1 in E2; cbn [app] in E2; [injection E2 as -> _; reflexivity|]. injection E2 as -> ->. exfalso.
    pose proof (HS [] a l s' [] E1). lra. }
  assert (BB : forall s r s' e' l' r', stops = s :: r -> stops = l' ++ s' :: e' :: r' -> (t <= s_T s)%Q -> (s_T s' < t)%Q -> False).
  { intros s r s' e' l' r' E1 E2 T1 T2. destruct l' as [|a l']; rewrite E1 in E2; cbn [app] in E2; [injection E2 as -> _; lra|]. injection E2 as -> ->.
    pose proof (HS [] a l' s' (e' :: r') E1). lra. }
  intros [s r H1 H2 H3 | s l H1 H2 H3 | s e l r H1 H2 H3 H4] [s' r' K1 K2 K3 | s' l' K1 K2 K3 | s' e' l' r' K1 K2 K3 K4].
  - rewrite H1 in K1. injection K1 as -> _. congruence.
  - rewrite H3, K3, (BA _ _ _ _ H1 K1 H2 K2). reflexivity.
  - exfalso. eapply BB; eauto.
  - rewrite H3, K3, (BA _ _ _ _ K1 H1 K2 H2). reflexivity.
  - rewrite H1 in K1. apply app_inj_tail in K1 as [_ ->]. congruence.
  - eapply after_between; eauto.
  - exfalso. eapply BB; eauto.
  - symmetry. eapply after_between; eauto.
  - destruct (pair_unique _ _ _ _ _ _ _ _ t stops HS H1 K1 H2 H3 K2 K3) as [-> ->]. destruct H4 as [A1 A2], K4 as [B1 B2]. apply color_ext; [congruence|].
    intros ch IC. eapply rounds_unique; [apply A2|apply B2]; exact IC.
Qed.
