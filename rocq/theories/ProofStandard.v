(* The standard writer. *)
From Coq Require Import Lia.
From Verif Require Import ModelBase ModelMatrix ModelStandard.
From Verif Require Import SpecReader SpecMatrix SpecStandard ProofBase ProofMatrix ProofEval ProofViews.

(* ---- colours ---- *)
Lemma over_channel_opaque d s : byte d -> byte s -> over_channel d s 255 = s.
Proof.
  intros HD HS. unfold over_channel, byte in *. change (2 ^ 32) with 4294967296. replace (65535 - 255 * 257) with 0 by lia. rewrite Z.mul_0_l, Z.mul_0_r, Z.add_0_l.
  rewrite (Z.mod_small _ 4294967296) by lia. rewrite Z.div_mul by lia.
  replace (s * 257) with (s * 256 + s) by lia. rewrite Z.div_add_l, Z.div_small, Z.add_0_r by lia. apply Z.mod_small. lia.
Qed.

Lemma over_channel_clear d : byte d -> over_channel d 0 0 = d.
Proof.
  intros HD. unfold over_channel, byte in *. change (2 ^ 32) with 4294967296. replace (65535 - 0 * 257) with 65535 by lia. replace (0 * 257 * 65535) with 0 by lia.
  rewrite Z.add_0_r. replace (d * (65535 * 257)) with (d * 257 * 65535) by lia.
  rewrite (Z.mod_small _ 4294967296) by lia. rewrite Z.div_mul by lia.
  replace (d * 257) with (d * 256 + d) by lia. rewrite Z.div_add_l, Z.div_small, Z.add_0_r by lia. apply Z.mod_small. lia.
Qed.

Lemma over_channel_blank s a : byte s -> byte a -> over_channel 0 s a = s.
Proof.
  intros HS HA. unfold over_channel, byte in *. change (2 ^ 32) with 4294967296. rewrite Z.mul_0_l, Z.add_0_l.
  rewrite (Z.mod_small _ 4294967296) by lia. rewrite Z.div_mul by lia.
  replace (s * 257) with (s * 256 + s) by lia. rewrite Z.div_add_l, Z.div_small, Z.add_0_r by lia. apply Z.mod_small. lia.
Qed.

Lemma over_opaque d s : good d -> good s -> c_a s = 255 -> over d s = s.
Proof.
  intros (D1 & D2 & D3 & D4) (S1 & S2 & S3 & S4) HA. unfold over. rewrite HA.
  rewrite !over_channel_opaque by (auto; unfold byte; lia). destruct s as [r g b a]. cbn in HA. subst a. reflexivity.
Qed.

Lemma over_clear d : good d -> over d (mkRGBA 0 0 0 0) = d.
Proof. intros (D1 & D2 & D3 & D4). unfold over. cbn [c_r c_g c_b c_a]. rewrite !over_channel_clear by auto. destruct d; reflexivity. Qed.

Lemma over_blank s : good s -> over (mkRGBA 0 0 0 0) s = s.
Proof. intros (D1 & D2 & D3 & D4). unfold over. cbn [c_r c_g c_b c_a]. rewrite !over_channel_blank by auto. destruct s; reflexivity. Qed.

Lemma good_over d s : good (over d s).
Proof. unfold over, good, byte, over_channel. cbn [c_r c_g c_b c_a]. repeat split; try (apply Z.mod_pos_bound; lia). Qed.

Lemma good_zero : good (mkRGBA 0 0 0 0). Proof. repeat split; cbn; lia. Qed.

(* ---- options ---- *)
Definition same_but_bg (o o' : options) : Prop := exists c, o' = set_bgColor c o.

Lemma same_refl o : same_but_bg o o. Proof. exists (o_bgColor o). destruct o; reflexivity. Qed.
Lemma same_trans o1 o2 o3 : same_but_bg o1 o2 -> same_but_bg o2 o3 -> same_but_bg o1 o3.
Proof. intros [c ->] [d ->]. exists d. reflexivity. Qed.
Lemma same_fields o o' : same_but_bg o o' ->
  o_bgTransparent o' = o_bgTransparent o /\ o_qrColor o' = o_qrColor o /\ o_gradient o' = o_gradient o /\ o_logo o' = o_logo o /\
  o_multiplier o' = o_multiplier o /\ o_safeZone o' = o_safeZone o /\ o_qrWidth o' = o_qrWidth o /\ o_shape o' = o_shape o /\
  o_borders o' = o_borders o /\ o_halftone o' = o_halftone o.
Proof. intros [c ->]. repeat split. Qed.

(* the colour of light modules *)
Definition light (o : options) : rgba := if o_bgTransparent o then mkRGBA 0 0 0 0 else o_bgColor o.

(* what one draw does to the options: nothing, unless the background is transparent *)
Definition stable (o o' : options) : Prop :=
  (same_but_bg o o' /\ (good (o_bgColor o) -> good (o_bgColor o'))) /\ (o_bgTransparent o = false -> o' = o).

Lemma stable_refl o : stable o o. Proof. split; [split; [apply same_refl|auto]|auto]. Qed.
Lemma stable_trans o1 o2 o3 : stable o1 o2 -> stable o2 o3 -> stable o1 o3.
Proof.
  intros [[A A'] B] [[C C'] D]. split; [split; [eapply same_trans; eauto|auto]|]. intros HT. rewrite D; auto. destruct (same_fields _ _ A) as [-> _]. auto.
Qed.
Lemma stable_light o o' : stable o o' -> light o' = light o.
Proof.
  intros [[A _] B]. unfold light. destruct (same_fields _ _ A) as [-> _]. destruct (o_bgTransparent o) eqn:E; [reflexivity|]. rewrite B; auto.
Qed.

Lemma background_spec o : exists o', backgroundColor o = (o_bgColor o', o') /\ stable o o' /\
  (o_bgTransparent o = true -> o_bgColor o' = mkRGBA (c_r (o_bgColor o)) (c_g (o_bgColor o)) (c_b (o_bgColor o)) 0).
Proof.
  unfold backgroundColor. destruct (o_bgTransparent o) eqn:E.
  - eexists. split; [reflexivity|]. split; [|reflexivity]. split; [split; [eexists; reflexivity|]|congruence].
    intros (X & Y & Z0 & _). repeat split; cbn; try apply X; try apply Y; try apply Z0; lia.
  - exists o. split; [reflexivity|]. split; [apply stable_refl|]. intros F. discriminate F.
Qed.

Lemma translate_spec o v : exists o', translateToRGBA o v = (if qrbool v then o_qrColor o else light o, o') /\ stable o o'.
Proof.
  unfold translateToRGBA, light. destruct (qrbool v).
  - exists o. split; [reflexivity|apply stable_refl].
  - destruct (o_bgTransparent o) eqn:E; [|exists o; split; [reflexivity|apply stable_refl]].
    eexists. split; [reflexivity|]. split; [split; [eexists; reflexivity|intros _; apply good_zero]|congruence].
Qed.

(* ---- the plan ---- *)
Definition module_calls (halftone : option (Z -> Z -> Z)) (bitMap : list (list bool)) (transparent : bool) (fg bg : rgba)
  (safe : Z -> Z -> bool) (bw lf tp : Z) (x y v : Z) : list call :=
  if safe x y && qrbool v then []
  else
    let cx := x * bw + lf in
    let cy := y * bw + tp in
    let color := if qrbool v then fg else bg in
    let nb := getNeighbours bitMap x y in
    if qrtype v =? QRType_FINDER then [mkCall true cx 0 cy 0 bw bw color nb]
    else if qrtype v =? QRType_DATA then
      match halftone with
      | None => [mkCall false cx 0 cy 0 bw bw color nb]
      | Some grey => halftone_calls grey transparent bw x y cx cy color
      end
    else [mkCall false cx 0 cy 0 bw bw color nb].

Lemma draw_module_step halftone bitMap safe bw lf tp calls o x y v :
  exists o', stable o o' /\ draw_module halftone bitMap safe bw lf tp (calls, o) x y v
    = (calls ++ module_calls halftone bitMap (o_bgTransparent o) (o_qrColor o) (light o) safe bw lf tp x y v, o').
Proof.
  unfold draw_module, module_calls. destruct (safe x y && qrbool v).
  - exists o. split; [apply stable_refl|]. rewrite app_nil_r. reflexivity.
  - destruct (translate_spec o v) as (o1 & -> & S1). exists o1. split; auto. cbv zeta.
    pose proof S1 as [[A _] _]. destruct (same_fields _ _ A) as (E1 & _). rewrite E1. reflexivity.
Qed.

Lemma calls_fold m (bw lf tp : Z) halftone bitMap safe : forall coords calls o,
  exists o', stable o o' /\
    fold_left (fun s '(x, y) => draw_module halftone bitMap safe bw lf tp s x y (rawget m x y)) coords (calls, o)
    = (calls ++ flat_map (fun '(x, y) => module_calls halftone bitMap (o_bgTransparent o) (o_qrColor o) (light o) safe bw lf tp x y (rawget m x y)) coords, o').
Proof.
  induction coords as [|[x y] coords IH]; intros calls o.
  - exists o. split; [apply stable_refl|]. cbn [fold_left flat_map]. rewrite app_nil_r. reflexivity.
  - cbn [fold_left flat_map]. destruct (draw_module_step halftone bitMap safe bw lf tp calls o x y (rawget m x y)) as (o1 & S1 & ->).
    destruct (IH (calls ++ module_calls halftone bitMap (o_bgTransparent o) (o_qrColor o) (light o) safe bw lf tp x y (rawget m x y)) o1) as (o' & S2 & E).
    exists o'. split; [eapply stable_trans; eauto|]. rewrite E. rewrite <- app_assoc. f_equal. f_equal.
    pose proof S1 as [[A _] _]. destruct (same_fields _ _ A) as (E1 & E2 & _). rewrite E1, E2, (stable_light _ _ S1). reflexivity.
Qed.

(* ---- the safe zone in the bitmap ---- *)
Lemma clear_fold n safe : forall coords t, (forall x y, In (x, y) coords -> 0 <= x < n /\ 0 <= y < n) -> twf t n n ->
  exists t', fold_left (fun s '(x, y) => clear_cell safe s x y 0) coords (Some t) = Some t' /\ twf t' n n /\
    forall x y, tget t' x y = if existsb (eq_pos (y, x)) coords && safe y x && (match tget t x y with Some _ => true | None => false end) then Some false else tget t x y.
Proof.
  induction coords as [|[x0 y0] coords IH]; intros t HR HT.
  - exists t. split; [reflexivity|]. split; auto.
  - destruct (HR x0 y0 (or_introl eq_refl)) as [Hx Hy].
    assert (HR' : forall x y, In (x, y) coords -> 0 <= x < n /\ 0 <= y < n) by (intros x y HI; apply HR; right; auto).
    cbn [fold_left]. unfold clear_cell at 2. destruct (safe x0 y0) eqn:ES.
    + destruct (twf_row t n n x0 HT Hx) as (row & ER & LR). rewrite ER, LR.
      destruct (Z.leb_spec 0 y0); [|lia]. destruct (Z.ltb_spec y0 n); [|lia]. cbn [andb].
      destruct (tset_spec t n n y0 x0 false HT Hy Hx) as [T1 G1]. unfold tset in T1, G1. rewrite ER in T1, G1.
      destruct (IH _ HR' T1) as (t' & E & T' & G). exists t'. split; auto. split; auto.
      intros x y. rewrite G, G1. cbn [existsb].
      destruct (eq_pos (y0, x0) (x, y)) eqn:EP.
      * apply eq_pos_spec in EP. injection EP as <- <-. rewrite eq_pos_refl, ES. cbn [orb].
        destruct (zget_in_range row y0 ltac:(lia)) as [b EB]. unfold tget. rewrite ER, EB.
        destruct (existsb _ _); reflexivity.
      * assert (EQ : eq_pos (y, x) (x0, y0) = false).
        { destruct (eq_pos (y, x) (x0, y0)) eqn:F; auto. apply eq_pos_spec in F. injection F as -> ->. rewrite eq_pos_refl in EP. discriminate EP. }
        rewrite EQ. reflexivity.
    + destruct (IH t HR' HT) as (t' & E & T' & G). exists t'. split; auto. split; auto.
      intros x y. rewrite G. cbn [existsb]. destruct (eq_pos (y, x) (x0, y0)) eqn:EQ; [|reflexivity].
      apply eq_pos_spec in EQ. injection EQ as -> ->. rewrite ES, !andb_false_r. reflexivity.
Qed.

Lemma twf_bitmap n m : square n m -> twf (m_bitmap m) n n.
Proof. intros HS. exact (bitmap_shape n m HS). Qed.

Lemma bget_tget t x y : bget t y x = match tget t x y with Some b => b | None => false end.
Proof. unfold bget, tget. destruct (zget t y); reflexivity. Qed.

Lemma tget_range t n x y : twf t n n -> 0 <= x < n -> 0 <= y < n -> exists b, tget t x y = Some b.
Proof. intros HT Hx Hy. destruct (twf_row t n n y HT Hy) as (r & E & L). unfold tget. rewrite E. apply zget_in_range. lia. Qed.

Lemma zget_outside {A} (l : list A) i : ~ (0 <= i < zlen l) -> zget l i = None.
Proof. intros HN. unfold zget. destruct (Z.ltb_spec i 0); [reflexivity|]. apply nth_error_None. unfold zlen in HN. lia. Qed.

Lemma tget_outside t n x y : twf t n n -> ~ (0 <= x < n /\ 0 <= y < n) -> tget t x y = None.
Proof.
  intros HT HN. unfold tget. destruct (zget t y) as [r|] eqn:E; [|reflexivity].
  destruct HT as [L F]. assert (0 <= y < n).
  { destruct (Z.ltb_spec y 0); [rewrite zget_outside in E by lia; discriminate E|]. destruct (Z.ltb_spec y n); [lia|]. rewrite zget_outside in E by lia. discriminate E. }
  rewrite Forall_forall in F. apply zget_In in E. pose proof (F r E) as LR. apply zget_outside. rewrite LR. lia.
Qed.

Lemma bget_bitmap n m x y : square n m -> bget (m_bitmap m) y x = dark m x y.
Proof.
  intros HS. pose proof HS as (HW & EW & EH). unfold dark. rewrite EW, EH, bget_tget.
  destruct (Z.leb_spec 0 x), (Z.ltb_spec x n), (Z.leb_spec 0 y), (Z.ltb_spec y n); cbn [andb];
    try (rewrite (tget_outside _ n) by (try apply twf_bitmap; auto; lia); reflexivity).
  rewrite module_at_bitmap by (auto; split; lia).
  rewrite bitmap_rows by auto. unfold tget, rows_of. rewrite EW, EH, zget_map, zget_upto by lia. cbn. rewrite zget_map, zget_upto by lia. reflexivity.
Qed.

Lemma cleared n m (active : bool) safe : square n m -> (active = false -> forall x y, safe x y = false) ->
  exists t, (if active then m_iter IterDirection_ROW m (clear_cell safe) (Some (m_bitmap m)) else Some (m_bitmap m)) = Some t /\ twf t n n /\
    forall x y, bget t y x = dark m x y && negb (safe y x).
Proof.
  intros HS HA. pose proof (twf_bitmap n m HS) as TB. pose proof HS as (HW & EW & EH). destruct active.
  - unfold m_iter. rewrite EW, EH.
    assert (EF : forall s x y v, clear_cell safe s x y v = clear_cell safe s x y 0) by reflexivity.
    destruct (clear_fold n safe (iter_coords IterDirection_ROW n n) (m_bitmap m)) as (t & E & T & G); auto.
    { intros x y HI. apply in_iter_coords in HI. auto. }
    exists t. split; [exact E|]. split; auto. intros x y. rewrite bget_tget, G, <- (bget_bitmap n) by auto. rewrite bget_tget.
    destruct (tget (m_bitmap m) x y) as [b|] eqn:EB; [|rewrite andb_false_r; reflexivity]. rewrite andb_true_r.
    assert (EX : existsb (eq_pos (y, x)) (iter_coords IterDirection_ROW n n) = true).
    { apply existsb_exists. exists (y, x). split; [|apply eq_pos_refl]. apply in_iter_coords.
      destruct (Z.leb_spec 0 x), (Z.ltb_spec x n), (Z.leb_spec 0 y), (Z.ltb_spec y n); try lia; exfalso; rewrite (tget_outside _ n) in EB by (auto; lia); discriminate EB. }
    rewrite EX. cbn [andb]. destruct (safe y x); [rewrite andb_false_r; reflexivity|]. rewrite andb_true_r. reflexivity.
  - exists (m_bitmap m). split; auto. split; auto. intros x y. rewrite (bget_bitmap n) by auto. rewrite HA by auto. rewrite andb_true_r. reflexivity.
Qed.

(* ---- neighbours ---- *)
Lemma testbit_flag (v : bool) r f i : Z.testbit (if v then Z.lor r f else r) i = Z.testbit r i || (v && Z.testbit f i).
Proof. destruct v; [rewrite Z.lor_spec; reflexivity|rewrite orb_false_r; reflexivity]. Qed.

Lemma neighbours_bits t n x y : twf t n n -> 1 <= n -> forall i dx dy, In (i, (dx, dy)) neighbour_bits ->
  Z.testbit (getNeighbours t x y) i = bget t (y + dy) (x + dx).
Proof.
  intros HT Hn. assert (HT' := HT). destruct HT as [LT FT]. unfold getNeighbours. destruct t as [|row0 rest] eqn:ET; [cbn in LT; lia|].
  rewrite <- ET in *. assert (L0 : zlen row0 = n) by (rewrite ET in FT; inversion FT; auto).
  rewrite LT, L0. clear ET rest.
  assert (TE : forall nx ny, (0 <=? ny) && (ny <? n) && (0 <=? nx) && (nx <? n) && bget t ny nx = bget t ny nx).
  { intros nx ny. destruct (Z.leb_spec 0 ny), (Z.ltb_spec ny n), (Z.leb_spec 0 nx), (Z.ltb_spec nx n); cbn [andb]; auto;
    rewrite bget_tget, (tget_outside _ n) by (auto; lia); reflexivity. }
  cbv zeta. unfold dirs. cbn [fold_left]. rewrite !TE.
  intros i dx dy HI. unfold neighbour_bits in HI. cbn [In] in HI. rewrite !testbit_flag.
  replace (bget t y x) with (bget t (y + 0) (x + 0)) by (rewrite !Z.add_0_r; reflexivity).
  repeat destruct HI as [HI|HI]; try contradiction; injection HI as <- <- <-;
    change (Z.testbit (if bget t (y + 0) (x + 0) then NSelf else 0)) with (Z.testbit (if bget t (y + 0) (x + 0) then Z.lor 0 NSelf else 0));
    rewrite testbit_flag; unfold NTopLeft, NTop, NTopRight, NLeft, NSelf, NRight, NBotLeft, NBot, NBotRight;
    repeat match goal with |- context [Z.testbit ?a ?b] => let c := eval vm_compute in (Z.testbit a b) in change (Z.testbit a b) with c end;
    rewrite ?andb_false_r, ?andb_true_r, ?orb_false_r, ?orb_false_l; reflexivity.
Qed.

(* ---- draw_plan ---- *)
Definition safe_b (o : options) (n x y : Z) : bool :=
  let '(lv, lw, lh) := logo_info o (img_w o n) (img_h o n) in
  lv && o_safeZone o && blockOverlapsLogo x y (qrBlockWidth o) (b_left o) (b_top o) (img_w o n) (img_h o n) lw lh.
Definition border_color (o : options) : rgba :=
  if o_bgTransparent o then mkRGBA (c_r (o_bgColor o)) (c_g (o_bgColor o)) (c_b (o_bgColor o)) 0 else o_bgColor o.
Definition logo_place (o : options) (n : Z) : option (image * Z * Z) :=
  match o_logo o with
  | Some i => if validLogoImage (img_w o n) (img_h o n) (i_x1 i - i_x0 i) (i_y1 i - i_y0 i) (o_multiplier o)
              then Some (i, logo_left (img_w o n) i, logo_top (img_h o n) i) else None
  | None => None
  end.
Definition calls_at (scale : image -> Z -> Z -> Z -> Z) (o : options) (n : Z) (t : list (list bool)) (m : Matrix) (x y : Z) : list call :=
  module_calls (match o_halftone o with Some i => Some (scale i (n * 3)) | None => None end) t (o_bgTransparent o) (o_qrColor o) (light o)
    (safe_b o n) (qrBlockWidth o) (b_left o) (b_top o) x y (rawget m x y).

Lemma module_calls_ext h t tr fg bg s1 s2 bw lf tp x y v : s1 x y = s2 x y ->
  module_calls h t tr fg bg s1 bw lf tp x y v = module_calls h t tr fg bg s2 bw lf tp x y v.
Proof. unfold module_calls. intros ->. reflexivity. Qed.

Lemma plan_spec scale n m o : square n m ->
  exists p t, draw_plan scale m o = Some p /\ p_w p = img_w o n /\ p_h p = img_h o n /\ twf t n n /\
    (forall x y, bget t y x = dark m x y && negb (safe_b o n y x)) /\
    p_calls p = flat_map (fun '(x, y) => calls_at scale o n t m x y) (iter_coords IterDirection_ROW n n) /\
    stable o (p_options p) /\ p_bg p = border_color o /\ p_logo p = logo_place o n.
Proof.
  intros HS. pose proof HS as (HW & EW & EH). unfold draw_plan.
  destruct (o_borders o) as [[[tp rt] bt] lf] eqn:EB.
  assert (B1 : b_left o = lf) by (unfold b_left; rewrite EB; reflexivity).
  assert (B2 : b_right o = rt) by (unfold b_right; rewrite EB; reflexivity).
  assert (B3 : b_top o = tp) by (unfold b_top; rewrite EB; reflexivity).
  assert (B4 : b_bottom o = bt) by (unfold b_bottom; rewrite EB; reflexivity).
  rewrite EW, EH. destruct (background_spec o) as (o1 & -> & S1 & TB). pose proof S1 as [[A1 _] N1].
  destruct (same_fields _ _ A1) as (F1 & F2 & F3 & F4 & F5 & F6 & F7 & F8 & F9 & F10).
  rewrite <- B1, <- B2, <- B3, <- B4. fold (img_w o n) (img_h o n).
  assert (LI : logo_info o1 (img_w o n) (img_h o n) = logo_info o (img_w o n) (img_h o n)) by (unfold logo_info; rewrite F4, F5; reflexivity).
  rewrite LI, F6, F10. destruct (logo_info o (img_w o n) (img_h o n)) as [[lv lw] lh] eqn:EL.
  set (sf := fun x y => lv && o_safeZone o && blockOverlapsLogo x y (qrBlockWidth o) (b_left o) (b_top o) (img_w o n) (img_h o n) lw lh).
  assert (SE : forall x y, sf x y = safe_b o n x y) by (intros; unfold sf, safe_b; rewrite EL; reflexivity).
  destruct (cleared n m (lv && o_safeZone o) sf HS) as (t & ET & TT & GT).
  { intros HF x y. unfold sf. rewrite HF. reflexivity. }
  rewrite ET. unfold m_iter. rewrite EW, EH.
  destruct (calls_fold m (qrBlockWidth o) (b_left o) (b_top o) (match o_halftone o with Some i => Some (scale i (n * 3)) | None => None end) t sf (iter_coords IterDirection_ROW n n) [] o1) as (o2 & S2 & EC).
  rewrite EC. eexists. exists t. split; [reflexivity|]. cbn [p_w p_h p_calls p_options p_bg p_logo app].
  split; auto. split; auto. split; auto. split; [intros x y; rewrite GT, SE; reflexivity|].
  split.
  { rewrite F1, F2, (stable_light _ _ S1). apply flat_map_ext. intros [x y]. unfold calls_at. apply module_calls_ext. apply SE. }
  split; [eapply stable_trans; eauto|]. split.
  { unfold border_color. destruct (o_bgTransparent o) eqn:ETR; [apply TB; auto|]. rewrite N1; auto. }
  pose proof (stable_trans _ _ _ S1 S2) as [[A2 _] _]. destruct (same_fields _ _ A2) as (_ & _ & _ & G4 & _). rewrite G4.
  unfold logo_place, logo_left, logo_top. unfold logo_info in EL. destruct (o_logo o) as [i|]; [|reflexivity].
  injection EL as <- <- <-. reflexivity.
Qed.

(* ---- rendering with rectangles ---- *)
Definition covers (k : call) (px py : Z) : bool := negb (k_area k px py =? 0).
Definition paint (px py : Z) (ks : list call) (c : rgba) : rgba :=
  fold_left (fun c k => if k_area k px py =? 0 then c else over_at (area_alpha (k_area k px py)) c (k_color k)) ks c.

Lemma paint_canvas px py : forall ks cv, fold_left rectangle_draw ks cv px py = paint px py ks (cv px py).
Proof. induction ks as [|k ks IH]; intros cv; [reflexivity|]. cbn [fold_left paint]. rewrite IH. unfold paint. f_equal. Qed.

Lemma fix_plain x : fix26_6 x 0 = 64 * x.
Proof. unfold fix26_6. replace (64 * (3 * x + 0)) with (64 * x * 3) by lia. apply Z.quot_mul. lia. Qed.

Lemma overlap_full lo hi p : lo <= 64 * p -> 64 * p + 64 <= hi -> overlap64 lo hi p = 64.
Proof. unfold overlap64. lia. Qed.
Lemma overlap_none lo hi p : hi <= 64 * p \/ 64 * p + 64 <= lo -> overlap64 lo hi p = 0.
Proof. unfold overlap64. lia. Qed.
Lemma overlap_pos lo hi p : overlap64 lo hi p <> 0 -> lo < 64 * p + 64 /\ 64 * p < hi.
Proof. unfold overlap64. lia. Qed.

Lemma over_full d s : over_at (area_alpha (64 * 64)) d s = over d s.
Proof.
  change (area_alpha (64 * 64)) with 65535. unfold over_at, over.
  assert (E : forall a b c, over_at_channel 65535 a b c = over_channel a b c) by (intros; unfold over_at_channel, over_channel; rewrite Z.div_mul by lia; reflexivity).
  rewrite !E. reflexivity.
Qed.

Lemma paint_app px py a b c : paint px py (a ++ b) c = paint px py b (paint px py a c).
Proof. unfold paint. apply fold_left_app. Qed.

Lemma paint_none px py ks c : (forall k, In k ks -> covers k px py = false) -> paint px py ks c = c.
Proof.
  revert c. induction ks as [|k ks IH]; intros c HN; [reflexivity|]. cbn [paint fold_left]. pose proof (HN k (or_introl eq_refl)) as E. unfold covers in E. rewrite negb_false_iff in E. rewrite E.
  apply IH. intros k' HI. apply HN. right. exact HI.
Qed.

Lemma quot3 a : exists r, a = 3 * Z.quot a 3 + r /\ -2 <= r <= 2.
Proof. exists (Z.rem a 3). split; [apply Z.quot_rem; lia|]. pose proof (Z.rem_bound_abs a 3 ltac:(lia)). lia. Qed.

Lemma covers_inv k px py : covers k px py = true ->
  (3 * k_x k + k_tx k <= 3 * px + 2 /\ 3 * px < 3 * (k_x k + k_w k) + k_tx k) /\
  (3 * k_y k + k_ty k <= 3 * py + 2 /\ 3 * py < 3 * (k_y k + k_h k) + k_ty k).
Proof.
  unfold covers, k_area. rewrite negb_true_iff, Z.eqb_neq. intros HN.
  assert (A : overlap64 (fix26_6 (k_x k) (k_tx k)) (fix26_6 (k_x k + k_w k) (k_tx k)) px <> 0) by nia.
  assert (B : overlap64 (fix26_6 (k_y k) (k_ty k)) (fix26_6 (k_y k + k_h k) (k_ty k)) py <> 0) by nia.
  apply overlap_pos in A, B. unfold fix26_6 in A, B.
  destruct (quot3 (64 * (3 * k_x k + k_tx k))) as (r1 & E1 & R1). destruct (quot3 (64 * (3 * (k_x k + k_w k) + k_tx k))) as (r2 & E2 & R2).
  destruct (quot3 (64 * (3 * k_y k + k_ty k))) as (r3 & E3 & R3). destruct (quot3 (64 * (3 * (k_y k + k_h k) + k_ty k))) as (r4 & E4 & R4). lia.
Qed.

(* a call of module (x, y) only covers pixels of that module *)
Lemma in_module_calls h t tr fg bg sf bw lf tp x y v k px py : 1 <= bw -> In k (module_calls h t tr fg bg sf bw lf tp x y v) ->
  covers k px py = true -> lf + x * bw <= px < lf + (x + 1) * bw /\ tp + y * bw <= py < tp + (y + 1) * bw.
Proof.
  intros HB. unfold module_calls. destruct (sf x y && qrbool v); [intros []|]. cbv zeta.
  assert (P : forall f c nb, In k [mkCall f (x * bw + lf) 0 (y * bw + tp) 0 bw bw c nb] -> covers k px py = true ->
    lf + x * bw <= px < lf + (x + 1) * bw /\ tp + y * bw <= py < tp + (y + 1) * bw).
  { intros f c nb [<-|[]] HC. apply covers_inv in HC. cbn [k_x k_y k_tx k_ty k_w k_h] in HC. lia. }
  destruct (qrtype v =? QRType_FINDER); [apply P|]. destruct (qrtype v =? QRType_DATA); [|apply P].
  destruct h as [grey|]; [|apply P]. unfold halftone_calls. intros HI.
  apply in_flat_map in HI as (i & Hi & HI). apply in_map_iff in HI as (j & <- & Hj).
  intros HC. apply covers_inv in HC. cbn [k_x k_y k_tx k_ty k_w k_h] in HC.
  change (zseq 0 3) with [0; 1; 2] in Hi, Hj. assert (0 <= i <= 2) by (cbn [In] in Hi; lia). assert (0 <= j <= 2) by (cbn [In] in Hj; lia).
  pose proof (Z.quot_div_nonneg bw 3 ltac:(lia) ltac:(lia)) as EQ. rewrite EQ in HC.
  pose proof (Z.div_mod bw 3 ltac:(lia)). pose proof (Z.mod_pos_bound bw 3 ltac:(lia)). assert (0 <= bw / 3) by (apply Z.div_pos; lia). nia.
Qed.

Lemma block_width_range o : 1 <= qrBlockWidth o <= 255.
Proof. unfold qrBlockWidth. destruct (Z.leb_spec (o_qrWidth o) 0); [cbn; lia|]. destruct (Z.ltb_spec 255 (o_qrWidth o)); cbn; lia. Qed.

Lemma cell_eq bw lf x x' p : 1 <= bw -> lf + x * bw <= p < lf + (x + 1) * bw -> lf + x' * bw <= p < lf + (x' + 1) * bw -> x = x'.
Proof.
  intros HB H1 H2. assert (A : x * bw < (x' + 1) * bw) by lia. assert (B : x' * bw < (x + 1) * bw) by lia.
  apply Z.mul_lt_mono_pos_r in A; [|lia]. apply Z.mul_lt_mono_pos_r in B; lia.
Qed.

Lemma paint_modules scale o n t m px py : forall coords c, NoDup coords -> forall x y, In (x, y) coords -> in_module o x y px py ->
  paint px py (flat_map (fun '(x, y) => calls_at scale o n t m x y) coords) c = paint px py (calls_at scale o n t m x y) c.
Proof.
  pose proof (block_width_range o) as HB.
  assert (D : forall x y x' y' k, in_module o x y px py -> In k (calls_at scale o n t m x' y') -> (x, y) <> (x', y') -> covers k px py = false).
  { intros x y x' y' k (I1 & I2) HI HN. destruct (covers k px py) eqn:E; auto. exfalso. apply HN.
    destruct (in_module_calls _ _ _ _ _ _ _ _ _ _ _ _ _ _ _ (proj1 HB) HI E) as [J1 J2]. f_equal; [eapply cell_eq; [|exact I1|exact J1]|eapply cell_eq; [|exact I2|exact J2]]; lia. }
  induction coords as [|[a b] coords IH]; intros c ND x y HI HM; [contradiction|].
  cbn [flat_map]. rewrite paint_app. inversion ND as [|? ? NI ND']; subst. destruct HI as [E|HI].
  - injection E as -> ->. apply paint_none. intros k HK. apply in_flat_map in HK as ([a b] & HIab & HK).
    apply (D x y a b); auto. intros E. apply NI. rewrite E. exact HIab.
  - rewrite (IH _ ND' x y HI HM). f_equal. apply paint_none. intros k HK. apply (D x y a b); auto.
    intros E. apply NI. rewrite <- E. exact HI.
Qed.

Lemma paint_outside scale o n t m px py c : ~ in_symbol o n px py ->
  paint px py (flat_map (fun '(x, y) => calls_at scale o n t m x y) (iter_coords IterDirection_ROW n n)) c = c.
Proof.
  pose proof (block_width_range o) as HB. intros HN. apply paint_none. intros k HK. apply in_flat_map in HK as ([a b] & HIab & HK).
  apply in_iter_coords in HIab. destruct (covers k px py) eqn:E; auto. exfalso. apply HN.
  destruct (in_module_calls _ _ _ _ _ _ _ _ _ _ _ _ _ _ _ (proj1 HB) HK E). unfold in_symbol. nia.
Qed.

(* the canvas after the modules *)
Lemma canvas_spec scale o n t m px py : 0 <= px < img_w o n -> 0 <= py < img_h o n -> good (border_color o) ->
  let cv := fold_left rectangle_draw (flat_map (fun '(x, y) => calls_at scale o n t m x y) (iter_coords IterDirection_ROW n n))
              (fill_rect blank 0 0 (img_w o n) (img_h o n) (border_color o)) in
  (forall x y, 0 <= x < n -> 0 <= y < n -> in_module o x y px py -> cv px py = paint px py (calls_at scale o n t m x y) (border_color o)) /\
  (~ in_symbol o n px py -> cv px py = border_color o).
Proof.
  intros Hx Hy HG. cbv zeta. rewrite paint_canvas.
  assert (E0 : fill_rect blank 0 0 (img_w o n) (img_h o n) (border_color o) px py = border_color o).
  { unfold fill_rect. destruct (Z.leb_spec 0 px), (Z.ltb_spec px (0 + img_w o n)), (Z.leb_spec 0 py), (Z.ltb_spec py (0 + img_h o n)); try lia.
    cbn [andb]. apply over_blank. exact HG. }
  rewrite E0. split.
  - intros x y Rx Ry HM. apply paint_modules; auto; [apply NoDup_iter_coords|apply in_iter_coords; auto].
  - apply paint_outside.
Qed.

Lemma draw_spec others scale n m o : square n m -> getShape o = ShapeRectangle ->
  exists t o', draw others scale m o = Some (Z.abs (img_w o n), Z.abs (img_h o n),
    (let cv := fold_left rectangle_draw (flat_map (fun '(x, y) => calls_at scale o n t m x y) (iter_coords IterDirection_ROW n n))
              (fill_rect blank 0 0 (img_w o n) (img_h o n) (border_color o)) in
     let cv := match o_gradient o with Some g => apply_gradient cv (o_qrColor o) g | None => cv end in
     match logo_place o n with Some (i, x, y) => draw_image cv i x y | None => cv end), o') /\ stable o o' /\ twf t n n /\
    (forall x y, bget t y x = dark m x y && negb (safe_b o n y x)).
Proof.
  intros HS EG. unfold draw, draw_with. rewrite EG. destruct (plan_spec scale n m o HS) as (p & t & -> & -> & -> & TT & GT & -> & ST & -> & ->).
  exists t, (p_options p). pose proof ST as [[A GA] _]. destruct (same_fields _ _ A) as (_ & -> & -> & _). split; [reflexivity|]. auto.
Qed.

(* ---- logo ---- *)
Lemma valid_fits o w h i : validLogoImage w h (i_x1 i - i_x0 i) (i_y1 i - i_y0 i) (o_multiplier o) = true <-> logo_fits o w h i.
Proof. unfold validLogoImage, logo_fits. rewrite andb_true_iff, !Z.leb_le. reflexivity. Qed.

Lemma interval_overlap a b c d : a < b -> c < d -> (exists p, a <= p < b /\ c <= p < d) <-> (c < b /\ a < d).
Proof. intros HA HC. split; [intros (p & ?); lia|]. intros HI. exists (Z.max a c). lia. Qed.

Lemma overlaps_touches o w h i x y : i_x0 i < i_x1 i -> i_y0 i < i_y1 i ->
  blockOverlapsLogo x y (qrBlockWidth o) (b_left o) (b_top o) w h (i_x1 i - i_x0 i) (i_y1 i - i_y0 i) = true <-> touches_logo o w h i x y.
Proof.
  intros HX HY. pose proof (block_width_range o) as HB. unfold blockOverlapsLogo, touches_logo, in_module, in_logo.
  fold (logo_left w i) (logo_top h i). cbv zeta. rewrite !andb_true_iff, !Z.ltb_lt.
  pose proof (interval_overlap (b_left o + x * qrBlockWidth o) (b_left o + (x + 1) * qrBlockWidth o) (logo_left w i) (logo_left w i + (i_x1 i - i_x0 i)) ltac:(lia) ltac:(lia)) as IX.
  pose proof (interval_overlap (b_top o + y * qrBlockWidth o) (b_top o + (y + 1) * qrBlockWidth o) (logo_top h i) (logo_top h i + (i_y1 i - i_y0 i)) ltac:(lia) ltac:(lia)) as IY.
  split.
  - intros HO. destruct (proj2 IX ltac:(lia)) as (px & P1). destruct (proj2 IY ltac:(lia)) as (py & P2). exists px, py. tauto.
  - intros (px & py & (M1 & M2) & L1 & L2). pose proof (proj1 IX ltac:(exists px; tauto)). pose proof (proj1 IY ltac:(exists py; tauto)). lia.
Qed.


Lemma safe_zone_spec o n x y : proper_logo o -> safe_b o n x y = true <-> in_safe_zone o (img_w o n) (img_h o n) x y.
Proof.
  intros HP. unfold safe_b, logo_info, in_safe_zone. destruct (o_logo o) as [i|] eqn:EL.
  - destruct (HP i EL) as [HX HY]. cbv zeta. rewrite !andb_true_iff, valid_fits, (overlaps_touches o _ _ i x y HX HY). split.
    + intros [[A B] C]. split; auto. exists i. auto.
    + intros [A (j & E & B & C)]. injection E as <-. auto.
  - cbn. split; [intros F; discriminate F|]. intros [_ (j & E & _)]. discriminate E.
Qed.

Lemma place_spec o n i x y : logo_place o n = Some (i, x, y) <->
  o_logo o = Some i /\ logo_fits o (img_w o n) (img_h o n) i /\ x = logo_left (img_w o n) i /\ y = logo_top (img_h o n) i.
Proof.
  unfold logo_place. destruct (o_logo o) as [j|].
  - destruct (validLogoImage _ _ _ _ _) eqn:E.
    + apply valid_fits in E. split; [intros [= <- <- <-]; auto|]. intros ([= <-] & _ & -> & ->). reflexivity.
    + split; [intros F; discriminate F|]. intros ([= <-] & F & _). apply valid_fits in F. congruence.
  - split; [intros F; discriminate F|]. intros (F & _). discriminate F.
Qed.

(* ---- pixels of a module without halftone ---- *)
Lemma calls_plain scale o n t m x y : o_halftone o = None ->
  calls_at scale o n t m x y =
    if safe_b o n x y && qrbool (rawget m x y) then []
    else [mkCall (qrtype (rawget m x y) =? QRType_FINDER) (x * qrBlockWidth o + b_left o) 0 (y * qrBlockWidth o + b_top o) 0 (qrBlockWidth o) (qrBlockWidth o)
            (if qrbool (rawget m x y) then o_qrColor o else light o) (getNeighbours t x y)].
Proof.
  intros EH. unfold calls_at, module_calls. rewrite EH. destruct (safe_b o n x y && qrbool (rawget m x y)); [reflexivity|]. cbv zeta.
  destruct (qrtype (rawget m x y) =? QRType_FINDER); [reflexivity|]. destruct (qrtype (rawget m x y) =? QRType_DATA); reflexivity.
Qed.

Lemma paint_plain scale o n t m x y px py c : o_halftone o = None -> in_module o x y px py ->
  paint px py (calls_at scale o n t m x y) c =
    if safe_b o n x y && qrbool (rawget m x y) then c else over c (if qrbool (rawget m x y) then o_qrColor o else light o).
Proof.
  intros EH (M1 & M2). rewrite calls_plain by auto. destruct (safe_b o n x y && qrbool (rawget m x y)); [reflexivity|].
  cbn [paint fold_left]. unfold k_area. cbn [k_x k_tx k_y k_ty k_w k_h k_color]. rewrite !fix_plain.
  rewrite (overlap_full _ _ px) by lia. rewrite (overlap_full _ _ py) by lia. change (64 * 64 =? 0) with false. cbn iota. apply over_full.
Qed.


Lemma good_border o : good (o_bgColor o) -> good (border_color o).
Proof. intros (A & B & C & D). unfold border_color. destruct (o_bgTransparent o); [|repeat split; auto; apply A || apply B || apply C || apply D]. repeat split; cbn; try apply A; try apply B; try apply C; lia. Qed.

Lemma over_light o : painter_colors o -> over (border_color o) (light o) = border_color o.
Proof.
  intros (_ & HG & HB). pose proof (good_border o HG) as GB. unfold light, border_color in *. destruct (o_bgTransparent o).
  - apply over_clear. exact GB.
  - apply over_opaque; auto.
Qed.

Lemma paint_module scale o n t m x y px py : o_halftone o = None -> painter_colors o -> in_module o x y px py ->
  paint px py (calls_at scale o n t m x y) (border_color o) = if qrbool (rawget m x y) && negb (safe_b o n x y) then o_qrColor o else border_color o.
Proof.
  intros EH HC HM. rewrite paint_plain by auto. destruct HC as ((HF & HA) & HG & HB).
  destruct (qrbool (rawget m x y)) eqn:EQ; [|rewrite andb_false_r; apply over_light; repeat split; auto; try apply HF; try apply HG].
  rewrite andb_true_r. destruct (safe_b o n x y); [reflexivity|]. cbn [negb andb]. apply over_opaque; auto. apply good_border; auto.
Qed.

(* every pixel, with or without a logo *)
Definition base_color (o : options) (n : Z) (m : Matrix) (px py : Z) (c : rgba) : Prop :=
  (forall x y, 0 <= x < n -> 0 <= y < n -> in_module o x y px py ->
     c = if module_at (m_bitmap m) x y && negb (safe_b o n x y) then o_qrColor o else border_color o) /\
  (~ in_symbol o n px py -> c = border_color o).

Lemma pixels others scale n m o : square n m -> getShape o = ShapeRectangle -> o_halftone o = None -> o_gradient o = None -> painter_colors o ->
  exists cv o', draw others scale m o = Some (Z.abs (img_w o n), Z.abs (img_h o n), cv, o') /\ stable o o' /\
    forall px py, 0 <= px < img_w o n -> 0 <= py < img_h o n ->
      exists c, base_color o n m px py c /\
        cv px py = match logo_place o n with
                   | Some (i, x, y) => if (x + i_x0 i <=? px) && (px <? x + i_x1 i) && (y + i_y0 i <=? py) && (py <? y + i_y1 i) then over_image c (i_at i (px - x) (py - y)) else c
                   | None => c
                   end.
Proof.
  intros HS EG EH EGr HC. pose proof HS as (HW & EW & EHt). destruct (draw_spec others scale n m o HS EG) as (t & o' & -> & ST & _).
  rewrite EGr. cbv zeta. eexists. exists o'. split; [reflexivity|]. split; auto. intros px py Hx Hy.
  pose proof HC as (_ & HG & _). destruct (canvas_spec scale o n t m px py Hx Hy (good_border o HG)) as [C1 C2].
  set (cv := fold_left rectangle_draw _ _) in *. exists (cv px py). split.
  - split; auto. intros x y Rx Ry HM. rewrite (C1 x y Rx Ry HM), paint_module by auto. rewrite module_at_bitmap by (auto; split; lia). reflexivity.
  - destruct (logo_place o n) as [[[i x] y]|]; reflexivity.
Qed.

Lemma calls_nonempty h t tr fg bg sf bw lf tp x y v : 1 <= bw -> sf x y && qrbool v = false ->
  exists k, In k (module_calls h t tr fg bg sf bw lf tp x y v) /\ k_x k = x * bw + lf /\ k_y k = y * bw + tp.
Proof.
  intros HB E. unfold module_calls. rewrite E. cbv zeta.
  destruct (qrtype v =? QRType_FINDER); [eexists; split; [left; reflexivity|split; reflexivity]|].
  destruct (qrtype v =? QRType_DATA); [|eexists; split; [left; reflexivity|split; reflexivity]].
  destruct h as [grey|]; [|eexists; split; [left; reflexivity|split; reflexivity]].
  unfold halftone_calls. change (zseq 0 3) with [0; 1; 2]. cbn [flat_map map app]. eexists. split; [left; reflexivity|]. cbn [k_x k_y]. lia.
Qed.

Lemma calls_inside h t tr fg bg sf bw lf tp x y v k : 1 <= bw -> In k (module_calls h t tr fg bg sf bw lf tp x y v) ->
  sf x y && qrbool v = false /\ lf + x * bw <= k_x k < lf + (x + 1) * bw /\ tp + y * bw <= k_y k < tp + (y + 1) * bw.
Proof.
  intros HB. unfold module_calls. destruct (sf x y && qrbool v); [intros []|]. cbv zeta.
  assert (P : forall f c nb, In k [mkCall f (x * bw + lf) 0 (y * bw + tp) 0 bw bw c nb] ->
    false = false /\ lf + x * bw <= k_x k < lf + (x + 1) * bw /\ tp + y * bw <= k_y k < tp + (y + 1) * bw).
  { intros f c nb [<-|[]]. cbn [k_x k_y]. lia. }
  destruct (qrtype v =? QRType_FINDER); [apply P|]. destruct (qrtype v =? QRType_DATA); [|apply P].
  destruct h as [grey|]; [|apply P]. unfold halftone_calls. intros HI.
  apply in_flat_map in HI as (i & Hi & HI). apply in_map_iff in HI as (j & <- & Hj).
  cbn [k_x k_y]. change (zseq 0 3) with [0; 1; 2] in Hi, Hj. assert (0 <= i <= 2) by (cbn [In] in Hi; lia). assert (0 <= j <= 2) by (cbn [In] in Hj; lia).
  split; auto. lia.
Qed.

Lemma safe_zone_calls scale n m o p : square n m -> proper_logo o -> draw_plan scale m o = Some p ->
  forall x y, 0 <= x < n -> 0 <= y < n ->
  (exists k, In k (p_calls p) /\ in_module o x y (k_x k) (k_y k)) <->
  ~ (module_at (m_bitmap m) x y = true /\ in_safe_zone o (img_w o n) (img_h o n) x y).
Proof.
  intros HS HP E x y Hx Hy. pose proof HS as (HW & EW & EH). destruct (plan_spec scale n m o HS) as (p' & t & E' & _ & _ & _ & _ & EC & _ & _ & _).
  rewrite E in E'. injection E' as <-. rewrite EC. pose proof (block_width_range o) as HB.
  rewrite <- safe_zone_spec by auto. rewrite module_at_bitmap by (auto; split; lia). split.
  - intros (k & HI & M1 & M2) [D1 D2]. apply in_flat_map in HI as ([a b] & HAB & HI). unfold calls_at in HI.
    destruct (calls_inside _ _ _ _ _ _ _ _ _ _ _ _ _ (proj1 HB) HI) as (NS & J1 & J2).
    assert (x = a) as <- by (eapply cell_eq; [exact (proj1 HB)|exact M1|exact J1]).
    assert (y = b) as <- by (eapply cell_eq; [exact (proj1 HB)|exact M2|exact J2]). rewrite D1, D2 in NS. discriminate NS.
  - intros HN. destruct (calls_nonempty (match o_halftone o with Some i => Some (scale i (n * 3)) | None => None end) t (o_bgTransparent o) (o_qrColor o) (light o)
      (safe_b o n) (qrBlockWidth o) (b_left o) (b_top o) x y (rawget m x y) (proj1 HB)) as (k & HI & KX & KY).
    { destruct (safe_b o n x y), (qrbool (rawget m x y)); auto. exfalso. apply HN. auto. }
    exists k. split.
    + apply in_flat_map. exists (x, y). split; [apply in_iter_coords; lia|exact HI].
    + unfold in_module. rewrite KX, KY. lia.
Qed.

Lemma over_image_opaque c d : good c -> opaque d -> over_image c d = d.
Proof.
  intros HC [HD HA]. unfold over_image. assert (clamp d = d) as ->.
  { unfold clamp. destruct HD as (A & B & C & D). unfold byte in *. rewrite !Z.min_l by lia. destruct d; reflexivity. }
  apply over_opaque; auto.
Qed.

Lemma logo_pixels_any others scale n m o : square n m -> getShape o = ShapeRectangle -> o_halftone o = None -> o_gradient o = None ->
  painter_colors o -> o_bgTransparent o = false -> proper_logo o ->
  exists cv o', draw others scale m o = Some (Z.abs (img_w o n), Z.abs (img_h o n), cv, o') /\
    forall px py, 0 <= px < img_w o n -> 0 <= py < img_h o n ->
    exists c,
      (forall x y, 0 <= x < n -> 0 <= y < n -> in_module o x y px py -> module_at (m_bitmap m) x y = true ->
         ~ in_safe_zone o (img_w o n) (img_h o n) x y -> c = o_qrColor o) /\
      (forall x y, 0 <= x < n -> 0 <= y < n -> in_module o x y px py ->
         module_at (m_bitmap m) x y = false \/ in_safe_zone o (img_w o n) (img_h o n) x y -> c = o_bgColor o) /\
      (~ in_symbol o n px py -> c = o_bgColor o) /\
      (forall i, o_logo o = Some i -> logo_fits o (img_w o n) (img_h o n) i -> logo_covers (img_w o n) (img_h o n) i px py ->
         cv px py = over_image c (i_at i (px - logo_left (img_w o n) i) (py - logo_top (img_h o n) i))) /\
      ((forall i, o_logo o = Some i -> logo_fits o (img_w o n) (img_h o n) i -> ~ logo_covers (img_w o n) (img_h o n) i px py) -> cv px py = c).
Proof.
  intros HS EG EH EGr HC ET HP. destruct (pixels others scale n m o HS EG EH EGr HC) as (cv & o' & E & ST & HPX).
  exists cv, o'. split; auto. intros px py Hx Hy. destruct (HPX px py Hx Hy) as (c & [B1 B2] & EC).
  assert (EB : border_color o = o_bgColor o) by (unfold border_color; rewrite ET; reflexivity). rewrite EB in *.
  exists c. split.
  { intros x y Rx Ry HM HD HN. rewrite (B1 x y Rx Ry HM), HD. rewrite <- safe_zone_spec in HN by auto. destruct (safe_b o n x y); [exfalso; auto|]. reflexivity. }
  split.
  { intros x y Rx Ry HM HD. rewrite (B1 x y Rx Ry HM). rewrite <- safe_zone_spec in HD by auto. destruct HD as [->| ->]; [reflexivity|]. rewrite andb_false_r. reflexivity. }
  split; [auto|]. rewrite EC. split.
  - intros i EI HF [L1 L2]. rewrite (proj2 (place_spec o n i _ _) (conj EI (conj HF (conj eq_refl eq_refl)))). unfold draw_image.
    destruct (Z.leb_spec (logo_left (img_w o n) i + i_x0 i) px), (Z.ltb_spec px (logo_left (img_w o n) i + i_x1 i)), (Z.leb_spec (logo_top (img_h o n) i + i_y0 i) py), (Z.ltb_spec py (logo_top (img_h o n) i + i_y1 i)); try lia. reflexivity.
  - intros HN. destruct (logo_place o n) as [[[i x] y]|] eqn:EP; [|reflexivity].
    apply place_spec in EP as (EI & HF & -> & ->). pose proof (HN i EI HF) as HNI. unfold logo_covers in HNI. unfold draw_image.
    destruct (Z.leb_spec (logo_left (img_w o n) i + i_x0 i) px), (Z.ltb_spec px (logo_left (img_w o n) i + i_x1 i)), (Z.leb_spec (logo_top (img_h o n) i + i_y0 i) py), (Z.ltb_spec py (logo_top (img_h o n) i + i_y1 i)); cbn [andb]; try reflexivity. exfalso. apply HNI. lia.
Qed.
(* a logo whose bounds start at the origin is drawn in the middle *)
Lemma covers_middle w h i px py : i_x0 i = 0 -> i_y0 i = 0 -> (logo_covers w h i px py <-> in_logo w h i px py).
Proof. intros X0 Y0. unfold logo_covers, in_logo. rewrite X0, Y0. lia. Qed.
Lemma logo_pixels others scale n m o : square n m -> getShape o = ShapeRectangle -> o_halftone o = None -> o_gradient o = None ->
  painter_colors o -> o_bgTransparent o = false -> proper_logo o ->
  (forall i, o_logo o = Some i -> i_x0 i = 0 /\ i_y0 i = 0) ->
  exists cv o', draw others scale m o = Some (Z.abs (img_w o n), Z.abs (img_h o n), cv, o') /\
    forall px py, 0 <= px < img_w o n -> 0 <= py < img_h o n ->
    exists c,
      (forall x y, 0 <= x < n -> 0 <= y < n -> in_module o x y px py -> module_at (m_bitmap m) x y = true ->
         ~ in_safe_zone o (img_w o n) (img_h o n) x y -> c = o_qrColor o) /\
      (forall x y, 0 <= x < n -> 0 <= y < n -> in_module o x y px py ->
         module_at (m_bitmap m) x y = false \/ in_safe_zone o (img_w o n) (img_h o n) x y -> c = o_bgColor o) /\
      (~ in_symbol o n px py -> c = o_bgColor o) /\
      (forall i, o_logo o = Some i -> logo_fits o (img_w o n) (img_h o n) i -> in_logo (img_w o n) (img_h o n) i px py ->
         cv px py = over_image c (i_at i (px - logo_left (img_w o n) i) (py - logo_top (img_h o n) i))) /\
      ((forall i, o_logo o = Some i -> logo_fits o (img_w o n) (img_h o n) i -> ~ in_logo (img_w o n) (img_h o n) i px py) -> cv px py = c).
Proof.
  intros HS EG EH EGr HC ET HP HO. destruct (logo_pixels_any others scale n m o HS EG EH EGr HC ET HP) as (cv & o' & E & K).
  exists cv, o'. split; [exact E|]. intros px py Hx Hy. destruct (K px py Hx Hy) as (c & K1 & K2 & K3 & K4 & K5). exists c.
  split; [exact K1|]. split; [exact K2|]. split; [exact K3|]. split.
  - intros i EI HF IL. destruct (HO i EI) as [X0 Y0]. apply K4; auto. apply covers_middle; auto.
  - intros HN. apply K5. intros i EI HF IL. destruct (HO i EI) as [X0 Y0]. apply (HN i EI HF). apply covers_middle in IL; auto.
Qed.

Lemma flag_high v r f i : (forall j, 8 < j -> Z.testbit r j = false) -> (forall j, 8 < j -> Z.testbit f j = false) -> 8 < i ->
  Z.testbit (if v : bool then Z.lor r f else r) i = false.
Proof. intros HR HF Hi. rewrite testbit_flag, HR, HF by auto. rewrite andb_false_r. reflexivity. Qed.

Lemma neighbours_high t x y i : 8 < i -> Z.testbit (getNeighbours t x y) i = false.
Proof.
  revert i. unfold getNeighbours. destruct t as [|row0 rest]; [intros i _; apply Z.testbit_0_l|].
  cbv zeta. unfold dirs. cbn [fold_left].
  assert (C : forall f, 0 <= f < 512 -> forall j, 8 < j -> Z.testbit f j = false).
  { intros f Hf j Hj. destruct (Z.eq_dec f 0) as [->|]; [apply Z.testbit_0_l|]. apply Z.bits_above_log2; [lia|]. assert (Z.log2 f < 9) by (apply Z.log2_lt_pow2; lia). lia. }
  intros i Hi. do 8 (apply flag_high; [clear i Hi; intros i Hi|apply C; vm_compute; split; congruence|auto]).
  destruct (_ && _); [apply C; auto; vm_compute; split; congruence|apply Z.testbit_0_l].
Qed.

Lemma neighbour_calls scale n m o p : square n m -> 1 <= n -> proper_logo o -> o_halftone o = None -> draw_plan scale m o = Some p ->
  forall k, In k (p_calls p) ->
  exists x y, 0 <= x < n /\ 0 <= y < n /\ k_x k = b_left o + x * qrBlockWidth o /\ k_y k = b_top o + y * qrBlockWidth o /\
    (forall i dx dy, In (i, (dx, dy)) neighbour_bits ->
       (Z.testbit (k_neighbours k) i = true <->
        dark m (x + dx) (y + dy) = true /\ ~ in_safe_zone o (img_w o n) (img_h o n) (y + dy) (x + dx))) /\
    (forall i, 8 < i -> Z.testbit (k_neighbours k) i = false).
Proof.
  intros HS HN HP EH E k HI. destruct (plan_spec scale n m o HS) as (p' & t & E' & _ & _ & TT & GT & EC & _ & _ & _).
  rewrite E in E'. injection E' as <-. rewrite EC in HI. apply in_flat_map in HI as ([x y] & HXY & HI). apply in_iter_coords in HXY as [Hx Hy].
  rewrite calls_plain in HI by auto. destruct (safe_b o n x y && qrbool (rawget m x y)); [contradiction|]. destruct HI as [<-|[]].
  exists x, y. cbn [k_x k_y k_neighbours]. split; auto. split; auto. split; [lia|]. split; [lia|]. split; [|intros i Hi; apply neighbours_high; auto].
  intros i dx dy HB. rewrite (neighbours_bits t n x y TT HN i dx dy HB). rewrite GT, andb_true_iff, negb_true_iff, <- safe_zone_spec by auto.
  rewrite not_true_iff_false. reflexivity.
Qed.

Lemma safe_zone_symmetric o n x y : 
  (o_safeZone o = false \/ o_logo o = None \/
   (b_left o = b_top o /\ b_right o = b_bottom o /\ forall i, o_logo o = Some i -> i_x1 i - i_x0 i = i_y1 i - i_y0 i)) ->
  in_safe_zone o (img_w o n) (img_h o n) x y -> in_safe_zone o (img_w o n) (img_h o n) y x.
Proof.
  intros [F|[F|(EL & ER & ES)]] (A & i & EI & HF & px & py & (M1 & M2) & L1 & L2); try congruence.
  split; auto. exists i. split; auto. split; auto. exists py, px. unfold in_module, in_logo, logo_left, logo_top in *.
  assert (EW : img_w o n = img_h o n) by (unfold img_w, img_h; lia). rewrite EW in *. rewrite (ES i EI) in *. rewrite EL in *. tauto.
Qed.

Lemma neighbour_calls_symmetric scale n m o p : square n m -> 1 <= n -> proper_logo o -> o_halftone o = None -> draw_plan scale m o = Some p ->
  (o_safeZone o = false \/ o_logo o = None \/
   (b_left o = b_top o /\ b_right o = b_bottom o /\ forall i, o_logo o = Some i -> i_x1 i - i_x0 i = i_y1 i - i_y0 i)) ->
  forall k, In k (p_calls p) ->
  exists x y, 0 <= x < n /\ 0 <= y < n /\ k_x k = b_left o + x * qrBlockWidth o /\ k_y k = b_top o + y * qrBlockWidth o /\
    (forall i dx dy, In (i, (dx, dy)) neighbour_bits ->
       (Z.testbit (k_neighbours k) i = true <->
        dark m (x + dx) (y + dy) = true /\ ~ in_safe_zone o (img_w o n) (img_h o n) (x + dx) (y + dy))) /\
    (forall i, 8 < i -> Z.testbit (k_neighbours k) i = false).
Proof.
  intros HS HN HP EH E HSym k HI. destruct (neighbour_calls scale n m o p HS HN HP EH E k HI) as (x & y & Hx & Hy & KX & KY & B1 & B2).
  exists x, y. do 4 (split; [assumption|]). split; [|exact B2]. intros i dx dy HB. rewrite (B1 i dx dy HB).
  split; intros [D HZ]; (split; [exact D|]); intros F; apply HZ; apply safe_zone_symmetric; auto.
Qed.

(* ---- hex colours ---- *)
Lemma hexdigit_spec v d : hex_char v d -> hexdigit d = Some v.
Proof.
  intros HD. unfold hexdigit, hex_char in *.
  destruct (Z.leb_spec 48 d), (Z.leb_spec d 57), (Z.leb_spec 97 d), (Z.leb_spec d 102), (Z.leb_spec 65 d), (Z.leb_spec d 70); cbn [andb]; try (exfalso; lia); f_equal; lia.
Qed.

Lemma hex_options scan o :
  (forall r1 r2 g1 g2 b1 b2 c1 c2 c3 c4 c5 c6,
     hex_char r1 c1 -> hex_char r2 c2 -> hex_char g1 c3 -> hex_char g2 c4 -> hex_char b1 c5 -> hex_char b2 c6 ->
     let c := mkRGBA (16 * r1 + r2) (16 * g1 + g2) (16 * b1 + b2) 255 in
     apply_option scan o (WithFgColorRGBHex [35; c1; c2; c3; c4; c5; c6]) = Some (set_qrColor c o) /\
     apply_option scan o (WithBgColorRGBHex [35; c1; c2; c3; c4; c5; c6]) = Some (set_bgColor c o)) /\
  (forall r g b c1 c2 c3, hex_char r c1 -> hex_char g c2 -> hex_char b c3 ->
     let c := mkRGBA (16 * r + r) (16 * g + g) (16 * b + b) 255 in
     apply_option scan o (WithFgColorRGBHex [35; c1; c2; c3]) = Some (set_qrColor c o) /\
     apply_option scan o (WithBgColorRGBHex [35; c1; c2; c3]) = Some (set_bgColor c o)) /\
  (forall s, length s <> 4%nat -> length s <> 7%nat ->
     apply_option scan o (WithFgColorRGBHex s) = None /\
     apply_option scan o (WithBgColorRGBHex s) = match s with [] => Some o | _ => None end).
Proof.
  split.
  { intros r1 r2 g1 g2 b1 b2 c1 c2 c3 c4 c5 c6 H1 H2 H3 H4 H5 H6. cbv zeta. cbn [apply_option]. unfold parseFromHex.
    rewrite (hexdigit_spec _ _ H1), (hexdigit_spec _ _ H2), (hexdigit_spec _ _ H3), (hexdigit_spec _ _ H4), (hexdigit_spec _ _ H5), (hexdigit_spec _ _ H6).
    cbn [Z.eqb Pos.eqb]. split; reflexivity. }
  split.
  { intros r g b c1 c2 c3 H1 H2 H3. cbv zeta. cbn [apply_option]. unfold parseFromHex.
    rewrite (hexdigit_spec _ _ H1), (hexdigit_spec _ _ H2), (hexdigit_spec _ _ H3). cbn [Z.eqb Pos.eqb].
    replace (r * 17) with (16 * r + r) by lia. replace (g * 17) with (16 * g + g) by lia. replace (b * 17) with (16 * b + b) by lia. split; reflexivity. }
  intros s N4 N7.
  assert (PN : parseFromHex scan s = None).
  { destruct s as [|a0 [|a1 [|a2 [|a3 [|a4 [|a5 [|a6 [|a7 s]]]]]]]]; try reflexivity; exfalso; [apply N4|apply N7]; reflexivity. }
  cbn [apply_option]. rewrite PN. destruct s; split; reflexivity.
Qed.

(* ---- repeated Write ---- *)
Lemma getShape_same o o' : same_but_bg o o' -> getShape o' = getShape o.
Proof. intros HA. destruct (same_fields _ _ HA) as (_ & _ & _ & _ & _ & _ & _ & F & _). unfold getShape. rewrite F. reflexivity. Qed.

Lemma repeatable others scale n m o : square n m ->
  exists w h cv o', draw others scale m o = Some (w, h, cv, o') /\
    (o_bgTransparent o = false -> o' = o) /\
    (o_bgTransparent o = true -> getShape o = ShapeRectangle -> o_logo o = None -> o_halftone o = None -> o_gradient o = None -> painter_colors o ->
     exists cv' o'', draw others scale m o' = Some (w, h, cv', o'') /\
       forall px py, 0 <= px < img_w o n -> 0 <= py < img_h o n -> png_same (cv px py) (cv' px py)).
Proof.
  intros HS. pose proof HS as (HW & EW & EH).
  destruct (plan_spec scale n m o HS) as (p & t & EP & P1 & P2 & TT & GT & EC & ST & EB & EL).
  assert (ED : exists cv, draw others scale m o = Some (Z.abs (img_w o n), Z.abs (img_h o n), cv, p_options p)).
  { unfold draw, draw_with. rewrite EP, P1, P2. eexists. reflexivity. }
  destruct ED as (cv & ED). do 3 eexists. exists (p_options p). split; [exact ED|]. split; [apply ST|].
  intros ET EG ELo EHa EGr HC.
  destruct (pixels others scale n m o HS EG EHa EGr HC) as (cv1 & o1 & E1 & _ & HP1).
  rewrite ED in E1. injection E1 as <- <-.
  set (o2 := p_options p) in *. pose proof ST as [[A GA] NT].
  destruct (same_fields _ _ A) as (F1 & F2 & F3 & F4 & F5 & F6 & F7 & F8 & F9 & F10).
  assert (G2 : good (o_bgColor o2)).
  { apply GA. apply HC. }
  assert (HC2 : painter_colors o2).
  { destruct HC as (X & Y & Z0). unfold painter_colors. rewrite F1, F2, ET. split; auto. split; auto. intros FF. discriminate FF. }
  destruct (pixels others scale n m o2 HS) as (cv2 & o3 & E2 & _ & HP2); try congruence.
  { rewrite (getShape_same o o2 A). exact EG. }
  assert (BW : qrBlockWidth o2 = qrBlockWidth o) by (unfold qrBlockWidth; rewrite F7; reflexivity).
  assert (BL : b_left o2 = b_left o) by (unfold b_left; rewrite F9; reflexivity).
  assert (BR : b_right o2 = b_right o) by (unfold b_right; rewrite F9; reflexivity).
  assert (BT : b_top o2 = b_top o) by (unfold b_top; rewrite F9; reflexivity).
  assert (BB : b_bottom o2 = b_bottom o) by (unfold b_bottom; rewrite F9; reflexivity).
  assert (IW : img_w o2 n = img_w o n) by (unfold img_w; rewrite BW, BL, BR; reflexivity).
  assert (IH : img_h o2 n = img_h o n) by (unfold img_h; rewrite BW, BT, BB; reflexivity).
  rewrite IW, IH in *. exists cv2, o3. split; [exact E2|]. intros px py Hx Hy.
  destruct (HP1 px py Hx Hy) as (c1 & [B11 B12] & C1). destruct (HP2 px py Hx Hy) as (c2 & [B21 B22] & C2).
  unfold logo_place in C1, C2. rewrite F4 in C2. rewrite ELo in C1, C2. rewrite C1, C2.
  assert (S1 : forall x y, safe_b o n x y = false) by (intros; unfold safe_b, logo_info; rewrite ELo; reflexivity).
  assert (S2 : forall x y, safe_b o2 n x y = false) by (intros; unfold safe_b, logo_info; rewrite F4, ELo; reflexivity).
  assert (A1 : c_a (border_color o) = 0) by (unfold border_color; rewrite ET; reflexivity).
  assert (A2 : c_a (border_color o2) = 0) by (unfold border_color; rewrite F1, ET; reflexivity).
  destruct (Z.ltb_spec px (b_left o)); [right; rewrite B12, B22 by (unfold in_symbol; rewrite ?BL; lia); auto|].
  destruct (Z.ltb_spec px (b_left o + n * qrBlockWidth o)); [|right; rewrite B12, B22 by (unfold in_symbol; rewrite ?BL, ?BW; lia); auto].
  destruct (Z.ltb_spec py (b_top o)); [right; rewrite B12, B22 by (unfold in_symbol; rewrite ?BT; lia); auto|].
  destruct (Z.ltb_spec py (b_top o + n * qrBlockWidth o)); [|right; rewrite B12, B22 by (unfold in_symbol; rewrite ?BT, ?BW; lia); auto].
  pose proof (block_width_range o) as HB.
  set (x := (px - b_left o) / qrBlockWidth o). set (y := (py - b_top o) / qrBlockWidth o).
  pose proof (Z.div_mod (px - b_left o) (qrBlockWidth o) ltac:(lia)) as DX. pose proof (Z.mod_pos_bound (px - b_left o) (qrBlockWidth o) ltac:(lia)) as MX. fold x in DX.
  pose proof (Z.div_mod (py - b_top o) (qrBlockWidth o) ltac:(lia)) as DY. pose proof (Z.mod_pos_bound (py - b_top o) (qrBlockWidth o) ltac:(lia)) as MY. fold y in DY.
  assert (Rx : 0 <= x < n) by (split; [apply Z.div_pos; lia|apply Z.div_lt_upper_bound; lia]).
  assert (Ry : 0 <= y < n) by (split; [apply Z.div_pos; lia|apply Z.div_lt_upper_bound; lia]).
  assert (M1 : in_module o x y px py) by (unfold in_module; lia).
  assert (M2 : in_module o2 x y px py) by (unfold in_module; rewrite BL, BT, BW; lia).
  rewrite (B11 x y Rx Ry M1), (B21 x y Rx Ry M2), S1, S2, F2. destruct (module_at (m_bitmap m) x y); cbn [negb andb]; [left; reflexivity|right; auto].
Qed.
