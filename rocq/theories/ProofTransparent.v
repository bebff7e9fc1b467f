(* Two drawings with different transparent backgrounds (for C47 and C89). *)
From Coq Require Import Lia.
From Verif Require Import ModelBase ModelMatrix ModelStandard.
From Verif Require Import SpecReader SpecMatrix SpecStandard SpecTransparent ProofBase ProofStandard ProofFrame ProofGradient.

Definition twin (c d : rgba) : Prop := good c /\ good d /\ png_same c d.

Lemma over_at_clear ma d : good d -> over_at ma d (mkRGBA 0 0 0 0) = d.
Proof.
  intros (A & B & C & D). unfold over_at. cbn [c_r c_g c_b c_a]. unfold over_at_channel. cbn [Z.mul Z.div].
  assert (X : forall v, SpecStandard.byte v -> (v * ((65535 - 0 * 257 * ma / 65535) * 257) + 0 * 257 * ma) mod 2 ^ 32 / 65535 / 256 mod 256 = v).
  { intros v HV. unfold SpecStandard.byte in HV. change (0 * 257 * ma) with 0. change (0 / 65535) with 0. replace (v * ((65535 - 0) * 257) + 0) with (v * 257 * 65535) by lia.
    change (2 ^ 32) with 4294967296. assert (BV : 0 <= v * 257 * 65535 < 4294967296) by nia. rewrite (Z.mod_small (v * 257 * 65535)) by exact BV. rewrite Z.div_mul by lia. replace (v * 257) with (v + v * 256) by lia. rewrite Z.div_add by lia. rewrite (Z.div_small v 256) by lia. rewrite Z.add_0_l. apply Z.mod_small. lia. }
  change (0 * 257 * ma) with 0 in *. rewrite !X by assumption. destruct d; reflexivity.
Qed.

Definition sharp (k : call) : Prop := k_color k = mkRGBA 0 0 0 0 \/ (opaque (k_color k) /\ forall px py, k_area k px py = 0 \/ k_area k px py = 64 * 64).
Lemma twin_paint px py ks : (forall k, In k ks -> sharp k) -> forall c d, twin c d -> twin (paint px py ks c) (paint px py ks d).
Proof.
  unfold paint. induction ks as [|k ks IH]; intros HK c d T; [exact T|]. cbn [fold_left]. apply IH; [intros; apply HK; right; assumption|].
  destruct T as (GC & GD & P). destruct (Z.eqb_spec (k_area k px py) 0) as [E|E]; [repeat split; auto; apply GC || apply GD|].
  destruct (HK k (or_introl eq_refl)) as [CL|[[GK OK] AR]].
  - rewrite CL, !over_at_clear by assumption. repeat split; auto; apply GC || apply GD.
  - destruct (AR px py) as [A|A]; [contradiction|]. rewrite A, !over_full. rewrite (over_opaque c) by assumption. rewrite (over_opaque d) by assumption.
    repeat split; try apply GK; left; reflexivity.
Qed.

Lemma twin_gradient fg g cv cv' : opaque fg -> (forall px py, twin (cv px py) (cv' px py)) -> forall px py, twin (apply_gradient cv fg g px py) (apply_gradient cv' fg g px py).
Proof.
  intros [_ HF] T px py. destruct (T px py) as (_ & _ & P). unfold apply_gradient, over_image. split; [apply good_over|]. split; [apply good_over|].
  destruct P as [->|[A B]]; [left; reflexivity|right].
  assert (NE : forall c, c_a c = 0 -> rgba_eqb c fg = false).
  { intros c HC. destruct (rgba_eqb c fg) eqn:E; [|reflexivity]. apply rgba_eqb_iff in E. subst c. lia. }
  rewrite (NE _ A), (NE _ B). unfold over, clamp. cbn [c_a]. rewrite A, B. split; reflexivity.
Qed.

Lemma twin_logo i x y cv cv' : no_translucency i -> (forall px py, twin (cv px py) (cv' px py)) -> forall px py, twin (draw_image cv i x y px py) (draw_image cv' i x y px py).
Proof.
  intros HI T px py. destruct (T px py) as (GC & GD & P). unfold draw_image. destruct (_ && _ && _ && _)%bool; [|exact (T px py)].
  destruct (HI (px - x) (py - y)) as [GI [A|A]].
  - unfold over_image. split; [apply good_over|]. split; [apply good_over|]. destruct P as [->|[B C]]; [left; reflexivity|right].
    unfold over, clamp. cbn [c_a]. rewrite A, B, C. split; reflexivity.
  - rewrite !over_image_opaque by (assumption || (split; assumption)). repeat split; try apply GI. left. reflexivity.
Qed.

Lemma twin_borders o o2 : same_but_bg o o2 -> o_bgTransparent o = true -> good (o_bgColor o) -> good (o_bgColor o2) -> twin (border_color o) (border_color o2).
Proof.
  intros A T G G2. destruct (same_fields _ _ A) as (F1 & _). split; [apply good_border; exact G|]. split; [apply good_border; exact G2|].
  right. unfold border_color. rewrite F1, T. split; reflexivity.
Qed.

(* the calls do not depend on the background *)
Lemma same_calls scale o o2 n t t2 m x y : same_but_bg o o2 -> o_bgTransparent o = true ->
  Forall2 (fun k k' => k_color k' = k_color k /\ forall px py, k_area k' px py = k_area k px py) (calls_at scale o n t m x y) (calls_at scale o2 n t2 m x y).
Proof.
  intros [c ->] T.
  assert (R : forall l, Forall2 (fun k k' => k_color k' = k_color k /\ forall px py, k_area k' px py = k_area k px py) l l) by (induction l; constructor; auto).
  unfold calls_at, light. cbn [o_bgTransparent set_bgColor o_qrColor o_halftone]. rewrite T.
  change (safe_b (set_bgColor c o) n) with (safe_b o n). change (qrBlockWidth (set_bgColor c o)) with (qrBlockWidth o).
  change (b_left (set_bgColor c o)) with (b_left o). change (b_top (set_bgColor c o)) with (b_top o).
  unfold module_calls. cbv zeta. destruct (_ && _)%bool; [constructor|].
  destruct (_ =? _); [constructor; [|constructor]; split; [reflexivity|intros; reflexivity]|].
  destruct (_ =? _); [|constructor; [|constructor]; split; [reflexivity|intros; reflexivity]].
  destruct (match o_halftone o with Some _ => _ | None => _ end); [apply R|constructor; [|constructor]; split; [reflexivity|intros; reflexivity]].
Qed.
Lemma paint_same px py ks : forall ks' c, Forall2 (fun k k' => k_color k' = k_color k /\ forall px py, k_area k' px py = k_area k px py) ks ks' -> paint px py ks' c = paint px py ks c.
Proof.
  unfold paint. induction ks as [|k ks IH]; intros ks' c HF; inversion HF as [|? k' ? l' [E1 E2] HL]; subst; [reflexivity|]. cbn [fold_left]. rewrite E1, E2. apply IH. exact HL.
Qed.

(* with whole blocks the calls are sharp *)
Lemma third_plain x b i : b mod 3 = 0 -> fix26_6 x (i * b) = 64 * (x + i * (b / 3)).
Proof. intros D. unfold fix26_6. pose proof (Z.div_mod b 3 ltac:(lia)) as E. rewrite D in E. replace (64 * (3 * x + i * b)) with (64 * (x + i * (b / 3)) * 3) by nia. apply Z.quot_mul. lia. Qed.
Lemma overlap_whole a b p : a <= b -> overlap64 (64 * a) (64 * b) p = 0 \/ overlap64 (64 * a) (64 * b) p = 64.
Proof. intros HA. unfold overlap64. lia. Qed.
Lemma area_whole k px py : (exists a b c d, a <= b /\ c <= d /\ fix26_6 (k_x k) (k_tx k) = 64 * a /\ fix26_6 (k_x k + k_w k) (k_tx k) = 64 * b /\
  fix26_6 (k_y k) (k_ty k) = 64 * c /\ fix26_6 (k_y k + k_h k) (k_ty k) = 64 * d) -> k_area k px py = 0 \/ k_area k px py = 64 * 64.
Proof.
  intros (a & b & c & d & HA & HC & E1 & E2 & E3 & E4). unfold k_area. rewrite E1, E2, E3, E4.
  destruct (overlap_whole a b px HA) as [-> | ->], (overlap_whole c d py HC) as [-> | ->]; lia.
Qed.

Lemma sharp_calls scale o n t m x y : o_bgTransparent o = true -> opaque (o_qrColor o) -> whole_blocks o -> forall k, In k (calls_at scale o n t m x y) -> sharp k.
Proof.
  intros T HF WB k HK. pose proof (block_width_range o) as HB.
  set (col := if qrbool (rawget m x y) then o_qrColor o else light o).
  assert (HC : col = mkRGBA 0 0 0 0 \/ opaque col) by (unfold col, light; rewrite T; destruct (qrbool _); auto).
  assert (PL : forall f nb, sharp (mkCall f (x * qrBlockWidth o + b_left o) 0 (y * qrBlockWidth o + b_top o) 0 (qrBlockWidth o) (qrBlockWidth o) col nb)).
  { intros f nb. destruct HC as [HC|HC]; [left; exact HC|right]. split; [exact HC|]. intros px py. apply area_whole. cbn [k_x k_y k_w k_h k_tx k_ty]. rewrite !fix_plain.
    exists (x * qrBlockWidth o + b_left o), (x * qrBlockWidth o + b_left o + qrBlockWidth o), (y * qrBlockWidth o + b_top o), (y * qrBlockWidth o + b_top o + qrBlockWidth o). lia. }
  unfold calls_at, module_calls in HK. cbv zeta in HK. fold col in HK. destruct (_ && _)%bool; [destruct HK|].
  destruct (_ =? _); [destruct HK as [<-|[]]; apply PL|]. destruct (_ =? _); [|destruct HK as [<-|[]]; apply PL].
  destruct (o_halftone o) as [img|] eqn:EH; [|destruct HK as [<-|[]]; apply PL].
  specialize (WB ltac:(rewrite EH; discriminate)). unfold halftone_calls in HK. apply in_flat_map in HK as (i & Ri & HK). apply in_map_iff in HK as (j & <- & Rj).
  set (cc := if (i =? 1) && (j =? 1) then col else halftoneColor (scale img (n * 3) (x * 3 + i) (y * 3 + j)) (o_bgTransparent o)).
  assert (HCC : cc = mkRGBA 0 0 0 0 \/ opaque cc).
  { unfold cc. destruct (_ && _)%bool; [exact HC|]. unfold halftoneColor. rewrite T. destruct (_ =? _); [left; reflexivity|right]. unfold opaque, good, SpecStandard.byte. cbn. lia. }
  destruct HCC as [HCC|HCC]; [left; exact HCC|right]. split; [exact HCC|]. intros px py. apply area_whole. cbn [k_x k_y k_w k_h k_tx k_ty]. rewrite !third_plain by exact WB.
  assert (Q : 0 <= Z.quot (qrBlockWidth o) 3) by (apply Z.quot_pos; lia). set (b := qrBlockWidth o) in *.
  exists (x * b + b_left o + i * (b / 3)), (x * b + b_left o + Z.quot b 3 + i * (b / 3)), (y * b + b_top o + j * (b / 3)), (y * b + b_top o + Z.quot b 3 + j * (b / 3)). lia.
Qed.

Lemma twins others scale n m o o2 : square n m -> same_but_bg o o2 -> o_bgTransparent o = true -> getShape o = ShapeRectangle -> opaque (o_qrColor o) ->
  good (o_bgColor o) -> good (o_bgColor o2) -> whole_blocks o -> (forall i, o_logo o = Some i -> no_translucency i) ->
  exists w h cv cv' o3 o4, draw others scale m o = Some (w, h, cv, o3) /\ draw others scale m o2 = Some (w, h, cv', o4) /\
    forall px py, 0 <= px < img_w o n -> 0 <= py < img_h o n -> png_same (cv px py) (cv' px py).
Proof.
  intros HS A T EG HF GB GB2 WB HL. destruct (draw_spec others scale n m o HS EG) as (t & o3 & E1 & _).
  assert (EG2 : getShape o2 = ShapeRectangle) by (rewrite (getShape_same o o2 A); exact EG).
  destruct (draw_spec others scale n m o2 HS EG2) as (t2 & o4 & E2 & _).
  pose proof (twin_borders o o2 A T GB GB2) as TB. pose proof (same_fields _ _ A) as (F1 & F2 & F3 & F4 & F5 & F6 & F7 & F8 & F9 & F10).
  assert (SC := fun x y => same_calls scale o o2 n t t2 m x y A T).
  assert (IW : img_w o2 n = img_w o n /\ img_h o2 n = img_h o n /\ logo_place o2 n = logo_place o n) by (destruct A as [c ->]; repeat split; reflexivity).
  destruct IW as (IW & IH & IL). rewrite IW, IH, IL, F2, F3 in E2. cbv zeta in E1, E2.
  set (ks := flat_map (fun '(x, y) => calls_at scale o n t m x y) (iter_coords IterDirection_ROW n n)) in *.
  set (ks2 := flat_map (fun '(x, y) => calls_at scale o2 n t2 m x y) (iter_coords IterDirection_ROW n n)) in *.
  assert (SK : Forall2 (fun k k' => k_color k' = k_color k /\ forall px py, k_area k' px py = k_area k px py) ks ks2).
  { unfold ks, ks2. clear -SC. induction (iter_coords IterDirection_ROW n n) as [|[x y] l IHl]; [constructor|]. cbn [flat_map]. apply Forall2_app; [exact (SC x y)|exact IHl]. }
  assert (SH : forall k, In k ks -> sharp k).
  { intros k HK. apply in_flat_map in HK as ([x y] & _ & HK). exact (sharp_calls scale o n t m x y T HF WB k HK). }
  do 6 eexists. split; [exact E1|]. split; [exact E2|]. intros px0 py0 _ _.
  set (base := fold_left rectangle_draw ks (fill_rect blank 0 0 (img_w o n) (img_h o n) (border_color o))).
  set (base2 := fold_left rectangle_draw ks2 (fill_rect blank 0 0 (img_w o n) (img_h o n) (border_color o2))).
  assert (GZ : good (mkRGBA 0 0 0 0)) by (unfold good, SpecStandard.byte; cbn; lia).
  assert (TW : forall px py, twin (base px py) (base2 px py)).
  { intros px py. unfold base, base2. rewrite !paint_canvas. rewrite (paint_same px py ks ks2 _ SK). apply twin_paint; [exact SH|]. unfold fill_rect. destruct (_ && _ && _ && _)%bool.
    - unfold blank. destruct TB as (B1 & B2 & B3). rewrite !over_blank by assumption. repeat split; auto; apply B1 || apply B2.
    - unfold blank. repeat split; try apply GZ; left; reflexivity. }
  assert (TG : forall px py, twin (match o_gradient o with Some g => apply_gradient base (o_qrColor o) g | None => base end px py)
                                  (match o_gradient o with Some g => apply_gradient base2 (o_qrColor o) g | None => base2 end px py)).
  { destruct (o_gradient o) as [g|]; [|exact TW]. intros px py. exact (twin_gradient (o_qrColor o) g base base2 HF TW px py). }
  assert (LI : forall i x y, logo_place o n = Some (i, x, y) -> o_logo o = Some i).
  { intros i x y LP. apply place_spec in LP. apply LP. }
  destruct (logo_place o n) as [[[i x] y]|]; [|apply TG]. apply (twin_logo i x y _ _ (HL i (LI i x y eq_refl)) TG px0 py0).
Qed.
