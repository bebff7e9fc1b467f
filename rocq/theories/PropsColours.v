(* C37 for every colour: what the standard writer paints when foreground or background are translucent. *)
From Coq Require Import Lia.
From Verif Require Import ModelBase ModelMatrix ModelStandard.
From Verif Require Import SpecReader SpecMatrix SpecStandard ProofBase ProofMatrix ProofEval ProofViews ProofStandard PropsStandard.

(* ---- specification ---- *)
(* the values color.RGBA may hold by its documentation: bytes, premultiplied by alpha *)
Definition premultiplied (c : rgba) : Prop := good c /\ c_r c <= c_a c /\ c_g c <= c_a c /\ c_b c <= c_a c.
(* one channel of a colour with the given alpha laid over another (Porter and Duff's "over": src + dst * (1 - alpha)), as a byte that is
   less than one step from the exact value *)
Definition blends_channel (dst src alpha res : Z) : Prop := Z.abs (255 * res - (255 * src + dst * (255 - alpha))) < 255.
Definition blends (dst src res : rgba) : Prop :=
  good res /\
  blends_channel (c_r dst) (c_r src) (c_a src) (c_r res) /\ blends_channel (c_g dst) (c_g src) (c_a src) (c_g res) /\
  blends_channel (c_b dst) (c_b src) (c_a src) (c_b res) /\ blends_channel (c_a dst) (c_a src) (c_a src) (c_a res).

(* ---- proofs ---- *)
Lemma over_channel_blends d s a : byte d -> 0 <= s <= a -> a <= 255 -> blends_channel d s a (over_channel d s a).
Proof.
  intros HD HS HA. unfold blends_channel, over_channel, byte in *. change (2 ^ 32) with 4294967296.
  assert (T : exists t, d * (255 - a) = t /\ 0 <= t <= 255 * (255 - a)) by (eexists; split; [reflexivity|]; nia).
  destruct T as (t & ET & HT). rewrite ET. replace (d * ((65535 - a * 257) * 257) + s * 257 * 65535) with (t * 66049 + s * 16842495) by (subst t; ring).
  rewrite (Z.mod_small (t * 66049 + s * 16842495) 4294967296) by lia. rewrite Z.div_div by lia.
  rewrite (Z.mod_small _ 256); [|split; [apply Z.div_pos; lia|apply Z.div_lt_upper_bound; lia]].
  pose proof (Z.div_mod (t * 66049 + s * 16842495) (65535 * 256) ltac:(lia)) as E.
  pose proof (Z.mod_pos_bound (t * 66049 + s * 16842495) (65535 * 256) ltac:(lia)) as B. lia.
Qed.

Lemma over_blends d s : good d -> premultiplied s -> blends d s (over d s).
Proof.
  intros (D1 & D2 & D3 & D4) ((S1 & S2 & S3 & S4) & P1 & P2 & P3). unfold byte in *.
  split; [apply good_over|]. unfold over. cbn [c_r c_g c_b c_a].
  repeat split; apply over_channel_blends; unfold byte; lia.
Qed.

Lemma over_self_alpha a : byte a -> (over_channel a a a = a <-> a = 0 \/ a = 255).
Proof.
  intros HA. assert (SW : forallb (fun a => Bool.eqb (over_channel a a a =? a) ((a =? 0) || (a =? 255))) (upto 256) = true) by (vm_compute; reflexivity).
  rewrite forallb_forall in SW. specialize (SW a). assert (IU : In a (upto 256)) by (apply in_upto; unfold byte in HA; lia). specialize (SW IU).
  apply Bool.eqb_prop in SW. rewrite <- Z.eqb_eq, SW, orb_true_iff, !Z.eqb_eq. reflexivity.
Qed.

Lemma over_self_iff c : premultiplied c -> (over c c = c <-> c_a c = 0 \/ c_a c = 255).
Proof.
  intros ((S1 & S2 & S3 & S4) & P1 & P2 & P3). split.
  - intros E. apply over_self_alpha; [exact S4|]. apply (f_equal c_a) in E. exact E.
  - unfold byte in *. intros [E|E].
    + assert (C0 : c = mkRGBA 0 0 0 0) by (destruct c as [r g b a]; cbn [c_r c_g c_b c_a] in *; f_equal; lia). rewrite C0. reflexivity.
    + apply over_opaque; auto; repeat split; unfold byte; lia.
Qed.

(* the pixels with rectangles and neither logo nor halftone nor gradient, as compositions *)
Lemma plain_pixels others scale n m o : square n m -> getShape o = ShapeRectangle -> o_logo o = None -> o_halftone o = None -> o_gradient o = None ->
  good (o_bgColor o) ->
  exists cv o', draw others scale m o = Some (Z.abs (img_w o n), Z.abs (img_h o n), cv, o') /\
    forall px py, 0 <= px < img_w o n -> 0 <= py < img_h o n ->
      (forall x y, 0 <= x < n -> 0 <= y < n -> in_module o x y px py ->
         cv px py = over (border_color o) (if module_at (m_bitmap m) x y then o_qrColor o else light o)) /\
      (~ in_symbol o n px py -> cv px py = border_color o).
Proof.
  intros HS EG EL EH EGr HG. pose proof HS as (HW & EW & EHt). destruct (draw_spec others scale n m o HS EG) as (t & o' & -> & ST & _).
  rewrite EGr. unfold logo_place. rewrite EL. cbv zeta. eexists. exists o'. split; [reflexivity|]. intros px py Hx Hy.
  destruct (canvas_spec scale o n t m px py Hx Hy (good_border o HG)) as [C1 C2]. split; [|exact C2].
  intros x y Rx Ry HM. rewrite (C1 x y Rx Ry HM), paint_plain by auto.
  assert (NS : safe_b o n x y = false) by (unfold safe_b, logo_info; rewrite EL; reflexivity). rewrite NS. cbn [andb].
  rewrite module_at_bitmap by (auto; split; lia). reflexivity.
Qed.

(* ---- theorems ---- *)
(* any colours: the border has the background colour; a dark module is the foreground laid over the background, a light one the background
   laid over itself *)
Theorem C37_pixels_any_colour :
  forall others scale n m o, square n m -> getShape o = ShapeRectangle -> o_logo o = None -> o_halftone o = None -> o_gradient o = None ->
  premultiplied (o_qrColor o) -> premultiplied (o_bgColor o) -> o_bgTransparent o = false ->
  exists cv o', draw others scale m o = Some (Z.abs (img_w o n), Z.abs (img_h o n), cv, o') /\
    forall px py, 0 <= px < img_w o n -> 0 <= py < img_h o n ->
      (forall x y, 0 <= x < n -> 0 <= y < n -> in_module o x y px py ->
         if module_at (m_bitmap m) x y then blends (o_bgColor o) (o_qrColor o) (cv px py) else blends (o_bgColor o) (o_bgColor o) (cv px py)) /\
      (~ in_symbol o n px py -> cv px py = o_bgColor o).
Proof.
  intros others scale n m o HS EG EL EH EGr PF PB EB.
  destruct (plain_pixels others scale n m o HS EG EL EH EGr (proj1 PB)) as (cv & o' & E & HP). exists cv, o'. split; [exact E|].
  intros px py Hx Hy. destruct (HP px py Hx Hy) as [A B]. unfold border_color, light in *. rewrite EB in *. split; [|exact B].
  intros x y Rx Ry HM. rewrite (A x y Rx Ry HM). destruct (module_at (m_bitmap m) x y); apply over_blends; auto; apply PB.
Qed.

(* so light modules have the background colour iff that is opaque or fully transparent *)
Theorem C37_light_modules_iff :
  forall others scale n m o, square n m -> getShape o = ShapeRectangle -> o_logo o = None -> o_halftone o = None -> o_gradient o = None ->
  premultiplied (o_bgColor o) -> o_bgTransparent o = false ->
  exists cv o', draw others scale m o = Some (Z.abs (img_w o n), Z.abs (img_h o n), cv, o') /\
    forall px py x y, 0 <= px < img_w o n -> 0 <= py < img_h o n -> 0 <= x < n -> 0 <= y < n -> in_module o x y px py ->
      module_at (m_bitmap m) x y = false -> (cv px py = o_bgColor o <-> c_a (o_bgColor o) = 0 \/ c_a (o_bgColor o) = 255).
Proof.
  intros others scale n m o HS EG EL EH EGr PB EB.
  destruct (plain_pixels others scale n m o HS EG EL EH EGr (proj1 PB)) as (cv & o' & E & HP). exists cv, o'. split; [exact E|].
  intros px py x y Hx Hy Rx Ry HM EM. destruct (HP px py Hx Hy) as [A _]. rewrite (A x y Rx Ry HM), EM. unfold border_color, light. rewrite EB.
  apply over_self_iff, PB.
Qed.

(* WithBgTransparent: what is light is fully transparent, what is dark as transparent as the foreground colour *)
Theorem C37_transparent_any_colour :
  forall others scale n m o, square n m -> getShape o = ShapeRectangle -> o_logo o = None -> o_halftone o = None -> o_gradient o = None ->
  good (o_qrColor o) -> good (o_bgColor o) -> o_bgTransparent o = true ->
  exists cv o', draw others scale m o = Some (Z.abs (img_w o n), Z.abs (img_h o n), cv, o') /\
    forall px py, 0 <= px < img_w o n -> 0 <= py < img_h o n ->
      (forall x y, 0 <= x < n -> 0 <= y < n -> in_module o x y px py ->
         c_a (cv px py) = if module_at (m_bitmap m) x y then c_a (o_qrColor o) else 0) /\
      (~ in_symbol o n px py -> c_a (cv px py) = 0).
Proof.
  intros others scale n m o HS EG EL EH EGr PF PB EB.
  destruct (plain_pixels others scale n m o HS EG EL EH EGr PB) as (cv & o' & E & HP). exists cv, o'. split; [exact E|].
  intros px py Hx Hy. destruct (HP px py Hx Hy) as [A B]. unfold border_color, light in *. rewrite EB in *. split; [|intros N; rewrite (B N); reflexivity].
  intros x y Rx Ry HM. rewrite (A x y Rx Ry HM). destruct (module_at (m_bitmap m) x y); unfold over; cbn [c_a]; apply over_channel_blank; try apply PF; unfold byte; cbn [c_a]; lia.
Qed.

(* a half transparent green on a half transparent grey; block width 1, border 1, 0, 0, 1 *)
Example C37_any_colour_example :
  exists o, NewWithWriter (fun _ => None) [WithQRWidth 1; WithBorderWidth [1; 0; 0; 1];
      WithBgColor (Some (ColorRGBA (mkRGBA 100 100 100 128))); WithFgColor (Some (ColorRGBA (mkRGBA 0 90 0 128)))] = Some o /\
    square 2 sample /\ getShape o = ShapeRectangle /\ o_logo o = None /\ o_halftone o = None /\ o_gradient o = None /\
    premultiplied (o_qrColor o) /\ premultiplied (o_bgColor o) /\ o_bgTransparent o = false /\
    let G := mkRGBA 100 100 100 128 in let L := mkRGBA 150 150 150 192 in let D := mkRGBA 49 140 49 192 in
    rows (draw (fun _ cv _ => cv) (fun _ _ _ _ => 0) sample o) = Some [[G; G; G]; [G; L; D]; [G; L; L]].
Proof.
  eexists. split; [reflexivity|]. split; [do 2 apply square_set; apply square_new; lia|]. do 4 (split; [reflexivity|]).
  split; [unfold premultiplied, good, byte; cbn; lia|]. split; [unfold premultiplied, good, byte; cbn; lia|]. split; [reflexivity|]. vm_compute. reflexivity.
Qed.

Print Assumptions C37_pixels_any_colour.
Print Assumptions C37_light_modules_iff.
Print Assumptions C37_transparent_any_colour.
