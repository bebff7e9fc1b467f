(* C47 and C89 with WithBgTransparent: what a PNG shows. *)
From Coq Require Import Lia.
From Verif Require Import ModelBase ModelMatrix ModelStandard ModelPaint.
From Verif Require Import SpecReader SpecMatrix SpecStandard SpecPaint SpecTransparent ProofBase ProofViews ProofStandard ProofTransparent PropsStandard PropsPaint.

(* the default shape, any gradient, a logo without translucent pixels, and a halftone picture only if the block width is a multiple of
   three: the second Write shows what the first showed; pixels differ only where both are fully transparent *)
Theorem C47_transparent_partial :
  forall others scale n m o, square n m -> o_bgTransparent o = true -> getShape o = ShapeRectangle -> opaque (o_qrColor o) -> good (o_bgColor o) ->
  whole_blocks o -> (forall i, o_logo o = Some i -> no_translucency i) ->
  exists w h cv o' cv' o'', draw others scale m o = Some (w, h, cv, o') /\ draw others scale m o' = Some (w, h, cv', o'') /\
    forall px py, 0 <= px < img_w o n -> 0 <= py < img_h o n -> png_same (cv px py) (cv' px py).
Proof.
  intros others scale n m o HS T EG HF GB WB HL. destruct (draw_spec others scale n m o HS EG) as (t & o' & E & [[A GA] _] & _).
  destruct (twins others scale n m o o' HS A T EG HF GB (GA GB) WB HL) as (w & h & cv & cv' & o3 & o4 & E1 & E2 & P).
  exists w, h, cv, o3, cv', o4. split; [exact E1|]. split; [|exact P]. rewrite E in E1. injection E1 as _ _ _ <-. exact E2.
Qed.
Print Assumptions C47_transparent_partial.

(* goroutines that draw at once: the same *)
Theorem C89_transparent_png_partial :
  forall others scale n o ms sched i m bytes, square n m -> o_bgTransparent o = true -> getShape o = ShapeRectangle -> opaque (o_qrColor o) -> good (o_bgColor o) ->
  whole_blocks o -> (forall i, o_logo o = Some i -> no_translucency i) ->
  nth_error ms i = Some m -> has_drawn (paint_run (paint_start o ms) sched) i bytes ->
  exists w h cv cv' o', draw others scale m o = Some (w, h, cv, o') /\ painted others scale m o bytes = Some (w, h, cv') /\
    forall px py, 0 <= px < img_w o n -> 0 <= py < img_h o n -> png_same (cv px py) (cv' px py).
Proof.
  intros others scale n o ms sched i m bytes HS T EG HF GB WB HL EM HD. destruct (C89_every_picture others scale o ms sched i m bytes EM HD) as (c & AB & E).
  assert (GC : good c).
  { unfold a_background in AB. rewrite T in AB. destruct AB as (A1 & A2 & A3 & A4), GB as (B1 & B2 & B3 & B4). unfold good, SpecStandard.byte in *.
    destruct A2 as [-> | ->], A3 as [-> | ->], A4 as [-> | ->]; rewrite A1; lia. }
  destruct (twins others scale n m o (set_bgColor c o) HS (ex_intro _ c eq_refl) T EG HF GB GC WB HL) as (w & h & cv & cv' & o3 & o4 & E1 & E2 & P).
  exists w, h, cv, cv', o3. rewrite E, E2. auto.
Qed.
Print Assumptions C89_transparent_png_partial.

(* ---- the hypotheses can not be dropped: otherwise pixels that are not fully transparent change ---- *)
Definition twice (scale : image -> Z -> Z -> Z -> Z) (opts : list image_option) (px py : Z) : option (rgba * rgba) :=
  match NewWithWriter (fun _ => None) opts with
  | Some o => match draw (fun _ cv _ => cv) scale sample o with
              | Some (_, _, cv, o') => match draw (fun _ cv _ => cv) scale sample o' with Some (_, _, cv', _) => Some (cv px py, cv' px py) | None => None end
              | None => None
              end
  | None => None
  end.

(* a dark halftone picture, blocks of four pixels: the sub-blocks end within pixels, whose colour is mixed with the colour of the
   transparent background: white in the first picture, black in the second *)
Theorem C47_halftone_refuted :
  exists opts px py c d, opts = [WithBgTransparent; WithQRWidth 4; WithBorderWidth [0; 0; 0; 0]; WithHalftoneImage (Some (mkImage 0 0 1 1 (fun _ _ => color_BLACK)))] /\
    twice (fun _ _ _ _ => 0) opts px py = Some (c, d) /\ 0 < c_a c < 255 /\ ~ png_same c d.
Proof.
  eexists. exists 6, 0. do 2 eexists. split; [reflexivity|]. split; [vm_compute; reflexivity|]. cbn. split; [lia|]. intros [F|[F _]]; discriminate F.
Qed.
Print Assumptions C47_halftone_refuted.

(* a logo with a translucent pixel beside the symbol *)
Theorem C47_translucent_logo_refuted :
  exists opts px py c d, opts = [WithBgTransparent; WithQRWidth 1; WithBorderWidth [0; 4; 0; 0]; WithLogoSizeMultiplier 1; WithLogoImage (Some (mkImage 0 0 1 1 (fun _ _ => mkRGBA 0 0 0 128)))] /\
    twice (fun _ _ _ _ => 0) opts px py = Some (c, d) /\ 0 < c_a c < 255 /\ ~ png_same c d.
Proof.
  eexists. exists 2, 0. do 2 eexists. split; [reflexivity|]. split; [vm_compute; reflexivity|]. cbn. split; [lia|]. intros [F|[F _]]; discriminate F.
Qed.
Print Assumptions C47_translucent_logo_refuted.

(* the hypotheses hold of a writer with halftone, gradient and logo *)
Example C47_transparent_example :
  exists o, NewWithWriter (fun _ => None) [WithBgTransparent; WithQRWidth 3; WithBorderWidth [0; 0; 0; 0]; WithHalftoneImage (Some (mkImage 0 0 1 1 (fun _ _ => color_BLACK))); WithLogoImage (Some (mkImage 0 0 1 1 (fun _ _ => color_BLACK)))] = Some o /\
    o_bgTransparent o = true /\ getShape o = ShapeRectangle /\ opaque (o_qrColor o) /\ good (o_bgColor o) /\ whole_blocks o /\ (forall i, o_logo o = Some i -> no_translucency i) /\ square 2 sample.
Proof.
  eexists. split; [reflexivity|]. split; [reflexivity|]. split; [reflexivity|].
  split; [unfold opaque, good, SpecStandard.byte; cbn; lia|]. split; [unfold good, SpecStandard.byte; cbn; lia|]. split; [intros _; reflexivity|].
  split; [|do 2 apply square_set; apply square_new; lia].
  intros i E. assert (X : i = mkImage 0 0 1 1 (fun _ _ => color_BLACK)) by (assert (Y : Some i = Some (mkImage 0 0 1 1 (fun _ _ => color_BLACK))) by (rewrite <- E; reflexivity); injection Y as ->; reflexivity). subst i.
  intros x y. cbn [i_at]. unfold good, SpecStandard.byte, color_BLACK. cbn. lia.
Qed.
