(* C90: the example programs of the repository make pictures that can be read. *)
From Coq Require Import Lia.
From Verif Require Import ModelBase ModelMatrix ModelQRCode ModelSave ModelCompressed ModelStandard ModelFile ModelTerminal ModelWriters ModelFs ModelFloat ModelGradient ModelGradient64
  ModelShapes ModelExample ModelExamples.
From Verif Require Import SpecIso SpecReader SpecSegment SpecAPI SpecMatrix SpecStandard SpecMedium SpecShape SpecShapes SpecLogo SpecFloat64 SpecGradient SpecGradient64 SpecLocate SpecCombine SpecFs SpecText SpecTerminal SpecExamples.
From Verif Require Import Samples ProofBase ProofStandard ProofMedium ProofShape ProofExamples ProofHidden.
From Verif Require PropsCombine PropsLogo PropsFs PropsExample PropsShapes PropsGradient64 PropsSaved.
From Coq Require Import QArith Qabs.
Open Scope Z_scope.

Lemma style_rect others o d : getShape o = ShapeRectangle -> o_halftone o = None -> 0 <= d < qrBlockWidth o -> readable_style others o d.
Proof.
  intros ES EH HD. split; [|split; [exact HD|intros N; contradiction]]. unfold chosen_shape. rewrite ES.
  apply PropsCombine.C72_proper_shapes_link; [apply rectangle_proper|]; exact HD.
Qed.
Lemma style_proper others o d : proper_shape (chosen_shape others o) (qrBlockWidth o) d -> o_halftone o = None -> 0 <= d < qrBlockWidth o -> readable_style others o d.
Proof.
  intros PS EH HD. split; [|split; [exact HD|intros N; contradiction]]. apply PropsCombine.C72_proper_shapes_link; assumption.
Qed.
Lemma lossy_less t t' e encode decode : t <= t' -> lossy t e encode decode -> lossy t' e encode decode.
Proof.
  intros LE L w h cv EN. destruct (L w h cv EN) as (cv' & D & P). exists cv'. split; [exact D|]. intros px py X Y. specialize (P px py X Y). unfold within in *. lia.
Qed.
Ltac paints := unfold painter_colors, opaque, good, byte; cbn; repeat split; try lia; try discriminate.

(* black ink on an opaque white background, JPEG *)
Lemma black_on_white t o w : t <= 127 -> o_gradient o = None -> o_qrColor o = color_BLACK -> o_bgColor o = color_WHITE -> painter_colors o -> 0 < w ->
  (forall px py, 0 <= px < w -> 0 <= py < w -> opaque (ink o px py)) /\ tells_apart (within t) o w w looks_dark.
Proof.
  intros T EG EQ EB PC W. assert (D : PropsCombine.dark_colors o w w [color_BLACK]) by (left; rewrite EQ; split; [exact EG|reflexivity]). split.
  - intros px py _ _. apply (PropsCombine.ink_opaque o w w [color_BLACK] px py PC D).
  - apply (PropsCombine.C72_jpeg_tells_apart t o w w [color_BLACK] W W D); [intros c [<-|[]]; change (brightness color_BLACK) with 0; lia|rewrite EB; change (brightness color_WHITE) with 765; lia].
Qed.
(* black ink on a transparent background, PNG *)
Lemma black_on_nothing o w : o_gradient o = None -> o_qrColor o = color_BLACK -> o_bgTransparent o = true -> painter_colors o -> 0 < w ->
  (forall px py, 0 <= px < w -> 0 <= py < w -> opaque (ink o px py)) /\ tells_apart eq o w w covered.
Proof.
  intros EG EQ ET PC W. assert (D : PropsCombine.dark_colors o w w [color_BLACK]) by (left; rewrite EQ; split; [exact EG|reflexivity]). split.
  - intros px py _ _. apply (PropsCombine.ink_opaque o w w [color_BLACK] px py PC D).
  - split.
    + intros px py c _ _ <-. unfold ink. rewrite EG, EQ. reflexivity.
    + intros l c L <-. unfold is_light in L. rewrite ET in L. rewrite L. reflexivity.
Qed.

Section C90.
Context (resolve : path -> Z) (may_read may_create : path -> bool) (decode_png decode_jpeg : list Z -> option image).
Context (sjis : Z -> option (list Z)) (scan : list Z -> option rgba) (encode : encoder -> Z * Z * canvas -> list (list Z)) (fails : nat -> option nat)
        (others : shape -> canvas -> call -> canvas) (scale : image -> Z -> Z -> Z -> Z) (decode : list Z -> option (Z * Z * canvas)).
Context (C : shift_jis_contract sjis) (NF : forall k, fails k = None).
Notation fn f := (f resolve may_read may_create decode_png decode_jpeg sjis scan encode fails others scale).
Notation leaves := (leaves_picture resolve decode).

(* ---- the functions of example.go, for any content that New accepts ---- *)
Section Content.
Context (content : list Init.Byte.byte) (sched : list actor) (q : QRCode) (fs : fsys).
Context (HN : New sjis (GoString content) sched = Ok q) (NM : ~ misdetected sjis [] (text_bytes (GoString content))).
Notation reads := (reads_back sjis (GoString content)).
Notation n := (q_dimension q).

Ltac plain_example nr dk dd := unfold leaves_picture; cbv beta;
  eapply (run_plain resolve may_read may_create decode_png decode_jpeg sjis scan encode fails others scale C NF decode nr) with (dark := dk) (d := dd) (q := q);
  [exact HN|exact NM|reflexivity|assumption|reflexivity|reflexivity|reflexivity|lia|lia|..].

Theorem C90_qr_width : may_create (name "../assets/example/qrcode_with_qrwidth.png") = true -> lossy 127 JpegEncoder encode decode ->
  leaves (fn createQRWithQRWidth content sched) fs (name "../assets/example/qrcode_with_qrwidth.png") n 8 40 4 looks_dark reads.
Proof.
  intros MC J. plain_example (within 127) looks_dark 4.
  - left. reflexivity.
  - exact J.
  - apply style_rect; [reflexivity|reflexivity|cbn; lia].
  - paints.
  - intros X. contradiction.
  - reflexivity.
  - cbv zeta. intros W. apply black_on_white; [lia|reflexivity|reflexivity|reflexivity|paints|exact W].
Qed.
Theorem C90_circle_shape : forall edge, others ShapeCircle = circle_draw edge ->
  may_create (name "../assets/example/qrcode_with_circleshape.png") = true -> lossy 127 JpegEncoder encode decode ->
  leaves (fn createQRWithCircleShape content sched) fs (name "../assets/example/qrcode_with_circleshape.png") n 20 40 10 looks_dark reads.
Proof.
  intros edge EC MC J. plain_example (within 127) looks_dark 10.
  - left. reflexivity.
  - exact J.
  - apply style_proper; [|reflexivity|cbn; lia]. unfold chosen_shape. cbn [getShape o_shape set_shape]. rewrite EC.
    match goal with |- proper_shape _ ?b _ => change b with 20 end. apply (circle_proper edge 20). lia.
  - paints.
  - intros X. contradiction.
  - reflexivity.
  - cbv zeta. intros W. apply black_on_white; [lia|reflexivity|reflexivity|reflexivity|paints|exact W].
Qed.
Theorem C90_border_width : may_create (name "../assets/example/qrcode_with_borderwidth.png") = true -> lossy 127 JpegEncoder encode decode ->
  leaves (fn createQRWithBorderWidth content sched) fs (name "../assets/example/qrcode_with_borderwidth.png") n 20 10 10 looks_dark reads.
Proof.
  intros MC J. plain_example (within 127) looks_dark 10.
  - left. reflexivity.
  - exact J.
  - apply style_rect; [reflexivity|reflexivity|cbn; lia].
  - paints.
  - intros X. contradiction.
  - reflexivity.
  - cbv zeta. intros W. apply black_on_white; [lia|reflexivity|reflexivity|reflexivity|paints|exact W].
Qed.
Theorem C90_bg_transparent : may_create (name "../assets/example/qrcode_with_bgtransparent.png") = true -> lossless PngEncoder encode decode ->
  leaves (fn createQRWithBgTransparent content sched) fs (name "../assets/example/qrcode_with_bgtransparent.png") n 20 40 10 covered reads.
Proof.
  intros MC J. plain_example (@eq rgba) covered 10.
  - right. reflexivity.
  - exact J.
  - apply style_rect; [reflexivity|reflexivity|cbn; lia].
  - paints.
  - intros X. contradiction.
  - reflexivity.
  - cbv zeta. intros W. apply black_on_nothing; [reflexivity|reflexivity|reflexivity|paints|exact W].
Qed.
(* sky blue on lawn green: by the blue channel *)
Theorem C90_bg_fg_color : may_create (name "../assets/example/qrcode_with_bgfgcolor.png") = true -> lossy 117 JpegEncoder encode decode ->
  leaves (fn createQRWithBgFgColor content sched) fs (name "../assets/example/qrcode_with_bgfgcolor.png") n 20 40 10 rather_blue reads.
Proof.
  intros MC J. plain_example (within 117) rather_blue 10.
  - left. reflexivity.
  - exact J.
  - apply style_rect; [reflexivity|reflexivity|cbn; lia].
  - paints.
  - intros X. contradiction.
  - reflexivity.
  - cbv zeta. intros W. split.
    + intros px py _ _. paints.
    + split.
      * intros px py c _ _ (_ & _ & B). unfold rather_blue. apply Z.ltb_lt. change (c_b (ink _ px py)) with 235 in B. lia.
      * intros l c L (_ & _ & B). unfold rather_blue. apply Z.ltb_ge. assert (E : c_b l = 0) by (rewrite L; reflexivity). rewrite E in B. lia.
Qed.
(* Sky blue is lighter than lawn green: a reader that goes by brightness sees the dark modules lighter than the light ones. *)
Theorem C90_bg_fg_color_refuted : forall t, t <= 33 ->
  may_create (name "../assets/example/qrcode_with_bgfgcolor.png") = true -> lossy t JpegEncoder encode decode ->
  exists fs' c cv, fn createQRWithBgFgColor content sched fs = (fs', Finished) /\
    fs' (resolve (name "../assets/example/qrcode_with_bgfgcolor.png")) = Some c /\ decode c = Some (n * 20 + 2 * 40, n * 20 + 2 * 40, cv) /\
    forall x y x' y', 0 <= x < n -> 0 <= y < n -> 0 <= x' < n -> 0 <= y' < n ->
      module_at (m_bitmap (qMat q)) x y = true -> module_at (m_bitmap (qMat q)) x' y' = false ->
      brightness (cv (40 + x' * 20 + 10) (40 + y' * 20 + 10)) < brightness (cv (40 + x * 20 + 10) (40 + y * 20 + 10)).
Proof.
  intros t T MC J.
  edestruct (run_modules resolve may_read may_create decode_png decode_jpeg sjis scan encode fails others scale C NF decode (within t)) with (d := 10) (q := q)
    (on_error := Complained) (needs := @nil path) (fs := fs) (b := 40) (bw := 20)
    (draws := fun _ : Z => [Plain (WithFgColor (Some (ColorRGBA sky_blue))); Plain (WithBgColor (Some (ColorRGBA lawn_green)))]) as (fs' & c & cv & R & OC & FC & DC & P);
  [exact HN|reflexivity|exact MC|reflexivity|reflexivity|reflexivity|lia|lia|left; reflexivity|exact J
  |apply style_rect; [reflexivity|reflexivity|cbn; lia]|paints|intros X; contradiction|reflexivity|intros; paints|].
  exists fs', c, cv. split; [exact R|]. split; [exact FC|]. split; [exact DC|]. intros x y x' y' X Y X' Y' D L.
  pose proof (P x y X Y) as A. rewrite D in A. pose proof (P x' y' X' Y') as B. rewrite L in B. destruct B as (bg & IL & B).
  assert (bg = lawn_green) by exact IL. subst bg. unfold within, brightness in *.
  change (ink _ _ _) with sky_blue in A. unfold sky_blue in A. unfold lawn_green in B. cbn [c_r c_g c_b] in A, B. lia.
Qed.
(* red to green to blue on white *)
Lemma rainbow_dark fuse cos45 sin45 o w : o_gradient o = Some (rainbow_at fuse cos45 sin45 n) -> w = n * 20 + 80 -> ((1 # 2) <= Qabs cos45 + Qabs sin45)%Q ->
  painter_colors o -> o_bgColor o = color_WHITE -> 0 < w ->
  (forall px py, 0 <= px < w -> 0 <= py < w -> opaque (ink o px py)) /\ tells_apart (within 42) o w w looks_dark.
Proof.
  intros EG -> D PC EB W.
  assert (DC : PropsCombine.dark_colors o (n * 20 + 80) (n * 20 + 80) (map s_color rainbow)).
  { right. exists round64, fuse, rainbow, cos45, sin45. split; [exact PropsGradient64.C59_ieee_rounding|]. split; [exact D|]. split; [discriminate|].
    split; [intros s I; cbn in I; destruct I as [<-|[<-|[<-|[]]]]; paints|].
    split; [|split; [exact EG|reflexivity]].
    intros s I. cbn in I. destruct I as [<-|[<-|[<-|[]]]]; cbn [s_T]; unfold float64; [exists 0, 0|exists 1, (-1)|exists 1, 0]; (split; [discriminate|split; [discriminate|reflexivity]]). }
  split.
  - intros px py _ _. apply (PropsCombine.ink_opaque o _ _ _ px py PC DC).
  - apply (PropsCombine.C72_jpeg_tells_apart 42 o _ _ _ W W DC).
    + intros c I. cbn in I. destruct I as [<-|[<-|[<-|[]]]]; cbn; lia.
    + rewrite EB. cbn. lia.
Qed.
Theorem C90_fg_gradient : forall fuse cos45 sin45, ((1 # 2) <= Qabs cos45 + Qabs sin45)%Q ->
  may_create (name "../assets/example/qrcode_with_fggradient.png") = true -> lossy 42 JpegEncoder encode decode ->
  leaves (fn createQRWithFgGradient fuse cos45 sin45 content sched) fs (name "../assets/example/qrcode_with_fggradient.png") n 20 40 10 looks_dark reads.
Proof.
  intros fuse cos45 sin45 D MC J. plain_example (within 42) looks_dark 10.
  - left. reflexivity.
  - exact J.
  - apply style_rect; [reflexivity|reflexivity|cbn; lia].
  - paints.
  - intros _ _ X. discriminate X.
  - reflexivity.
  - cbv zeta. intros W. apply (rainbow_dark fuse cos45 sin45); [reflexivity|lia|exact D|paints|reflexivity|exact W].
Qed.
(* the Mona Lisa, if there is one, or plain black squares if her file cannot be read *)
Theorem C90_halftone_picture : fs (resolve (name "../assets/example/monna-lisa.png")) <> None ->
  may_create (name "../assets/example/qrcode_with_halftone.png") = true -> lossy 127 JpegEncoder encode decode ->
  leaves (fn createQRWithHalftone content sched) fs (name "../assets/example/qrcode_with_halftone.png") n 21 40 10 looks_dark reads.
Proof.
  intros TH MC J. unfold leaves_picture; cbv beta.
  set (fs1 := fs_set fs (resolve (name "../assets/example/qrcode_with_halftone.png")) []).
  assert (AO : exists h, apply_file_options resolve may_read decode_png decode_jpeg scan fs1 [WithHalftone (name "../assets/example/monna-lisa.png"); Plain (WithQRWidth 21)]
     = Some (set_qrWidth 21 (set_halftone h defaultOptions))).
  { unfold apply_file_options. cbn [fold_left apply_file_option].
    destruct (imgkit_Read resolve may_read decode_png decode_jpeg fs1 (name "../assets/example/monna-lisa.png")) as [i|]; [exists (Some i)|exists None]; reflexivity. }
  destruct AO as (h & AO).
  eapply (run_plain resolve may_read may_create decode_png decode_jpeg sjis scan encode fails others scale C NF decode (within 127)) with (dark := looks_dark) (d := 10) (q := q);
    [exact HN|exact NM| |assumption|exact AO|reflexivity|reflexivity|lia|lia|..].
  - cbn [all_there forallb]. destruct (fs (resolve (name "../assets/example/monna-lisa.png"))); [reflexivity|contradiction].
  - left. reflexivity.
  - exact J.
  - apply (PropsCombine.C72_halftone_squares others (set_qrWidth 21 (set_halftone h defaultOptions)) eq_refl). right. cbn. lia.
  - paints.
  - intros X. contradiction.
  - reflexivity.
  - cbv zeta. intros W. apply black_on_white; [lia|reflexivity|reflexivity|reflexivity|paints|exact W].
Qed.
(* a logo, if the file can be read; a reader has to correct errors then *)
Theorem C90_logo_picture : proper_decoder decode_jpeg ->
  may_create (name "../assets/example/qrcode_with_logo.png") = true -> lossy 127 JpegEncoder encode decode ->
  leaves (fn createQRWithLogo content sched) fs (name "../assets/example/qrcode_with_logo.png") n 20 40 10 looks_dark (recovers_text sjis (GoString content)).
Proof.
  intros PD MC J. unfold leaves_picture; cbv beta.
  set (fs1 := fs_set fs (resolve (name "../assets/example/qrcode_with_logo.png")) []).
  assert (AO : exists i, (forall i', i = Some i' -> i_x0 i' = 0 /\ i_y0 i' = 0 /\ 0 < i_x1 i' /\ 0 < i_y1 i') /\
     apply_file_options resolve may_read decode_png decode_jpeg scan fs1 [WithLogoImageFileJPEG (name "../assets/example/logo.jpeg")]
     = Some (set_logo i defaultOptions)).
  { unfold apply_file_options. cbn [fold_left apply_file_option].
    destruct (os_read resolve may_read fs1 (name "../assets/example/logo.jpeg")) as [c|]; [destruct (decode_jpeg c) as [i|] eqn:DI|].
    - exists (Some i). split; [intros i' [= <-]; eapply PD; eauto|reflexivity].
    - exists None. split; [discriminate|reflexivity].
    - exists None. split; [discriminate|reflexivity]. }
  destruct AO as (i & HI & AO).
  eapply (run_logo resolve may_read may_create decode_png decode_jpeg sjis scan encode fails others scale C NF decode (within 127)) with (dark := looks_dark) (d := 10) (q := q) (l := SpecIso.Q) (z := 2);
    [exact HN|exact NM|reflexivity|assumption|exact AO|reflexivity|cbn; lia| |reflexivity|reflexivity|lia|lia|..].
  - unfold PropsLogo.logo_options. cbn. repeat split; try lia; eapply HI; eauto.
  - left. reflexivity.
  - exact J.
  - apply style_rect; [reflexivity|reflexivity|cbn; lia].
  - paints.
  - intros X. contradiction.
  - cbv zeta. intros W. apply black_on_white; [lia|reflexivity|reflexivity|reflexivity|paints|exact W].
Qed.
End Content.
(* ---- main of example.go ---- *)
Lemma example_text sched : fair sched -> exists q, New sjis (GoString example_content) sched = Ok q /\ q_dimension q = 33.
Proof.
  intros FS. destruct (fixed_text sjis C example_content [] sched SpecIso.Q 4 FS) as (q & HN & D); try reflexivity; try lia; [left; reflexivity|right; reflexivity|eauto].
Qed.
Lemma example_detected eopts : ~ misdetected sjis eopts (text_bytes (GoString example_content)).
Proof. apply (small_byte sjis). reflexivity. Qed.

Notation pic := (holds_picture resolve decode).
Notation reading := (reads_back sjis (GoString example_content)).
Theorem C90_example_main : forall fuse cos45 sin45 edge scheds fs,
  others ShapeCircle = circle_draw edge -> ((1 # 2) <= Qabs cos45 + Qabs sin45)%Q -> Forall fair scheds -> length scheds = 8%nat ->
  lossy 42 JpegEncoder encode decode -> lossless PngEncoder encode decode -> proper_decoder decode_jpeg ->
  NoDup (map resolve example_files) -> (forall p, In p example_files -> may_create p = true) -> fs (resolve (name "../assets/example/monna-lisa.png")) <> None ->
  exists fs', fn example_main fuse cos45 sin45 scheds fs = (fs', Finished) /\
    (forall i, ~ In i (map resolve example_files) -> fs' i = fs i) /\
    pic fs' (name "../assets/example/qrcode_with_qrwidth.png") 33 8 40 4 looks_dark reading /\
    pic fs' (name "../assets/example/qrcode_with_circleshape.png") 33 20 40 10 looks_dark reading /\
    pic fs' (name "../assets/example/qrcode_with_borderwidth.png") 33 20 10 10 looks_dark reading /\
    pic fs' (name "../assets/example/qrcode_with_bgtransparent.png") 33 20 40 10 covered reading /\
    pic fs' (name "../assets/example/qrcode_with_bgfgcolor.png") 33 20 40 10 rather_blue reading /\
    pic fs' (name "../assets/example/qrcode_with_fggradient.png") 33 20 40 10 looks_dark reading /\
    pic fs' (name "../assets/example/qrcode_with_halftone.png") 33 21 40 10 looks_dark reading /\
    pic fs' (name "../assets/example/qrcode_with_logo.png") 33 20 40 10 looks_dark (recovers_text sjis (GoString example_content)).
Proof.
  intros fuse cos45 sin45 edge scheds fs EC D FS LS J G PD ND MC TH.
  destruct scheds as [|c1 [|c2 [|c3 [|c4 [|c5 [|c6 [|c7 [|c8 [|]]]]]]]]]; try discriminate LS. clear LS.
  repeat match goal with F : Forall _ (_ :: _) |- _ => apply Forall_cons_iff in F; destruct F as [? F] end.
  assert (J127 : lossy 127 JpegEncoder encode decode) by (apply (lossy_less 42); [lia|exact J]).
  assert (J117 : lossy 117 JpegEncoder encode decode) by (apply (lossy_less 42); [lia|exact J]).
  pose (shows := fun bw b d dark reads (c : option (list Z)) => exists content cv, c = Some content /\ decode content = Some (33 * bw + 2 * b, 33 * bw + 2 * b, cv) /\
    reads (scan_pixels dark d b b bw 33 cv) : Prop).
  pose (inv := fun fs : fsys => fs (resolve (name "../assets/example/monna-lisa.png")) <> None).
  assert (KEEP : forall p fs fs', inv fs -> only_changes resolve p fs fs' -> fs' (resolve p) <> None -> inv fs').
  { intros p fs0 fs' I OC NN. unfold inv in *. destruct (Z.eq_dec (resolve (name "../assets/example/monna-lisa.png")) (resolve p)) as [->|N]; [exact NN|]. rewrite OC by exact N. exact I. }
  assert (GT : forall step sched p bw b d dark reads, fair sched ->
     (forall fs q, inv fs -> New sjis (GoString example_content) sched = Ok q -> leaves (step sched) fs p (q_dimension q) bw b d dark reads) ->
     good_turn resolve inv (step, sched, p, shows bw b d dark reads)).
  { intros step sched p bw b d dark reads F ST fs0 I. destruct (example_text sched F) as (q & HN & QD). destruct (ST fs0 q I HN) as (fs' & R & OC & cc & cv & FC & DC & RD).
    rewrite QD in DC, RD. exists fs'. split; [exact R|]. split; [exact OC|]. split; [rewrite FC; discriminate|]. exists cc, cv. auto. }
  pose (f1 := fn createQRWithQRWidth example_content). pose (f2 := fn createQRWithCircleShape example_content). pose (f3 := fn createQRWithBorderWidth example_content).
  pose (f4 := fn createQRWithBgTransparent example_content). pose (f5 := fn createQRWithBgFgColor example_content).
  pose (f6 := fn createQRWithFgGradient fuse cos45 sin45 example_content). pose (f7 := fn createQRWithHalftone example_content). pose (f8 := fn createQRWithLogo example_content).
  assert (MCn : forall p, In p example_files -> may_create p = true) by exact MC.
  pose (ts := [(f1, c1, name "../assets/example/qrcode_with_qrwidth.png", shows 8 40 4 looks_dark reading);
    (f2, c2, name "../assets/example/qrcode_with_circleshape.png", shows 20 40 10 looks_dark reading);
    (f3, c3, name "../assets/example/qrcode_with_borderwidth.png", shows 20 10 10 looks_dark reading);
    (f4, c4, name "../assets/example/qrcode_with_bgtransparent.png", shows 20 40 10 covered reading);
    (f5, c5, name "../assets/example/qrcode_with_bgfgcolor.png", shows 20 40 10 rather_blue reading);
    (f6, c6, name "../assets/example/qrcode_with_fggradient.png", shows 20 40 10 looks_dark reading);
    (f7, c7, name "../assets/example/qrcode_with_halftone.png", shows 21 40 10 looks_dark reading);
    (f8, c8, name "../assets/example/qrcode_with_logo.png", shows 20 40 10 looks_dark (recovers_text sjis (GoString example_content)))]).
  assert (FG : Forall (good_turn resolve inv) ts).
  { unfold ts. repeat apply Forall_cons; [..|constructor]; apply GT; try assumption; intros fs0 q I HN; pose proof (example_detected []) as NM.
    - apply C90_qr_width; [exact HN|exact NM|apply MC; cbn [example_files In]; tauto|exact J127].
    - apply (C90_circle_shape _ _ _ _ HN NM edge); [exact EC|apply MC; cbn [example_files In]; tauto|exact J127].
    - apply C90_border_width; [exact HN|exact NM|apply MC; cbn [example_files In]; tauto|exact J127].
    - apply C90_bg_transparent; [exact HN|exact NM|apply MC; cbn [example_files In]; tauto|exact G].
    - apply C90_bg_fg_color; [exact HN|exact NM|apply MC; cbn [example_files In]; tauto|exact J117].
    - apply C90_fg_gradient; [exact HN|exact NM|exact D|apply MC; cbn [example_files In]; tauto|exact J].
    - apply C90_halftone_picture; [exact HN|exact NM|exact I|apply MC; cbn [example_files In]; tauto|exact J127].
    - apply C90_logo_picture; [exact HN|exact NM|exact PD|apply MC; cbn [example_files In]; tauto|exact J127]. }
  destruct (all_turns resolve inv KEEP ts ND FG fs TH) as (fs' & E & OT & HG).
  exists fs'. split; [exact E|]. split; [exact OT|]. unfold ts in HG.
  repeat match goal with F : Forall _ (_ :: _) |- _ => apply Forall_cons_iff in F; destruct F as [? F] end.
  repeat split; assumption.
Qed.
(* ---- the programs of the directories, with the texts they are written for, under any fair schedule ---- *)
Ltac fixed txt eo sch l v0 q HN NM D := destruct (fixed_text sjis C txt eo sch l v0) as (q & HN & D);
  [assumption|reflexivity|first [left; reflexivity|right; reflexivity]|reflexivity|reflexivity|lia|reflexivity|first [right; reflexivity|left; reflexivity]|];
  pose proof (proj2 (small_byte sjis (text_bytes (GoString txt)) eq_refl) eo) as NM;
  match type of D with q_dimension _ = ?s => let k := eval vm_compute in s in change s with k in D end.
Ltac plain_program q HN NM nr dk dd := unfold leaves_picture; cbv beta;
  eapply (run_plain resolve may_read may_create decode_png decode_jpeg sjis scan encode fails others scale C NF decode nr) with (dark := dk) (d := dd) (q := q);
  [exact HN|exact NM|reflexivity|assumption|reflexivity|reflexivity|reflexivity|lia|lia|..].

(* simple: version 3, blocks of 40 pixels *)
Definition simple_text := GoString (go_string "github.com/yeqown/go-qrcode").
Theorem C90_simple : forall sched fs, fair sched -> may_create (name "./simple.png") = true -> lossy 127 JpegEncoder encode decode ->
  leaves (fn simple_file sched) fs (name "./simple.png") 29 40 40 20 looks_dark (reads_back sjis simple_text).
Proof.
  intros sched fs FS MC J. fixed (go_string "github.com/yeqown/go-qrcode") [WithEncodingMode 32; WithErrorCorrectionLevel 3] sched SpecIso.Q 3 q HN NM D.
  rewrite <- D. plain_program q HN NM (within 127) looks_dark 20.
  - left. reflexivity.
  - exact J.
  - apply style_rect; [reflexivity|reflexivity|cbn; lia].
  - paints.
  - intros X. contradiction.
  - reflexivity.
  - cbv zeta. intros W. apply black_on_white; [lia|reflexivity|reflexivity|reflexivity|paints|exact W].
Qed.
(* ... and its buffer receives the bytes that its file receives *)
Theorem C90_simple_buffer : forall sched fs fs', may_create (name "./simple.png") = true ->
  fn simple_file sched fs = (fs', Finished) ->
  exists c, simple_buffer resolve may_read decode_png decode_jpeg sjis scan encode others scale sched = Some c /\ fs' (resolve (name "./simple.png")) = Some c.
Proof.
  intros sched fs fs' MC. unfold simple_file, save_picture, simple_buffer.
  destruct (NewWith sjis (GoString (go_string "github.com/yeqown/go-qrcode")) [WithEncodingMode 32; WithErrorCorrectionLevel 3] sched) as [q|e|p|]; try (intros E; discriminate E).
  cbn [all_there forallb]. unfold standard_New. rewrite MC.
  change (apply_file_options resolve may_read decode_png decode_jpeg scan (fs_set fs (resolve (name "./simple.png")) []) [Plain (WithQRWidth 40)])
    with (Some (set_qrWidth 40 defaultOptions)).
  change (apply_file_options resolve may_read decode_png decode_jpeg scan (fun _ => None) [Plain (WithQRWidth 40)]) with (Some (set_qrWidth 40 defaultOptions)).
  cbv beta iota. destruct (Save (Some (qMat q)) (standard_writer encode fails others scale) (standard_new (fs (resolve (name "./simple.png"))), set_qrWidth 40 defaultOptions))
    as [[[s' o'] ev] r] eqn:E. destruct r as [[e|]|]; try (intros X; discriminate X). intros X. apply (f_equal fst) in X. cbn [fst] in X. subst fs'.
  destruct (same_bytes encode fails (fun _ => None) others scale (qMat q) _ _ None _ _ _ NF ltac:(reflexivity) E) as (s2 & E2 & EF).
  rewrite E2. exists (o_content (s_file s')). rewrite EF. split; [reflexivity|]. apply PropsFs.fs_set_same.
Qed.

(* migrating-from-v1: version 5 at the highest level, blue circles on white *)
Theorem C90_migrating : forall edge sched fs, fair sched -> others ShapeCircle = circle_draw edge -> may_create (name "v2.jpeg") = true -> lossy 42 JpegEncoder encode decode ->
  leaves (fn migrating_v2 sched) fs (name "v2.jpeg") 37 20 20 10 looks_dark (reads_back sjis (GoString example_content)).
Proof.
  intros edge sched fs FS EC MC J. fixed example_content [WithErrorCorrectionLevel 4] sched SpecIso.H 5 q HN NM D.
  rewrite <- D. plain_program q HN NM (within 42) looks_dark 10.
  - left. reflexivity.
  - exact J.
  - apply style_proper; [|reflexivity|cbn; lia]. unfold chosen_shape. cbn [getShape o_shape set_shape set_qrColor set_bgColor set_qrWidth set_borders]. rewrite EC.
    match goal with |- proper_shape _ ?b _ => change b with 20 end. apply (circle_proper edge 20). lia.
  - paints.
  - intros X. contradiction.
  - reflexivity.
  - cbv zeta. intros W. match goal with |- context [ink ?o] => assert (DC : PropsCombine.dark_colors o (q_dimension q * 20 + 2 * 20) (q_dimension q * 20 + 2 * 20) [mkRGBA 0 0 255 255]) end.
    { left. split; reflexivity. }
    split.
    + intros px py _ _. paints.
    + apply (PropsCombine.C72_jpeg_tells_apart 42 _ _ _ _ W W DC); [intros c [<-|[]]; cbn; lia|cbn; lia].
Qed.

(* with-custom-shape: version 2, small circles *)
Theorem C90_custom_shape : forall edge sched fs, fair sched -> others (ShapeCustom 0) = smaller_shape edge PropsExample.seven_tenths ->
  may_create (name "./smaller.png") = true -> lossy 127 JpegEncoder encode decode ->
  leaves (fn with_custom_shape sched) fs (name "./smaller.png") 25 20 40 10 looks_dark (reads_back sjis (GoString (go_string "with-custom-shape"))).
Proof.
  intros edge sched fs FS EC MC J. fixed (go_string "with-custom-shape") (@nil EncodeOption) sched SpecIso.Q 2 q HN NM D.
  rewrite <- D. plain_program q HN NM (within 127) looks_dark 10.
  - left. reflexivity.
  - exact J.
  - apply style_proper; [|reflexivity|cbn; lia]. unfold chosen_shape. cbn [getShape o_shape set_shape]. rewrite EC.
    match goal with |- proper_shape _ ?b _ => change b with 20 end. apply (PropsExample.C81_smaller_circles edge PropsExample.seven_tenths 20).
    + split; unfold Qle; cbn; lia.
    + lia.
    + left. unfold Qle. cbn. lia.
  - paints.
  - intros X. contradiction.
  - reflexivity.
  - cbv zeta. intros W. apply black_on_white; [lia|reflexivity|reflexivity|reflexivity|paints|exact W].
Qed.

(* with-gradient-color: version 3 at the lowest level *)
Theorem C90_gradient_color : forall fuse cos45 sin45 sched fs, fair sched -> ((1 # 2) <= Qabs cos45 + Qabs sin45)%Q ->
  may_create (name "./with-gradient-color/smaller.png") = true -> lossy 42 JpegEncoder encode decode ->
  leaves (fn with_gradient_color fuse cos45 sin45 sched) fs (name "./with-gradient-color/smaller.png") 29 20 40 10 looks_dark (reads_back sjis (GoString example_content)).
Proof.
  intros fuse cos45 sin45 sched fs FS DD MC J. fixed example_content [WithErrorCorrectionLevel 1] sched SpecIso.L 3 q HN NM D.
  rewrite <- D. plain_program q HN NM (within 42) looks_dark 10.
  - left. reflexivity.
  - exact J.
  - apply style_rect; [reflexivity|reflexivity|cbn; lia].
  - paints.
  - intros _ _ X. discriminate X.
  - reflexivity.
  - cbv zeta. intros W. apply (rainbow_dark q fuse cos45 sin45); [reflexivity|lia|exact DD|paints|reflexivity|exact W].
Qed.

(* with-minimum-version: version 9 as asked for, version 1 otherwise *)
Definition hello_text := GoString (go_string "Hello").
Theorem C90_minimum_version_9 : forall sched fs, fair sched -> may_create (name "./qrcode_minimum_version_9.png") = true -> lossy 127 JpegEncoder encode decode ->
  leaves (fn with_minimum_version_9 sched) fs (name "./qrcode_minimum_version_9.png") 53 20 40 10 looks_dark (reads_back sjis hello_text).
Proof.
  intros sched fs FS MC J. fixed (go_string "Hello") [WithMinimumVersion 9; WithErrorCorrectionLevel 3] sched SpecIso.Q 1 q HN NM D.
  rewrite <- D. plain_program q HN NM (within 127) looks_dark 10.
  - left. reflexivity.
  - exact J.
  - apply style_rect; [reflexivity|reflexivity|cbn; lia].
  - paints.
  - intros X. contradiction.
  - reflexivity.
  - cbv zeta. intros W. apply black_on_white; [lia|reflexivity|reflexivity|reflexivity|paints|exact W].
Qed.
Theorem C90_auto_version : forall sched fs, fair sched -> may_create (name "./qrcode_auto_version.png") = true -> lossy 127 JpegEncoder encode decode ->
  leaves (fn with_auto_version sched) fs (name "./qrcode_auto_version.png") 21 20 40 10 looks_dark (reads_back sjis hello_text).
Proof.
  intros sched fs FS MC J. fixed (go_string "Hello") (@nil EncodeOption) sched SpecIso.Q 1 q HN NM D.
  rewrite <- D. plain_program q HN NM (within 127) looks_dark 10.
  - left. reflexivity.
  - exact J.
  - apply style_rect; [reflexivity|reflexivity|cbn; lia].
  - paints.
  - intros X. contradiction.
  - reflexivity.
  - cbv zeta. intros W. apply black_on_white; [lia|reflexivity|reflexivity|reflexivity|paints|exact W].
Qed.
(* the numbers it prints: 53 as expected, and 21 *)
Theorem C90_minimum_version_prints : forall sched1 sched2, fair sched1 -> fair sched2 -> minimum_version_prints sjis sched1 sched2 = Some (53, 53, 21).
Proof.
  intros sched1 sched2 F1 F2.
  fixed (go_string "Hello") [WithMinimumVersion 9; WithErrorCorrectionLevel 3] sched1 SpecIso.Q 1 q HN NM D.
  fixed (go_string "Hello") (@nil EncodeOption) sched2 SpecIso.Q 1 q2 HN2 NM2 D2.
  unfold minimum_version_prints. rewrite HN, HN2, D, D2. reflexivity.
Qed.

(* assemble-shape: rounded finders and liquid blocks *)
Theorem C90_assemble_shape : forall (cover : coverage) sched fs, fair sched -> others (ShapeCustom 0) = Assemble cover RoundedFinder LiquidBlock ->
  may_create (name "./smaller.png") = true -> lossy 127 JpegEncoder encode decode ->
  leaves (fn assemble_shape sched) fs (name "./smaller.png") 33 20 40 10 looks_dark (reads_back sjis (GoString example_content)).
Proof.
  intros cover sched fs FS EC MC J. fixed example_content (@nil EncodeOption) sched SpecIso.Q 4 q HN NM D.
  rewrite <- D. plain_program q HN NM (within 127) looks_dark 10.
  - left. reflexivity.
  - exact J.
  - split; [|split; [cbn; lia|intros X; contradiction]]. unfold chosen_shape. cbn [getShape o_shape set_shape]. rewrite EC.
    match goal with |- linking_shape _ ?b _ => change b with 20 end. apply (PropsShapes.C60_package_shapes cover 20 RoundedFinder LiquidBlock); constructor; lia.
  - paints.
  - intros X. contradiction.
  - reflexivity.
  - cbv zeta. intros W. apply black_on_white; [lia|reflexivity|reflexivity|reflexivity|paints|exact W].
Qed.

(* use-file-writer: the text on standard output *)
Theorem C90_file_writer : forall sched before calls, fair sched ->
  exists written calls' bm, use_file_writer sjis fails (mkFile before calls) sched = (Some (mkFile (before ++ written) calls'), Finished) /\
    read_half_blocks written 25 = Some bm /\ reads_back sjis (GoString (go_string "with_file_writer")) bm.
Proof.
  intros sched before calls FS. fixed (go_string "with_file_writer") (@nil EncodeOption) sched SpecIso.Q 2 q HN NM D.
  destruct (PropsSaved.C49_file sjis C _ _ _ _ HN NM fails before calls NF) as (w & c' & bm & A1 & A2 & A3). exists w, c', bm.
  unfold use_file_writer. rewrite HN, A1. rewrite D in A2. auto.
Qed.

(* use-terminal-writer: while it waits for a key the screen, if it is large enough, shows the text; the key ends it *)
Theorem C90_terminal_writer : forall sched t events, fair sched -> 54 <= t_width t -> 27 <= t_height t -> In EventKey events ->
  exists t', use_terminal_writer sjis true true events t sched = (t', false, Finished) /\ reads_back sjis (GoString (go_string "with_terminal")) (scan_terminal t' 25).
Proof.
  intros sched t events FS TW TH KEY. fixed (go_string "with_terminal") (@nil EncodeOption) sched SpecIso.Q 2 q HN NM D.
  destruct (PropsSaved.C49_terminal sjis C _ _ _ _ HN NM t events) as (t' & _ & A2 & A3); [lia|lia|exact KEY|]. exists t'.
  unfold use_terminal_writer. rewrite HN, A2. rewrite D in A3. auto.
Qed.
(* without a terminal it panics *)
Theorem C90_no_terminal : forall sched flush_ok events t, fair sched -> use_terminal_writer sjis false flush_ok events t sched = (t, false, Died).
Proof.
  intros sched flush_ok events t FS. fixed (go_string "with_terminal") (@nil EncodeOption) sched SpecIso.Q 2 q HN NM D. unfold use_terminal_writer. rewrite HN. reflexivity.
Qed.
(* with-halftone: version 4; with or without a picture behind it, and with or without a background *)
Theorem C90_halftone : forall (transparent : bool) sched fs, fair sched ->
  let file := if transparent then name "./halftone-qr-transparent.png" else name "./halftone-qr.png" in
  may_create file = true -> lossy 127 JpegEncoder encode decode -> lossless PngEncoder encode decode ->
  leaves (fn with_halftone transparent sched) fs file 33 21 40 10 (if transparent then covered else looks_dark) (reads_back sjis (GoString example_content)).
Proof.
  intros tr sched fs FS file MC J G. fixed example_content (@nil EncodeOption) sched SpecIso.Q 4 q HN NM D. rewrite <- D. unfold leaves_picture; cbv beta.
  set (fs1 := fs_set fs (resolve file) []).
  assert (AO : exists h, apply_file_options resolve may_read decode_png decode_jpeg scan fs1
      ([WithHalftone (name "./test.jpeg"); Plain (WithQRWidth 21)] ++ (if tr then [Plain (WithBuiltinImageEncoder 1); Plain WithBgTransparent] else []))
     = Some (let o := set_qrWidth 21 (set_halftone h defaultOptions) in if tr then set_bgTransparent (set_encoder PngEncoder o) else o)).
  { unfold apply_file_options. cbn [app fold_left apply_file_option].
    destruct (imgkit_Read resolve may_read decode_png decode_jpeg fs1 (name "./test.jpeg")) as [i|]; [exists (Some i)|exists None]; destruct tr; reflexivity. }
  destruct AO as (h & AO). destruct tr.
  - eapply (run_plain resolve may_read may_create decode_png decode_jpeg sjis scan encode fails others scale C NF decode (@eq rgba)) with (dark := covered) (d := 10) (q := q);
      [exact HN|exact NM|reflexivity|exact MC|exact AO|reflexivity|reflexivity|lia|lia|..].
    + right. reflexivity.
    + exact G.
    + match goal with |- readable_style _ ?o _ => apply (PropsCombine.C72_halftone_squares others o eq_refl) end. right. cbn. lia.
    + paints.
    + intros X. contradiction.
    + reflexivity.
    + cbv zeta. intros W. apply black_on_nothing; [reflexivity|reflexivity|reflexivity|paints|exact W].
  - eapply (run_plain resolve may_read may_create decode_png decode_jpeg sjis scan encode fails others scale C NF decode (within 127)) with (dark := looks_dark) (d := 10) (q := q);
      [exact HN|exact NM|reflexivity|exact MC|exact AO|reflexivity|reflexivity|lia|lia|..].
    + left. reflexivity.
    + exact J.
    + match goal with |- readable_style _ ?o _ => apply (PropsCombine.C72_halftone_squares others o eq_refl) end. right. cbn. lia.
    + paints.
    + intros X. contradiction.
    + reflexivity.
    + cbv zeta. intros W. apply black_on_white; [lia|reflexivity|reflexivity|reflexivity|paints|exact W].
Qed.

(* with-logosize-multiplier: the logo of the repository, 194 x 59 pixels, hides modules 10 to 18 of rows 13 to 15 *)
Definition behind_logo (x y : Z) : bool := (10 <=? x) && (x <=? 18) && (13 <=? y) && (y <=? 15).
Lemma behind_logo_harmless : harmless 3 SpecIso.Q behind_logo.
Proof.
  split; [vm_compute; reflexivity|]. apply no_format. intros x y X Y _. unfold behind_logo. destruct (Z.leb_spec 10 x); [lia|reflexivity].
Qed.
Theorem C90_logosize_multiplier : forall sched fs, fair sched -> may_create (name "./simple.png") = true -> lossy 127 JpegEncoder encode decode ->
  resolve (name "./logo.jpg") <> resolve (name "./simple.png") ->
  (forall c i, fs (resolve (name "./logo.jpg")) = Some c -> decode_jpeg c = Some i -> i_x0 i = 0 /\ i_y0 i = 0 /\ i_x1 i = 194 /\ i_y1 i = 59) ->
  leaves (fn with_logosize_multiplier sched) fs (name "./simple.png") 29 20 40 10 looks_dark (recovers_text sjis simple_text).
Proof.
  intros sched fs FS MC J RN HL. fixed (go_string "github.com/yeqown/go-qrcode") [WithEncodingMode 32; WithErrorCorrectionLevel 3] sched SpecIso.Q 3 q HN NM D.
  rewrite <- D. unfold leaves_picture; cbv beta.
  set (fs1 := fs_set fs (resolve (name "./simple.png")) []).
  assert (AO : exists i, (forall i', i = Some i' -> i_x0 i' = 0 /\ i_y0 i' = 0 /\ i_x1 i' = 194 /\ i_y1 i' = 59) /\
     apply_file_options resolve may_read decode_png decode_jpeg scan fs1 [WithLogoImageFileJPEG (name "./logo.jpg"); Plain (WithLogoSizeMultiplier 2)]
     = Some (set_multiplier 2 (set_logo i defaultOptions))).
  { unfold apply_file_options. cbn [fold_left apply_file_option].
    destruct (os_read resolve may_read fs1 (name "./logo.jpg")) as [c|] eqn:RD; [destruct (decode_jpeg c) as [i|] eqn:DI|].
    - exists (Some i). split; [intros i' [= <-]; apply (HL c); [|exact DI]|reflexivity].
      unfold os_read in RD. destruct (may_read (name "./logo.jpg")); [|discriminate RD]. unfold fs1, fs_set in RD.
      destruct (Z.eqb_spec (resolve (name "./logo.jpg")) (resolve (name "./simple.png"))) as [E|_]; [contradiction|exact RD].
    - exists None. split; [discriminate|reflexivity].
    - exists None. split; [discriminate|reflexivity]. }
  destruct AO as (i & HI & AO).
  set (o := set_multiplier 2 (set_logo i defaultOptions)) in *.
  assert (PC : painter_colors o) by (unfold o; paints).
  assert (BW : qrBlockWidth o = 20) by reflexivity. assert (EB : o_borders o = (40, 40, 40, 40)) by reflexivity.
  assert (W : img_w o (q_dimension q) = 660) by (rewrite D; reflexivity). assert (H : img_h o (q_dimension q) = 660) by (rewrite D; reflexivity).
  destruct (black_on_white 127 o 660) as [OP TA]; [lia|reflexivity|reflexivity|reflexivity|exact PC|lia|].
  destruct (hidden_saved sjis C _ _ _ _ SpecIso.Q 3 behind_logo HN NM eq_refl D behind_logo_harmless (within 127) encode decode fails others scale o (fs (resolve (name "./simple.png"))) 10 looks_dark)
    as (s' & o' & cv & A1 & A2 & A3 & A4); try (rewrite ?W, ?H; assumption); try assumption.
  - rewrite W, H. change (o_encoder o) with JpegEncoder. cbn [SpecMedium.encodable]. lia.
  - apply style_rect; [reflexivity|reflexivity|rewrite BW; lia].
  - intros X. contradiction.
  - unfold b_left. rewrite EB. lia.
  - unfold b_right. rewrite EB. lia.
  - unfold b_top. rewrite EB. lia.
  - unfold b_bottom. rewrite EB. lia.
  - intros x y X Y NH. assert (SZ : forall x y, safe_b o (q_dimension q) x y = false).
    { intros x0 y0. unfold safe_b. change (o_safeZone o) with false. destruct (logo_info o _ _) as [[lv lw] lh]. rewrite andb_false_r. reflexivity. }
    split; [apply SZ|]. split; [apply SZ|]. intros j EJ _. destruct (HI j EJ) as (X0 & Y0 & X1 & Y1). rewrite W, H. unfold logo_covers, logo_left, logo_top.
    rewrite X0, Y0, X1, Y1. change (sample_x o 10 x) with (40 + x * 20 + 10). change (sample_y o 10 y) with (40 + y * 20 + 10).
    change (Z.quot (660 - (194 - 0)) 2) with 233. change (Z.quot (660 - (59 - 0)) 2) with 300. intros [I1 I2].
    apply not_true_iff_false in NH. apply NH. unfold behind_logo. rewrite !andb_true_iff, !Z.leb_le. lia.
  - destruct (run_saved resolve may_read may_create decode_png decode_jpeg sjis scan encode fails others scale Died (go_string "github.com/yeqown/go-qrcode")
      [WithEncodingMode 32; WithErrorCorrectionLevel 3] [] (name "./simple.png") (fun _ => [WithLogoImageFileJPEG (name "./logo.jpg"); Plain (WithLogoSizeMultiplier 2)])
      sched fs q o HN eq_refl MC AO _ _ _ A1) as (fs' & R & OC & FC).
    exists fs'. split; [exact R|]. split; [exact OC|]. exists (o_content (s_file s')), cv. split; [exact FC|]. rewrite W, H in A3.
    split; [rewrite D; exact A3|]. rewrite <- (scan_known o 40 20 10 (q_dimension q) looks_dark cv EB BW). exact A4.
Qed.

(* ---- when files are missing or may not be created ---- *)
Definition complaining (fuse : place -> fusing) (cos45 sin45 : QArith_base.Q) : list (list Init.Byte.byte -> list actor -> fsys -> fsys * ending) :=
  [fn createQRWithQRWidth; fn createQRWithCircleShape; fn createQRWithBorderWidth; fn createQRWithBgTransparent; fn createQRWithBgFgColor;
   fn createQRWithFgGradient fuse cos45 sin45; fn createQRWithHalftone; fn createQRWithLogo].
Theorem C90_cannot_create : forall fuse cos45 sin45 f content sched fs q, In f (complaining fuse cos45 sin45) -> New sjis (GoString content) sched = Ok q -> (forall p, may_create p = false) ->
  f content sched fs = (fs, Complained).
Proof.
  intros fuse cos45 sin45 f content sched fs q I HN MC. unfold New in HN. cbn [complaining In] in I. decompose [or] I; subst; try contradiction;
  cbv delta [createQRWithQRWidth createQRWithCircleShape createQRWithBorderWidth createQRWithBgTransparent createQRWithBgFgColor createQRWithFgGradient createQRWithHalftone createQRWithLogo] beta zeta;
  unfold save_picture, standard_New; rewrite HN, MC; try reflexivity. destruct (all_there _ _ _); reflexivity.
Qed.
Theorem C90_no_mona_lisa : forall content sched fs q, New sjis (GoString content) sched = Ok q -> fs (resolve (name "../assets/example/monna-lisa.png")) = None ->
  fn createQRWithHalftone content sched fs = (fs, Complained).
Proof.
  intros content sched fs q HN NF0. unfold New in HN. unfold createQRWithHalftone, save_picture. rewrite HN. cbn [all_there forallb]. rewrite NF0. reflexivity.
Qed.
Theorem C90_refused_text : forall fuse cos45 sin45 f content sched fs e, In f (complaining fuse cos45 sin45) -> New sjis (GoString content) sched = Err e -> f content sched fs = (fs, Complained).
Proof.
  intros fuse cos45 sin45 f content sched fs e I HN. unfold New in HN. cbn [complaining In] in I. decompose [or] I; subst; try contradiction;
  cbv delta [createQRWithQRWidth createQRWithCircleShape createQRWithBorderWidth createQRWithBgTransparent createQRWithBgFgColor createQRWithFgGradient createQRWithHalftone createQRWithLogo] beta zeta;
  unfold save_picture; rewrite HN; reflexivity.
Qed.
End C90.

(* ---- the hypotheses can be met ---- *)
(* a file system with eight different output files and a picture of the Mona Lisa; a medium that keeps pixels; a decoder of logos *)
Definition file_number (p : path) : Z := fold_left (fun h c => (h * 31 + c) mod 1000003) p 7.
Example C90_example : shift_jis_contract sample_sjis /\ Forall fair (repeat fair_schedule 8) /\ length (repeat fair_schedule 8) = 8%nat /\
  (exists encode decode, lossy 42 JpegEncoder encode decode /\ lossless PngEncoder encode decode) /\
  proper_decoder (fun c => match c with [] => None | _ => Some (mkImage 0 0 64 48 (fun _ _ => color_WHITE)) end) /\
  NoDup (map file_number example_files) /\ ~ In (file_number (name "../assets/example/monna-lisa.png")) (map file_number example_files) /\
  ((1 # 2) <= Qabs (Qmake 6369051672525773 9007199254740992) + Qabs (Qmake 6369051672525772 9007199254740992))%Q.
Proof.
  split; [exact sample_contract|]. split; [repeat constructor; exact fair_schedule_fair|]. split; [reflexivity|]. split.
  { assert (K : forall (near : rgba -> rgba -> Prop) e, (forall c, near c c) -> keeps near e PropsSaved.toy_encode PropsSaved.toy_decode).
    { intros near e R w h cv _. unfold PropsSaved.toy_encode. eexists. split; [cbn [concat app]; rewrite app_nil_r; reflexivity|].
      intros px py X Y. cbn beta. rewrite PropsSaved.toy_pixel by assumption. apply R. }
    exists PropsSaved.toy_encode, PropsSaved.toy_decode. split; apply K; [intros c; unfold within; lia|reflexivity]. }
  split; [intros c i E; destruct c; [discriminate E|injection E as <-; cbn; lia]|].
  split; [vm_compute; repeat constructor; cbn [In]; lia|]. split; [vm_compute; lia|]. unfold Qle. vm_compute. discriminate.
Qed.
(* so that all of main's pictures can be read: with such a file system it ends well *)
Example C90_example_runs : exists fs', example_main file_number (fun _ => true) (fun _ => true) (fun _ => None) (fun _ => None) sample_sjis (fun _ => None)
    PropsSaved.toy_encode (fun _ => None) (fun _ => circle_draw (fun _ _ _ c => c)) (fun _ _ _ _ => 0) (fun _ => Separate) (7 # 10) (7 # 10)
    (repeat fair_schedule 8) (fun _ => Some []) = (fs', Finished) /\
  holds_picture file_number PropsSaved.toy_decode fs' (name "../assets/example/qrcode_with_qrwidth.png") 33 8 40 4 looks_dark (reads_back sample_sjis (GoString example_content)).
Proof.
  destruct C90_example as (_ & FS & LS & _ & _ & ND & _).
  assert (K : forall (near : rgba -> rgba -> Prop) e, (forall c, near c c) -> keeps near e PropsSaved.toy_encode PropsSaved.toy_decode).
  { intros near e R w h cv _. unfold PropsSaved.toy_encode. eexists. split; [cbn [concat app]; rewrite app_nil_r; reflexivity|].
    intros px py X Y. cbn beta. rewrite PropsSaved.toy_pixel by assumption. apply R. }
  edestruct (C90_example_main file_number (fun _ => true) (fun _ => true) (fun _ => None) (fun _ => None) sample_sjis (fun _ => None) PropsSaved.toy_encode (fun _ => None)
    (fun _ => circle_draw (fun _ _ _ c => c)) (fun _ _ _ _ => 0) PropsSaved.toy_decode sample_contract ltac:(reflexivity) (fun _ => Separate) (7 # 10)%Q (7 # 10)%Q
    (fun _ _ _ c => c) (repeat fair_schedule 8) (fun _ => Some [])) as (fs' & E & _ & P1 & _).
  - reflexivity.
  - unfold Qle. vm_compute. discriminate.
  - exact FS.
  - exact LS.
  - apply K. intros c. unfold within. lia.
  - apply K. reflexivity.
  - intros c i F. discriminate F.
  - exact ND.
  - reflexivity.
  - discriminate.
  - exists fs'. split; [exact E|exact P1].
Qed.

Print Assumptions C90_qr_width.
Print Assumptions C90_circle_shape.
Print Assumptions C90_border_width.
Print Assumptions C90_bg_transparent.
Print Assumptions C90_bg_fg_color.
Print Assumptions C90_bg_fg_color_refuted.
Print Assumptions C90_fg_gradient.
Print Assumptions C90_halftone_picture.
Print Assumptions C90_logo_picture.
Print Assumptions C90_example_main.
Print Assumptions C90_simple.
Print Assumptions C90_simple_buffer.
Print Assumptions C90_migrating.
Print Assumptions C90_custom_shape.
Print Assumptions C90_gradient_color.
Print Assumptions C90_minimum_version_9.
Print Assumptions C90_auto_version.
Print Assumptions C90_minimum_version_prints.
Print Assumptions C90_assemble_shape.
Print Assumptions C90_file_writer.
Print Assumptions C90_terminal_writer.
Print Assumptions C90_no_terminal.
Print Assumptions C90_halftone.
Print Assumptions C90_logosize_multiplier.
Print Assumptions C90_cannot_create.
Print Assumptions C90_no_mona_lisa.
Print Assumptions C90_refused_text.
