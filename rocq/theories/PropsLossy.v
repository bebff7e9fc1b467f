(* C61: lossy image formats (JPEG is the default of the standard writer). *)
From Coq Require Import Lia.
From Verif Require Import ModelBase ModelMatrix ModelQRCode ModelSave ModelCompressed ModelStandard ModelWriters ModelShapes.
From Verif Require Import SpecReader SpecSegment SpecAPI SpecIso SpecMatrix SpecStandard SpecMedium SpecShape SpecShapes Samples.
From Verif Require Import ProofMatrix ProofEval ProofViews ProofAPI ProofNew ProofRecovery ProofSearch ProofBuild ProofStandard ProofMedium ProofShape.
From Verif Require Import PropsShape PropsShapes.
From Verif Require PropsSaved PropsSymbol.

Lemma within_dark t o c' : within t (o_qrColor o) c' -> brightness (o_qrColor o) + 6 * t < brightness (o_bgColor o) -> nearer_dark o c' = true.
Proof. unfold within, nearer_dark, brightness. intros (A & B & C) D. apply Z.ltb_lt. lia. Qed.
Lemma within_light t o c' : within t (o_bgColor o) c' -> brightness (o_qrColor o) + 6 * t < brightness (o_bgColor o) -> nearer_dark o c' = false.
Proof. unfold within, nearer_dark, brightness. intros (A & B & C) D. apply Z.ltb_ge. lia. Qed.

Lemma light_within t o c c' : is_light o c -> within t c c' -> within t (o_bgColor o) c'.
Proof. unfold is_light. intros ->. unfold within. destruct (o_bgTransparent o); auto. Qed.

Lemma saved_lossy t sjis : shift_jis_contract sjis ->
  forall text opts sched q, NewWith sjis text opts sched = Ok q -> ~ misdetected sjis opts (text_bytes text) ->
  forall encode decode fails others scale o old d, lossy t (o_encoder o) encode decode ->
  encodable (o_encoder o) (img_w o (q_dimension q)) (img_h o (q_dimension q)) -> (forall k, fails k = None) ->
  brightness (o_qrColor o) + 6 * t < brightness (o_bgColor o) ->
  0 <= b_left o -> 0 <= b_right o -> 0 <= b_top o -> 0 <= b_bottom o -> 0 <= d < qrBlockWidth o ->
  (exists cv o', draw others scale (qMat q) o = Some (Z.abs (img_w o (q_dimension q)), Z.abs (img_h o (q_dimension q)), cv, o') /\
     forall x y, 0 <= x < q_dimension q -> 0 <= y < q_dimension q ->
     if module_at (m_bitmap (qMat q)) x y then cv (sample_x o d x) (sample_y o d y) = o_qrColor o else is_light o (cv (sample_x o d x) (sample_y o d y))) ->
  exists s' o' cv,
    Save (Some (qMat q)) (standard_writer encode fails others scale) (standard_new old, o) = ((s', o'), [EvWrite (qMat q); EvClose], Returned None) /\
    s_open s' = false /\ decode (o_content (s_file s')) = Some (img_w o (q_dimension q), img_h o (q_dimension q), cv) /\
    reads_back sjis text (sampled (q_dimension q) (fun x y => nearer_dark o (cv (sample_x o d x) (sample_y o d y)))).
Proof.
  intros C text opts sched q HN NM encode decode fails others scale o old d DEC ENC NF CT B1 B2 B3 B4 HD (cv & o' & ED & PX).
  apply (saved_by (nearer_dark o) (within t) sjis C text opts sched q HN NM encode decode fails others scale o old d DEC ENC NF B1 B2 B3 B4 HD).
  exists cv, o'. split; [exact ED|]. intros x y Rx Ry c NC. specialize (PX x y Rx Ry).
  destruct (module_at (m_bitmap (qMat q)) x y).
  - rewrite PX in NC. eapply within_dark; eauto.
  - eapply within_light; eauto. eapply light_within; eauto.
Qed.

(* Any shape that keeps to its box (C56), a background (transparent or not) brighter than the foreground by more than six times the error of a
   channel: the saved picture reads back. *)
Theorem C61_lossy_reads_back :
  forall sjis, shift_jis_contract sjis ->
  forall text opts sched q, NewWith sjis text opts sched = Ok q -> ~ misdetected sjis opts (text_bytes text) ->
  forall t encode decode fails others scale o old d, lossy t (o_encoder o) encode decode ->
  encodable (o_encoder o) (img_w o (q_dimension q)) (img_h o (q_dimension q)) -> (forall k, fails k = None) ->
  proper_shape (chosen_shape others o) (qrBlockWidth o) d -> 0 <= d < qrBlockWidth o ->
  o_logo o = None -> o_halftone o = None -> o_gradient o = None -> painter_colors o -> 0 <= t ->
  brightness (o_qrColor o) + 6 * t < brightness (o_bgColor o) ->
  0 <= b_left o -> 0 <= b_right o -> 0 <= b_top o -> 0 <= b_bottom o ->
  exists s' o' cv,
    Save (Some (qMat q)) (standard_writer encode fails others scale) (standard_new old, o) = ((s', o'), [EvWrite (qMat q); EvClose], Returned None) /\
    s_open s' = false /\ decode (o_content (s_file s')) = Some (img_w o (q_dimension q), img_h o (q_dimension q), cv) /\
    reads_back sjis text (sampled (q_dimension q) (fun x y => nearer_dark o (cv (sample_x o d x) (sample_y o d y)))).
Proof.
  intros sjis C text opts sched q HN NM t encode decode fails others scale o old d DEC ENC NF PS HD EL EH EG PC T0 CT B1 B2 B3 B4.
  destruct (symbol_reads_back sjis C text opts sched q HN NM) as (SQ & _ & _).
  eapply saved_lossy; eauto. apply shape_scan; auto. intros _ E. rewrite E in CT. lia.
Qed.

(* the same for the shapes package (C60) *)
Theorem C61_lossy_linking_shapes :
  forall sjis, shift_jis_contract sjis ->
  forall text opts sched q, NewWith sjis text opts sched = Ok q -> ~ misdetected sjis opts (text_bytes text) ->
  forall t encode decode fails others scale o old d, lossy t (o_encoder o) encode decode ->
  encodable (o_encoder o) (img_w o (q_dimension q)) (img_h o (q_dimension q)) -> (forall k, fails k = None) ->
  linking_shape (chosen_shape others o) (qrBlockWidth o) d -> 0 <= d < qrBlockWidth o ->
  o_logo o = None -> o_halftone o = None -> o_gradient o = None -> o_safeZone o = false -> painter_colors o ->
  brightness (o_qrColor o) + 6 * t < brightness (o_bgColor o) ->
  0 <= b_left o -> 0 <= b_right o -> 0 <= b_top o -> 0 <= b_bottom o ->
  exists s' o' cv,
    Save (Some (qMat q)) (standard_writer encode fails others scale) (standard_new old, o) = ((s', o'), [EvWrite (qMat q); EvClose], Returned None) /\
    s_open s' = false /\ decode (o_content (s_file s')) = Some (img_w o (q_dimension q), img_h o (q_dimension q), cv) /\
    reads_back sjis text (sampled (q_dimension q) (fun x y => nearer_dark o (cv (sample_x o d x) (sample_y o d y)))).
Proof.
  intros sjis C text opts sched q HN NM t encode decode fails others scale o old d DEC ENC NF LS HD EL EH EG ES PC CT B1 B2 B3 B4.
  destruct (symbol_reads_back sjis C text opts sched q HN NM) as (SQ & _ & _). eapply saved_lossy; eauto.
  destruct (C60_any_linking_shape others scale _ _ o d SQ LS HD EH EG ES PC B1 B2 B3 B4) as (cv & o' & E & HP); [intros i F; rewrite EL in F; discriminate F|].
  exists cv, o'. split; [exact E|]. intros x y Rx Ry. apply HP; auto. intros i F. rewrite EL in F. discriminate F.
Qed.

Lemma made_dimension sjis : shift_jis_contract sjis -> forall text opts sched q,
  NewWith sjis text opts sched = Ok q -> q_dimension q <= 177.
Proof.
  intros C text opts sched q HN. destruct (newwith_made sjis C text opts sched q HN) as (md & pl & l & v & b & w & k & c & s & HM).
  destruct (blocks_made _ _ _ _ _ _ _ _ _ _ _ _ _ HM) as (RV & HK & _).
  destruct (md_cand _ _ _ _ _ _ _ _ _ _ _ _ _ HM k HK) as [SY _]. rewrite <- (md_mat _ _ _ _ _ _ _ _ _ _ _ _ _ HM) in SY.
  assert (VV : valid_version v) by apply HM.
  unfold q_dimension. destruct SY as [A B D _ _ _ _ _ _]. rewrite B. unfold side. unfold valid_version in VV. lia.
Qed.
(* The writer without options: squares of 20 pixels, black on white, JPEG.  Any JPEG encoder and decoder that together change no
   channel by more than 127 will do, for every text. *)
Theorem C61_default_jpeg :
  forall sjis, shift_jis_contract sjis ->
  forall text opts sched q, NewWith sjis text opts sched = Ok q -> ~ misdetected sjis opts (text_bytes text) ->
  forall encode decode fails others scale old, lossy 127 JpegEncoder encode decode -> (forall k, fails k = None) ->
  exists s' o' cv w,
    Save (Some (qMat q)) (standard_writer encode fails others scale) (standard_new old, defaultOptions) = ((s', o'), [EvWrite (qMat q); EvClose], Returned None) /\
    s_open s' = false /\ w = 20 * q_dimension q + 80 /\ decode (o_content (s_file s')) = Some (w, w, cv) /\
    reads_back sjis text (sampled (q_dimension q) (fun x y => let c := cv (40 + x * 20 + 10) (40 + y * 20 + 10) in 2 * (c_r c + c_g c + c_b c) <? 765)).
Proof.
  intros sjis C text opts sched q HN NM encode decode fails others scale old DEC NF.
  destruct (made_square sjis C _ _ _ _ HN) as [SQ N21]. assert (N : q_dimension q <= 177).
  { exact (made_dimension sjis C _ _ _ _ HN). }
  destruct (C61_lossy_reads_back sjis C text opts sched q HN NM 127 encode decode fails others scale defaultOptions old 10 DEC) as (s' & o' & cv & A1 & A2 & A3 & A4); try reflexivity; try (cbn; lia).
  - unfold img_w, img_h. cbn. lia.
  - exact NF.
  - apply rectangle_proper. cbn. lia.
  - cbv. intuition congruence.
  - exists s', o', cv, (20 * q_dimension q + 80). split; [exact A1|]. split; [exact A2|]. split; [reflexivity|]. split; [|exact A4].
    rewrite A3. unfold img_w, img_h.
    replace (q_dimension q * qrBlockWidth defaultOptions + b_left defaultOptions + b_right defaultOptions) with (20 * q_dimension q + 80) by (change (qrBlockWidth defaultOptions) with 20; change (b_left defaultOptions) with 40; change (b_right defaultOptions) with 40; lia).
    replace (q_dimension q * qrBlockWidth defaultOptions + b_top defaultOptions + b_bottom defaultOptions) with (20 * q_dimension q + 80) by (change (qrBlockWidth defaultOptions) with 20; change (b_top defaultOptions) with 40; change (b_bottom defaultOptions) with 40; lia).
    reflexivity.
Qed.

(* 128 would be too much: a JPEG coder may turn everything grey *)
Theorem C61_bound_is_tight :
  exists (encode : encoder -> Z * Z * canvas -> list (list Z)) (decode : list Z -> option (Z * Z * canvas)),
  (forall w h cv, encodable JpegEncoder w h -> (forall px py, cv px py = color_BLACK \/ cv px py = color_WHITE) ->
    exists cv', decode (concat (encode JpegEncoder (w, h, cv))) = Some (w, h, cv') /\ forall px py, within 128 (cv px py) (cv' px py)) /\
  forall w h cv1 cv2, encode JpegEncoder (w, h, cv1) = encode JpegEncoder (w, h, cv2).
Proof.
  exists (fun _ '(w, h, _) => [[w; h]]), (fun l => match l with [w; h] => Some (w, h, fun _ _ => mkRGBA 127 127 127 255) | _ => None end). split; [|reflexivity].
  intros w h cv _ BW. eexists. split; [reflexivity|]. intros px py. destruct (BW px py) as [-> | ->]; unfold within; cbn; lia.
Qed.

Example C61_example : (exists q, NewWith sample_sjis hello [] fair_schedule = Ok q) /\ ~ misdetected sample_sjis [] (text_bytes hello) /\
  (exists encode decode, lossy 127 JpegEncoder encode decode).
Proof.
  split; [apply PropsSymbol.symbol_example|]. split; [apply PropsSymbol.symbol_example|].
  exists PropsSaved.toy_encode, PropsSaved.toy_decode. intros w h cv _. unfold PropsSaved.toy_encode. eexists. split; [cbn [concat app]; rewrite app_nil_r; reflexivity|].
  intros px py X Y. cbn beta. rewrite PropsSaved.toy_pixel by assumption. unfold within. lia.
Qed.
Print Assumptions C61_lossy_reads_back.
Print Assumptions C61_lossy_linking_shapes.
Print Assumptions C61_default_jpeg.
Print Assumptions C61_bound_is_tight.
