(* C77, with the reader of C71: the picture is stained, and the reader is given only the stained picture.  It looks for the first row
   of pixels with something dark, so that row and those above must be clean; a stain may be anywhere below. *)
From Coq Require Import Lia.
From Verif Require Import ModelBase ModelMatrix ModelQRCode ModelSave ModelCompressed ModelStandard ModelWriters.
From Verif Require Import SpecIso SpecReader SpecSegment SpecAPI SpecMatrix SpecImage SpecStandard SpecMedium SpecShape SpecLogo SpecRecovery SpecLocate SpecDirt.
From Verif Require Import Samples ProofBase ProofEval ProofCompressed ProofStandard ProofMedium ProofLocate ProofDirt PropsShape PropsLocate.
From Verif Require Import ProofLogo PropsLogo.
From Verif Require PropsDirt PropsLossy.

Lemma locate_stained dark dirty w h left top b n f : squares dark w h left top b n f -> corners_dark n f ->
  (forall px py, 0 <= px < w -> 0 <= py <= top -> dirty px py = dark px py) -> locate dirty w h = Some (left, top, b, n).
Proof.
  intros SQ [N FI GA RI BO] AG. pose proof (sq_size _ _ _ _ _ _ _ _ SQ) as (L & T & B & W & HH). assert (NB : 21 * b <= n * b) by nia.
  assert (D0 : forall px, left <= px < left + 7 * b -> dirty px top = true).
  { intros px R. rewrite AG by nia. rewrite (sq_in _ _ _ _ _ _ _ _ SQ) by nia. replace ((top - top) / b) with 0 by (rewrite Z.sub_diag; symmetry; apply Z.div_0_l; lia).
    apply FI. split; [apply Z.div_pos; lia|apply Z.div_lt_upper_bound; nia]. }
  assert (G : dirty (left + 7 * b) top = false) by (rewrite AG by nia; rewrite <- GA; eapply sq_pixel; [exact SQ|nia..]).
  assert (R : dirty (left + n * b - 1) top = true) by (rewrite AG by nia; rewrite <- RI; eapply sq_pixel; [exact SQ|nia..]).
  unfold locate. rewrite (find_first _ top).
  - rewrite (find_first _ left 0 w); [|nia|intros x X; rewrite AG by nia; apply (sq_out _ _ _ _ _ _ _ _ SQ); nia|apply D0; nia].
    rewrite (find_last _ (left + n * b - 1)); [|nia|intros x X; rewrite AG by nia; apply (sq_out _ _ _ _ _ _ _ _ SQ); nia|exact R].
    rewrite (find_first _ (left + 7 * b)); [|nia|intros x X; rewrite D0 by lia; reflexivity|rewrite G; reflexivity].
    cbv zeta. replace (left + 7 * b - left) with (b * 7) by lia. rewrite Z.div_mul by lia. replace (left + n * b - 1 + 1 - left) with (n * b) by lia. rewrite Z.div_mul by lia. reflexivity.
  - nia.
  - intros y Y. apply not_true_iff_false. rewrite existsb_exists. intros (x & IX & DX). apply in_zseq in IX.
    rewrite AG, (sq_out _ _ _ _ _ _ _ _ SQ) in DX by lia. discriminate DX.
  - apply existsb_exists. exists left. split; [apply in_zseq; nia|apply D0; nia].
Qed.

Section Stain.
Context (sjis : Z -> option (list Z)) (C : shift_jis_contract sjis) (text : GoText) (opts : list EncodeOption) (sched : list actor) (q : QRCode) (l : level).
Context (HN : NewWith sjis text opts sched = Ok q) (NM : ~ misdetected sjis opts (text_bytes text)) (HL : eff_level opts = level_code l).
Notation n := (q_dimension q). Notation v := ((q_dimension q - 17) / 4).

(* what a reader makes of a stained picture *)
Definition stain_recovered (dark : Z -> Z -> bool) (w h left top b : Z) : Prop :=
  (* some modules are misread, wherever they are *)
  (forall dirty, (forall px py, 0 <= px < w -> 0 <= py <= top -> dirty px py = dark px py) ->
     exists bm, read_picture dirty w h = Some bm /\
       (2 * misread_count n (in_data v) (m_bitmap (qMat q)) bm <= ecc_per_block v l -> misread_count n in_format (m_bitmap (qMat q)) bm <= 3 -> recovers_text sjis text bm)) /\
  (* a rectangle of cols x rows modules, beyond the ninth row or column of modules *)
  (forall dirty px0 py0 cols rows, (forall px py, 0 <= px < w -> 0 <= py < h -> in_rectangle px0 py0 (cols * b) (rows * b) px py = false -> dirty px py = dark px py) ->
     0 <= cols -> 0 <= rows -> 2 * (cols * rows) <= ecc_per_block v l -> top < py0 -> left + 9 * b <= px0 \/ top + 9 * b <= py0 ->
     picture_recovers sjis text dirty w h).

Lemma squares_stained dark w h left top b : squares dark w h left top b n (module_at (m_bitmap (qMat q))) -> stain_recovered dark w h left top b.
Proof.
  intros SQ. pose proof (made_corners sjis C _ _ _ _ HN) as CD. destruct (made_square sjis C _ _ _ _ HN) as [SM N21]. pose proof (sq_size _ _ _ _ _ _ _ _ SQ) as (L0 & T0 & B0 & W0 & H0).
  pose proof (Z.div_pos (b - 1) 2 ltac:(lia) ltac:(lia)) as D1. pose proof (Z.div_lt_upper_bound (b - 1) 2 b ltac:(lia) ltac:(lia)) as D2. set (d := (b - 1) / 2) in *.
  split.
  - intros dirty AG. eexists. split; [unfold read_picture; rewrite (locate_stained dark dirty _ _ _ _ _ _ _ SQ CD AG); reflexivity|].
    intros E F. fold d in E, F. fold d. destruct (sampled_size n (fun x y => dirty (left + x * b + d) (top + y * b + d)) ltac:(lia)) as [S1 S2].
    apply (PropsDirt.C77_misread_modules sjis C text opts sched q l HN NM HL); assumption.
  - intros dirty px0 py0 cols rows AG CO RO E TP OFF.
    assert (AG0 : forall px py, 0 <= px < w -> 0 <= py <= top -> dirty px py = dark px py).
    { intros px py X Y. apply AG; [exact X|nia|]. unfold in_rectangle. rewrite !andb_false_iff, !Z.leb_gt, !Z.ltb_ge. lia. }
    eexists. split; [unfold read_picture; rewrite (locate_stained dark dirty _ _ _ _ _ _ _ SQ CD AG0); reflexivity|]. fold d.
    destruct (PropsDirt.samples_in (left + d) b cols px0 ltac:(lia)) as (x0 & SX & SX'). destruct (PropsDirt.samples_in (top + d) b rows py0 ltac:(lia)) as (y0 & SY & SY').
    destruct (sampled_size n (fun x y => dirty (left + x * b + d) (top + y * b + d)) ltac:(lia)) as [S1 S2].
    eapply (PropsDirt.C77_stain sjis C text opts sched q l HN NM HL _ x0 y0 cols rows); auto.
    + intros x y X Y R. rewrite sampled_module by assumption. rewrite AG; [symmetry; eapply sq_pixel; [exact SQ|lia..]|nia|nia|].
      unfold in_rectangle in *. rewrite !andb_false_iff, !Z.leb_gt, !Z.ltb_ge in *. specialize (SX x). specialize (SY y). lia.
    + destruct OFF as [OFF|OFF]; [left; specialize (SX' 8)|right; specialize (SY' 8)]; lia.
Qed.

(* the standard writer, PNG: squares; no logo, gradient or halftone; a dark colour on a light or transparent one *)
Theorem C77_stained_png :
  forall encode decode fails others scale o old, keeps png_same (o_encoder o) encode decode ->
  encodable (o_encoder o) (img_w o n) (img_h o n) -> (forall k, fails k = None) ->
  getShape o = ShapeRectangle -> o_logo o = None -> o_halftone o = None -> o_gradient o = None -> painter_colors o ->
  looks_dark (o_qrColor o) = true -> (o_bgTransparent o = false -> looks_dark (o_bgColor o) = false) ->
  0 <= b_left o -> 0 <= b_right o -> 0 <= b_top o -> 0 <= b_bottom o ->
  exists s' o' w h cv,
    Save (Some (qMat q)) (standard_writer encode fails others scale) (standard_new old, o) = ((s', o'), [EvWrite (qMat q); EvClose], Returned None) /\
    decode (o_content (s_file s')) = Some (w, h, cv) /\ stain_recovered (fun px py => visibly_dark (cv px py)) w h (b_left o) (b_top o) (qrBlockWidth o).
Proof.
  intros encode decode fails others scale o old DEC ENC NF HS HLO HH HG PC DK LT B1 B2 B3 B4.
  destruct (standard_png sjis C text opts sched q HN encode decode fails others scale o old DEC ENC NF HS HLO HH HG PC DK LT B1 B2 B3 B4) as (s' & o' & cv & A & B & S).
  exists s', o', (img_w o n), (img_h o n), cv. split; [exact A|]. split; [exact B|]. apply squares_stained. exact S.
Qed.
(* JPEG *)
Theorem C77_stained_lossy :
  forall t encode decode fails others scale o old, lossy t (o_encoder o) encode decode ->
  encodable (o_encoder o) (img_w o n) (img_h o n) -> (forall k, fails k = None) ->
  getShape o = ShapeRectangle -> o_logo o = None -> o_halftone o = None -> o_gradient o = None -> painter_colors o -> o_bgTransparent o = false ->
  2 * (brightness (o_qrColor o) + 3 * t) < 765 -> 765 <= 2 * (brightness (o_bgColor o) - 3 * t) ->
  0 <= b_left o -> 0 <= b_right o -> 0 <= b_top o -> 0 <= b_bottom o ->
  exists s' o' w h cv,
    Save (Some (qMat q)) (standard_writer encode fails others scale) (standard_new old, o) = ((s', o'), [EvWrite (qMat q); EvClose], Returned None) /\
    decode (o_content (s_file s')) = Some (w, h, cv) /\ stain_recovered (fun px py => looks_dark (cv px py)) w h (b_left o) (b_top o) (qrBlockWidth o).
Proof.
  intros t encode decode fails others scale o old DEC ENC NF HS HLO HH HG PC NT DK LT B1 B2 B3 B4.
  destruct (standard_lossy sjis C text opts sched q HN t encode decode fails others scale o old DEC ENC NF HS HLO HH HG PC NT DK LT B1 B2 B3 B4) as (s' & o' & cv & A & B & S).
  exists s', o', (img_w o n), (img_h o n), cv. split; [exact A|]. split; [exact B|]. apply squares_stained. exact S.
Qed.
(* the writer without options *)
Theorem C77_stained_default_jpeg :
  forall encode decode fails others scale old, lossy 127 JpegEncoder encode decode -> (forall k, fails k = None) ->
  exists s' o' w h cv,
    Save (Some (qMat q)) (standard_writer encode fails others scale) (standard_new old, defaultOptions) = ((s', o'), [EvWrite (qMat q); EvClose], Returned None) /\
    decode (o_content (s_file s')) = Some (w, h, cv) /\ stain_recovered (fun px py => looks_dark (cv px py)) w h 40 40 20.
Proof.
  intros encode decode fails others scale old DEC NF. pose proof (PropsLossy.made_dimension sjis C _ _ _ _ HN).
  apply (C77_stained_lossy 127 encode decode fails others scale defaultOptions old DEC); try reflexivity; try (cbn; lia).
  - unfold img_w, img_h. cbn. lia.
  - exact NF.
  - cbv. intuition congruence.
Qed.
(* the compressed writer *)
Theorem C77_stained_compressed :
  forall png_pieces png_decode, (forall i, png_decode (concat (png_pieces i)) = Some i) ->
  forall fails padding block, (forall k, fails k = None) -> 0 <= padding -> 1 <= block -> n * block + 2 * padding < 2 ^ 32 ->
  exists s' i,
    Save (Some (qMat q)) (compressed_writer png_pieces fails padding block) (compressed_new None) = (s', [EvWrite (qMat q); EvClose], Returned None) /\
    png_decode (o_content (s_file s')) = Some i /\ stain_recovered (paletted_dark i) (p_size i) (p_size i) padding padding block.
Proof.
  intros png_pieces png_decode DEC fails padding block NF HP HB SZ.
  destruct (compressed_saved sjis C text opts sched q HN png_pieces png_decode DEC fails padding block NF HP HB SZ) as (s' & i & A & B & _ & S).
  exists s', i. split; [exact A|]. split; [exact B|]. apply squares_stained. exact S.
Qed.
End Stain.
(* HELLO with the writer's defaults and a blot of 40 x 20 pixels on its JPEG: the reader finds the symbol and the text *)
Example C77_stained_example : forall q, NewWith sample_sjis hello [] fair_schedule = Ok q ->
  forall encode decode others scale, lossy 127 JpegEncoder encode decode ->
  exists s' o' w h cv,
    Save (Some (qMat q)) (standard_writer encode (fun _ => None) others scale) (standard_new None, defaultOptions) = ((s', o'), [EvWrite (qMat q); EvClose], Returned None) /\
    decode (o_content (s_file s')) = Some (w, h, cv) /\
    forall dirty : canvas, (forall px py, in_rectangle 280 250 40 20 px py = false -> dirty px py = cv px py) ->
    picture_recovers sample_sjis hello (fun px py => looks_dark (dirty px py)) w h.
Proof.
  intros q HN encode decode others scale DEC. destruct PropsLossy.C61_example as (_ & E2 & _).
  destruct (C77_stained_default_jpeg sample_sjis sample_contract hello [] fair_schedule q Q HN E2 eq_refl encode decode (fun _ => None) others scale None DEC (fun _ => eq_refl))
    as (s' & o' & w & h & cv & A & B & _ & K).
  exists s', o', w, h, cv. split; [exact A|]. split; [exact B|]. intros dirty AG. pose proof (PropsDirt.made_version sample_sjis sample_contract _ _ _ _ HN) as VV.
  apply (K (fun px py => looks_dark (dirty px py)) 280 250 2 1); try lia.
  - intros px py _ _ R. rewrite AG by exact R. reflexivity.
  - eapply Z.le_trans; [|exact (PropsDirt.ecc_seven _ Q VV)]. lia.
Qed.
Print Assumptions C77_stained_png.
Print Assumptions C77_stained_lossy.
Print Assumptions C77_stained_default_jpeg.
Print Assumptions C77_stained_compressed.
