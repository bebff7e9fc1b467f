(* C70: the margins of a picture are exactly those asked for.  C71: a picture can be read without knowing anything about it. *)
From Coq Require Import Lia.
From Verif Require Import ModelBase ModelMatrix ModelQRCode ModelSave ModelCompressed ModelStandard ModelWriters.
From Verif Require Import SpecIso SpecReader SpecSegment SpecAPI SpecMatrix SpecImage SpecStandard SpecMedium SpecShape SpecLocate.
From Verif Require Import Samples ProofBase ProofEval ProofCompressed ProofStandard ProofMedium ProofLocate PropsShape.
From Verif Require PropsCompressed PropsStandard PropsSaved PropsLossy PropsSymbol.

(* PNG: pixels come back, but for the colour of fully transparent ones *)
Lemma standard_png sjis : shift_jis_contract sjis ->
  forall text opts sched q, NewWith sjis text opts sched = Ok q ->
  forall encode decode fails others scale o old, keeps png_same (o_encoder o) encode decode ->
  encodable (o_encoder o) (img_w o (q_dimension q)) (img_h o (q_dimension q)) -> (forall k, fails k = None) ->
  getShape o = ShapeRectangle -> o_logo o = None -> o_halftone o = None -> o_gradient o = None -> painter_colors o ->
  looks_dark (o_qrColor o) = true -> (o_bgTransparent o = false -> looks_dark (o_bgColor o) = false) ->
  0 <= b_left o -> 0 <= b_right o -> 0 <= b_top o -> 0 <= b_bottom o ->
  exists s' o' cv,
    Save (Some (qMat q)) (standard_writer encode fails others scale) (standard_new old, o) = ((s', o'), [EvWrite (qMat q); EvClose], Returned None) /\
    decode (o_content (s_file s')) = Some (img_w o (q_dimension q), img_h o (q_dimension q), cv) /\
    squares (fun px py => visibly_dark (cv px py)) (img_w o (q_dimension q)) (img_h o (q_dimension q)) (b_left o) (b_top o) (qrBlockWidth o) (q_dimension q) (module_at (m_bitmap (qMat q))).
Proof.
  intros C text opts sched q HN encode decode fails others scale o old DEC ENC NF HS HL HH HG PC DK LT B1 B2 B3 B4.
  destruct (made_square sjis C _ _ _ _ HN) as [SQ N21].
  destruct (PropsStandard.C37_pixels_partial others scale _ _ o SQ HS HL HH HG PC) as (cv & o1 & ED & PX).
  destruct (saved_picture png_same sjis C text opts sched q HN encode decode fails others scale o old cv o1 DEC ENC NF B1 B2 B3 B4 ED) as (s' & o' & cv' & A & _ & B & NR).
  exists s', o', cv'. split; [exact A|]. split; [exact B|]. destruct PC as ((GQ & AQ) & _ & BO).
  apply (standard_squares png_same visibly_dark _ _ o cv cv' SQ B1 B2 B3 B4 PX NR).
  - intros c [<-|[F _]]; [|lia]. unfold visibly_dark. rewrite AQ, DK. reflexivity.
  - intros c c' E [<-|[F0 F]]; unfold visibly_dark; [|rewrite F; reflexivity].
    destruct (o_bgTransparent o); [rewrite E; reflexivity|]. rewrite E, LT by reflexivity. apply andb_false_r.
Qed.
(* JPEG, or any encoder that changes each channel by at most t *)
Lemma standard_lossy sjis : shift_jis_contract sjis ->
  forall text opts sched q, NewWith sjis text opts sched = Ok q ->
  forall t encode decode fails others scale o old, lossy t (o_encoder o) encode decode ->
  encodable (o_encoder o) (img_w o (q_dimension q)) (img_h o (q_dimension q)) -> (forall k, fails k = None) ->
  getShape o = ShapeRectangle -> o_logo o = None -> o_halftone o = None -> o_gradient o = None -> painter_colors o -> o_bgTransparent o = false ->
  2 * (brightness (o_qrColor o) + 3 * t) < 765 -> 765 <= 2 * (brightness (o_bgColor o) - 3 * t) ->
  0 <= b_left o -> 0 <= b_right o -> 0 <= b_top o -> 0 <= b_bottom o ->
  exists s' o' cv,
    Save (Some (qMat q)) (standard_writer encode fails others scale) (standard_new old, o) = ((s', o'), [EvWrite (qMat q); EvClose], Returned None) /\
    decode (o_content (s_file s')) = Some (img_w o (q_dimension q), img_h o (q_dimension q), cv) /\
    squares (fun px py => looks_dark (cv px py)) (img_w o (q_dimension q)) (img_h o (q_dimension q)) (b_left o) (b_top o) (qrBlockWidth o) (q_dimension q) (module_at (m_bitmap (qMat q))).
Proof.
  intros C text opts sched q HN t encode decode fails others scale o old DEC ENC NF HS HL HH HG PC NT DK LT B1 B2 B3 B4.
  destruct (made_square sjis C _ _ _ _ HN) as [SQ N21].
  destruct (PropsStandard.C37_pixels_partial others scale _ _ o SQ HS HL HH HG PC) as (cv & o1 & ED & PX).
  destruct (saved_picture (within t) sjis C text opts sched q HN encode decode fails others scale o old cv o1 DEC ENC NF B1 B2 B3 B4 ED) as (s' & o' & cv' & A & _ & B & NR).
  exists s', o', cv'. split; [exact A|]. split; [exact B|].
  apply (standard_squares (within t) looks_dark _ _ o cv cv' SQ B1 B2 B3 B4 PX NR).
  - intros c (W1 & W2 & W3). unfold looks_dark, brightness in *. apply Z.ltb_lt. lia.
  - rewrite NT. intros c c' -> (W1 & W2 & W3). unfold looks_dark, brightness in *. apply Z.ltb_ge. lia.
Qed.

(* ---- C71 ---- *)
(* A picture saved by the standard writer (squares; no logo, gradient or halftone; a dark colour on a light or transparent one; any
   block width and borders, also none) is read by a reader that is given only the picture. *)
Theorem C71_standard :
  forall sjis, shift_jis_contract sjis ->
  forall text opts sched q, NewWith sjis text opts sched = Ok q -> ~ misdetected sjis opts (text_bytes text) ->
  forall encode decode fails others scale o old, keeps png_same (o_encoder o) encode decode ->
  encodable (o_encoder o) (img_w o (q_dimension q)) (img_h o (q_dimension q)) -> (forall k, fails k = None) ->
  getShape o = ShapeRectangle -> o_logo o = None -> o_halftone o = None -> o_gradient o = None -> painter_colors o ->
  looks_dark (o_qrColor o) = true -> (o_bgTransparent o = false -> looks_dark (o_bgColor o) = false) ->
  0 <= b_left o -> 0 <= b_right o -> 0 <= b_top o -> 0 <= b_bottom o ->
  exists s' o' w h cv,
    Save (Some (qMat q)) (standard_writer encode fails others scale) (standard_new old, o) = ((s', o'), [EvWrite (qMat q); EvClose], Returned None) /\
    decode (o_content (s_file s')) = Some (w, h, cv) /\ picture_shows sjis text (fun px py => visibly_dark (cv px py)) w h.
Proof.
  intros sjis C text opts sched q HN NM encode decode fails others scale o old DEC ENC NF HS HL HH HG PC DK LT B1 B2 B3 B4.
  destruct (symbol_reads_back sjis C text opts sched q HN NM) as (SQ & _ & RB).
  destruct (standard_png sjis C text opts sched q HN encode decode fails others scale o old DEC ENC NF HS HL HH HG PC DK LT B1 B2 B3 B4) as (s' & o' & cv & A & B & S).
  exists s', o', (img_w o (q_dimension q)), (img_h o (q_dimension q)), cv. split; [exact A|]. split; [exact B|]. exists (m_bitmap (qMat q)). split; [|exact RB].
  exact (read_squares _ _ _ _ _ _ _ _ SQ S (made_corners sjis C _ _ _ _ HN)).
Qed.
Theorem C71_standard_lossy :
  forall sjis, shift_jis_contract sjis ->
  forall text opts sched q, NewWith sjis text opts sched = Ok q -> ~ misdetected sjis opts (text_bytes text) ->
  forall t encode decode fails others scale o old, lossy t (o_encoder o) encode decode ->
  encodable (o_encoder o) (img_w o (q_dimension q)) (img_h o (q_dimension q)) -> (forall k, fails k = None) ->
  getShape o = ShapeRectangle -> o_logo o = None -> o_halftone o = None -> o_gradient o = None -> painter_colors o -> o_bgTransparent o = false ->
  2 * (brightness (o_qrColor o) + 3 * t) < 765 -> 765 <= 2 * (brightness (o_bgColor o) - 3 * t) ->
  0 <= b_left o -> 0 <= b_right o -> 0 <= b_top o -> 0 <= b_bottom o ->
  exists s' o' w h cv,
    Save (Some (qMat q)) (standard_writer encode fails others scale) (standard_new old, o) = ((s', o'), [EvWrite (qMat q); EvClose], Returned None) /\
    decode (o_content (s_file s')) = Some (w, h, cv) /\ picture_shows sjis text (fun px py => looks_dark (cv px py)) w h.
Proof.
  intros sjis C text opts sched q HN NM t encode decode fails others scale o old DEC ENC NF HS HL HH HG PC NT DK LT B1 B2 B3 B4.
  destruct (symbol_reads_back sjis C text opts sched q HN NM) as (SQ & _ & RB).
  destruct (standard_lossy sjis C text opts sched q HN t encode decode fails others scale o old DEC ENC NF HS HL HH HG PC NT DK LT B1 B2 B3 B4) as (s' & o' & cv & A & B & S).
  exists s', o', (img_w o (q_dimension q)), (img_h o (q_dimension q)), cv. split; [exact A|]. split; [exact B|]. exists (m_bitmap (qMat q)). split; [|exact RB].
  exact (read_squares _ _ _ _ _ _ _ _ SQ S (made_corners sjis C _ _ _ _ HN)).
Qed.
(* the writer without options, with any JPEG coder that changes no channel by more than 127 *)
Theorem C71_default_jpeg :
  forall sjis, shift_jis_contract sjis ->
  forall text opts sched q, NewWith sjis text opts sched = Ok q -> ~ misdetected sjis opts (text_bytes text) ->
  forall encode decode fails others scale old, lossy 127 JpegEncoder encode decode -> (forall k, fails k = None) ->
  exists s' o' w h cv,
    Save (Some (qMat q)) (standard_writer encode fails others scale) (standard_new old, defaultOptions) = ((s', o'), [EvWrite (qMat q); EvClose], Returned None) /\
    decode (o_content (s_file s')) = Some (w, h, cv) /\ picture_shows sjis text (fun px py => looks_dark (cv px py)) w h.
Proof.
  intros sjis C text opts sched q HN NM encode decode fails others scale old DEC NF. pose proof (PropsLossy.made_dimension sjis C _ _ _ _ HN).
  apply (C71_standard_lossy sjis C text opts sched q HN NM 127 encode decode fails others scale defaultOptions old DEC); try reflexivity; try (cbn; lia).
  - unfold img_w, img_h. cbn. lia.
  - exact NF.
  - cbv. intuition congruence.
Qed.
(* the compressed writer *)
Lemma compressed_squares n m padding block i : square n m -> 0 <= padding -> 1 <= block -> compressed_draw padding block m = Some i ->
  p_size i = n * block + 2 * padding /\ squares (paletted_dark i) (p_size i) (p_size i) padding padding block n (module_at (m_bitmap m)).
Proof.
  intros SQ HP HB E. destruct (PropsCompressed.C34_pixel_exact _ _ padding block SQ HP HB) as (i' & ED & _ & ES & _ & PX & PO). rewrite E in ED. injection ED as <-.
  split; [exact ES|]. constructor.
  - nia.
  - intros px py X Y. pose proof (Z.div_mod (px - padding) block ltac:(lia)) as EX. pose proof (Z.mod_pos_bound (px - padding) block ltac:(lia)) as MX.
    pose proof (Z.div_mod (py - padding) block ltac:(lia)) as EY. pose proof (Z.mod_pos_bound (py - padding) block ltac:(lia)) as MY.
    set (x := (px - padding) / block) in *. set (y := (py - padding) / block) in *.
    specialize (PX x y ((px - padding) mod block) ((py - padding) mod block) ltac:(nia) ltac:(nia) MX MY).
    replace (padding + x * block + (px - padding) mod block) with px in PX by nia. replace (padding + y * block + (py - padding) mod block) with py in PX by nia.
    unfold paletted_dark. rewrite PX. destruct (module_at _ x y); reflexivity.
  - intros px py X Y NI. unfold paletted_dark. rewrite PO by assumption. reflexivity.
Qed.
Lemma compressed_saved sjis : shift_jis_contract sjis ->
  forall text opts sched q, NewWith sjis text opts sched = Ok q ->
  forall png_pieces png_decode, (forall i, png_decode (concat (png_pieces i)) = Some i) ->
  forall fails padding block, (forall k, fails k = None) -> 0 <= padding -> 1 <= block -> q_dimension q * block + 2 * padding < 2 ^ 32 ->
  exists s' i,
    Save (Some (qMat q)) (compressed_writer png_pieces fails padding block) (compressed_new None) = (s', [EvWrite (qMat q); EvClose], Returned None) /\
    png_decode (o_content (s_file s')) = Some i /\ p_size i = q_dimension q * block + 2 * padding /\
    squares (paletted_dark i) (p_size i) (p_size i) padding padding block (q_dimension q) (module_at (m_bitmap (qMat q))).
Proof.
  intros C text opts sched q HN png_pieces png_decode DEC fails padding block NF HP HB SZ. destruct (made_square sjis C _ _ _ _ HN) as [SQ N21].
  destruct (PropsCompressed.C34_pixel_exact _ _ padding block SQ HP HB) as (i & ED & _). destruct (compressed_squares _ _ padding block i SQ HP HB ED) as [ES S].
  destruct (sink_all fails NF (png_pieces i) (compressed_open None) 0) as [calls EW].
  exists (mkSink (os_write_all (compressed_open None) (png_pieces i)) false calls), i. split; [|split; [|split; [exact ES|exact S]]].
  - unfold Save, compressed_writer, compressed_new. cbn [wr_write wr_close]. rewrite ED, (encodable_ok PngEncoder), EW by (rewrite ES; change (2 ^ 32) with 4294967296 in SZ; unfold encodable; nia). reflexivity.
  - cbn [s_file]. rewrite (PropsCompressed.C35_file_content_partial None). rewrite skipn_nil, app_nil_r. apply DEC.
Qed.
Theorem C71_compressed :
  forall sjis, shift_jis_contract sjis ->
  forall text opts sched q, NewWith sjis text opts sched = Ok q -> ~ misdetected sjis opts (text_bytes text) ->
  forall png_pieces png_decode, (forall i, png_decode (concat (png_pieces i)) = Some i) ->
  forall fails padding block, (forall k, fails k = None) -> 0 <= padding -> 1 <= block -> q_dimension q * block + 2 * padding < 2 ^ 32 ->
  exists s' i,
    Save (Some (qMat q)) (compressed_writer png_pieces fails padding block) (compressed_new None) = (s', [EvWrite (qMat q); EvClose], Returned None) /\
    png_decode (o_content (s_file s')) = Some i /\ picture_shows sjis text (paletted_dark i) (p_size i) (p_size i).
Proof.
  intros sjis C text opts sched q HN NM png_pieces png_decode DEC fails padding block NF HP HB SZ. destruct (symbol_reads_back sjis C text opts sched q HN NM) as (SQ & _ & RB).
  destruct (compressed_saved sjis C text opts sched q HN png_pieces png_decode DEC fails padding block NF HP HB SZ) as (s' & i & A & B & _ & S).
  exists s', i. split; [exact A|]. split; [exact B|]. exists (m_bitmap (qMat q)). split; [|exact RB]. exact (read_squares _ _ _ _ _ _ _ _ SQ S (made_corners sjis C _ _ _ _ HN)).
Qed.
(* Circles are not found this way: the first row with a dark pixel does not show the width of seven modules.  (C56 reads them, given the
   layout.) *)

(* ---- C70 ---- *)
Theorem C70_standard_margins :
  forall sjis, shift_jis_contract sjis ->
  forall text opts sched q, NewWith sjis text opts sched = Ok q ->
  forall encode decode fails others scale o old, keeps png_same (o_encoder o) encode decode ->
  encodable (o_encoder o) (img_w o (q_dimension q)) (img_h o (q_dimension q)) -> (forall k, fails k = None) ->
  getShape o = ShapeRectangle -> o_logo o = None -> o_halftone o = None -> o_gradient o = None -> painter_colors o ->
  looks_dark (o_qrColor o) = true -> (o_bgTransparent o = false -> looks_dark (o_bgColor o) = false) ->
  0 <= b_left o -> 0 <= b_right o -> 0 <= b_top o -> 0 <= b_bottom o ->
  exists s' o' w h cv,
    Save (Some (qMat q)) (standard_writer encode fails others scale) (standard_new old, o) = ((s', o'), [EvWrite (qMat q); EvClose], Returned None) /\
    decode (o_content (s_file s')) = Some (w, h, cv) /\
    margins (fun px py => visibly_dark (cv px py)) w h (b_left o) (b_top o) (b_right o) (b_bottom o).
Proof.
  intros sjis C text opts sched q HN encode decode fails others scale o old DEC ENC NF HS HL HH HG PC DK LT B1 B2 B3 B4.
  destruct (standard_png sjis C text opts sched q HN encode decode fails others scale o old DEC ENC NF HS HL HH HG PC DK LT B1 B2 B3 B4) as (s' & o' & cv & A & B & S).
  exists s', o', (img_w o (q_dimension q)), (img_h o (q_dimension q)), cv. split; [exact A|]. split; [exact B|].
  pose proof (margins_squares _ _ _ _ _ _ _ _ S (made_corners sjis C _ _ _ _ HN)) as MG.
  replace (img_w o (q_dimension q) - b_left o - q_dimension q * qrBlockWidth o) with (b_right o) in MG by (unfold img_w; lia).
  replace (img_h o (q_dimension q) - b_top o - q_dimension q * qrBlockWidth o) with (b_bottom o) in MG by (unfold img_h; lia). exact MG.
Qed.
Theorem C70_compressed_margins :
  forall sjis, shift_jis_contract sjis ->
  forall text opts sched q, NewWith sjis text opts sched = Ok q ->
  forall png_pieces png_decode, (forall i, png_decode (concat (png_pieces i)) = Some i) ->
  forall fails padding block, (forall k, fails k = None) -> 0 <= padding -> 1 <= block -> q_dimension q * block + 2 * padding < 2 ^ 32 ->
  exists s' i,
    Save (Some (qMat q)) (compressed_writer png_pieces fails padding block) (compressed_new None) = (s', [EvWrite (qMat q); EvClose], Returned None) /\
    png_decode (o_content (s_file s')) = Some i /\ margins (paletted_dark i) (p_size i) (p_size i) padding padding padding padding.
Proof.
  intros sjis C text opts sched q HN png_pieces png_decode DEC fails padding block NF HP HB SZ.
  destruct (compressed_saved sjis C text opts sched q HN png_pieces png_decode DEC fails padding block NF HP HB SZ) as (s' & i & A & B & ES & S).
  exists s', i. split; [exact A|]. split; [exact B|]. pose proof (margins_squares _ _ _ _ _ _ _ _ S (made_corners sjis C _ _ _ _ HN)) as MG.
  replace (p_size i - padding - q_dimension q * block) with padding in MG by lia. exact MG.
Qed.
(* so a picture has ISO's quiet zone exactly if every border is four modules wide *)
Theorem C70_quiet_zone_iff :
  forall dark w h left top right bottom b, margins dark w h left top right bottom ->
  (quiet_zone dark w h b <-> 4 * b <= left /\ 4 * b <= top /\ 4 * b <= right /\ 4 * b <= bottom).
Proof.
  intros dark w h left top right bottom b [F ML (yl & YL & DL) (xt & XT & DT) (yr & YR & DR) (xb & XB & DB)]. split.
  - intros QZ. pose proof (QZ left yl ltac:(lia) YL DL). pose proof (QZ xt top XT ltac:(lia) DT).
    pose proof (QZ (w - right - 1) yr ltac:(lia) YR DR). pose proof (QZ xb (h - bottom - 1) XB ltac:(lia) DB). lia.
  - intros G x y X Y D. destruct (ML x y X Y D). lia.
Qed.
(* in terms of the options *)
Theorem C70_standard_quiet_zone :
  forall sjis, shift_jis_contract sjis ->
  forall text opts sched q, NewWith sjis text opts sched = Ok q ->
  forall encode decode fails others scale o old, keeps png_same (o_encoder o) encode decode ->
  encodable (o_encoder o) (img_w o (q_dimension q)) (img_h o (q_dimension q)) -> (forall k, fails k = None) ->
  getShape o = ShapeRectangle -> o_logo o = None -> o_halftone o = None -> o_gradient o = None -> painter_colors o ->
  looks_dark (o_qrColor o) = true -> (o_bgTransparent o = false -> looks_dark (o_bgColor o) = false) ->
  0 <= b_left o -> 0 <= b_right o -> 0 <= b_top o -> 0 <= b_bottom o ->
  exists s' o' w h cv,
    Save (Some (qMat q)) (standard_writer encode fails others scale) (standard_new old, o) = ((s', o'), [EvWrite (qMat q); EvClose], Returned None) /\
    decode (o_content (s_file s')) = Some (w, h, cv) /\
    let bw := qrBlockWidth o in
    (quiet_zone (fun px py => visibly_dark (cv px py)) w h bw <-> 4 * bw <= b_left o /\ 4 * bw <= b_top o /\ 4 * bw <= b_right o /\ 4 * bw <= b_bottom o).
Proof.
  intros sjis C text opts sched q HN encode decode fails others scale o old DEC ENC NF HS HL HH HG PC DK LT B1 B2 B3 B4.
  destruct (C70_standard_margins sjis C text opts sched q HN encode decode fails others scale o old DEC ENC NF HS HL HH HG PC DK LT B1 B2 B3 B4) as (s' & o' & w & h & cv & A & B & MG).
  exists s', o', w, h, cv. split; [exact A|]. split; [exact B|]. cbv zeta. apply C70_quiet_zone_iff. exact MG.
Qed.
(* "the default picture has ISO's quiet zone": its borders are 40 pixels at 20 pixels per module, so for no symbol has it *)
Theorem C70_default_quiet_zone_refuted :
  forall sjis, shift_jis_contract sjis ->
  forall text opts sched q, NewWith sjis text opts sched = Ok q ->
  forall encode decode fails others scale old, lossy 127 JpegEncoder encode decode -> (forall k, fails k = None) ->
  exists s' o' w h cv,
    Save (Some (qMat q)) (standard_writer encode fails others scale) (standard_new old, defaultOptions) = ((s', o'), [EvWrite (qMat q); EvClose], Returned None) /\
    decode (o_content (s_file s')) = Some (w, h, cv) /\
    margins (fun px py => looks_dark (cv px py)) w h 40 40 40 40 /\ qrBlockWidth defaultOptions = 20 /\
    ~ quiet_zone (fun px py => looks_dark (cv px py)) w h (qrBlockWidth defaultOptions).
Proof.
  intros sjis C text opts sched q HN encode decode fails others scale old DEC NF. pose proof (PropsLossy.made_dimension sjis C _ _ _ _ HN).
  destruct (made_square sjis C _ _ _ _ HN) as [SQ N21].
  destruct (standard_lossy sjis C text opts sched q HN 127 encode decode fails others scale defaultOptions old DEC) as (s' & o' & cv & A & B & S); try reflexivity; try (cbn; lia).
  - unfold img_w, img_h. cbn. lia.
  - exact NF.
  - cbv. intuition congruence.
  - exists s', o', (img_w defaultOptions (q_dimension q)), (img_h defaultOptions (q_dimension q)), cv. split; [exact A|]. split; [exact B|].
    pose proof (margins_squares _ _ _ _ _ _ _ _ S (made_corners sjis C _ _ _ _ HN)) as MG.
    replace (img_w defaultOptions (q_dimension q) - b_left defaultOptions - q_dimension q * qrBlockWidth defaultOptions) with 40 in MG by (unfold img_w; change (b_right defaultOptions) with 40; lia).
    replace (img_h defaultOptions (q_dimension q) - b_top defaultOptions - q_dimension q * qrBlockWidth defaultOptions) with 40 in MG by (unfold img_h; change (b_bottom defaultOptions) with 40; lia).
    change (b_left defaultOptions) with 40 in MG. change (b_top defaultOptions) with 40 in MG.
    split; [exact MG|]. split; [reflexivity|]. rewrite (C70_quiet_zone_iff _ _ _ _ _ _ _ _ MG). change (qrBlockWidth defaultOptions) with 20. lia.
Qed.

Example C71_example :
  (exists q, NewWith sample_sjis hello [] fair_schedule = Ok q) /\ ~ misdetected sample_sjis [] (text_bytes hello) /\
  (exists encode decode, keeps png_same PngEncoder encode decode /\ lossy 127 JpegEncoder encode decode) /\
  (exists o, NewWithWriter (fun _ => None) [WithBuiltinImageEncoder 1; WithQRWidth 3; WithBorderWidth [12; 12; 12; 0]] = Some o /\
     getShape o = ShapeRectangle /\ painter_colors o /\ looks_dark (o_qrColor o) = true /\ looks_dark (o_bgColor o) = false /\ b_left o = 0 /\ b_right o = 12).
Proof.
  split; [apply PropsSymbol.symbol_example|]. split; [apply PropsSymbol.symbol_example|]. split.
  - exists PropsSaved.toy_encode, PropsSaved.toy_decode.
    split; intros w h cv _; unfold PropsSaved.toy_encode; (eexists; split; [cbn [concat app]; rewrite app_nil_r; reflexivity|]);
      intros px py X Y; cbn beta; rewrite PropsSaved.toy_pixel by assumption; [left; reflexivity|unfold within; lia].
  - eexists. split; [reflexivity|]. split; [reflexivity|]. split; [unfold painter_colors, opaque, good, byte; cbn; repeat split; lia|]. repeat split; reflexivity.
Qed.

Print Assumptions C71_standard.
Print Assumptions C71_standard_lossy.
Print Assumptions C71_default_jpeg.
Print Assumptions C71_compressed.
Print Assumptions C70_standard_margins.
Print Assumptions C70_compressed_margins.
Print Assumptions C70_quiet_zone_iff.
Print Assumptions C70_standard_quiet_zone.
Print Assumptions C70_default_quiet_zone_refuted.
