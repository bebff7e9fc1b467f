(* C79: what has been saved can be read however it is handled afterwards: enlarged, pasted on a larger or smaller sheet (margins added,
   trimmed, replaced), turned, mirrored, any number of times in any order; by a reader that is given only the resulting picture. *)
From Coq Require Import Lia.
From Verif Require Import ModelBase ModelMatrix ModelQRCode ModelSave ModelCompressed ModelStandard ModelWriters.
From Verif Require Import SpecIso SpecReader SpecSegment SpecAPI SpecMatrix SpecImage SpecStandard SpecMedium SpecShape SpecLocate SpecOrient SpecSheet.
From Verif Require Import Samples ProofBase ProofEval ProofCompressed ProofStandard ProofMedium ProofLocate ProofSheet PropsShape PropsLocate.
From Verif Require PropsCompressed PropsStandard PropsSaved PropsLossy PropsSymbol.

Theorem C79_standard :
  forall sjis, shift_jis_contract sjis ->
  forall text opts sched q, NewWith sjis text opts sched = Ok q -> ~ misdetected sjis opts (text_bytes text) ->
  forall encode decode fails others scale o old, keeps png_same (o_encoder o) encode decode ->
  encodable (o_encoder o) (img_w o (q_dimension q)) (img_h o (q_dimension q)) -> (forall k, fails k = None) ->
  getShape o = ShapeRectangle -> o_logo o = None -> o_halftone o = None -> o_gradient o = None -> painter_colors o ->
  looks_dark (o_qrColor o) = true -> (o_bgTransparent o = false -> looks_dark (o_bgColor o) = false) ->
  0 <= b_left o -> 0 <= b_right o -> 0 <= b_top o -> 0 <= b_bottom o ->
  exists s' o' w h cv,
    Save (Some (qMat q)) (standard_writer encode fails others scale) (standard_new old, o) = ((s', o'), [EvWrite (qMat q); EvClose], Returned None) /\
    decode (o_content (s_file s')) = Some (w, h, cv) /\ forall s, handled (Sheet w h (fun px py => visibly_dark (cv px py))) s -> sheet_shows sjis text s.
Proof.
  intros sjis C text opts sched q HN NM encode decode fails others scale o old DEC ENC NF HS HL HH HG PC DK LT B1 B2 B3 B4.
  destruct (standard_png sjis C text opts sched q HN encode decode fails others scale o old DEC ENC NF HS HL HH HG PC DK LT B1 B2 B3 B4) as (s' & o' & cv & A & B & S).
  exists s', o', (img_w o (q_dimension q)), (img_h o (q_dimension q)), cv. split; [exact A|]. split; [exact B|]. intros s HD.
  eapply handled_reads; [exact C|exact HN|exact NM| |exact HD]. exact S.
Qed.
Theorem C79_standard_lossy :
  forall sjis, shift_jis_contract sjis ->
  forall text opts sched q, NewWith sjis text opts sched = Ok q -> ~ misdetected sjis opts (text_bytes text) ->
  forall t encode decode fails others scale o old, lossy t (o_encoder o) encode decode ->
  encodable (o_encoder o) (img_w o (q_dimension q)) (img_h o (q_dimension q)) -> (forall k, fails k = None) ->
  getShape o = ShapeRectangle -> o_logo o = None -> o_halftone o = None -> o_gradient o = None -> painter_colors o -> o_bgTransparent o = false ->
  2 * (brightness (o_qrColor o) + 3 * t) < 765 -> 765 <= 2 * (brightness (o_bgColor o) - 3 * t) ->
  0 <= b_left o -> 0 <= b_right o -> 0 <= b_top o -> 0 <= b_bottom o ->
  exists s' o' w h cv,
    Save (Some (qMat q)) (standard_writer encode fails others scale) (standard_new old, o) = ((s', o'), [EvWrite (qMat q); EvClose], Returned None) /\
    decode (o_content (s_file s')) = Some (w, h, cv) /\ forall s, handled (Sheet w h (fun px py => looks_dark (cv px py))) s -> sheet_shows sjis text s.
Proof.
  intros sjis C text opts sched q HN NM t encode decode fails others scale o old DEC ENC NF HS HL HH HG PC NT DK LT B1 B2 B3 B4.
  destruct (standard_lossy sjis C text opts sched q HN t encode decode fails others scale o old DEC ENC NF HS HL HH HG PC NT DK LT B1 B2 B3 B4) as (s' & o' & cv & A & B & S).
  exists s', o', (img_w o (q_dimension q)), (img_h o (q_dimension q)), cv. split; [exact A|]. split; [exact B|]. intros s HD.
  eapply handled_reads; [exact C|exact HN|exact NM| |exact HD]. exact S.
Qed.
(* the writer without options, with any JPEG coder that changes no channel by more than 127 *)
Theorem C79_default_jpeg :
  forall sjis, shift_jis_contract sjis ->
  forall text opts sched q, NewWith sjis text opts sched = Ok q -> ~ misdetected sjis opts (text_bytes text) ->
  forall encode decode fails others scale old, lossy 127 JpegEncoder encode decode -> (forall k, fails k = None) ->
  exists s' o' w h cv,
    Save (Some (qMat q)) (standard_writer encode fails others scale) (standard_new old, defaultOptions) = ((s', o'), [EvWrite (qMat q); EvClose], Returned None) /\
    decode (o_content (s_file s')) = Some (w, h, cv) /\ forall s, handled (Sheet w h (fun px py => looks_dark (cv px py))) s -> sheet_shows sjis text s.
Proof.
  intros sjis C text opts sched q HN NM encode decode fails others scale old DEC NF. pose proof (PropsLossy.made_dimension sjis C _ _ _ _ HN).
  apply (C79_standard_lossy sjis C text opts sched q HN NM 127 encode decode fails others scale defaultOptions old DEC); try reflexivity; try (cbn; lia).
  - unfold img_w, img_h. cbn. lia.
  - exact NF.
  - cbv. intuition congruence.
Qed.
Theorem C79_compressed :
  forall sjis, shift_jis_contract sjis ->
  forall text opts sched q, NewWith sjis text opts sched = Ok q -> ~ misdetected sjis opts (text_bytes text) ->
  forall png_pieces png_decode, (forall i, png_decode (concat (png_pieces i)) = Some i) ->
  forall fails padding block, (forall k, fails k = None) -> 0 <= padding -> 1 <= block -> q_dimension q * block + 2 * padding < 2 ^ 32 ->
  exists st' i,
    Save (Some (qMat q)) (compressed_writer png_pieces fails padding block) (compressed_new None) = (st', [EvWrite (qMat q); EvClose], Returned None) /\
    png_decode (o_content (s_file st')) = Some i /\ forall s, handled (Sheet (p_size i) (p_size i) (paletted_dark i)) s -> sheet_shows sjis text s.
Proof.
  intros sjis C text opts sched q HN NM png_pieces png_decode DEC fails padding block NF HP HB SZ.
  destruct (compressed_saved sjis C text opts sched q HN png_pieces png_decode DEC fails padding block NF HP HB SZ) as (s' & i & A & B & _ & S).
  exists s', i. split; [exact A|]. split; [exact B|]. intros s HD. eapply handled_reads; [exact C|exact HN|exact NM| |exact HD]. exact S.
Qed.

(* every sheet can be handled in each of these ways; a sheet need not stay the same *)
Example C79_example :
  (exists q, NewWith sample_sjis hello [] fair_schedule = Ok q) /\ ~ misdetected sample_sjis [] (text_bytes hello) /\
  (forall s k, 1 <= k -> altered s (Sheet (k * sh_w s) (k * sh_h s) (fun x y => sh_dark s (x / k) (y / k)))) /\
  (forall s, altered s (Sheet (sh_h s) (sh_w s) (fun x y => sh_dark s y (sh_h s - 1 - x)))) /\
  (forall s, altered s (Sheet (sh_w s) (sh_h s) (fun x y => sh_dark s (sh_w s - 1 - x) y))) /\
  (forall s l t r b, 0 <= l -> 0 <= t -> 0 <= r -> 0 <= b ->
     altered s (Sheet (l + sh_w s + r) (t + sh_h s + b) (fun x y => (l <=? x) && (x <? l + sh_w s) && (t <=? y) && (y <? t + sh_h s) && sh_dark s (x - l) (y - t)))) /\
  (forall s l t r b, 0 <= l -> 0 <= t -> 0 <= r -> 0 <= b -> (forall x y, on s x y -> sh_dark s x y = true -> l <= x < sh_w s - r /\ t <= y < sh_h s - b) ->
     altered s (Sheet (sh_w s - l - r) (sh_h s - t - b) (fun x y => sh_dark s (x + l) (y + t)))) /\
  (let corner := Sheet 2 2 (fun x y => (x =? 0) && (y =? 0)) in
   exists s, handled corner s /\ sh_w s = 9 /\ sh_h s = 10 /\ map (fun y => map (fun x => sh_dark s x y) (zseq 0 9)) [3; 4] =
     [[false; false; false; false; false; true; true; false; false]; [false; false; false; false; false; true; true; false; false]]).
Proof.
  split; [apply PropsSymbol.symbol_example|]. split; [apply PropsSymbol.symbol_example|].
  assert (E1 : forall s k, 1 <= k -> altered s (Sheet (k * sh_w s) (k * sh_h s) (fun x y => sh_dark s (x / k) (y / k)))).
  { intros s k K. apply (Enlarged _ _ k); [exact K|reflexivity|reflexivity|reflexivity]. }
  assert (E2 : forall s, altered s (Sheet (sh_h s) (sh_w s) (fun x y => sh_dark s y (sh_h s - 1 - x)))).
  { intros s. apply TurnedRight; reflexivity. }
  assert (E3 : forall s l t r b, 0 <= l -> 0 <= t -> 0 <= r -> 0 <= b ->
     altered s (Sheet (l + sh_w s + r) (t + sh_h s + b) (fun x y => (l <=? x) && (x <? l + sh_w s) && (t <=? y) && (y <? t + sh_h s) && sh_dark s (x - l) (y - t)))).
  { intros s l t r b L T R B. apply (Pasted _ _ l t); unfold on; cbn [sh_w sh_h sh_dark].
    - intros x y O D. split; [lia|]. replace (x + l - l) with x by lia. replace (y + t - t) with y by lia. rewrite D.
      replace (l <=? x + l) with true by lia. replace (x + l <? l + sh_w s) with true by lia. replace (t <=? y + t) with true by lia. replace (y + t <? t + sh_h s) with true by lia. reflexivity.
    - intros x y O D. rewrite !andb_true_iff in D. destruct D as [D1 D2]. split; [lia|exact D2]. }
  split; [exact E1|]. split; [exact E2|]. split; [intros s; apply Mirrored; reflexivity|]. split; [exact E3|]. split.
  - intros s l t r b L T R B M. apply (Pasted _ _ (- l) (- t)); unfold on in *; cbn [sh_w sh_h sh_dark].
    + intros x y O D. specialize (M x y O D). split; [lia|]. rewrite <- D. f_equal; lia.
    + intros x y O D. replace (x - - l) with (x + l) by lia. replace (y - - t) with (y + t) by lia. split; [lia|exact D].
  - cbv zeta. eexists. split; [|split; [|split]].
    + eapply Handled; [eapply Handled; [eapply Handled; [apply Untouched|apply (E1 _ 2); lia]|apply E2]|apply (E3 _ 3 3 2 3); lia].
    + reflexivity.
    + reflexivity.
    + vm_compute. reflexivity.
Qed.

Print Assumptions C79_standard.
Print Assumptions C79_standard_lossy.
Print Assumptions C79_default_jpeg.
Print Assumptions C79_compressed.
