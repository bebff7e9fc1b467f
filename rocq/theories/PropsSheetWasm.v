(* C79 for the JavaScript function: the picture in its result can be read from the picture alone, however it is handled. *)
From Coq Require Import Lia Init.Byte.
From Verif Require Import ModelBase ModelMatrix ModelQRCode ModelSave ModelStandard ModelWriters ModelWasm.
From Verif Require Import SpecIso SpecReader SpecAPI SpecMatrix SpecStandard SpecMedium SpecShape SpecLocate SpecWasm SpecOrient SpecSheet Samples.
From Verif Require Import ProofBase ProofStandard ProofMedium ProofWasm ProofLocate PropsLocate ProofSheet PropsWasm.
From Verif Require PropsNew PropsSaved PropsLossy.
Open Scope string_scope.
Open Scope list_scope.
Open Scope Z_scope.

(* an object with the documented fields, squares, a dark foreground and a background that is light or transparent *)
Theorem C79_wasm_png : forall sjis, shift_jis_contract sjis ->
  forall scan nt encode decode others scale content fields version mode level bg transparent fg width format margin bgc fgc rest sched opts q,
  documented fields version mode level bg transparent fg width false format margin ->
  colour_text bg (mkRGBA 255 255 255 255) bgc -> colour_text fg (mkRGBA 0 0 0 255) fgc ->
  looks_dark fgc = true -> (transparent = false -> looks_dark bgc = false) -> 0 <= width <= 255 -> 0 <= margin ->
  (forall e i p, In p (encode e i) -> Forall (fun b => 0 <= b < 256) p) -> format <> str "jpg" -> format <> str "jpeg" -> keeps png_same PngEncoder encode decode ->
  (forall o, wasm_writer scan nt (JObject fields) o -> SpecMedium.encodable (o_encoder o) (img_w o (q_dimension q)) (img_h o (q_dimension q))) ->
  wasm_encoding nt (JObject fields) opts -> NewWith sjis (GoString content) opts sched = Ok q -> ~ misdetected sjis opts (map byteZ content) ->
  exists img bytes w h cv,
    genqrcode sjis scan nt encode others scale (JString content :: JObject fields :: rest) sched = Result (mkResult true None img) /\
    base64_decode img = Some bytes /\ decode bytes = Some (w, h, cv) /\
    forall s, handled (Sheet w h (fun px py => visibly_dark (cv px py))) s -> sheet_shows sjis (GoString content) s.
Proof.
  intros sjis SJ scan nt encode decode others scale content fields version mode level bg transparent fg width format margin bgc fgc rest sched opts q D CB CF DK LT W MA BY F1 F2 LL ENC WE HN NM.
  destruct (C52_output_partial scan nt fields _ _ _ _ _ _ _ _ _ _ _ _ D W CB CF) as (o & WW & O1 & O2 & O3 & O4 & O5 & O6 & O7 & O8 & O9 & O10 & O11 & O12 & O13).
  destruct (C52_result sjis scan nt encode others scale content (JObject fields) rest sched opts o SJ BY WE WW) as [R _].
  destruct (R q HN) as (w & h & cv & o' & ED & R1 & _).
  assert (BO : o_borders o = (margin, margin, margin, margin) \/ o_borders o = (40, 40, 40, 40)) by (destruct (Z.eq_dec margin 0); auto).
  assert (OP : forall s d c, colour_text s d c -> opaque d -> opaque c).
  { intros s d c [[_ ->]|(r1 & r2 & g1 & g2 & b1 & b2 & c1 & c2 & c3 & c4 & c5 & c6 & _ & H1 & H2 & H3 & H4 & H5 & H6 & ->)] OD; [exact OD|].
    assert (HX : forall v e, hex_char v e -> 0 <= v <= 15) by (unfold hex_char; intros; lia).
    apply HX in H1, H2, H3, H4, H5, H6. unfold opaque, good. cbn [c_r c_g c_b c_a]. repeat split; lia. }
  destruct (standard_png sjis SJ _ _ _ _ HN encode decode (fun _ => None) others scale o None ltac:(rewrite (O8 F1 F2); exact LL) (ENC o WW) (fun _ => eq_refl))
    as (s' & o2 & cv2 & SA & DE & SQS); try assumption.
  { unfold painter_colors. rewrite O1, O2. pose proof (OP _ _ _ CB ltac:(cbv; intuition congruence)) as [GB AB].
    pose proof (OP _ _ _ CF ltac:(cbv; intuition congruence)) as OF. split; [exact OF|]. split; [exact GB|]. intros _. exact AB. }
  { rewrite O2. exact DK. } { intros T. rewrite O1. apply LT. rewrite <- O3. exact T. }
  { unfold b_left. destruct BO as [->| ->]; cbn; lia. } { unfold b_right. destruct BO as [->| ->]; cbn; lia. }
  { unfold b_top. destruct BO as [->| ->]; cbn; lia. } { unfold b_bottom. destruct BO as [->| ->]; cbn; lia. }
  destruct (made_square sjis SJ _ _ _ _ HN) as [SQ _].
  destruct (PropsSaved.C50_standard_no_silent_loss encode (fun _ => None) others scale _ _ None o SQ) as (w2 & h2 & cv3 & o3 & ED2 & X). cbv zeta in X.
  destruct (X _ _ _ _ SA) as (_ & _ & _ & XX & CO). specialize (CO eq_refl). destruct XX as [XX _]. destruct (XX eq_refl) as [EN _]. rewrite ED in ED2. injection ED2 as <- <- <- <-.
  destruct (R1 EN) as (img & ER & EB).
  rewrite CO in DE. eexists img, _, _, _, cv2. split; [exact ER|]. split; [exact EB|]. split; [exact DE|].
  intros s HD. eapply handled_reads; [exact SJ|exact HN|exact NM| |exact HD]. exact SQS.
Qed.
Print Assumptions C79_wasm_png.

(* the same as a JPEG, which has no transparency and changes colours a little: by up to t in each channel *)
Theorem C79_wasm_jpeg : forall sjis, shift_jis_contract sjis ->
  forall t scan nt encode decode others scale content fields version mode level bg fg width format margin bgc fgc rest sched opts q,
  documented fields version mode level bg false fg width false format margin ->
  colour_text bg (mkRGBA 255 255 255 255) bgc -> colour_text fg (mkRGBA 0 0 0 255) fgc ->
  2 * (brightness fgc + 3 * t) < 765 -> 765 <= 2 * (brightness bgc - 3 * t) -> 0 <= width <= 255 -> 0 <= margin ->
  (forall e i p, In p (encode e i) -> Forall (fun b => 0 <= b < 256) p) -> format = str "jpg" \/ format = str "jpeg" -> lossy t JpegEncoder encode decode ->
  (forall o, wasm_writer scan nt (JObject fields) o -> SpecMedium.encodable (o_encoder o) (img_w o (q_dimension q)) (img_h o (q_dimension q))) ->
  wasm_encoding nt (JObject fields) opts -> NewWith sjis (GoString content) opts sched = Ok q -> ~ misdetected sjis opts (map byteZ content) ->
  exists img bytes w h cv,
    genqrcode sjis scan nt encode others scale (JString content :: JObject fields :: rest) sched = Result (mkResult true None img) /\
    base64_decode img = Some bytes /\ decode bytes = Some (w, h, cv) /\
    forall s, handled (Sheet w h (fun px py => looks_dark (cv px py))) s -> sheet_shows sjis (GoString content) s.
Proof.
  intros sjis SJ t scan nt encode decode others scale content fields version mode level bg fg width format margin bgc fgc rest sched opts q D CB CF DK LT W MA BY F1 LL ENC WE HN NM.
  destruct (C52_output_partial scan nt fields _ _ _ _ _ _ _ _ _ _ _ _ D W CB CF) as (o & WW & O1 & O2 & O3 & O4 & O5 & O6 & O7 & O8 & O9 & O10 & O11 & O12 & O13).
  destruct (C52_result sjis scan nt encode others scale content (JObject fields) rest sched opts o SJ BY WE WW) as [R _].
  destruct (R q HN) as (w & h & cv & o' & ED & R1 & _).
  assert (BO : o_borders o = (margin, margin, margin, margin) \/ o_borders o = (40, 40, 40, 40)) by (destruct (Z.eq_dec margin 0); auto).
  assert (OP : forall s d c, colour_text s d c -> opaque d -> opaque c).
  { intros s d c [[_ ->]|(r1 & r2 & g1 & g2 & b1 & b2 & c1 & c2 & c3 & c4 & c5 & c6 & _ & H1 & H2 & H3 & H4 & H5 & H6 & ->)] OD; [exact OD|].
    assert (HX : forall v e, hex_char v e -> 0 <= v <= 15) by (unfold hex_char; intros; lia).
    apply HX in H1, H2, H3, H4, H5, H6. unfold opaque, good. cbn [c_r c_g c_b c_a]. repeat split; lia. }
  destruct (standard_lossy sjis SJ _ _ _ _ HN t encode decode (fun _ => None) others scale o None ltac:(rewrite (O7 F1); exact LL) (ENC o WW) (fun _ => eq_refl))
    as (s' & o2 & cv2 & SA & DE & SQS); try assumption.
  { unfold painter_colors. rewrite O1, O2. pose proof (OP _ _ _ CB ltac:(cbv; intuition congruence)) as [GB AB].
    pose proof (OP _ _ _ CF ltac:(cbv; intuition congruence)) as OF. split; [exact OF|]. split; [exact GB|]. intros _. exact AB. }
  { rewrite O2. exact DK. } { rewrite O1. exact LT. }
  { unfold b_left. destruct BO as [->| ->]; cbn; lia. } { unfold b_right. destruct BO as [->| ->]; cbn; lia. }
  { unfold b_top. destruct BO as [->| ->]; cbn; lia. } { unfold b_bottom. destruct BO as [->| ->]; cbn; lia. }
  destruct (made_square sjis SJ _ _ _ _ HN) as [SQ _].
  destruct (PropsSaved.C50_standard_no_silent_loss encode (fun _ => None) others scale _ _ None o SQ) as (w2 & h2 & cv3 & o3 & ED2 & X). cbv zeta in X.
  destruct (X _ _ _ _ SA) as (_ & _ & _ & XX & CO). specialize (CO eq_refl). destruct XX as [XX _]. destruct (XX eq_refl) as [EN _]. rewrite ED in ED2. injection ED2 as <- <- <- <-.
  destruct (R1 EN) as (img & ER & EB).
  rewrite CO in DE. eexists img, _, _, _, cv2. split; [exact ER|]. split; [exact EB|]. split; [exact DE|].
  intros s HD. eapply handled_reads; [exact SJ|exact HN|exact NM| |exact HD]. exact SQS.
Qed.
Print Assumptions C79_wasm_jpeg.

(* the README's object with squares, on a light background, as PNG and as JPEG: the hypotheses can be met *)
Definition light_option (format : list Coq.Init.Byte.byte) : string -> jsval := fun k =>
  if (k =? "outputBgColor")%string then JString (str "#ffeedd") else if (k =? "outputImageEncoder")%string then JString format
  else if (k =? "outputQrColor")%string then JString [] else square_option k.
Example C79_wasm_nonvacuous : forall format,
  documented (light_option format) 0 2 (str "Q") (str "#ffeedd") false [] 20 false format 20 /\
  colour_text (str "#ffeedd") (mkRGBA 255 255 255 255) (mkRGBA 255 238 221 255) /\ colour_text [] (mkRGBA 0 0 0 255) (mkRGBA 0 0 0 255) /\
  looks_dark (mkRGBA 0 0 0 255) = true /\ looks_dark (mkRGBA 255 238 221 255) = false /\
  2 * (brightness (mkRGBA 0 0 0 255) + 3 * 100) < 765 /\ 765 <= 2 * (brightness (mkRGBA 255 238 221 255) - 3 * 100) /\
  exists opts q, wasm_encoding (fun _ => []) (JObject (light_option format)) opts /\ NewWith sample_sjis hello opts fair_schedule = Ok q /\
    ~ misdetected sample_sjis opts (text_bytes hello).
Proof.
  intros format.
  assert (D : documented (light_option format) 0 2 (str "Q") (str "#ffeedd") false [] 20 false format 20) by (split; reflexivity).
  split; [exact D|]. split; [right; exists 15, 15, 14, 14, 13, 13, 102, 102, 101, 101, 100, 100; split; [reflexivity|]; repeat (split; [unfold hex_char; lia|]); reflexivity|].
  split; [left; split; reflexivity|]. split; [reflexivity|]. split; [reflexivity|]. split; [reflexivity|]. split; [cbn; lia|].
  destruct (C52_encoding_partial (fun _ => []) _ _ _ _ _ _ _ _ _ _ _ D ltac:(lia) ltac:(lia)) as (opts & E & E1 & E2 & E3 & _ & E4).
  destruct (PropsNew.hello_ok opts) as [q HQ].
  { left. apply E4. intros []; discriminate. } { apply E3. left. reflexivity. } { left. exact E1. }
  exists opts, q. split; [exact E|]. split; [exact HQ|]. intros [_ X]. apply (hello_not_mixed X).
Qed.
