(* C52: the JavaScript function generateQRCode(content, option). *)
From Coq Require Import Lia Init.Byte.
From Verif Require Import ModelBase ModelQRCode ModelMatrix ModelStandard ModelSave ModelWasm.
From Verif Require Import SpecAPI SpecMatrix SpecStandard SpecMedium SpecWasm Samples ProofBase ProofStandard ProofMedium ProofWasm.
From Verif Require PropsStandard PropsNew PropsSymbol PropsSaved.
Open Scope string_scope.
Open Scope list_scope.
Open Scope Z_scope.

(* the encoder and writer options an option object stands for *)
Definition wasm_encoding nt v opts := exists g, optionFromJSValue nt v = Some g /\ encodeOptions g = opts.
Definition wasm_writer scan nt v o := exists g, optionFromJSValue nt v = Some g /\ NewWithWriter scan (outputOptions g) = Some o.

(* An option object with the documented fields is obeyed: version, level and (only for the values 4, 8, 16, 32) mode ... *)
Theorem C52_encoding_partial : forall nt fields version mode level bg transparent fg width circle format margin,
  documented fields version mode level bg transparent fg width circle format margin ->
  0 <= version <= 40 -> 0 <= mode <= 255 ->
  exists opts, wasm_encoding nt (JObject fields) opts /\
    eff_version opts = version /\ eff_min opts = 0 /\
    (forall l, level_text level l -> eff_level opts = level_code l) /\
    ((exists md, mode = mode_code md) -> eff_mode opts = mode) /\
    ((forall md, mode <> mode_code md) -> eff_mode opts = auto_code).
Proof.
  intros nt fields version mode level bg transparent fg width circle format margin D V MO. eexists. split.
  { eexists. split; [apply option_documented; exact D|reflexivity]. }
  unfold encodeOptions, gen_of. cbn [g_version g_mode g_ecLevel]. rewrite (Z.mod_small mode 256) by lia.
  set (A := if version =? 0 then [] else [WithVersion version]).
  set (B := if mode =? 8 then _ else _).
  set (C := if eq_str level (str "L") then _ else _).
  assert (B1 : flat_map (fun o => match o with WithVersion v => if (1 <=? v) && (v <=? 40) then [v] else [] | _ => [] end) B = []
     /\ flat_map (fun o => match o with WithMinimumVersion v => if (1 <=? v) && (v <=? 40) then [v] else [] | _ => [] end) B = []
     /\ flat_map (fun o => match o with WithErrorCorrectionLevel v => if (1 <=? v) && (v <=? 4) then [v] else [] | _ => [] end) B = []).
  { unfold B. destruct (mode =? 8), (mode =? 4), (mode =? 32), (mode =? 16); repeat split; reflexivity. }
  assert (C1 : flat_map (fun o => match o with WithVersion v => if (1 <=? v) && (v <=? 40) then [v] else [] | _ => [] end) C = []
     /\ flat_map (fun o => match o with WithMinimumVersion v => if (1 <=? v) && (v <=? 40) then [v] else [] | _ => [] end) C = []
     /\ flat_map (fun o => match o with WithEncodingMode m => [m] | _ => [] end) C = []).
  { unfold C. destruct (eq_str level (str "L")), (eq_str level (str "M")), (eq_str level (str "Q")), (eq_str level (str "H")); repeat split; reflexivity. }
  assert (A1 : flat_map (fun o => match o with WithVersion v => if (1 <=? v) && (v <=? 40) then [v] else [] | _ => [] end) A = (if version =? 0 then [] else [version])
     /\ flat_map (fun o => match o with WithMinimumVersion v => if (1 <=? v) && (v <=? 40) then [v] else [] | _ => [] end) A = []
     /\ flat_map (fun o => match o with WithErrorCorrectionLevel v => if (1 <=? v) && (v <=? 4) then [v] else [] | _ => [] end) A = []
     /\ flat_map (fun o => match o with WithEncodingMode m => [m] | _ => [] end) A = []).
  { unfold A. destruct (Z.eqb_spec version 0) as [|N]; [repeat split; reflexivity|]. cbn [flat_map].
    rewrite (proj2 (Z.leb_le 1 version)), (proj2 (Z.leb_le version 40)) by lia. repeat split; reflexivity. }
  destruct A1 as (A1 & A2 & A3 & A4), B1 as (B1 & B2 & B3), C1 as (C1 & C2 & C4).
  split; [|split; [|split; [|split]]].
  - unfold eff_version. rewrite !flat_map_app, A1, B1, C1. destruct (Z.eqb_spec version 0) as [->|]; reflexivity.
  - unfold eff_min. rewrite !flat_map_app, A2, B2, C2. reflexivity.
  - intros l E. unfold eff_level. rewrite !flat_map_app, A3, B3. cbn [app]. unfold C.
    destruct l; cbn [level_text] in E; try (subst level; reflexivity). destruct E as [->| ->]; reflexivity.
  - intros [md ->]. unfold eff_mode. rewrite !flat_map_app, A4, C4, app_nil_r. cbn [app]. unfold B. destruct md; reflexivity.
  - intros N. unfold eff_mode. rewrite !flat_map_app, A4, C4, app_nil_r. cbn [app]. unfold B.
    destruct (Z.eqb_spec mode 8) as [E|_]; [exfalso; exact (N Alphanumeric E)|]. destruct (Z.eqb_spec mode 4) as [E|_]; [exfalso; exact (N Numeric E)|].
    destruct (Z.eqb_spec mode 32) as [E|_]; [exfalso; exact (N Byte E)|]. destruct (Z.eqb_spec mode 16) as [E|_]; [exfalso; exact (N Kanji E)|]. reflexivity.
Qed.
Print Assumptions C52_encoding_partial.

(* ... colours, transparency, block width (0: the default), shape, format and (except 0) margin *)
Theorem C52_output_partial : forall scan nt fields version mode level bg transparent fg width circle format margin bgc fgc,
  documented fields version mode level bg transparent fg width circle format margin ->
  0 <= width <= 255 -> colour_text bg (mkRGBA 255 255 255 255) bgc -> colour_text fg (mkRGBA 0 0 0 255) fgc ->
  exists o, wasm_writer scan nt (JObject fields) o /\
    o_bgColor o = bgc /\ o_qrColor o = fgc /\ o_bgTransparent o = transparent /\
    (width <> 0 -> qrBlockWidth o = width) /\ (width = 0 -> qrBlockWidth o = 20) /\
    getShape o = (if circle then ShapeCircle else ShapeRectangle) /\
    (format = str "jpg" \/ format = str "jpeg" -> o_encoder o = JpegEncoder) /\
    (format <> str "jpg" -> format <> str "jpeg" -> o_encoder o = PngEncoder) /\
    (margin <> 0 -> o_borders o = (margin, margin, margin, margin)) /\ (margin = 0 -> o_borders o = (40, 40, 40, 40)) /\
    o_logo o = None /\ o_halftone o = None /\ o_gradient o = None.
Proof.
  intros scan nt fields version mode level bg transparent fg width circle format margin bgc fgc D W B F. eexists. split.
  { eexists. split; [apply option_documented; exact D|]. apply wasm_options; [exact B|exact F]. }
  unfold wasm_result, qrBlockWidth, getShape. cbn [o_bgColor o_qrColor o_bgTransparent o_qrWidth o_shape o_encoder o_borders o_logo o_halftone o_gradient].
  rewrite (Z.mod_small width 256) by lia.
  split; [reflexivity|]. split; [reflexivity|]. split; [reflexivity|].
  split. { intros N. destruct (Z.eqb_spec width 0) as [|_]; [lia|]. rewrite (proj2 (Z.leb_gt width 0)), (proj2 (Z.ltb_ge 255 width)) by lia. reflexivity. }
  split. { intros ->. reflexivity. } split; [reflexivity|].
  split. { intros [->| ->]; reflexivity. }
  split. { intros N1 N2. rewrite !eq_str_false by assumption. reflexivity. }
  split. { intros N. destruct (Z.eqb_spec margin 0); [lia|reflexivity]. }
  split. { intros ->. reflexivity. } repeat split.
Qed.
Print Assumptions C52_output_partial.

(* The result of a call.  [encode]: what the image encoder writes, as bytes.  When NewWith succeeds and the options are
   legal: success, no error, and base64 of the image drawn with those options, unless the picture is too large for the image
   format, which is reported.  When NewWith returns an error: that error, no image. *)
Theorem C52_result : forall sjis scan nt encode others scale content opt rest sched opts o,
  shift_jis_contract sjis -> (forall e i p, In p (encode e i) -> Forall (fun b => 0 <= b < 256) p) ->
  wasm_encoding nt opt opts -> wasm_writer scan nt opt o ->
  let r := genqrcode sjis scan nt encode others scale (JString content :: opt :: rest) sched in
  (forall q, NewWith sjis (GoString content) opts sched = Ok q ->
     exists w h cv o', draw others scale (qMat q) o = Some (w, h, cv, o') /\
       (encodable (o_encoder o) w h -> exists img, r = Result (mkResult true None img) /\ base64_decode img = Some (concat (encode (o_encoder o') (w, h, cv)))) /\
       (~ encodable (o_encoder o) w h -> r = Result (mkResult false (Some SaveFailed) []))) /\
  (forall e, NewWith sjis (GoString content) opts sched = Err e -> r = Result (mkResult false (Some (QRError e)) [])) /\
  (NewWith sjis (GoString content) opts sched = Pending -> r = Running).
Proof.
  intros sjis scan nt encode others scale content opt rest sched opts o SJ BY (g & G1 & G2) (g' & G3 & G4) r.
  rewrite G1 in G3. injection G3 as <-. subst opts. unfold r, genqrcode. rewrite G1. cbn [js_String]. repeat split.
  - intros q HN. rewrite HN, G4. destruct (made_square sjis SJ _ _ _ _ HN) as [SQ _]. destruct (PropsStandard.C36_size_general others scale _ _ o SQ) as (cv & o' & ED & _).
    pose proof (draw_encoder _ _ _ _ _ _ _ _ _ SQ ED) as EE. eexists _, _, cv, o'. split; [exact ED|]. unfold Save, buffer_writer. cbn [wr_write wr_close]. rewrite ED. cbn [app]. split.
    2: { intros NX. destruct (encoder_refuses (o_encoder o') _ _) eqn:RF; [reflexivity|]. apply encodable_iff in RF. rewrite EE in RF. contradiction. }
    intros EN. rewrite <- EE in EN. rewrite (encodable_ok _ _ _ EN). eexists. split; [reflexivity|].
    eapply base64_back; [apply le_n|]. apply Forall_concat. apply Forall_forall. intros p K. exact (BY _ _ _ K).
  - intros e ->. reflexivity.
  - intros ->. reflexivity.
Qed.
Print Assumptions C52_result.

(* the image format's size limit: JPEG with a margin of 32768 pixels and more is refused, and the refusal is reported *)
Theorem C52_large_margin : forall sjis scan nt encode others scale content fields version mode level bg transparent fg width circle format margin bgc fgc rest sched opts q,
  shift_jis_contract sjis -> (forall e i p, In p (encode e i) -> Forall (fun b => 0 <= b < 256) p) ->
  documented fields version mode level bg transparent fg width circle format margin -> format = str "jpg" \/ format = str "jpeg" -> 32768 <= margin ->
  0 <= width <= 255 -> colour_text bg (mkRGBA 255 255 255 255) bgc -> colour_text fg (mkRGBA 0 0 0 255) fgc ->
  wasm_encoding nt (JObject fields) opts -> NewWith sjis (GoString content) opts sched = Ok q ->
  genqrcode sjis scan nt encode others scale (JString content :: JObject fields :: rest) sched = Result (mkResult false (Some SaveFailed) []).
Proof.
  intros sjis scan nt encode others scale content fields version mode level bg transparent fg width circle format margin bgc fgc rest sched opts q SJ BY D FM MA W CB CF WE HN.
  destruct (C52_output_partial scan nt fields _ _ _ _ _ _ _ _ _ _ _ _ D W CB CF) as (o & WW & _ & _ & _ & _ & _ & _ & OJ & _ & OB & _).
  destruct (C52_result sjis scan nt encode others scale content (JObject fields) rest sched opts o SJ BY WE WW) as [R _].
  destruct (R q HN) as (w & h & cv & o' & ED & _ & R2). apply R2. rewrite (OJ FM). intros [X _].
  destruct (made_square sjis SJ _ _ _ _ HN) as [SQ N21]. destruct (PropsStandard.C36_size_general others scale _ _ o SQ) as (cv2 & o2 & ED2 & _). rewrite ED in ED2. injection ED2 as -> _ _ _.
  pose proof (block_width_range o) as BW. revert X. unfold attribute. rewrite (OB ltac:(lia)). cbn [a_W]. nia.
Qed.
Print Assumptions C52_large_margin.

(* One argument: everything default, as PNG.  null, undefined or another value that is not an object: everything default, as JPEG *)
Theorem C52_no_options : forall scan nt v, (forall fields, v <> JObject fields) ->
  wasm_encoding nt v [] /\ wasm_writer scan nt v defaultOptions /\
  encodeOptions (Some zeroOption) = [] /\ NewWithWriter scan (outputOptions (Some zeroOption)) = Some (set_encoder PngEncoder defaultOptions).
Proof.
  intros scan nt v N. assert (E : optionFromJSValue nt v = Some None) by (destruct v; try reflexivity; exfalso; eapply N; reflexivity).
  split; [|split; [|split]]; try reflexivity; exists None; split; solve [exact E|reflexivity].
Qed.
Print Assumptions C52_no_options.

(* Contents that are not a string are not refused: the call makes the symbol of a placeholder. *)
Theorem C52_other_contents : forall sjis scan nt encode others scale rest sched,
  let call v := genqrcode sjis scan nt encode others scale (v :: rest) sched in
  let text s := call (JString (str s)) in
  call JUndefined = text "<undefined>" /\ call JNull = text "<null>" /\
  call (JBool true) = text "<boolean: true>" /\ call (JBool false) = text "<boolean: false>" /\
  (forall z, call (JNumber z) = call (JString (str "<number: " ++ nt z ++ str ">"))) /\
  (forall fields, call (JObject fields) = text "<object>") /\ (forall fields, call (JFunction fields) = text "<function>") /\
  genqrcode sjis scan nt encode others scale [] sched = Result (mkResult false (Some NoArgs) []).
Proof. intros. repeat split. Qed.
Print Assumptions C52_other_contents.

(* Every field of the option object must be there, though the comment calls the option optional: without one of the six
   numbers and booleans, or without a colour, the call crashes the program *)
Theorem C52_missing_field_crashes : forall sjis scan nt encode others scale content fields rest sched,
  ((exists k, In k ["encodeVersion"; "encodeMode"; "outputBgTransparent"; "outputQrWidth"; "outputCircleShape"; "outputMargin"] /\ fields k = JUndefined) \/
   (exists k, In k ["outputBgColor"; "outputQrColor"] /\ fields k = JUndefined /\
      exists q, NewWith sjis (GoString content) (encodeOptions (match optionFromJSValue nt (JObject fields) with Some g => g | None => None end)) sched = Ok q)) ->
  genqrcode sjis scan nt encode others scale (JString content :: JObject fields :: rest) sched = Crash.
Proof.
  intros sjis scan nt encode others scale content fields rest sched [(k & K & E)|(k & K & E & q & N)].
  - assert (F : optionFromJSValue nt (JObject fields) = None).
    { cbn [optionFromJSValue]. cbn [In] in K.
      destruct (js_Int (fields "encodeVersion")) eqn:E1; [|reflexivity]. destruct (js_Int (fields "encodeMode")) eqn:E2; [|reflexivity].
      destruct (js_Bool (fields "outputBgTransparent")) eqn:E3; [|reflexivity]. destruct (js_Int (fields "outputQrWidth")) eqn:E4; [|reflexivity].
      destruct (js_Bool (fields "outputCircleShape")) eqn:E5; [|reflexivity]. destruct (js_Int (fields "outputMargin")) eqn:E6; [|reflexivity].
      exfalso. destruct K as [<-|[<-|[<-|[<-|[<-|[<-|[]]]]]]]; rewrite E in *; discriminate. }
    cbn [genqrcode]. rewrite F. reflexivity.
  - cbn [genqrcode]. destruct (optionFromJSValue nt (JObject fields)) as [g|] eqn:G; [|reflexivity]. cbn [js_String]. rewrite N.
    assert (F : NewWithWriter scan (outputOptions g) = None); [|rewrite F; reflexivity].
    assert (G' : exists g0, g = Some g0 /\ (g_bgColor g0 = str "<undefined>" \/ g_qrColor g0 = str "<undefined>")).
    { cbn [optionFromJSValue] in G.
      destruct (js_Int (fields "encodeVersion")); [|discriminate G]. destruct (js_Int (fields "encodeMode")); [|discriminate G].
      destruct (js_Bool (fields "outputBgTransparent")); [|discriminate G]. destruct (js_Int (fields "outputQrWidth")); [|discriminate G].
      destruct (js_Bool (fields "outputCircleShape")); [|discriminate G]. destruct (js_Int (fields "outputMargin")); [|discriminate G].
      injection G as <-. eexists. split; [reflexivity|]. cbn [g_bgColor g_qrColor]. destruct K as [<-|[<-|[]]]; rewrite E; [left|right]; reflexivity. }
    destruct G' as (g0 & -> & [B|B]).
    + unfold NewWithWriter, outputOptions. rewrite B. cbn [app fold_left]. 
      change (eq_str (str "<undefined>") []) with false. cbn iota. cbn [app fold_left].
      replace (apply_option scan defaultOptions (WithBgColorRGBHex (map byteZ (str "<undefined>")))) with (@None options) by reflexivity.
      generalize ((if g_bgTransparent g0 then [WithBgTransparent] else []) ++ (if eq_str (g_qrColor g0) [] then [] else [WithFgColorRGBHex (map byteZ (g_qrColor g0))]) ++ (if g_qrWidth g0 =? 0 then [] else [WithQRWidth (g_qrWidth g0)]) ++ (if g_circleShape g0 then [WithCircleShape] else []) ++ (if eq_str (g_imageEncoder g0) (str "jpg") || eq_str (g_imageEncoder g0) (str "jpeg") then [WithBuiltinImageEncoder 0] else [WithBuiltinImageEncoder 1]) ++ (if g_margin g0 =? 0 then [] else [WithBorderWidth [g_margin g0]])).
      intros l. induction l as [|a l IH]; [reflexivity|exact IH].
    + unfold NewWithWriter, outputOptions. rewrite B. change (eq_str (str "<undefined>") []) with false. cbn iota.
      rewrite !fold_left_app. cbn [fold_left].
      set (X := fold_left _ (if g_bgTransparent g0 then _ else _) _).
      replace (match X with Some o => apply_option scan o (WithFgColorRGBHex (map byteZ (str "<undefined>"))) | None => None end) with (@None options) by (destruct X; reflexivity).
      destruct (g_qrWidth g0 =? 0), (g_circleShape g0), (eq_str (g_imageEncoder g0) (str "jpg") || eq_str (g_imageEncoder g0) (str "jpeg")), (g_margin g0 =? 0); reflexivity.
Qed.
Print Assumptions C52_missing_field_crashes.

(* the option object of the README, with two parameters *)
Definition readme_option (mode margin : Z) : string -> jsval := fun k =>
  if (k =? "encodeVersion")%string then JNumber 0 else if (k =? "encodeMode")%string then JNumber mode
  else if (k =? "encodeECLevel")%string then JString (str "Q") else if (k =? "outputBgColor")%string then JString (str "#123123")
  else if (k =? "outputBgTransparent")%string then JBool false else if (k =? "outputQrColor")%string then JString (str "#666666")
  else if (k =? "outputQrWidth")%string then JNumber 20 else if (k =? "outputCircleShape")%string then JBool true
  else if (k =? "outputImageEncoder")%string then JString (str "png") else if (k =? "outputMargin")%string then JNumber margin else JUndefined.
Lemma readme_documented mode margin : documented (readme_option mode margin) 0 mode (str "Q") (str "#123123") false (str "#666666") 20 true (str "png") margin.
Proof. split; reflexivity. Qed.

Example C52_nonvacuous : documented (readme_option 8 20) 0 8 (str "Q") (str "#123123") false (str "#666666") 20 true (str "png") 20 /\
  (exists md, 8 = mode_code md) /\ level_text (str "Q") Q /\
  colour_text (str "#123123") (mkRGBA 255 255 255 255) (mkRGBA 18 49 35 255) /\ colour_text [] (mkRGBA 0 0 0 255) (mkRGBA 0 0 0 255).
Proof.
  split; [apply readme_documented|]. split; [exists Alphanumeric; reflexivity|]. split; [left; reflexivity|]. split; [|left; split; reflexivity].
  right. exists 1, 2, 3, 1, 2, 3, 49, 50, 51, 49, 50, 51. split; [reflexivity|]. repeat (split; [left; lia|]). reflexivity.
Qed.

(* README: "encodeMode: 2, // 0 - 3".  Whatever of 0..3 is given, the mode is detected automatically *)
Theorem C52_documented_modes_refuted : ~ (forall nt fields version mode mode' level bg transparent fg width circle format margin fields' opts opts',
  documented fields version mode level bg transparent fg width circle format margin ->
  documented fields' version mode' level bg transparent fg width circle format margin ->
  0 <= mode <= 3 -> 0 <= mode' <= 3 -> mode <> mode' ->
  wasm_encoding nt (JObject fields) opts -> wasm_encoding nt (JObject fields') opts' -> eff_mode opts <> eff_mode opts').
Proof.
  intros K. refine (K (fun _ => []) (readme_option 1 20) 0 1 2 _ _ _ _ _ _ _ _ (readme_option 2 20) _ _ (readme_documented 1 20) (readme_documented 2 20) _ _ _ _ _ _); try lia;
    try (eexists; split; reflexivity).
Qed.
Print Assumptions C52_documented_modes_refuted.

(* README: "outputMargin: 20, // 0 - 256".  No margin cannot be asked for *)
Theorem C52_margin_refuted : ~ (forall scan nt fields version mode level bg transparent fg width circle format margin o,
  documented fields version mode level bg transparent fg width circle format margin ->
  0 <= margin <= 256 -> wasm_writer scan nt (JObject fields) o -> o_borders o = (margin, margin, margin, margin)).
Proof.
  intros K. specialize (K (fun _ => None) (fun _ => []) (readme_option 2 0) _ _ _ _ _ _ _ _ _ _
    (mkOptions (mkRGBA 18 49 35 255) false (mkRGBA 102 102 102 255) None None 5 false 20 (Some ShapeCircle) PngEncoder (40, 40, 40, 40) None)
    (readme_documented 2 0) ltac:(lia)).
  assert (X : (40, 40, 40, 40) = (0, 0, 0, 0)); [apply K; eexists; split; [reflexivity|]; vm_compute; reflexivity|]. discriminate X.
Qed.
Print Assumptions C52_margin_refuted.

(* the example in the comment on genqrcode (main.go:27-34) crashes *)
Definition comment_example : string -> jsval := fun k =>
  if (k =? "qrWidth")%string then JNumber 200 else if (k =? "qrMargin")%string then JNumber 10
  else if (k =? "qrColor")%string then JString (str "#000000") else if (k =? "qrBackColor")%string then JString (str "#ffffff")
  else if (k =? "encLevel")%string then JString (str "H") else if (k =? "encVersion")%string then JNumber 7 else JUndefined.
Example C52_comment_example : forall sjis scan nt encode others scale sched,
  genqrcode sjis scan nt encode others scale [JString (str "content"); JObject comment_example] sched = Crash.
Proof. intros. apply C52_missing_field_crashes. left. exists "encodeVersion". split; [left; reflexivity|reflexivity]. Qed.

(* Put together with C49: with the documented options, squares and a lossless encoder, the image in the result reads back as the content *)
Theorem C52_reads_back : forall sjis, shift_jis_contract sjis ->
  forall scan nt encode decode others scale content fields version mode level bg transparent fg width format margin bgc fgc rest sched opts q,
  documented fields version mode level bg transparent fg width false format margin ->
  colour_text bg (mkRGBA 255 255 255 255) bgc -> colour_text fg (mkRGBA 0 0 0 255) fgc -> bgc <> fgc -> 0 <= width <= 255 -> 0 <= margin ->
  (forall e i p, In p (encode e i) -> Forall (fun b => 0 <= b < 256) p) -> (forall e, lossless e encode decode) ->
  (forall o, wasm_writer scan nt (JObject fields) o -> encodable (o_encoder o) (img_w o (q_dimension q)) (img_h o (q_dimension q))) ->
  wasm_encoding nt (JObject fields) opts -> NewWith sjis (GoString content) opts sched = Ok q -> ~ misdetected sjis opts (map byteZ content) ->
  exists img bytes w h cv o,
    genqrcode sjis scan nt encode others scale (JString content :: JObject fields :: rest) sched = Result (mkResult true None img) /\
    base64_decode img = Some bytes /\ decode bytes = Some (w, h, cv) /\
    wasm_writer scan nt (JObject fields) o /\ reads_back sjis (GoString content) (scan_canvas cv o (q_dimension q)).
Proof.
  intros sjis SJ scan nt encode decode others scale content fields version mode level bg transparent fg width format margin bgc fgc rest sched opts q D CB CF NE W MA BY LL ENC WE HN NM.
  destruct (C52_output_partial scan nt fields _ _ _ _ _ _ _ _ _ _ _ _ D W CB CF) as (o & WW & O1 & O2 & O3 & O4 & O5 & O6 & O7 & O8 & O9 & O10 & O11 & O12 & O13).
  destruct (C52_result sjis scan nt encode others scale content (JObject fields) rest sched opts o SJ BY WE WW) as [R _].
  destruct (R q HN) as (w & h & cv & o' & ED & R1 & _).
  assert (BO : o_borders o = (margin, margin, margin, margin) \/ o_borders o = (40, 40, 40, 40)) by (destruct (Z.eq_dec margin 0); auto).
  assert (OP : forall s d c, colour_text s d c -> opaque d -> opaque c).
  { intros s d c [[_ ->]|(r1 & r2 & g1 & g2 & b1 & b2 & c1 & c2 & c3 & c4 & c5 & c6 & _ & H1 & H2 & H3 & H4 & H5 & H6 & ->)] OD; [exact OD|].
    assert (HX : forall v e, hex_char v e -> 0 <= v <= 15) by (unfold hex_char; intros; lia).
    apply HX in H1, H2, H3, H4, H5, H6. unfold opaque, good. cbn [c_r c_g c_b c_a]. repeat split; lia. }
  destruct (PropsSaved.C49_standard sjis SJ _ _ _ _ HN NM encode decode (fun _ => None) others scale o None (LL _) (ENC o WW) (fun _ => eq_refl))
    as (s' & o2 & cv2 & SA & _ & DE & RB); try assumption.
  { unfold painter_colors. rewrite O1, O2. pose proof (OP _ _ _ CB ltac:(cbv; intuition congruence)) as [GB AB].
    pose proof (OP _ _ _ CF ltac:(cbv; intuition congruence)) as OF. split; [exact OF|]. split; [exact GB|]. intros _. exact AB. }
  { intros _. rewrite O1, O2. exact NE. }
  { unfold b_left. destruct BO as [->| ->]; cbn; lia. } { unfold b_right. destruct BO as [->| ->]; cbn; lia. }
  { unfold b_top. destruct BO as [->| ->]; cbn; lia. } { unfold b_bottom. destruct BO as [->| ->]; cbn; lia. }
  destruct (made_square sjis SJ _ _ _ _ HN) as [SQ _].
  destruct (PropsSaved.C50_standard_no_silent_loss encode (fun _ => None) others scale _ _ None o SQ) as (w2 & h2 & cv3 & o3 & ED2 & X). cbv zeta in X.
  destruct (X _ _ _ _ SA) as (_ & _ & _ & XX & CO). specialize (CO eq_refl). destruct XX as [XX _]. destruct (XX eq_refl) as [EN _]. rewrite ED in ED2. injection ED2 as <- <- <- <-.
  destruct (R1 EN) as (img & ER & EB).
  rewrite CO in DE. eexists img, _, _, _, cv2, o. split; [exact ER|]. split; [exact EB|]. split; [exact DE|]. split; [exact WW|exact RB].
Qed.
Print Assumptions C52_reads_back.

(* the hypotheses of C52_result and C52_reads_back can be met: "HELLO" and an object like that of the README, with squares *)
Definition square_option : string -> jsval := fun k => if (k =? "outputCircleShape")%string then JBool false else readme_option 2 20 k.
(* an encoder of bytes: every number of PropsSaved.toy_encode in unary *)
Definition unary (z : Z) : list Z := repeat (if z <? 0 then 1 else 2) (Z.abs_nat z) ++ [0].
Fixpoint from_unary (acc : Z) (l : list Z) : list Z :=
  match l with [] => [] | b :: r => if b =? 0 then acc :: from_unary 0 r else from_unary (if b =? 1 then acc - 1 else acc + 1) r end.
Lemma from_unary_spec l : from_unary 0 (flat_map unary l) = l.
Proof.
  assert (P : forall n b acc r, b = 1 \/ b = 2 -> from_unary acc (repeat b n ++ r) = from_unary (if b =? 1 then acc - Z.of_nat n else acc + Z.of_nat n) r).
  { induction n as [|n IH]; intros b acc r B; [cbn [repeat app]; destruct B as [->| ->]; cbn; f_equal; lia|].
    cbn [repeat app from_unary]. destruct B as [->| ->]; cbn [Z.eqb Pos.eqb]; rewrite IH by auto; cbn [Z.eqb Pos.eqb]; f_equal; lia. }
  induction l as [|z l IH]; [reflexivity|]. cbn [flat_map]. unfold unary at 1. rewrite <- app_assoc.
  rewrite P by (destruct (z <? 0); auto). cbn [app from_unary Z.eqb]. rewrite IH. f_equal.
  destruct (Z.ltb_spec z 0); cbn [Z.eqb Pos.eqb]; lia.
Qed.
Definition byte_encode (e : encoder) (i : Z * Z * canvas) : list (list Z) := map (flat_map unary) (PropsSaved.toy_encode e i).
Example C52_encoder : (forall e i p, In p (byte_encode e i) -> Forall (fun b => 0 <= b < 256) p) /\
  exists decode, forall e, lossless e byte_encode decode.
Proof.
  split.
  - intros e i p K. apply in_map_iff in K as (l & <- & _). apply Forall_flat_map, Forall_forall. intros z _. unfold unary.
    apply Forall_app. split; [|repeat constructor; lia]. apply Forall_forall. intros b B. apply repeat_spec in B. subst b. destruct (z <? 0); lia.
  - exists (fun l => PropsSaved.toy_decode (from_unary 0 l)). intros e w h cv _. unfold byte_encode.
    replace (concat (map (flat_map unary) (PropsSaved.toy_encode e (w, h, cv)))) with (flat_map unary (concat (PropsSaved.toy_encode e (w, h, cv))))
      by (generalize (PropsSaved.toy_encode e (w, h, cv)); intros ps; induction ps as [|p ps IH]; cbn [concat map]; [reflexivity|rewrite flat_map_app, IH; reflexivity]).
    rewrite from_unary_spec. unfold PropsSaved.toy_encode. eexists. split; [cbn [concat app]; rewrite app_nil_r; reflexivity|].
    intros px py X Y. cbn beta. symmetry. apply PropsSaved.toy_pixel; assumption.
Qed.
Example C52_result_nonvacuous : exists opts q bgc fgc,
  documented square_option 0 2 (str "Q") (str "#123123") false (str "#666666") 20 false (str "png") 20 /\
  colour_text (str "#123123") (mkRGBA 255 255 255 255) bgc /\ colour_text (str "#666666") (mkRGBA 0 0 0 255) fgc /\ bgc <> fgc /\
  wasm_encoding (fun _ => []) (JObject square_option) opts /\ NewWith sample_sjis hello opts fair_schedule = Ok q /\
  ~ misdetected sample_sjis opts (text_bytes hello).
Proof.
  assert (D : documented square_option 0 2 (str "Q") (str "#123123") false (str "#666666") 20 false (str "png") 20) by (split; reflexivity).
  destruct (C52_encoding_partial (fun _ => []) _ _ _ _ _ _ _ _ _ _ _ D ltac:(lia) ltac:(lia)) as (opts & E & E1 & E2 & E3 & _ & E4).
  destruct (PropsNew.hello_ok opts) as [q HQ].
  { left. apply E4. intros []; discriminate. } { apply E3. left. reflexivity. } { left. exact E1. }
  exists opts, q, (mkRGBA 18 49 35 255), (mkRGBA 102 102 102 255). split; [exact D|].
  split; [right; exists 1, 2, 3, 1, 2, 3, 49, 50, 51, 49, 50, 51; split; [reflexivity|]; repeat (split; [left; lia|]); reflexivity|].
  split; [right; exists 6, 6, 6, 6, 6, 6, 54, 54, 54, 54, 54, 54; split; [reflexivity|]; repeat (split; [left; lia|]); reflexivity|].
  split; [discriminate|]. split; [exact E|]. split; [exact HQ|]. intros [_ X]. apply (hello_not_mixed X).
Qed.
