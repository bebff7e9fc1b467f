(* C58: writer/standard/imgkit. *)
From Coq Require Import Lia.
From Verif Require Import ModelBase ModelMatrix ModelStandard ModelCompressed ModelWriters ModelCli ModelImgkit.
From Verif Require Import SpecReader SpecMatrix SpecStandard SpecShape SpecImgkit ProofStandard ProofMedium ProofShape ProofCli ProofImgkit.
From Verif Require PropsCompressed.

(* Gray and Binaryzation of a picture whose bounds start at the origin, as all decoded JPEG and PNG files and Scale's results do:
   the bounds are kept, and each pixel is the luminance of the source pixel; black or white by the threshold *)
Theorem C58_origin_bounds_partial :
  forall i t, i_x0 i = 0 -> i_y0 i = 0 -> good_image i -> 0 <= t <= 255 ->
  (forall x y, in_image i x y ->
     luminance (i_at i x y) (g_at (imgkit_Gray i) x y) /\
     g_at (Binaryzation i t) x y = if t <? g_at (imgkit_Gray i) x y then 255 else 0) /\
  (forall g, g = imgkit_Gray i \/ g = Binaryzation i t -> g_x0 g = i_x0 i /\ g_y0 g = i_y0 i /\ g_x1 g = i_x1 i /\ g_y1 g = i_y1 i).
Proof.
  intros i t X0 Y0 GI HT. destruct (gray_spec i) as [RG AG]. destruct (binary_spec i t HT) as [RB AB]. split.
  - intros x y HI. rewrite AB, AG. pose proof HI as [H1 H2].
    assert (EI : g_in (NewGray i) x y = true).
    { unfold g_in, NewGray. cbn [g_x0 g_y0 g_x1 g_y1]. rewrite !andb_true_iff, !Z.leb_le, !Z.ltb_lt. lia. }
    assert (EV : visited i x y = true) by (unfold visited; rewrite !andb_true_iff, !Z.leb_le, !Z.ltb_lt; lia).
    rewrite EI, EV. cbn [andb]. split; [apply gray_luminance, GI, HI|reflexivity].
  - intros g [-> | ->]; [exact RG|exact RB].
Qed.

(* grey pixels keep their value *)
Theorem C58_gray_exact_on_grey : forall v, byte v -> gray_of (mkRGBA v v v 255) = v.
Proof. exact gray_of_gray. Qed.

(* For other bounds the property fails: the loops visit the pixels from (0, 0), not from the corner of the bounds.
   A white picture with bounds (5,5)-(7,7) becomes black *)
Theorem C58_shifted_bounds_refuted :
  ~ (forall i, good_image i -> forall x y, in_image i x y -> luminance (i_at i x y) (g_at (imgkit_Gray i) x y)).
Proof.
  intros HA. pose (i := mkImage 5 5 7 7 (fun _ _ => color_WHITE)).
  assert (F : luminance color_WHITE (g_at (imgkit_Gray i) 5 5)).
  { apply (HA i); [intros x y _; unfold good, byte; cbn; lia|unfold in_image; cbn; lia]. }
  assert (E : g_at (imgkit_Gray i) 5 5 = 0) by (vm_compute; reflexivity). rewrite E in F. unfold luminance in F. cbn in F. lia.
Qed.

(* what is right in general: exactly the pixels within both the bounds and the rectangle of the same size at the origin *)
Theorem C58_any_bounds :
  forall i t x y, 0 <= t <= 255 -> in_image i x y ->
  let seen := 0 <= x < i_x1 i - i_x0 i /\ 0 <= y < i_y1 i - i_y0 i in
  (seen -> g_at (imgkit_Gray i) x y = gray_of (i_at i x y) /\ g_at (Binaryzation i t) x y = if t <? gray_of (i_at i x y) then 255 else 0) /\
  (~ seen -> g_at (imgkit_Gray i) x y = 0 /\ g_at (Binaryzation i t) x y = 0).
Proof.
  intros i t x y HT [H1 H2]. cbv zeta. destruct (gray_spec i) as [RG AG]. destruct (binary_spec i t HT) as [RB AB]. rewrite AG, AB.
  assert (EI : g_in (NewGray i) x y = true).
  { unfold g_in, NewGray. cbn [g_x0 g_y0 g_x1 g_y1]. rewrite !andb_true_iff, !Z.leb_le, !Z.ltb_lt. lia. }
  rewrite EI. cbn [andb]. assert (EV : visited i x y = true <-> 0 <= x < i_x1 i - i_x0 i /\ 0 <= y < i_y1 i - i_y0 i).
  { unfold visited. rewrite !andb_true_iff, !Z.leb_le, !Z.ltb_lt. lia. }
  split; intros HS.
  - rewrite (proj2 EV HS). auto.
  - destruct (visited i x y); [exfalso; apply HS, EV; reflexivity|auto].
Qed.

(* The halftone picture of the standard writer, on top of C57: sub-block (a, b) of data module (x, y), but for the middle one, is
   white (or left transparent) iff the pixel (3x+a, 3y+b) of the picture scaled to three pixels per module has luminance above 60 *)
Theorem C58_halftone_subblocks :
  forall others scaler n m o i, square n m -> getShape o = ShapeRectangle -> o_halftone o = Some i -> o_logo o = None ->
  o_gradient o = None -> painter_colors o -> (forall x y, good (scaler i (3 * n) (3 * n) x y)) ->
  exists cv o', draw others (halftone_scale scaler) m o = Some (Z.abs (img_w o n), Z.abs (img_h o n), cv, o') /\
    forall px py x y a b, 0 <= px < img_w o n -> 0 <= py < img_h o n -> 0 <= x < n -> 0 <= y < n -> data_module m x y ->
    sub_pixel (qrBlockWidth o) a (px - (b_left o + x * qrBlockWidth o)) -> sub_pixel (qrBlockWidth o) b (py - (b_top o + y * qrBlockWidth o)) ->
    ~ (a = 1 /\ b = 1) ->
    exists v, luminance (scaler i (3 * n) (3 * n) (3 * x + a) (3 * y + b)) v /\
      if 60 <? v then (if o_bgTransparent o then is_light o (cv px py) else cv px py = color_WHITE) else cv px py = color_BLACK.
Proof.
  intros others scaler n m o i HS EG EH EL EGr HC GS.
  destruct (halftone_pixels others (halftone_scale scaler) n m o i HS EG EH EL EGr HC) as (cv & o' & E & HP). exists cv, o'. split; [exact E|].
  intros px py x y a b Hx Hy Rx Ry DD SA SB NM. destruct (HP px py Hx Hy) as [P _]. destruct (P x y Rx Ry) as [_ P2]. specialize (P2 DD a b SA SB).
  assert (EM : (a =? 1) && (b =? 1) = false) by (apply not_true_iff_false; rewrite andb_true_iff, !Z.eqb_eq; exact NM). rewrite EM in P2.
  exists (gray_of (scaler i (3 * n) (3 * n) (3 * x + a) (3 * y + b))). split; [apply gray_luminance, GS|].
  assert (HH : halftone_scale scaler i (3 * n) (3 * x + a) (3 * y + b) = if 60 <? gray_of (scaler i (3 * n) (3 * n) (3 * x + a) (3 * y + b)) then 255 else 0).
  { unfold halftone_scale. destruct (binary_spec (imgkit_Scale scaler i (3 * n) (3 * n)) 60 ltac:(lia)) as [_ ->].
    destruct SA as [A1 _], SB as [B1 _]. unfold g_in, NewGray, visited, imgkit_Scale. cbn [g_x0 g_y0 g_x1 g_y1 i_x0 i_y0 i_x1 i_y1 i_at].
    rewrite !Z.sub_0_r.
    destruct (Z.leb_spec 0 (3 * x + a)), (Z.ltb_spec (3 * x + a) (3 * n)), (Z.leb_spec 0 (3 * y + b)), (Z.ltb_spec (3 * y + b) (3 * n)); try lia. reflexivity. }
  rewrite HH in P2. destruct (60 <? _); exact P2.
Qed.

Lemma dotted : suffix_jpg = dot :: [106; 112; 103] /\ suffix_jpeg = dot :: [106; 112; 101; 103] /\ suffix_png = dot :: [112; 110; 103].
Proof. repeat split. Qed.

Lemma is_ext s e : ~ In dot e -> ~ In slash e -> eq_bytes (Ext s) (dot :: e) = true <-> ends_in s (dot :: e).
Proof. intros A B. rewrite eq_bytes_spec. apply ext_iff; assumption. Qed.

(* Save: nil is returned iff the file could be created, its name ends in .jpg, .jpeg or .png, and no write failed; then the file
   holds exactly the encoded image, whatever it held before *)
Theorem C58_save :
  forall jpeg png fails can_create filename old,
  let jpg := ends_in filename suffix_jpg \/ ends_in filename suffix_jpeg in
  let r := imgkit_Save jpeg png fails can_create filename old in
  (snd r = SaveNil <-> can_create = true /\
     ((jpg /\ forall k, (k < length jpeg)%nat -> fails k = None) \/ (~ jpg /\ ends_in filename suffix_png /\ forall k, (k < length png)%nat -> fails k = None))) /\
  (snd r = SaveNil -> (jpg -> fst r = Some (concat jpeg)) /\ (~ jpg -> fst r = Some (concat png))).
Proof.
  intros jpeg png fails cc filename old. cbv zeta. unfold imgkit_Save. destruct cc; cbn [fst snd].
  2:{ split; [split; [intros F; discriminate F|intros [F _]; discriminate F]|intros F; discriminate F]. }
  assert (RUN : forall pieces, (exists s, sink_write_all fails (mkSink (mkOs [] 0) true 0) pieces = (s, None) /\ o_content (s_file s) = concat pieces /\ forall k, (k < length pieces)%nat -> fails k = None)
    \/ (exists s e, sink_write_all fails (mkSink (mkOs [] 0) true 0) pieces = (s, Some e) /\ ~ forall k, (k < length pieces)%nat -> fails k = None)).
  { intros pieces. pose proof (sink_all_error fails pieces (mkOs [] 0) 0) as SE. cbn [Nat.add] in SE.
    destruct (sink_write_all fails (mkSink (mkOs [] 0) true 0) pieces) as [s [e|]] eqn:E.
    - right. exists s, e. split; [reflexivity|]. intros A. apply SE in A as [s' A]. discriminate A.
    - left. exists s. split; [reflexivity|]. split; [|apply SE; exists s; reflexivity].
      apply sink_all_none in E as (-> & _). cbn [s_file]. change (mkOs [] 0) with (compressed_open None).
      rewrite (PropsCompressed.C35_file_content_partial None). rewrite skipn_nil. apply app_nil_r. }
  assert (EJ : eq_bytes (Ext filename) suffix_jpg || eq_bytes (Ext filename) suffix_jpeg = true <-> ends_in filename suffix_jpg \/ ends_in filename suffix_jpeg).
  { rewrite orb_true_iff. destruct dotted as (-> & -> & _). rewrite !is_ext by (unfold dot, slash; cbn; lia). reflexivity. }
  assert (EP : eq_bytes (Ext filename) suffix_png = true <-> ends_in filename suffix_png).
  { destruct dotted as (_ & _ & ->). apply is_ext; unfold dot, slash; cbn; lia. }
  destruct (eq_bytes (Ext filename) suffix_jpg || eq_bytes (Ext filename) suffix_jpeg).
  - pose proof (proj1 EJ eq_refl) as J. destruct (RUN jpeg) as [(s & -> & C & A)|(s & e & -> & A)]; cbn [fst snd].
    + split; [split; auto|]. intros _. split; [intros _; rewrite C; reflexivity|]. intros F. contradiction.
    + split; [|intros F; discriminate F]. split; [intros F; discriminate F|]. intros [_ [[_ B]|[B _]]]; contradiction.
  - assert (NJ : ~ (ends_in filename suffix_jpg \/ ends_in filename suffix_jpeg)) by (intros F; apply EJ in F; discriminate F).
    destruct (eq_bytes (Ext filename) suffix_png).
    + pose proof (proj1 EP eq_refl) as J. destruct (RUN png) as [(s & -> & C & A)|(s & e & -> & A)]; cbn [fst snd].
      * split; [split; auto 6|]. intros _. split; [intros F; contradiction|]. intros _. rewrite C. reflexivity.
      * split; [|intros F; discriminate F]. split; [intros F; discriminate F|]. intros [_ [[B _]|(_ & _ & B)]]; contradiction.
    + cbn [fst snd]. split; [|intros F; discriminate F]. split; [intros F; discriminate F|].
      intros [_ [[B _]|(_ & B & _)]]; [contradiction|]. apply EP in B. discriminate B.
Qed.

(* "a Save that reports an error leaves an existing file alone" fails: a name with another extension empties the file *)
Theorem C58_failed_save_keeps_file_refuted :
  ~ (forall jpeg png fails filename old, snd (imgkit_Save jpeg png fails true filename old) = SaveUnsupported -> fst (imgkit_Save jpeg png fails true filename old) = old).
Proof.
  intros HA. (* "a.gif", and "a.PNG" *)
  pose proof (HA [] [] (fun _ => None) [97; 46; 103; 105; 102] (Some [1; 2; 3]) eq_refl) as F. vm_compute in F. discriminate F.
Qed.
Example C58_upper_case_unsupported : snd (imgkit_Save [] [[1]] (fun _ => None) true [97; 46; 80; 78; 71] None) = SaveUnsupported /\
  imgkit_Save [] [[1]; [2]] (fun _ => None) true [97; 46; 112; 110; 103] (Some [7; 7; 7]) = (Some [1; 2], SaveNil).
Proof. vm_compute. split; reflexivity. Qed.

(* the hypotheses of the first theorem: a 2 x 1 picture, red and white *)
Definition red_white : image := mkImage 0 0 2 1 (fun x _ => if x =? 0 then mkRGBA 255 0 0 255 else color_WHITE).
Example C58_example : i_x0 red_white = 0 /\ i_y0 red_white = 0 /\ good_image red_white /\ in_image red_white 1 0 /\
  g_at (imgkit_Gray red_white) 0 0 = 76 /\ g_at (imgkit_Gray red_white) 1 0 = 255 /\ g_at (Binaryzation red_white 76) 0 0 = 0 /\ g_at (Binaryzation red_white 75) 0 0 = 255.
Proof.
  split; [reflexivity|]. split; [reflexivity|]. split.
  - intros x y _. unfold red_white. cbn [i_at]. destruct (x =? 0); unfold good, byte; cbn; lia.
  - split; [unfold in_image; cbn; lia|]. vm_compute. repeat split.
Qed.

Print Assumptions C58_origin_bounds_partial.
Print Assumptions C58_gray_exact_on_grey.
Print Assumptions C58_shifted_bounds_refuted.
Print Assumptions C58_any_bounds.
Print Assumptions C58_halftone_subblocks.
Print Assumptions C58_save.
Print Assumptions C58_failed_save_keeps_file_refuted.
