(* C65: options that read files.  C66: the command line program.  C67: imgkit.Read and imgkit.Save. *)
From Coq Require Import Lia.
From Verif Require Import ModelBase ModelMatrix ModelQRCode ModelSave ModelCompressed ModelStandard ModelTerminal ModelWriters ModelCli ModelFs.
From Verif Require Import SpecIso SpecReader SpecSegment SpecAPI SpecStandard SpecMedium SpecShape SpecCli SpecFs Samples.
From Verif Require Import ProofBase ProofAPI ProofSymbol ProofNew ProofMedium ProofStandard ProofShape ProofCli ProofCompressed.
From Verif Require PropsNew PropsSymbol PropsSaved PropsShape PropsLossy PropsCli.
Open Scope Z_scope.

Lemma apply_split scan resolve may_read dp dj fs before after opt opt' :
  (forall o, apply_file_option resolve may_read dp dj scan fs o opt = apply_file_option resolve may_read dp dj scan fs o opt') ->
  apply_file_options resolve may_read dp dj scan fs (before ++ opt :: after) = apply_file_options resolve may_read dp dj scan fs (before ++ opt' :: after).
Proof.
  intros HE. unfold apply_file_options. rewrite !fold_left_app. cbn [fold_left]. f_equal. destruct (fold_left _ before _); [apply HE|reflexivity].
Qed.
Lemma apply_skip scan resolve may_read dp dj fs before after opt :
  (forall o, apply_file_option resolve may_read dp dj scan fs o opt = Some o) ->
  apply_file_options resolve may_read dp dj scan fs (before ++ opt :: after) = apply_file_options resolve may_read dp dj scan fs (before ++ after).
Proof.
  intros HE. unfold apply_file_options. rewrite !fold_left_app. cbn [fold_left]. f_equal. destruct (fold_left _ before _); [apply HE|reflexivity].
Qed.
Lemma read_other resolve may_read fs p c f : resolve f <> resolve p -> os_read resolve may_read (fs_set fs (resolve p) c) f = os_read resolve may_read fs f.
Proof. intros N. unfold os_read, fs_set. destruct (may_read f); [|reflexivity]. destruct (Z.eqb_spec (resolve f) (resolve p)); [contradiction|reflexivity]. Qed.

(* ------------------------------------------------------------------ C65 *)
(* a readable picture file of the right format, not the output file itself, is as good as the picture *)
Theorem C65_logo_png :
  forall resolve may_read may_create decode_png decode_jpeg scan fs filename before after f content i,
  may_read f = true -> fs (resolve f) = Some content -> decode_png content = Some i -> resolve f <> resolve filename ->
  standard_New resolve may_read may_create decode_png decode_jpeg scan fs filename (before ++ WithLogoImageFilePNG f :: after) =
  standard_New resolve may_read may_create decode_png decode_jpeg scan fs filename (before ++ Plain (WithLogoImage (Some i)) :: after).
Proof.
  intros resolve mr mc dp dj scan fs p before after f c i M F D N. unfold standard_New. destruct (mc p); [|reflexivity].
  erewrite apply_split; [reflexivity|]. intros o. cbn [apply_file_option]. rewrite read_other by exact N. unfold os_read. rewrite M, F, D. reflexivity.
Qed.
Theorem C65_logo_jpeg :
  forall resolve may_read may_create decode_png decode_jpeg scan fs filename before after f content i,
  may_read f = true -> fs (resolve f) = Some content -> decode_jpeg content = Some i -> resolve f <> resolve filename ->
  standard_New resolve may_read may_create decode_png decode_jpeg scan fs filename (before ++ WithLogoImageFileJPEG f :: after) =
  standard_New resolve may_read may_create decode_png decode_jpeg scan fs filename (before ++ Plain (WithLogoImage (Some i)) :: after).
Proof.
  intros resolve mr mc dp dj scan fs p before after f c i M F D N. unfold standard_New. destruct (mc p); [|reflexivity].
  erewrite apply_split; [reflexivity|]. intros o. cbn [apply_file_option]. rewrite read_other by exact N. unfold os_read. rewrite M, F, D. reflexivity.
Qed.
(* WithHalftone takes both formats, told apart by their first bytes *)
Theorem C65_halftone :
  forall resolve may_read may_create decode_png decode_jpeg scan fs filename before after f content i,
  may_read f = true -> fs (resolve f) = Some content -> resolve f <> resolve filename ->
  ((exists r, content = [137; 80; 78; 71; 13; 10; 26; 10] ++ r) /\ decode_png content = Some i) \/ ((exists r, content = [255; 216] ++ r) /\ decode_jpeg content = Some i) ->
  standard_New resolve may_read may_create decode_png decode_jpeg scan fs filename (before ++ WithHalftone f :: after) =
  standard_New resolve may_read may_create decode_png decode_jpeg scan fs filename (before ++ Plain (WithHalftoneImage (Some i)) :: after).
Proof.
  intros resolve mr mc dp dj scan fs p before after f c i M F N D. unfold standard_New. destruct (mc p); [|reflexivity].
  erewrite apply_split; [reflexivity|]. intros o. cbn [apply_file_option]. unfold imgkit_Read. rewrite read_other by exact N. unfold os_read. rewrite M, F.
  unfold image_Decode. destruct D as [[[r ER] D]|[[r ER] D]].
  - assert (P : has_prefix png_magic c = true) by (rewrite ER; reflexivity). rewrite P, D. reflexivity.
  - assert (P : has_prefix png_magic c = false) by (rewrite ER; reflexivity). assert (J : has_prefix jpeg_magic c = true) by (rewrite ER; reflexivity).
    rewrite P, J, D. reflexivity.
Qed.
(* a file that cannot be opened or decoded is skipped: all other options count as if the option were not there *)
Theorem C65_unreadable_is_skipped :
  forall resolve may_read may_create decode_png decode_jpeg scan fs filename before after f opt, resolve f <> resolve filename ->
  (opt = WithLogoImageFilePNG f /\ (forall c, fs (resolve f) = Some c -> decode_png c = None)) \/
  (opt = WithLogoImageFileJPEG f /\ (forall c, fs (resolve f) = Some c -> decode_jpeg c = None)) \/
  (opt = WithHalftone f /\ (forall c, fs (resolve f) = Some c -> decode_png c = None /\ decode_jpeg c = None)) \/
  (may_read f = false /\ (opt = WithLogoImageFilePNG f \/ opt = WithLogoImageFileJPEG f \/ opt = WithHalftone f)) ->
  standard_New resolve may_read may_create decode_png decode_jpeg scan fs filename (before ++ opt :: after) =
  standard_New resolve may_read may_create decode_png decode_jpeg scan fs filename (before ++ after).
Proof.
  intros resolve mr mc dp dj scan fs p before after f opt N D. unfold standard_New. destruct (mc p); [|reflexivity].
  rewrite apply_skip; [reflexivity|]. intros o.
  destruct D as [[-> D]|[[-> D]|[[-> D]|[M [-> |[-> | ->]]]]]]; cbn [apply_file_option]; unfold imgkit_Read; rewrite read_other by exact N; unfold os_read;
    try (rewrite M; reflexivity); (destruct (mr f); [|reflexivity]); (destruct (fs (resolve f)) as [c|]; [|reflexivity]).
  - rewrite (D c eq_refl). reflexivity.
  - rewrite (D c eq_refl). reflexivity.
  - unfold image_Decode. destruct (D c eq_refl) as [-> ->]. destruct (has_prefix _ _); [reflexivity|]. destruct (has_prefix _ _); reflexivity.
Qed.
(* New opens the output first: a picture that is in the output file is never seen *)
Theorem C65_output_file_as_logo_refuted :
  forall resolve may_read may_create decode_png decode_jpeg scan fs filename before after f,
  decode_png [] = None -> resolve f = resolve filename ->
  standard_New resolve may_read may_create decode_png decode_jpeg scan fs filename (before ++ WithLogoImageFilePNG f :: after) =
  standard_New resolve may_read may_create decode_png decode_jpeg scan fs filename (before ++ after).
Proof.
  intros resolve mr mc dp dj scan fs p before after f E R. unfold standard_New. destruct (mc p); [|reflexivity].
  rewrite apply_skip; [reflexivity|]. intros o. cbn [apply_file_option]. unfold os_read, fs_set. rewrite R, Z.eqb_refl. destruct (mr f); [rewrite E|]; reflexivity.
Qed.
Theorem C65_output_file_as_halftone_refuted :
  forall resolve may_read may_create decode_png decode_jpeg scan fs filename before after f, resolve f = resolve filename ->
  standard_New resolve may_read may_create decode_png decode_jpeg scan fs filename (before ++ WithHalftone f :: after) =
  standard_New resolve may_read may_create decode_png decode_jpeg scan fs filename (before ++ after).
Proof.
  intros resolve mr mc dp dj scan fs p before after f R. unfold standard_New. destruct (mc p); [|reflexivity].
  rewrite apply_skip; [reflexivity|]. intros o. cbn [apply_file_option]. unfold imgkit_Read, os_read, fs_set. rewrite R, Z.eqb_refl. destruct (mr f); reflexivity.
Qed.
(* what New does to the files: nothing if it returns an error; otherwise, even if an option panics, the output file is emptied, and
   no other file is touched *)
Theorem C65_files_after_New :
  forall resolve may_read may_create decode_png decode_jpeg scan fs filename opts fs' r,
  standard_New resolve may_read may_create decode_png decode_jpeg scan fs filename opts = (fs', r) ->
  (r = CreateError <-> may_create filename = false) /\
  (may_create filename = false -> fs' = fs) /\
  (may_create filename = true -> fs' (resolve filename) = Some [] /\ only_changes resolve filename fs fs').
Proof.
  intros resolve mr mc dp dj scan fs p opts fs' r. unfold standard_New. destruct (mc p).
  - assert (K : fs' = fs_set fs (resolve p) [] -> fs' (resolve p) = Some [] /\ only_changes resolve p fs fs').
    { intros ->. unfold fs_set, only_changes. rewrite Z.eqb_refl. split; [reflexivity|]. intros i Ni. destruct (Z.eqb_spec i (resolve p)); [contradiction|reflexivity]. }
    destruct (apply_file_options _ _ _ _ _ _ _); intros [= <- <-]; (split; [split; intros X; discriminate X|]); (split; [intros X; discriminate X|]); auto.
  - intros [= <- <-]. split; [split; auto|]. split; [auto|intros X; discriminate X].
Qed.

(* ------------------------------------------------------------------ C67 *)
Lemma Ext_spec e s : ~ In dot e -> ~ In slash e -> (eq_bytes (Ext s) (dot :: e) = true <-> ends_with s (dot :: e)).
Proof.
  intros ND NS. rewrite eq_bytes_spec. unfold Ext, ends_with. split.
  - intros E. destruct (ext_rev_spec _ _ _ E ltac:(discriminate)) as (p & q & E1 & E2 & _ & _). injection E2 as E2. rewrite app_nil_r in E2. subst e.
    exists (rev q). rewrite <- (rev_involutive s), E1, rev_app_distr. cbn [rev]. rewrite <- app_assoc. reflexivity.
  - intros (p & ->). rewrite rev_app_distr. cbn [rev]. rewrite <- app_assoc. cbn [app].
    rewrite ext_rev_dot; [rewrite rev_involutive, app_nil_r; reflexivity|rewrite <- in_rev; exact ND|rewrite <- in_rev; exact NS].
Qed.
Lemma Ext_jpg s : eq_bytes (Ext s) dotted_jpg = true <-> ends_with s dotted_jpg.
Proof. apply (Ext_spec [106; 112; 103]); unfold dot, slash; cbn [In]; lia. Qed.
Lemma Ext_jpeg s : eq_bytes (Ext s) dotted_jpeg = true <-> ends_with s dotted_jpeg.
Proof. apply (Ext_spec [106; 112; 101; 103]); unfold dot, slash; cbn [In]; lia. Qed.
Lemma Ext_png s : eq_bytes (Ext s) dotted_png = true <-> ends_with s dotted_png.
Proof. apply (Ext_spec [112; 110; 103]); unfold dot, slash; cbn [In]; lia. Qed.
Lemma not_jpg_png s : ends_with s dotted_png -> eq_bytes (Ext s) dotted_jpg || eq_bytes (Ext s) dotted_jpeg = false.
Proof.
  intros P. apply Ext_png, eq_bytes_spec in P. rewrite P. reflexivity.
Qed.

Lemma fs_set_same fs i c : fs_set fs i c i = Some c.
Proof. unfold fs_set. rewrite Z.eqb_refl. reflexivity. Qed.
Lemma fs_set_only resolve p fs c : only_changes resolve p fs (fs_set fs (resolve p) c).
Proof. intros i N. unfold fs_set. destruct (Z.eqb_spec i (resolve p)); [contradiction|reflexivity]. Qed.
Lemma new_content pieces : o_content (os_write_all (mkOs [] 0) pieces) = concat pieces.
Proof. rewrite os_write_all_content by (cbn; lia). cbn [o_pos o_content firstn app]. rewrite skipn_nil, app_nil_r. reflexivity. Qed.

Lemma read_saved resolve may_read dp dj fs p c : may_read p = true -> imgkit_Read resolve may_read dp dj (fs_set fs (resolve p) c) p = image_Decode dp dj c.
Proof. intros M. unfold imgkit_Read, os_read. rewrite M, fs_set_same. reflexivity. Qed.

(* a picture saved as PNG is read back, whatever the formats of other files *)
Theorem C67_png_round_trip :
  forall resolve may_read may_create decode_png decode_jpeg pieces fails fs img filename,
  codec eq PngEncoder png_magic pieces decode_png -> (forall k, fails k = None) -> may_create filename = true -> may_read filename = true ->
  ends_with filename [46; 112; 110; 103] -> encodable PngEncoder (i_x1 img - i_x0 img) (i_y1 img - i_y0 img) ->
  exists fs' j, imgkit_Save resolve may_create pieces fails fs img filename = (fs', None) /\ only_changes resolve filename fs fs' /\
    imgkit_Read resolve may_read decode_png decode_jpeg fs' filename = Some j /\ picture_near eq img j.
Proof.
  intros resolve mr mc dp dj pieces fails fs img p CD NF MC MR EX EN. destruct (CD img EN) as [[rest MG] (j & DJ & PN)].
  destruct (sink_all fails NF (pieces PngEncoder img) (mkOs [] 0) 0) as (calls & SA).
  exists (fs_set fs (resolve p) (concat (pieces PngEncoder img))), j. split; [|split; [apply fs_set_only|split; [|exact PN]]].
  - unfold imgkit_Save. rewrite MC, (not_jpg_png p EX). rewrite (proj2 (Ext_png p) EX). cbv zeta. rewrite (encodable_ok _ _ _ EN).
    change (standard_new None) with (mkSink (mkOs [] 0) true 0). rewrite SA. cbn [s_file]. rewrite new_content. reflexivity.
  - rewrite read_saved by exact MR. unfold image_Decode. assert (P : has_prefix png_magic (concat (pieces PngEncoder img)) = true) by (rewrite MG; reflexivity).
    rewrite P. exact DJ.
Qed.
(* as JPEG, up to the losses of JPEG *)
Theorem C67_jpeg_round_trip :
  forall near resolve may_read may_create decode_png decode_jpeg pieces fails fs img filename,
  codec near JpegEncoder jpeg_magic pieces decode_jpeg -> (forall k, fails k = None) -> may_create filename = true -> may_read filename = true ->
  ends_with filename [46; 106; 112; 103] \/ ends_with filename [46; 106; 112; 101; 103] ->
  i_x1 img - i_x0 img <= 65535 -> i_y1 img - i_y0 img <= 65535 ->
  exists fs' j, imgkit_Save resolve may_create pieces fails fs img filename = (fs', None) /\ only_changes resolve filename fs fs' /\
    imgkit_Read resolve may_read decode_png decode_jpeg fs' filename = Some j /\ picture_near near img j.
Proof.
  intros near resolve mr mc dp dj pieces fails fs img p CD NF MC MR EX E1 E2. assert (EN : encodable JpegEncoder (i_x1 img - i_x0 img) (i_y1 img - i_y0 img)) by (split; assumption).
  destruct (CD img EN) as [[rest MG] (j & DJ & PN)].
  destruct (sink_all fails NF (pieces JpegEncoder img) (mkOs [] 0) 0) as (calls & SA).
  exists (fs_set fs (resolve p) (concat (pieces JpegEncoder img))), j. split; [|split; [apply fs_set_only|split; [|exact PN]]].
  - unfold imgkit_Save. rewrite MC. assert (EB : eq_bytes (Ext p) dotted_jpg || eq_bytes (Ext p) dotted_jpeg = true).
    { apply orb_true_iff. destruct EX as [EX|EX]; [left; apply Ext_jpg|right; apply Ext_jpeg]; exact EX. }
    rewrite EB. cbv zeta. rewrite (encodable_ok _ _ _ EN).
    change (standard_new None) with (mkSink (mkOs [] 0) true 0). rewrite SA. cbn [s_file]. rewrite new_content. reflexivity.
  - rewrite read_saved by exact MR. unfold image_Decode. assert (P : has_prefix png_magic (concat (pieces JpegEncoder img)) = false) by (rewrite MG; reflexivity).
    assert (J : has_prefix jpeg_magic (concat (pieces JpegEncoder img)) = true) by (rewrite MG; reflexivity). rewrite P, J. exact DJ.
Qed.
(* which results are possible, and what they mean; the extension is compared exactly (".PNG" is not supported) *)
Theorem C67_save_errors :
  forall resolve may_create pieces fails fs img filename fs' r, imgkit_Save resolve may_create pieces fails fs img filename = (fs', r) ->
  only_changes resolve filename fs fs' /\
  (r = Some SaveCreate <-> may_create filename = false) /\ (r = Some SaveCreate -> fs' = fs) /\
  (r = Some SaveUnsupported <-> may_create filename = true /\ ~ ends_with filename [46; 106; 112; 103] /\ ~ ends_with filename [46; 106; 112; 101; 103] /\ ~ ends_with filename [46; 112; 110; 103]) /\
  (r = None -> (ends_with filename [46; 112; 110; 103] /\ fs' (resolve filename) = Some (concat (pieces PngEncoder img))) \/
    ((ends_with filename [46; 106; 112; 103] \/ ends_with filename [46; 106; 112; 101; 103]) /\ fs' (resolve filename) = Some (concat (pieces JpegEncoder img)))).
Proof.
  intros resolve mc pieces fails fs img p fs' r. unfold imgkit_Save. destruct (mc p).
  2: { intros [= <- <-]. split; [intros i _; reflexivity|]. split; [split; auto|]. split; [auto|]. split; [split; [intros X; discriminate X|intros [X _]; discriminate X]|intros X; discriminate X]. }
  intros HE.
  set (write := fun e => if encoder_refuses e (i_x1 img - i_x0 img) (i_y1 img - i_y0 img) then (fs_set fs (resolve p) [], Some SaveEncode)
    else let '(s, err) := sink_write_all fails (standard_new None) (pieces e img) in
         (fs_set fs (resolve p) (o_content (s_file s)), match err with Some _ => Some SaveWrite | None => None end)).
  change ((if eq_bytes (Ext p) dotted_jpg || eq_bytes (Ext p) dotted_jpeg then write JpegEncoder
           else if eq_bytes (Ext p) dotted_png then write PngEncoder else (fs_set fs (resolve p) [], Some SaveUnsupported)) = (fs', r)) in HE.
  assert (W : forall e, write e = (fs', r) -> only_changes resolve p fs fs' /\ r <> Some SaveCreate /\ r <> Some SaveUnsupported /\
     (r = None -> fs' (resolve p) = Some (concat (pieces e img)))).
  { intros e. unfold write. destruct (encoder_refuses e _ _).
    - intros [= <- <-]. split; [apply fs_set_only|]. split; [intros X; discriminate X|]. split; intros X; discriminate X.
    - destruct (sink_write_all fails (standard_new None) (pieces e img)) as [s err] eqn:SA. intros [= <- <-]. split; [apply fs_set_only|].
      destruct err as [err|]; [split; [|split]; intros X; discriminate X|]. split; [intros X; discriminate X|]. split; [intros X; discriminate X|].
      intros _. rewrite fs_set_same. apply sink_all_none in SA as (SF & _). rewrite SF. change (s_file (standard_new None)) with (mkOs [] 0). rewrite new_content. reflexivity. }
  destruct (eq_bytes (Ext p) dotted_jpg || eq_bytes (Ext p) dotted_jpeg) eqn:EJ.
  { destruct (W _ HE) as (A & B & D & F). split; [exact A|]. split; [split; [intros X; contradiction|intros X; discriminate X]|].
    split; [intros X; contradiction|]. split; [|intros X; right; split; [apply orb_true_iff in EJ as [EJ|EJ]; [left; apply Ext_jpg, EJ|right; apply Ext_jpeg, EJ]|exact (F X)]].
    split; [intros X; contradiction|]. intros (_ & N1 & N2 & _). exfalso.
    apply orb_true_iff in EJ as [EJ|EJ]; [apply N1, Ext_jpg, EJ|apply N2, Ext_jpeg, EJ]. }
  destruct (eq_bytes (Ext p) dotted_png) eqn:EP.
  { destruct (W _ HE) as (A & B & D & F). split; [exact A|]. split; [split; [intros X; contradiction|intros X; discriminate X]|].
    split; [intros X; contradiction|]. split; [|intros X; left; split; [apply Ext_png, EP|exact (F X)]]. split; [intros X; contradiction|]. intros (_ & _ & _ & N). exfalso. apply N, Ext_png, EP. }
  injection HE as <- <-. split; [apply fs_set_only|]. split; [split; intros X; discriminate X|]. split; [intros X; discriminate X|]. split; [|intros X; discriminate X].
  split; [intros _|reflexivity]. apply orb_false_iff in EJ as [J1 J2]. split; [reflexivity|].
  split; [intros X; apply Ext_jpg in X; congruence|]. split; [intros X; apply Ext_jpeg in X; congruence|intros X; apply Ext_png in X; congruence].
Qed.
(* "a Save that returns an error leaves an existing file alone" is false: with an unsupported extension the file is emptied first *)
Theorem C67_failed_save_keeps_file_refuted :
  forall resolve may_create pieces fails fs img content, let filename := [97; 46; 80; 78; 71] (* a.PNG *) in
  may_create filename = true -> fs (resolve filename) = Some content ->
  exists fs', imgkit_Save resolve may_create pieces fails fs img filename = (fs', Some SaveUnsupported) /\ fs' (resolve filename) = Some [].
Proof.
  intros resolve mc pieces fails fs img content p MC FC. unfold imgkit_Save. rewrite MC. eexists. split; [reflexivity|]. apply fs_set_same.
Qed.

(* ------------------------------------------------------------------ C66 *)
Section Cli.
Context (resolve : path -> Z) (may_read may_create : path -> bool) (decode_png decode_jpeg : list Z -> option image).

Lemma cli_options_files scan fs foo :
  apply_file_options resolve may_read decode_png decode_jpeg scan fs (cli_file_options foo) = NewWithWriter scan (applyOptions (imgkit_Read resolve may_read decode_png decode_jpeg fs) foo).
Proof.
  unfold cli_file_options, applyOptions, apply_file_options, NewWithWriter. destruct (foo_borders foo) as [[[a b] c] d]. rewrite !fold_left_app.
  destruct (foo_circle foo), (foo_transparent foo), (foo_halftone foo) as [|x file]; cbn [fold_left apply_file_option]; try reflexivity;
    destruct (imgkit_Read _ _ _ _ _ (x :: file)); reflexivity.
Qed.

Definition cli_opts fs f t r b l := cli_result (imgkit_Read resolve may_read decode_png decode_jpeg (fs_set fs (resolve (f_output f)) [])) f t r b l.

Lemma cli_New scan fs f t r b l mode foo : four_borders (f_borders f) t r b l -> parseGenerateContextFrom f = Some (mode, foo) -> may_create (f_output f) = true ->
  mode = f_terminal f /\ foo_output foo = f_output f /\
  standard_New resolve may_read may_create decode_png decode_jpeg scan fs (foo_output foo) (cli_file_options foo) =
    (fs_set fs (resolve (f_output f)) [], Created (standard_new (fs (resolve (f_output f)))) (cli_opts fs f t r b l)).
Proof.
  intros HB HP MC. pose proof (cli_options_spec scan (imgkit_Read resolve may_read decode_png decode_jpeg (fs_set fs (resolve (f_output f)) [])) f t r b l HB) as E.
  unfold cli_options in E. rewrite HP in E. pose proof (parse_complete f t r b l HB) as PC. rewrite HP in PC. injection PC as EM EF. subst mode. rewrite EF in E |- *. cbn [foo_output].
  split; [reflexivity|]. split; [reflexivity|]. unfold standard_New. rewrite MC, cli_options_files, E. reflexivity.
Qed.
End Cli.

(* the colours, sizes and shape the command line asks for *)
Lemma cli_opts_facts load f t r b l : four_borders (f_borders f) t r b l ->
  let o := cli_result load f t r b l in
  qrBlockWidth o = cli_block f /\ 1 <= cli_block f <= 255 /\ b_top o = t /\ b_right o = r /\ b_bottom o = b /\ b_left o = l /\
  0 <= t <= 255 /\ 0 <= r <= 255 /\ 0 <= b <= 255 /\ 0 <= l <= 255 /\ painter_colors o /\ o_bgColor o = color_WHITE /\ o_qrColor o = color_BLACK.
Proof.
  intros HB o. assert (M : 0 <= f_block f mod 256 < 256) by (apply Z.mod_pos_bound; lia).
  assert (NN : forall s v, numeral s v -> 0 <= v).
  { intros s v (_ & D & E). rewrite <- E. unfold decimal. apply (value_mono s D 0). lia. }
  split; [|split; [unfold cli_block; destruct (Z.eqb_spec (f_block f mod 256) 0); lia|]].
  - unfold qrBlockWidth, cli_block, o, cli_result. cbn [o_qrWidth]. destruct (Z.eqb_spec (f_block f mod 256) 0) as [->|N]; [reflexivity|].
    destruct (Z.leb_spec (f_block f mod 256) 0), (Z.ltb_spec 255 (f_block f mod 256)); cbn [orb]; lia.
  - do 4 (split; [reflexivity|]). destruct HB as (a & b' & c & d & _ & N1 & N2 & N3 & N4 & L1 & L2 & L3 & L4).
    apply NN in N1, N2, N3, N4. do 4 (split; [lia|]). split; [|split; reflexivity].
    unfold painter_colors, opaque, good, byte, o, cli_result; cbn; repeat split; lia.
Qed.

Lemma dimension_bound sjis : shift_jis_contract sjis -> forall text opts sched q, NewWith sjis text opts sched = Ok q -> 21 <= q_dimension q <= 177.
Proof.
  intros C text opts sched q HN. pose proof (PropsLossy.made_dimension sjis C text opts sched q HN).
  destruct (PropsSymbol.C12_function_patterns sjis C text opts sched q HN) as (v & R & _). unfold read_version in R.
  destruct (symbol_of sjis C text opts sched q HN) as (l & v' & k & _ & EV & HV & _ & S & _). destruct HV. unfold q_dimension.
  rewrite (sy_w _ _ _ _ _ S) in *. unfold side. lia.
Qed.

Section CliFile.
Context (resolve : path -> Z) (may_read may_create : path -> bool) (decode_png decode_jpeg : list Z -> option image).
Context (sjis : Z -> option (list Z)) (scan : list Z -> option rgba) (encode : encoder -> Z * Z * canvas -> list (list Z)) (fails : nat -> option nat)
        (others : shape -> canvas -> call -> canvas) (scale : image -> Z -> Z -> Z -> Z) (term_ok flush_ok : bool) (events : list ModelTerminal.event).
Notation run := (cli_action resolve may_read may_create decode_png decode_jpeg sjis scan encode fails others scale term_ok flush_ok events).
Notation fopts := (cli_opts resolve may_read decode_png decode_jpeg).

Lemma cli_file_run f text sched w q t r b l : four_borders (f_borders f) t r b l -> f_terminal f = false -> may_create (f_output f) = true ->
  New sjis (GoString text) sched = Ok q -> forall s' o' ev res,
  Save (Some (qMat q)) (standard_writer encode fails others scale) (standard_new (w_fs w (resolve (f_output f))), fopts (w_fs w) f t r b l) = ((s', o'), ev, res) ->
  exists w', run f text sched w = (w', of_save res) /\ w_fs w' (resolve (f_output f)) = Some (o_content (s_file s')) /\
    only_changes resolve (f_output f) (w_fs w) (w_fs w') /\ w_term w' = w_term w /\ w_term_open w' = w_term_open w.
Proof.
  intros HB HT MC HN s' o' ev res HS. pose proof (parse_complete f t r b l HB) as PC. unfold cli_action. rewrite PC, HN.
  destruct (cli_New resolve may_read may_create decode_png decode_jpeg scan (w_fs w) f t r b l _ _ HB PC MC) as (_ & EO & EN). rewrite HT, EN, HS, EO.
  eexists. split; [reflexivity|]. cbn [w_fs w_term w_term_open]. split; [apply fs_set_same|]. split; [|split; reflexivity].
  intros i N. unfold fs_set. destruct (Z.eqb_spec i (resolve (f_output f))); [contradiction|reflexivity].
Qed.
End CliFile.

(* the pixels of a picture made from the command line, sampled in the middle of the modules *)
Lemma cli_sampled load f t r b l n cv d (dark : rgba -> bool) : four_borders (f_borders f) t r b l ->
  let o := cli_result load f t r b l in
  sampled n (fun x y => dark (cv (sample_x o d x) (sample_y o d y))) = scan_pixels dark d l t (cli_block f) n cv.
Proof.
  intros HB o. destruct (cli_opts_facts load f t r b l HB) as (BW & _ & E1 & _ & _ & E4 & _). fold o in BW, E1, E4.
  unfold scan_pixels, sample_x, sample_y. rewrite BW, E1, E4. reflexivity.
Qed.
Lemma eqb_black c : rgba_eqb c color_BLACK = exactly_black c.
Proof. reflexivity. Qed.
Lemma cli_shape load f t r b l others edge : four_borders (f_borders f) t r b l -> others ShapeCircle = circle_draw edge -> (f_circle f = true -> 3 <= cli_block f) ->
  let o := cli_result load f t r b l in proper_shape (chosen_shape others o) (qrBlockWidth o) (cli_block f / 2) /\ 0 <= cli_block f / 2 < qrBlockWidth o.
Proof.
  intros HB EC H3 o. destruct (cli_opts_facts load f t r b l HB) as (BW & BR & _). fold o in BW. rewrite BW.
  assert (D : 0 <= cli_block f / 2 < cli_block f) by (split; [apply Z.div_pos; lia|apply Z.div_lt_upper_bound; lia]). split; [|exact D].
  unfold chosen_shape, getShape, o, cli_result. cbn [o_shape]. destruct (f_circle f).
  - rewrite EC. apply circle_proper. apply H3. reflexivity.
  - apply rectangle_proper. exact D.
Qed.

(* no --halftone, or one that cannot be read at the time it is (the output file has been created, or emptied, by then) *)
Definition no_halftone resolve may_read decode_png decode_jpeg (f : flags) (w : world) : Prop :=
  f_halftone f = [] \/ imgkit_Read resolve may_read decode_png decode_jpeg (fs_set (w_fs w) (resolve (f_output f)) []) (f_halftone f) = None.

(* qrcode --output=x.png ...: the file, decoded, shows a symbol that reads as the text; nothing else in the file system changes *)
Theorem C66_png :
  forall sjis, shift_jis_contract sjis ->
  forall resolve may_read may_create decode_png decode_jpeg scan encode decode fails others edge scale term_ok flush_ok events f text sched w q t r b l,
  New sjis (GoString text) sched = Ok q -> ~ misdetected sjis [] (text_bytes (GoString text)) ->
  four_borders (f_borders f) t r b l -> f_terminal f = false -> no_halftone resolve may_read decode_png decode_jpeg f w -> dot_png (f_output f) -> may_create (f_output f) = true ->
  others ShapeCircle = circle_draw edge -> (f_circle f = true -> 3 <= cli_block f) ->
  lossless PngEncoder encode decode -> (forall k, fails k = None) ->
  exists w' content cv, let n := q_dimension q in let bw := cli_block f in
    cli_action resolve may_read may_create decode_png decode_jpeg sjis scan encode fails others scale term_ok flush_ok events f text sched w = (w', Exited None) /\
    only_changes resolve (f_output f) (w_fs w) (w_fs w') /\ w_fs w' (resolve (f_output f)) = Some content /\
    decode content = Some (n * bw + l + r, n * bw + t + b, cv) /\ reads_back sjis (GoString text) (scan_pixels exactly_black (bw / 2) l t bw n cv).
Proof.
  intros sjis C resolve mr mc dp dj scan encode decode fails others edge scale tok fok events f text sched w q t r b l HN NM HB HT HH HP MC EC H3 DEC NF.
  pose proof (dimension_bound sjis C _ _ _ _ HN) as DB.
  set (load := imgkit_Read resolve mr dp dj (fs_set (w_fs w) (resolve (f_output f)) [])).
  destruct (cli_opts_facts load f t r b l HB) as (BW & BR & ET & ER & EB & EL & T1 & T2 & T3 & T4 & PC & CB & CQ). set (o := cli_result load f t r b l) in *.
  destruct (cli_shape load f t r b l others edge HB EC H3) as [PS HD]. fold o in PS, HD.
  assert (EE : o_encoder o = PngEncoder).
  { unfold o, cli_result. cbn [o_encoder]. rewrite (proj2 (eq_bytes_spec _ _)); [reflexivity|]. apply ext_png, HP. }
  assert (EW : img_w o (q_dimension q) = q_dimension q * cli_block f + l + r) by (unfold img_w; rewrite BW, EL, ER; reflexivity).
  assert (EHt : img_h o (q_dimension q) = q_dimension q * cli_block f + t + b) by (unfold img_h; rewrite BW, ET, EB; reflexivity).
  destruct (PropsShape.C56_saved_symbol_reads_back sjis C (GoString text) [] sched q HN NM encode decode fails others scale o (w_fs w (resolve (f_output f))) (cli_block f / 2))
    as (s' & o' & cv & A1 & A2 & A3 & A4); try assumption; try lia.
  - rewrite EE. exact DEC.
  - rewrite EE, EW, EHt. cbn [encodable]. nia.
  - reflexivity.
  - unfold o, cli_result. cbn [o_halftone]. destruct HH as [HH|HH]; [rewrite HH; reflexivity|]. destruct (f_halftone f); [reflexivity|exact HH].
  - reflexivity.
  - intros _. rewrite CB, CQ. intros X. discriminate X.
  - destruct (cli_file_run resolve mr mc dp dj sjis scan encode fails others scale tok fok events f text sched w q t r b l HB HT MC HN _ _ _ _ A1) as (w' & R & FC & OC & _).
    exists w', (o_content (s_file s')), cv. split; [exact R|]. split; [exact OC|]. split; [exact FC|]. rewrite EW, EHt in A3. split; [exact A3|].
    unfold scan_at in A4. rewrite CQ in A4. unfold o in A4. rewrite (cli_sampled load f t r b l _ cv (cli_block f / 2) (fun c => rgba_eqb c color_BLACK) HB) in A4. exact A4.
Qed.

(* any other extension: JPEG, with or without --transparent; any decoder that gets the channels right up to 127 *)
Theorem C66_jpeg :
  forall sjis, shift_jis_contract sjis ->
  forall resolve may_read may_create decode_png decode_jpeg scan encode decode fails others edge scale term_ok flush_ok events f text sched w q t r b l,
  New sjis (GoString text) sched = Ok q -> ~ misdetected sjis [] (text_bytes (GoString text)) ->
  four_borders (f_borders f) t r b l -> f_terminal f = false -> no_halftone resolve may_read decode_png decode_jpeg f w -> ~ dot_png (f_output f) -> may_create (f_output f) = true ->
  others ShapeCircle = circle_draw edge -> (f_circle f = true -> 3 <= cli_block f) ->
  lossy 127 JpegEncoder encode decode -> (forall k, fails k = None) ->
  exists w' content cv, let n := q_dimension q in let bw := cli_block f in
    cli_action resolve may_read may_create decode_png decode_jpeg sjis scan encode fails others scale term_ok flush_ok events f text sched w = (w', Exited None) /\
    only_changes resolve (f_output f) (w_fs w) (w_fs w') /\ w_fs w' (resolve (f_output f)) = Some content /\
    decode content = Some (n * bw + l + r, n * bw + t + b, cv) /\ reads_back sjis (GoString text) (scan_pixels darker_than_grey (bw / 2) l t bw n cv).
Proof.
  intros sjis C resolve mr mc dp dj scan encode decode fails others edge scale tok fok events f text sched w q t r b l HN NM HB HT HH HP MC EC H3 DEC NF.
  pose proof (dimension_bound sjis C _ _ _ _ HN) as DB.
  set (load := imgkit_Read resolve mr dp dj (fs_set (w_fs w) (resolve (f_output f)) [])).
  destruct (cli_opts_facts load f t r b l HB) as (BW & BR & ET & ER & EB & EL & T1 & T2 & T3 & T4 & PC & CB & CQ). set (o := cli_result load f t r b l) in *.
  destruct (cli_shape load f t r b l others edge HB EC H3) as [PS HD]. fold o in PS, HD.
  assert (EE : o_encoder o = JpegEncoder).
  { unfold o, cli_result. cbn [o_encoder]. destruct (eq_bytes _ _) eqn:E; [|reflexivity]. exfalso. apply HP, ext_png, eq_bytes_spec, E. }
  assert (EW : img_w o (q_dimension q) = q_dimension q * cli_block f + l + r) by (unfold img_w; rewrite BW, EL, ER; reflexivity).
  assert (EHt : img_h o (q_dimension q) = q_dimension q * cli_block f + t + b) by (unfold img_h; rewrite BW, ET, EB; reflexivity).
  destruct (PropsLossy.C61_lossy_reads_back sjis C (GoString text) [] sched q HN NM 127 encode decode fails others scale o (w_fs w (resolve (f_output f))) (cli_block f / 2))
    as (s' & o' & cv & A1 & A2 & A3 & A4); try assumption; try lia.
  - rewrite EE. exact DEC.
  - rewrite EE, EW, EHt. cbn [encodable]. nia.
  - reflexivity.
  - unfold o, cli_result. cbn [o_halftone]. destruct HH as [HH|HH]; [rewrite HH; reflexivity|]. destruct (f_halftone f); [reflexivity|exact HH].
  - reflexivity.
  - rewrite CB, CQ. reflexivity.
  - destruct (cli_file_run resolve mr mc dp dj sjis scan encode fails others scale tok fok events f text sched w q t r b l HB HT MC HN _ _ _ _ A1) as (w' & R & FC & OC & _).
    exists w', (o_content (s_file s')), cv. split; [exact R|]. split; [exact OC|]. split; [exact FC|]. rewrite EW, EHt in A3. split; [exact A3|].
    unfold nearer_dark in A4. rewrite CQ, CB in A4. unfold o in A4.
    rewrite (cli_sampled load f t r b l _ cv (cli_block f / 2) (fun c => 2 * brightness c <? brightness color_BLACK + brightness color_WHITE) HB) in A4. exact A4.
Qed.

(* --halftone=<file> with a readable picture, PNG output, blocks of 3 or at least 6 pixels (C57; the default of 5 is not among them) *)
Theorem C66_halftone_partial :
  forall sjis, shift_jis_contract sjis ->
  forall resolve may_read may_create decode_png decode_jpeg scan encode decode fails others scale term_ok flush_ok events f text sched w q t r b l i,
  New sjis (GoString text) sched = Ok q -> ~ misdetected sjis [] (text_bytes (GoString text)) ->
  four_borders (f_borders f) t r b l -> f_terminal f = false -> f_circle f = false -> dot_png (f_output f) -> may_create (f_output f) = true ->
  f_halftone f <> [] -> resolve (f_halftone f) <> resolve (f_output f) -> imgkit_Read resolve may_read decode_png decode_jpeg (w_fs w) (f_halftone f) = Some i ->
  halftone_width (cli_block f) -> lossless PngEncoder encode decode -> (forall k, fails k = None) ->
  exists w' content cv, let n := q_dimension q in let bw := cli_block f in
    cli_action resolve may_read may_create decode_png decode_jpeg sjis scan encode fails others scale term_ok flush_ok events f text sched w = (w', Exited None) /\
    only_changes resolve (f_output f) (w_fs w) (w_fs w') /\ w_fs w' (resolve (f_output f)) = Some content /\
    decode content = Some (n * bw + l + r, n * bw + t + b, cv) /\ reads_back sjis (GoString text) (scan_pixels exactly_black ((bw - 1) / 2) l t bw n cv).
Proof.
  intros sjis C resolve mr mc dp dj scan encode decode fails others scale tok fok events f text sched w q t r b l i HN NM HB HT HCi HP MC NH NR HI HW DEC NF.
  pose proof (dimension_bound sjis C _ _ _ _ HN) as DB.
  set (load := imgkit_Read resolve mr dp dj (fs_set (w_fs w) (resolve (f_output f)) [])).
  destruct (cli_opts_facts load f t r b l HB) as (BW & BR & ET & ER & EB & EL & T1 & T2 & T3 & T4 & PC & CB & CQ). set (o := cli_result load f t r b l) in *.
  assert (EE : o_encoder o = PngEncoder).
  { unfold o, cli_result. cbn [o_encoder]. rewrite (proj2 (eq_bytes_spec _ _)); [reflexivity|]. apply ext_png, HP. }
  assert (EW : img_w o (q_dimension q) = q_dimension q * cli_block f + l + r) by (unfold img_w; rewrite BW, EL, ER; reflexivity).
  assert (EHt : img_h o (q_dimension q) = q_dimension q * cli_block f + t + b) by (unfold img_h; rewrite BW, ET, EB; reflexivity).
  assert (EI : o_halftone o = Some i).
  { unfold o, cli_result. cbn [o_halftone]. assert (LE : load (f_halftone f) = Some i) by (unfold load, imgkit_Read in *; rewrite read_other by exact NR; exact HI).
    destruct (f_halftone f); [contradiction|exact LE]. }
  destruct (PropsShape.C57_readable_partial sjis C (GoString text) [] sched q HN NM encode decode fails others scale o (w_fs w (resolve (f_output f))) i)
    as (s' & o' & cv & A1 & A2 & A3 & A4); try assumption; try lia.
  - rewrite EE. exact DEC.
  - rewrite EE, EW, EHt. cbn [encodable]. nia.
  - unfold getShape, o, cli_result. cbn [o_shape]. rewrite HCi. reflexivity.
  - reflexivity.
  - reflexivity.
  - intros _. rewrite CB, CQ. intros X. discriminate X.
  - rewrite BW. exact HW.
  - destruct (cli_file_run resolve mr mc dp dj sjis scan encode fails others scale tok fok events f text sched w q t r b l HB HT MC HN _ _ _ _ A1) as (w' & R & FC & OC & _).
    exists w', (o_content (s_file s')), cv. split; [exact R|]. split; [exact OC|]. split; [exact FC|]. rewrite EW, EHt in A3. split; [exact A3|].
    unfold scan_at in A4. rewrite CQ, BW in A4. unfold o in A4. rewrite (cli_sampled load f t r b l _ cv ((cli_block f - 1) / 2) (fun c => rgba_eqb c color_BLACK) HB) in A4. exact A4.
Qed.

(* --terminal: the screen shows the symbol; no file changes *)
Theorem C66_terminal :
  forall sjis, shift_jis_contract sjis ->
  forall resolve may_read may_create decode_png decode_jpeg scan encode fails others scale events f text sched w q t r b l,
  New sjis (GoString text) sched = Ok q -> ~ misdetected sjis [] (text_bytes (GoString text)) ->
  four_borders (f_borders f) t r b l -> f_terminal f = true ->
  2 * q_dimension q + 4 <= t_width (w_term w) -> q_dimension q + 2 <= t_height (w_term w) -> In EventKey events ->
  exists w', cli_action resolve may_read may_create decode_png decode_jpeg sjis scan encode fails others scale true true events f text sched w = (w', Exited None) /\
    w_fs w' = w_fs w /\ w_term_open w' = false /\ reads_back sjis (GoString text) (scan_terminal (w_term w') (q_dimension q)).
Proof.
  intros sjis C resolve mr mc dp dj scan encode fails others scale events f text sched w q t r b l HN NM HB HT TW TH EV.
  destruct (PropsSaved.C49_terminal sjis C (GoString text) [] sched q HN NM (w_term w) events TW TH EV) as (t' & _ & HS & RB).
  unfold cli_action. rewrite (parse_complete f t r b l HB), HN, HT, HS. eexists. split; [reflexivity|]. cbn [w_fs w_term w_term_open]. auto.
Qed.

(* whatever happens, no file but the output file is changed, and in terminal mode none at all *)
Theorem C66_only_output_touched :
  forall resolve may_read may_create decode_png decode_jpeg sjis scan encode fails others scale term_ok flush_ok events f text sched w w' e,
  cli_action resolve may_read may_create decode_png decode_jpeg sjis scan encode fails others scale term_ok flush_ok events f text sched w = (w', e) ->
  only_changes resolve (f_output f) (w_fs w) (w_fs w') /\ (f_terminal f = true -> w_fs w' = w_fs w) /\ (f_terminal f = false -> w_term w' = w_term w).
Proof.
  intros resolve mr mc dp dj sjis scan encode fails others scale tok fok events f text sched w w' e. unfold cli_action.
  assert (K : only_changes resolve (f_output f) (w_fs w) (w_fs w) /\ (f_terminal f = true -> w_fs w = w_fs w) /\ (f_terminal f = false -> w_term w = w_term w)) by (split; [intros i _; reflexivity|auto]).
  destruct (parseGenerateContextFrom f) as [[mode foo]|] eqn:EP; [|intros [= <- <-]; exact K].
  destruct (PropsCli.C51_borders_iff f) as [B1 _]. destruct (proj1 B1) as (t & r & b & l & HB); [congruence|]. pose proof (parse_complete f t r b l HB) as PC. rewrite EP in PC. injection PC as -> EF.
  assert (EO : foo_output foo = f_output f) by (rewrite EF; reflexivity). clear EF.
  destruct (New sjis (GoString text) sched) as [q|er|p|]; [|intros [= <- <-]; exact K..].
  destruct (f_terminal f).
  - destruct tok; [|intros [= <- <-]; exact K]. destruct (Save _ _ _) as [[[t' open] ev] res]. intros [= <- <-]. cbn [w_fs w_term]. split; [intros i _; reflexivity|]. split; [reflexivity|intros X; discriminate X].
  - destruct (standard_New _ _ _ _ _ _ _ _ _) as [fs1 c] eqn:EN.
    destruct (C65_files_after_New _ _ _ _ _ _ _ _ _ _ _ EN) as (_ & F1 & F2). rewrite EO in F1, F2.
    assert (OC : only_changes resolve (f_output f) (w_fs w) fs1) by (destruct (mc (f_output f)); [apply F2; reflexivity|rewrite F1 by reflexivity; intros i _; reflexivity]).
    destruct c as [s o| |]; [|intros [= <- <-]; cbn [w_fs w_term]; split; [exact OC|split; [intros X; discriminate X|reflexivity]]..].
    destruct (Save _ _ _) as [[[s' o'] ev] res]. intros [= <- <-]. cbn [w_fs w_term]. split; [|split; [intros X; discriminate X|reflexivity]].
    intros i N. unfold fs_set. rewrite EO. destruct (Z.eqb_spec i (resolve (f_output f))); [contradiction|apply OC, N].
Qed.

(* a text that cannot be encoded, a bad --borders or an output that cannot be created leave the world as it is *)
Theorem C66_early_errors_change_nothing :
  forall resolve may_read may_create decode_png decode_jpeg sjis scan encode fails others scale term_ok flush_ok events f text sched w,
  (~ (exists t r b l, four_borders (f_borders f) t r b l) \/ (exists er, New sjis (GoString text) sched = Err er) \/ (f_terminal f = false /\ may_create (f_output f) = false)) ->
  (exists e, New sjis (GoString text) sched = Err e) \/ (exists q, New sjis (GoString text) sched = Ok q) ->
  exists e, cli_action resolve may_read may_create decode_png decode_jpeg sjis scan encode fails others scale term_ok flush_ok events f text sched w = (w, e) /\ e <> Exited None.
Proof.
  intros resolve mr mc dp dj sjis scan encode fails others scale tok fok events f text sched w HE HN. unfold cli_action.
  destruct (PropsCli.C51_borders_iff f) as [B1 B2].
  destruct (parseGenerateContextFrom f) as [[mode foo]|] eqn:EP; [|exists Crashed; split; [reflexivity|intros X; discriminate X]].
  destruct (proj1 B1) as (t & r & b & l & HB); [discriminate|]. pose proof (parse_complete f t r b l HB) as PC. rewrite EP in PC. injection PC as -> EF.
  destruct HN as [[er HN]|[q HN]]; rewrite HN; [eexists; split; [reflexivity|intros X; discriminate X]|].
  destruct HE as [HE|[[er HE]|[HT MC]]]; [exfalso; apply HE; eauto 6|congruence|]. rewrite HT, EF. cbn [foo_output]. unfold standard_New. rewrite MC.
  eexists. split; [destruct w; reflexivity|intros X; discriminate X].
Qed.

(* success is reported only if the whole picture has been written to the file *)
Theorem C66_no_silent_loss :
  forall sjis, shift_jis_contract sjis ->
  forall resolve may_read may_create decode_png decode_jpeg scan encode fails others scale term_ok flush_ok events f text sched w w',
  cli_action resolve may_read may_create decode_png decode_jpeg sjis scan encode fails others scale term_ok flush_ok events f text sched w = (w', Exited None) ->
  f_terminal f = false ->
  exists load q o wd ht cv o', New sjis (GoString text) sched = Ok q /\ cli_options scan load f = Some o /\ draw others scale (qMat q) o = Some (wd, ht, cv, o') /\
    w_fs w' (resolve (f_output f)) = Some (concat (encode (o_encoder o) (wd, ht, cv))) /\ (forall k, (k < length (encode (o_encoder o) (wd, ht, cv)))%nat -> fails k = None).
Proof.
  intros sjis C resolve mr mc dp dj scan encode fails others scale tok fok events f text sched w w' HR HT.
  destruct (parseGenerateContextFrom f) as [[mode foo]|] eqn:EP; [|unfold cli_action in HR; rewrite EP in HR; discriminate HR].
  destruct (PropsCli.C51_borders_iff f) as [B1 _]. destruct (proj1 B1) as (t & r & b & l & HB); [congruence|].
  destruct (New sjis (GoString text) sched) as [q|er|p|] eqn:HN; [|unfold cli_action in HR; rewrite EP, HN in HR; discriminate HR..].
  destruct (mc (f_output f)) eqn:MC.
  2: { destruct (C66_early_errors_change_nothing resolve mr mc dp dj sjis scan encode fails others scale tok fok events f text sched w) as (e & E & N); [right; right; auto|right; eauto|].
       rewrite E in HR. injection HR as _ HR. contradiction. }
  destruct (made_square sjis C _ _ _ _ HN) as [SQ _].
  set (o := cli_opts resolve mr dp dj (w_fs w) f t r b l).
  destruct (PropsSaved.C50_standard_no_silent_loss encode fails others scale _ _ (w_fs w (resolve (f_output f))) o SQ) as (wd & ht & cv & o' & ED & HS).
  destruct (Save (Some (qMat q)) (standard_writer encode fails others scale) (standard_new (w_fs w (resolve (f_output f))), o)) as [[[s' o''] ev] res] eqn:ES.
  destruct (HS _ _ _ _ eq_refl) as (_ & _ & _ & RI & RC).
  destruct (cli_file_run resolve mr mc dp dj sjis scan encode fails others scale tok fok events f text sched w q t r b l HB HT MC HN _ _ _ _ ES) as (w'' & R & FC & _).
  rewrite R in HR. injection HR as <- OS. assert (res = Returned None) as -> by (destruct res as [[?|]|]; try discriminate OS; reflexivity).
  exists (imgkit_Read resolve mr dp dj (fs_set (w_fs w) (resolve (f_output f)) [])), q, o, wd, ht, cv, o'. split; [reflexivity|].
  split; [apply cli_options_spec, HB|]. split; [exact ED|]. rewrite (draw_encoder _ _ _ _ _ _ _ _ _ SQ ED) in RI, RC. cbv zeta in RI, RC.
  split; [rewrite FC, RC by reflexivity; reflexivity|]. apply RI. reflexivity.
Qed.

(* the exit status does not tell: it is 0 after every error that is returned *)
Theorem C66_exit_status_refuted :
  exists resolve may_read may_create decode_png decode_jpeg sjis scan encode fails others scale term_ok flush_ok events f text sched w w' e,
  cli_action resolve may_read may_create decode_png decode_jpeg sjis scan encode fails others scale term_ok flush_ok events f text sched w = (w', e) /\
  w_fs w' (resolve (f_output f)) = None /\ exit_status e = Some 0.
Proof.
  destruct (PropsNew.hello_ok []) as [q HN]; auto.
  pose (f := mkFlags false [97] 5 [48; 44; 48; 44; 48; 44; 48] false false []).
  pose (w := mkWorld (fun _ => None) (mkTerm 0 0 (fun _ _ => mkCell 0 ColorWhite ColorWhite)) false).
  exists (fun _ => 0), (fun _ => false), (fun _ => false), (fun _ => None), (fun _ => None), sample_sjis, (fun _ => None), (fun _ _ => []), (fun _ => None), (fun _ cv _ => cv), (fun _ _ _ _ => 0), true, true, [], f,
    [Byte.x48; Byte.x45; Byte.x4c; Byte.x4c; Byte.x4f], fair_schedule, w, w.
  destruct (C66_early_errors_change_nothing (fun _ => 0) (fun _ => false) (fun _ => false) (fun _ => None) (fun _ => None) sample_sjis (fun _ => None) (fun _ _ => []) (fun _ => None) (fun _ cv _ => cv) (fun _ _ _ _ => 0) true true [] f
    [Byte.x48; Byte.x45; Byte.x4c; Byte.x4c; Byte.x4f] fair_schedule w) as (e & E & _); [right; right; split; reflexivity|right; exists q; exact HN|].
  exists e. split; [exact E|]. split; [reflexivity|]. revert E. unfold cli_action.
  assert (PC : exists foo, parseGenerateContextFrom f = Some (false, foo) /\ foo_output foo = [97]) by (eexists; split; reflexivity). destruct PC as (foo & -> & EO).
  change (GoString _) with hello. unfold New. rewrite HN. unfold standard_New. intros X. injection X as <-. reflexivity.
Qed.

(* only a crash is seen in the status: borders that are not four numbers, or a terminal that cannot be opened, end the program with
   status 2 and change nothing *)
Theorem C66_crash_status :
  forall resolve may_read may_create decode_png decode_jpeg sjis scan encode fails others scale term_ok flush_ok events f text sched w,
  ~ (exists t r b l, four_borders (f_borders f) t r b l) \/
  (f_terminal f = true /\ term_ok = false /\ exists q, New sjis (GoString text) sched = Ok q) ->
  exists e, cli_action resolve may_read may_create decode_png decode_jpeg sjis scan encode fails others scale term_ok flush_ok events f text sched w = (w, e) /\
    exit_status e = Some 2.
Proof.
  intros resolve mr mc dp dj sjis scan encode fails others scale tok fok events f text sched w HE. exists Crashed. split; [|reflexivity]. unfold cli_action.
  destruct (PropsCli.C51_borders_iff f) as [B1 B2].
  destruct (parseGenerateContextFrom f) as [[mode foo]|] eqn:EP; [|reflexivity].
  destruct (proj1 B1) as (t & r & b & l & HB); [congruence|]. destruct HE as [NB|(HT & -> & q & HN)]; [exfalso; apply NB; exists t, r, b, l; exact HB|].
  pose proof (parse_complete f t r b l HB) as PC. rewrite EP in PC. injection PC as -> EF. rewrite HN, HT. reflexivity.
Qed.

(* ---- the hypotheses can be met ---- *)
(* a toy codec with the first bytes of the real ones *)
Definition toy_pieces (e : encoder) (i : image) : list (list Z) :=
  (match e with PngEncoder => png_magic | _ => jpeg_magic end) ::
  PropsSaved.toy_encode e (i_x1 i - i_x0 i, i_y1 i - i_y0 i, fun x y => i_at i (i_x0 i + x) (i_y0 i + y)).
Definition toy_image (skip : nat) (c : list Z) : option image :=
  match PropsSaved.toy_decode (skipn skip c) with Some (w, h, cv) => Some (mkImage 0 0 w h cv) | None => None end.
Lemma toy_near i j w h cv :
  j = mkImage 0 0 w h cv -> w = i_x1 i - i_x0 i -> h = i_y1 i - i_y0 i ->
  (forall x y, 0 <= x < w -> 0 <= y < h -> cv x y = i_at i (i_x0 i + x) (i_y0 i + y)) -> picture_near eq i j.
Proof.
  intros -> -> -> K. unfold picture_near. cbn [i_x0 i_x1 i_y0 i_y1 i_at]. split; [lia|]. split; [lia|]. intros x y X Y. rewrite K by assumption. reflexivity.
Qed.
Example C67_example_png : codec eq PngEncoder png_magic toy_pieces (toy_image 8).
Proof.
  intros i _. split; [eexists; reflexivity|]. eexists. split; [reflexivity|]. eapply toy_near; [reflexivity|reflexivity|reflexivity|].
  intros x y X Y. cbn beta. rewrite app_nil_r. apply (PropsSaved.toy_pixel _ _ (fun x y => i_at i (i_x0 i + x) (i_y0 i + y))); assumption.
Qed.
Example C67_example_jpeg : codec eq JpegEncoder jpeg_magic toy_pieces (toy_image 2).
Proof.
  intros i _. split; [eexists; reflexivity|]. eexists. split; [reflexivity|]. eapply toy_near; [reflexivity|reflexivity|reflexivity|].
  intros x y X Y. cbn beta. rewrite app_nil_r. apply (PropsSaved.toy_pixel _ _ (fun x y => i_at i (i_x0 i + x) (i_y0 i + y))); assumption.
Qed.
(* a one-pixel picture: saved, read, and used as a logo and as a halftone picture *)
Example C65_example : let i := mkImage 3 3 4 4 (fun _ _ => color_BLACK) in let name := [97; 46; 112; 110; 103] in let out := [98] in
  let resolve := fun p : path => hd 0 p in let content := concat (toy_pieces PngEncoder i) in let fs := fs_set (fun _ => None) 97 content in
  imgkit_Save resolve (fun _ => true) toy_pieces (fun _ => None) (fun _ => None) i name = (fs, None) /\ resolve name <> resolve out /\ exists j, toy_image 8 content = Some j /\ picture_near eq i j /\ (exists r, content = [137; 80; 78; 71; 13; 10; 26; 10] ++ r).
Proof.
  cbv zeta. split; [reflexivity|]. split; [cbn; lia|]. destruct (C67_example_png (mkImage 3 3 4 4 (fun _ _ => color_BLACK))) as [MG (j & D & PN)].
  - cbn. lia.
  - exists j. split; [exact D|]. split; [exact PN|exact MG].
Qed.
(* qrcode --block=7 --borders=1,2,3,255 --output=a.png HELLO *)
Example C66_example : (exists q, New sample_sjis (GoString [Byte.x48; Byte.x45; Byte.x4c; Byte.x4c; Byte.x4f]) fair_schedule = Ok q) /\ ~ misdetected sample_sjis [] (text_bytes (GoString [Byte.x48; Byte.x45; Byte.x4c; Byte.x4c; Byte.x4f])) /\ four_borders (f_borders (PropsCli.sample_flags 7)) 1 2 3 255 /\ dot_png (f_output (PropsCli.sample_flags 7)) /\ f_terminal (PropsCli.sample_flags 7) = false /\ f_halftone (PropsCli.sample_flags 7) = [] /\ cli_block (PropsCli.sample_flags 7) = 7 /\ halftone_width 7 /\ (exists encode decode, lossless PngEncoder encode decode).
Proof.
  split; [apply PropsSymbol.symbol_example|]. split; [apply PropsSymbol.symbol_example|]. split; [apply PropsCli.C51_nonvacuous|]. split; [apply PropsCli.C51_nonvacuous|].
  do 3 (split; [reflexivity|]). split; [unfold halftone_width; lia|].
  destruct (PropsSaved.C49_example) as (_ & _ & _ & _ & _ & _ & _ & _ & _ & (en & de & K) & _). exists en, de. apply K.
Qed.
Print Assumptions C65_logo_png.
Print Assumptions C65_logo_jpeg.
Print Assumptions C65_halftone.
Print Assumptions C65_unreadable_is_skipped.
Print Assumptions C65_output_file_as_logo_refuted.
Print Assumptions C65_output_file_as_halftone_refuted.
Print Assumptions C65_files_after_New.
Print Assumptions C67_png_round_trip.
Print Assumptions C67_jpeg_round_trip.
Print Assumptions C67_save_errors.
Print Assumptions C67_failed_save_keeps_file_refuted.
Print Assumptions C66_png.
Print Assumptions C66_jpeg.
Print Assumptions C66_halftone_partial.
Print Assumptions C66_terminal.
Print Assumptions C66_only_output_touched.
Print Assumptions C66_early_errors_change_nothing.
Print Assumptions C66_no_silent_loss.
Print Assumptions C66_exit_status_refuted.
Print Assumptions C66_crash_status.
