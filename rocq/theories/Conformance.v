(* Evidence that the model is a model of this program, not a proof of any property: the expected results in the repository's own
   unit tests, and the pictures the repository publishes as its output, are what the model computes.  Every statement is closed and
   evaluated by the kernel.  The tests that call a function of the program are written with the model of that function. *)
From Coq Require Import Lia Init.Byte String Ascii.
From Verif Require Import ModelBase ModelBinary ModelUtf8 ModelMatrix VersionTable ModelVersion ModelChardet ModelEncoder ModelKmp ModelEval ModelSearch ModelQRCode
  ModelStandard SpecReader SpecStandard Samples ProofBase SpecMatrix ProofMedium ProofStandard PropsStandard.
Open Scope Z_scope. Open Scope list_scope. Local Open Scope string_scope. Local Open Scope Z_scope. Local Open Scope list_scope.

Definition utf8 (s : string) : list Z := map byteZ (list_byte_of_string s).
Definition go (s : string) : GoText := GoString (list_byte_of_string s).
(* the Shift-JIS codes of the characters that occur in the tests *)
Definition test_sjis (r : Z) : option (list Z) :=
  if (0x20 <=? r) && (r <=? 0x7F) then Some [r]
  else match r with | 0x304C => Some [0x82; 0xAA] | 0x3053 => Some [0x82; 0xB1] | 0x3059 => Some [0x82; 0xB7] | 0x3061 => Some [0x82; 0xBF] | 0x3067 => Some [0x82; 0xC5] | 0x306A => Some [0x82; 0xC8] | 0x306B => Some [0x82; 0xC9] | 0x306F => Some [0x82; 0xCD] | 0x3072 => Some [0x82; 0xD0] | 0x3089 => Some [0x82; 0xE7] | 0x308C => Some [0x82; 0xEA] | 0x3093 => Some [0x82; 0xF1] | 0x30B3 => Some [0x83; 0x52] | 0x30C1 => Some [0x83; 0x60] | 0x30C9 => Some [0x83; 0x68] | 0x30CB => Some [0x83; 0x6A] | 0x30CF => Some [0x83; 0x6E] | 0x30F3 => Some [0x83; 0x93] | 0x30FC => Some [0x81; 0x5B] | 0x4E16 => Some [0x90; 0xA2] | 0x4EAC => Some [0x8B; 0x9E] | 0x5150 => Some [0x8E; 0x99] | 0x5317 => Some [0x96; 0x6B] | 0x571F => Some [0x93; 0x79] | 0x5927 => Some [0x91; 0xE5] | 0x5B57 => Some [0x8E; 0x9A] | 0x5CF6 => Some [0x93; 0x87] | 0x5D4B => Some [0x9B; 0xC9] | 0x5D84 => Some [0x9B; 0xCE] | 0x6587 => Some [0x95; 0xB6] | 0x65E5 => Some [0x93; 0xFA] | 0x661F => Some [0x90; 0xAF] | 0x6708 => Some [0x8C; 0x8E] | 0x6728 => Some [0x96; 0xD8] | 0x672C => Some [0x96; 0x7B] | 0x6746 => Some [0x9E; 0x57] | 0x6759 => Some [0x9E; 0x5A] | 0x6760 => Some [0x9E; 0x59] | 0x6763 => Some [0x9E; 0x5B] | 0x6771 => Some [0x93; 0x8C] | 0x6C34 => Some [0x90; 0x85] | 0x6C96 => Some [0x89; 0xAB] | 0x6D77 => Some [0x8A; 0x43] | 0x6F22 => Some [0x8A; 0xBF] | 0x706B => Some [0x89; 0xCE] | 0x754C => Some [0x8A; 0x45] | 0x7E04 => Some [0x93; 0xEA] | 0x8317 => Some [0xE4; 0xAA] | 0x8377 => Some [0x89; 0xD7] | 0x8A66 => Some [0x8E; 0x8E] | 0x8A9E => Some [0x8C; 0xEA] | 0x9053 => Some [0x93; 0xB9] | 0x90FD => Some [0x93; 0x73] | 0x91D1 => Some [0x8B; 0xE0] | 0x962A => Some [0x8D; 0xE3] | 0x9A13 => Some [0x8C; 0xB1] | 0x9E7F => Some [0x8E; 0xAD] | _ => None end.

(* ---- the pictures in /repo/assets ---- *)
(* the modules of /repo/assets/example/qrcode_with_bgtransparent.png (a lossless picture, 740 x 740 pixels), which
   /repo/example/example.go:79-99 makes.  The pictures _borderwidth, _circleshape, _qrwidth, _halftone of that directory,
   /repo/assets/repository_qrcode.png and /repo/example/with-halftone/halftone-qr-transparent.png have the same modules. *)
Definition published : list string :=
  ["#######..##....#...###.#..#######";
   "#.....#.#.#..##..#.....##.#.....#";
   "#.###.#.#####.#...###...#.#.###.#";
   "#.###.#...#.##.#..#..#..#.#.###.#";
   "#.###.#.....#.#####...###.#.###.#";
   "#.....#...###..#.....###..#.....#";
   "#######.#.#.#.#.#.#.#.#.#.#######";
   "...........#.#..####....#........";
   ".###.##...#.#..####..####.....##.";
   ".###...#...#.#..#####..#..##.##.#";
   "..#...##..#.....#.#..###..####..#";
   "#.#.##.#..#..#..##.#.##..###.#.##";
   ".#.#######.....##..#######..##.##";
   ".#...#.#...##.###...##.#...#..##.";
   ".....##.#...###.#.####..#.#####..";
   ".##.#..#.#...##.#.#..#...###.##..";
   "#.###.#.##.#.######..###.##.###..";
   ".#.#.#..###.#.###...#.#####.##.##";
   "##..#.#..#....##..#.##..#..##.##.";
   ".#.##..#.##..#####.#..####..#..#.";
   ".#.#..#.#.####.##.....#....#.##..";
   "##.......#..#..####.####..#..##.#";
   "....#.##..#.####...###.#.###..###";
   ".#.#.#....#...#####.#...#.##.#..#";
   "#.#...###........###..#.#####....";
   "........#.#.###.#..###..#...##.#.";
   "#######........##.####.##.#.#....";
   "#.....#.#....#...#..#..##...#####";
   "#.###.#....###.#...#..#######.##.";
   "#.###.#.#..##..###.#.###...#.####";
   "#.###.#.#..####..#..#.#...##.#...";
   "#.....#.#.##..###.#.#.####.###..#";
   "#######....####....#.#.#..#.#.#.."].
Definition repository : string := "https://github.com/yeqown/go-qrcode".
Definition picture (m : list (list bool)) : list string :=
  map (fun r => String.concat "" (map (fun b : bool => if b then "#" else ".")%string r)) m.
Definition published_at (x y : Z) : bool :=
  match zget published y with
  | Some r => match String.get (Z.to_nat x) r with Some "#"%char => true | _ => false end
  | None => false
  end.

(* New("https://github.com/yeqown/go-qrcode"), module for module *)
Example published_symbol :
  match New sample_sjis (go repository) fair_schedule with Ok q => picture (m_bitmap (qMat q)) = published | _ => False end.
Proof. vm_compute. reflexivity. Qed.

Definition agrees (q : QRCode) : bool :=
  let bm := m_bitmap (qMat q) in
  (q_dimension q =? 33) && forallb (fun x => forallb (fun y => Bool.eqb (module_at bm x y) (published_at x y)) (zseq 0 33)) (zseq 0 33).
Lemma published_agrees : match New sample_sjis (go repository) fair_schedule with Ok q => agrees q | _ => false end = true.
Proof. vm_compute. reflexivity. Qed.

(* the picture of example.go:79-99 is 740 x 740 pixels; its pixels are opaque black in the dark modules of the published picture,
   20 pixels wide after a border of 40, and fully transparent everywhere else *)
Definition published_options : option options := NewWithWriter (fun _ => None) [WithBuiltinImageEncoder 1; WithBgTransparent].
Lemma New_NewWith sjis text sched : New sjis text sched = NewWith sjis text [] sched. Proof. reflexivity. Qed.
Lemma agreed_picture : forall q others scale, agrees q = true -> square 33 (qMat q) ->
  let o := set_bgTransparent (set_encoder PngEncoder defaultOptions) in
  exists cv o', draw others scale (qMat q) o = Some (740, 740, cv, o') /\
    forall px py, 0 <= px < 740 -> 0 <= py < 740 ->
    if (40 <=? px) && (px <? 700) && (40 <=? py) && (py <? 700) && published_at ((px - 40) / 20) ((py - 40) / 20)
    then cv px py = mkRGBA 0 0 0 255 else c_a (cv px py) = 0.
Proof.
  intros q others scale AG SQ o. apply andb_true_iff in AG as [_ AG].
  destruct (C37_pixels_partial others scale 33 (qMat q) o SQ eq_refl eq_refl eq_refl eq_refl) as (cv & o' & ED' & HP).
  { unfold painter_colors, opaque, good, SpecStandard.byte. cbn. lia. }
  change (Z.abs (img_w o 33)) with 740 in ED'. change (Z.abs (img_h o 33)) with 740 in ED'. change (img_w o 33) with 740 in HP. change (img_h o 33) with 740 in HP.
  exists cv, o'. split; [exact ED'|]. intros px py Hx Hy. destruct (HP px py Hx Hy) as [HI HO]. clear HP.
  change (o_bgTransparent o) with true in HI, HO. change (o_qrColor o) with (mkRGBA 0 0 0 255) in HI. cbv beta iota in HO.
  unfold in_module in HI. unfold in_symbol in HO. change (b_left o) with 40 in *. change (b_top o) with 40 in *. change (qrBlockWidth o) with 20 in *.
  destruct ((40 <=? px) && (px <? 700) && (40 <=? py) && (py <? 700)) eqn:EI; cbn [andb].
  - repeat (apply andb_true_iff in EI as [EI ?]). repeat match goal with H : (_ <=? _) = true |- _ => apply Z.leb_le in H | H : (_ <? _) = true |- _ => apply Z.ltb_lt in H end.
    pose proof (Z.div_mod (px - 40) 20 ltac:(lia)). pose proof (Z.mod_pos_bound (px - 40) 20 ltac:(lia)).
    pose proof (Z.div_mod (py - 40) 20 ltac:(lia)). pose proof (Z.mod_pos_bound (py - 40) 20 ltac:(lia)).
    set (x := (px - 40) / 20) in *. set (y := (py - 40) / 20) in *.
    specialize (HI x y ltac:(lia) ltac:(lia) ltac:(lia)).
    rewrite forallb_forall in AG. specialize (AG x ltac:(apply in_zseq; lia)). rewrite forallb_forall in AG. specialize (AG y ltac:(apply in_zseq; lia)).
    apply Bool.eqb_prop in AG. rewrite AG in HI. exact HI.
  - apply HO. intros [[A1 A2] [A3 A4]]. rewrite !andb_false_iff, !Z.leb_gt, !Z.ltb_ge in EI. lia.
Qed.
Example published_picture :
  forall q o others scale, New sample_sjis (go repository) fair_schedule = Ok q -> published_options = Some o ->
  exists cv o', draw others scale (qMat q) o = Some (740, 740, cv, o') /\
    forall px py, 0 <= px < 740 -> 0 <= py < 740 ->
    if (40 <=? px) && (px <? 700) && (40 <=? py) && (py <? 700) && published_at ((px - 40) / 20) ((py - 40) / 20)
    then cv px py = mkRGBA 0 0 0 255 else c_a (cv px py) = 0.
Proof.
  intros q o others scale E EO. pose proof published_agrees as AG. rewrite E in AG.
  assert (ED : q_dimension q = 33) by (apply andb_true_iff in AG as [ED _]; apply Z.eqb_eq in ED; exact ED).
  rewrite New_NewWith in E. destruct (made_square sample_sjis sample_contract (go repository) [] fair_schedule q E) as [SQ _]. rewrite ED in SQ.
  unfold published_options, NewWithWriter in EO. cbn [fold_left apply_option] in EO. change (1 =? 0) with false in EO. change (1 =? 1) with true in EO.
  cbv beta iota in EO. injection EO as <-. exact (agreed_picture q others scale AG SQ).
Qed.

(* ---- the unit tests ---- *)
Definition chars (s : string) : list Z := go_runes (utf8 s).

(* chardet_test.go: Test_analyzeNum, Test_analyzeAlphanum, Test_analyzeByte, Test_analyzeJP *)
Example test_analyzeNum : map analyzeNum (chars "0aA9*") = [true; false; false; true; false].
Proof. vm_compute. reflexivity. Qed.
Example test_analyzeAlphaNum : map analyzeAlphaNum (chars "0aA9*?&") = [true; false; true; true; true; false; false].
Proof. vm_compute. reflexivity. Qed.
Example test_analyzeByte : forallb analyzeByte (chars "0aA9*?&Öに") = true.
Proof. vm_compute. reflexivity. Qed.
Example test_analyzeJP : map (analyzeJP test_sjis) (chars "0aA9*?&Öに茗杆荷杠杙杣") =
  [false; false; false; false; false; false; false; false; false; true; true; true; true; true; true].
Proof. vm_compute. reflexivity. Qed.
(* chardet_test.go: Test_analyzeMode *)
Example test_analyzeMode :
  map (fun s => analyzeEncodeModeFromRaw test_sjis (utf8 s))
    ["123120899231"; ":/1231H208*99231FBJO"; "hahah1298312hG&^FBJO@jhgG*"; "JKAHDOIANKQOIHCMJKASJ"; "https://baidu.com?keyword=_JSO==GA"; "茗荷";
     "Övrigt aksldjlk Övrigt should JP encMode?"; "嵋嶄"; "a"; "これはひらがなです"; "コンニチハ"; "漢字ひらがな"; "漢"; "日本語"; "世界";
     "東京京都大阪北海道沖縄鹿児島"; "漢字ABC123"; "㐀"; "豈"] =
  map Ok [EncModeNumeric; EncModeAlphanumeric; EncModeByte; EncModeAlphanumeric; EncModeByte; EncModeKanji;
     EncModeByte; EncModeKanji; EncModeByte; EncModeByte; EncModeByte; EncModeByte; EncModeKanji; EncModeKanji; EncModeKanji;
     EncModeKanji; EncModeByte; EncModeByte; EncModeByte].
Proof. vm_compute. reflexivity. Qed.

(* encoder_test.go: Test_toShiftJIS, Test_encodeShiftJIS *)
Example test_toShiftJIS :
  map (fun s => toShiftJIS test_sjis (utf8 s)) ["茗荷"; "世"; "世界"; "日本語"; "漢字"] =
  [[0x1A; 0xAA; 0x06; 0x97]; [0x0B; 0xA2]; [0x0B; 0xA2; 0x06; 0xC5]; [0x0E; 0x3A; 0x0F; 0xFB; 0x08; 0xEA]; [0x07; 0x3F; 0x0A; 0x1A]].
Proof. vm_compute. reflexivity. Qed.
Example test_encodeShiftJIS :
  map (fun '(hi, lo) => encodeShiftJIS hi lo)
    [(0x81, 0x40); (0x90, 0xA2); (0x9F, 0xFC); (0xE0, 0x40); (0xE4, 0xAA); (0xEB, 0xBF); (0x80, 0x00); (0x9F, 0xFD); (0xEC, 0x00)] =
    [(0, 0); (0x0B, 0xA2); (0x17, 0x3C); (0x17, 0x40); (0x1A, 0xAA); (0x1F, 0xFF); (0, 0); (0, 0); (0, 0)].
Proof. vm_compute. reflexivity. Qed.
(* encoder_test.go: TestEncodeKanji (13 bits a character), TestEncodeKanji_Version, TestEncodeNum, TestEncodeAlphanum, TestEncodeByte (no error) *)
Example test_encodeKanji : map (fun s => zlen (encodeKanji (toShiftJIS test_sjis (utf8 s)) [])) ["世"; "世界"; "日本語"] = [13; 26; 39].
Proof. vm_compute. reflexivity. Qed.
Example test_charCountBits : map (charCountBits EncModeKanji) [1; 10; 27] = [8; 10; 12].
Proof. vm_compute. reflexivity. Qed.
Definition no_error {A} (o : outcome A) : bool := match o with Ok _ => true | _ => false end.
Example test_encode :
  forallb (fun '(mode, ver, ec, s) => no_error (bind (loadVersion ver ec) (fun v => ModelEncoder.encode test_sjis mode v (utf8 s))))
    [(EncModeNumeric, 1, ErrorCorrectionLow, "12312312"); (EncModeAlphanumeric, 1, ErrorCorrectionLow, "AKJA*:/");
     (EncModeByte, 5, ErrorCorrectionQuart, "http://baidu.com?keyword=123123"); (EncModeKanji, 1, ErrorCorrectionLow, "世");
     (EncModeKanji, 1, ErrorCorrectionLow, "世界"); (EncModeKanji, 1, ErrorCorrectionLow, "日本語"); (EncModeKanji, 1, ErrorCorrectionLow, "漢字");
     (EncModeKanji, 10, ErrorCorrectionLow, "漢字"); (EncModeKanji, 27, ErrorCorrectionLow, "漢字")]%string = true.
Proof. vm_compute. reflexivity. Qed.

(* kmp_variant_test.go *)
Example test_kmp :
  let src := binaryToQRValueSlice "11001010010111001010010101011100" in
  kmp_call Z.eqb src (binaryToQRValueSlice "0101") None = Some 6 /\ kmp_call Z.eqb src (binaryToQRValueSlice "1001010") None = Some 3.
Proof. vm_compute. split; reflexivity. Qed.

(* utilities_test.go: Test_samestate, Test_binaryToStateSlice *)
Example test_samestate :
  map (fun '(a, b) => samestate a b)
    [(QRValue_DATA_V1, QRValue_DATA_V1); (QRValue_DATA_V0, QRValue_DATA_V0); (QRValue_DATA_V1, QRValue_DATA_V0); (QRValue_DATA_V0, QRValue_DATA_V1);
     (QRValue_FINDER_V1, QRValue_FINDER_V1); (QRValue_FINDER_V1, QRValue_DATA_V0); (QRValue_DATA_V1, QRValue_FINDER_V1)] =
  [true; true; false; false; true; false; true].
Proof. vm_compute. reflexivity. Qed.
Example test_binaryToStateSlice :
  let o := QRValue_DATA_V1 in let z := QRValue_DATA_V0 in
  binaryToQRValueSlice "1010 0001 101a" = [o; z; o; z; z; z; z; o; o; z; o] /\
  binaryToQRValueSlice "0000 11a1 11x2 x" = [z; z; z; z; o; o; o; o; o].
Proof. vm_compute. split; reflexivity. Qed.

(* matrix_type_test.go: Test_qrtype, Test_qrvalue, Test_qrvalue_xor *)
Example test_qrtype :
  [QRType_INIT; QRType_DATA; QRType_VERSION; QRType_FORMAT; QRType_FINDER; QRType_DARK; QRType_SPLITTER; QRType_TIMING] = [2; 4; 6; 8; 10; 12; 14; 16].
Proof. reflexivity. Qed.
Example test_qrvalue :
  map (fun v => (qrtype v, qrbool v))
    [QRValue_INIT_V0; QRValue_DATA_V1; QRValue_DATA_V0; QRValue_VERSION_V0; QRValue_VERSION_V1; QRValue_FORMAT_V0; QRValue_FORMAT_V1;
     QRValue_FINDER_V0; QRValue_FINDER_V1; QRValue_DARK_V1; QRValue_SPLITTER_V0; QRValue_TIMING_V0; QRValue_TIMING_V1] =
    [(QRType_INIT, false); (QRType_DATA, true); (QRType_DATA, false); (QRType_VERSION, false); (QRType_VERSION, true); (QRType_FORMAT, false);
     (QRType_FORMAT, true); (QRType_FINDER, false); (QRType_FINDER, true); (QRType_DARK, true); (QRType_SPLITTER, false);
     (QRType_TIMING, false); (QRType_TIMING, true)].
Proof. vm_compute. reflexivity. Qed.
Example test_xor : qrxor QRValue_DATA_V0 QRValue_DATA_V0 = QRValue_DATA_V0 /\ qrxor QRValue_DATA_V1 QRValue_DATA_V0 = QRValue_DATA_V1.
Proof. split; reflexivity. Qed.

(* matrix_test.go: TestMatrix, TestMatrix_Copy, Test_Matrix_RowAndCol *)
Example test_matrix :
  let m := m_set (newMatrix 3 3) 2 2 QRValue_DATA_V1 in
  m_set (newMatrix 3 3) 2 4 QRValue_DATA_V1 = newMatrix 3 3 /\ m_at m 2 2 = (QRValue_DATA_V1, None).
Proof. vm_compute. split; reflexivity. Qed.
Example test_matrix_copy :
  let m2 := m_set (m_set (newMatrix 3 3) 1 1 QRValue_DATA_V0) 0 0 QRValue_DATA_V0 in
  let got := m_copy m2 in let m1 := m_set m2 2 2 QRValue_DATA_V1 in
  got = m2 /\ m_at m1 2 2 = (QRValue_DATA_V1, None) /\ m_at got 2 2 = (QRValue_INIT_V0, None).
Proof. vm_compute. repeat split. Qed.
Example test_row_col :
  let m := fold_left (fun m i => m_set (m_set m i 0 QRValue_DATA_V1) i i QRValue_DATA_V1) [0; 1; 2] (newMatrix 3 3) in
  m_row m 1 = Some [QRValue_INIT_V0; QRValue_DATA_V1; QRValue_INIT_V0] /\
  m_col m 2 = Some [QRValue_DATA_V1; QRValue_INIT_V0; QRValue_DATA_V1] /\ m_row m 4 = None /\ m_col m 4 = None.
Proof. vm_compute. repeat split. Qed.

(* version_test.go: Test_loadVersion, Test_analyzeVersion, Test_binarySearchVersion *)
Example test_loadVersion :
  loadVersion 1 ErrorCorrectionHighest = Ok (mkVersion 1 ErrorCorrectionHighest (mkCap 17 10 7 4) 0 [mkGroup 1 9 17]).
Proof. vm_compute. reflexivity. Qed.
Definition text_times (n : nat) : list Z := concat (repeat (utf8 "TEXT") n).
Example test_analyzeVersion :
  forallb (fun '(n, v) => match analyzeVersion (text_times n) ErrorCorrectionMedium EncModeAlphanumeric, loadVersion v ErrorCorrectionMedium with
                          | Ok a, Ok b => (Ver a =? Ver b) && (ECLevel a =? ECLevel b) | _, _ => false end)
    [(1%nat, 1); (30%nat, 5); (300%nat, 23)] = true.
Proof. vm_compute. reflexivity. Qed.
Example test_binarySearchVersion :
  let search low high v ec := binarySearchVersion low high (defaultBinaryCompare v ec) 200 in
  let at_ i := match zget versions i with Some v => Returned v true | None => SearchPanic end in
  search 0 160 1 ErrorCorrectionLow = at_ 0 /\ search 0 160 40 ErrorCorrectionHighest = at_ 159 /\ search (-1) 200 40 ErrorCorrectionHighest = at_ 159 /\
  search 180 0 40 ErrorCorrectionHighest = Returned emptyVersion false /\ search 0 160 3 ErrorCorrectionLow = at_ 8.
Proof. vm_compute. repeat split. Qed.

(* qrcode_test.go *)
Definition made_with (s : string) (opts : list EncodeOption) : option (Z * Z) :=
  match NewWith test_sjis (go s) opts fair_schedule with Ok q => Some (Ver (qV q), qMode q) | _ => None end.
Definition refused_with (s : string) (opts : list EncodeOption) : bool :=
  match NewWith test_sjis (go s) opts fair_schedule with Err _ => true | _ => false end.
Local Notation low := (WithErrorCorrectionLevel ErrorCorrectionLow).
Local Notation quart := (WithErrorCorrectionLevel ErrorCorrectionQuart).
(* Test_NewWith, Test_NewWithConfig_UnmatchedEncodeMode *)
Example test_NewWith :
  made_with "1234567" [WithEncodingMode EncModeNumeric; low; WithVersion 7] = Some (7, EncModeNumeric) /\
  refused_with "abcs" [WithEncodingMode EncModeAlphanumeric] = true.
Proof. vm_compute. split; reflexivity. Qed.
(* Test_NewWith_MinimumVersion, _InvalidValues, _WithExplicitVersion *)
Definition As (n : nat) : string := String.concat "" (repeat "A" n).
Example test_MinimumVersion :
  forallb (fun '(s, v) => match made_with s [WithMinimumVersion v; quart] with Some (ver, _) => v <=? ver | None => false end)
    [("123"%string, 9); ("HELLO"%string, 15); (As 100, 9); (As 500, 9)] = true /\
  forallb (fun v => match made_with "123" [WithMinimumVersion v; low] with Some (ver, _) => (1 <=? ver) && (ver <=? 40) | None => false end) [0; 41; -1] = true /\
  made_with "123" [WithVersion 10; WithMinimumVersion 15; low] = Some (10, EncModeNumeric).
Proof. vm_compute. repeat split. Qed.
(* Test_NewWith_Kanji_EncMode, _AutoMode, _Version10 *)
Example test_Kanji_EncMode :
  forallb (fun s => match made_with s [WithEncodingMode EncModeKanji; low] with Some (_, mode) => mode =? EncModeKanji | None => false end)
    ["漢"; "漢字"; "日本語"; "世界"]%string = true /\
  forallb (fun s => refused_with s [WithEncodingMode EncModeKanji; low])
    ["https://google.com"; "漢字123"; "こんにちは"; "コンニチハ"; "漢字test"; "㐀"]%string = true.
Proof. vm_compute. split; reflexivity. Qed.
Example test_Kanji_AutoMode :
  map (fun s => match made_with s [WithEncodingMode EncModeAuto; low] with Some (_, mode) => mode | None => 0 end)
    ["漢字"; "世界"; "QRコード123"; "金木水火土日月星"; "東京京都大阪北海道沖縄鹿児島"; "これはひらがなです"]%string =
  [EncModeKanji; EncModeKanji; EncModeByte; EncModeKanji; EncModeKanji; EncModeByte] /\
  made_with "漢字文字試験" [WithEncodingMode EncModeKanji; WithVersion 10; low] = Some (10, EncModeKanji).
Proof. vm_compute. split; reflexivity. Qed.

(* writer/standard/image_option_test.go: Test_stateRGBA, Test_hexToRGBA, Test_parseFromColor *)
Example test_stateRGBA :
  map (fun v => fst (translateToRGBA defaultOptions v))
    [QRValue_DATA_V0; QRValue_INIT_V0; QRValue_DATA_V1; QRValue_FORMAT_V1; QRValue_VERSION_V1; 0x0f; QRValue_FINDER_V1] =
  let bg := o_bgColor defaultOptions in let fg := o_qrColor defaultOptions in [bg; bg; fg; fg; fg; fg; fg].
Proof. vm_compute. reflexivity. Qed.
Example test_hexToRGBA : forall scan,
  parseFromHex scan (utf8 "#112233") = Some (mkRGBA 17 34 51 255) /\ parseFromHex scan (utf8 "#112") = Some (mkRGBA 17 17 34 255).
Proof. intros scan. vm_compute. split; reflexivity. Qed.
Example test_parseFromColor :
  parseFromColor (ColorRGBA (mkRGBA 17 34 51 255)) = mkRGBA 17 34 51 255 /\ parseFromColor (Gray16 17) = mkRGBA 17 17 17 255.
Proof. vm_compute. split; reflexivity. Qed.
(* writer/standard/image_option_api_test.go *)
Definition opts_of (l : list image_option) : options := match NewWithWriter (fun _ => None) l with Some o => o | None => defaultOptions end.
Example test_encoders :
  map (fun l => o_encoder (opts_of l))
    [[]; [WithBuiltinImageEncoder 0]; [WithBuiltinImageEncoder 0; WithBuiltinImageEncoder 1]; [WithCustomImageEncoder None]] =
  [JpegEncoder; JpegEncoder; PngEncoder; JpegEncoder].
Proof. vm_compute. reflexivity. Qed.
Example test_colors :
  let k := ColorRGBA color_BLACK in let w := ColorRGBA color_WHITE in
  map (fun l => let o := opts_of l in (o_bgColor o, o_qrColor o))
    [[]; [WithBgColor (Some k)]; [WithBgColor (Some k); WithBgColor (Some w); WithFgColor (Some w)];
     [WithBgColor (Some k); WithBgColor (Some w); WithFgColor (Some w); WithFgColor (Some k)]] =
  [(color_WHITE, color_BLACK); (color_BLACK, color_BLACK); (color_WHITE, color_WHITE); (color_WHITE, color_BLACK)] /\
  o_bgColor (opts_of [WithBgColor (Some (ColorRGBA (mkRGBA 123 123 123 123)))]) = mkRGBA 123 123 123 123.
Proof. vm_compute. split; reflexivity. Qed.
Example test_WithBorderWidth :
  map (fun ws => o_borders (opts_of [WithBorderWidth ws])) [[]; [1]; [1; 2]; [1; 2; 3]; [1; 2; 3; 4]] =
  [(40, 40, 40, 40); (1, 1, 1, 1); (1, 2, 1, 2); (1, 2, 1, 2); (1, 2, 3, 4)].
Proof. vm_compute. reflexivity. Qed.
Example test_rest :
  o_bgTransparent defaultOptions = false /\ o_bgTransparent (opts_of [WithBgTransparent]) = true /\
  o_multiplier defaultOptions = 5 /\ o_multiplier (opts_of [WithLogoSizeMultiplier 2]) = 2.
Proof. vm_compute. repeat split. Qed.
