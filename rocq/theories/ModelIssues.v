(* Model of the programs in /repo/.issues: 69/issue.go and 106/issue.go.
   Not modelled: what they print, except the length 69 prints first; the last statement of 69's main, encodeWithSkip2, which calls
   another module (github.com/skip2/go-qrcode). *)
From Coq Require Import Init.Byte.
From Verif Require Import ModelBase ModelMatrix ModelQRCode ModelSave ModelCompressed ModelWriters ModelFs ModelExamples.
Open Scope Z_scope.

(* strings.Replace with one-byte strings and n = -1 *)
Definition Replace (s : list byte) (old new : byte) : list byte := map (fun c => if Byte.eqb c old then new else c) s.
(* strings.ToUpper of a text of ASCII characters *)
Definition ToUpper (s : list byte) : list byte :=
  map (fun c => let n := Byte.to_N c in
                if (97 <=? n)%N && (n <=? 122)%N then match Byte.of_N (n - 32) with Some u => u | None => c end else c) s.

(* 69/issue.go:32 *)
Definition issue_69_json : list byte := go_string
"{
  ""id"": ""beb6c04733d1a2da0f87c910a384"",
  ""tmax"": 895,
  ""cur"": [
    ""USD""
  ],
  ""imp"": [
    {
      ""id"": ""21292"",
      ""instl"": 0,
      ""secure"": 0}
".
(* :33-41 *)
Definition issue_69_content : list byte :=
  let content := issue_69_json in
  let content := Replace content x7b x24 in   (* { $ *)
  let content := Replace content x7d x25 in   (* } % *)
  let content := Replace content x0a x20 in   (* newline, space *)
  let content := Replace content x22 x2a in   (* quotation mark, asterisk *)
  let content := Replace content x2c x2f in   (* comma, slash *)
  let content := Replace content x5b x2f in   (* [ / *)
  let content := Replace content x5d x2f in   (* ] / *)
  ToUpper content.

Section Issues.
Context (resolve : path -> Z) (may_create : path -> bool) (sjis : Z -> option (list Z)) (png_pieces : paletted -> list (list Z)) (fails : nat -> option nat).

(* NewWith, compressed.New with Padding 4 and BlockSize 1, Save; refused: what becomes of an error of NewWith, every other error panics.
   A deferred Close after Save closes a closed file, which changes nothing. *)
Definition save_compressed (refused : ending) (text : list byte) (eopts : list EncodeOption) (file : path) (sched : list actor) (fs : fsys) : fsys * ending :=
  match NewWith sjis (GoString text) eopts sched with
  | Err _ => (fs, refused)
  | Panic _ => (fs, Died)
  | Pending => (fs, Hung)
  | Ok q =>
    if may_create file then
      let '(s', _, r) := Save (Some (qMat q)) (compressed_writer png_pieces fails 4 1) (compressed_new (fs (resolve file))) in
      (fs_set fs (resolve file) (o_content (s_file s')), match r with Returned None => Finished | _ => Died end)
    else (fs, Died)
  end.

(* 69/issue.go:78-102 and :104-141, which differ only in comments and an argument they do not use; the os.Stat at the end finds the file *)
Definition encodeWithYeqown (content : list byte) (file : path) :=
  save_compressed Died content [WithEncodingMode 8; WithErrorCorrectionLevel 4] file.
(* 69/issue.go:30-48 main, up to encodeWithSkip2 *)
Definition issue_69 (sched1 sched2 : list actor) (fs : fsys) : fsys * ending :=
  match encodeWithYeqown issue_69_content (name "qr-yeqown.png") sched1 fs with
  | (fs1, Finished) => encodeWithYeqown issue_69_content (name "qr-yeqown-best.png") sched2 fs1
  | r => r
  end.

(* 106/issue.go:24-61 main; the text is three ideographs in UTF-8 *)
Definition issue_106_content : list byte := [xe6; x97; xa5; xe6; x9c; xac; xe8; xaa; x9e].
Definition issue_106 : list actor -> fsys -> fsys * ending :=
  save_compressed Complained issue_106_content [WithEncodingMode 16] (name "qr-kanji.png").
End Issues.
