(* Model of the programs in /repo/example: /repo/example/example.go and the main.go of each directory (the custom shape of
   with-custom-shape is in ModelExample.v, the page of webassembly in ModelWasm.v).
   Not modelled: what the programs print, except with-minimum-version's numbers and simple's picture (before base64). *)
From Coq Require Export String.
From Coq Require Import QArith.
From Coq Require Export List.
From Verif Require Import ModelBase ModelMatrix ModelQRCode ModelSave ModelCompressed ModelStandard ModelFile ModelTerminal ModelWriters ModelFs ModelGradient ModelGradient64
  ModelFloat ModelShapes ModelExample.
Open Scope Z_scope.

Definition go_string (s : string) : list Init.Byte.byte := list_byte_of_string s.
Definition name (s : string) : path := map byteZ (list_byte_of_string s).

(* a function of example.go returns silently (Finished) or after printing an error (Complained); a main either returns or panics, and
   Pending goroutines block it *)
Inductive ending := Finished | Complained | Died | Hung.

Section Examples.
Context (resolve : path -> Z) (may_read may_create : path -> bool) (decode_png decode_jpeg : list Z -> option image).
Context (sjis : Z -> option (list Z)) (scan : list Z -> option rgba) (encode : encoder -> Z * Z * canvas -> list (list Z)) (fails : nat -> option nat)
        (others : shape -> canvas -> call -> canvas) (scale : image -> Z -> Z -> Z -> Z).
(* the gradient's arithmetic (see ModelGradient64): how products are fused, math.Cos and math.Sin of 45 degrees *)
Context (fuse : place -> fusing) (cos45 sin45 : Q).

(* os.Stat and os.IsNotExist, for each file a function asks for before it goes on *)
Definition all_there (fs : fsys) (needs : list path) : bool := forallb (fun f => match fs (resolve f) with Some _ => true | None => false end) needs.

(* What they all do (example.go:13-32): qrcode.New or NewWith, possibly os.Stat, standard.New, Save; a deferred Close of the writer that
   Save has closed already changes nothing.  on_error: what becomes of an error.  draws: the options, by the dimension of the symbol (the
   colours of a gradient depend on the size of the picture, which is known only when it is drawn). *)
Definition save_picture (on_error : ending) (text : list Init.Byte.byte) (eopts : list EncodeOption) (needs : list path) (file : path)
    (draws : Z -> list file_option) (sched : list actor) (fs : fsys) : fsys * ending :=
  match NewWith sjis (GoString text) eopts sched with
  | Err _ => (fs, on_error)
  | Panic _ => (fs, Died)
  | Pending => (fs, Hung)
  | Ok q =>
    if all_there fs needs then
      let '(fs1, c) := standard_New resolve may_read may_create decode_png decode_jpeg scan fs file (draws (q_dimension q)) in
      match c with
      | CreateError => (fs1, on_error)
      | CreatePanic => (fs1, Died)
      | Created s o =>
        let '(s', _, _, r) := Save (Some (qMat q)) (standard_writer encode fails others scale) (s, o) in
        (fs_set fs1 (resolve file) (o_content (s_file s')),
         match r with Returned None => Finished | Returned (Some _) => on_error | Panicked => Died end)
      end
    else (fs, on_error)
  end.

(* ---- example.go ---- *)
(* :13-32 *)
Definition createQRWithQRWidth (content : list Init.Byte.byte) :=
  save_picture Complained content [] [] (name "../assets/example/qrcode_with_qrwidth.png") (fun _ => [Plain (WithQRWidth 8)]).
(* :35-54 *)
Definition createQRWithCircleShape (content : list Init.Byte.byte) :=
  save_picture Complained content [] [] (name "../assets/example/qrcode_with_circleshape.png") (fun _ => [Plain WithCircleShape]).
(* :57-76 *)
Definition createQRWithBorderWidth (content : list Init.Byte.byte) :=
  save_picture Complained content [] [] (name "../assets/example/qrcode_with_borderwidth.png") (fun _ => [Plain (WithBorderWidth [10])]).
(* :79-99 *)
Definition createQRWithBgTransparent (content : list Init.Byte.byte) :=
  save_picture Complained content [] [] (name "../assets/example/qrcode_with_bgtransparent.png")
    (fun _ => [Plain (WithBuiltinImageEncoder 1); Plain WithBgTransparent]).
(* :102-122 *)
Definition sky_blue : rgba := mkRGBA 135 206 235 255.
Definition lawn_green : rgba := mkRGBA 124 252 0 255.
Definition createQRWithBgFgColor (content : list Init.Byte.byte) :=
  save_picture Complained content [] [] (name "../assets/example/qrcode_with_bgfgcolor.png")
    (fun _ => [Plain (WithFgColor (Some (ColorRGBA sky_blue))); Plain (WithBgColor (Some (ColorRGBA lawn_green)))]).
(* :125-152; the size of the picture: blocks of 20 pixels, borders of 40 *)
Definition rainbow : list stop := [mkStop 0 (mkRGBA 255 0 0 255); mkStop (1 # 2) (mkRGBA 0 255 0 255); mkStop 1 (mkRGBA 0 0 255 255)].
Definition rainbow_at (n : Z) : Z -> Z -> rgba := gradient_at64 round64 fuse rainbow cos45 sin45 (n * 20 + 80) (n * 20 + 80).
Definition createQRWithFgGradient (content : list Init.Byte.byte) :=
  save_picture Complained content [] [] (name "../assets/example/qrcode_with_fggradient.png") (fun n => [Plain (WithFgGradient (Some (rainbow_at n)))]).
(* :155-182 *)
Definition createQRWithHalftone (content : list Init.Byte.byte) :=
  let halftonePath := name "../assets/example/monna-lisa.png" in
  save_picture Complained content [] [halftonePath] (name "../assets/example/qrcode_with_halftone.png")
    (fun _ => [WithHalftone halftonePath; Plain (WithQRWidth 21)]).
(* :185-205 *)
Definition createQRWithLogo (content : list Init.Byte.byte) :=
  save_picture Complained content [] [] (name "../assets/example/qrcode_with_logo.png")
    (fun _ => [WithLogoImageFileJPEG (name "../assets/example/logo.jpeg")]).

(* functions called one after the other, each with a schedule of the goroutines it starts *)
Fixpoint in_turn (steps : list (list actor -> fsys -> fsys * ending)) (scheds : list (list actor)) (fs : fsys) : fsys * ending :=
  match steps, scheds with
  | step :: steps, sched :: scheds =>
    let '(fs1, e) := step sched fs in
    match e with Died | Hung => (fs1, e) | Finished | Complained => in_turn steps scheds fs1 end
  | _, _ => (fs, Finished)
  end.
(* :207-220 main *)
Definition example_content := go_string "https://github.com/yeqown/go-qrcode".
Definition example_main : list (list actor) -> fsys -> fsys * ending :=
  in_turn (map (fun f => f example_content)
    [createQRWithQRWidth; createQRWithCircleShape; createQRWithBorderWidth; createQRWithBgTransparent; createQRWithBgFgColor; createQRWithFgGradient;
     createQRWithHalftone; createQRWithLogo]).

(* ---- the programs of the directories ---- *)
(* EncModeByte is 32 and the levels are 1 to 4: see SpecAPI *)
(* simple/main.go:13-48: a file and a buffer; ErrorCorrectionQuart = 3.  The buffer is a writer that never fails and whose Close does
   nothing: the bytes are those of a new file. *)
Definition simple_file (sched : list actor) (fs : fsys) : fsys * ending :=
  save_picture Died (go_string "github.com/yeqown/go-qrcode") [WithEncodingMode 32; WithErrorCorrectionLevel 3] [] (name "./simple.png")
    (fun _ => [Plain (WithQRWidth 40)]) sched fs.
Definition simple_buffer (sched : list actor) : option (list Z) :=
  match NewWith sjis (GoString (go_string "github.com/yeqown/go-qrcode")) [WithEncodingMode 32; WithErrorCorrectionLevel 3] sched with
  | Ok q =>
    match apply_file_options resolve may_read decode_png decode_jpeg scan (fun _ => None) [Plain (WithQRWidth 40)] with
    | Some o =>
      let '(s', _, _, r) := Save (Some (qMat q)) (standard_writer encode (fun _ => None) others scale) (standard_new None, o) in
      match r with Returned None => Some (o_content (s_file s')) | _ => None end
    | None => None
    end
  | _ => None
  end.
(* migrating-from-v1/main.go:47-70 v2 (v1 uses another module, github.com/yeqown/go-qrcode v1) *)
Definition migrating_v2 : list actor -> fsys -> fsys * ending :=
  save_picture Died (go_string "https://github.com/yeqown/go-qrcode") [WithErrorCorrectionLevel 4] [] (name "v2.jpeg")
    (fun _ => [Plain WithCircleShape; Plain (WithFgColorRGBHex (name "#0000ff")); Plain (WithBgColorRGBHex (name "#ffffff"));
               Plain (WithQRWidth 20); Plain (WithBorderWidth [20])]).
(* with-custom-shape/main.go:45-62; the shape, made by newShape(0.7): others (ShapeCustom 0) *)
Definition with_custom_shape : list actor -> fsys -> fsys * ending :=
  save_picture Died (go_string "with-custom-shape") [] [] (name "./smaller.png") (fun _ => [Plain (WithCustomShape (Some (ShapeCustom 0)))]).
(* with-gradient-color/main.go:10-40 *)
Definition with_gradient_color : list actor -> fsys -> fsys * ending :=
  save_picture Died (go_string "https://github.com/yeqown/go-qrcode") [WithErrorCorrectionLevel 1] [] (name "./with-gradient-color/smaller.png")
    (fun n => [Plain (WithFgGradient (Some (rainbow_at n)))]).
(* with-halftone/main.go:11-47, with or without --transparent *)
Definition with_halftone (transparent : bool) : list actor -> fsys -> fsys * ending :=
  save_picture Died (go_string "https://github.com/yeqown/go-qrcode") [] []
    (if transparent then name "./halftone-qr-transparent.png" else name "./halftone-qr.png")
    (fun _ => [WithHalftone (name "./test.jpeg"); Plain (WithQRWidth 21)] ++
              (if transparent then [Plain (WithBuiltinImageEncoder 1); Plain WithBgTransparent] else [])).
(* with-logosize-multiplier/main.go:9-32 *)
Definition with_logosize_multiplier : list actor -> fsys -> fsys * ending :=
  save_picture Died (go_string "github.com/yeqown/go-qrcode") [WithEncodingMode 32; WithErrorCorrectionLevel 3] [] (name "./simple.png")
    (fun _ => [WithLogoImageFileJPEG (name "./logo.jpg"); Plain (WithLogoSizeMultiplier 2)]).
(* with-minimum-version/main.go:10-52: the two pictures and the numbers printed (:33-34, :51) *)
Definition with_minimum_version_9 : list actor -> fsys -> fsys * ending :=
  save_picture Died (go_string "Hello") [WithMinimumVersion 9; WithErrorCorrectionLevel 3] [] (name "./qrcode_minimum_version_9.png")
    (fun _ => [Plain (WithQRWidth 20)]).
Definition with_auto_version : list actor -> fsys -> fsys * ending :=
  save_picture Died (go_string "Hello") [] [] (name "./qrcode_auto_version.png") (fun _ => [Plain (WithQRWidth 20)]).
Definition minimum_version_prints (sched1 sched2 : list actor) : option (Z * Z * Z) :=
  match NewWith sjis (GoString (go_string "Hello")) [WithMinimumVersion 9; WithErrorCorrectionLevel 3] sched1,
        NewWith sjis (GoString (go_string "Hello")) [] sched2 with
  | Ok q, Ok q2 => Some (q_dimension q, 9 * 4 + 17, q_dimension q2)
  | _, _ => None
  end.
(* assemble-shape/main.go:40-62; others (ShapeCustom 0) is the assembled shape.  (HChainBlock, :9-38, is not used.) *)
Definition assemble_shape : list actor -> fsys -> fsys * ending :=
  save_picture Died (go_string "https://github.com/yeqown/go-qrcode") [] [] (name "./smaller.png") (fun _ => [Plain (WithCustomShape (Some (ShapeCustom 0)))]).

(* use-file-writer/main.go:10-20: standard output; nothing is printed before *)
Definition use_file_writer (stdout : file) (sched : list actor) : option file * ending :=
  match NewWith sjis (GoString (go_string "with_file_writer")) [] sched with
  | Ok q =>
    let '(out, _, r) := Save (Some (qMat q)) (fileWriter fails) (Some stdout) in
    (out, match r with Returned None => Finished | _ => Died end)
  | Pending => (Some stdout, Hung)
  | _ => (Some stdout, Died)
  end.
(* use-terminal-writer/main.go:8-20; terminal.New panics if termbox cannot be initialised *)
Definition use_terminal_writer (term_ok flush_ok : bool) (events : list ModelTerminal.event) (t : terminal) (sched : list actor) : terminal * bool * ending :=
  match NewWith sjis (GoString (go_string "with_terminal")) [] sched with
  | Ok q =>
    if term_ok then
      let '(st, _, r) := Save (Some (qMat q)) (terminal_writer flush_ok events) (t, true) in
      (st, match r with Returned None => Finished | _ => Died end)
    else (t, false, Died)
  | Pending => (t, false, Hung)
  | _ => (t, false, Died)
  end.
End Examples.
