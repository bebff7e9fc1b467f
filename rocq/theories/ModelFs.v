(* Model of everything that touches the file system by name: options that read files (/repo/writer/standard/image_option_api.go:102-140,
   225-234), standard.New (/repo/writer/standard/writer.go:32-45), imgkit.Read and imgkit.Save
   (/repo/writer/standard/imgkit/io.go), and the command line program (/repo/cmd/qrcode/app.go:48-70, main.go). *)
From Verif Require Import ModelBase ModelMatrix ModelQRCode ModelSave ModelCompressed ModelStandard ModelTerminal ModelWriters ModelCli.

(* Files have identities; [resolve] says which file a path names (two paths may name the same one).  None: there is no such file.
   Directories, permissions and the like are in [may_read] (os.Open succeeds on an existing file) and [may_create]
   (os.OpenFile(O_CREATE|O_WRONLY|O_TRUNC), os.Create succeed).  Simplification: neither changes while the program runs, other
   programs do not touch the files, and reading a file that could be opened does not fail. *)
Definition path := list Z.
Definition fsys := Z -> option (list Z).
Definition fs_set (fs : fsys) (i : Z) (c : list Z) : fsys := fun j => if j =? i then Some c else fs j.

Section FS.
Context (resolve : path -> Z) (may_read may_create : path -> bool).
(* image/png.Decode, image/jpeg.Decode on the whole content; None = error *)
Context (decode_png decode_jpeg : list Z -> option image).

(* os.Open and reading to the end *)
Definition os_read (fs : fsys) (f : path) : option (list Z) := if may_read f then fs (resolve f) else None.

(* image.Decode (Go): the format is found by the first bytes.  The packages image/png and image/jpeg, imported by io.go:5-6, are the
   registered formats. *)
Fixpoint has_prefix (p c : list Z) : bool :=
  match p, c with [], _ => true | x :: p, y :: c => (x =? y) && has_prefix p c | _ :: _, [] => false end.
Definition png_magic : list Z := [137; 80; 78; 71; 13; 10; 26; 10].
Definition jpeg_magic : list Z := [255; 216].
Definition image_Decode (c : list Z) : option image :=
  if has_prefix png_magic c then decode_png c else if has_prefix jpeg_magic c then decode_jpeg c else None.

(* imgkit/io.go:13-26 Read *)
Definition imgkit_Read (fs : fsys) (f : path) : option image :=
  match os_read fs f with Some c => image_Decode c | None => None end.

(* ---- options that read files ---- *)
Inductive file_option :=
| Plain (o : image_option)
| WithLogoImageFileJPEG (f : path)
| WithLogoImageFilePNG (f : path)
| WithHalftone (f : path).

(* image_option_api.go:102-140, 225-234: the apply methods; the file is read when the option is applied.  None = panic *)
Definition apply_file_option (scan : list Z -> option rgba) (fs : fsys) (o : options) (opt : file_option) : option options :=
  match opt with
  | Plain p => apply_option scan o p
  | WithLogoImageFileJPEG f =>
    match os_read fs f with
    | Some c => match decode_jpeg c with Some i => Some (set_logo (Some i) o) | None => Some o end
    | None => Some o
    end
  | WithLogoImageFilePNG f =>
    match os_read fs f with
    | Some c => match decode_png c with Some i => Some (set_logo (Some i) o) | None => Some o end
    | None => Some o
    end
  | WithHalftone f => match imgkit_Read fs f with Some i => Some (set_halftone (Some i) o) | None => Some o end
  end.
(* writer.go:47-61 NewWithWriter *)
Definition apply_file_options (scan : list Z -> option rgba) (fs : fsys) (opts : list file_option) : option options :=
  fold_left (fun o opt => match o with Some o => apply_file_option scan fs o opt | None => None end) opts (Some defaultOptions).

(* writer.go:32-45 New: the output file is opened and truncated first, the options are applied after that.  (The branch at
   :33-37 is never taken.) *)
Inductive created := Created (s : sink) (o : options) | CreateError | CreatePanic.
Definition standard_New (scan : list Z -> option rgba) (fs : fsys) (filename : path) (opts : list file_option) : fsys * created :=
  if may_create filename then
    let fs1 := fs_set fs (resolve filename) [] in
    match apply_file_options scan fs1 opts with
    | Some o => (fs1, Created (standard_new (fs (resolve filename))) o)
    | None => (fs1, CreatePanic)
    end
  else (fs, CreateError).

(* ---- imgkit/io.go:29-46 Save ---- *)
(* pieces: what jpeg.Encode and png.Encode write; refuses: the encoder's own errors, before anything is written *)
Inductive save_error := SaveCreate | SaveUnsupported | SaveEncode | SaveWrite.
Definition dotted_jpg : list Z := [46; 106; 112; 103].
Definition dotted_jpeg : list Z := [46; 106; 112; 101; 103].
Definition dotted_png : list Z := [46; 112; 110; 103].
Definition imgkit_Save (pieces : encoder -> image -> list (list Z)) (fails : nat -> option nat) (fs : fsys) (img : image) (filename : path)
    : fsys * option save_error :=
  if may_create filename then
    let write e :=
      if encoder_refuses e (i_x1 img - i_x0 img) (i_y1 img - i_y0 img) then (fs_set fs (resolve filename) [], Some SaveEncode)
      else let '(s, err) := sink_write_all fails (standard_new None) (pieces e img) in
           (fs_set fs (resolve filename) (o_content (s_file s)), match err with Some _ => Some SaveWrite | None => None end) in
    let e := Ext filename in
    if eq_bytes e dotted_jpg || eq_bytes e dotted_jpeg then write JpegEncoder
    else if eq_bytes e dotted_png then write PngEncoder
    else (fs_set fs (resolve filename) [], Some SaveUnsupported)
  else (fs, Some SaveCreate).

(* ---- cmd/qrcode ---- *)
(* app.go:96-125 applyOptions, with the halftone file by name *)
Definition cli_file_options (foo : fileOutputOptions) : list file_option :=
  let '(a, b, c, d) := foo_borders foo in
  [Plain (WithQRWidth (foo_blockSize foo)); Plain (WithBorderWidth [a; b; c; d]);
   Plain (WithBuiltinImageEncoder (if eq_bytes (foo_suffix foo) png then 1 else 0))]
  ++ (if foo_circle foo then [Plain WithCircleShape] else [])
  ++ (if foo_transparent foo then [Plain WithBgTransparent] else [])
  ++ (match foo_halftone foo with [] => [] | file => [WithHalftone file] end).

(* the errors generate returns *)
Inductive cli_error := GenerateFailed (e : go_error) | InitFailed | SaveFailed (e : werror).
Inductive cli_end := Exited (e : option cli_error) | Crashed | Waiting.

Record world := mkWorld { w_fs : fsys; w_term : terminal; w_term_open : bool }.

Definition of_save (r : call_end werror) : cli_end :=
  match r with Returned None => Exited None | Returned (Some e) => Exited (Some (SaveFailed e)) | Panicked => Crashed end.

(* app.go:43-46, 51-70: the action.  New may panic or wait (see ModelQRCode); terminal.New panics if termbox cannot be initialised.
   encode, fails, others, scale: see standard_writer; term_ok, flush_ok, events: the terminal. *)
Definition cli_action (sjis : Z -> option (list Z)) (scan : list Z -> option rgba)
    (encode : encoder -> Z * Z * canvas -> list (list Z)) (fails : nat -> option nat) (others : shape -> canvas -> call -> canvas) (scale : image -> Z -> Z -> Z -> Z)
    (term_ok flush_ok : bool) (events : list ModelTerminal.event)
    (f : flags) (text : list Init.Byte.byte) (sched : list actor) (w : world) : world * cli_end :=
  match parseGenerateContextFrom f with
  | None => (w, Crashed)
  | Some (mode, foo) =>
    match New sjis (GoString text) sched with
    | Err e => (w, Exited (Some (GenerateFailed e)))
    | Panic _ => (w, Crashed)
    | Pending => (w, Waiting)
    | Ok q =>
      if mode then
        if term_ok then
          let '(t, open, _, r) := Save (Some (qMat q)) (terminal_writer flush_ok events) (w_term w, true) in
          (mkWorld (w_fs w) t open, of_save r)
        else (w, Crashed)
      else
        let '(fs1, c) := standard_New scan (w_fs w) (foo_output foo) (cli_file_options foo) in
        match c with
        | CreateError => (mkWorld fs1 (w_term w) (w_term_open w), Exited (Some InitFailed))
        | CreatePanic => (mkWorld fs1 (w_term w) (w_term_open w), Crashed)
        | Created s o =>
          let '(s', _, _, r) := Save (Some (qMat q)) (standard_writer encode fails others scale) (s, o) in
          (mkWorld (fs_set fs1 (resolve (foo_output foo)) (o_content (s_file s'))) (w_term w) (w_term_open w), of_save r)
        end
    end
  end.

(* main.go:7-13: an error is printed (println, to standard error) and main returns; a panic ends the program with status 2 *)
Definition exit_status (e : cli_end) : option Z := match e with Exited _ => Some 0 | Crashed => Some 2 | Waiting => None end.
End FS.
