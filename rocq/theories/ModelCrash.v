(* The same programs as in ModelFs.v and ModelWriters.v, told as the list of system calls that change files, in order, so that one can
   ask what is in the files when the process ends (is killed, panics elsewhere, ...) between or during two of them.
   PropsCrash.v proves that carrying out the whole list gives what ModelFs.v and ModelWriters.v say.
   Simplification: the system does not lose what it has accepted (no power failure), and an open with O_TRUNC is taken as two steps. *)
From Verif Require Import ModelBase ModelMatrix ModelQRCode ModelSave ModelFile ModelCompressed ModelStandard ModelTerminal ModelWriters ModelCli ModelFs.

Inductive sysop :=
| SCreate (i : Z)                                (* O_CREATE: an empty file if there is none *)
| STrunc (i : Z)                                 (* O_TRUNC *)
| SWrite (i : Z) (at_ : nat) (data : list Z)     (* write(2) at this offset *)
| SClose (i : Z).

Definition fs_content (fs : fsys) (i : Z) : list Z := match fs i with Some c => c | None => [] end.
(* a write beyond the end leaves a hole, which reads as zeros *)
Definition padded (c : list Z) (off : nat) : list Z := c ++ repeat 0 (off - length c).
Definition sys (fs : fsys) (op : sysop) : fsys :=
  match op with
  | SCreate i => fs_set fs i (fs_content fs i)
  | STrunc i => fs_set fs i []
  | SWrite i off data => fs_set fs i (o_content (os_write (mkOs (padded (fs_content fs i) off) off) data))
  | SClose _ => fs
  end.
Definition sys_all (fs : fsys) (ops : list sysop) : fsys := fold_left sys ops fs.

(* the writes of an encoder or of writer/file, at rising offsets, up to the first that fails; as ModelWriters.sink_write_all, with
   [calls] Write calls made so far *)
Fixpoint piece_ops (fails : nat -> option nat) (i : Z) (off calls : nat) (pieces : list (list Z)) : list sysop :=
  match pieces with
  | [] => []
  | p :: r => match fails calls with
              | None => SWrite i off p :: piece_ops fails i (off + length p) (S calls) r
              | Some n => [SWrite i off (firstn (Nat.min n (length p - 1)) p)]
              end
  end.

Section Crash.
Context (resolve : path -> Z) (may_read may_create : path -> bool) (decode_png decode_jpeg : list Z -> option image).
Context (scan : list Z -> option rgba) (encode : encoder -> Z * Z * canvas -> list (list Z)) (fails : nat -> option nat)
        (others : shape -> canvas -> call -> canvas) (scale : image -> Z -> Z -> Z -> Z).

(* w, err := standard.New(filename, opts...), then q.Save(w) if err is nil: standard/writer.go:32-61, 65-103, qrcode.go:104-116.
   The encoder writes after the picture has been drawn.  (A Close in a run that panics or is refused changes no file either.) *)
Definition standard_ops (fs : fsys) (filename : path) (opts : list file_option) (m : Matrix) : list sysop :=
  if may_create filename then
    let i := resolve filename in
    [SCreate i; STrunc i] ++
    match apply_file_options resolve may_read decode_png decode_jpeg scan (fs_set fs i []) opts with
    | None => []
    | Some o =>
      match draw others scale m o with
      | None => []
      | Some (w, h, cv, o') => if encoder_refuses (o_encoder o') w h then [] else piece_ops fails i 0 0 (encode (o_encoder o') (w, h, cv))
      end ++ [SClose i]
    end
  else [].

(* compressed.New(filename, &Option{padding, blockSize}), then q.Save(w): compressed/writer.go:31-38, 44-93 *)
Definition compressed_ops (png_pieces : paletted -> list (list Z)) (padding blockSize : Z) (filename : path) (m : Matrix) : list sysop :=
  if may_create filename then
    let i := resolve filename in
    [SCreate i] ++
    match compressed_draw padding blockSize m with
    | None => []
    | Some im => if encoder_refuses PngEncoder (p_size im) (p_size im) then [] else piece_ops fails i 0 0 (png_pieces im)
    end ++ [SClose i]
  else [].

(* q.Save(file.New(f)) for an open file f, written from its end: file/writer.go:25-77 *)
Definition file_ops (i : Z) (f : file) (m : Matrix) : list sysop :=
  match output (m_bitmap m) with
  | None => []
  | Some lines => piece_ops fails i (length (f_content f)) (f_calls f) (chunks_of lines)
  end.

(* the command line program: cmd/qrcode/app.go:43-70.  The symbol is made before any file is opened *)
Definition cli_ops (sjis : Z -> option (list Z)) (f : flags) (text : list Init.Byte.byte) (sched : list actor) (fs : fsys) : list sysop :=
  match parseGenerateContextFrom f with
  | None => []
  | Some (mode, foo) =>
    match New sjis (GoString text) sched with
    | Ok q => if mode then [] else standard_ops fs (foo_output foo) (cli_file_options foo) (qMat q)
    | _ => []
    end
  end.
End Crash.
