(* The four Writer implementations of the repository put behind the Writer interface (/repo/writer.go:6-14), for QRCode.Save:
   /repo/writer/file/writer.go:25, /repo/writer/terminal/writer.go:107-111, /repo/writer/compressed/writer.go:30-45, 87-93,
   /repo/writer/standard/writer.go:30-75, 83-103. *)
From Verif Require Import ModelBase ModelMatrix ModelSave ModelFile ModelTerminal ModelCompressed ModelStandard.

(* error values: os.ErrClosed (possibly wrapped), errors of the underlying writes, of Flush, the "nil file" error, and refusals of the image encoder *)
Inductive werror := ErrClosed | ErrWrite | ErrFlush | ErrNilFile | ErrEncode.

(* ---- writer/file ---- *)
(* file/writer.go:25 Close returns nil and does nothing; :27-77 Write *)
Definition fileWriter (fails : nat -> option nat) : Writer werror (option file) :=
  mkWriter (fun s m => let '(s', r) := file_write fails s m in
                       (s', match r with
                            | FileOk => Returned None | FileNil => Returned (Some ErrNilFile)
                            | FileError => Returned (Some ErrWrite) | FilePanic => Panicked
                            end))
           (fun s => (s, Returned None)).

(* ---- writer/terminal ---- *)
(* the state: the screen, and whether termbox is open.  terminal/writer.go:51-76 Write, :107-111 Close: termbox.Close() and nil.
   Simplification: a Write that waits for ever (no key event in [events]) is not a state of this model: [events] must
   contain a key event, see hold. *)
Definition terminal_writer (flush_ok : bool) (events : list ModelTerminal.event) : Writer werror (terminal * bool) :=
  mkWriter (fun '(t, open) m => let '(t', r) := terminal_write t m flush_ok events in
                                ((t', open), Returned (match r with HoldReturned _ => None | _ => Some ErrFlush end)))
           (fun '(t, _) => ((t, false), Returned None)).

(* ---- files under an image encoder ---- *)
(* an os.File: see ModelCompressed; [s_calls] counts the Write calls made so far.  fails k = Some n: the k-th Write call
   writes only n bytes and returns an error *)
Record sink := mkSink { s_file : osfile; s_open : bool; s_calls : nat }.
Definition sink_write (fails : nat -> option nat) (s : sink) (data : list Z) : sink * option werror :=
  if s_open s then
    match fails (s_calls s) with
    | None => (mkSink (os_write (s_file s) data) true (S (s_calls s)), None)
    | Some n => (mkSink (os_write (s_file s) (firstn (Nat.min n (length data - 1)) data)) true (S (s_calls s)), Some ErrWrite)
    end
  else (s, Some ErrClosed).
(* png.Encode, jpeg.Encode: the pieces in order, up to the first error, which is returned *)
Fixpoint sink_write_all (fails : nat -> option nat) (s : sink) (pieces : list (list Z)) : sink * option werror :=
  match pieces with
  | [] => (s, None)
  | p :: r => match sink_write fails s p with (s', None) => sink_write_all fails s' r | e => e end
  end.
(* os.File.Close *)
Definition sink_close (s : sink) : sink * option werror :=
  if s_open s then (mkSink (s_file s) false (s_calls s), None) else (s, Some ErrClosed).

(* ---- writer/compressed ---- *)
(* compressed/writer.go:31-38 New: the state it starts in *)
Definition compressed_new (old : option (list Z)) : sink := mkSink (compressed_open old) true 0.
(* :44-89 Write, :91-93 Close; png_pieces: what the PNG encoder writes for an image, in pieces *)
Definition compressed_writer (png_pieces : paletted -> list (list Z)) (fails : nat -> option nat) (padding blockSize : Z) : Writer werror sink :=
  mkWriter (fun s m => match compressed_draw padding blockSize m with
                       | None => (s, Panicked)
                       | Some i => if encoder_refuses PngEncoder (p_size i) (p_size i) then (s, Returned (Some ErrEncode))
                                   else let '(s', e) := sink_write_all fails s (png_pieces i) in (s', Returned e)
                       end)
           (fun s => let '(s', e) := sink_close s in (s', Returned e)).

(* ---- writer/standard ---- *)
(* standard/writer.go:32-45 New.  The branch at :33-37 is never taken: os.Stat does not return an error for which os.IsExist holds. *)
Definition standard_new (old : option (list Z)) : sink := mkSink (standard_open old) true 0.
(* :65-67 Write, :83-103 drawTo, :69-79 Close, which does not report os.ErrClosed.  The state contains the options, which
   drawing may change (w.option is a pointer); encode: what the chosen image encoder writes for an image *)
Definition standard_writer (encode : encoder -> Z * Z * canvas -> list (list Z)) (fails : nat -> option nat)
    (others : shape -> canvas -> call -> canvas) (scale : image -> Z -> Z -> Z -> Z) : Writer werror (sink * options) :=
  mkWriter (fun '(s, o) m =>
              match draw others scale m o with
              | None => ((s, o), Panicked)
              | Some (w, h, cv, o') =>
                if encoder_refuses (o_encoder o') w h then ((s, o'), Returned (Some ErrEncode))
                else let '(s', e) := sink_write_all fails s (encode (o_encoder o') (w, h, cv)) in ((s', o'), Returned e)
              end)
           (fun '(s, o) => let '(s', e) := sink_close s in
                           ((s', o), Returned (match e with Some ErrClosed => None | e => e end))).
