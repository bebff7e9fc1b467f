(* Several goroutines call Save with the same standard Writer: /repo/qrcode.go:104-116, /repo/writer/standard/writer.go:65-103.
   A step of a goroutine: it draws its picture and encodes it (on a canvas of its own; of the Writer it uses the options), or makes one
   Write call on the Writer's file, or closes the file.  An os.File has its own lock, so that a Write call is one step.
   Simplification: drawing is one step.  (With WithBgTransparent drawing also assigns to the options, image_option.go:75-79: when two
   goroutines draw at once that is a data race, which this model does not show: see ModelPaint.v, C89.) *)
From Verif Require Import ModelBase ModelMatrix ModelSave ModelCompressed ModelStandard ModelWriters.

Inductive phase := Drawing (m : Matrix) | Writing (pieces : list (list Z)) | Closing (r : call_end werror) | Ended (r : call_end werror).
Record shared := mkShared { sh_sink : sink; sh_options : options; sh_gos : list phase }.

Definition set_phase (gos : list phase) (i : nat) (p : phase) : list phase := firstn i gos ++ p :: skipn (S i) gos.

Section Shared.
Context (encode : encoder -> Z * Z * canvas -> list (list Z)) (fails : nat -> option nat)
        (others : shape -> canvas -> call -> canvas) (scale : image -> Z -> Z -> Z -> Z).

Definition shared_step (st : shared) (i : nat) : shared :=
  match nth_error (sh_gos st) i with
  | Some (Drawing m) =>                                    (* standard/writer.go:83-103 drawTo, up to the encoder *)
    match draw others scale m (sh_options st) with
    | None => mkShared (sh_sink st) (sh_options st) (set_phase (sh_gos st) i (Closing Panicked))
    | Some (w, h, cv, o') =>
      mkShared (sh_sink st) o' (set_phase (sh_gos st) i
        (if encoder_refuses (o_encoder o') w h then Closing (Returned (Some ErrEncode)) else Writing (encode (o_encoder o') (w, h, cv))))
    end
  | Some (Writing []) => mkShared (sh_sink st) (sh_options st) (set_phase (sh_gos st) i (Closing (Returned None)))
  | Some (Writing (p :: r)) =>                             (* one Write call of the encoder *)
    let '(s', e) := sink_write fails (sh_sink st) p in
    mkShared s' (sh_options st) (set_phase (sh_gos st) i (match e with None => Writing r | Some e => Closing (Returned (Some e)) end))
  | Some (Closing r) =>                                    (* qrcode.go:109-113, standard/writer.go:69-79: errors of Close are not returned *)
    mkShared (fst (sink_close (sh_sink st))) (sh_options st) (set_phase (sh_gos st) i (Ended r))
  | Some (Ended _) | None => st
  end.
Definition shared_run (st : shared) (sched : list nat) : shared := fold_left shared_step sched st.
Definition shared_start (s : sink) (o : options) (ms : list Matrix) : shared := mkShared s o (map Drawing ms).
End Shared.
