(* Model of QRCode.Save, /repo/qrcode.go:104-116 and /repo/writer.go. *)
From Verif Require Import ModelBase ModelMatrix.

(* how a method call of a user-supplied Writer ends; E is the type of error values *)
Inductive call_end (E : Type) := Returned (err : option E) | Panicked.
Arguments Returned {E} err.
Arguments Panicked {E}.

(* writer.go:6-14: any implementation, with its own state S *)
Record Writer (E S : Type) := mkWriter {
  wr_write : S -> Matrix -> S * call_end E;
  wr_close : S -> S * call_end E
}.
Arguments mkWriter {E S}.
Arguments wr_write {E S}.
Arguments wr_close {E S}.

(* what happens during Save, in order *)
Inductive event := EvWrite (m : Matrix) | EvClose | EvLogWarning.

(* qrcode.go:104-116 for w != nil.  mat is q.mat; None is the nil pointer of a QRCode value that New did not make:
   *q.mat panics then, after the deferred call has been registered.
   The deferred function (109-113) runs on return and on panic; a panic in Close replaces the outcome. *)
Definition Save {E S} (mat : option Matrix) (w : Writer E S) (s : S) : S * list event * call_end E :=
  let '(s1, ev1, r1) :=
    match mat with
    | Some m => let '(s1, r) := wr_write w s m in (s1, [EvWrite m], r)
    | None => (s, [], Panicked)
    end in
  let '(s2, c) := wr_close w s1 in
  match c with
  | Returned None => (s2, ev1 ++ [EvClose], r1)
  | Returned (Some _) => (s2, ev1 ++ [EvClose; EvLogWarning], r1)
  | Panicked => (s2, ev1 ++ [EvClose], Panicked)
  end.

(* writer.go:18-26 *)
Definition nonWriter (E : Type) : Writer E unit := mkWriter (fun s _ => (s, Returned None)) (fun s => (s, Returned None)).

(* qrcode.go:105-107: Save(nil); the events are those of the built-in nonWriter, no user code runs *)
Definition SaveNil {E} (mat : option Matrix) : call_end E := snd (Save mat (nonWriter E) tt).
