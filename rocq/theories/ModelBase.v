(* Common vocabulary of the model: Go results, panics and slices. *)
From Coq Require Export ZArith List Bool.
Export ListNotations.
Open Scope Z_scope.

(* Errors a call can return.  The Go code wraps them in fmt.Errorf strings; only the cause is kept. *)
Inductive go_error :=
| ErrCharNotEncodable      (* qrcode.go:62  validateEncodingMode *)
| ErrNotSupportCharacter   (* chardet.go:11 *)
| ErrInvalidECLevel        (* version.go:40 *)
| ErrAnalyzeVersionFailed  (* version.go:41 *)
| ErrMissMatchedEncodeType (* version.go:44 *)
| ErrDataTooLong.          (* encoder.go:312 breakUpInto8bit *)

(* Panics, by the place that raises them. *)
Inductive go_panic :=
| PanicUnreachable         (* qrcode.go:37  toBytes *)
| PanicNewEncoder          (* encoder.go:113 *)
| PanicNoIndicator         (* encoder.go:92 *)
| PanicAlnumChar           (* encoder.go:404 *)
| PanicSubset              (* qrcode.go:237, 272, 316, 346 *)
| PanicMissMatchedVersion  (* version.go:269 *)
| PanicIndex               (* Go run time: index out of range *)
| PanicAlign               (* version.go:453 *)
| PanicFormat              (* version.go:189, 193 *)
| PanicModulo              (* mask.go:75 *)
| OutOfFuel.               (* model artefact: a loop did not terminate within its fuel *)

(* Outcome of a call.  [Pending]: the calling goroutine is still blocked (only used by the mask search). *)
Inductive outcome (A : Type) :=
| Ok (a : A)
| Err (e : go_error)
| Panic (p : go_panic)
| Pending.
Arguments Ok {A} a.
Arguments Err {A} e.
Arguments Panic {A} p.
Arguments Pending {A}.

Definition bind {A B} (o : outcome A) (f : A -> outcome B) : outcome B :=
  match o with Ok a => f a | Err e => Err e | Panic p => Panic p | Pending => Pending end.
Notation "'let*' x ':=' o 'in' k" := (bind o (fun x => k)) (at level 200, x name, right associativity).

(* s[i] for a Go slice: None is an index-out-of-range panic *)
Definition zget {A} (l : list A) (i : Z) : option A :=
  if i <? 0 then None else nth_error l (Z.to_nat i).

Fixpoint upd_nat {A} (l : list A) (n : nat) (a : A) : list A :=
  match l, n with
  | [], _ => []
  | _ :: t, O => a :: t
  | x :: t, S n' => x :: upd_nat t n' a
  end.

(* s[i] = a for an index already known to be in range *)
Definition zupd {A} (l : list A) (i : Z) (a : A) : list A :=
  if i <? 0 then l else upd_nat l (Z.to_nat i) a.

(* The values of the loop variable of  for i := start; i < start+n; i++ *)
Fixpoint zseq_nat (start : Z) (n : nat) : list Z :=
  match n with O => [] | S n' => start :: zseq_nat (start + 1) n' end.
Definition zseq (start n : Z) : list Z := zseq_nat start (Z.to_nat n).

Definition zlen {A} (l : list A) : Z := Z.of_nat (length l).
