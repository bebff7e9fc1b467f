(* Model of several New/NewWith calls running concurrently: the package-level state they share is alignPatternCache with its
   mutex, /repo/version.go:371-443.  All other package-level variables a call reads (versions, charCountMap, formatBitSequence,
   versionBitSequence, alignPatternLocation, the padding bytes) are never assigned after their initialisation; debugging is
   off (debug.go), and DefaultEncodingOption (encoder_option.go:8-13) returns a new object for every call. *)
From Verif Require Import ModelBase ModelBinary ModelVersion ModelMatrix ModelLayout ModelQRCode.

Definition locs := list (Z * Z).
(* one access to the map alignPatternCache, by call number; a Go map may be read concurrently, but a write concurrent with
   any other access is a data race *)
Inductive access := MapRead (call : nat) | MapWrite (call : nat).

Record shared := mkShared {
  sh_cache : list (Z * locs);        (* alignPatternCache *)
  sh_lock : option nat;              (* alignPatternCacheMu: which call holds it *)
  sh_log : list access               (* ghost: all accesses so far *)
}.

Fixpoint lookup (c : list (Z * locs)) (ver : Z) : option locs :=
  match c with
  | [] => None
  | (v, l) :: r => if v =? ver then Some l else lookup r ver
  end.

(* version.go:15-17, 437-443: the package initialiser, which runs before any call.  calcAlignPatternLocs does not panic for
   these versions; the default is not used (lemma cache_filled in ProofCache.v) *)
Definition initial_cache : list (Z * locs) :=
  map (fun ver => (ver, match calcAlignPatternLocs ver with Some l => l | None => [] end)) (zseq 2 39).
Definition initial : shared := mkShared initial_cache None [].

(* Where a call is.  Everything between two of these points touches only memory of the call itself. *)
Inductive cstate :=
| CStart                                                    (* before NewWith *)
| CLookup (st : initState)                                  (* at alignPatternCache[ver], version.go:422 *)
| CLock (st : initState) (l : locs)                         (* not found and recalculated; at Lock(), version.go:428 *)
| CWrite (st : initState) (l : locs)                        (* version.go:429 *)
| CUnlock (st : initState) (l : locs)                       (* version.go:430 *)
| CFill (st : initState) (answer : option locs)             (* rest of prefillMatrix, fillDataBinary, newMask *)
| CMask (st : initState) (masks : list Matrix) (g : gstate) (* the goroutines of masking *)
| CEnd (o : outcome QRCode).                                (* returned an error or panicked before masking *)

Section WithShiftJIS.
  Variable sjis : Z -> option (list Z).
  Notation request := (GoText * list EncodeOption)%type.

  Definition set_log s a := mkShared (sh_cache s) (sh_lock s) (sh_log s ++ [a]).

  (* one step of actor a of call k *)
  Definition cstep (k : nat) (req : request) (s : shared) (c : cstate) (a : actor) : shared * cstate :=
    match c, a with
    | CStart, Main =>               (* qrcode.go:21-28, 70-82, 127-168 *)
      (s, match (let* raw := toBytes (fst req) in prepare sjis (apply_options (snd req)) raw) with
          | Ok st => if 1 <? Ver (iV st) then CLookup st else CFill st None   (* qrcode.go:384; version 1 never asks *)
          | Err e => CEnd (Err e)
          | Panic p => CEnd (Panic p)
          | Pending => CEnd Pending
          end)
    | CLookup st, Main =>           (* version.go:417-424 *)
      let ver := Ver (iV st) in
      if ver <? 2 then (s, CFill st (Some []))
      else let s := set_log s (MapRead k) in
           match lookup (sh_cache s) ver with
           | Some l => (s, CFill st (Some l))
           | None => match calcAlignPatternLocs ver with     (* version.go:427 *)
                     | Some l => (s, CLock st l)
                     | None => (s, CEnd (Panic PanicAlign))
                     end
           end
    | CLock st l, Main =>
      match sh_lock s with
      | None => (mkShared (sh_cache s) (Some k) (sh_log s), CWrite st l)
      | Some _ => (s, c)            (* blocked *)
      end
    | CWrite st l, Main =>
      (mkShared ((Ver (iV st), l) :: sh_cache s) (sh_lock s) (sh_log s ++ [MapWrite k]), CUnlock st l)
    | CUnlock st l, Main => (mkShared (sh_cache s) None (sh_log s), CFill st (Some l))
    | CFill st answer, Main =>      (* qrcode.go:384-403, 642-669 *)
      (s, match prefill_from answer (Ver (iV st)) (iMat st) with
          | None => CEnd (Panic PanicAlign)
          | Some mat =>
            let st := mkInit (iV st) (iMode st) (iData st) mat in
            match mask_start (iV st) (iData st) mat with
            | Ok (masks, g) => CMask st masks g
            | Err e => CEnd (Err e)
            | Panic p => CEnd (Panic p)
            | Pending => CEnd Pending
            end
          end)
    | CMask st masks g, a => (s, CMask st masks (step (iV st) masks g a))
    | c, _ => (s, c)
    end.

  (* what the caller of this call sees so far *)
  Definition call_outcome (c : cstate) : outcome QRCode :=
    match c with
    | CEnd o => o
    | CMask st masks g => let* m := mask_end g in Ok (mkQR (iV st) (iMode st) (iData st) m)
    | _ => Pending
    end.

  (* the whole program: the requests of all calls, a schedule of (call, actor) pairs *)
  Record sys := mkSys { y_shared : shared; y_calls : list cstate }.
  Definition sys_step (reqs : list request) (y : sys) (ka : nat * actor) : sys :=
    let '(k, a) := ka in
    match nth_error reqs k, nth_error (y_calls y) k with
    | Some req, Some c => let '(s, c) := cstep k req (y_shared y) c a in mkSys s (upd_nat (y_calls y) k c)
    | _, _ => y
    end.
  Definition sys_start (s : shared) (reqs : list request) : sys := mkSys s (map (fun _ => CStart) reqs).
  Definition sys_run (s : shared) (reqs : list request) (sched : list (nat * actor)) : sys :=
    fold_left (sys_step reqs) sched (sys_start s reqs).
  Definition outcome_of (y : sys) (k : nat) : outcome QRCode :=
    match nth_error (y_calls y) k with Some c => call_outcome c | None => Pending end.
End WithShiftJIS.
