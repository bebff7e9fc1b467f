(* Model of several goroutines that call Save of the same QRCode at the same time, each with its own Writer
   (/repo/qrcode.go:104-116: Save copies the struct q.mat, whose columns all the Writers then share; there is no lock).
   One step is one operation of ModelHeap.v of one Writer; the schedule is any interleaving. *)
From Verif Require Import ModelBase ModelMatrix ModelHeap.

(* what one Writer holds (wstate of ModelHeap.v without the heap, which is common to all) *)
Record hands := mkHands { hd_mats : list HMatrix; hd_slices : list nat; hd_tables : list nat; hd_cols : list nat }.
Definition with_heap (h : heap) (d : hands) : wstate := mkW h (hd_mats d) (hd_slices d) (hd_tables d) (hd_cols d).
Definition hands_of (s : wstate) : hands := mkHands (w_mats s) (w_slices s) (w_tables s) (w_cols s).

(* the objects an operation reads (false) or writes (true); allocation writes the new objects *)
Definition matrix_reads (h : heap) (m : HMatrix) : list (nat * bool) :=
  (h_mat m, false) :: match nth_error h (h_mat m) with Some (Columns cs) => map (fun a => (a, false)) cs | _ => [] end.
Definition allocated (s : wstate) (op : wop) : list (nat * bool) :=
  let n := length (w_heap s) in map (fun a => (a, true)) (seq n (length (w_heap (wstep s op)) - n)).
Definition accesses (s : wstate) (op : wop) : list (nat * bool) :=
  match op with
  | CallCopy i | CallRow i _ | CallBitmap i | CallIterate i _ =>
    match nth_error (w_mats s) i with Some m => matrix_reads (w_heap s) m ++ allocated s op | None => [] end
  | CallCol i _ => match nth_error (w_mats s) i with Some m => [(h_mat m, false)] | None => [] end
  | AssignValue n _ _ => match nth_error (w_slices s) n with Some a => [(a, true)] | None => [] end
  | AssignBit n _ _ _ => match nth_error (w_tables s) n with Some a => [(a, true)] | None => [] end
  end.

Record shared_run := mkShare {
  sr_heap : heap;
  sr_hands : list hands;
  sr_log : list (nat * (nat * bool))     (* ghost: which Writer accessed what, and how *)
}.
Definition share_step (y : shared_run) (io : nat * wop) : shared_run :=
  let '(i, op) := io in
  match nth_error (sr_hands y) i with
  | None => y
  | Some d => let s := with_heap (sr_heap y) d in
              let s' := wstep s op in
              mkShare (w_heap s') (upd_nat (sr_hands y) i (hands_of s')) (sr_log y ++ map (fun a => (i, a)) (accesses s op))
  end.
(* n Writers, all called with the same matrix *)
Definition share_start (n : nat) (m : Matrix) : shared_run :=
  mkShare (w_heap (wstart [] m)) (repeat (hands_of (wstart [] m)) n) [].
Definition share_run (n : nat) (m : Matrix) (sched : list (nat * wop)) : shared_run := fold_left share_step sched (share_start n m).
