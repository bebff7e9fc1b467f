(* Theorems about the terminal writer: property C42. *)
From Coq Require Import Lia.
From Verif Require Import ModelBase ModelMatrix ModelTerminal.
From Verif Require Import SpecReader SpecMatrix SpecTerminal ProofViews ProofTerminal.

(* whatever the terminal's size, every cell it has shows what [screen] says: the symbol, its frame, the tip, or what was
   there before; the size does not change *)
Theorem C42_screen :
  forall n m t flush_ok events, square n m -> 1 <= n ->
  let t' := fst (terminal_write t m flush_ok events) in
  t_width t' = t_width t /\ t_height t' = t_height t /\
  forall px py, 0 <= px < t_width t -> 0 <= py < t_height t -> t_cell t' px py = screen n (m_bitmap m) (t_cell t) px py.
Proof.
  intros n m t flush_ok events (Wf & EW & EH) Hn. cbn [terminal_write fst]. destruct (fold_size (write_calls m) t) as [A B].
  split; [exact A|]. split; [exact B|]. intros px py X Y. apply screen_spec; auto. split; assumption.
Qed.

(* in a terminal of at least 2n+4 by n+2 cells: the modules can be read back from the two cells each of them has *)
Theorem C42_modules_readable :
  forall n m t flush_ok events, square n m -> 1 <= n -> 2 * n + 4 <= t_width t -> n + 2 <= t_height t ->
  let t' := fst (terminal_write t m flush_ok events) in
  forall x y, 0 <= x < n -> 0 <= y < n -> forall k, k = 0 \/ k = 1 ->
  t_cell t' (2 * x + 2 + k) (y + 1) = solid (module_at (m_bitmap m) x y).
Proof.
  intros n m t flush_ok events S Hn TW TH t' x y X Y k K. subst t'.
  destruct (C42_screen n m t flush_ok events S Hn) as (_ & _ & P). rewrite P by lia. unfold screen.
  destruct (Z.leb_spec 2 (2 * x + 2 + k)); [|lia]. destruct (Z.ltb_spec (2 * x + 2 + k) (2 * n + 2)); [|lia].
  destruct (Z.leb_spec 1 (y + 1)); [|lia]. destruct (Z.ltb_spec (y + 1) (n + 1)); [|lia]. cbn [andb].
  replace ((2 * x + 2 + k) / 2 - 1) with x; [replace (y + 1 - 1) with y by lia; reflexivity|].
  replace (2 * x + 2 + k) with ((x + 1) * 2 + k) by lia. rewrite Z.div_add_l by lia.
  destruct K as [-> | ->]; [change (0 / 2) with 0|change (1 / 2) with 0]; lia.
Qed.

(* Write returns as soon as the first key event has been polled and not before; it reports an error exactly when the
   flush fails; without a key event it keeps waiting *)
Theorem C42_waits_for_a_key :
  forall t m flush_ok events,
  let r := snd (terminal_write t m flush_ok events) in
  (flush_ok = false -> r = HoldFlushError) /\
  (flush_ok = true -> r <> HoldFlushError /\
    (forall pre post, events = pre ++ EventKey :: post -> ~ In EventKey pre -> r = HoldReturned (S (length pre))) /\
    (~ In EventKey events -> r = HoldWaiting)).
Proof.
  intros t m flush_ok events. cbn [terminal_write snd]. split; intros ->; [reflexivity|]. cbn [hold]. split; [|split].
  - assert (G : forall k, hold_loop events k <> HoldFlushError); [|apply G].
    induction events as [|[] r IH]; intros k; cbn [hold_loop]; try discriminate. apply IH.
  - intros pre post -> N. rewrite hold_all by exact N. f_equal. lia.
  - apply hold_none.
Qed.

(* a 3 x 3 symbol with one dark module in a 12 x 7 terminal: rows 0..4 hold frame and modules, row 6 the tip's beginning *)
Example C42_example :
  let m := m_set (newMatrix 3 3) 1 2 QRValue_DATA_V1 in
  let blank := mkCell 32 ColorDefault ColorDefault in
  let t' := fst (terminal_write (mkTerm 12 7 (fun _ _ => blank)) m true [EventOther; EventKey; EventKey]) in
  square 3 m /\
  map (fun px => t_fg (t_cell t' px 3)) (zseq 0 12) =
    [ColorWhite; ColorWhite; ColorWhite; ColorWhite; ColorBlack; ColorBlack; ColorWhite; ColorWhite; ColorWhite; ColorWhite; ColorDefault; ColorDefault] /\
  map (fun px => t_rune (t_cell t' px 6)) (zseq 0 12) = [80;114;101;115;115;32;97;110;121;32;107;101] /\
  t_cell t' 0 5 = blank /\
  snd (terminal_write (mkTerm 12 7 (fun _ _ => blank)) m true [EventOther; EventKey; EventKey]) = HoldReturned 2.
Proof. cbv zeta. split; [apply square_set, square_new; lia|]. repeat split; vm_compute; reflexivity. Qed.

Print Assumptions C42_screen.
Print Assumptions C42_modules_readable.
Print Assumptions C42_waits_for_a_key.
