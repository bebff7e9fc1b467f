(* Model of /repo/writer/terminal/writer.go. *)
From Verif Require Import ModelBase ModelMatrix.

(* termbox.Attribute values used by the writer *)
Inductive attribute := ColorDefault | ColorBlack | ColorWhite.
(* one character cell: rune, foreground, background *)
Record cell := mkCell { t_rune : Z; t_fg : attribute; t_bg : attribute }.
Definition fullBlock : Z := 0x2588.

(* a call termbox.SetCell(x, y, ch, fg, bg) *)
Definition setcell := (Z * Z * cell)%type.

(* writer.go:43-49 drawBlock *)
Definition drawBlock (x y padding : Z) (fg bg : attribute) : list setcell :=
  let x1 := x * 2 + 2 * padding in
  let y1 := y + padding in
  let x2 := x1 + 1 in
  let y2 := y1 in
  [(x1, y1, mkCell fullBlock fg bg); (x2, y2, mkCell fullBlock fg bg)].

(* writer.go:33-39 preDraw *)
Definition preDraw (width height padding : Z) (bg : attribute) : list setcell :=
  flat_map (fun i => flat_map (fun j => drawBlock i j 0 bg bg) (zseq 0 (height + 2 * padding))) (zseq 0 (width + 2 * padding)).

(* writer.go:80: "Press any key to quit." *)
Definition tip : list Z := [80;114;101;115;115;32;97;110;121;32;107;101;121;32;116;111;32;113;117;105;116;46].
(* writer.go:79-90 printTip: every rune of the tip is ASCII, of width 1 *)
Definition printTip (y : Z) : list setcell :=
  fst (fold_left (fun '(calls, x) r => (calls ++ [(x, y, mkCell r ColorDefault ColorDefault)], x + 1)) tip ([], 0)).

(* writer.go:51-76: the SetCell calls of Write, in order *)
Definition write_calls (m : Matrix) : list setcell :=
  let padding := 1 in
  let bg := ColorWhite in
  let '(calls, curRow) :=
    m_iter IterDirection_ROW m
      (fun '(calls, _) x y v =>
         let fg := if qrbool v then ColorBlack else ColorWhite in
         (calls ++ drawBlock x y padding fg bg, y))
      (preDraw (mwidth m) (mheight m) padding bg, 0) in
  calls ++ printTip (curRow + 2 * padding + 1 + 1).

(* termbox's cell buffer: its size, and its contents; SetCell outside the buffer does nothing (termbox-go api.go) *)
Record terminal := mkTerm { t_width : Z; t_height : Z; t_cell : Z -> Z -> cell }.
Definition SetCell (t : terminal) (c : setcell) : terminal :=
  let '(x, y, c) := c in
  if (x <? 0) || (t_width t <=? x) || (y <? 0) || (t_height t <=? y) then t
  else mkTerm (t_width t) (t_height t) (fun px py => if (px =? x) && (py =? y) then c else t_cell t px py).

(* writer.go:92-106 hold: Flush, then wait for a key; events are what PollEvent returns, in order *)
Inductive event := EventKey | EventOther.
Inductive hold_end := HoldReturned (polled : nat) | HoldFlushError | HoldWaiting.
Fixpoint hold_loop (events : list event) (polled : nat) : hold_end :=
  match events with
  | [] => HoldWaiting
  | EventKey :: _ => HoldReturned (S polled)
  | EventOther :: r => hold_loop r (S polled)
  end.
Definition hold (flush_ok : bool) (events : list event) : hold_end :=
  if flush_ok then hold_loop events 0 else HoldFlushError.

(* writer.go:51-76 Write: the buffer when Flush is called, and how the call ends *)
Definition terminal_write (t : terminal) (m : Matrix) (flush_ok : bool) (events : list event) : terminal * hold_end :=
  (fold_left SetCell (write_calls m) t, hold flush_ok events).
