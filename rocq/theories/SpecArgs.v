(* Vocabulary for C94: how the arguments of the command line program are written. *)
From Coq Require Import Init.Byte.
From Verif Require Import ModelBase ModelQRCode ModelCli ModelFs ModelExamples.
Open Scope Z_scope.

(* what a user asks for, flag by flag *)
Inductive setting := STerminal (b : bool) | SOutput (file : path) | SBlock (n : Z) | SBorders (widths : path) | SCircle (b : bool) | STransparent (b : bool) | SHalftone (file : path).
Definition apply_setting (f : flags) (s : setting) : flags :=
  let '(mkFlags t o k b c tr h) := f in
  match s with
  | STerminal x => mkFlags x o k b c tr h
  | SOutput x => mkFlags t x k b c tr h
  | SBlock x => mkFlags t o x b c tr h
  | SBorders x => mkFlags t o k x c tr h
  | SCircle x => mkFlags t o k b x tr h
  | STransparent x => mkFlags t o k b c x h
  | SHalftone x => mkFlags t o k b c tr x
  end.
(* the documented defaults: qrcode.jpg, blocks of 5 pixels, no borders *)
Definition documented_defaults : flags := mkFlags false (name "qrcode.jpg") 5 (name "0,0,0,0") false false [].

(* three flags have a long and a short name; a user keeps to one of them *)
Record habit := mkHabit { short_output : bool; short_block : bool; short_borders : bool }.
Definition flag_name (h : habit) (s : setting) : path :=
  match s with
  | STerminal _ => name "terminal" | SCircle _ => name "circle" | STransparent _ => name "transparent" | SHalftone _ => name "halftone"
  | SOutput _ => if short_output h then name "o" else name "output"
  | SBlock _ => if short_block h then name "s" else name "block"
  | SBorders _ => if short_borders h then name "b" else name "borders"
  end.
Definition bool_word (b : bool) (v : path) : Prop :=
  In v (map name (if b then ["1"; "t"; "T"; "TRUE"; "true"; "True"] else ["0"; "f"; "F"; "FALSE"; "false"; "False"])%string).
Definition value_word (parse_uint : path -> option Z) (s : setting) (v : path) : Prop :=
  match s with
  | STerminal b | SCircle b | STransparent b => bool_word b v
  | SOutput x | SBorders x | SHalftone x => v = x
  | SBlock n => parse_uint v = Some n
  end.
Definition switch (s : setting) : option bool := match s with STerminal b | SCircle b | STransparent b => Some b | _ => None end.

(* -name=value, -name value, and -name for a switch; with one minus or two *)
Definition written (parse_uint : path -> option Z) (h : habit) (s : setting) (words : list (list byte)) : Prop :=
  exists d, (d = [45] \/ d = [45; 45]) /\
    ((exists w v, words = [w] /\ map byteZ w = d ++ flag_name h s ++ 61 :: v /\ value_word parse_uint s v) \/
     (switch s = None /\ exists w v, words = [w; v] /\ map byteZ w = d ++ flag_name h s /\ value_word parse_uint s (map byteZ v)) \/
     (switch s = Some true /\ exists w, words = [w] /\ map byteZ w = d ++ flag_name h s)).

(* the text, and anything after it; after -- it may begin with a minus *)
Definition text_words (words : list (list byte)) (text : list byte) : Prop :=
  exists more, (words = text :: more /\ ~ (exists c r, map byteZ text = 45 :: c :: r)) \/ (exists w, words = w :: text :: more /\ map byteZ w = [45; 45]).
