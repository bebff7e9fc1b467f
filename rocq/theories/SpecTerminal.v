(* What a terminal shows: C42. *)
From Verif Require Import ModelBase ModelMatrix ModelTerminal SpecReader.

(* a cell that is filled with a colour: the full-block character in that colour on white *)
Definition solid (black : bool) : cell := mkCell 0x2588 (if black then ColorBlack else ColorWhite) ColorWhite.

(* an n x n symbol: two cells per module, a frame of one white module around it (2n+4 by n+2 cells), and in the second row
   below the frame the tip; everything else as before *)
Definition screen (n : Z) (bitmap : list (list bool)) (before : Z -> Z -> cell) (px py : Z) : cell :=
  if (2 <=? px) && (px <? 2 * n + 2) && (1 <=? py) && (py <? n + 1) then solid (module_at bitmap (px / 2 - 1) (py - 1))
  else if (0 <=? px) && (px <? 2 * n + 4) && (0 <=? py) && (py <? n + 2) then solid false
  else if (py =? n + 3) && (0 <=? px) && (px <? 22) then
    mkCell (nth (Z.to_nat px) [80;114;101;115;115;32;97;110;121;32;107;101;121;32;116;111;32;113;117;105;116;46] 0) ColorDefault ColorDefault
  else before px py.
