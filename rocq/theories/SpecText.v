(* Reading a bitmap back from text made of half-block characters (UTF-8), two rows of modules per line. *)
From Coq Require Import ZArith List Bool.
Import ListNotations.
Open Scope Z_scope.

(* one character: the colours of its upper and lower half.  U+2588 full block, U+2580 upper half, U+2584 lower half, space *)
Fixpoint read_lines (bytes : list Z) (line : list (bool * bool)) : option (list (list (bool * bool))) :=
  match bytes with
  | [] => match line with [] => Some [] | _ => None end
  | b :: r =>
    if b =? 0x0A then match read_lines r [] with Some ls => Some (line :: ls) | None => None end
    else if b =? 0x20 then read_lines r (line ++ [(false, false)])
    else match r with
         | b1 :: b2 :: r' =>
           if (b =? 0xE2) && (b1 =? 0x96) && (b2 =? 0x88) then read_lines r' (line ++ [(true, true)])
           else if (b =? 0xE2) && (b1 =? 0x96) && (b2 =? 0x80) then read_lines r' (line ++ [(true, false)])
           else if (b =? 0xE2) && (b1 =? 0x96) && (b2 =? 0x84) then read_lines r' (line ++ [(false, true)])
           else None
         | _ => None
         end
  end.

(* the bitmap of the given height *)
Definition read_half_blocks (bytes : list Z) (height : nat) : option (list (list bool)) :=
  match read_lines bytes [] with
  | Some ls => Some (firstn height (flat_map (fun l => [map fst l; map snd l]) ls))
  | None => None
  end.
