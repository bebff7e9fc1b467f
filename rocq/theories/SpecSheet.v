(* Vocabulary for C79: what happens to a picture after it has been saved, and a reader that knows nothing of it.
   A sheet is a picture of which only dark and light count. *)
From Verif Require Import ModelBase ModelQRCode SpecReader SpecAPI SpecMedium SpecOrient.

Record sheet := Sheet { sh_w : Z; sh_h : Z; sh_dark : Z -> Z -> bool }.
Definition on (s : sheet) (x y : Z) : Prop := 0 <= x < sh_w s /\ 0 <= y < sh_h s.

(* One thing done to a sheet.  A sheet pasted at (dx, dy) on another one: the dark pixels are the same, shifted, whatever the size of
   the new sheet (so light margins may be added, trimmed or replaced). *)
Inductive altered (s s' : sheet) : Prop :=
| Enlarged : forall k, 1 <= k -> sh_w s' = k * sh_w s -> sh_h s' = k * sh_h s ->
    (forall x y, on s' x y -> sh_dark s' x y = sh_dark s (x / k) (y / k)) -> altered s s'
| Pasted : forall dx dy,
    (forall x y, on s x y -> sh_dark s x y = true -> on s' (x + dx) (y + dy) /\ sh_dark s' (x + dx) (y + dy) = true) ->
    (forall x y, on s' x y -> sh_dark s' x y = true -> on s (x - dx) (y - dy) /\ sh_dark s (x - dx) (y - dy) = true) -> altered s s'
| TurnedRight : sh_w s' = sh_h s -> sh_h s' = sh_w s ->
    (forall x y, on s' x y -> sh_dark s' x y = sh_dark s y (sh_h s - 1 - x)) -> altered s s'
| Mirrored : sh_w s' = sh_w s -> sh_h s' = sh_h s ->
    (forall x y, on s' x y -> sh_dark s' x y = sh_dark s (sh_w s - 1 - x) y) -> altered s s'.
(* any number of them, in any order *)
Inductive handled : sheet -> sheet -> Prop :=
| Untouched : forall s, handled s s
| Handled : forall s s' s'', handled s s' -> altered s' s'' -> handled s s''.

(* The reader: columns and rows of the outermost dark pixels; the distances from the left edge at which some row changes its colour
   are multiples of the module size, so it is their greatest common divisor. *)
Definition box (s : sheet) : option (Z * Z * Z * Z) :=
  let column x := existsb (fun y => sh_dark s x y) (zseq 0 (sh_h s)) in
  let row y := existsb (fun x => sh_dark s x y) (zseq 0 (sh_w s)) in
  match find column (zseq 0 (sh_w s)), find column (rev (zseq 0 (sh_w s))), find row (zseq 0 (sh_h s)), find row (rev (zseq 0 (sh_h s))) with
  | Some x0, Some x1, Some y0, Some y1 => Some (x0, x1, y0, y1)
  | _, _, _, _ => None
  end.
Definition module_size (s : sheet) (x0 x1 y0 y1 : Z) : Z :=
  fold_right Z.gcd 0 (flat_map (fun y => map (fun x => x - x0) (filter (fun x => xorb (sh_dark s (x - 1) y) (sh_dark s x y)) (zseq (x0 + 1) (x1 - x0)))) (zseq y0 (y1 + 1 - y0))).
Definition read_sheet (s : sheet) : option segment :=
  match box s with
  | Some (x0, x1, y0, y1) =>
    let b := module_size s x0 x1 y0 y1 in
    read_any_way (sampled ((x1 + 1 - x0) / b) (fun x y => sh_dark s (x0 + x * b + (b - 1) / 2) (y0 + y * b + (b - 1) / 2)))
  | None => None
  end.
Definition sheet_shows (sjis : Z -> option (list Z)) (text : GoText) (s : sheet) : Prop :=
  exists md seg, read_sheet s = Some seg /\ carries sjis md (text_bytes text) seg.
