(* Vocabulary for C74: symbols seen turned or mirrored.  A reader looks for the three finder patterns, and reads the format
   information to notice that it looks at a mirror image. *)
From Verif Require Export SpecReader.

Definition grid (n : Z) (f : Z -> Z -> bool) : bitmap := map (fun y => map (fun x => f x y) (upto n)) (upto n).
Definition size (bm : bitmap) : Z := Z.of_nat (length bm).

(* a quarter turn clockwise; a mirror image (about the diagonal) *)
Definition turned (bm : bitmap) : bitmap := grid (size bm) (fun x y => module_at bm y (size bm - 1 - x)).
Definition mirrored (bm : bitmap) : bitmap := grid (size bm) (fun x y => module_at bm y x).
Inductive motion := Turn | Mirror.
Definition move (m : motion) (bm : bitmap) : bitmap := match m with Turn => turned bm | Mirror => mirrored bm end.
Definition moved (ms : list motion) (bm : bitmap) : bitmap := fold_right move bm ms.

(* a finder pattern (ring, gap, 3x3 square) with its centre at (cx, cy) *)
Definition finder_at (bm : bitmap) (cx cy : Z) : bool :=
  forallb (fun dy => forallb (fun dx => Bool.eqb (module_at bm (cx + dx) (cy + dy)) (negb (Z.max (Z.abs dx) (Z.abs dy) =? 2))) [-3; -2; -1; 0; 1; 2; 3]) [-3; -2; -1; 0; 1; 2; 3].
Definition upright (bm : bitmap) : bool := finder_at bm 3 3 && finder_at bm (size bm - 4) 3 && finder_at bm 3 (size bm - 4).
Definition looks_right (bm : bitmap) : bool := upright bm && match read_format bm with Some _ => true | None => false end.

(* the eight ways to look at a symbol; the reader takes the first that looks right *)
Definition ways (bm : bitmap) : list bitmap :=
  let m := mirrored bm in
  [bm; turned bm; turned (turned bm); turned (turned (turned bm)); m; turned m; turned (turned m); turned (turned (turned m))].
Definition read_any_way (bm : bitmap) : option segment :=
  match find looks_right (ways bm) with Some b => read_symbol b | None => None end.
