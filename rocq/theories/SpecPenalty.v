(* Independent specification of the four penalty rules (ISO/IEC 18004, Table 11, in the formulation the
   library documents) on lines and bitmaps of colours, and of pattern counting. *)
From Verif Require Export SpecIso SpecReader.

(* pattern [pat] starts at position i of [src] *)
Definition occurs_at {A} (pat src : list A) (i : nat) : Prop := firstn (length pat) (skipn i src) = pat.

(* c is the number of (possibly overlapping) occurrences *)
Definition occurrence_count {A} (pat src : list A) (c : Z) : Prop :=
  exists ps : list nat, NoDup ps /\ (forall i, In i ps <-> occurs_at pat src i) /\ c = Z.of_nat (length ps).

Definition eq_bits (a b : list bool) : bool := if list_eq_dec bool_dec a b then true else false.
Definition count_bits (pat src : list bool) : Z :=
  Z.of_nat (length (filter (fun i => eq_bits (firstn (length pat) (skipn i src)) pat) (seq 0 (length src)))).

(* rule 1: maximal runs *)
Fixpoint runs (l : list bool) : list (bool * Z) :=
  match l with
  | [] => []
  | b :: t =>
    match runs t with
    | (c, n) :: r => if Bool.eqb b c then (c, n + 1) :: r else (b, 1) :: (c, n) :: r
    | [] => [(b, 1)]
    end
  end.
Definition run_penalty (l : list bool) : Z :=
  fold_right (fun '(_, n) acc => (if 5 <=? n then 3 + (n - 5) else 0) + acc) 0 (runs l).

(* the lines of an n x n bitmap *)
Definition row_of (bm : bitmap) (n y : Z) : list bool := map (fun x => module_at bm x y) (upto n).
Definition col_of (bm : bitmap) (n x : Z) : list bool := map (fun y => module_at bm x y) (upto n).
Definition zsum_over (n : Z) (f : Z -> Z) : Z := fold_right Z.add 0 (map f (upto n)).

Definition penalty1 (bm : bitmap) (n : Z) : Z :=
  zsum_over n (fun i => run_penalty (row_of bm n i) + run_penalty (col_of bm n i)).

(* rule 2: 2x2 windows of one colour *)
Definition penalty2 (bm : bitmap) (n : Z) : Z :=
  zsum_over (n - 1) (fun x => zsum_over (n - 1) (fun y =>
    let c := module_at bm x y in
    if Bool.eqb (module_at bm (x + 1) y) c && Bool.eqb (module_at bm x (y + 1)) c
       && Bool.eqb (module_at bm (x + 1) (y + 1)) c then 3 else 0)).

(* rule 3 *)
Definition finder_like_1 : list bool := [true; false; true; true; true; false; true; false; false; false; false].
Definition finder_like_2 : list bool := [false; false; false; false; true; false; true; true; true; false; true].
Definition penalty3 (bm : bitmap) (n : Z) : Z :=
  zsum_over n (fun i => 40 * (count_bits finder_like_1 (row_of bm n i) + count_bits finder_like_2 (row_of bm n i)
                              + count_bits finder_like_1 (col_of bm n i) + count_bits finder_like_2 (col_of bm n i))).

(* rule 4: previous and next multiples of five around the percentage of dark modules (if it is itself a
   multiple of five either reading is allowed); 10 times the smaller of |previous-50|/5 and |next-50|/5 *)
Definition dark_modules (bm : bitmap) (n : Z) : Z :=
  zsum_over n (fun x => zsum_over n (fun y => if module_at bm x y then 1 else 0)).
Definition is_penalty4 (dark total p : Z) : Prop :=
  exists previous, previous mod 5 = 0 /\
    previous * total <= 100 * dark <= (previous + 5) * total /\
    p = 10 * Z.min (Z.abs (previous - 50) / 5) (Z.abs (previous + 5 - 50) / 5).
