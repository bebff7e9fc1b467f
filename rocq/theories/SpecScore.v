(* The penalty the mask search really minimises (compare SpecPenalty): rules 2 and 3 look at kind and colour of a module. *)
From Verif Require Export SpecPenalty.
From Verif Require Import ModelMatrix.

Definition value (m : Matrix) (x y : Z) : Z := fst (m_at m x y).   (* Matrix.at *)

(* 2x2 windows with four equal values *)
Definition equal_windows (m : Matrix) (n : Z) : Z :=
  zsum_over (n - 1) (fun x => zsum_over (n - 1) (fun y =>
    let a := value m x y in
    if (value m (x + 1) y =? a) && (value m x (y + 1) =? a) && (value m (x + 1) (y + 1) =? a) then 1 else 0)).

(* how often the pattern occurs in a line of n modules, all of them data modules *)
Definition data_window (line : Z -> Z) (pat : list bool) (i : Z) : bool :=
  forallb (fun k => line (i + k) =? (if nth (Z.to_nat k) pat false then QRValue_DATA_V1 else QRValue_DATA_V0)) (upto (Z.of_nat (length pat))).
Definition data_windows (line : Z -> Z) (pat : list bool) (n : Z) : Z :=
  zsum_over (n - Z.of_nat (length pat) + 1) (fun i => if data_window line pat i then 1 else 0).
Definition data_patterns (m : Matrix) (n : Z) : Z :=
  zsum_over n (fun i =>
    data_windows (fun x => value m x i) finder_like_1 n + data_windows (fun x => value m x i) finder_like_2 n +
    data_windows (fun y => value m i y) finder_like_1 n + data_windows (fun y => value m i y) finder_like_2 n).

(* the proportion of dark modules, cut to an integer percentage *)
Definition balance_penalty (dark total : Z) : Z :=
  let percent := 100 * dark / total in
  let previous := if percent mod 5 =? 0 then percent - 5 else percent - percent mod 5 in
  10 * Z.min (Z.abs (previous - 50) / 5) (Z.abs (previous + 5 - 50) / 5).

Definition search_penalty (m : Matrix) (n : Z) : Z :=
  penalty1 (m_bitmap m) n + 3 * equal_windows m n + 40 * data_patterns m n + balance_penalty (dark_modules (m_bitmap m) n) (n * n).

(* p is the penalty of the standard *)
Definition iso_penalty (bm : bitmap) (n p : Z) : Prop :=
  exists p4, is_penalty4 (dark_modules bm n) (n * n) p4 /\ p = penalty1 bm n + penalty2 bm n + penalty3 bm n + p4.
