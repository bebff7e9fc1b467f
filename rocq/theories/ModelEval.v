(* Model of /repo/mask_evaluation.go and /repo/utilities.go. *)
From Coq Require Import String Ascii.
From Verif Require Import ModelBase ModelMatrix ModelKmp.

(* utilities.go:5-7 *)
Definition samestate (s1 s2 : Z) : bool := Bool.eqb (qrbool s1) (qrbool s2).

(* utilities.go:25-38 *)
Fixpoint binaryToQRValueSlice (s : string) : list Z :=
  match s with
  | EmptyString => []
  | String c rest =>
    if Ascii.eqb c "1" then QRValue_DATA_V1 :: binaryToQRValueSlice rest
    else if Ascii.eqb c "0" then QRValue_DATA_V0 :: binaryToQRValueSlice rest
    else binaryToQRValueSlice rest
  end.

Definition MaxInt32 : Z := 2147483647.

(* mask_evaluation.go:37-55 scoreLine *)
Fixpoint scoreLine_loop (arr : list Z) (lScore cnt cur : Z) : Z :=
  match arr with
  | [] => lScore
  | v :: rest =>
    if negb (samestate v cur) then scoreLine_loop rest lScore 1 v
    else
      let cnt := cnt + 1 in
      let lScore := if cnt =? 5 then lScore + 3 else if 5 <? cnt then lScore + 1 else lScore in
      scoreLine_loop rest lScore cnt cur
  end.
Definition scoreLine (arr : list Z) : Z := scoreLine_loop arr 0 0 QRValue_INIT_V0.

(* nil slices range over nothing *)
Definition or_nil (o : option (list Z)) : list Z := match o with Some l => l | None => [] end.

(* mask_evaluation.go:28-65 rule1 *)
Definition rule1 (m : Matrix) : Z :=
  if negb (mwidth m =? mheight m) then MaxInt32
  else fold_left (fun score cur => score + scoreLine (or_nil (m_row m cur)) + scoreLine (or_nil (m_col m cur)))
                 (zseq 0 (mwidth m)) 0.

(* mask_evaluation.go:71-90 rule2 *)
Definition rule2 (m : Matrix) : Z :=
  fold_left (fun score x =>
    fold_left (fun score y =>
      let s0 := fst (m_at m x y) in
      let s1 := fst (m_at m (x + 1) y) in
      let s2 := fst (m_at m x (y + 1)) in
      let s3 := fst (m_at m (x + 1) (y + 1)) in
      if (s0 =? s1) && (s2 =? s3) && (s1 =? s2) then score + 3 else score)
      (zseq 0 (mheight m - 1)) score)
    (zseq 0 (mwidth m - 1)) 0.

(* mask_evaluation.go:100-101 *)
Definition pattern1 : list Z := binaryToQRValueSlice "1011101 0000".
Definition pattern2 : list Z := binaryToQRValueSlice "0000 1011101".

Definition add_opt (a b : option Z) : option Z :=
  match a, b with Some x, Some y => Some (x + y) | _, _ => None end.
Definition mul40 (a : option Z) : option Z := match a with Some x => Some (40 * x) | None => None end.

(* mask_evaluation.go:98-128 rule3; None = kmp out of fuel (proved impossible) *)
Definition rule3 (m : Matrix) : option Z :=
  match kmpGetNext Z.eqb pattern1, kmpGetNext Z.eqb pattern2 with
  | Some next1, Some next2 =>
    if negb (mwidth m =? mheight m) then Some MaxInt32
    else fold_left (fun score i =>
           let col := or_nil (m_col m i) in
           let row := or_nil (m_row m i) in
           let score := add_opt score (mul40 (kmp Z.eqb col pattern1 next1)) in
           let score := add_opt score (mul40 (kmp Z.eqb col pattern2 next2)) in
           let score := add_opt score (mul40 (kmp Z.eqb row pattern1 next1)) in
           add_opt score (mul40 (kmp Z.eqb row pattern2 next2)))
         (zseq 0 (mwidth m)) (Some 0)
  | _, _ => None
  end.

(* mask_evaluation.go:146-157: dark modules, column by column.  col[j] is in range for square matrices;
   a missing element would panic and is counted as light here. *)
Definition count_dark (m : Matrix) : Z :=
  fold_left (fun dark i =>
    let col := or_nil (m_col m i) in
    fold_left (fun dark j => match zget col j with
                             | Some v => if samestate v QRValue_DATA_V1 then dark + 1 else dark
                             | None => dark
                             end) (zseq 0 (mwidth m)) dark)
    (zseq 0 (mwidth m)) 0.

(* mask_evaluation.go:161-171: the score from dark and total *)
Definition rule4_score (dark total : Z) : Z :=
  let ratio := Z.quot (dark * 100) total in
  let step := if Z.rem ratio 5 =? 0 then 1 else 0 in
  let previous := Z.abs ((Z.quot ratio 5 - step) * 5 - 50) in
  let next := Z.abs ((Z.quot ratio 5 + 1 - step) * 5 - 50) in
  Z.quot (Z.min previous next) 5 * 10.

(* mask_evaluation.go:139-171 rule4 *)
Definition rule4 (m : Matrix) : Z :=
  if negb (mwidth m =? mheight m) then MaxInt32
  else rule4_score (count_dark m) (mwidth m * mwidth m).

(* mask_evaluation.go:11-22 *)
Definition evaluation (m : Matrix) : option Z :=
  match rule3 m with
  | Some s3 => Some (rule1 m + rule2 m + s3 + rule4 m)
  | None => None
  end.
