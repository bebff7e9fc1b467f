(* Model of /repo/writer/file/writer.go. *)
From Verif Require Import ModelBase ModelUtf8 ModelMatrix.

(* writer.go:10-15 *)
Definition upRune : Z := 9600.
Definition downRune : Z := 9604.
Definition upDownRune : Z := 9608.
Definition spaceRune : Z := 32.

(* bm[y][x]; None is an index panic *)
Definition bm_get (bm : list (list bool)) (y x : Z) : option bool :=
  match zget bm y with Some row => zget row x | None => None end.

(* writer.go:41-58: the rune for line [col], character [row] (the code's names) *)
Definition selectRune (bm : list (list bool)) (col row : Z) : option Z :=
  match bm_get bm (col * 2) row with
  | None => None
  | Some up =>
    let r := if up then upRune else spaceRune in
    if col * 2 + 1 <? zlen bm then
      match bm_get bm (col * 2 + 1) row with
      | None => None
      | Some down =>
        let r := if down && negb up then downRune else r in
        Some (if down && up then upDownRune else r)
      end
    else Some r
  end.

Fixpoint collect {A} (l : list (option A)) : option (list A) :=
  match l with
  | [] => Some []
  | None :: _ => None
  | Some a :: r => match collect r with Some r' => Some (a :: r') | None => None end
  end.

(* writer.go:34-61: output [][]string, as runes; len(bm[0]) is only evaluated when there is a line.  None = index panic *)
Definition output (bm : list (list bool)) : option (list (list Z)) :=
  let n := Z.quot (zlen bm) 2 + Z.rem (zlen bm) 2 in
  collect (map (fun col => match zget bm 0 with
                           | Some row0 => collect (map (fun row => selectRune bm col row) (zseq 0 (zlen row0)))
                           | None => None
                           end) (zseq 0 n)).

(* the os.File: what is in it, how many WriteString calls were made, and which of them fail: fails k = Some n means that
   the k-th call writes n bytes (fewer than it should) and returns an error *)
Record file := mkFile { f_content : list Z; f_calls : nat }.
Definition write_string (fails : nat -> option nat) (f : file) (s : list Z) : file * bool :=
  match fails (f_calls f) with
  | None => (mkFile (f_content f ++ s) (S (f_calls f)), true)
  | Some n => (mkFile (f_content f ++ firstn (Nat.min n (length s - 1)) s) (S (f_calls f)), false)
  end.

(* writer.go:63-74: the WriteString calls in order, stopping at the first error *)
Fixpoint write_all (fails : nat -> option nat) (f : file) (chunks : list (list Z)) : file * bool :=
  match chunks with
  | [] => (f, true)
  | c :: r => let '(f', ok) := write_string fails f c in if ok then write_all fails f' r else (f', false)
  end.
Definition chunks_of (lines : list (list Z)) : list (list Z) :=
  flat_map (fun line => map go_string_of_rune line ++ [[10]]) lines.

Inductive file_result := FileOk | FileNil | FileError | FilePanic.

(* writer.go:27-77 Write; out = None is a nil *os.File *)
Definition file_write (fails : nat -> option nat) (out : option file) (m : Matrix) : option file * file_result :=
  match out with
  | None => (None, FileNil)
  | Some f =>
    match output (m_bitmap m) with
    | None => (Some f, FilePanic)
    | Some lines => let '(f', ok) := write_all fails f (chunks_of lines) in (Some f', if ok then FileOk else FileError)
    end
  end.
