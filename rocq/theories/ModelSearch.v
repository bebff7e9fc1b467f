(* Model of binarySearchVersion and defaultBinaryCompare, /repo/version.go:204-254. *)
From Verif Require Import ModelBase ModelVersion.

(* the loop of binarySearchVersion between two tests of  low <= high;  a returned value is (hit, found) *)
Inductive search_state :=
| Searching (low high : Z)
| Returned (hit : version) (found : bool)
| SearchPanic.                                (* versions[mid] out of range *)

(* version.go:202 *)
Definition emptyVersion : version := mkVersion (-1) 0 (mkCap 0 0 0 0) 0 [].
(* the zero value of the named result `hit` *)
Definition zeroVersion : version := mkVersion 0 0 (mkCap 0 0 0 0) 0 [].

(* version.go:222-239: one iteration; Go's / truncates *)
Definition search_step (compare : version -> Z) (s : search_state) : search_state :=
  match s with
  | Searching low high =>
    if low <=? high then
      let mid := Z.quot (low + high) 2 in
      match zget versions mid with
      | None => SearchPanic
      | Some v =>
        let r := compare v in
        if r =? 0 then Returned v true
        else if 0 <? r then Searching (mid + 1) high
        else Searching low mid
      end
    else Returned zeroVersion false
  | s => s
  end.

(* version.go:208-220: the checks before the loop *)
Definition search_start (low high : Z) : search_state :=
  if (high <? low) || (VERSIONS_ITEM_COUNT <? low) || (high <? 0) then Returned emptyVersion false
  else
    let low := if low <? 0 then 0 else low in
    let high := if VERSIONS_ITEM_COUNT <=? high then zlen versions - 1 else high in
    Searching low high.

(* version.go:208-239 binarySearchVersion, after n iterations *)
Definition binarySearchVersion (low high : Z) (compare : version -> Z) (n : nat) : search_state :=
  Nat.iter n (search_step compare) (search_start low high).

(* version.go:242-254 *)
Definition defaultBinaryCompare (ver ec : Z) (cursor : version) : Z :=
  let r := ver - Ver cursor in
  if r =? 0 then ec - ECLevel cursor else r.
