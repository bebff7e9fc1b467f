(* Vocabulary for C44. *)
From Verif Require Import ModelBase ModelVersion ModelSearch.

(* row i of the version table *)
Definition row (i : Z) (v : version) : Prop := zget versions i = Some v.
(* rows that a search between low and high looks at: Go callers may pass bounds outside the table *)
Definition in_range (low high i : Z) : Prop := low <= i <= high.

(* (ver, ec) comes before, is, the entry v, in the order of the table: by version, then by level *)
Definition precedes (ver ec : Z) (v : version) : Prop := ver < Ver v \/ (ver = Ver v /\ ec < ECLevel v).
Definition is_entry (ver ec : Z) (v : version) : Prop := Ver v = ver /\ ECLevel v = ec.

(* what comes with "not found": version -1 if the bounds are refused at once, version 0 otherwise; all else is empty *)
Definition nothing (low high : Z) : version :=
  mkVersion (if (high <? low) || (160 <? low) || (high <? 0) then -1 else 0) 0 (mkCap 0 0 0 0) 0 [].

(* the search returns, the search never returns *)
Definition returns (low high ver ec : Z) (v : version) (found : bool) : Prop :=
  exists n, binarySearchVersion low high (defaultBinaryCompare ver ec) n = Returned v found.
Definition loops (low high ver ec : Z) : Prop :=
  forall n, exists l h, binarySearchVersion low high (defaultBinaryCompare ver ec) n = Searching l h.
