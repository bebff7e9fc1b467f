(* Vocabulary for C62: what a logo in the middle of a symbol may hide. *)
From Verif Require Import ModelBase ModelQRCode SpecIso SpecReader SpecSegment SpecRecovery SpecAPI.

(* The middle fifth of n modules, and a fifth of z modules more on either side: the modules of which some part lies strictly
   between (2n - z)/5 and (3n + z)/5. *)
Definition middle (n z x : Z) : Prop := 2 * n - z < 5 * (x + 1) /\ 5 * x < 3 * n + z.

(* two bitmaps of n x n modules that agree on all modules outside the middle *)
Definition agree_outside (n z : Z) (bm bm' : bitmap) : Prop :=
  forall x y, 0 <= x < n -> 0 <= y < n -> ~ (middle n z x /\ middle n z y) -> module_at bm x y = module_at bm' x y.

(* the levels at which the middle may be lost: all but Low; at Medium, no more than the fifth; at Quart and Highest, borders of up
   to two modules may count as part of the symbol *)
Definition may_lose (l : level) (z : Z) : Prop := match l with L => False | M => z = 0 | Q | H => 0 <= z <= 2 end.

(* a reader with error correction finds the text and nothing else *)
Definition recovers_text (sjis : Z -> option (list Z)) (text : GoText) (bm : bitmap) : Prop :=
  (exists seg, recovers bm seg) /\ exists md, forall seg, recovers bm seg -> carries sjis md (text_bytes text) seg.
