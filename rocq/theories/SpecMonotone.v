(* Vocabulary for C73: stronger error correction and longer texts. *)
From Verif Require Import ModelBase ModelUtf8 SpecIso.

Definition level_rank (l : level) : Z := match l with L => 0 | M => 1 | Q => 2 | H => 3 end.

(* text' is text with more characters appended (the appended bytes do not complete a character the text ends in the middle of) *)
Definition appended (text text' : list Z) : Prop :=
  exists more, text' = text ++ more /\ go_runes text' = go_runes text ++ go_runes more.
