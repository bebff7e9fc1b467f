(* Vocabulary for transparent backgrounds in C47 and C89. *)
From Verif Require Import ModelBase ModelMatrix ModelStandard SpecStandard.

(* every pixel of the picture is either opaque or shows nothing at all *)
Definition no_translucency (i : image) : Prop := forall x y, good (i_at i x y) /\ (c_a (i_at i x y) = 0 \/ c_a (i_at i x y) = 255).
(* the sub-blocks of a halftone picture, if one is given, are made of whole pixels *)
Definition whole_blocks (o : options) : Prop := o_halftone o <> None -> qrBlockWidth o mod 3 = 0.
