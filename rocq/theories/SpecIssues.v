(* Vocabulary for C93: what the programs of /repo/.issues leave behind. *)
From Verif Require Import ModelBase ModelCompressed ModelFs ModelExamples SpecReader SpecMedium.
Open Scope Z_scope.

(* The file p contains a paletted picture of n x n modules of bw pixels, with borders of b pixels, which, sampled in the middle of the
   modules, is what [reads] asks for. *)
Definition holds_paletted (resolve : path -> Z) (png_decode : list Z -> option paletted) (fs : fsys) (p : path) (n bw b : Z) (reads : list (list bool) -> Prop) : Prop :=
  exists content i, fs (resolve p) = Some content /\ png_decode content = Some i /\ p_size i = n * bw + 2 * b /\ reads (scan_paletted i b bw n).
(* a decoder for what the encoder writes, which stops at its end (a PNG file ends with its IEND chunk) *)
Definition png_codec (png_pieces : paletted -> list (list Z)) (png_decode : list Z -> option paletted) : Prop :=
  forall i rest, png_decode (concat (png_pieces i) ++ rest) = Some i.
