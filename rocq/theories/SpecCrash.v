(* Vocabulary for C82: the process ends at some point. *)
From Verif Require Import ModelBase ModelStandard ModelFs ModelCrash.

Definition prefix (p l : list Z) : Prop := exists rest, l = p ++ rest.

(* carrying out ops, starting with the files fs, the process ends with the files fs': before an operation, after the last, or in the
   middle of a write, of which only the first bytes are done *)
Inductive crashed : fsys -> list sysop -> fsys -> Prop :=
| crash_now fs ops : crashed fs ops fs
| crash_writing fs i off data p ops : prefix p data -> crashed fs (SWrite i off data :: ops) (sys fs (SWrite i off p))
| crash_later fs op ops fs' : crashed (sys fs op) ops fs' -> crashed fs (op :: ops) fs'.

(* a decoder that notices when the end of a picture is missing *)
Definition notices_missing_end (e : encoder) (encode : encoder -> Z * Z * canvas -> list (list Z)) (decode : list Z -> option (Z * Z * canvas)) : Prop :=
  forall pic p rest, concat (encode e pic) = p ++ rest -> rest <> [] -> decode p = None.
