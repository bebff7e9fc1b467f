(* Vocabulary for C65-C67: files, and what the command line asks for. *)
From Verif Require Import ModelBase ModelMatrix ModelStandard ModelCli ModelFs SpecStandard SpecMedium.

(* no file but the one named p has changed *)
Definition only_changes (resolve : path -> Z) (p : path) (fs fs' : fsys) : Prop := forall i, i <> resolve p -> fs' i = fs i.

(* --block: a uint8, 0 means the default of 20 *)
Definition cli_block (f : flags) : Z := if f_block f mod 256 =? 0 then 20 else f_block f mod 256.

(* n x n modules of bw pixels each behind borders l and t, sampled at offset d; dark tells the colour *)
Definition scan_pixels (dark : rgba -> bool) (d l t bw n : Z) (cv : canvas) : list (list bool) :=
  sampled n (fun x y => dark (cv (l + x * bw + d) (t + y * bw + d))).
Definition exactly_black (c : rgba) : bool := (c_r c =? 0) && (c_g c =? 0) && (c_b c =? 0) && (c_a c =? 255).
Definition darker_than_grey (c : rgba) : bool := 2 * (c_r c + c_g c + c_b c) <? 765.

(* the same size, and near pixels, counted from the top left corner *)
Definition picture_near (near : rgba -> rgba -> Prop) (i j : image) : Prop :=
  i_x1 i - i_x0 i = i_x1 j - i_x0 j /\ i_y1 i - i_y0 i = i_y1 j - i_y0 j /\
  forall x y, 0 <= x < i_x1 i - i_x0 i -> 0 <= y < i_y1 i - i_y0 i -> near (i_at i (i_x0 i + x) (i_y0 i + y)) (i_at j (i_x0 j + x) (i_y0 j + y)).

(* what is expected of an image codec on images: output starts with the format's first bytes, and decodes to a near picture *)
Definition codec (near : rgba -> rgba -> Prop) (e : encoder) (magic : list Z) (pieces : encoder -> image -> list (list Z)) (decode : list Z -> option image) : Prop :=
  forall i, encodable e (i_x1 i - i_x0 i) (i_y1 i - i_y0 i) ->
    (exists rest, concat (pieces e i) = magic ++ rest) /\ exists j, decode (concat (pieces e i)) = Some j /\ picture_near near i j.

Definition ends_with (s suffix : list Z) : Prop := exists p, s = p ++ suffix.
