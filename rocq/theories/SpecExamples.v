(* Vocabulary for C90: what the example programs leave behind. *)
From Verif Require Import ModelBase ModelStandard ModelFs ModelExamples SpecReader SpecMedium SpecStandard SpecFs.
Open Scope Z_scope.

(* The file p contains a picture of n x n modules of bw pixels each, with borders of b pixels on every side, which, sampled at offset d
   in the modules, is what [reads] asks for. *)
Definition holds_picture (resolve : path -> Z) (decode : list Z -> option (Z * Z * canvas)) (fs : fsys) (p : path)
    (n bw b d : Z) (dark : rgba -> bool) (reads : list (list bool) -> Prop) : Prop :=
  exists content cv, fs (resolve p) = Some content /\ decode content = Some (n * bw + 2 * b, n * bw + 2 * b, cv) /\
    reads (scan_pixels dark d b b bw n cv).

(* readers of single pixels, for pictures that are not simply dark on light *)
Definition covered (c : rgba) : bool := negb (c_a c =? 0).       (* anything on a transparent background *)
Definition rather_blue (c : rgba) : bool := 117 <? c_b c.         (* sky blue on lawn green *)

(* A run that ends well, changes no file but p, and leaves such a picture there. *)
Definition leaves_picture (resolve : path -> Z) (decode : list Z -> option (Z * Z * canvas)) (run : fsys -> fsys * ending) (fs : fsys) (p : path)
    (n bw b d : Z) (dark : rgba -> bool) (reads : list (list bool) -> Prop) : Prop :=
  exists fs', run fs = (fs', Finished) /\ only_changes resolve p fs fs' /\ holds_picture resolve decode fs' p n bw b d dark reads.

(* image/jpeg.Decode: pictures start at the origin and are not empty *)
Definition proper_decoder (decode : list Z -> option image) : Prop :=
  forall c i, decode c = Some i -> i_x0 i = 0 /\ i_y0 i = 0 /\ 0 < i_x1 i /\ 0 < i_y1 i.

(* the files example.go writes, in this order *)
Definition example_files : list path :=
  [name "../assets/example/qrcode_with_qrwidth.png"; name "../assets/example/qrcode_with_circleshape.png"; name "../assets/example/qrcode_with_borderwidth.png";
   name "../assets/example/qrcode_with_bgtransparent.png"; name "../assets/example/qrcode_with_bgfgcolor.png"; name "../assets/example/qrcode_with_fggradient.png";
   name "../assets/example/qrcode_with_halftone.png"; name "../assets/example/qrcode_with_logo.png"].
