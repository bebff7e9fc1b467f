(* Model of /repo/cmd/qrcode/app.go: how the command line becomes a text and writer options.
   The flag package (urfave/cli) is not modelled: [flags] are the values it hands over. *)
From Coq Require Import Init.Byte.
From Verif Require Import ModelBase ModelMatrix ModelStandard.

Definition comma : Z := 44.
Definition dot : Z := 46.
Definition slash : Z := 47.

(* strings.Split(s, ","): never empty *)
Fixpoint split_comma (s : list Z) : list (list Z) :=
  match s with
  | [] => [[]]
  | c :: r => if c =? comma then [] :: split_comma r
              else match split_comma r with p :: ps => (c :: p) :: ps | [] => [[c]] end
  end.

(* strconv.ParseUint(s, 10, 8); None = an error *)
Fixpoint parse_digits (s : list Z) (n : Z) : option Z :=
  match s with
  | [] => Some n
  | c :: r => if (48 <=? c) && (c <=? 57) then
                let n1 := n * 10 + (c - 48) in if 255 <? n1 then None else parse_digits r n1
              else None
  end.
Definition ParseUint8 (s : list Z) : option Z := match s with [] => None | _ => parse_digits s 0 end.

(* path/filepath.Ext on a system whose separator is '/': from the last dot of the last element, rev is the path reversed *)
Fixpoint ext_rev (rev acc : list Z) : list Z :=
  match rev with
  | [] => []
  | c :: r => if c =? slash then [] else if c =? dot then c :: acc else ext_rev r (c :: acc)
  end.
Definition Ext (path : list Z) : list Z := ext_rev (rev path) [].
(* strings.TrimPrefix(s, ".") *)
Definition trim_dot (s : list Z) : list Z := match s with c :: r => if c =? dot then r else s | [] => [] end.

(* app.go:169-217, the flags; c.Uint("block") is a uint (64 bits) *)
Record flags := mkFlags { f_terminal : bool; f_output : list Z; f_block : Z; f_borders : list Z; f_circle : bool; f_transparent : bool; f_halftone : list Z }.

(* app.go:86-94 fileOutputOptions *)
Record fileOutputOptions := mkFOO { foo_output : list Z; foo_suffix : list Z; foo_blockSize : Z; foo_borders : Z * Z * Z * Z; foo_circle : bool; foo_transparent : bool; foo_halftone : list Z }.

(* app.go:127-167 parseGenerateContextFrom; None = panic.  The mode is true for the terminal *)
Definition parseGenerateContextFrom (f : flags) : option (bool * fileOutputOptions) :=
  match split_comma (f_borders f) with
  | [a; b; c; d] =>
    match ParseUint8 a, ParseUint8 b, ParseUint8 c, ParseUint8 d with
    | Some a, Some b, Some c, Some d =>
      Some (f_terminal f, mkFOO (f_output f) (trim_dot (Ext (f_output f))) (f_block f mod 256) (a, b, c, d) (f_circle f) (f_transparent f) (f_halftone f))
    | _, _, _, _ => None
    end
  | _ => None
  end.

(* app.go:96-125 applyOptions; halftone file: load reads and decodes it *)
Definition png : list Z := [112; 110; 103].
Fixpoint eq_bytes (a b : list Z) : bool :=
  match a, b with [], [] => true | x :: a, y :: b => (x =? y) && eq_bytes a b | _, _ => false end.
Definition applyOptions (load : list Z -> option image) (foo : fileOutputOptions) : list image_option :=
  let '(a, b, c, d) := foo_borders foo in
  [WithQRWidth (foo_blockSize foo); WithBorderWidth [a; b; c; d];
   WithBuiltinImageEncoder (if eq_bytes (foo_suffix foo) png then 1 else 0)]
  ++ (if foo_circle foo then [WithCircleShape] else [])
  ++ (if foo_transparent foo then [WithBgTransparent] else [])
  ++ (match foo_halftone foo with [] => [] | file => [match load file with Some i => WithHalftoneImage (Some i) | None => WithFileError end] end).

(* app.go:48-70 generate, for the file mode: the options of the standard writer; None = panic.  scan: see parseFromHex *)
Definition cli_options (scan : list Z -> option rgba) (load : list Z -> option image) (f : flags) : option options :=
  match parseGenerateContextFrom f with
  | Some (_, foo) => NewWithWriter scan (applyOptions load foo)
  | None => None
  end.
