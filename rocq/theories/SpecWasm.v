(* What the option object of generateQRCode means (cmd/wasm/README.md), and base64: C52. *)
From Coq Require Import Init.Byte.
From Verif Require Import ModelBase ModelQRCode ModelStandard SpecStandard SpecAPI ModelWasm.
Open Scope string_scope.
Open Scope list_scope.
Open Scope Z_scope.

(* an object with the ten documented fields, each of the documented type *)
Record documented (fields : string -> jsval) (version mode : Z) (level bg : list Coq.Init.Byte.byte) (transparent : bool)
    (fg : list Coq.Init.Byte.byte) (width : Z) (circle : bool) (format : list Coq.Init.Byte.byte) (margin : Z) : Prop := {
  d_version : fields "encodeVersion" = JNumber version;
  d_mode : fields "encodeMode" = JNumber mode;
  d_level : fields "encodeECLevel" = JString level;
  d_bg : fields "outputBgColor" = JString bg;
  d_transparent : fields "outputBgTransparent" = JBool transparent;
  d_fg : fields "outputQrColor" = JString fg;
  d_width : fields "outputQrWidth" = JNumber width;
  d_circle : fields "outputCircleShape" = JBool circle;
  d_format : fields "outputImageEncoder" = JString format;
  d_margin : fields "outputMargin" = JNumber margin }.

(* "#rrggbb" *)
Definition hex_colour (s : list Coq.Init.Byte.byte) (c : rgba) : Prop :=
  exists r1 r2 g1 g2 b1 b2 c1 c2 c3 c4 c5 c6, map byteZ s = [35; c1; c2; c3; c4; c5; c6] /\
    hex_char r1 c1 /\ hex_char r2 c2 /\ hex_char g1 c3 /\ hex_char g2 c4 /\ hex_char b1 c5 /\ hex_char b2 c6 /\
    c = mkRGBA (16 * r1 + r2) (16 * g1 + g2) (16 * b1 + b2) 255.
(* the empty string asks for the default *)
Definition colour_text (s : list Coq.Init.Byte.byte) (default c : rgba) : Prop := (s = [] /\ c = default) \/ hex_colour s c.

Definition level_text (s : list Coq.Init.Byte.byte) (l : level) : Prop :=
  match l with L => s = str "L" | M => s = str "M" | Q => s = str "Q" \/ s = [] | H => s = str "H" end.

(* RFC 4648, section 4: the value of a digit; decoding groups of four *)
Definition b64_value (c : Z) : option Z :=
  if (65 <=? c) && (c <=? 90) then Some (c - 65)
  else if (97 <=? c) && (c <=? 122) then Some (c - 97 + 26)
  else if (48 <=? c) && (c <=? 57) then Some (c - 48 + 52)
  else if c =? 43 then Some 62 else if c =? 47 then Some 63 else None.
Fixpoint base64_decode (s : list Z) : option (list Z) :=
  match s with
  | [] => Some []
  | c1 :: c2 :: c3 :: c4 :: r =>
    if (c3 =? 61) && (c4 =? 61) then
      match r, b64_value c1, b64_value c2 with [], Some a, Some b => Some [4 * a + b / 16] | _, _, _ => None end
    else if c4 =? 61 then
      match r, b64_value c1, b64_value c2, b64_value c3 with
      | [], Some a, Some b, Some c => Some [4 * a + b / 16; b mod 16 * 16 + c / 4] | _, _, _, _ => None end
    else
      match b64_value c1, b64_value c2, b64_value c3, b64_value c4, base64_decode r with
      | Some a, Some b, Some c, Some d, Some l => Some (4 * a + b / 16 :: b mod 16 * 16 + c / 4 :: c mod 4 * 64 + d :: l)
      | _, _, _, _, _ => None
      end
  | _ => None
  end.
