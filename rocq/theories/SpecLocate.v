(* Reading a picture of which nothing is known: size and place of the symbol are found first.  And the margins of a picture.
   [dark x y]: whether the pixel in column x, row y is dark. *)
From Verif Require Import ModelBase ModelStandard ModelCompressed ModelQRCode SpecReader SpecAPI SpecImage SpecStandard SpecMedium SpecLogo.

(* The first row with a dark pixel is the upper edge of the finder patterns: it starts with seven dark modules and a light one, and it
   ends with seven dark modules.  Result: column and row of the symbol, pixels per module, modules per side. *)
Definition locate (dark : Z -> Z -> bool) (w h : Z) : option (Z * Z * Z * Z) :=
  match find (fun y => existsb (fun x => dark x y) (zseq 0 w)) (zseq 0 h) with
  | None => None
  | Some y0 =>
    match find (fun x => dark x y0) (zseq 0 w), find (fun x => dark x y0) (rev (zseq 0 w)) with
    | Some x0, Some x1 =>
      match find (fun x => negb (dark x y0)) (zseq x0 (w - x0)) with
      | Some e => let b := (e - x0) / 7 in Some (x0, y0, b, (x1 + 1 - x0) / b)
      | None => None
      end
    | _, _ => None
    end
  end.
(* the middle pixels of the modules (of four, the upper left one) *)
Definition read_picture (dark : Z -> Z -> bool) (w h : Z) : option (list (list bool)) :=
  match locate dark w h with
  | Some (x0, y0, b, n) => Some (sampled n (fun x y => dark (x0 + x * b + (b - 1) / 2) (y0 + y * b + (b - 1) / 2)))
  | None => None
  end.
Definition picture_shows (sjis : Z -> option (list Z)) (text : GoText) (dark : Z -> Z -> bool) (w h : Z) : Prop :=
  exists bm, read_picture dark w h = Some bm /\ reads_back sjis text bm.
(* with a logo on it: the text is recovered by error correction *)
Definition picture_recovers (sjis : Z -> option (list Z)) (text : GoText) (dark : Z -> Z -> bool) (w h : Z) : Prop :=
  exists bm, read_picture dark w h = Some bm /\ recovers_text sjis text bm.

(* a pixel is dark if it is nearer to black than to white; where a picture has transparent parts, dark pixels are opaque ones *)
Definition looks_dark (c : rgba) : bool := 2 * brightness c <? 765.
Definition visibly_dark (c : rgba) : bool := (c_a c =? 255) && looks_dark c.
Definition paletted_dark (i : paletted) (x y : Z) : bool := match pix i x y with Some c => c =? 1 | None => false end.

(* the widths of the light margins: left, top, right, bottom *)
Record margins (dark : Z -> Z -> bool) (w h left top right bottom : Z) : Prop := mkMargins {
  mg_fits : 0 <= left /\ 0 <= top /\ 0 <= right /\ 0 <= bottom /\ left + right < w /\ top + bottom < h;
  mg_light : forall x y, 0 <= x < w -> 0 <= y < h -> dark x y = true -> left <= x < w - right /\ top <= y < h - bottom;
  mg_left : exists y, 0 <= y < h /\ dark left y = true;
  mg_top : exists x, 0 <= x < w /\ dark x top = true;
  mg_right : exists y, 0 <= y < h /\ dark (w - right - 1) y = true;
  mg_bottom : exists x, 0 <= x < w /\ dark x (h - bottom - 1) = true }.
(* ISO/IEC 18004: four modules of b pixels on every side are free *)
Definition quiet_zone (dark : Z -> Z -> bool) (w h b : Z) : Prop :=
  forall x y, 0 <= x < w -> 0 <= y < h -> dark x y = true -> 4 * b <= x < w - 4 * b /\ 4 * b <= y < h - 4 * b.
