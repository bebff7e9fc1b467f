(* Reading a symbol back from the medium a writer has put it on: a bitmap is sampled module by module. *)
From Verif Require Import ModelBase ModelTerminal ModelCompressed ModelStandard ModelQRCode SpecReader SpecAPI SpecImage SpecStandard.

(* rows of n modules each, n of them; f x y is the module at column x, row y *)
Definition sampled (n : Z) (f : Z -> Z -> bool) : list (list bool) :=
  map (fun y => map (fun x => f x y) (zseq 0 n)) (zseq 0 n).

(* a terminal: the left one of the two cells of a module *)
Definition is_black (c : cell) : bool := (t_rune c =? 0x2588) && match t_fg c with ColorBlack => true | _ => false end.
Definition scan_terminal (t : terminal) (n : Z) : list (list bool) := sampled n (fun x y => is_black (t_cell t (2 * x + 2) (y + 1))).

(* a paletted image: the middle pixel of a module *)
Definition scan_paletted (i : paletted) (padding block n : Z) : list (list bool) :=
  sampled n (fun x y => match pix i (padding + x * block + block / 2) (padding + y * block + block / 2) with Some c => c =? 1 | None => false end).

(* an RGBA picture: the middle pixel of a module has the foreground colour *)
Definition scan_canvas (cv : canvas) (o : options) (n : Z) : list (list bool) :=
  sampled n (fun x y => rgba_eqb (cv (b_left o + x * qrBlockWidth o + qrBlockWidth o / 2) (b_top o + y * qrBlockWidth o + qrBlockWidth o / 2)) (o_qrColor o)).

(* what an ISO reader makes of the bitmap is the text *)
Definition reads_back (sjis : Z -> option (list Z)) (text : GoText) (bm : list (list bool)) : Prop :=
  exists md seg, read_symbol bm = Some seg /\ carries sjis md (text_bytes text) seg.

(* sizes the image formats can take: JPEG has 16 bits for a size, PNG 32 bits and no empty pictures *)
Definition encodable (e : encoder) (w h : Z) : Prop :=
  match e with
  | JpegEncoder => w <= 65535 /\ h <= 65535
  | PngEncoder => 1 <= w <= 4294967295 /\ 1 <= h <= 4294967295
  | CustomEncoder _ => True
  end.
(* a decoder for what an image encoder writes: the size comes back, and of each pixel in it something near *)
Definition keeps (near : rgba -> rgba -> Prop) (e : encoder) (encode : encoder -> Z * Z * canvas -> list (list Z)) (decode : list Z -> option (Z * Z * canvas)) : Prop :=
  forall w h cv, encodable e w h -> exists cv', decode (concat (encode e (w, h, cv))) = Some (w, h, cv') /\
    forall px py, 0 <= px < w -> 0 <= py < h -> near (cv px py) (cv' px py).
(* PNG: the pixel itself *)
Definition lossless := keeps eq.
(* JPEG: each channel changed by at most t, the opacity lost *)
Definition within (t : Z) (c c' : rgba) : Prop := Z.abs (c_r c - c_r c') <= t /\ Z.abs (c_g c - c_g c') <= t /\ Z.abs (c_b c - c_b c') <= t.
Definition lossy (t : Z) := keeps (within t).
(* reading a picture by brightness: a module is dark if its pixel is nearer to the foreground than to the background *)
Definition brightness (c : rgba) : Z := c_r c + c_g c + c_b c.
Definition nearer_dark (o : options) (c : rgba) : bool := 2 * brightness c <? brightness (o_qrColor o) + brightness (o_bgColor o).
