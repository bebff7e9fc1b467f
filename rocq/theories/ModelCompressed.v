(* Model of /repo/writer/compressed/writer.go, and of the way writer/compressed and writer/standard open their files. *)
From Verif Require Import ModelBase ModelMatrix.

(* image.NewPaletted(image.Rect(0, 0, w, h), ...): image.Rect swaps the corners of a negative rectangle.
   p_min is Rect.Min.X = Rect.Min.Y (the images are square), p_size the width, which is also the stride.
   Palette: index 0 is the background, 1 the foreground (Palette.Index of two exact members). *)
Record paletted := mkImg { p_min : Z; p_size : Z; p_pix : list Z }.
Definition NewPaletted (width : Z) : paletted :=
  mkImg (Z.min 0 width) (Z.abs width) (repeat 0 (Z.to_nat (Z.abs width * Z.abs width))).

(* image.(Paletted).PixOffset *)
Definition PixOffset (i : paletted) (x y : Z) : Z := (y - p_min i) * p_size i + (x - p_min i).

(* img.Pix[pos] = color; None is an index panic *)
Definition set_pix (i : paletted) (x y c : Z) : option paletted :=
  let pos := PixOffset i x y in
  if (0 <=? pos) && (pos <? zlen (p_pix i)) then Some (mkImg (p_min i) (p_size i) (zupd (p_pix i) pos c)) else None.

(* writer.go:60-67 rectangle(x1, y1, x2, y2, img, color) *)
Definition rectangle (x1 y1 x2 y2 : Z) (i : paletted) (c : Z) : option paletted :=
  fold_left (fun o x => fold_left (fun o y => match o with Some i => set_pix i x y c | None => None end)
                                  (zseq y1 (y2 - y1)) o)
            (zseq x1 (x2 - x1)) (Some i).

(* writer.go:48-89: the image handed to the PNG encoder; None = panic *)
Definition compressed_draw (padding blockWidth : Z) (m : Matrix) : option paletted :=
  let width := mwidth m * blockWidth + 2 * padding in
  let img := NewPaletted width in
  match rectangle 0 0 width width img 0 with
  | None => None
  | Some img =>
    m_iter IterDirection_COLUMN m
      (fun o x y v =>
         match o with
         | None => None
         | Some i =>
           let sx := x * blockWidth + padding in
           let sy := y * blockWidth + padding in
           let es := (x + 1) * blockWidth + padding in
           let ey := (y + 1) * blockWidth + padding in
           if qrbool v then rectangle sx sy es ey i 1 else Some i
         end) (Some img)
  end.

(* ---- files ---- *)
(* an open os.File: contents and offset *)
Record osfile := mkOs { o_content : list Z; o_pos : nat }.

(* write(2) on a regular file: overwrite at the offset, extending the file if needed *)
Definition os_write (f : osfile) (data : list Z) : osfile :=
  mkOs (firstn (o_pos f) (o_content f) ++ data ++ skipn (o_pos f + length data) (o_content f)) (o_pos f + length data).

(* compressed/writer.go:32: os.O_RDWR|os.O_CREATE; old = None: there was no file *)
Definition compressed_open (old : option (list Z)) : osfile := mkOs (match old with Some c => c | None => [] end) 0.
(* standard/writer.go:39: os.O_CREATE|os.O_WRONLY|os.O_TRUNC *)
Definition standard_open (old : option (list Z)) : osfile := mkOs [] 0.

(* the encoder writes the image in any number of pieces *)
Definition os_write_all (f : osfile) (pieces : list (list Z)) : osfile := fold_left os_write pieces f.
