(* Model of /repo/writer/standard/imgkit: process.go, io.go (Save). *)
From Verif Require Import ModelBase ModelStandard ModelCompressed ModelWriters ModelCli.

(* color.GrayModel.Convert of a color.RGBA (Go standard library): 16-bit channels, uint32 arithmetic; the sum stays below 2^32.
   uint8(y) is y mod 256 *)
Definition gray_of (c : rgba) : Z := Z.shiftr (19595 * (c_r c * 257) + 38470 * (c_g c * 257) + 7471 * (c_b c * 257) + Z.shiftl 1 15) 24 mod 256.

(* image.Gray: a rectangle and the pixels in it *)
Record gray := mkGray { g_x0 : Z; g_y0 : Z; g_x1 : Z; g_y1 : Z; g_pix : Z -> Z -> Z }.
Definition g_in (g : gray) (x y : Z) : bool := (g_x0 g <=? x) && (x <? g_x1 g) && (g_y0 g <=? y) && (y <? g_y1 g).
(* image.NewGray(bounds) *)
Definition NewGray (i : image) : gray := mkGray (i_x0 i) (i_y0 i) (i_x1 i) (i_y1 i) (fun _ _ => 0).
(* (Gray).At, SetGray, Set: outside the rectangle, zero and no effect *)
Definition g_at (g : gray) (x y : Z) : Z := if g_in g x y then g_pix g x y else 0.
Definition g_set (g : gray) (x y c : Z) : gray :=
  if g_in g x y then mkGray (g_x0 g) (g_y0 g) (g_x1 g) (g_y1 g) (fun x' y' => if (x' =? x) && (y' =? y) then c else g_pix g x' y') else g.

(* the two nested loops of process.go:20-29 and :39-44 *)
Definition g_loop (width height : Z) (step : gray -> Z -> Z -> gray) (g : gray) : gray :=
  fold_left (fun g i => fold_left (fun g j => step g i j) (zseq 0 width) g) (zseq 0 height) g.

(* process.go:34-47 Gray.  The source has color.RGBA pixels, as Scale's result has; i_at stands for its At, inside and outside
   its bounds *)
Definition imgkit_Gray (src : image) : gray :=
  let height := i_y1 src - i_y0 src in
  let width := i_x1 src - i_x0 src in
  g_loop width height (fun g i j => g_set g j i (gray_of (i_at src j i))) (NewGray src).

(* process.go:11-32 Binaryzation; a uint8 threshold is never out of range, so :12-14 has no effect *)
Definition Binaryzation (src : image) (threshold : Z) : gray :=
  let threshold := if (threshold <? 0) || (255 <? threshold) then 128 else threshold in
  let height := i_y1 src - i_y0 src in
  let width := i_x1 src - i_x0 src in
  g_loop width height (fun g i j => if threshold <? g_at g j i then g_set g j i 255 else g_set g j i 0) (imgkit_Gray src).

(* process.go:49-57 Scale with a nil scaler: an image.RGBA with bounds (0, 0)-(w, h), whose pixels are what x/image/draw's
   ApproxBiLinear makes of the source, the parameter [scaler] (transparent black outside the bounds) *)
Definition imgkit_Scale (scaler : image -> Z -> Z -> Z -> Z -> rgba) (src : image) (w h : Z) : image :=
  mkImage 0 0 w h (fun x y => if (0 <=? x) && (x <? w) && (0 <=? y) && (y <? h) then scaler src w h x y else mkRGBA 0 0 0 0).

(* writer.go:129-133: the halftone picture, and its pixels as halftoneColor reads them: the parameter [scale] of draw_plan *)
Definition halftone_scale (scaler : image -> Z -> Z -> Z -> Z -> rgba) (i : image) (n x y : Z) : Z :=
  g_at (Binaryzation (imgkit_Scale scaler i n n) 60) x y.

(* io.go:30-47 Save.  create = None: os.Create fails; otherwise the file is created or truncated.  jpeg, png: what the encoders
   write; fails: which of the writes fail.  The error of the deferred Close is dropped.  Result: the contents of the file
   afterwards (None: there is none), whether the result is nil *)
Inductive save_result := SaveNil | SaveCreateError | SaveUnsupported | SaveEncodeError.
Definition suffix_jpg : list Z := [46; 106; 112; 103].
Definition suffix_jpeg : list Z := [46; 106; 112; 101; 103].
Definition suffix_png : list Z := [46; 112; 110; 103].
Definition imgkit_Save (jpeg png : list (list Z)) (fails : nat -> option nat) (can_create : bool) (filename : list Z) (old : option (list Z))
  : option (list Z) * save_result :=
  if can_create then
    let fd := mkSink (mkOs [] 0) true 0 in
    let ext := Ext filename in
    let run pieces := let '(s, e) := sink_write_all fails fd pieces in
                      (Some (o_content (s_file s)), match e with None => SaveNil | Some _ => SaveEncodeError end) in
    if eq_bytes ext suffix_jpg || eq_bytes ext suffix_jpeg then run jpeg
    else if eq_bytes ext suffix_png then run png
    else (Some (o_content (s_file fd)), SaveUnsupported)
  else (old, SaveCreateError).
