(* The standard and the compressed writer when the caller keeps the memory its arguments point to: a slice of border widths, colours and
   images behind interfaces, a gradient behind a pointer, the Option of the compressed writer.  Closures (image_option_api.go) read that memory
   when they are applied, in New; what they store may be read again when a picture is drawn.
   The caller changes its memory only between calls (changing it during one is a data race). *)
From Verif Require Import ModelBase ModelMatrix ModelSave ModelCompressed ModelStandard ModelWriters.

(* the memory of the caller, by address *)
Record memory := mkMemory {
  m_widths : Z -> list Z;                       (* []int *)
  m_color : Z -> gocolor;                       (* what the color.Color behind a pointer answers *)
  m_image : Z -> image;                         (* the pixels of an image.Image *)
  m_gradient : Z -> option (Z -> Z -> rgba);    (* a LinearGradient; None: no stops *)
  m_option : Z -> Z * Z                         (* compressed.Option: Padding, BlockSize *)
}.

(* an option made with arguments that are copied, or with an address *)
Inductive ref_option :=
| ByValue (opt : image_option)
| RefBgColor (p : Z) | RefFgColor (p : Z)
| RefBorderWidth (p : Z)                         (* WithBorderWidth(widths...) *)
| RefGradient (p : Z) | RefLogo (p : Z) | RefHalftone (p : Z).

(* outputImageOptions (image_option.go:31-70): values, and the three fields that hold pointers *)
Record ref_options := mkRefOptions { r_values : options; r_gradient : option Z; r_logo : option Z; r_halftone : option Z }.

(* image_option_api.go: ByValue as apply_option; :39-47, :61-69 parseFromColor now; :198-222 the widths are read now; :79-87 the stops are
   counted now, the pointer is kept; :90-98, :238-242 the image is kept *)
Definition ref_apply (scan : list Z -> option rgba) (mem : memory) (r : ref_options) (opt : ref_option) : option ref_options :=
  let v := r_values r in
  match opt with
  | ByValue opt =>
    match apply_option scan v opt with
    | None => None
    | Some v' => Some (mkRefOptions v'
        (match opt with WithFgGradient (Some _) => None | _ => r_gradient r end)
        (match opt with WithLogoImage (Some _) => None | _ => r_logo r end)
        (match opt with WithHalftoneImage _ => None | _ => r_halftone r end))
    end
  | RefBgColor p => Some (mkRefOptions (set_bgColor (parseFromColor (m_color mem p)) v) (r_gradient r) (r_logo r) (r_halftone r))
  | RefFgColor p => Some (mkRefOptions (set_qrColor (parseFromColor (m_color mem p)) v) (r_gradient r) (r_logo r) (r_halftone r))
  | RefBorderWidth p => Some (mkRefOptions (set_borders (border_widths (m_widths mem p)) v) (r_gradient r) (r_logo r) (r_halftone r))
  | RefGradient p => match m_gradient mem p with None => Some r | Some _ => Some (mkRefOptions v (Some p) (r_logo r) (r_halftone r)) end
  | RefLogo p => Some (mkRefOptions v (r_gradient r) (Some p) (r_halftone r))
  | RefHalftone p => Some (mkRefOptions v (r_gradient r) (r_logo r) (Some p))
  end.
(* writer.go:47-61 *)
Definition ref_NewWithWriter (scan : list Z -> option rgba) (mem : memory) (opts : list ref_option) : option ref_options :=
  fold_left (fun r opt => match r with Some r => ref_apply scan mem r opt | None => None end) opts (Some (mkRefOptions defaultOptions None None None)).

(* what draw finds behind the pointers *)
Definition ref_view (mem : memory) (r : ref_options) : options :=
  let o := r_values r in
  let o := match r_gradient r with Some p => set_gradient (m_gradient mem p) o | None => o end in
  let o := match r_logo r with Some p => set_logo (Some (m_image mem p)) o | None => o end in
  match r_halftone r with Some p => set_halftone (Some (m_image mem p)) o | None => o end.

(* a gradient that has lost its stops since New: interpolateColor (gradient.go:90-94) panics at the first pixel that has the foreground colour *)
Definition lost_stops (mem : memory) (r : ref_options) : bool :=
  match r_gradient r with Some p => match m_gradient mem p with None => true | Some _ => false end | None => false end.
Definition has_pixel (w h : Z) (cv : canvas) (c : rgba) : bool := existsb (fun x => existsb (fun y => rgba_eqb (cv x y) c) (zseq 0 h)) (zseq 0 w).

(* writer.go:65-103, 105-222 Write and :69-79 Close, while the caller's memory is mem; the writer keeps its pointers, drawing may change its background
   colour *)
Definition ref_writer (encode : encoder -> Z * Z * canvas -> list (list Z)) (fails : nat -> option nat)
    (others : shape -> canvas -> call -> canvas) (scale : image -> Z -> Z -> Z -> Z) (mem : memory) : Writer werror (sink * ref_options) :=
  mkWriter (fun '(s, r) m =>
    let o := ref_view mem r in
    let back (o' : options) := mkRefOptions (set_bgColor (o_bgColor o') (r_values r)) (r_gradient r) (r_logo r) (r_halftone r) in
    match draw_plan scale m o with
    | None => ((s, r), Panicked)
    | Some p =>
      if lost_stops mem r &&
         has_pixel (p_w p) (p_h p) (fold_left (match getShape o with ShapeRectangle => rectangle_draw | sh => others sh end) (p_calls p)
                                              (fill_rect blank 0 0 (p_w p) (p_h p) (p_bg p))) (o_qrColor o)
      then ((s, back (p_options p)), Panicked)
      else let '((s', o'), e) := wr_write (standard_writer encode fails others scale) (s, o) m in ((s', back o'), e)
    end)
  (fun '(s, r) => let '(s', e) := sink_close s in ((s', r), Returned (match e with Some ErrClosed => None | e => e end))).

(* compressed/writer.go:24-45: New keeps the pointer, Write reads the Option; a nil pointer panics at :45 *)
Definition ref_compressed_writer (png_pieces : paletted -> list (list Z)) (fails : nat -> option nat) (opt : option Z) (mem : memory) : Writer werror sink :=
  mkWriter (fun s m => match opt with
                       | None => (s, Panicked)
                       | Some p => let '(padding, blockSize) := m_option mem p in wr_write (compressed_writer png_pieces fails padding blockSize) s m
                       end)
           (fun s => let '(s', e) := sink_close s in (s', Returned e)).
