(* Vocabulary for C83: the caller keeps the memory behind its arguments and changes it. *)
From Verif Require Import ModelBase ModelMatrix ModelSave ModelStandard ModelAlias.

(* the same options with every argument copied: colours and border widths at the time the writer is made, images and gradients at the time
   a picture is drawn; a gradient that had no stops when the writer was made is ignored *)
Definition copied (made drawn : memory) (opt : ref_option) : image_option :=
  match opt with
  | ByValue opt => opt
  | RefBgColor p => WithBgColor (Some (m_color made p))
  | RefFgColor p => WithFgColor (Some (m_color made p))
  | RefBorderWidth p => WithBorderWidth (m_widths made p)
  | RefGradient p => WithFgGradient (match m_gradient made p with Some _ => m_gradient drawn p | None => None end)
  | RefLogo p => WithLogoImage (Some (m_image drawn p))
  | RefHalftone p => WithHalftoneImage (Some (m_image drawn p))
  end.
(* a gradient that has stops when the writer is made still has some *)
Definition keeps_stops (made drawn : memory) (opts : list ref_option) : Prop :=
  forall p, In (RefGradient p) opts -> m_gradient made p <> None -> m_gradient drawn p <> None.
(* nothing a picture is drawn from has changed *)
Definition same_pictures (a b : memory) (opts : list ref_option) : Prop :=
  (forall p, In (RefGradient p) opts -> m_gradient a p = m_gradient b p) /\ (forall p, In (RefLogo p) opts \/ In (RefHalftone p) opts -> m_image a p = m_image b p).

(* what a caller does with a writer: it changes its memory, and calls Write *)
Inductive deed := Change (f : memory -> memory) | Draw (m : Matrix).
Definition do {E S} (w : memory -> Writer E S) (st : memory * S) (d : deed) : memory * S :=
  match d with Change f => (f (fst st), snd st) | Draw m => (fst st, fst (wr_write (w (fst st)) (snd st) m)) end.
Definition history {E S} (w : memory -> Writer E S) (st : memory * S) (ds : list deed) : memory * S := fold_left (do w) ds st.
