(* C83: what a writer takes from the caller's memory, and when. *)
From Coq Require Import Lia.
From Verif Require Import ModelBase ModelBinary ModelUtf8 ModelMatrix ModelVersion ModelChardet ModelEncoder ModelQRCode ModelSave ModelCompressed ModelStandard ModelWriters ModelAlias.
From Verif Require Import SpecIso SpecReader SpecSegment SpecAPI SpecMatrix SpecMedium SpecStandard SpecAlias.
From Verif Require Import ProofBase ProofMatrix ProofViews ProofCompressed ProofStandard ProofMedium.
From Verif Require PropsSaved.

(* ---- New ---- *)
Lemma view_apply scan made drawn r opt : (forall p, opt = RefGradient p -> m_gradient made p <> None -> m_gradient drawn p <> None) ->
  option_map (ref_view drawn) (ref_apply scan made r opt) = ModelStandard.apply_option scan (ref_view drawn r) (copied made drawn opt).
Proof.
  intros K. destruct r as [v g l h]. destruct opt as [opt|p|p|p|p|p|p].
  - destruct v; destruct g, l, h; destruct opt as [|[c|]|[|x s]|[c|]|s|[gr|]|[im|]|n| |[sh|]|f|[e|]|ws|[im|]|n| |]; try reflexivity;
      cbn [ref_apply copied ModelStandard.apply_option r_values]; try (destruct (parseFromHex scan _); reflexivity);
      destruct (f =? 0); try reflexivity; destruct (f =? 1); reflexivity.
  - destruct g, l, h; reflexivity.
  - destruct g, l, h; reflexivity.
  - destruct g, l, h; reflexivity.
  - cbn [ref_apply copied]. specialize (K p eq_refl). destruct (m_gradient made p); [|reflexivity]. specialize (K ltac:(discriminate)).
    destruct (m_gradient drawn p) eqn:E; [|congruence]. cbn [option_map ModelStandard.apply_option]. unfold ref_view. cbn [r_values r_gradient r_logo r_halftone]. rewrite E. destruct g, l, h; reflexivity.
  - destruct g, l, h; reflexivity.
  - destruct g, l, h; reflexivity.
Qed.
Lemma view_new scan made drawn opts : keeps_stops made drawn opts -> forall r,
  option_map (ref_view drawn) (fold_left (fun r opt => match r with Some r => ref_apply scan made r opt | None => None end) opts r) =
  fold_left (fun o opt => match o with Some o => ModelStandard.apply_option scan o opt | None => None end) (map (copied made drawn) opts) (option_map (ref_view drawn) r).
Proof.
  induction opts as [|opt opts IH]; intros K r; [reflexivity|]. cbn [fold_left map]. rewrite IH by (intros p I; apply K; right; exact I). f_equal.
  destruct r as [r|]; [|reflexivity]. apply view_apply. intros p ->. apply K. left. reflexivity.
Qed.
Lemma pointer_from scan made p opts : forall r0 r,
  fold_left (fun r opt => match r with Some r => ref_apply scan made r opt | None => None end) opts (Some r0) = Some r -> r_gradient r = Some p ->
  r_gradient r0 = Some p \/ (In (RefGradient p) opts /\ m_gradient made p <> None).
Proof.
  induction opts as [|opt opts IH]; intros r0 r E G; [injection E as <-; left; exact G|]. cbn [fold_left] in E.
  destruct (ref_apply scan made r0 opt) as [r1|] eqn:EA; [|exfalso; clear - E; induction opts; [discriminate E|apply IHopts, E]].
  destruct (IH r1 r E G) as [G1|[I K]]; [|right; split; [right; exact I|exact K]].
  destruct opt as [opt|q|q|q|q|q|q]; cbn [ref_apply] in EA.
  - destruct (ModelStandard.apply_option scan (r_values r0) opt); [|discriminate EA]. injection EA as <-. cbn [r_gradient] in G1.
    left. destruct opt as [| | | | |[x|]| | | | | | | | | | |]; try exact G1. discriminate G1.
  - injection EA as <-. left. exact G1.
  - injection EA as <-. left. exact G1.
  - injection EA as <-. left. exact G1.
  - destruct (m_gradient made q) eqn:EQ; injection EA as <-; [|left; exact G1]. cbn [r_gradient] in G1. injection G1 as ->. right. split; [left; reflexivity|congruence].
  - injection EA as <-. left. exact G1.
  - injection EA as <-. left. exact G1.
Qed.

(* ---- Write ---- *)
Section Write.
Context (encode : encoder -> Z * Z * canvas -> list (list Z)) (fails : nat -> option nat) (others : shape -> canvas -> call -> canvas)
        (scale : image -> Z -> Z -> Z -> Z).
Notation writer := (ref_writer encode fails others scale).
Notation plain := (standard_writer encode fails others scale).

(* pointers stay; the values stay up to the background colour, and altogether unless the background is transparent *)
Definition kept (r r' : ref_options) : Prop :=
  (exists c, r' = mkRefOptions (set_bgColor c (r_values r)) (r_gradient r) (r_logo r) (r_halftone r)) /\ (o_bgTransparent (r_values r) = false -> r' = r).
Lemma kept_refl r : kept r r. Proof. split; [exists (o_bgColor (r_values r)); destruct r as [[] ? ? ?]; reflexivity|reflexivity]. Qed.
Lemma kept_trans a b c : kept a b -> kept b c -> kept a c.
Proof. intros [[x ->] A] [[y ->] B]. split; [exists y; reflexivity|]. intros T. rewrite B by exact T. apply A, T. Qed.
Lemma view_bg mem r : o_bgColor (ref_view mem r) = o_bgColor (r_values r). Proof. destruct r as [v [g|] [l|] [h|]]; reflexivity. Qed.
Lemma view_transparent mem r : o_bgTransparent (ref_view mem r) = o_bgTransparent (r_values r). Proof. destruct r as [v [g|] [l|] [h|]]; reflexivity. Qed.
Lemma kept_back mem r o' : stable (ref_view mem r) o' -> kept r (mkRefOptions (set_bgColor (o_bgColor o') (r_values r)) (r_gradient r) (r_logo r) (r_halftone r)).
Proof.
  intros [_ ST]. split; [eexists; reflexivity|]. intros T. rewrite ST by (rewrite view_transparent; exact T). rewrite view_bg. destruct r as [[] ? ? ?]; reflexivity.
Qed.
Lemma plan_stable n m o p : square n m -> draw_plan scale m o = Some p -> stable o (p_options p).
Proof. intros SQ E. destruct (plan_spec scale n m o SQ) as (p' & t & E' & _ & _ & _ & _ & _ & ST & _). congruence. Qed.
Lemma draw_stable n m o w h cv o' : square n m -> draw others scale m o = Some (w, h, cv, o') -> stable o o'.
Proof.
  intros SQ E. unfold draw, draw_with in E. destruct (draw_plan scale m o) as [p|] eqn:EP; [|discriminate E]. injection E as _ _ _ <-. eapply plan_stable; eassumption.
Qed.
Lemma write_kept mem s r n m : square n m -> kept r (snd (fst (wr_write (writer mem) (s, r) m))).
Proof.
  intros SQ. cbn [wr_write ref_writer]. destruct (draw_plan scale m (ref_view mem r)) as [p|] eqn:EP; [|apply kept_refl].
  destruct (_ && _); [apply (kept_back mem); eapply plan_stable; eassumption|].
  cbn [wr_write standard_writer]. destruct (draw others scale m (ref_view mem r)) as [[[[w h] cv] o']|] eqn:ED; [|apply (kept_back mem), stable_refl].
  pose proof (draw_stable _ _ _ _ _ _ _ SQ ED) as ST.
  destruct (encoder_refuses _ _ _); [|destruct (sink_write_all _ _ _)]; apply (kept_back mem), ST.
Qed.
Lemma history_kept made s r ds : Forall (fun d => match d with Draw m => exists n, square n m | Change _ => True end) ds ->
  kept r (snd (snd (history writer (made, (s, r)) ds))).
Proof.
  unfold history. revert made s r. induction ds as [|d ds IH]; intros made s r F; [apply kept_refl|]. inversion F as [|? ? HD HF]; subst. cbn [fold_left]. destruct d as [f|m]; cbn [do fst snd].
  - apply IH, HF.
  - destruct HD as [n SQ]. pose proof (write_kept made s r n m SQ) as K. destruct (fst (wr_write (writer made) (s, r) m)) as [s1 r1]. cbn [snd] in K. eapply kept_trans; [exact K|apply IH, HF].
Qed.

Lemma save_same mem s r m : lost_stops mem r = false -> forall s' o' ev e,
  Save (Some m) plain (s, ref_view mem r) = ((s', o'), ev, e) -> exists r', Save (Some m) (writer mem) (s, r) = ((s', r'), ev, e).
Proof.
  intros L s' o' ev e. unfold Save. cbn [wr_write wr_close ref_writer]. rewrite L. cbn [andb].
  destruct (wr_write plain (s, ref_view mem r) m) as [[s1 o1] e1] eqn:EW. 
  assert (N : draw_plan scale m (ref_view mem r) = None -> (s1, e1) = (s, Panicked)).
  { intros EP. cbn [wr_write standard_writer] in EW. unfold draw, draw_with in EW. rewrite EP in EW. injection EW as <- _ <-. reflexivity. }
  cbn [wr_close standard_writer].
  destruct (draw_plan scale m (ref_view mem r)); [|injection (N eq_refl) as -> ->];
    destruct (sink_close _) as [s2 c]; destruct c as [[]|]; intros X; injection X as <- _ <- <-; eexists; reflexivity.
Qed.
End Write.

(* made with options that refer to the caller's memory, after any history of changes to that memory and of pictures drawn, a writer draws
   what a writer made with copies of the arguments draws: colours and border widths as they were when the writer was made, images and
   gradients as they are now *)
Theorem C83_as_if_copied :
  forall scan made opts r, ref_NewWithWriter scan made opts = Some r ->
  forall encode fails others scale s ds mem s1 r1, history (ref_writer encode fails others scale) (made, (s, r)) ds = (mem, (s1, r1)) ->
  Forall (fun d => match d with Draw m => exists n, square n m | Change _ => True end) ds -> keeps_stops made mem opts ->
  exists o, NewWithWriter scan (map (copied made mem) opts) = Some o /\
    (o_bgTransparent o = false \/ Forall (fun d => exists f, d = Change f) ds ->
     forall m s' o' ev e, Save (Some m) (standard_writer encode fails others scale) (s1, o) = ((s', o'), ev, e) ->
     exists r', Save (Some m) (ref_writer encode fails others scale mem) (s1, r1) = ((s', r'), ev, e)).
Proof.
  intros scan made opts r HN encode fails others scale s ds mem s1 r1 HH SQ KS.
  pose proof (view_new scan made mem opts KS (Some (mkRefOptions defaultOptions None None None))) as V. unfold ref_NewWithWriter in HN. rewrite HN in V. cbn [option_map] in V.
  exists (ref_view mem r). split; [symmetry; exact V|]. intros TR m s' o' ev e HS.
  assert (R1 : r1 = r).
  { destruct TR as [TR|TR].
    - pose proof (history_kept encode fails others scale made s r ds SQ) as K. rewrite HH in K. cbn [snd] in K. apply K. rewrite <- (view_transparent mem). exact TR.
    - clear - TR HH. revert made HH. unfold history. induction ds as [|d ds IH]; intros made HH; [injection HH as _ _ <-; reflexivity|].
      inversion TR as [|? ? [f ->] TR']; subst. eapply IH; [exact TR'|exact HH]. }
  subst r1. eapply save_same; [|exact HS]. unfold lost_stops. destruct (r_gradient r) as [p|] eqn:EG; [|reflexivity].
  destruct (pointer_from _ _ _ _ _ _ HN EG) as [X|[I1 I2]]; [discriminate X|].
  specialize (KS p I1 I2). destruct (m_gradient mem p); [reflexivity|congruence].
Qed.
(* New panics with the same arguments *)
Theorem C83_new_panics_alike :
  forall scan made opts, ref_NewWithWriter scan made opts = None <-> NewWithWriter scan (map (copied made made) opts) = None.
Proof.
  intros scan made opts. pose proof (view_new scan made made opts (fun _ _ H => H) (Some (mkRefOptions defaultOptions None None None))) as V.
  change (option_map (ref_view made) (ref_NewWithWriter scan made opts) = NewWithWriter scan (map (copied made made) opts)) in V. rewrite <- V.
  destruct (ref_NewWithWriter scan made opts); cbn [option_map]; split; congruence.
Qed.
(* so changes of colours and border widths after the writer is made have no effect *)
Theorem C83_colours_and_widths_are_copied :
  forall scan made opts r, ref_NewWithWriter scan made opts = Some r ->
  forall encode fails others scale s ds mem s1 r1, history (ref_writer encode fails others scale) (made, (s, r)) ds = (mem, (s1, r1)) ->
  Forall (fun d => match d with Draw m => exists n, square n m | Change _ => True end) ds -> same_pictures made mem opts ->
  exists o, NewWithWriter scan (map (copied made made) opts) = Some o /\
    (o_bgTransparent o = false \/ Forall (fun d => exists f, d = Change f) ds ->
     forall m s' o' ev e, Save (Some m) (standard_writer encode fails others scale) (s1, o) = ((s', o'), ev, e) ->
     exists r', Save (Some m) (ref_writer encode fails others scale mem) (s1, r1) = ((s', r'), ev, e)).
Proof.
  intros scan made opts r HN encode fails others scale s ds mem s1 r1 HH SQ [SG SI].
  assert (E : map (copied made mem) opts = map (copied made made) opts).
  { apply map_ext_in. intros opt I. destruct opt as [opt|p|p|p|p|p|p]; cbn [copied]; try reflexivity.
    - rewrite (SG p I). destruct (m_gradient mem p); reflexivity.
    - rewrite (SI p); [reflexivity|left; exact I].
    - rewrite (SI p); [reflexivity|right; exact I]. }
  rewrite <- E. eapply C83_as_if_copied; try eassumption. intros p I. rewrite (SG p I). tauto.
Qed.
(* and a symbol saved through a writer whose colours and widths have been changed meanwhile reads back *)
Theorem C83_reads_back :
  forall sjis, shift_jis_contract sjis ->
  forall text eopts sched q, NewWith sjis text eopts sched = Ok q -> ~ misdetected sjis eopts (text_bytes text) ->
  forall scan made opts r o, ref_NewWithWriter scan made opts = Some r -> NewWithWriter scan (map (copied made made) opts) = Some o ->
  (forall p, ~ In (RefGradient p) opts) -> (forall p, ~ In (RefLogo p) opts) -> (forall p, ~ In (RefHalftone p) opts) ->
  forall encode decode fails others scale old f, lossless (o_encoder o) encode decode ->
  encodable (o_encoder o) (img_w o (q_dimension q)) (img_h o (q_dimension q)) -> (forall k, fails k = None) ->
  getShape o = ShapeRectangle -> o_logo o = None -> o_halftone o = None -> o_gradient o = None -> painter_colors o ->
  (o_bgTransparent o = false -> o_bgColor o <> o_qrColor o) ->
  0 <= b_left o -> 0 <= b_right o -> 0 <= b_top o -> 0 <= b_bottom o ->
  exists s' r' cv,
    Save (Some (qMat q)) (ref_writer encode fails others scale (f made)) (standard_new old, r) = ((s', r'), [EvWrite (qMat q); EvClose], Returned None) /\
    s_open s' = false /\ decode (o_content (s_file s')) = Some (img_w o (q_dimension q), img_h o (q_dimension q), cv) /\
    reads_back sjis text (scan_canvas cv o (q_dimension q)).
Proof.
  intros sjis C text eopts sched q HN NM scan made opts r o HR HO N1 N2 N3 encode decode fails others scale old f DEC ENC NF HS HL HH HG PC DIFF B1 B2 B3 B4.
  destruct (PropsSaved.C49_standard sjis C text eopts sched q HN NM encode decode fails others scale o old DEC ENC NF HS HL HH HG PC DIFF B1 B2 B3 B4) as (s' & o' & cv & S1 & S2 & S3 & S4).
  destruct (C83_colours_and_widths_are_copied scan made opts r HR encode fails others scale (standard_new old) [Change f] (f made) (standard_new old) r) as (o2 & E2 & K).
  - reflexivity.
  - repeat constructor.
  - split; [intros p I; destruct (N1 p I)|intros p [I|I]; [destruct (N2 p I)|destruct (N3 p I)]].
  - rewrite HO in E2. injection E2 as <-. destruct (K (or_intror (Forall_cons _ (ex_intro _ f eq_refl) (Forall_nil _))) _ _ _ _ _ S1) as [r' S1'].
    exists s', r', cv. repeat split; assumption.
Qed.

(* ---- pictures and gradients are not copied ---- *)
Definition dark1 : Matrix := m_set (newMatrix 1 1) 0 0 QRValue_DATA_V1.
Definition raw (e : encoder) (i : Z * Z * canvas) : list (list Z) := let '(_, _, cv) := i in [[c_r (cv 0 0); c_g (cv 0 0); c_b (cv 0 0)]].
Definition caller (c : rgba) : memory :=
  mkMemory (fun _ => [0]) (fun _ => ColorRGBA c) (fun _ => mkImage 0 0 1 1 (fun _ _ => c)) (fun _ => Some (fun _ _ => c)) (fun _ => (0, 1)).
Definition saved_bytes (mem : memory) (r : ref_options) : list Z * call_end werror :=
  let '((s, _), _, e) := Save (Some dark1) (ref_writer raw (fun _ => None) (fun _ cv _ => cv) (fun _ _ _ _ => 0) mem) (standard_new None, r) in (o_content (s_file s), e).
Definition red : rgba := mkRGBA 255 0 0 255.
Definition green : rgba := mkRGBA 0 255 0 255.

(* a changed logo, gradient *)
Theorem C83_pictures_are_copied_refuted :
  forall opt, In opt [RefLogo 0; RefGradient 0] ->
  exists r, ref_NewWithWriter (fun _ => None) (caller red) [RefBorderWidth 0; ByValue (WithQRWidth 1); ByValue (WithLogoSizeMultiplier 1); opt] = Some r /\
  saved_bytes (caller red) r = ([255; 0; 0], Returned None) /\ saved_bytes (caller green) r = ([0; 255; 0], Returned None).
Proof. intros opt [<-|[<-|[]]]; (eexists; split; [reflexivity|]; split; vm_compute; reflexivity). Qed.
(* a colour changed between With... and New counts; after New it does not *)
Theorem C83_option_keeps_the_address :
  exists r1 r2, ref_NewWithWriter (fun _ => None) (caller red) [RefFgColor 0; RefBorderWidth 0; ByValue (WithQRWidth 1)] = Some r1 /\
  ref_NewWithWriter (fun _ => None) (caller green) [RefFgColor 0; RefBorderWidth 0; ByValue (WithQRWidth 1)] = Some r2 /\
  saved_bytes (caller green) r1 = ([255; 0; 0], Returned None) /\ saved_bytes (caller red) r2 = ([0; 255; 0], Returned None).
Proof. eexists. eexists. split; [reflexivity|]. split; [reflexivity|]. split; vm_compute; reflexivity. Qed.
(* a gradient emptied after New: Save panics, New alone would have ignored it *)
Definition emptied : memory := mkMemory (fun _ => [0]) (fun _ => ColorRGBA red) (fun _ => mkImage 0 0 1 1 (fun _ _ => red)) (fun _ => None) (fun _ => (0, 1)).
Theorem C83_emptied_gradient_refuted :
  exists r, ref_NewWithWriter (fun _ => None) (caller red) [RefBorderWidth 0; ByValue (WithQRWidth 1); RefGradient 0] = Some r /\
  saved_bytes emptied r = ([], Panicked) /\
  exists r', ref_NewWithWriter (fun _ => None) emptied [RefBorderWidth 0; ByValue (WithQRWidth 1); RefGradient 0] = Some r' /\ saved_bytes emptied r' = ([0; 0; 0], Returned None).
Proof. eexists. split; [reflexivity|]. split; [vm_compute; reflexivity|]. eexists. split; [reflexivity|]. vm_compute. reflexivity. Qed.

(* ---- the compressed writer ---- *)
(* every Save uses the values the Option has then *)
Theorem C83_compressed_option_now :
  forall png_pieces fails p mem s m, Save (Some m) (ref_compressed_writer png_pieces fails (Some p) mem) s =
    Save (Some m) (compressed_writer png_pieces fails (fst (m_option mem p)) (snd (m_option mem p))) s.
Proof. intros. unfold Save. cbn [wr_write wr_close ref_compressed_writer]. destruct (m_option mem p). reflexivity. Qed.
(* a nil Option is accepted by New; Save then panics, having closed the file and written nothing *)
Theorem C83_compressed_nil_refuted :
  forall png_pieces fails mem s m, s_open s = true -> exists s', Save (Some m) (ref_compressed_writer png_pieces fails None mem) s = (s', [EvWrite m; EvClose], Panicked) /\
    s_file s' = s_file s /\ s_open s' = false.
Proof. intros png_pieces fails mem s m O. unfold Save. cbn [wr_write wr_close ref_compressed_writer]. unfold sink_close. rewrite O. eexists. repeat split. Qed.

(* ---- the hypotheses are met ---- *)
Example C83_example : exists r o, ref_NewWithWriter (fun _ => None) (caller red) [RefFgColor 0; RefBorderWidth 0] = Some r /\
  NewWithWriter (fun _ => None) (map (copied (caller red) (caller red)) [RefFgColor 0; RefBorderWidth 0]) = Some o /\
  getShape o = ShapeRectangle /\ o_logo o = None /\ o_halftone o = None /\ o_gradient o = None /\ painter_colors o /\ o_bgColor o <> o_qrColor o /\ b_left o = 0 /\ b_top o = 0 /\
  keeps_stops (caller red) (caller green) [RefGradient 0; RefLogo 1] /\ same_pictures (caller red) (caller green) [RefFgColor 0; RefBorderWidth 0] /\ (exists n, square n dark1).
Proof.
  eexists. eexists. split; [reflexivity|]. split; [reflexivity|]. repeat apply conj; try reflexivity.
  all: try (vm_compute; intuition congruence).
  all: try (intros p; intuition discriminate).
  exists 1. apply square_set, square_new. lia.
Qed.
Print Assumptions C83_as_if_copied.
Print Assumptions C83_new_panics_alike.
Print Assumptions C83_colours_and_widths_are_copied.
Print Assumptions C83_reads_back.
Print Assumptions C83_pictures_are_copied_refuted.
Print Assumptions C83_option_keeps_the_address.
Print Assumptions C83_emptied_gradient_refuted.
Print Assumptions C83_compressed_option_now.
Print Assumptions C83_compressed_nil_refuted.
