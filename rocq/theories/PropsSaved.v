(* C49: what New made and Save put on a medium can be read back from the medium; one theorem per writer of the repository.
   C50: no silent loss. *)
From Coq Require Import Lia Init.Byte.
From Verif Require Import ModelBase ModelMatrix ModelQRCode ModelSave ModelFile ModelTerminal ModelCompressed ModelStandard ModelWriters.
From Verif Require Import SpecIso SpecReader SpecSegment SpecAPI SpecMatrix SpecText SpecImage SpecStandard SpecTerminal SpecMedium.
From Verif Require Import Samples ProofBase ProofEval ProofFile ProofCompressed ProofStandard ProofTerminal ProofMedium.
From Verif Require PropsFile PropsCompressed PropsStandard PropsTerminal PropsNew PropsSymbol.

(* writer/file, on a file whose writes all succeed: Save appends a text to the file from which the content can be read *)
Theorem C49_file :
  forall sjis, shift_jis_contract sjis ->
  forall text opts sched q, NewWith sjis text opts sched = Ok q -> ~ misdetected sjis opts (text_bytes text) ->
  forall fails before calls, (forall k, fails k = None) ->
  exists written calls' bm,
    Save (Some (qMat q)) (fileWriter fails) (Some (mkFile before calls)) =
      (Some (mkFile (before ++ written) calls'), [EvWrite (qMat q); EvClose], Returned None) /\
    read_half_blocks written (Z.to_nat (q_dimension q)) = Some bm /\ reads_back sjis text bm.
Proof.
  intros sjis C text opts sched q HN NM fails before calls NF. destruct (symbol_reads_back sjis C text opts sched q HN NM) as (SQ & N21 & RB).
  destruct (file_write fails (Some (mkFile before calls)) (qMat q)) as [f' r] eqn:E.
  destruct (PropsFile.C33_text_determines_symbol _ _ _ _ _ _ SQ E) as (t & lines & R & _ & _ & _ & content & calls' & -> & _ & OKI).
  destruct (PropsFile.C33_text_determines_symbol _ _ _ _ _ _ SQ E) as (t2 & l2 & R2 & _ & _ & _ & content2 & calls2 & EQ & CASES & _).
  injection EQ as <- <-. assert (r = FileOk) as ->. { apply OKI. intros k _. apply NF. }
  destruct CASES as [[_ EC]|[X _]]; [|discriminate X]. cbn [f_content] in EC.
  exists t2, calls', (m_bitmap (qMat q)). split; [|split; [exact R2|exact RB]].
  unfold Save, fileWriter. cbn [wr_write wr_close]. rewrite E, EC. reflexivity.
Qed.

(* writer/terminal: when the screen is large enough and a key is pressed; before termbox is closed the screen shows the symbol *)
Theorem C49_terminal :
  forall sjis, shift_jis_contract sjis ->
  forall text opts sched q, NewWith sjis text opts sched = Ok q -> ~ misdetected sjis opts (text_bytes text) ->
  forall t events, 2 * q_dimension q + 4 <= t_width t -> q_dimension q + 2 <= t_height t -> In EventKey events ->
  exists t', wr_write (terminal_writer true events) (t, true) (qMat q) = ((t', true), Returned None) /\
    Save (Some (qMat q)) (terminal_writer true events) (t, true) = ((t', false), [EvWrite (qMat q); EvClose], Returned None) /\
    reads_back sjis text (scan_terminal t' (q_dimension q)).
Proof.
  intros sjis C text opts sched q HN NM t events TW TH KEY. destruct (symbol_reads_back sjis C text opts sched q HN NM) as (SQ & N21 & RB).
  exists (fst (terminal_write t (qMat q) true events)).
  assert (HR : exists k, snd (terminal_write t (qMat q) true events) = HoldReturned k).
  { cbn [terminal_write snd hold]. revert KEY. generalize 0%nat. induction events as [|[] r IH]; intros n K; [destruct K| |].
    - eexists. reflexivity. - apply IH. destruct K as [K|K]; [discriminate K|exact K]. }
  destruct HR as [k HR].
  assert (W : wr_write (terminal_writer true events) (t, true) (qMat q) = ((fst (terminal_write t (qMat q) true events), true), Returned None)).
  { unfold terminal_writer. cbn [wr_write]. destruct (terminal_write t (qMat q) true events) as [t' r]. cbn [fst snd] in *. rewrite HR. reflexivity. }
  split; [exact W|]. split.
  - unfold Save. rewrite W. reflexivity.
  - unfold scan_terminal, scan_paletted, scan_canvas. rewrite (sampled_bitmap (q_dimension q) (qMat q)); [exact RB|exact SQ|]. intros x y X Y.
    assert (P : t_cell (fst (terminal_write t (qMat q) true events)) (2 * x + 2 + 0) (y + 1) = solid (module_at (m_bitmap (qMat q)) x y))
      by (apply (PropsTerminal.C42_modules_readable _ _ _ _ _ SQ ltac:(lia) TW TH x y X Y 0); left; reflexivity).
    rewrite Z.add_0_r in P. rewrite P. destruct (module_at _ x y); reflexivity.
Qed.

(* writer/compressed.New on a path where no file is; png_pieces/png_decode: the encoder, and a decoder for it *)
Theorem C49_compressed :
  forall sjis, shift_jis_contract sjis ->
  forall text opts sched q, NewWith sjis text opts sched = Ok q -> ~ misdetected sjis opts (text_bytes text) ->
  forall png_pieces png_decode, (forall i, png_decode (concat (png_pieces i)) = Some i) ->
  forall fails padding block, (forall k, fails k = None) -> 0 <= padding -> 1 <= block -> q_dimension q * block + 2 * padding < 2 ^ 32 ->
  exists s' i,
    Save (Some (qMat q)) (compressed_writer png_pieces fails padding block) (compressed_new None) = (s', [EvWrite (qMat q); EvClose], Returned None) /\
    s_open s' = false /\ png_decode (o_content (s_file s')) = Some i /\
    p_size i = q_dimension q * block + 2 * padding /\ reads_back sjis text (scan_paletted i padding block (q_dimension q)).
Proof.
  intros sjis C text opts sched q HN NM png_pieces png_decode DEC fails padding block NF HP HB SZ.
  destruct (symbol_reads_back sjis C text opts sched q HN NM) as (SQ & N21 & RB).
  destruct (PropsCompressed.C34_pixel_exact _ _ padding block SQ HP HB) as (i & ED & _ & ES & _ & PX & _).
  destruct (sink_all fails NF (png_pieces i) (compressed_open None) 0) as [calls EW].
  exists (mkSink (os_write_all (compressed_open None) (png_pieces i)) false calls), i. split; [|split; [reflexivity|split; [|split; [exact ES|]]]].
  - unfold Save, compressed_writer, compressed_new. cbn [wr_write wr_close]. rewrite ED, (encodable_ok PngEncoder), EW by (rewrite ES; change (2 ^ 32) with 4294967296 in SZ; unfold encodable; nia). reflexivity.
  - cbn [s_file]. rewrite (PropsCompressed.C35_file_content_partial None). rewrite skipn_nil, app_nil_r. apply DEC.
  - unfold scan_terminal, scan_paletted, scan_canvas. rewrite (sampled_bitmap (q_dimension q) (qMat q)); [exact RB|exact SQ|]. intros x y X Y.
    pose proof (Z.div_pos block 2 ltac:(lia) ltac:(lia)). pose proof (Z.div_lt_upper_bound block 2 block ltac:(lia) ltac:(lia)).
    rewrite PX by lia. destruct (module_at _ x y); reflexivity.
Qed.

(* writer/standard.New on a path with or without an old file: rectangle shape, no logo, halftone or gradient, an opaque
   foreground that differs from the background, a lossless image encoder *)
Theorem C49_standard :
  forall sjis, shift_jis_contract sjis ->
  forall text opts sched q, NewWith sjis text opts sched = Ok q -> ~ misdetected sjis opts (text_bytes text) ->
  forall encode decode fails others scale o old, lossless (o_encoder o) encode decode ->
  encodable (o_encoder o) (img_w o (q_dimension q)) (img_h o (q_dimension q)) -> (forall k, fails k = None) ->
  getShape o = ShapeRectangle -> o_logo o = None -> o_halftone o = None -> o_gradient o = None -> painter_colors o ->
  (o_bgTransparent o = false -> o_bgColor o <> o_qrColor o) ->
  0 <= b_left o -> 0 <= b_right o -> 0 <= b_top o -> 0 <= b_bottom o ->
  exists s' o' cv,
    Save (Some (qMat q)) (standard_writer encode fails others scale) (standard_new old, o) = ((s', o'), [EvWrite (qMat q); EvClose], Returned None) /\
    s_open s' = false /\ decode (o_content (s_file s')) = Some (img_w o (q_dimension q), img_h o (q_dimension q), cv) /\
    reads_back sjis text (scan_canvas cv o (q_dimension q)).
Proof.
  intros sjis C text opts sched q HN NM encode decode fails others scale o old DEC ENC NF HS HL HH HG PC DIFF B1 B2 B3 B4.
  destruct (symbol_reads_back sjis C text opts sched q HN NM) as (SQ & N21 & RB).
  destruct (PropsStandard.C37_pixels_partial others scale _ _ o SQ HS HL HH HG PC) as (cv & o' & ED & PX).
  assert (IW : 0 <= img_w o (q_dimension q)) by (unfold img_w; pose proof (block_width_range o); nia).
  assert (IH : 0 <= img_h o (q_dimension q)) by (unfold img_h; pose proof (block_width_range o); nia).
  rewrite !Z.abs_eq in ED by assumption.
  destruct (sink_all fails NF (encode (o_encoder o') (img_w o (q_dimension q), img_h o (q_dimension q), cv)) (standard_open old) 0) as [calls EW].
  rewrite <- (draw_encoder _ _ _ _ _ _ _ _ _ SQ ED) in DEC, ENC. destruct (DEC (img_w o (q_dimension q)) (img_h o (q_dimension q)) cv ENC) as (cv' & D1 & D2).
  eexists _, o', cv'. split; [|split; [|split]].
  - unfold Save, standard_writer, standard_new. cbn [wr_write wr_close]. rewrite ED, (encodable_ok _ _ _ ENC), EW. reflexivity.
  - reflexivity.
  - cbn [s_file]. change (standard_open old) with (compressed_open None).
    rewrite (PropsCompressed.C35_file_content_partial None). rewrite skipn_nil, app_nil_r. apply D1.
  - unfold scan_terminal, scan_paletted, scan_canvas. rewrite (sampled_bitmap (q_dimension q) (qMat q)); [exact RB|exact SQ|]. intros x y X Y.
    set (b := qrBlockWidth o). assert (BW : 1 <= b <= 255) by apply block_width_range.
    pose proof (Z.div_pos b 2 ltac:(lia) ltac:(lia)). pose proof (Z.div_lt_upper_bound b 2 b ltac:(lia) ltac:(lia)).
    set (px := b_left o + x * b + b / 2). set (py := b_top o + y * b + b / 2).
    assert (IM : in_module o x y px py) by (unfold in_module, px, py; fold b; lia).
    assert (RX : 0 <= px < img_w o (q_dimension q)) by (unfold img_w, px; fold b; nia).
    assert (RY : 0 <= py < img_h o (q_dimension q)) by (unfold img_h, py; fold b; nia).
    rewrite <- D2 by assumption. destruct (PX px py RX RY) as [P _].
    specialize (P x y X Y IM). destruct PC as ([GQ AQ] & GB & BO).
    destruct (module_at _ x y).
    + rewrite P. unfold rgba_eqb. rewrite !Z.eqb_refl. reflexivity.
    + destruct (rgba_eqb (cv px py) (o_qrColor o)) eqn:EQ; [|reflexivity]. exfalso.
      unfold rgba_eqb in EQ. rewrite !andb_true_iff, !Z.eqb_eq in EQ. destruct EQ as [[[E1 E2] E3] E4].
      destruct (o_bgTransparent o) eqn:T; [lia|]. apply (DIFF eq_refl). rewrite <- P. destruct (cv px py), (o_qrColor o). cbn in *. congruence.
Qed.

(* C50: Save reports success only if the image is in the file completely, whatever fails on the way; and it reports an error
   exactly when a write does (compressed, standard; the file writer: C33).  [pieces] are the writes of the encoder. *)
Theorem C50_compressed_no_silent_loss :
  forall png_pieces fails padding block n m old, square n m -> 0 <= padding -> 1 <= block ->
  exists i, compressed_draw padding block m = Some i /\
    forall s' ev r, Save (Some m) (compressed_writer png_pieces fails padding block) (compressed_new old) = (s', ev, r) ->
    s_open s' = false /\ r <> Panicked /\
    (r = Returned None <-> 0 < n * block + 2 * padding < 2 ^ 32 /\ forall k, (k < length (png_pieces i))%nat -> fails k = None) /\
    (r = Returned None -> o_content (s_file s') = concat (png_pieces i) ++ skipn (length (concat (png_pieces i))) (match old with Some c => c | None => [] end)).
Proof.
  intros png_pieces fails padding block n m old SQ HP HB. destruct (PropsCompressed.C34_pixel_exact _ _ padding block SQ HP HB) as (i & ED & _ & ES & _).
  exists i. split; [exact ED|]. intros s' ev r. unfold Save, compressed_writer, compressed_new. cbn [wr_write wr_close]. rewrite ED.
  pose proof (encodable_iff PngEncoder (p_size i) (p_size i)) as EI. rewrite ES in EI at 3 4.
  assert (EN : encodable PngEncoder (n * block + 2 * padding) (n * block + 2 * padding) <-> 0 < n * block + 2 * padding < 2 ^ 32) by (change (2 ^ 32) with 4294967296; unfold encodable; nia). rewrite EN in EI.
  destruct (encoder_refuses PngEncoder (p_size i) (p_size i)) eqn:RF.
  { cbn [sink_close s_open]. intros E. injection E as <- <- <-. split; [reflexivity|]. split; [discriminate|]. split; [|discriminate].
    split; [discriminate|]. intros [A _]. apply EI in A. discriminate A. }
  destruct EI as [EI _]. specialize (EI eq_refl).
  destruct (sink_write_all fails (mkSink (compressed_open old) true 0) (png_pieces i)) as [s1 e] eqn:EW.
  assert (O1 : s_open s1 = true).
  { clear -EW. revert EW. generalize (compressed_open old) 0%nat. induction (png_pieces i) as [|p ps IH]; intros f k EW; cbn [sink_write_all] in EW.
    - injection EW as <- _. reflexivity.
    - unfold sink_write in EW. cbn [s_open s_calls s_file] in EW. destruct (fails k); [injection EW as <- _; reflexivity|]. exact (IH _ _ EW). }
  unfold sink_close. rewrite O1. intros E. injection E as <- <- <-. split; [reflexivity|]. split; [discriminate|]. split.
  - pose proof (sink_all_error fails (png_pieces i) (compressed_open old) 0) as SE. rewrite EW in SE. cbn [Nat.add] in SE. rewrite <- SE.
    split; [intros [= ->]; eauto|]. intros [_ [s2 [= _ ->]]]. reflexivity.
  - intros [= ->]. apply sink_all_none in EW as (A & _ & _). cbn [s_file] in *. rewrite A.
    pose proof (PropsCompressed.C35_file_content_partial old (png_pieces i)) as X. cbv zeta in X. exact X.
Qed.
Theorem C50_standard_no_silent_loss :
  forall encode fails others scale n m old o, square n m ->
  exists w h cv o', draw others scale m o = Some (w, h, cv, o') /\
    let pieces := encode (o_encoder o') (w, h, cv) in
    forall s' o'' ev r, Save (Some m) (standard_writer encode fails others scale) (standard_new old, o) = ((s', o''), ev, r) ->
    s_open s' = false /\ o'' = o' /\ r <> Panicked /\
    (r = Returned None <-> encodable (o_encoder o) w h /\ forall k, (k < length pieces)%nat -> fails k = None) /\
    (r = Returned None -> o_content (s_file s') = concat pieces).
Proof.
  intros encode fails others scale n m old o SQ. destruct (PropsStandard.C36_size_general others scale n m o SQ) as (cv & o' & ED & _).
  set (w := Z.abs _) in ED. set (h := Z.abs (a_H _)) in ED. exists w, h, cv, o'. split; [exact ED|]. cbv zeta. intros s' o'' ev r. unfold Save, standard_writer, standard_new. cbn [wr_write wr_close]. rewrite ED.
  pose proof (draw_encoder _ _ _ _ _ _ _ _ _ SQ ED) as EE. pose proof (encodable_iff (o_encoder o') w h) as EI. rewrite EE in EI at 2.
  destruct (encoder_refuses (o_encoder o') w h) eqn:RF.
  { cbn [sink_close s_open]. intros E. injection E as <- <- <- <-. split; [reflexivity|]. split; [reflexivity|]. split; [discriminate|]. split; [|discriminate].
    split; [discriminate|]. intros [A _]. apply EI in A. discriminate A. }
  destruct EI as [EI _]. specialize (EI eq_refl).
  set (ps := encode (o_encoder o') (w, h, cv)).
  destruct (sink_write_all fails (mkSink (standard_open old) true 0) ps) as [s1 e] eqn:EW.
  assert (O1 : s_open s1 = true).
  { clear -EW. revert EW. generalize (standard_open old) 0%nat. induction ps as [|p ps' IH]; intros f k EW; cbn [sink_write_all] in EW.
    - injection EW as <- _. reflexivity.
    - unfold sink_write in EW. cbn [s_open s_calls s_file] in EW. destruct (fails k); [injection EW as <- _; reflexivity|]. exact (IH _ _ EW). }
  unfold sink_close. rewrite O1. intros E. injection E as <- <- <- <-. split; [reflexivity|]. split; [reflexivity|]. split; [discriminate|]. split.
  - pose proof (sink_all_error fails ps (standard_open old) 0) as SE. rewrite EW in SE. cbn [Nat.add] in SE. rewrite <- SE.
    split; [intros [= ->]; eauto|]. intros [_ [s2 [= _ ->]]]. reflexivity.
  - intros [= ->]. apply sink_all_none in EW as (A & _ & _). cbn [s_file] in *. rewrite A.
    pose proof (PropsCompressed.C35_file_content_partial None ps) as X. cbv zeta in X. rewrite skipn_nil, app_nil_r in X. exact X.
Qed.

(* The hypotheses can be met: "HELLO" (Samples.v), the default options of the standard writer, and encoders that write the
   size and the pixels. *)
Definition pixel_bytes (c : rgba) : list Z := [c_r c; c_g c; c_b c; c_a c].
Definition toy_encode (e : encoder) (i : Z * Z * canvas) : list (list Z) :=
  let '(w, h, cv) := i in [[w; h]; flat_map (fun p => pixel_bytes (cv (fst p) (snd p))) (list_prod (zseq 0 w) (zseq 0 h))].
Definition toy_decode (l : list Z) : option (Z * Z * canvas) :=
  match l with
  | w :: h :: r => Some (w, h, fun px py => let k := Z.to_nat (4 * (px * h + py)) in mkRGBA (nth k r 0) (nth (k + 1) r 0) (nth (k + 2) r 0) (nth (k + 3) r 0))
  | _ => None
  end.
Lemma nth_pixels {A} (f : A -> rgba) (d : A) l : forall k, (k < length l)%nat ->
  let r := flat_map (fun p => pixel_bytes (f p)) l in
  mkRGBA (nth (4 * k) r 0) (nth (4 * k + 1) r 0) (nth (4 * k + 2) r 0) (nth (4 * k + 3) r 0) = f (nth k l d).
Proof.
  induction l as [|a l IH]; intros k K r; [cbn in K; lia|]. subst r. destruct k as [|k].
  - cbn. destruct (f a); reflexivity.
  - cbn [length] in K. specialize (IH k ltac:(lia)). cbv zeta in IH. cbn [flat_map nth]. rewrite <- IH.
    replace (4 * S k)%nat with (4 + 4 * k)%nat by lia. reflexivity.
Qed.
Lemma nth_prod (a b : list Z) i j : (i < length a)%nat -> (j < length b)%nat -> nth (i * length b + j) (list_prod a b) (0, 0) = (nth i a 0, nth j b 0).
Proof.
  revert i. induction a as [|x a IH]; intros i I J; [cbn in I; lia|]. cbn [list_prod]. destruct i as [|i].
  - cbn [Nat.mul Nat.add]. rewrite app_nth1 by (rewrite map_length; lia). rewrite (nth_indep _ (0, 0) (x, 0)) by (rewrite map_length; lia).
    rewrite map_nth. reflexivity.
  - rewrite app_nth2 by (rewrite map_length; cbn [Nat.mul]; lia). rewrite map_length. cbn [length] in I.
    replace (S i * length b + j - length b)%nat with (i * length b + j)%nat by (cbn [Nat.mul]; lia). rewrite IH by lia. reflexivity.
Qed.
Lemma nth_zseq i n : 0 <= i < n -> nth (Z.to_nat i) (zseq 0 n) 0 = i.
Proof. intros I. rewrite zseq_upto, <- (map_id (upto n)), (nth_upto_map (fun x => x)) by exact I. reflexivity. Qed.
Lemma toy_pixel w h (cv : canvas) px py : 0 <= px < w -> 0 <= py < h ->
  (let k := Z.to_nat (4 * (px * h + py)) in
   let r := flat_map (fun p => pixel_bytes (cv (fst p) (snd p))) (list_prod (zseq 0 w) (zseq 0 h)) in
   mkRGBA (nth k r 0) (nth (k + 1) r 0) (nth (k + 2) r 0) (nth (k + 3) r 0)) = cv px py.
Proof.
  intros X Y. cbv zeta. replace (Z.to_nat (4 * (px * h + py))) with (4 * (Z.to_nat px * length (zseq 0%Z h) + Z.to_nat py))%nat by (rewrite zseq_length; nia).
  rewrite (nth_pixels (fun p => cv (fst p) (snd p)) (0, 0)) by (rewrite prod_length, !zseq_length; nia).
  rewrite nth_prod by (rewrite zseq_length; lia). cbn [fst snd]. rewrite !nth_zseq by lia. reflexivity.
Qed.

Example C49_example : (exists q, NewWith sample_sjis hello [] fair_schedule = Ok q) /\ ~ misdetected sample_sjis [] (text_bytes hello) /\
  getShape defaultOptions = ShapeRectangle /\ o_logo defaultOptions = None /\ o_halftone defaultOptions = None /\ o_gradient defaultOptions = None /\
  painter_colors defaultOptions /\ o_bgColor defaultOptions <> o_qrColor defaultOptions /\
  (exists (png_pieces : paletted -> list (list Z)) png_decode, forall i, png_decode (concat (png_pieces i)) = Some i) /\
  (exists encode decode, forall e, lossless e encode decode) /\ (forall n, 21 <= n <= 177 -> encodable (o_encoder defaultOptions) (img_w defaultOptions n) (img_h defaultOptions n)).
Proof.
  split; [apply PropsSymbol.symbol_example|]. split; [apply PropsSymbol.symbol_example|]. do 4 (split; [reflexivity|]).
  split; [cbv; intuition congruence|]. split; [discriminate|].
  split; [|split; [|intros n N; unfold img_w, img_h; cbn; lia]].
  - exists (fun i => [[p_min i; p_size i]; p_pix i]), (fun l => match l with a :: b :: r => Some (mkImg a b r) | _ => None end).
    intros [a b r]. cbn. rewrite app_nil_r. reflexivity.
  - exists toy_encode, toy_decode. intros e w h cv _. unfold toy_encode. eexists. split; [cbn [concat app]; rewrite app_nil_r; reflexivity|].
    intros px py X Y. cbn beta. symmetry. apply toy_pixel; assumption.
Qed.

Print Assumptions C49_file.
Print Assumptions C49_terminal.
Print Assumptions C49_compressed.
Print Assumptions C49_standard.
Print Assumptions C50_compressed_no_silent_loss.
Print Assumptions C50_standard_no_silent_loss.
