(* Lemmas for C90: the run of an example, and which symbols the fixed texts get. *)
From Coq Require Import Lia.
From Verif Require Import ModelBase ModelUtf8 ModelMatrix ModelQRCode ModelSave ModelCompressed ModelStandard ModelWriters ModelFs ModelExamples.
From Verif Require Import SpecIso SpecReader SpecSegment SpecAPI SpecStandard SpecMedium SpecShape SpecCombine SpecLogo SpecFs SpecExamples.
From Verif Require Import ProofBase ProofVersion ProofNew ProofMedium ProofStandard ProofShape ProofCombine.
From Verif Require PropsShape PropsNew PropsCombine PropsLogo PropsFs PropsMonotone.
Open Scope Z_scope.

Lemma name_text s : text_bytes (GoString (go_string s)) = name s.
Proof. reflexivity. Qed.

(* sampled where the borders and the block width are known *)
Lemma scan_known o b bw d n (dark : rgba -> bool) cv : o_borders o = (b, b, b, b) -> qrBlockWidth o = bw ->
  sampled n (fun x y => dark (cv (sample_x o d x) (sample_y o d y))) = scan_pixels dark d b b bw n cv.
Proof. intros EB EW. unfold scan_pixels, sample_x, sample_y, b_left, b_top. rewrite EB, EW. reflexivity. Qed.

Section Run.
Context (resolve : path -> Z) (may_read may_create : path -> bool) (decode_png decode_jpeg : list Z -> option image).
Context (sjis : Z -> option (list Z)) (scan : list Z -> option rgba) (encode : encoder -> Z * Z * canvas -> list (list Z)) (fails : nat -> option nat)
        (others : shape -> canvas -> call -> canvas) (scale : image -> Z -> Z -> Z -> Z).
Notation save := (save_picture resolve may_read may_create decode_png decode_jpeg sjis scan encode fails others scale).
Notation applied := (apply_file_options resolve may_read decode_png decode_jpeg scan).

Lemma run_saved on_error text eopts needs file draws sched fs q o : NewWith sjis (GoString text) eopts sched = Ok q ->
  all_there resolve fs needs = true -> may_create file = true -> applied (fs_set fs (resolve file) []) (draws (q_dimension q)) = Some o ->
  forall s' o' ev, Save (Some (qMat q)) (standard_writer encode fails others scale) (standard_new (fs (resolve file)), o) = ((s', o'), ev, Returned None) ->
  exists fs', save on_error text eopts needs file draws sched fs = (fs', Finished) /\ only_changes resolve file fs fs' /\
    fs' (resolve file) = Some (o_content (s_file s')).
Proof.
  intros HN AT MC AO s' o' ev HS. unfold save_picture. rewrite HN, AT. unfold standard_New. rewrite MC, AO, HS.
  eexists. split; [reflexivity|]. split; [|apply PropsFs.fs_set_same].
  intros i N. unfold fs_set. destruct (Z.eqb_spec i (resolve file)); [contradiction|reflexivity].
Qed.

Context (C : shift_jis_contract sjis) (NF : forall k, fails k = None) (decode : list Z -> option (Z * Z * canvas)).

Lemma run_plain near on_error text eopts needs file draws sched fs q o b bw d dark :
  NewWith sjis (GoString text) eopts sched = Ok q -> ~ misdetected sjis eopts (text_bytes (GoString text)) ->
  all_there resolve fs needs = true -> may_create file = true -> applied (fs_set fs (resolve file) []) (draws (q_dimension q)) = Some o ->
  o_borders o = (b, b, b, b) -> qrBlockWidth o = bw -> 0 <= b <= 255 -> 1 <= bw <= 255 ->
  o_encoder o = JpegEncoder \/ o_encoder o = PngEncoder -> keeps near (o_encoder o) encode decode ->
  readable_style others o d -> painter_colors o -> (o_gradient o <> None -> o_bgTransparent o = false -> o_bgColor o <> o_qrColor o) ->
  o_logo o = None ->
  (let w := q_dimension q * bw + 2 * b in 0 < w ->
   (forall px py, 0 <= px < w -> 0 <= py < w -> opaque (ink o px py)) /\ tells_apart near o w w dark) ->
  exists fs', save on_error text eopts needs file draws sched fs = (fs', Finished) /\ only_changes resolve file fs fs' /\
    holds_picture resolve decode fs' file (q_dimension q) bw b d dark (reads_back sjis (GoString text)).
Proof.
  intros HN NM AT MC AO EB EW HB HBW EE KP RS PC GC EL TA. pose proof (PropsFs.dimension_bound sjis C _ _ _ _ HN) as DB.
  assert (W : img_w o (q_dimension q) = q_dimension q * bw + 2 * b) by (unfold img_w, b_left, b_right; rewrite EB, EW; lia).
  assert (H : img_h o (q_dimension q) = q_dimension q * bw + 2 * b) by (unfold img_h, b_top, b_bottom; rewrite EB, EW; lia).
  cbv zeta in TA. destruct TA as [IO TA]; [nia|].
  destruct (PropsCombine.C72_no_logo sjis C (GoString text) eopts sched q HN NM near encode decode fails others scale o (fs (resolve file)) d dark) as (s' & o' & cv & A1 & A2 & A3 & A4);
    try assumption; try (rewrite ?W, ?H; assumption); try (unfold b_left, b_right, b_top, b_bottom; rewrite EB; lia).
  - rewrite W, H. destruct EE as [-> | ->]; cbn [SpecMedium.encodable]; nia.
  - destruct (run_saved on_error text eopts needs file draws sched fs q o HN AT MC AO _ _ _ A1) as (fs' & R & OC & FC).
    exists fs'. split; [exact R|]. split; [exact OC|]. exists (o_content (s_file s')), cv. split; [exact FC|]. rewrite W, H in A3. split; [exact A3|].
    rewrite <- (scan_known o b bw d (q_dimension q) dark cv EB EW). exact A4.
Qed.

Lemma run_logo near on_error text eopts needs file draws sched fs q o b bw d dark l z :
  NewWith sjis (GoString text) eopts sched = Ok q -> ~ misdetected sjis eopts (text_bytes (GoString text)) ->
  all_there resolve fs needs = true -> may_create file = true -> applied (fs_set fs (resolve file) []) (draws (q_dimension q)) = Some o ->
  eff_level eopts = level_code l -> may_lose l z -> PropsLogo.logo_options o z ->
  o_borders o = (b, b, b, b) -> qrBlockWidth o = bw -> 0 <= b <= 255 -> 1 <= bw <= 255 ->
  o_encoder o = JpegEncoder \/ o_encoder o = PngEncoder -> keeps near (o_encoder o) encode decode ->
  readable_style others o d -> painter_colors o -> (o_gradient o <> None -> o_bgTransparent o = false -> o_bgColor o <> o_qrColor o) ->
  (let w := q_dimension q * bw + 2 * b in 0 < w ->
   (forall px py, 0 <= px < w -> 0 <= py < w -> opaque (ink o px py)) /\ tells_apart near o w w dark) ->
  exists fs', save on_error text eopts needs file draws sched fs = (fs', Finished) /\ only_changes resolve file fs fs' /\
    holds_picture resolve decode fs' file (q_dimension q) bw b d dark (recovers_text sjis (GoString text)).
Proof.
  intros HN NM AT MC AO HL ML LO EB EW HB HBW EE KP RS PC GC TA. pose proof (PropsFs.dimension_bound sjis C _ _ _ _ HN) as DB.
  assert (W : img_w o (q_dimension q) = q_dimension q * bw + 2 * b) by (unfold img_w, b_left, b_right; rewrite EB, EW; lia).
  assert (H : img_h o (q_dimension q) = q_dimension q * bw + 2 * b) by (unfold img_h, b_top, b_bottom; rewrite EB, EW; lia).
  cbv zeta in TA. destruct TA as [IO TA]; [nia|].
  destruct (PropsCombine.C72_logo sjis C (GoString text) eopts sched q l z HN NM HL ML near encode decode fails others scale o (fs (resolve file)) d dark) as (s' & o' & cv & A1 & A2 & A3 & A4);
    try assumption; try (rewrite ?W, ?H; assumption).
  - rewrite W, H. destruct EE as [-> | ->]; cbn [SpecMedium.encodable]; nia.
  - destruct (run_saved on_error text eopts needs file draws sched fs q o HN AT MC AO _ _ _ A1) as (fs' & R & OC & FC).
    exists fs'. split; [exact R|]. split; [exact OC|]. exists (o_content (s_file s')), cv. split; [exact FC|]. rewrite W, H in A3. split; [exact A3|].
    rewrite <- (scan_known o b bw d (q_dimension q) dark cv EB EW). exact A4.
Qed.
(* what is at the sampled pixels, whatever reads them *)
Lemma run_modules near on_error text eopts needs file draws sched fs q o b bw d :
  NewWith sjis (GoString text) eopts sched = Ok q ->
  all_there resolve fs needs = true -> may_create file = true -> applied (fs_set fs (resolve file) []) (draws (q_dimension q)) = Some o ->
  o_borders o = (b, b, b, b) -> qrBlockWidth o = bw -> 0 <= b <= 255 -> 1 <= bw <= 255 ->
  o_encoder o = JpegEncoder \/ o_encoder o = PngEncoder -> keeps near (o_encoder o) encode decode ->
  readable_style others o d -> painter_colors o -> (o_gradient o <> None -> o_bgTransparent o = false -> o_bgColor o <> o_qrColor o) ->
  o_logo o = None -> (forall px py, opaque (ink o px py)) ->
  exists fs' c cv, save on_error text eopts needs file draws sched fs = (fs', Finished) /\ only_changes resolve file fs fs' /\
    fs' (resolve file) = Some c /\ decode c = Some (q_dimension q * bw + 2 * b, q_dimension q * bw + 2 * b, cv) /\
    forall x y, 0 <= x < q_dimension q -> 0 <= y < q_dimension q ->
      if module_at (m_bitmap (qMat q)) x y then near (ink o (b + x * bw + d) (b + y * bw + d)) (cv (b + x * bw + d) (b + y * bw + d))
      else exists l, is_light o l /\ near l (cv (b + x * bw + d) (b + y * bw + d)).
Proof.
  intros HN AT MC AO EB EW HB HBW EE KP RS PC GC EL OP. pose proof (PropsFs.dimension_bound sjis C _ _ _ _ HN) as DB.
  destruct (made_square sjis C _ _ _ _ HN) as [SQ N21].
  assert (W : img_w o (q_dimension q) = q_dimension q * bw + 2 * b) by (unfold img_w, b_left, b_right; rewrite EB, EW; lia).
  assert (H : img_h o (q_dimension q) = q_dimension q * bw + 2 * b) by (unfold img_h, b_top, b_bottom; rewrite EB, EW; lia).
  assert (B1 : 0 <= b_left o) by (unfold b_left; rewrite EB; lia). assert (B2 : 0 <= b_right o) by (unfold b_right; rewrite EB; lia).
  assert (B3 : 0 <= b_top o) by (unfold b_top; rewrite EB; lia). assert (B4 : 0 <= b_bottom o) by (unfold b_bottom; rewrite EB; lia).
  pose proof RS as (_ & HD & _).
  destruct (style_samples others scale (q_dimension q) (qMat q) o d SQ ltac:(lia) RS PC GC ltac:(intros; apply OP) B1 B2 B3 B4) as (cv0 & o' & ED & HP);
    [intros i F; rewrite EL in F; discriminate F|].
  destruct (PropsLogo.saved_near near (q_dimension q) (qMat q) SQ N21 encode decode fails others scale o (fs (resolve file)) cv0 o' KP) as (s' & cv & A1 & A2 & A3 & A4); try assumption.
  { rewrite W, H. destruct EE as [-> | ->]; cbn [SpecMedium.encodable]; nia. }
  destruct (run_saved on_error text eopts needs file draws sched fs q o HN AT MC AO _ _ _ A1) as (fs' & R & OC & FC).
  exists fs', (o_content (s_file s')), cv. split; [exact R|]. split; [exact OC|]. split; [exact FC|]. rewrite W, H in A3. split; [exact A3|].
  intros x y X Y. destruct (PropsShape.sample_range o _ d x y B1 B2 B3 B4 HD X Y) as [RX RY].
  specialize (HP x y X Y (no_logo_safe _ _ _ _ EL) (no_logo_safe _ _ _ _ EL) ltac:(intros i F; rewrite EL in F; discriminate F)).
  specialize (A4 _ _ RX RY).
  assert (SX : sample_x o d x = b + x * bw + d) by (unfold sample_x, b_left; rewrite EB, EW; reflexivity).
  assert (SY : sample_y o d y = b + y * bw + d) by (unfold sample_y, b_top; rewrite EB, EW; reflexivity).
  rewrite SX, SY in HP, A4. destruct (module_at (m_bitmap (qMat q)) x y); [rewrite HP in A4; exact A4|eauto].
Qed.
End Run.

(* ---- fixed texts: ASCII with a small letter goes to byte mode ---- *)
Definition small_letter (raw : list Z) : bool := existsb (fun r => (97 <=? r) && (r <=? 122)) (go_runes raw).
Lemma small_letter_spec raw : small_letter raw = true -> exists r, In r (go_runes raw) /\ 97 <= r <= 122.
Proof. unfold small_letter. rewrite existsb_exists. intros (r & I & H). apply andb_true_iff in H. rewrite !Z.leb_le in H. eauto. Qed.
Lemma small_not r : 97 <= r <= 122 -> ~ alnum_ch r /\ ~ digit_ch r /\ forall sjis, ~ kanji_char sjis r.
Proof.
  intros R. split; [|split].
  - unfold alnum_ch. intros I. assert (F : forallb (fun c => c <? 97) alphanumeric_table = true) by reflexivity.
    rewrite forallb_forall in F. specialize (F r I). apply Z.ltb_lt in F. lia.
  - unfold digit_ch. lia.
  - intros sjis K. unfold kanji_char, cjk in K. lia.
Qed.
Lemma small_byte sjis raw : small_letter raw = true -> documented_mode sjis raw Byte /\ forall eopts, ~ misdetected sjis eopts raw.
Proof.
  intros S. destruct (small_letter_spec raw S) as (r & I & R). destruct (small_not r R) as (NA & ND & NK). split.
  - split; [apply Forall_forall; intros c _; exact Logic.I|]. intros md LT E. unfold SpecAPI.encodable in E. rewrite Forall_forall in E. specialize (E r I).
    destruct md; cbn in E, LT; try lia; first [exact (ND E)|exact (NA E)|exact (NK sjis E)].
  - intros eopts (_ & pre & ks & E & _ & _ & FA & FK). rewrite E in I. apply in_app_iff in I. rewrite Forall_forall in FA, FK.
    destruct I as [I|I]; [apply NA, FA, I|apply (NK sjis), FK, I].
Qed.

Definition fits_b (v : Z) (l : level) (n : Z) : bool := needed_bits v Byte n <=? 8 * data_codewords v l.
Lemma fits_b_iff v l n : fits_b v l n = true <-> SpecSegment.fits v l Byte n.
Proof. unfold fits_b, SpecSegment.fits. apply Z.leb_le. Qed.

Lemma fixed_text sjis : shift_jis_contract sjis -> forall text eopts sched l v0,
  fair sched -> small_letter (text_bytes (GoString text)) = true -> eff_mode eopts = auto_code \/ eff_mode eopts = mode_code Byte ->
  eff_level eopts = level_code l -> eff_version eopts = 0 ->
  1 <= v0 <= 40 -> fits_b v0 l (zlen (text_bytes (GoString text))) = true -> (v0 = 1 \/ fits_b (v0 - 1) l (zlen (text_bytes (GoString text))) = false) ->
  exists q, NewWith sjis (GoString text) eopts sched = Ok q /\ q_dimension q = side (Z.max v0 (eff_min eopts)).
Proof.
  intros C text eopts sched l v0 FS SL EM EL EV R F1 F0. set (raw := text_bytes (GoString text)) in *.
  destruct (small_byte sjis raw SL) as [DM NM].
  assert (EF : effective_mode sjis eopts raw Byte) by (destruct EM as [E|E]; [right; split; assumption|left; exact E]).
  apply fits_b_iff in F1.
  assert (N0 : 0 <= zlen raw) by (unfold zlen; lia).
  assert (FE : char_count Byte raw = zlen raw) by reflexivity.
  destruct (PropsNew.C07_succeeds_iff_fits_partial sjis C (GoString text) eopts sched Byte l Logic.I FS (NM eopts) EF EL) as [IFF _].
  destruct (proj2 IFF) as (q & HN).
  - fold raw. split; [apply Forall_forall; intros c _; exact Logic.I|]. rewrite EV. cbn [Z.eqb]. unfold text_fits. rewrite FE.
    apply (fits_mono l Byte (zlen raw) v0 40); auto; unfold valid_version; lia.
  - exists q. split; [exact HN|]. destruct (PropsMonotone.promised_mode sjis C (GoString text) eopts sched q HN (NM eopts)) as (md & l' & v & EMD & _ & EL' & PV & DQ).
    assert (l' = l) by (rewrite EL in EL'; symmetry; apply level_code_inj; exact EL'). subst l'.
    destruct (PropsNew.C07_effective_mode_exists sjis C raw eopts) as (md1 & l1 & _ & _ & UN).
    { destruct EM as [E|E]; [left; exact E|right; exists Byte; exact E]. }
    assert (md = Byte) by (rewrite (UN md EMD), (UN Byte EF); reflexivity). subst md.
    rewrite DQ. unfold side. enough (v = Z.max v0 (eff_min eopts)) by lia. destruct PV as [[N _]|(_ & vm & (VM & FM & LM) & ->)]; [contradiction|]. f_equal.
    assert (L1 : vm <= v0) by (apply LM; [unfold valid_version; lia|exact F1]).
    destruct F0 as [-> | F0]; [unfold valid_version in VM; lia|].
    destruct (Z.eq_dec vm v0) as [E|NE]; [exact E|]. exfalso. apply not_true_iff_false in F0. apply F0, fits_b_iff.
    apply (fits_mono l Byte (zlen raw) vm (v0 - 1)); auto; unfold valid_version in *; lia.
Qed.

(* ---- functions that run one after the other ---- *)
Section Turns.
Context (resolve : path -> Z) (inv : fsys -> Prop).
Context (KEEP : forall p fs fs', inv fs -> only_changes resolve p fs fs' -> fs' (resolve p) <> None -> inv fs').
Definition turn : Type := (list actor -> fsys -> fsys * ending) * list actor * path * (option (list Z) -> Prop).
Definition good_turn (t : turn) : Prop :=
  let '(step, sched, p, G) := t in
  forall fs, inv fs -> exists fs', step sched fs = (fs', Finished) /\ only_changes resolve p fs fs' /\ fs' (resolve p) <> None /\ G (fs' (resolve p)).
Lemma all_turns (ts : list turn) : NoDup (map (fun '(_, _, p, _) => resolve p) ts) -> Forall good_turn ts -> forall fs, inv fs ->
  exists fs', in_turn (map (fun '(s, _, _, _) => s) ts) (map (fun '(_, c, _, _) => c) ts) fs = (fs', Finished) /\
    (forall i, ~ In i (map (fun '(_, _, p, _) => resolve p) ts) -> fs' i = fs i) /\ Forall (fun '(_, _, p, G) => G (fs' (resolve p))) ts.
Proof.
  induction ts as [|[[[s c] p] G] ts IH]; intros ND FG fs I; cbn [map in_turn].
  - exists fs. split; [reflexivity|]. split; [reflexivity|constructor].
  - inversion_clear ND as [|? ? NI ND']. inversion_clear FG as [|? ? G1 FG']. destruct (G1 fs I) as (fs1 & E & OC & NN & HG). rewrite E.
    destruct (IH ND' FG' fs1 (KEEP p fs fs1 I OC NN)) as (fs' & E2 & OT & FG2). exists fs'. split; [exact E2|]. split.
    + intros i N. cbn in N. rewrite OT by tauto. apply OC. intros ->. apply N. left. reflexivity.
    + constructor; [|exact FG2]. rewrite OT by exact NI. exact HG.
Qed.
End Turns.

(* the bytes written do not depend on the file, nor on how it is written *)
Lemma same_bytes encode fails fails' others scale m o old old' s' o' ev :
  (forall k, fails k = None) -> (forall k, fails' k = None) ->
  Save (Some m) (standard_writer encode fails others scale) (standard_new old, o) = ((s', o'), ev, Returned None) ->
  exists s2, Save (Some m) (standard_writer encode fails' others scale) (standard_new old', o) = ((s2, o'), ev, Returned None) /\ s_file s2 = s_file s'.
Proof.
  intros N N'. unfold Save, standard_writer, standard_new. cbn [wr_write wr_close].
  destruct (draw others scale m o) as [[[[w h] cv] o1]|]; [|discriminate].
  destruct (encoder_refuses (o_encoder o1) w h); [discriminate|].
  destruct (sink_all fails N (encode (o_encoder o1) (w, h, cv)) (standard_open old) 0) as [c1 ->].
  destruct (sink_all fails' N' (encode (o_encoder o1) (w, h, cv)) (standard_open old') 0) as [c2 ->].
  cbn [sink_close s_open]. intros E. injection E as <- <- <-. eexists. split; [reflexivity|]. cbn [s_file]. reflexivity.
Qed.
