(* Theorems C64 (what QRValue.Type says of the modules) and what follows from it for DrawFinder and for halftone pictures (C57). *)
From Coq Require Import Lia.
From Verif Require Import ModelBase ModelMatrix ModelQRCode ModelStandard SpecMatrix SpecIso SpecReader SpecSegment SpecAPI SpecStandard SpecMedium SpecShape SpecTypes Samples.
From Verif Require Import ProofBase ProofMatrix ProofWalk ProofLayout ProofSymbol ProofBuild ProofAPI ProofNew ProofViews ProofMedium ProofStandard ProofShape.
From Verif Require PropsNew PropsSymbol PropsShape.
Open Scope Z_scope.

Lemma types_made sjis : shift_jis_contract sjis -> forall text opts sched q, NewWith sjis text opts sched = Ok q ->
  exists v, read_version (m_bitmap (qMat q)) = Some v /\ valid_version v /\ square (side v) (qMat q) /\
    forall x y, 0 <= x < side v -> 0 <= y < side v -> qrtype (rawget (qMat q) x y) = type_of_region (region_of v x y) x y.
Proof.
  intros C text opts sched q HN. destruct (symbol_of sjis C text opts sched q HN) as (l & v & k & _ & _ & HV & _ & S & _).
  exists v. split; [eapply read_version_ok; eauto|]. split; [exact HV|]. split; [|apply (sy_type _ _ _ _ _ S)].
  split; [apply (sy_wf _ _ _ _ _ S)|]. split; [apply (sy_w _ _ _ _ _ S)|apply (sy_h _ _ _ _ _ S)].
Qed.

Lemma in_visits dir n m x y value : square n m -> In (x, y, value) (visits dir m) -> 0 <= x < n /\ 0 <= y < n /\ value = rawget m x y.
Proof.
  intros (_ & EW & EH) I. rewrite visits_map, EW, EH in I. apply in_map_iff in I as ([a b] & E & I). injection E as <- <- <-.
  apply in_iter_coords in I. tauto.
Qed.

(* the values Iterate shows have the type of the region their place belongs to *)
Theorem C64_types :
  forall sjis, shift_jis_contract sjis ->
  forall text opts sched q, NewWith sjis text opts sched = Ok q ->
    exists v, read_version (m_bitmap (qMat q)) = Some v /\
      forall dir x y value, In (x, y, value) (visits dir (qMat q)) -> qrtype value = type_of_region (region_of v x y) x y.
Proof.
  intros sjis C text opts sched q HN. destruct (types_made sjis C text opts sched q HN) as (v & R & _ & SQ & T). exists v. split; [exact R|].
  intros dir x y value I. destruct (in_visits dir _ _ _ _ _ SQ I) as (Hx & Hy & ->). apply T; assumption.
Qed.

Lemma finder_region v x y : valid_version v -> 0 <= x < side v -> 0 <= y < side v ->
  ((exists d, region_of v x y = Finder d) <-> in_finder_square v x y).
Proof.
  intros [V1 V2] Hx Hy. unfold side in Hx, Hy.
  assert (A : forall r, nearest x y (finder_centres v) 4 = r -> match r with Some d => (d <= 3 <-> in_finder_square v x y) /\ d <= 4 | None => ~ in_finder_square v x y end).
  { intros r <-. unfold nearest, finder_centres, in_finder_square, side. cbn [find]. unfold dist.
    repeat match goal with |- context [?a <=? 4] => destruct (Z.leb_spec a 4) end; lia. }
  unfold region_of, region_of_with. specialize (A _ eq_refl). destruct (nearest x y (finder_centres v) 4) as [d|].
  - destruct (Z.eqb_spec d 4); [split; [intros [? E]; discriminate E|intros I; apply A in I; lia]|]. split; [intros _; apply A; lia|intros _; eexists; reflexivity].
  - split; [|intros I; exfalso; apply A, I]. intros [d E]. revert E. destruct (nearest x y (align_centres v) 2); [intros E; discriminate E|].
    destruct (_ || _); [intros E; discriminate E|]. destruct (_ && _); [intros E; discriminate E|].
    destruct (in_format_area v x y); [intros E; discriminate E|]. destruct (in_version_area v x y); intros E; discriminate E.
Qed.
Lemma finder_type v x y : valid_version v -> 0 <= x < side v -> 0 <= y < side v ->
  (type_of_region (region_of v x y) x y = QRType_FINDER <-> in_finder_square v x y).
Proof.
  intros HV Hx Hy. rewrite <- finder_region by assumption. split; [|intros [d ->]; reflexivity].
  destruct (region_of v x y); unfold type_of_region; try (intros E; discriminate E); [eexists; reflexivity|].
  destruct (_ || _); intros E; discriminate E.
Qed.

(* Type() = FINDER exactly in the three corner squares; every module has one of the seven documented types, none is left INIT *)
Theorem C64_finder_iff :
  forall sjis, shift_jis_contract sjis ->
  forall text opts sched q, NewWith sjis text opts sched = Ok q ->
    exists v, read_version (m_bitmap (qMat q)) = Some v /\
      forall dir x y value, In (x, y, value) (visits dir (qMat q)) ->
        (qrtype value = QRType_FINDER <-> in_finder_square v x y) /\ qrtype value <> QRType_INIT.
Proof.
  intros sjis C text opts sched q HN. destruct (types_made sjis C text opts sched q HN) as (v & R & HV & SQ & T). exists v. split; [exact R|].
  intros dir x y value I. destruct (in_visits dir _ _ _ _ _ SQ I) as (Hx & Hy & ->). rewrite T by assumption. split; [apply finder_type; assumption|].
  destruct (region_of v x y); unfold type_of_region; try (intros E; discriminate E). destruct (_ || _); intros E; discriminate E.
Qed.

(* the standard writer asks the shape to draw a finder (DrawFinder) for the modules of the corner squares and for no others *)
Theorem C64_draw_finder :
  forall sjis, shift_jis_contract sjis ->
  forall text opts sched q, NewWith sjis text opts sched = Ok q ->
  forall scale o, exists v p, read_version (m_bitmap (qMat q)) = Some v /\ draw_plan scale (qMat q) o = Some p /\
    (forall k, In k (p_calls p) -> exists x y, 0 <= x < side v /\ 0 <= y < side v /\
        k_x k = b_left o + x * qrBlockWidth o /\ k_y k = b_top o + y * qrBlockWidth o /\ (k_finder k = true <-> in_finder_square v x y)) /\
    (o_logo o = None -> forall x y, in_finder_square v x y -> exists k, In k (p_calls p) /\ k_finder k = true /\
        k_x k = b_left o + x * qrBlockWidth o /\ k_y k = b_top o + y * qrBlockWidth o /\ k_w k = qrBlockWidth o /\ k_h k = qrBlockWidth o /\
        k_tx k = 0 /\ k_ty k = 0).
Proof.
  intros sjis C text opts sched q HN scale o. destruct (types_made sjis C text opts sched q HN) as (v & R & HV & SQ & T). exists v.
  destruct (plan_spec scale (side v) (qMat q) o SQ) as (p & t & E & _ & _ & _ & _ & EC & _). exists p. split; [exact R|]. split; [exact E|]. rewrite EC. split.
  - intros k I. apply in_flat_map in I as ([x y] & IC & I). apply in_iter_coords in IC as [Hx Hy]. exists x, y. split; [exact Hx|]. split; [exact Hy|].
    rewrite <- (finder_type v x y HV Hx Hy), <- (T x y Hx Hy). unfold calls_at, module_calls in I.
    assert (PL : forall b : bool, (b = true <-> qrtype (rawget (qMat q) x y) = QRType_FINDER) -> forall c nb, In k [mkCall b (x * qrBlockWidth o + b_left o) 0 (y * qrBlockWidth o + b_top o) 0 (qrBlockWidth o) (qrBlockWidth o) c nb] ->
      k_x k = b_left o + x * qrBlockWidth o /\ k_y k = b_top o + y * qrBlockWidth o /\ (k_finder k = true <-> qrtype (rawget (qMat q) x y) = QRType_FINDER)).
    { intros b Hb c nb [<-|[]]. cbn [k_x k_y k_finder]. split; [lia|]. split; [lia|exact Hb]. }
    destruct (safe_b o (side v) x y && qrbool (rawget (qMat q) x y)); [destruct I|].
    destruct (Z.eqb_spec (qrtype (rawget (qMat q) x y)) QRType_FINDER) as [EF|NF]; [revert I; apply PL; split; auto|].
    assert (FF : false = true <-> qrtype (rawget (qMat q) x y) = QRType_FINDER) by (split; [intros X; discriminate X|intros X; exfalso; apply NF, X]).
    destruct (qrtype (rawget (qMat q) x y) =? QRType_DATA); [|revert I; apply PL, FF].
    destruct (o_halftone o); [|revert I; apply PL, FF]. unfold halftone_calls in I. apply in_flat_map in I as (a & _ & I). apply in_map_iff in I as (b & <- & _).
    cbn [k_x k_y k_finder]. split; [lia|]. split; [lia|exact FF].
  - intros EL x y F. assert (Hxy : 0 <= x < side v /\ 0 <= y < side v) by (destruct HV; unfold in_finder_square, side in *; lia). destruct Hxy as [Hx Hy].
    apply (finder_type v x y HV Hx Hy) in F. rewrite <- (T x y Hx Hy) in F.
    eexists. split; [apply in_flat_map; exists (x, y); split; [apply in_iter_coords; split; assumption|]|].
    + unfold calls_at, module_calls. assert (ES : safe_b o (side v) x y = false) by (unfold safe_b, logo_info; rewrite EL; reflexivity). rewrite ES, F. cbn [andb]. rewrite Z.eqb_refl. left. reflexivity.
    + cbn [k_x k_y k_finder k_w k_h k_tx k_ty]. repeat split; lia.
Qed.

(* ------------------------------------------------------------------ alignment patterns *)
(* "data type means data module" is false: the modules of alignment patterns (off the timing lines) have type DATA *)
Theorem C64_alignment_is_data_refuted :
  exists text opts sched q x y, NewWith sample_sjis text opts sched = Ok q /\ read_version (m_bitmap (qMat q)) = Some 3 /\
    0 <= x < side 3 /\ 0 <= y < side 3 /\ region_of 3 x y = Alignment false /\ ~ In (x, y) (data_path 3) /\
    qrtype (rawget (qMat q) x y) = QRType_DATA.
Proof.
  destruct (PropsNew.hello_ok [WithVersion 3]) as [q HN]; auto. exists hello, [WithVersion 3], fair_schedule, q, 21, 22. split; [exact HN|].
  pose proof (PropsNew.C09_requested_version_honoured sample_sjis sample_contract _ _ _ _ HN ltac:(discriminate)) as (R & _).
  change (eff_version [WithVersion 3]) with 3 in R. split; [exact R|].
  destruct (types_made sample_sjis sample_contract _ _ _ _ HN) as (v & R' & _ & _ & T). rewrite R in R'. injection R' as <-.
  do 2 (split; [unfold side; lia|]). split; [vm_compute; reflexivity|]. split; [|rewrite T by (unfold side; lia); vm_compute; reflexivity].
  intros I. apply in_data_path_region in I. vm_compute in I. discriminate I.
Qed.

(* With a halftone picture (C57) the modules of every function pattern except alignment patterns are drawn in full ... *)
Theorem C57_function_patterns :
  forall sjis, shift_jis_contract sjis ->
  forall text opts sched q, NewWith sjis text opts sched = Ok q ->
  forall others scale o i, getShape o = ShapeRectangle -> o_halftone o = Some i -> o_logo o = None -> o_gradient o = None -> painter_colors o ->
  exists v cv o', read_version (m_bitmap (qMat q)) = Some v /\
    draw others scale (qMat q) o = Some (Z.abs (img_w o (side v)), Z.abs (img_h o (side v)), cv, o') /\
    forall px py x y, 0 <= px < img_w o (side v) -> 0 <= py < img_h o (side v) -> 0 <= x < side v -> 0 <= y < side v -> in_module o x y px py ->
      region_of v x y <> DataArea -> (forall d, region_of v x y <> Alignment d) ->
      if module_at (m_bitmap (qMat q)) x y then cv px py = o_qrColor o else is_light o (cv px py).
Proof.
  intros sjis C text opts sched q HN others scale o i EG EH EL EGr HC. destruct (types_made sjis C text opts sched q HN) as (v & R & HV & SQ & T).
  destruct (halftone_pixels others scale (side v) (qMat q) o i SQ EG EH EL EGr HC) as (cv & o' & E & HP). exists v, cv, o'. split; [exact R|]. split; [exact E|].
  intros px py x y Px Py Hx Hy IM ND NA. destruct (HP px py Px Py) as [P _]. destruct (P x y Hx Hy) as [P1 _]. apply P1; [|exact IM].
  unfold data_module. rewrite T by assumption. destruct (region_of v x y) as [| | | | | | |]; cbn [type_of_region]; try (intros X; discriminate X).
  - exfalso. apply (NA _ eq_refl).
  - exfalso. apply ND. reflexivity.
Qed.

(* ... but alignment patterns are drawn over by the picture like data modules: a light module of the pattern shows pixels in the
   colour of dark modules *)
Theorem C57_alignment_patterns_refuted :
  exists text opts sched q o px py, NewWith sample_sjis text opts sched = Ok q /\ read_version (m_bitmap (qMat q)) = Some 3 /\
    NewWithWriter (fun _ => None) [WithHalftoneImage (Some PropsShape.any_picture)] = Some o /\
    region_of 3 21 22 = Alignment false /\ module_at (m_bitmap (qMat q)) 21 22 = false /\ in_module o 21 22 px py /\
    forall others, exists cv o', draw others (fun _ _ _ _ => 0) (qMat q) o = Some (Z.abs (img_w o (side 3)), Z.abs (img_h o (side 3)), cv, o') /\
      cv px py = o_qrColor o /\ ~ is_light o (cv px py).
Proof.
  destruct (PropsNew.hello_ok [WithVersion 3]) as [q HN]; auto.
  pose proof (PropsNew.C09_requested_version_honoured sample_sjis sample_contract _ _ _ _ HN ltac:(discriminate)) as (R & _).
  change (eff_version [WithVersion 3]) with 3 in R.
  destruct (types_made sample_sjis sample_contract _ _ _ _ HN) as (v & R' & _ & SQ & T). rewrite R in R'. injection R' as <-.
  destruct (PropsSymbol.C12_function_patterns sample_sjis sample_contract _ _ _ _ HN) as (v & R' & F). rewrite R in R'. injection R' as <-.
  exists hello, [WithVersion 3], fair_schedule, q. eexists.
  match goal with |- exists px py, _ /\ _ /\ ?w = Some ?o /\ _ => let o' := eval vm_compute in (match w with Some x => Some (qrBlockWidth x, b_left x, b_top x) | None => None end) in
    match o' with Some (?bw, ?l, ?t) => exists (l + 21 * bw), (t + 22 * bw) end end.
  split; [exact HN|]. split; [exact R|]. split; [reflexivity|].
  match goal with |- context [in_module ?oo] => set (o := oo) end.
  assert (RG : region_of 3 21 22 = Alignment false) by (vm_compute; reflexivity). split; [exact RG|].
  split; [apply F; [unfold side; lia|unfold side; lia|rewrite RG; reflexivity]|].
  assert (EB : qrBlockWidth o = 20) by reflexivity. assert (E1 : b_left o = 40) by reflexivity. assert (E2 : b_top o = 40) by reflexivity.
  split; [unfold in_module; rewrite EB, E1, E2; lia|].
  intros others.
  destruct (halftone_pixels others (fun _ _ _ _ => 0) (side 3) (qMat q) o PropsShape.any_picture SQ eq_refl eq_refl eq_refl eq_refl) as (cv & o' & E & HP).
  { unfold painter_colors, opaque, good, byte; cbn; repeat split; lia. }
  exists cv, o'. split; [exact E|].
  destruct (HP (40 + 21 * 20) (40 + 22 * 20)) as [P _]; [vm_compute; split; [intros X; discriminate X|reflexivity]..|].
  destruct (P 21 22 ltac:(unfold side; lia) ltac:(unfold side; lia)) as [_ P2].
  assert (K : cv (40 + 21 * 20) (40 + 22 * 20) = color_BLACK).
  { refine (P2 _ 0 0 _ _); [unfold data_module; rewrite T by (unfold side; lia); vm_compute; reflexivity| |]; unfold sub_pixel; rewrite EB, ?E1, ?E2; vm_compute; repeat split; intros X; discriminate X. }
  rewrite K. split; [reflexivity|]. vm_compute. intros X. discriminate X.
Qed.

(* the hypotheses are met *)
Example C64_example : exists q, NewWith sample_sjis hello [WithVersion 3] fair_schedule = Ok q /\ in_finder_square 3 22 0 /\ ~ in_finder_square 3 21 0 /\
  type_of_region (region_of 3 8 21) 8 21 = QRType_DARK /\ type_of_region (region_of 3 10 6) 10 6 = QRType_TIMING /\ type_of_region (region_of 3 28 28) 28 28 = QRType_DATA.
Proof.
  destruct (PropsNew.hello_ok [WithVersion 3]) as [q HN]; auto. exists q. split; [exact HN|]. split; [unfold in_finder_square, side; lia|].
  split; [unfold in_finder_square, side; lia|]. split; [vm_compute; reflexivity|]. split; vm_compute; reflexivity.
Qed.

Print Assumptions C64_types.
Print Assumptions C64_finder_iff.
Print Assumptions C64_draw_finder.
Print Assumptions C64_alignment_is_data_refuted.
Print Assumptions C57_function_patterns.
Print Assumptions C57_alignment_patterns_refuted.
