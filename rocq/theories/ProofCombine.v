(* Drawing options together: shapes, halftone, gradient, logo and its safe zone. *)
From Coq Require Import Lia.
From Verif Require Import ModelBase ModelMatrix ModelStandard ModelShapes.
From Verif Require Import SpecReader SpecMatrix SpecStandard SpecMedium SpecShape SpecShapes SpecLogo SpecCombine.
From Verif Require Import ProofBase ProofMatrix ProofEval ProofViews ProofStandard ProofShape ProofLinks ProofGradient PropsShape PropsLogo.

Lemma proper_links f bw d : proper_shape f bw d -> 0 <= d < bw -> linking_shape f bw d.
Proof.
  intros P HD cv k TX TY KW KH _. destruct (P cv k TX TY KW KH) as [P1 P2]. split.
  - intros i j NE. cbv zeta. left. apply P1. unfold in_box. rewrite KW, KH. nia.
  - cbv zeta. rewrite P2. split; [|intros _; apply tinted_over]. intros _ [GO AO] G. apply over_opaque; assumption.
Qed.

(* the calls for one module *)
Lemma calls_form scale o n t m x y :
  calls_at scale o n t m x y = [] \/
  calls_at scale o n t m x y = [mkCall (qrtype (rawget m x y) =? QRType_FINDER) (x * qrBlockWidth o + b_left o) 0 (y * qrBlockWidth o + b_top o) 0 (qrBlockWidth o) (qrBlockWidth o)
            (if qrbool (rawget m x y) then o_qrColor o else light o) (getNeighbours t x y)] \/
  exists i, o_halftone o = Some i /\ calls_at scale o n t m x y =
    halftone_calls (scale i (n * 3)) (o_bgTransparent o) (qrBlockWidth o) x y (x * qrBlockWidth o + b_left o) (y * qrBlockWidth o + b_top o) (if qrbool (rawget m x y) then o_qrColor o else light o).
Proof.
  unfold calls_at, module_calls. destruct (safe_b o n x y && qrbool (rawget m x y)); [left; reflexivity|right]. cbv zeta.
  destruct (Z.eqb_spec (qrtype (rawget m x y)) QRType_FINDER) as [E|NF]; [left; reflexivity|].
  destruct (Z.eqb_spec (qrtype (rawget m x y)) QRType_DATA); [|left; reflexivity].
  destruct (o_halftone o) as [i|]; [right; exists i; split; reflexivity|left; reflexivity].
Qed.

Lemma calls_halftone_out scale o n t m x y i : o_halftone o = Some i -> safe_b o n x y = false ->
  calls_at scale o n t m x y =
    if qrtype (rawget m x y) =? QRType_DATA
    then halftone_calls (scale i (n * 3)) (o_bgTransparent o) (qrBlockWidth o) x y (x * qrBlockWidth o + b_left o) (y * qrBlockWidth o + b_top o)
           (if qrbool (rawget m x y) then o_qrColor o else light o)
    else [mkCall (qrtype (rawget m x y) =? QRType_FINDER) (x * qrBlockWidth o + b_left o) 0 (y * qrBlockWidth o + b_top o) 0 (qrBlockWidth o) (qrBlockWidth o)
            (if qrbool (rawget m x y) then o_qrColor o else light o) (getNeighbours t x y)].
Proof.
  intros EH ES. unfold calls_at, module_calls. rewrite EH, ES. cbn [andb]. cbv zeta.
  destruct (Z.eqb_spec (qrtype (rawget m x y)) QRType_FINDER) as [->|]; [reflexivity|].
  destruct (Z.eqb_spec (qrtype (rawget m x y)) QRType_DATA); reflexivity.
Qed.

(* the nine calls of a halftone block, at a sampled pixel *)
Lemma halftone_other f bw d : 1 <= bw -> halftone_shape f bw d -> forall grey tr x y cx cy color a b cv, ~ (a = 0 /\ b = 0) ->
  fold_left f (halftone_calls grey tr bw x y cx cy color) cv (cx + a * bw + d) (cy + b * bw + d) = cv (cx + a * bw + d) (cy + b * bw + d).
Proof.
  intros B1 HS grey tr x y cx cy color a b cv NE.
  assert (AL : forall k, In k (halftone_calls grey tr bw x y cx cy color) -> exists i j, sub_block k bw i j /\ k_x k = cx /\ k_y k = cy).
  { intros k I. unfold halftone_calls in I. apply in_flat_map in I as (i & Ii & I). apply in_map_iff in I as (j & <- & Ij). apply in_zseq in Ii, Ij.
    exists i, j. unfold sub_block. cbn [k_finder k_x k_tx k_y k_ty k_w k_h k_neighbours]. rewrite Z.quot_div_nonneg by lia. repeat split; lia. }
  revert AL cv. generalize (halftone_calls grey tr bw x y cx cy color) as l. induction l as [|k l IH]; intros AL cv; [reflexivity|]. cbn [fold_left].
  rewrite IH by (intros k' I; apply AL; right; exact I). destruct (AL k (or_introl eq_refl)) as (i & j & SB & EX & EY).
  destruct (HS cv k i j SB) as [P _]. specialize (P a b ltac:(tauto)). cbv zeta in P. rewrite EX, EY in P. exact P.
Qed.

Lemma halftone_own f bw d : 1 <= bw -> halftone_shape f bw d -> forall grey tr x y cx cy color cv,
  let p := fold_left f (halftone_calls grey tr bw x y cx cy color) cv (cx + d) (cy + d) in let q := cv (cx + d) (cy + d) in
  tinted color q p /\ (opaque color -> good q -> p = color).
Proof.
  intros B1 HS grey tr x y cx cy color cv. cbv zeta. unfold halftone_calls. rewrite Z.quot_div_nonneg by lia. change (zseq 0 3) with [0; 1; 2]. cbn [flat_map map app].
  set (K := fun i j => mkCall false cx (i * bw) cy (j * bw) (bw / 3) (bw / 3) (if (i =? 1) && (j =? 1) then color else halftoneColor (grey (x * 3 + i) (y * 3 + j)) tr) 0).
  change (fold_left f _ cv) with (fold_left f ([K 0 0; K 0 1; K 0 2; K 1 0] ++ K 1 1 :: [K 1 2; K 2 0; K 2 1; K 2 2]) cv).
  assert (SB : forall i j, 0 <= i <= 2 -> 0 <= j <= 2 -> sub_block (K i j) bw i j) by (intros i j HI HJ; unfold sub_block, K; cbn [k_finder k_x k_tx k_y k_ty k_w k_h k_neighbours]; repeat split; lia).
  assert (OT : forall i j cv, 0 <= i <= 2 -> 0 <= j <= 2 -> ~ (i = 1 /\ j = 1) -> f cv (K i j) (cx + d) (cy + d) = cv (cx + d) (cy + d)).
  { intros i j cv' HI HJ NE. destruct (HS cv' (K i j) i j (SB i j HI HJ)) as [P _]. specialize (P 0 0 ltac:(tauto)). cbv zeta in P. unfold K in P at 2 3 4 5. cbn [k_x k_y] in P.
    replace (cx + 0 * bw + d) with (cx + d) in P by ring. replace (cy + 0 * bw + d) with (cy + d) in P by ring. exact P. }
  rewrite fold_left_app. cbn [fold_left]. rewrite !OT by lia.
  match goal with |- context [f ?cv1 (K 1 1)] => set (c1 := cv1) end.
  assert (E1 : c1 (cx + d) (cy + d) = cv (cx + d) (cy + d)) by (unfold c1; rewrite !OT by lia; reflexivity).
  destruct (HS c1 (K 1 1) 1 1 (SB 1 1 ltac:(lia) ltac:(lia))) as [_ P]. specialize (P eq_refl eq_refl). cbv zeta in P. change (k_x (K 1 1)) with cx in P. change (k_y (K 1 1)) with cy in P.
  change (k_color (K 1 1)) with color in P. rewrite E1 in P. exact P.
Qed.

Section Links.
Context (f : canvas -> call -> canvas) (d : Z) (scale : image -> Z -> Z -> Z -> Z) (o : options) (n : Z) (t : list (list bool)) (m : Matrix).
Context (LS : linking_shape f (qrBlockWidth o) d) (HH : o_halftone o <> None -> halftone_shape f (qrBlockWidth o) d).
Context (N1 : 1 <= n) (TT : twf t n n) (GT : forall x y, bget t y x = dark m x y && negb (safe_b o n y x)).
Context (RAW : forall x y, 0 <= x < n -> 0 <= y < n -> dark m x y = qrbool (rawget m x y)).

(* the bits may be wrong near the safe zone, but a bit that is set means a dark module *)
Lemma self_bit_dark a b : 0 <= a < n -> 0 <= b < n -> Z.testbit (getNeighbours t a b) 4 = true -> qrbool (rawget m a b) = true.
Proof.
  intros HA HB. rewrite (neighbours_bits t n a b TT N1 4 0 0) by (cbn; auto 10). rewrite !Z.add_0_r, GT, RAW by assumption.
  destruct (qrbool (rawget m a b)); auto.
Qed.
Lemma self_bit_clear a b : 0 <= a < n -> 0 <= b < n -> safe_b o n b a = false -> Z.testbit (getNeighbours t a b) 4 = qrbool (rawget m a b).
Proof.
  intros HA HB ES. rewrite (neighbours_bits t n a b TT N1 4 0 0) by (cbn; auto 10). rewrite !Z.add_0_r, GT, RAW, ES by assumption. apply andb_true_r.
Qed.

Lemma zone_other a b x y cv : 0 <= a < n -> 0 <= b < n -> 0 <= x < n -> 0 <= y < n -> (a, b) <> (x, y) ->
  let p := fold_left f (calls_at scale o n t m a b) cv (sample_x o d x) (sample_y o d y) in let q := cv (sample_x o d x) (sample_y o d y) in
  p = q \/ (qrbool (rawget m x y) = true /\ tinted (o_qrColor o) q p).
Proof.
  intros HA HB HX HY NE. cbv zeta. destruct (calls_form scale o n t m a b) as [->|[->|(i & EI & ->)]]; [left; reflexivity| |].
  2:{ left. pose proof (block_width_range o). pose proof (halftone_other f (qrBlockWidth o) d ltac:(lia) ltac:(apply HH; rewrite EI; discriminate) (scale i (n * 3)) (o_bgTransparent o) a b (a * qrBlockWidth o + b_left o) (b * qrBlockWidth o + b_top o)
        (if qrbool (rawget m a b) then o_qrColor o else light o) (x - a) (y - b) cv ltac:(intros [F1 F2]; apply NE; f_equal; lia)) as P.
      replace (sample_x o d x) with (a * qrBlockWidth o + b_left o + (x - a) * qrBlockWidth o + d) by (unfold sample_x; ring).
      replace (sample_y o d y) with (b * qrBlockWidth o + b_top o + (y - b) * qrBlockWidth o + d) by (unfold sample_y; ring). exact P. }
  cbn [fold_left].
  match goal with |- f cv ?kk _ _ = _ \/ _ => set (k := kk) end.
  destruct (LS cv k eq_refl eq_refl eq_refl eq_refl (neighbours_range t a b)) as [P _].
  specialize (P (x - a) (y - b) ltac:(intros [F1 F2]; apply NE; f_equal; lia)). cbv zeta in P.
  assert (EX : k_x k + (x - a) * qrBlockWidth o + d = sample_x o d x) by (unfold k, sample_x; cbn [k_x]; ring).
  assert (EY : k_y k + (y - b) * qrBlockWidth o + d = sample_y o d y) by (unfold k, sample_y; cbn [k_y]; ring).
  rewrite EX, EY in P. destruct P as [P|[[S (i & I & TB)] P]]; [left; exact P|]. right.
  unfold self_dark, k in S. cbn [k_neighbours] in S. apply self_bit_dark in S; [|assumption..].
  unfold k in TB. cbn [k_neighbours] in TB. rewrite (neighbours_bits t n a b TT N1 i _ _ I) in TB. rewrite GT in TB.
  replace (a + (x - a)) with x in TB by ring. replace (b + (y - b)) with y in TB by ring. rewrite RAW in TB by assumption.
  apply andb_true_iff in TB as [TB _]. split; [exact TB|]. unfold k in P at 1. cbn [k_color] in P. rewrite S in P. exact P.
Qed.

Lemma zone_self x y cv : 0 <= x < n -> 0 <= y < n -> safe_b o n x y = false -> safe_b o n y x = false ->
  let p := fold_left f (calls_at scale o n t m x y) cv (sample_x o d x) (sample_y o d y) in let q := cv (sample_x o d x) (sample_y o d y) in
  if qrbool (rawget m x y) then opaque (o_qrColor o) -> good q -> p = o_qrColor o else tinted (light o) q p.
Proof.
  intros HX HY S1 S2. cbv zeta. destruct (calls_form scale o n t m x y) as [E|[->|(i & EI & ->)]].
  { exfalso. unfold calls_at, module_calls in E. rewrite S1 in E. cbn [andb] in E. cbv zeta in E. destruct (qrtype _ =? _); [discriminate E|]. destruct (qrtype _ =? _); [|discriminate E].
    destruct (o_halftone o); [|discriminate E]. unfold halftone_calls in E. change (zseq 0 3) with [0; 1; 2] in E. cbn [flat_map map app] in E. discriminate E. }
  2:{ pose proof (block_width_range o). pose proof (halftone_own f (qrBlockWidth o) d ltac:(lia) ltac:(apply HH; rewrite EI; discriminate) (scale i (n * 3)) (o_bgTransparent o) x y (x * qrBlockWidth o + b_left o) (y * qrBlockWidth o + b_top o)
        (if qrbool (rawget m x y) then o_qrColor o else light o) cv) as P. cbv zeta in P.
      replace (sample_x o d x) with (x * qrBlockWidth o + b_left o + d) by (unfold sample_x; ring).
      replace (sample_y o d y) with (y * qrBlockWidth o + b_top o + d) by (unfold sample_y; ring). destruct P as [P1 P2]. destruct (qrbool (rawget m x y)); assumption. }
  cbn [fold_left]. match goal with |- context [f cv ?kk _ _] => set (k := kk) end.
  destruct (LS cv k eq_refl eq_refl eq_refl eq_refl (neighbours_range t x y)) as [_ P]. cbv zeta in P.
  assert (EX : k_x k + d = sample_x o d x) by (unfold k, sample_x; cbn [k_x]; ring).
  assert (EY : k_y k + d = sample_y o d y) by (unfold k, sample_y; cbn [k_y]; ring). rewrite EX, EY in P.
  assert (S : self_dark k = qrbool (rawget m x y)) by (apply self_bit_clear; assumption). rewrite S in P. destruct P as [P1 P2].
  assert (EC : k_color k = if qrbool (rawget m x y) then o_qrColor o else light o) by reflexivity. rewrite EC in P1, P2.
  destruct (qrbool (rawget m x y)); [exact (P1 eq_refl)|exact (P2 eq_refl)].
Qed.

Lemma zone_others x y : 0 <= x < n -> 0 <= y < n -> forall coords cv, (forall a b, In (a, b) coords -> 0 <= a < n /\ 0 <= b < n) -> ~ In (x, y) coords ->
  let p := fold_left f (flat_map (fun '(a, b) => calls_at scale o n t m a b) coords) cv (sample_x o d x) (sample_y o d y) in let q := cv (sample_x o d x) (sample_y o d y) in
  p = q \/ (qrbool (rawget m x y) = true /\ tinted (o_qrColor o) q p).
Proof.
  intros HX HY. cbv zeta. induction coords as [|[a b] coords IH]; intros cv HR NI; [left; reflexivity|]. cbn [flat_map]. rewrite fold_left_app.
  destruct (HR a b (or_introl eq_refl)) as [HA HB].
  assert (NE : (a, b) <> (x, y)) by (intros F; apply NI; left; exact F).
  assert (IH' := IH (fold_left f (calls_at scale o n t m a b) cv) (fun a b HI => HR a b (or_intror HI)) (fun F => NI (or_intror F))).
  pose proof (zone_other a b x y cv HA HB HX HY NE) as L. cbv zeta in L.
  destruct IH' as [E|[E1 E2]].
  - rewrite E. exact L.
  - right. split; [exact E1|]. destruct L as [L|[_ L]]; [rewrite <- L; exact E2|eapply tinted_trans; eauto].
Qed.

Lemma zone_sample x y cv : 0 <= x < n -> 0 <= y < n -> safe_b o n x y = false -> safe_b o n y x = false ->
  painter_colors o -> cv (sample_x o d x) (sample_y o d y) = border_color o ->
  fold_left f (flat_map (fun '(a, b) => calls_at scale o n t m a b) (iter_coords IterDirection_ROW n n)) cv (sample_x o d x) (sample_y o d y) =
    if qrbool (rawget m x y) then o_qrColor o else border_color o.
Proof.
  intros HX HY S1 S2 HC E0. pose proof HC as (HF & HG & HB). pose proof (good_border o HG) as GB.
  assert (HI : In (x, y) (iter_coords IterDirection_ROW n n)) by (apply in_iter_coords; auto).
  assert (HR : forall a b, In (a, b) (iter_coords IterDirection_ROW n n) -> 0 <= a < n /\ 0 <= b < n) by (intros a b I; apply in_iter_coords in I; exact I).
  pose proof (NoDup_iter_coords IterDirection_ROW n n) as ND. apply in_split in HI as (l1 & l2 & EL). rewrite EL in ND, HR |- *.
  rewrite flat_map_app, fold_left_app. cbn [flat_map]. rewrite fold_left_app.
  assert (NI : ~ In (x, y) (l1 ++ l2)) by (apply NoDup_remove_2 in ND; exact ND).
  pose proof (zone_others x y HX HY l1 cv ltac:(intros a b I; apply HR, in_app_iff; auto) ltac:(intros I; apply NI, in_app_iff; auto)) as L1.
  set (cv1 := fold_left f (flat_map _ l1) cv) in *. pose proof (zone_self x y cv1 HX HY S1 S2) as L2. cbv zeta in L1, L2.
  set (cv2 := fold_left f (calls_at scale o n t m x y) cv1) in *.
  pose proof (zone_others x y HX HY l2 cv2 ltac:(intros a b I; apply HR, in_app_iff; right; right; exact I) ltac:(intros I; apply NI, in_app_iff; auto)) as L3. cbv zeta in L3.
  rewrite E0 in L1. destruct (qrbool (rawget m x y)).
  - assert (G1 : good (cv1 (sample_x o d x) (sample_y o d y))) by (destruct L1 as [->|[_ L1]]; [exact GB|eapply tinted_good; eauto]).
    rewrite (L2 HF G1) in L3. destruct L3 as [->|[_ L3]]; [reflexivity|]. apply tinted_same; assumption.
  - destruct L1 as [L1|[F _]]; [|discriminate F]. destruct L3 as [->|[F _]]; [|discriminate F]. rewrite L1 in L2. apply tinted_light; assumption.
Qed.
End Links.

Lemma style_range others o d : readable_style others o d -> 0 <= d < qrBlockWidth o.
Proof. intros (_ & HD & _). exact HD. Qed.

(* the modules before gradient and logo *)
Lemma style_base others scale n t m o d : square n m -> readable_style others o d -> painter_colors o -> 1 <= n -> twf t n n ->
  (forall x y, bget t y x = dark m x y && negb (safe_b o n y x)) ->
  forall x y, 0 <= x < n -> 0 <= y < n -> 0 <= sample_x o d x < img_w o n -> 0 <= sample_y o d y < img_h o n ->
  safe_b o n x y = false -> safe_b o n y x = false ->
  shape_base others scale n t m o (sample_x o d x) (sample_y o d y) = if module_at (m_bitmap m) x y then o_qrColor o else border_color o.
Proof.
  intros HS ST HC N1 TT GT x y HX HY RX RY S1 S2. pose proof HS as (HW & EW & EHt). pose proof HC as (HF & HG & HB). pose proof (good_border o HG) as GB.
  rewrite module_at_bitmap by (auto; split; lia). unfold shape_base. destruct ST as (LS & HD & HT).
  assert (RAW : forall x y, 0 <= x < n -> 0 <= y < n -> dark m x y = qrbool (rawget m x y)).
  { intros a b HA HB'. unfold dark. rewrite module_at_bitmap by (auto; split; lia). rewrite EW, EHt.
    destruct (Z.leb_spec 0 a), (Z.ltb_spec a n), (Z.leb_spec 0 b), (Z.ltb_spec b n); try lia. reflexivity. }
  apply (zone_sample _ d scale o n t m LS HT N1 TT GT RAW); auto. apply blank_pixel; auto.
Qed.

(* the picture: all options together *)
Lemma style_samples_any others scale n m o d : square n m -> 1 <= n -> readable_style others o d -> painter_colors o ->
  (o_gradient o <> None -> o_bgTransparent o = false -> o_bgColor o <> o_qrColor o) ->
  (forall px py, 0 <= px < img_w o n -> 0 <= py < img_h o n -> opaque (ink o px py)) ->
  0 <= b_left o -> 0 <= b_right o -> 0 <= b_top o -> 0 <= b_bottom o ->
  exists cv o', draw others scale m o = Some (Z.abs (img_w o n), Z.abs (img_h o n), cv, o') /\
    forall x y, 0 <= x < n -> 0 <= y < n -> safe_b o n x y = false -> safe_b o n y x = false ->
    (forall i, o_logo o = Some i -> logo_fits o (img_w o n) (img_h o n) i -> ~ logo_covers (img_w o n) (img_h o n) i (sample_x o d x) (sample_y o d y)) ->
    if module_at (m_bitmap m) x y then cv (sample_x o d x) (sample_y o d y) = ink o (sample_x o d x) (sample_y o d y) else is_light o (cv (sample_x o d x) (sample_y o d y)).
Proof.
  intros HS N1 ST HC DIFF OP B1 B2 B3 B4. pose proof (style_range _ _ _ ST) as HD.
  destruct (draw_shape_spec others scale n m o HS) as (t & o' & E & _ & TT & GT). rewrite E. cbv zeta. eexists. exists o'. split; [reflexivity|].
  intros x y X Y S1 S2 HL. rewrite logo_out_any by assumption. fold (shape_base others scale n t m o).
  destruct (sample_range o n d x y B1 B2 B3 B4 HD X Y) as [RX RY]. pose proof (style_base others scale n t m o d HS ST HC N1 TT GT x y X Y RX RY S1 S2) as EB.
  pose proof HC as (HF & HG & HB). pose proof (good_border o HG) as GB. set (px := sample_x o d x) in *. set (py := sample_y o d y) in *. set (cv := shape_base others scale n t m o) in *.
  unfold ink in *. destruct (o_gradient o) as [g|] eqn:EG.
  - destruct (module_at (m_bitmap m) x y).
    + destruct (gradient_pixel cv (o_qrColor o) g px py) as [K _]; [rewrite EB; apply HF|]. apply K; auto.
    + destruct (gradient_pixel cv (o_qrColor o) g px py) as [_ K]; [rewrite EB; exact GB|]. rewrite K.
      * rewrite EB. apply border_light.
      * rewrite EB. unfold border_color. destruct (o_bgTransparent o) eqn:ET; [|apply DIFF; [discriminate|reflexivity]]. intros F. destruct HF as [_ HF]. rewrite <- F in HF. discriminate HF.
      * rewrite EB. unfold border_color. destruct (o_bgTransparent o) eqn:ET; [right; reflexivity|left; apply HB; reflexivity].
  - rewrite EB. destruct (module_at (m_bitmap m) x y); [reflexivity|apply border_light].
Qed.

Lemma style_samples others scale n m o d : square n m -> 1 <= n -> readable_style others o d -> painter_colors o ->
  (o_gradient o <> None -> o_bgTransparent o = false -> o_bgColor o <> o_qrColor o) ->
  (forall px py, 0 <= px < img_w o n -> 0 <= py < img_h o n -> opaque (ink o px py)) ->
  0 <= b_left o -> 0 <= b_right o -> 0 <= b_top o -> 0 <= b_bottom o -> (forall i, o_logo o = Some i -> i_x0 i = 0 /\ i_y0 i = 0) ->
  exists cv o', draw others scale m o = Some (Z.abs (img_w o n), Z.abs (img_h o n), cv, o') /\
    forall x y, 0 <= x < n -> 0 <= y < n -> safe_b o n x y = false -> safe_b o n y x = false ->
    (forall i, o_logo o = Some i -> logo_fits o (img_w o n) (img_h o n) i -> ~ in_logo (img_w o n) (img_h o n) i (sample_x o d x) (sample_y o d y)) ->
    if module_at (m_bitmap m) x y then cv (sample_x o d x) (sample_y o d y) = ink o (sample_x o d x) (sample_y o d y) else is_light o (cv (sample_x o d x) (sample_y o d y)).
Proof.
  intros HS N1 ST HC DIFF OP B1 B2 B3 B4 H0. destruct (style_samples_any others scale n m o d HS N1 ST HC DIFF OP B1 B2 B3 B4) as (cv & o' & E & K).
  exists cv, o'. split; [exact E|]. intros x y X Y S1 S2 HN. apply (K x y X Y S1 S2). intros i EI HF IL. destruct (H0 i EI) as [X0 Y0].
  apply (HN i EI HF). apply covers_middle in IL; auto.
Qed.

(* no logo *)
Lemma no_logo_safe o n x y : o_logo o = None -> safe_b o n x y = false.
Proof. intros EL. unfold safe_b, logo_info. rewrite EL. reflexivity. Qed.
(* outside the middle *)
Lemma outside_safe o n z d x y : logo_options o z -> 0 <= n -> 0 <= d < qrBlockWidth o -> ~ (middle n z x /\ middle n z y) -> safe_b o n x y = false.
Proof.
  intros LO HN HD NZ. destruct (clear_of_logo o z n d x y LO HN HD NZ) as [_ NS]. apply not_true_iff_false. intros F. apply NS. apply safe_zone_spec; [|exact F].
  intros i EL. destruct LO as (_ & _ & _ & _ & _ & LG). destruct (LG i EL) as (-> & -> & ? & ?). lia.
Qed.
