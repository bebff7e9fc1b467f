(* Shapes that reach into neighbours: the picture. *)
From Coq Require Import Lia.
From Verif Require Import ModelBase ModelMatrix ModelStandard ModelShapes.
From Verif Require Import SpecReader SpecMatrix SpecStandard SpecMedium SpecShape SpecShapes ProofBase ProofMatrix ProofEval ProofViews ProofStandard ProofShape.

Lemma good_over_at ma d c : good (over_at ma d c).
Proof. unfold over_at, good, byte, over_at_channel. cbn [c_r c_g c_b c_a]. repeat split; try (apply Z.mod_pos_bound; lia). Qed.
Lemma tinted_good c a b : tinted c a b -> good a -> good b.
Proof. induction 1; auto using good_over_at. Qed.
Lemma tinted_trans c a b e : tinted c a b -> tinted c b e -> tinted c a e.
Proof. induction 1; auto. intros. econstructor; eauto. Qed.
Lemma tinted_over c a : tinted c a (over a c).
Proof. eapply (more_paint c a 65535); [lia|]. change 65535 with (area_alpha (64 * 64)). rewrite over_full. constructor. Qed.

Lemma channel_same ma v : 0 <= ma <= 65535 -> byte v -> over_at_channel ma v v 255 = v.
Proof.
  intros HM HV. unfold over_at_channel, byte in *. change (255 * 257) with 65535.
  replace (65535 * ma / 65535) with ma by (rewrite (Z.mul_comm 65535 ma), Z.div_mul by lia; reflexivity).
  replace (v * ((65535 - ma) * 257) + v * 257 * ma) with (v * 257 * 65535) by ring.
  rewrite (Z.mod_small (v * 257 * 65535)) by lia. rewrite Z.div_mul by lia. replace (v * 257) with (v + v * 256) by ring. rewrite Z.div_add, Z.div_small by lia. rewrite Z.add_0_l. apply Z.mod_small. lia.
Qed.
Lemma over_at_same ma c : 0 <= ma <= 65535 -> opaque c -> over_at ma c c = c.
Proof.
  intros HM ((R & G & B & A) & E). unfold over_at. rewrite E. rewrite !channel_same by (auto; unfold byte; lia). destruct c. cbn in *. subst. reflexivity.
Qed.
Lemma tinted_same c b : opaque c -> tinted c c b -> b = c.
Proof. intros O HT. remember c as a eqn:E in HT at 2. induction HT as [|a ma b HM HT IH]; [exact E|]. apply IH. subst a. apply over_at_same; assumption. Qed.

Lemma channel_none ma v : 0 <= ma <= 65535 -> byte v -> over_at_channel ma v 0 0 = v.
Proof.
  intros HM HV. unfold over_at_channel, byte in *. rewrite !Z.mul_0_l. change (0 / 65535) with 0. rewrite Z.sub_0_r, Z.add_0_r.
  replace (v * (65535 * 257)) with (v * 257 * 65535) by ring. rewrite (Z.mod_small (v * 257 * 65535)) by lia. rewrite Z.div_mul by lia.
  replace (v * 257) with (v + v * 256) by ring. rewrite Z.div_add, Z.div_small by lia. rewrite Z.add_0_l. apply Z.mod_small. lia.
Qed.
Lemma tinted_clear a b : good a -> tinted (mkRGBA 0 0 0 0) a b -> b = a.
Proof.
  intros G HT. remember (mkRGBA 0 0 0 0) as c eqn:E. induction HT as [|a ma b HM HT IH]; [reflexivity|]. subst c.
  assert (EQ : over_at ma a (mkRGBA 0 0 0 0) = a).
  { destruct G as (R & GG & B & A). unfold over_at. cbn [c_r c_g c_b c_a]. rewrite !channel_none by auto. destruct a; reflexivity. }
  rewrite EQ in IH. apply IH; auto.
Qed.
Lemma tinted_light o b : painter_colors o -> tinted (light o) (border_color o) b -> b = border_color o.
Proof.
  intros (_ & HG & HB). pose proof (good_border o HG) as GB. unfold light, border_color in *. destruct (o_bgTransparent o).
  - apply tinted_clear. exact GB.
  - apply tinted_same. split; auto.
Qed.

Section Links.
Context (f : canvas -> call -> canvas) (d : Z) (scale : image -> Z -> Z -> Z -> Z) (o : options) (n : Z) (t : list (list bool)) (m : Matrix).
Context (LS : linking_shape f (qrBlockWidth o) d) (EH : o_halftone o = None).
Context (N1 : 1 <= n) (TT : twf t n n) (GT : forall x y, bget t y x = dark m x y) (NS : forall x y, safe_b o n x y = false).
Context (RAW : forall x y, 0 <= x < n -> 0 <= y < n -> dark m x y = qrbool (rawget m x y)).

Lemma neighbours_range x y : 0 <= getNeighbours t x y < 512.
Proof.
  assert (H0 : 0 <= getNeighbours t x y).
  { apply Z.nlt_ge. intros F. pose proof (Z.bits_iff_neg_ex (getNeighbours t x y)) as [A _]. apply A in F as [k F].
    specialize (F (Z.max k 9 + 1) ltac:(lia)). rewrite neighbours_high in F by lia. discriminate F. }
  split; [exact H0|]. destruct (Z.eq_dec (getNeighbours t x y) 0) as [->|NZ]; [lia|].
  change 512 with (2 ^ 9). apply Z.log2_lt_pow2; [lia|]. apply Z.nle_gt. intros F.
  pose proof (Z.bit_log2 (getNeighbours t x y) ltac:(lia)) as B. rewrite neighbours_high in B by lia. discriminate B.
Qed.

Lemma links_calls a b : calls_at scale o n t m a b = [mkCall (qrtype (rawget m a b) =? QRType_FINDER) (a * qrBlockWidth o + b_left o) 0 (b * qrBlockWidth o + b_top o) 0 (qrBlockWidth o) (qrBlockWidth o)
     (if qrbool (rawget m a b) then o_qrColor o else light o) (getNeighbours t a b)].
Proof. rewrite calls_plain by exact EH. rewrite NS. reflexivity. Qed.

Lemma self_bit a b : 0 <= a < n -> 0 <= b < n -> Z.testbit (getNeighbours t a b) 4 = qrbool (rawget m a b).
Proof.
  intros HA HB. rewrite (neighbours_bits t n a b TT N1 4 0 0) by (cbn; auto 10). rewrite !Z.add_0_r, GT. apply RAW; assumption.
Qed.

(* a call for another module *)
Lemma link_other a b x y cv : 0 <= a < n -> 0 <= b < n -> 0 <= x < n -> 0 <= y < n -> (a, b) <> (x, y) ->
  let p := fold_left f (calls_at scale o n t m a b) cv (sample_x o d x) (sample_y o d y) in let q := cv (sample_x o d x) (sample_y o d y) in
  p = q \/ (qrbool (rawget m x y) = true /\ tinted (o_qrColor o) q p).
Proof.
  intros HA HB HX HY NE. cbv zeta. rewrite links_calls. cbn [fold_left].
  match goal with |- f cv ?kk _ _ = _ \/ _ => set (k := kk) end.
  destruct (LS cv k eq_refl eq_refl eq_refl eq_refl (neighbours_range a b)) as [P _].
  specialize (P (x - a) (y - b) ltac:(intros [F1 F2]; apply NE; f_equal; lia)). cbv zeta in P.
  assert (EX : k_x k + (x - a) * qrBlockWidth o + d = sample_x o d x) by (unfold k, sample_x; cbn [k_x]; ring).
  assert (EY : k_y k + (y - b) * qrBlockWidth o + d = sample_y o d y) by (unfold k, sample_y; cbn [k_y]; ring).
  rewrite EX, EY in P. destruct P as [P|[[S (i & I & TB)] P]]; [left; exact P|]. right.
  unfold self_dark, k in S. cbn [k_neighbours] in S. rewrite self_bit in S by assumption.
  unfold k in TB. cbn [k_neighbours] in TB. rewrite (neighbours_bits t n a b TT N1 i _ _ I) in TB. rewrite GT in TB.
  replace (a + (x - a)) with x in TB by ring. replace (b + (y - b)) with y in TB by ring. rewrite RAW in TB by assumption.
  split; [exact TB|]. unfold k in P at 1. cbn [k_color] in P. rewrite S in P. exact P.
Qed.

Lemma link_self x y cv : 0 <= x < n -> 0 <= y < n ->
  let p := fold_left f (calls_at scale o n t m x y) cv (sample_x o d x) (sample_y o d y) in let q := cv (sample_x o d x) (sample_y o d y) in
  if qrbool (rawget m x y) then opaque (o_qrColor o) -> good q -> p = o_qrColor o else tinted (light o) q p.
Proof.
  intros HX HY. cbv zeta. rewrite links_calls. cbn [fold_left]. match goal with |- context [f cv ?kk _ _] => set (k := kk) end.
  destruct (LS cv k eq_refl eq_refl eq_refl eq_refl (neighbours_range x y)) as [_ P]. cbv zeta in P.
  assert (EX : k_x k + d = sample_x o d x) by (unfold k, sample_x; cbn [k_x]; ring).
  assert (EY : k_y k + d = sample_y o d y) by (unfold k, sample_y; cbn [k_y]; ring). rewrite EX, EY in P.
  assert (S : self_dark k = qrbool (rawget m x y)) by (apply self_bit; assumption). rewrite S in P. destruct P as [P1 P2].
  assert (EC : k_color k = if qrbool (rawget m x y) then o_qrColor o else light o) by reflexivity. rewrite EC in P1, P2.
  destruct (qrbool (rawget m x y)); [exact (P1 eq_refl)|exact (P2 eq_refl)].
Qed.

Lemma links_others x y : 0 <= x < n -> 0 <= y < n -> forall coords cv, (forall a b, In (a, b) coords -> 0 <= a < n /\ 0 <= b < n) -> ~ In (x, y) coords ->
  let p := fold_left f (flat_map (fun '(a, b) => calls_at scale o n t m a b) coords) cv (sample_x o d x) (sample_y o d y) in let q := cv (sample_x o d x) (sample_y o d y) in
  p = q \/ (qrbool (rawget m x y) = true /\ tinted (o_qrColor o) q p).
Proof.
  intros HX HY. cbv zeta. induction coords as [|[a b] coords IH]; intros cv HR NI; [left; reflexivity|]. cbn [flat_map]. rewrite fold_left_app.
  destruct (HR a b (or_introl eq_refl)) as [HA HB].
  assert (NE : (a, b) <> (x, y)) by (intros F; apply NI; left; exact F).
  assert (IH' := IH (fold_left f (calls_at scale o n t m a b) cv) (fun a b HI => HR a b (or_intror HI)) (fun F => NI (or_intror F))).
  pose proof (link_other a b x y cv HA HB HX HY NE) as L. cbv zeta in L.
  destruct IH' as [E|[E1 E2]].
  - rewrite E. exact L.
  - right. split; [exact E1|]. destruct L as [L|[_ L]]; [rewrite <- L; exact E2|eapply tinted_trans; eauto].
Qed.

Lemma links_sample x y cv : 0 <= x < n -> 0 <= y < n -> painter_colors o -> cv (sample_x o d x) (sample_y o d y) = border_color o ->
  fold_left f (flat_map (fun '(a, b) => calls_at scale o n t m a b) (iter_coords IterDirection_ROW n n)) cv (sample_x o d x) (sample_y o d y) =
    if qrbool (rawget m x y) then o_qrColor o else border_color o.
Proof.
  intros HX HY HC E0. pose proof HC as (HF & HG & HB). pose proof (good_border o HG) as GB.
  assert (HI : In (x, y) (iter_coords IterDirection_ROW n n)) by (apply in_iter_coords; auto).
  assert (HR : forall a b, In (a, b) (iter_coords IterDirection_ROW n n) -> 0 <= a < n /\ 0 <= b < n) by (intros a b I; apply in_iter_coords in I; exact I).
  pose proof (NoDup_iter_coords IterDirection_ROW n n) as ND. apply in_split in HI as (l1 & l2 & EL). rewrite EL in ND, HR |- *.
  rewrite flat_map_app, fold_left_app. cbn [flat_map]. rewrite fold_left_app.
  assert (NI : ~ In (x, y) (l1 ++ l2)) by (apply NoDup_remove_2 in ND; exact ND).
  pose proof (links_others x y HX HY l1 cv ltac:(intros a b I; apply HR, in_app_iff; auto) ltac:(intros I; apply NI, in_app_iff; auto)) as L1.
  set (cv1 := fold_left f (flat_map _ l1) cv) in *. pose proof (link_self x y cv1 HX HY) as L2. cbv zeta in L1, L2.
  set (cv2 := fold_left f (calls_at scale o n t m x y) cv1) in *.
  pose proof (links_others x y HX HY l2 cv2 ltac:(intros a b I; apply HR, in_app_iff; right; right; exact I) ltac:(intros I; apply NI, in_app_iff; auto)) as L3. cbv zeta in L3.
  rewrite E0 in L1. destruct (qrbool (rawget m x y)).
  - assert (G1 : good (cv1 (sample_x o d x) (sample_y o d y))) by (destruct L1 as [->|[_ L1]]; [exact GB|eapply tinted_good; eauto]).
    rewrite (L2 HF G1) in L3. destruct L3 as [->|[_ L3]]; [reflexivity|]. apply tinted_same; assumption.
  - destruct L1 as [L1|[F _]]; [|discriminate F]. destruct L3 as [->|[F _]]; [|discriminate F]. rewrite L1 in L2. apply tinted_light; assumption.
Qed.
End Links.

Lemma links_base others scale n t m o d : square n m -> linking_shape (chosen_shape others o) (qrBlockWidth o) d -> 0 <= d < qrBlockWidth o ->
  o_halftone o = None -> painter_colors o -> 1 <= n -> twf t n n -> (forall x y, bget t y x = dark m x y && negb (safe_b o n y x)) -> (forall x y, safe_b o n x y = false) ->
  forall x y, 0 <= x < n -> 0 <= y < n -> 0 <= sample_x o d x < img_w o n -> 0 <= sample_y o d y < img_h o n ->
  shape_base others scale n t m o (sample_x o d x) (sample_y o d y) = if module_at (m_bitmap m) x y then o_qrColor o else border_color o.
Proof.
  intros HS LS HD EH HC N1 TT GT NS x y HX HY RX RY. pose proof HS as (HW & EW & EHt). pose proof HC as (HF & HG & HB). unfold shape_base.
  assert (RAW : forall x y, 0 <= x < n -> 0 <= y < n -> dark m x y = qrbool (rawget m x y)).
  { intros a b HA HB'. unfold dark. rewrite module_at_bitmap by (auto; split; lia). rewrite EW, EHt.
    destruct (Z.leb_spec 0 a), (Z.ltb_spec a n), (Z.leb_spec 0 b), (Z.ltb_spec b n); try lia. reflexivity. }
  rewrite (links_sample _ d scale o n t m LS EH N1 TT); auto.
  - rewrite module_at_bitmap by (auto; split; lia). reflexivity.
  - intros a b. rewrite GT, NS, andb_true_r. reflexivity.
  - apply blank_pixel; auto. apply good_border. exact HG.
Qed.
