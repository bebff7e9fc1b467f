From Coq Require Import Lia.
From Verif Require Import ModelBase ModelMatrix ModelQRCode ModelSave ModelCompressed ModelStandard ModelWriters.
From Verif Require Import SpecIso SpecReader SpecSegment SpecAPI SpecMatrix SpecImage SpecStandard SpecMedium SpecShape SpecLocate.
From Verif Require Import ProofBase ProofMatrix ProofEval ProofCompressed ProofStandard ProofMedium PropsShape.
From Verif Require PropsCompressed PropsSymbol.

Lemma find_first f a s n : s <= a < s + n -> (forall x, s <= x < a -> f x = false) -> f a = true -> find f (zseq s n) = Some a.
Proof.
  unfold zseq. intros R. assert (K : a < s + Z.of_nat (Z.to_nat n)) by lia. revert K. generalize (Z.to_nat n). destruct R as [R _]. clear n.
  intros k. revert s R. induction k as [|k IH]; intros s R K LO HI; [lia|]. cbn [zseq_nat find].
  destruct (Z.eq_dec s a) as [->|NE]; [rewrite HI; reflexivity|]. rewrite LO by lia. apply IH; [lia|lia| |exact HI]. intros x X. apply LO. lia.
Qed.
Lemma zseq_last s k : zseq_nat s (S k) = zseq_nat s k ++ [s + Z.of_nat k].
Proof.
  revert s. induction k as [|k IH]; intros s; [cbn; f_equal; lia|]. change (zseq_nat s (S (S k))) with (s :: zseq_nat (s + 1) (S k)). rewrite IH.
  cbn [zseq_nat app]. do 2 f_equal. f_equal. lia.
Qed.
Lemma find_last f a n : 0 <= a < n -> (forall x, a < x < n -> f x = false) -> f a = true -> find f (rev (zseq 0 n)) = Some a.
Proof.
  unfold zseq. intros R LO HI. assert (K : 0 <= a < Z.of_nat (Z.to_nat n)) by lia. assert (LO' : forall x, a < x < Z.of_nat (Z.to_nat n) -> f x = false) by (intros; apply LO; lia).
  clear R LO. revert K LO'. generalize (Z.to_nat n) as k. induction k as [|k IH]; intros K LO; [lia|]. rewrite zseq_last, rev_app_distr. cbn [rev app find].
  destruct (Z.eq_dec a (0 + Z.of_nat k)) as [E|NE]; [rewrite <- E, HI; reflexivity|]. rewrite LO by lia. apply IH; [lia|]. intros x X. apply LO. lia.
Qed.

(* the modules of a symbol as pixels *)
Record squares (dark : Z -> Z -> bool) (w h left top b n : Z) (f : Z -> Z -> bool) : Prop := mkSquares {
  sq_size : 0 <= left /\ 0 <= top /\ 1 <= b /\ left + n * b <= w /\ top + n * b <= h;
  sq_in : forall px py, left <= px < left + n * b -> top <= py < top + n * b -> dark px py = f ((px - left) / b) ((py - top) / b);
  sq_out : forall px py, 0 <= px < w -> 0 <= py < h -> ~ (left <= px < left + n * b /\ top <= py < top + n * b) -> dark px py = false }.

(* what is used of the finder patterns *)
Record corners_dark (n : Z) (f : Z -> Z -> bool) : Prop := mkCorners {
  cd_n : 21 <= n;
  cd_first : forall x, 0 <= x < 7 -> f x 0 = true;
  cd_gap : f 7 0 = false;
  cd_right : f (n - 1) 0 = true;
  cd_bottom : f 0 (n - 1) = true }.

Lemma sq_pixel dark w h left top b n f px py x y : squares dark w h left top b n f -> 0 <= x < n -> 0 <= y < n ->
  left + x * b <= px < left + (x + 1) * b -> top + y * b <= py < top + (y + 1) * b -> dark px py = f x y.
Proof.
  intros SQ X Y PX PY. destruct (sq_size _ _ _ _ _ _ _ _ SQ) as (L & T & B & _). rewrite (sq_in _ _ _ _ _ _ _ _ SQ) by nia.
  f_equal; symmetry; [apply Z.div_unique with (px - left - x * b)|apply Z.div_unique with (py - top - y * b)]; lia.
Qed.

Lemma locate_squares dark w h left top b n f : squares dark w h left top b n f -> corners_dark n f -> locate dark w h = Some (left, top, b, n).
Proof.
  intros SQ [N FI GA RI BO]. pose proof (sq_size _ _ _ _ _ _ _ _ SQ) as (L & T & B & W & HH). assert (NB : 21 * b <= n * b) by nia.
  assert (D0 : forall px, left <= px < left + 7 * b -> dark px top = true).
  { intros px R. rewrite (sq_in _ _ _ _ _ _ _ _ SQ) by nia. replace ((top - top) / b) with 0 by (rewrite Z.sub_diag; symmetry; apply Z.div_0_l; lia).
    apply FI. split; [apply Z.div_pos; lia|apply Z.div_lt_upper_bound; nia]. }
  assert (G : dark (left + 7 * b) top = false) by (rewrite <- GA; eapply sq_pixel; [exact SQ|nia..]).
  assert (R : dark (left + n * b - 1) top = true) by (rewrite <- RI; eapply sq_pixel; [exact SQ|nia..]).
  unfold locate. rewrite (find_first _ top).
  - rewrite (find_first _ left 0 w); [|nia|intros x X; apply (sq_out _ _ _ _ _ _ _ _ SQ); nia|apply D0; nia].
    rewrite (find_last _ (left + n * b - 1)); [|nia|intros x X; apply (sq_out _ _ _ _ _ _ _ _ SQ); nia|exact R].
    rewrite (find_first _ (left + 7 * b)); [|nia|intros x X; rewrite D0 by lia; reflexivity|rewrite G; reflexivity].
    cbv zeta. replace (left + 7 * b - left) with (b * 7) by lia. rewrite Z.div_mul by lia. replace (left + n * b - 1 + 1 - left) with (n * b) by lia. rewrite Z.div_mul by lia. reflexivity.
  - nia.
  - intros y Y. apply not_true_iff_false. rewrite existsb_exists. intros (x & IX & DX). apply in_zseq in IX.
    rewrite (sq_out _ _ _ _ _ _ _ _ SQ) in DX by lia. discriminate DX.
  - apply existsb_exists. exists left. split; [apply in_zseq; nia|apply D0; nia].
Qed.

Lemma margins_squares dark w h left top b n f : squares dark w h left top b n f -> corners_dark n f ->
  margins dark w h left top (w - left - n * b) (h - top - n * b).
Proof.
  intros SQ [N FI GA RI BO]. pose proof (sq_size _ _ _ _ _ _ _ _ SQ) as (L & T & B & W & HH). assert (NB : 21 * b <= n * b) by nia. constructor.
  - lia.
  - intros x y X Y D. destruct (Z_lt_ge_dec x left); [|destruct (Z_lt_ge_dec x (left + n * b))]; [| |].
    1,3: rewrite (sq_out _ _ _ _ _ _ _ _ SQ) in D by lia; discriminate D.
    destruct (Z_lt_ge_dec y top); [|destruct (Z_lt_ge_dec y (top + n * b))]; [| |].
    1,3: rewrite (sq_out _ _ _ _ _ _ _ _ SQ) in D by lia; discriminate D. lia.
  - exists top. split; [lia|]. rewrite <- (FI 0) by lia. eapply sq_pixel; [exact SQ|nia..].
  - exists left. split; [lia|]. rewrite <- (FI 0) by lia. eapply sq_pixel; [exact SQ|nia..].
  - exists top. split; [lia|]. rewrite <- RI. eapply sq_pixel; [exact SQ|nia..].
  - exists left. split; [lia|]. rewrite <- BO. eapply sq_pixel; [exact SQ|nia..].
Qed.

Lemma read_squares dark w h left top b n m : square n m -> squares dark w h left top b n (module_at (m_bitmap m)) -> corners_dark n (module_at (m_bitmap m)) ->
  read_picture dark w h = Some (m_bitmap m).
Proof.
  intros SM SQ CD. unfold read_picture. rewrite (locate_squares _ _ _ _ _ _ _ _ SQ CD). f_equal. apply sampled_bitmap; [exact SM|].
  intros x y X Y. pose proof (sq_size _ _ _ _ _ _ _ _ SQ) as (L & T & B & _). pose proof (Z.div_pos (b - 1) 2 ltac:(lia) ltac:(lia)). pose proof (Z.div_lt_upper_bound (b - 1) 2 b ltac:(lia) ltac:(lia)).
  eapply sq_pixel; [exact SQ|lia..].
Qed.

(* made symbols *)
Lemma made_corners sjis : shift_jis_contract sjis -> forall text opts sched q, NewWith sjis text opts sched = Ok q ->
  corners_dark (q_dimension q) (module_at (m_bitmap (qMat q))).
Proof.
  intros C text opts sched q HN. destruct (made_square sjis C _ _ _ _ HN) as [SM N21].
  destruct (PropsSymbol.C12_function_patterns sjis C text opts sched q HN) as (v & RV & FP).
  assert (S : side v = q_dimension q).
  { unfold read_version in RV. set (bm := m_bitmap (qMat q)) in *. destruct (side ((Z.of_nat (length bm) - 17) / 4) =? Z.of_nat (length bm)) eqn:E1; [|discriminate RV].
    cbn [andb] in RV. destruct ((_ && _) && _); [|discriminate RV]. injection RV as RV. rewrite RV in E1. apply Z.eqb_eq in E1. rewrite E1.
    destruct SM as (Wf & EW & EH). unfold bm. rewrite (bitmap_rows _ Wf). unfold rows_of. rewrite map_length. rewrite EH. unfold upto. rewrite map_length, seq_length. lia. }
  rewrite <- S in *.
  assert (K : forall x y c, 0 <= x < side v -> 0 <= y < side v ->
    match nearest x y (finder_centres v) 4 with Some d => (if d =? 4 then false else negb (d =? 2)) = c | None => False end -> module_at (m_bitmap (qMat q)) x y = c).
  { intros x y c X Y E. apply FP; auto. unfold region_of, region_of_with. destruct (nearest x y (finder_centres v) 4) as [d|]; [|contradiction E].
    destruct (d =? 4); cbn [fixed_colour]; congruence. }
  assert (NE : forall x y cx cy, dist x y cx cy <= 4 -> find (fun '(cx, cy) => dist x y cx cy <=? 4) (finder_centres v) = Some (cx, cy) ->
      nearest x y (finder_centres v) 4 = Some (dist x y cx cy)) by (intros x y cx cy D E; unfold nearest; rewrite E; reflexivity).
  constructor.
  - exact N21.
  - intros x X. apply K; [lia|lia|]. rewrite (NE x 0 3 3); [|unfold dist; lia|cbn [find finder_centres]; replace (dist x 0 3 3 <=? 4) with true by (symmetry; apply Z.leb_le; unfold dist; lia); reflexivity].
    replace (dist x 0 3 3) with 3 by (unfold dist; lia). reflexivity.
  - apply K; [lia|lia|]. reflexivity.
  - apply K; [lia|lia|]. rewrite (NE (side v - 1) 0 (side v - 4) 3); [|unfold dist; lia|].
    + replace (dist (side v - 1) 0 (side v - 4) 3) with 3 by (unfold dist; lia). reflexivity.
    + cbn [find finder_centres]. replace (dist (side v - 1) 0 3 3 <=? 4) with false by (symmetry; apply Z.leb_gt; unfold dist; lia).
      replace (dist (side v - 1) 0 (side v - 4) 3 <=? 4) with true by (symmetry; apply Z.leb_le; unfold dist; lia). reflexivity.
  - apply K; [lia|lia|]. rewrite (NE 0 (side v - 1) 3 (side v - 4)); [|unfold dist; lia|].
    + replace (dist 0 (side v - 1) 3 (side v - 4)) with 3 by (unfold dist; lia). reflexivity.
    + cbn [find finder_centres]. replace (dist 0 (side v - 1) 3 3 <=? 4) with false by (symmetry; apply Z.leb_gt; unfold dist; lia).
      replace (dist 0 (side v - 1) (side v - 4) 3 <=? 4) with false by (symmetry; apply Z.leb_gt; unfold dist; lia).
      replace (dist 0 (side v - 1) 3 (side v - 4) <=? 4) with true by (symmetry; apply Z.leb_le; unfold dist; lia). reflexivity.
Qed.

(* the saved picture of the standard writer, all pixels *)
Lemma saved_picture near sjis : shift_jis_contract sjis ->
  forall text opts sched q, NewWith sjis text opts sched = Ok q ->
  forall encode decode fails others scale o old cv o1, keeps near (o_encoder o) encode decode ->
  encodable (o_encoder o) (img_w o (q_dimension q)) (img_h o (q_dimension q)) -> (forall k, fails k = None) ->
  0 <= b_left o -> 0 <= b_right o -> 0 <= b_top o -> 0 <= b_bottom o ->
  draw others scale (qMat q) o = Some (Z.abs (img_w o (q_dimension q)), Z.abs (img_h o (q_dimension q)), cv, o1) ->
  exists s' o' cv',
    Save (Some (qMat q)) (standard_writer encode fails others scale) (standard_new old, o) = ((s', o'), [EvWrite (qMat q); EvClose], Returned None) /\
    s_open s' = false /\ decode (o_content (s_file s')) = Some (img_w o (q_dimension q), img_h o (q_dimension q), cv') /\
    forall px py, 0 <= px < img_w o (q_dimension q) -> 0 <= py < img_h o (q_dimension q) -> near (cv px py) (cv' px py).
Proof.
  intros C text opts sched q HN encode decode fails others scale o old cv o1 DEC ENC NF B1 B2 B3 B4 ED.
  destruct (made_square sjis C _ _ _ _ HN) as [SQ N21].
  assert (IW : 0 <= img_w o (q_dimension q)) by (unfold img_w; pose proof (block_width_range o); nia).
  assert (IH : 0 <= img_h o (q_dimension q)) by (unfold img_h; pose proof (block_width_range o); nia).
  rewrite !Z.abs_eq in ED by assumption.
  destruct (sink_all fails NF (encode (o_encoder o1) (img_w o (q_dimension q), img_h o (q_dimension q), cv)) (standard_open old) 0) as [calls EW].
  rewrite <- (draw_encoder _ _ _ _ _ _ _ _ _ SQ ED) in DEC, ENC. destruct (DEC (img_w o (q_dimension q)) (img_h o (q_dimension q)) cv ENC) as (cv' & D1 & D2).
  eexists _, o1, cv'. split; [|split; [|split]].
  - unfold Save, standard_writer, standard_new. cbn [wr_write wr_close]. rewrite ED, (encodable_ok _ _ _ ENC), EW. reflexivity.
  - reflexivity.
  - cbn [s_file]. change (standard_open old) with (compressed_open None).
    rewrite (PropsCompressed.C35_file_content_partial None). rewrite skipn_nil, app_nil_r. apply D1.
  - exact D2.
Qed.

(* squares of the standard writer: any colour predicate that tells the two colours apart *)
Lemma standard_squares (near : rgba -> rgba -> Prop) (dk : rgba -> bool) n m o cv cv' : square n m ->
  0 <= b_left o -> 0 <= b_right o -> 0 <= b_top o -> 0 <= b_bottom o ->
  (forall px py, 0 <= px < img_w o n -> 0 <= py < img_h o n ->
      (forall x y, 0 <= x < n -> 0 <= y < n -> in_module o x y px py ->
         if module_at (m_bitmap m) x y then cv px py = o_qrColor o
         else if o_bgTransparent o then c_a (cv px py) = 0 else cv px py = o_bgColor o) /\
      (~ in_symbol o n px py -> if o_bgTransparent o then c_a (cv px py) = 0 else cv px py = o_bgColor o)) ->
  (forall px py, 0 <= px < img_w o n -> 0 <= py < img_h o n -> near (cv px py) (cv' px py)) ->
  (forall c, near (o_qrColor o) c -> dk c = true) ->
  (forall c c', (if o_bgTransparent o then c_a c = 0 else c = o_bgColor o) -> near c c' -> dk c' = false) ->
  squares (fun px py => dk (cv' px py)) (img_w o n) (img_h o n) (b_left o) (b_top o) (qrBlockWidth o) n (module_at (m_bitmap m)).
Proof.
  intros SM B1 B2 B3 B4 PX NR DK LT. pose proof (block_width_range o) as BW. unfold img_w, img_h in *. set (b := qrBlockWidth o) in *.
  constructor.
  - nia.
  - intros px py X Y. assert (RX : 0 <= px < n * b + b_left o + b_right o) by lia. assert (RY : 0 <= py < n * b + b_top o + b_bottom o) by lia.
    pose proof (Z.div_mod (px - b_left o) b ltac:(lia)) as EX. pose proof (Z.mod_pos_bound (px - b_left o) b ltac:(lia)).
    pose proof (Z.div_mod (py - b_top o) b ltac:(lia)) as EY. pose proof (Z.mod_pos_bound (py - b_top o) b ltac:(lia)).
    set (x := (px - b_left o) / b) in *. set (y := (py - b_top o) / b) in *.
    destruct (PX px py RX RY) as [P _]. specialize (P x y ltac:(nia) ltac:(nia)). fold b in P. specialize (P ltac:(unfold in_module; fold b; lia)).
    specialize (NR px py RX RY). destruct (module_at (m_bitmap m) x y).
    + apply DK. rewrite <- P. exact NR.
    + eapply LT; [exact P|exact NR].
  - intros px py X Y NI. destruct (PX px py X Y) as [_ P]. eapply LT; [apply P|apply NR; assumption]. unfold in_symbol. fold b. exact NI.
Qed.
