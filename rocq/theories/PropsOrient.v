(* C74: symbols can be read turned and mirrored. *)
From Coq Require Import Lia.
From Verif Require Import ModelBase ModelBinary ModelMatrix ModelQRCode.
From Verif Require Import SpecIso SpecReader SpecSegment SpecAPI SpecOrient Samples.
From Verif Require Import ProofBase ProofTables ProofMatrix ProofEval ProofBits ProofStream ProofEncode ProofMode ProofKanji ProofSegment ProofVersion ProofInit ProofSymbol ProofBuild ProofAPI ProofNew ProofOrient.
From Verif Require PropsNew PropsMonotone.

(* from version 2 an alignment pattern lies in the corner *)
Lemma align_corner_sweep : forallb (fun v => match fixed_colour (region_of v (side v - 6) (side v - 7)) with Some false => true | _ => false end) (map (fun k => k + 2) (upto 39)) = true.
Proof. vm_compute. reflexivity. Qed.
Lemma align_corner v : 2 <= v <= 40 -> fixed_colour (region_of v (side v - 6) (side v - 7)) = Some false.
Proof.
  intros V. pose proof align_corner_sweep as S. rewrite forallb_forall in S.
  assert (I : In v (map (fun k => k + 2) (upto 39))) by (apply in_map_iff; exists (v - 2); split; [lia|apply in_upto; lia]).
  specialize (S v I). destruct (fixed_colour _) as [[]|]; try discriminate. reflexivity.
Qed.

Lemma firstn_next k (d : list Z) : (k < length d)%nat -> firstn (S k) d = firstn k d ++ [nth k d 0].
Proof. revert d. induction k as [|k IH]; intros [|a d] LT; cbn [length] in LT; try lia; [reflexivity|]. cbn [firstn nth app]. f_equal. apply IH. lia. Qed.
(* version 1: the corner holds the first bits of the message *)
Lemma one_block l bset blocks words : stream_facts 1 l bset blocks words -> exists d rest, blocks = [d] /\ words = d ++ rest /\ bset = bytes_to_bits d /\ (9 <= length d)%nat.
Proof.
  intros SF. pose proof (sf_lens _ _ _ _ _ SF) as LE. pose proof (sf_order _ _ _ _ _ SF) as WO. pose proof (sf_bits _ _ _ _ _ SF) as BI.
  assert (LL : exists n, block_data_lengths 1 l = [Z.of_nat n] /\ (9 <= n)%nat).
  { destruct l; [exists 19%nat|exists 16%nat|exists 13%nat|exists 9%nat]; split; try lia; vm_compute; reflexivity. }
  destruct LL as (n & EN & N9). rewrite EN in LE. destruct blocks as [|d [|]]; try discriminate. cbn [map] in LE. injection LE as LD. unfold zlen in LD.
  assert (length d = n) by lia. exists d. rewrite EN in WO. cbn [concat] in BI. rewrite app_nil_r in BI.
  eexists. split; [reflexivity|]. split; [|split; [auto|lia]]. rewrite WO. f_equal. subst n. clear.
  unfold interleave_order. cbn [length fold_right]. rewrite Z.max_l by lia. change (upto (Z.of_nat 1)) with [0].
  assert (G : forall k, (k <= length d)%nat -> map (get2 [d]) (flat_map (fun i => flat_map (fun b => if i <? nth (Z.to_nat b) [Z.of_nat (length d)] 0 then [(b, i)] else []) [0]) (upto (Z.of_nat k))) = firstn k d).
  { induction k as [|k IH]; intros K; [reflexivity|]. rewrite upto_S, flat_map_app, map_app, IH by lia.
    cbn [flat_map]. change (nth (Z.to_nat 0) [Z.of_nat (length d)] 0) with (Z.of_nat (length d)). replace (Z.of_nat k <? Z.of_nat (length d)) with true by lia.
    cbn [app map]. unfold get2. cbn [fst snd]. change (nth (Z.to_nat 0) [d] []) with d. rewrite Nat2Z.id.
    symmetry. apply firstn_next. lia. }
  rewrite G by lia. rewrite firstn_all. reflexivity.
Qed.

Definition corner_path : list (Z * Z) := [(20,20);(19,20);(20,19);(19,19);(20,18);(19,18);(20,17);(19,17);(20,16);(19,16);(20,15);(19,15);(20,14)].
Lemma path_1 : firstn 13 (data_path 1) = corner_path. Proof. vm_compute. reflexivity. Qed.
(* what a finder pattern in that corner would look like *)
Definition corner_bits : list bool := map (fun '(x, y) => ring (x - 17) (y - 17)) corner_path.
Lemma corner_clash : forallb (fun k => forallb (fun md => forallb (fun c =>
    negb (forallb (fun '(p, b, w) => Bool.eqb (xorb b (mask_condition k (snd p) (fst p))) w) (combine (combine corner_path (to_bits (indicator md) 4 ++ to_bits c (width_of 1 md))) corner_bits)))
  (upto 128)) [Numeric; Alphanumeric; Byte; Kanji]) (upto 8) = true.
Proof. vm_compute. reflexivity. Qed.
Lemma corner_clash_empty : forallb (fun k => forallb (fun cs =>
    negb (forallb (fun '(p, b, w) => Bool.eqb (xorb b (mask_condition k (snd p) (fst p))) w) (combine (combine corner_path (to_bits (indicator Kanji) 4 ++ cs ++ [false])) corner_bits)))
  (map (fun c => to_bits c 8) (upto 256))) (upto 8) = true.
Proof. vm_compute. reflexivity. Qed.
Lemma prefix_agrees (h : (Z * Z) * bool -> bool) path : forall s bits a r, s = firstn (length path) (a ++ r) -> map h (combine path s) = bits ->
  forallb (fun '(p, b, w) => Bool.eqb (h (p, b)) w) (combine (combine path a) bits) = true.
Proof.
  induction path as [|p path IH]; intros s bits a r ES EB; [reflexivity|]. destruct a as [|b a]; [reflexivity|].
  cbn [length firstn app] in ES. subst s. cbn [combine map] in EB. subst bits. cbn [combine forallb]. rewrite eqb_reflx. cbn [andb]. eapply IH; reflexivity.
Qed.
Lemma small_capacity l : data_codewords 1 l <= 19.
Proof. destruct l; vm_compute; discriminate. Qed.
Lemma big_enough l : 9 <= data_codewords 1 l.
Proof. destruct l; vm_compute; discriminate. Qed.
Lemma small_count l md n : 0 <= n -> fits 1 l md n -> n < 128.
Proof.
  intros N F. pose proof (small_capacity l) as S. unfold fits, needed_bits in F. rewrite PropsMonotone.width_cases in F. change (1 <=? 9) with true in F.
  pose proof (PropsMonotone.numeric_length n N). pose proof (PropsMonotone.alnum_length n N).
  destruct md; [| |change (payload_length Byte n) with (8 * n) in F|change (payload_length Kanji n) with (13 * n) in F]; cbn [andb] in F; lia.
Qed.
Lemma to_bits_mod c : to_bits c 8 = to_bits (c mod 256) 8.
Proof. unfold to_bits. apply map_ext_in. intros k I. apply in_upto in I. change 256 with (2 ^ 8). rewrite Z.mod_pow2_bits_low by lia. reflexivity. Qed.

Section Made.
Context (sjis : Z -> option (list Z)) (C : shift_jis_contract sjis).
Lemma corner_1 l k d rest bset m md c pl : stream_facts 1 l bset [d] (d ++ rest) -> symbol 1 l k (final_stream 1 (d ++ rest)) m -> 0 <= k < 8 -> 
  bset = data_bits 1 l md c pl -> (9 <= length d)%nat -> 0 <= c -> (fits 1 l md c \/ md = Kanji /\ pl = []) ->
  ~ (forall dx dy, -3 <= dx <= 3 -> -3 <= dy <= 3 -> at_ m (17 + dx, 17 + dy) = ring dx dy).
Proof.
  intros SF SY K EB LD N CA FI. pose proof (sf_bits _ _ _ _ _ SF) as BI. cbn [concat] in BI. rewrite app_nil_r in BI.
  assert (CB : map (at_ m) corner_path = corner_bits).
  { unfold corner_bits. apply map_ext_in. intros [x y] I.
    assert (R : 14 <= x <= 20 /\ 14 <= y <= 20) by (unfold corner_path in I; cbn [In] in I; clear -I; repeat (destruct I as [I|I]; [injection I as <- <-; lia|]); contradiction).
    rewrite <- (FI (x - 17) (y - 17)) by lia. f_equal. f_equal; lia. }
  pose proof (sy_data _ _ _ _ _ SY) as DA. apply (f_equal (firstn 13)) in DA. rewrite !firstn_map, combine_firstn, path_1 in DA. rewrite CB in DA. symmetry in DA.
  assert (ST : forall a r, bset = a ++ r -> firstn 13 (final_stream 1 (d ++ rest)) = firstn (length corner_path) (a ++ r)).
  { intros a r E. rewrite <- E, <- BI. unfold final_stream. rewrite bytes_to_bits_app, <- app_assoc. change (length corner_path) with 13%nat.
    rewrite firstn_app. replace (13 - length (bytes_to_bits d))%nat with 0%nat by (rewrite bytes_to_bits_length; lia). cbn [firstn]. apply app_nil_r. }
  destruct CA as [F|[-> ->]].
  - pose proof (small_count l md c N F) as CS.
    assert (EX : exists r, bset = (to_bits (indicator md) 4 ++ to_bits c (width_of 1 md)) ++ r).
    { rewrite EB. unfold data_bits. cbv zeta. rewrite <- !app_assoc. eexists. reflexivity. }
    destruct EX as [r ER]. pose proof (prefix_agrees _ _ _ _ _ _ (ST _ _ ER) DA) as P.
    pose proof corner_clash as CC. rewrite forallb_forall in CC. specialize (CC k ltac:(apply in_upto; lia)). rewrite forallb_forall in CC.
    specialize (CC md ltac:(destruct md; cbn; tauto)). rewrite forallb_forall in CC. specialize (CC c ltac:(apply in_upto; lia)). rewrite P in CC. discriminate.
  - assert (EX : exists r, bset = (to_bits (indicator Kanji) 4 ++ to_bits c 8 ++ [false]) ++ r).
    { rewrite EB. unfold data_bits. cbv zeta. pose proof (big_enough l) as BE. rewrite app_nil_r. change (width_of 1 Kanji) with 8.
      assert (LL : Z.of_nat (length (to_bits (indicator Kanji) 4 ++ to_bits c 8)) = 12) by (rewrite app_length; unfold to_bits; rewrite !map_length, !upto_length; reflexivity).
      rewrite LL. rewrite Z.min_l by lia. change (Z.to_nat 4) with 4%nat. cbn [repeat]. rewrite <- !app_assoc. eexists. reflexivity. }
    destruct EX as [r ER]. pose proof (prefix_agrees _ _ _ _ _ _ (ST _ _ ER) DA) as P.
    pose proof corner_clash_empty as CC. rewrite forallb_forall in CC. specialize (CC k ltac:(apply in_upto; lia)). rewrite forallb_forall in CC.
    specialize (CC (to_bits c 8)). rewrite P in CC. cbn [negb] in CC. assert (I : In (to_bits c 8) (map (fun c => to_bits c 8) (upto 256))); [|specialize (CC I); discriminate].
    rewrite to_bits_mod. apply (in_map (fun c => to_bits c 8)). apply in_upto. apply Z.mod_pos_bound. lia.
Qed.

(* no symbol has a finder pattern in its fourth corner *)
Lemma fourth_corner t opts sched q : NewWith sjis t opts sched = Ok q ->
  ~ (forall dx dy, -3 <= dx <= 3 -> -3 <= dy <= 3 -> module_at (m_bitmap (qMat q)) (q_dimension q - 4 + dx) (q_dimension q - 4 + dy) = ring dx dy).
Proof.
  intros HN FI. destruct (newwith_made sjis C t opts sched q HN) as (md & pl & l & v & b & w & k & c & s & HM).
  pose proof (md_valid _ _ _ _ _ _ _ _ _ _ _ _ _ HM) as VV. pose proof (md_k _ _ _ _ _ _ _ _ _ _ _ _ _ HM) as HK.
  destruct (md_cand _ _ _ _ _ _ _ _ _ _ _ _ _ HM k HK) as [SY _]. rewrite <- (md_mat _ _ _ _ _ _ _ _ _ _ _ _ _ HM) in SY.
  assert (DI : q_dimension q = side v) by (destruct (version_promised sjis C t opts sched q HN) as (? & ? & ? & _ & _ & _ & _ & V1 & D1 & _); rewrite D1, <- V1, (rf_ver _ _ _ (md_row _ _ _ _ _ _ _ _ _ _ _ _ _ HM)); reflexivity).
  rewrite DI in FI. assert (SV : side v = 4 * v + 17) by reflexivity. unfold valid_version in VV.
  assert (AT : forall dx dy, -3 <= dx <= 3 -> -3 <= dy <= 3 -> at_ (qMat q) (side v - 4 + dx, side v - 4 + dy) = ring dx dy).
  { intros dx dy DX DY. rewrite <- FI by auto. symmetry. eapply bitmap_module; [exact SY|lia|lia]. }
  destruct (Z.eq_dec v 1) as [->|NV].
  - destruct (one_block _ _ _ _ (md_stream _ _ _ _ _ _ _ _ _ _ _ _ _ HM)) as (d & rest & -> & -> & _ & LD).
    eapply (corner_1 l k d rest _ (qMat q) md (text_length md (text_bytes t)) pl); [exact (md_stream _ _ _ _ _ _ _ _ _ _ _ _ _ HM)|exact SY|exact HK|reflexivity|exact LD|apply text_length_nonneg| |exact AT].
    destruct (choice_text sjis _ _ _ _ (md_choice _ _ _ _ _ _ _ _ _ _ _ _ _ HM)) as [[T P]|(A & _ & _ & B)]; [left|right; auto].
    pose proof (md_fits _ _ _ _ _ _ _ _ _ _ _ _ _ HM) as FT. rewrite P in FT. apply (fits_payload sjis) in FT; auto. unfold text_fits in FT. rewrite char_count_eq in FT. exact FT.
  - specialize (AT (-2) (-3) ltac:(lia) ltac:(lia)). change (ring (-2) (-3)) with true in AT.
    pose proof (sy_fixed _ _ _ _ _ SY (side v - 6) (side v - 7) false ltac:(lia) ltac:(lia) (align_corner v ltac:(lia))) as FX.
    replace (side v - 4 + -2) with (side v - 6) in AT by lia. replace (side v - 4 + -3) with (side v - 7) in AT by lia. congruence.
Qed.
End Made.

Lemma symbol_grid v l k st m : valid_version v -> symbol v l k st m -> m_bitmap m = grid (side v) (module_at (m_bitmap m)).
Proof.
  intros V SY. pose proof (sy_wf _ _ _ _ _ SY) as WF. rewrite bitmap_rows at 1 by auto. unfold rows_of, grid. rewrite (sy_w _ _ _ _ _ SY), (sy_h _ _ _ _ _ SY).
  apply map_upto_ext. intros y Y. apply map_upto_ext. intros x X. symmetry. apply (bitmap_module v l k st m SY); auto.
Qed.

Definition near : list Z := [-3; -2; -1; 0; 1; 2; 3].
Lemma finder_sweep : forallb (fun v => forallb (fun '(cx, cy) => forallb (fun dx => forallb (fun dy =>
    match fixed_colour (region_of_with [] v (cx + dx) (cy + dy)) with Some c => Bool.eqb c (ring dx dy) | None => false end) near) near) (finder_centres v)) (map (fun k => k + 1) (upto 40)) = true.
Proof. vm_compute. reflexivity. Qed.
Lemma finder_no_align v x y cs : (exists d, nearest x y (finder_centres v) 4 = Some d) -> region_of_with cs v x y = region_of_with [] v x y.
Proof. intros [d E]. unfold region_of_with. rewrite E. reflexivity. Qed.
Lemma finder_near v cx cy dx dy : In (cx, cy) (finder_centres v) -> -3 <= dx <= 3 -> -3 <= dy <= 3 -> exists d, nearest (cx + dx) (cy + dy) (finder_centres v) 4 = Some d.
Proof.
  intros I DX DY. unfold nearest. destruct (find _ (finder_centres v)) as [[a b]|] eqn:F; [eauto|]. exfalso. apply (find_none _ _ F) in I. cbn beta iota in I. unfold dist in I. lia.
Qed.
Lemma finder_region v cx cy dx dy : valid_version v -> In (cx, cy) (finder_centres v) -> -3 <= dx <= 3 -> -3 <= dy <= 3 -> fixed_colour (region_of v (cx + dx) (cy + dy)) = Some (ring dx dy).
Proof.
  intros [V1 V2] I DX DY. unfold region_of. rewrite finder_no_align by (eapply finder_near; eauto).
  pose proof finder_sweep as S. rewrite forallb_forall in S.
  assert (IV : In v (map (fun k => k + 1) (upto 40))) by (apply in_map_iff; exists (v - 1); split; [lia|apply in_upto; lia]).
  specialize (S v IV). rewrite forallb_forall in S. specialize (S (cx, cy) I). cbn beta iota in S. rewrite forallb_forall in S. specialize (S dx (near_in dx DX)). rewrite forallb_forall in S. specialize (S dy (near_in dy DY)).
  destruct (fixed_colour _) as [c|]; [|discriminate]. apply eqb_prop in S. subst. reflexivity.
Qed.

(* of the eight ways to look at a symbol only the right one looks right *)
Theorem C74_only_one_way_looks_right :
  forall sjis, shift_jis_contract sjis ->
  forall text opts sched q, NewWith sjis text opts sched = Ok q ->
    looks_right (m_bitmap (qMat q)) = true /\
    forall ms, looks_right (moved ms (m_bitmap (qMat q))) = true -> moved ms (m_bitmap (qMat q)) = m_bitmap (qMat q).
Proof.
  intros sjis C t opts sched q HN. destruct (symbol_of sjis C t opts sched q HN) as (l & v & k & _ & VE & VV & HK & SY & _).
  pose proof (symbol_grid v l k _ _ VV SY) as G. assert (SV : side v = 4 * v + 17) by reflexivity. unfold valid_version in VV.
  set (f := module_at (m_bitmap (qMat q))) in *.
  assert (FM : map (fun '(x, y) => f x y) format_positions_1 = to_bits (format_word l k) 15).
  { destruct (positions_bits v l k (qData q) (qMat q) VV SY) as [A _]. exact A. }
  split.
  - unfold looks_right. rewrite (read_format_ok v l k _ _ VV HK SY). rewrite andb_true_r. unfold upright.
    assert (SZ : size (m_bitmap (qMat q)) = side v) by (rewrite G; apply grid_size; lia). rewrite SZ.
    destruct (function_patterns sjis C t opts sched q HN) as (v' & RV & FP). rewrite (read_version_ok v l k _ _ VV SY) in RV. injection RV as <-.
    rewrite !andb_true_iff, !finder_iff. split; [split|]; intros dx dy DX DY; apply FP; try lia.
    + apply (finder_region v 3 3); auto. cbn; tauto.
    + apply (finder_region v (side v - 4) 3); auto. cbn; tauto.
    + apply (finder_region v 3 (side v - 4)); auto. cbn; tauto.
  - intros ms LR. assert (exists g, moved ms (m_bitmap (qMat q)) = grid (side v) (act (side v) g f)) as [g EG] by (rewrite G; apply moved_act; lia).
    rewrite EG in *. unfold looks_right in LR. apply andb_true_iff in LR as [UP RF].
    destruct (upright_view (side v) g f ltac:(lia) UP) as [->|[->|FC]].
    + etransitivity; [|symmetry; exact G]. apply grid_ext. reflexivity.
    + exfalso. rewrite (format_valid (side v) f l k) in RF; [discriminate|lia| |exact FM].
      unfold all_formats. apply in_prod; [destruct l; cbn; tauto|apply in_upto; lia].
    + exfalso. apply (fourth_corner sjis C t opts sched q HN).
      assert (DI : q_dimension q = side v) by apply (sy_w _ _ _ _ _ SY). rewrite DI. exact FC.
Qed.

(* a reader that is shown a symbol turned by any number of quarter turns and mirrored, in any order, reads the same *)
Theorem C74_readable_in_any_orientation :
  forall sjis, shift_jis_contract sjis ->
  forall text opts sched q ms, NewWith sjis text opts sched = Ok q ->
    read_any_way (moved ms (m_bitmap (qMat q))) = read_symbol (m_bitmap (qMat q)).
Proof.
  intros sjis C t opts sched q ms HN. destruct (C74_only_one_way_looks_right sjis C t opts sched q HN) as [LR ON].
  destruct (symbol_of sjis C t opts sched q HN) as (l & v & k & _ & VE & VV & HK & SY & _).
  pose proof (symbol_grid v l k _ _ VV SY) as G. assert (SV : side v = 4 * v + 17) by reflexivity. unfold valid_version in VV.
  set (f := module_at (m_bitmap (qMat q))) in *. set (bm := m_bitmap (qMat q)) in *.
  assert (exists g, moved ms bm = grid (side v) (act (side v) g f)) as [g EG] by (rewrite G; apply moved_act; lia).
  rewrite EG. unfold read_any_way. destruct (find looks_right (ways (grid (side v) (act (side v) g f)))) as [b|] eqn:F.
  - apply find_some in F as [I T]. apply ways_act in I as [g' ->]; [|lia]. f_equal.
    destruct (act_moved (side v) g' f ltac:(lia)) as [ms' E']. rewrite <- E', <- G in T. rewrite <- E', <- G. apply ON, T.
  - exfalso. pose proof (ways_back (side v) g f ltac:(lia)) as I. rewrite <- G in I. apply (find_none _ _ F) in I. congruence.
Qed.

(* with C01: the text itself *)
Theorem C74_text_from_any_orientation :
  forall sjis, shift_jis_contract sjis ->
  forall text opts sched q ms md, NewWith sjis text opts sched = Ok q -> qMode q = mode_code md -> md <> Kanji ->
    read_any_way (moved ms (m_bitmap (qMat q))) =
      Some (match md with Numeric => NumericSeg (text_bytes text) | Alphanumeric => AlphanumericSeg (text_bytes text) | _ => ByteSeg (text_bytes text) end).
Proof.
  intros sjis C t opts sched q ms md HN HQ NK. rewrite (C74_readable_in_any_orientation sjis C t opts sched q ms HN).
  apply (PropsNew.C01_decode_recovers_text sjis C t opts sched q md HN HQ NK).
Qed.

Example C74_example : exists q, NewWith sample_sjis hello [] fair_schedule = Ok q /\ qMode q = mode_code Alphanumeric.
Proof. destruct PropsNew.C01_C03_C08_example as (q & A & B & _). eauto. Qed.

Print Assumptions C74_only_one_way_looks_right.
Print Assumptions C74_readable_in_any_orientation.
Print Assumptions C74_text_from_any_orientation.
