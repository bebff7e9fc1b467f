(* C22: the mask chosen is not always the one with the lowest penalty of the standard.  C53: a symbol is determined by version, level, mask and bit stream. *)
From Coq Require Import Lia Init.Byte.
From Verif Require Import ModelBase ModelBinary ModelMatrix ModelEval ModelQRCode.
From Verif Require Import SpecIso SpecReader SpecSegment SpecAPI SpecSymbol SpecMatrix SpecScore Samples ProofBase ProofMatrix ProofEval ProofMasking.

(* ------------------------------------------------------------------ C53 *)
Lemma upto_in n x : In x (upto n) <-> 0 <= x < n.
Proof. unfold upto. rewrite in_map_iff. split; [intros (k & <- & K); apply in_seq in K; lia|]. intros X. exists (Z.to_nat x). split; [lia|]. apply in_seq. lia. Qed.

(* every module is a fixed one, a format or version module, or on the data path *)
Lemma modules_covered v x y : valid_version v -> 0 <= x < side v -> 0 <= y < side v ->
  (exists c, fixed_colour (region_of v x y) = Some c) \/ In (x, y) format_positions_1 \/ In (x, y) (format_positions_2 v) \/
  (7 <= v /\ exists j, 0 <= j < 18 /\ ((x, y) = version_position_1 v j \/ (x, y) = version_position_2 v j)) \/ In (x, y) (data_path v).
Proof.
  intros HV HX HY. unfold valid_version in HV.
  assert (DP : region_of v x y = DataArea -> x <> 6 -> In (x, y) (data_path v)).
  { intros R N6. unfold data_path. apply filter_In. split; [|unfold region_of in R; rewrite R; reflexivity].
    assert (ZZ : forall cs up c, In c cs -> (x = c \/ x = c - 1) -> In (x, y) (zigzag v cs up)).
    { induction cs as [|c0 cs IH]; intros up c K E; [destruct K|]. cbn [zigzag]. apply in_or_app. destruct K as [->|K]; [left|right; eapply IH; eauto].
      unfold strip_modules. apply in_flat_map. exists y. split; [|destruct E as [->| ->]; [left; reflexivity|right; left; reflexivity]].
      destruct up; [apply in_rev; rewrite rev_involutive|]; apply upto_in; lia. }
    destruct (Z.le_gt_cases 7 x) as [G|G].
    - apply (ZZ _ _ (side v - 1 - 2 * ((side v - 1 - x) / 2))).
      + unfold strips. apply in_or_app. left. apply in_map_iff. exists ((side v - 1 - x) / 2). split; [reflexivity|]. apply upto_in. unfold side in *.
        pose proof (Z.div_mod (4 * v + 17 - 1 - x) 2 ltac:(lia)). pose proof (Z.mod_pos_bound (4 * v + 17 - 1 - x) 2 ltac:(lia)). lia.
      + pose proof (Z.div_mod (side v - 1 - x) 2 ltac:(lia)). pose proof (Z.mod_pos_bound (side v - 1 - x) 2 ltac:(lia)). lia.
    - assert (C : x = 5 \/ x = 4 \/ x = 3 \/ x = 2 \/ x = 1 \/ x = 0) by lia.
      assert (S : forall c, In c [5; 3; 1] -> In c (strips v)) by (intros; unfold strips; apply in_or_app; right; assumption).
      destruct C as [->|[->|[->|[->|[->| ->]]]]].
      + apply (ZZ _ _ 5); [apply S; cbn; auto|lia]. + apply (ZZ _ _ 5); [apply S; cbn; auto|lia].
      + apply (ZZ _ _ 3); [apply S; cbn; auto|lia]. + apply (ZZ _ _ 3); [apply S; cbn; auto|lia].
      + apply (ZZ _ _ 1); [apply S; cbn; auto|lia]. + apply (ZZ _ _ 1); [apply S; cbn; auto|lia]. }
  unfold region_of, region_of_with in *.
  destruct (nearest x y (finder_centres v) 4) as [d|]. { destruct (d =? 4); left; eexists; reflexivity. }
  destruct (nearest x y (align_centres v) 2) as [d|]. { left; eexists; reflexivity. }
  destruct (Z.eqb_spec x 6) as [->|N6]. { left; eexists; reflexivity. }
  destruct (Z.eqb_spec y 6) as [->|M6]. { cbn [orb]. left; eexists; reflexivity. }
  cbn [orb] in *. destruct ((x =? 8) && (y =? side v - 8)) eqn:DM. { left; eexists; reflexivity. }
  destruct (in_format_area v x y) eqn:FA.
  { right. unfold in_format_area in FA. apply orb_prop in FA. rewrite !andb_true_iff, !orb_true_iff, !Z.leb_le, !Z.eqb_eq in FA.
    apply andb_false_iff in DM. rewrite !Z.eqb_neq in DM.
    destruct FA as [[-> [A|A]]|[-> [A|A]]].
    - left. assert (C : x = 0 \/ x = 1 \/ x = 2 \/ x = 3 \/ x = 4 \/ x = 5 \/ x = 7 \/ x = 8) by lia. unfold format_positions_1.
      repeat (destruct C as [->|C]; [cbn; tauto|]). subst x. cbn; tauto.
    - right; left. unfold format_positions_2.
      assert (C : x = side v - 8 \/ x = side v - 7 \/ x = side v - 6 \/ x = side v - 5 \/ x = side v - 4 \/ x = side v - 3 \/ x = side v - 2 \/ x = side v - 1) by lia.
      repeat (destruct C as [->|C]; [cbn [In]; tauto|]). subst x. cbn [In]; tauto.
    - left. assert (C : y = 0 \/ y = 1 \/ y = 2 \/ y = 3 \/ y = 4 \/ y = 5 \/ y = 7 \/ y = 8) by lia. unfold format_positions_1.
      repeat (destruct C as [->|C]; [cbn; tauto|]). subst y. cbn; tauto.
    - right; left. unfold format_positions_2.
      assert (C : y = side v - 7 \/ y = side v - 6 \/ y = side v - 5 \/ y = side v - 4 \/ y = side v - 3 \/ y = side v - 2 \/ y = side v - 1) by lia.
      repeat (destruct C as [->|C]; [cbn [In]; tauto|]). subst y. cbn [In]; tauto. }
  destruct (in_version_area v x y) eqn:VA.
  { do 3 right. left. unfold in_version_area in VA. rewrite !andb_true_iff, !orb_true_iff, !andb_true_iff, !Z.leb_le in VA. destruct VA as [V7 [[[A B] C]|[[A B] C]]].
    - split; [exact V7|]. exists (3 * y + (x - (side v - 11))). split; [lia|]. left. unfold version_position_1.
      rewrite (Z.add_comm (3 * y)), (Z.mul_comm 3 y), Z.mod_add, Z.div_add, Z.mod_small, Z.div_small by lia. f_equal; lia.
    - split; [exact V7|]. exists (3 * x + (y - (side v - 11))). split; [lia|]. right. unfold version_position_2.
      rewrite (Z.add_comm (3 * x)), (Z.mul_comm 3 x), Z.mod_add, Z.div_add, Z.mod_small, Z.div_small by lia. f_equal; lia. }
  do 4 right. apply DP; auto.
Qed.

(* two bitmaps that are the symbol of the same version, level, mask and bit stream agree everywhere *)
Theorem C53_symbol_unique : forall v l k stream bm bm', valid_version v ->
  iso_symbol v l k stream bm -> iso_symbol v l k stream bm' ->
  forall x y, 0 <= x < side v -> 0 <= y < side v -> module_at bm x y = module_at bm' x y.
Proof.
  intros v l k stream bm bm' HV S1 S2 x y HX HY.
  assert (MP : forall (ps : list (Z * Z)), map (fun '(x, y) => module_at bm x y) ps = map (fun '(x, y) => module_at bm' x y) ps ->
     In (x, y) ps -> module_at bm x y = module_at bm' x y).
  { induction ps as [|[a b] ps IH]; intros E K; [destruct K|]. injection E as E1 E2. destruct K as [[= -> ->]|K]; auto. }
  destruct (modules_covered v x y HV HX HY) as [[c R]|[R|[R|[(V7 & j & J & R)|R]]]].
  - rewrite (is_function _ _ _ _ _ S1 x y c), (is_function _ _ _ _ _ S2 x y c) by auto. reflexivity.
  - apply (MP format_positions_1); auto. rewrite (is_format_1 _ _ _ _ _ S1), (is_format_1 _ _ _ _ _ S2). reflexivity.
  - apply (MP (format_positions_2 v)); auto. rewrite (is_format_2 _ _ _ _ _ S1), (is_format_2 _ _ _ _ _ S2). reflexivity.
  - destruct R as [R|R].
    + pose proof (is_version_1 _ _ _ _ _ S1 V7 j J) as E1. pose proof (is_version_1 _ _ _ _ _ S2 V7 j J) as E2. rewrite <- R in E1, E2. cbn [fst snd] in *. congruence.
    + pose proof (is_version_2 _ _ _ _ _ S1 V7 j J) as E1. pose proof (is_version_2 _ _ _ _ _ S2 V7 j J) as E2. rewrite <- R in E1, E2. cbn [fst snd] in *. congruence.
  - assert (E : read_stream bm v k = read_stream bm' v k) by (rewrite (is_stream _ _ _ _ _ S1), (is_stream _ _ _ _ _ S2); reflexivity).
    unfold read_stream in E. revert E R. generalize (data_path v). clear. induction l as [|[a b] l IH]; intros E K; [destruct K|].
    cbn [map] in E. injection E as E1 E2. destruct K as [[= -> ->]|K]; auto.
    destruct (module_at bm x y), (module_at bm' x y), (mask_condition k y x); try reflexivity; discriminate E1.
Qed.
Print Assumptions C53_symbol_unique.


(* ------------------------------------------------------------------ C22, the standard's penalty *)
From Verif Require Import ModelVersion SpecPenalty ProofSearch PropsNew.

Definition view (r : outcome QRCode) : option (list bool * bitmap) := match r with Ok q => Some (qData q, m_bitmap (qMat q)) | _ => None end.
Definition hello_view := Eval vm_compute in view (NewWith sample_sjis hello [] fair_schedule).
Definition hello_stream : list bool := Eval vm_compute in match hello_view with Some (d, _) => d | None => [] end.
Definition hello_chosen : bitmap := Eval vm_compute in match hello_view with Some (_, b) => b | None => [] end.
Lemma hello_view_ok : view (NewWith sample_sjis hello [] fair_schedule) = Some (hello_stream, hello_chosen).
Proof. vm_cast_no_check (eq_refl (Some (hello_stream, hello_chosen))). Qed.
(* the same message under mask 2, drawn by hand: data modules re-masked, format modules rewritten *)
Definition remask (v : Z) (l : level) (k k' : Z) (bm : bitmap) : bitmap :=
  let fw := to_bits (format_word l k') 15 in
  let lookup ps x y := fold_right (fun '(p, b) acc => if (fst p =? x) && (snd p =? y) then Some b else acc) None (combine ps fw) in
  map (fun y => map (fun x =>
    match lookup format_positions_1 x y, lookup (format_positions_2 v) x y with
    | Some b, _ => b
    | _, Some b => b
    | _, _ => match region_of v x y with
              | DataArea => xorb (module_at bm x y) (xorb (mask_condition k y x) (mask_condition k' y x))
              | _ => module_at bm x y
              end
    end) (upto (side v))) (upto (side v)).
Definition hello_mask2 : bitmap := Eval vm_compute in remask 1 Q 5 2 hello_chosen.

(* a decision procedure for iso_symbol below version 7 *)
Definition iso_symbol_b (v : Z) (l : level) (k : Z) (stream : list bool) (bm : bitmap) : bool :=
  match read_version bm with Some w => w =? v | None => false end &&
  forallb (fun x => forallb (fun y => match fixed_colour (region_of v x y) with Some c => Bool.eqb (module_at bm x y) c | None => true end) (upto (side v))) (upto (side v)) &&
  eq_bits (map (fun '(x, y) => module_at bm x y) format_positions_1) (to_bits (format_word l k) 15) &&
  eq_bits (map (fun '(x, y) => module_at bm x y) (format_positions_2 v)) (to_bits (format_word l k) 15) &&
  eq_bits (read_stream bm v k) stream.
Lemma eq_bits_true a b : eq_bits a b = true -> a = b.
Proof. unfold eq_bits. destruct (list_eq_dec bool_dec a b); congruence. Qed.
Lemma iso_symbol_check v l k stream bm : v < 7 -> iso_symbol_b v l k stream bm = true -> iso_symbol v l k stream bm.
Proof.
  intros V7 B. unfold iso_symbol_b in B. rewrite !andb_true_iff in B. destruct B as [[[[B1 B2] B3] B4] B5]. constructor; try lia; try (apply eq_bits_true; assumption).
  - destruct (read_version bm); [|discriminate B1]. apply Z.eqb_eq in B1. congruence.
  - intros x y c HX HY E. rewrite forallb_forall in B2. specialize (B2 x (proj2 (upto_in _ _) HX)). rewrite forallb_forall in B2.
    specialize (B2 y (proj2 (upto_in _ _) HY)). rewrite E in B2. apply eqb_prop in B2. exact B2.
Qed.

Theorem C22_iso_minimal_refuted :
  ~ (forall sjis, shift_jis_contract sjis ->
     forall text opts sched q, NewWith sjis text opts sched = Ok q ->
     forall v l k stream, valid_version v -> 0 <= k < 8 -> iso_symbol v l k stream (m_bitmap (qMat q)) ->
     forall k' bm', 0 <= k' < 8 -> iso_symbol v l k' stream bm' ->
     forall p p', iso_penalty (m_bitmap (qMat q)) (side v) p -> iso_penalty bm' (side v) p' -> p <= p').
Proof.
  intros X. destruct (hello_ok []) as [q E]; auto.
  assert (EB : m_bitmap (qMat q) = hello_chosen).
  { pose proof hello_view_ok as F. rewrite E in F. cbn [view] in F. congruence. }
  assert (P1 : iso_penalty (m_bitmap (qMat q)) (side 1) 426).
  { rewrite EB. exists 0. split; [exists 45; repeat split; vm_compute; discriminate|vm_compute; reflexivity]. }
  assert (P2 : iso_penalty hello_mask2 (side 1) 347).
  { exists 0. split; [exists 50; repeat split; vm_compute; discriminate|vm_compute; reflexivity]. }
  specialize (X sample_sjis sample_contract hello [] _ q E 1 Q 5 hello_stream ltac:(unfold valid_version; lia) ltac:(lia)).
  rewrite EB in X at 1. specialize (X ltac:(apply iso_symbol_check; [lia|vm_compute; reflexivity]) 2 hello_mask2 ltac:(lia)).
  specialize (X ltac:(apply iso_symbol_check; [lia|vm_compute; reflexivity]) 426 347 P1 P2). lia.
Qed.

(* C53, non-vacuity: there is a symbol to speak about, and it is not unique without fixing the mask *)
Example C53_example : exists stream bm bm', iso_symbol 1 Q 5 stream bm /\ iso_symbol 1 Q 2 stream bm' /\ bm <> bm'.
Proof.
  exists hello_stream, hello_chosen, hello_mask2. split; [apply iso_symbol_check; [lia|vm_compute; reflexivity]|].
  split; [apply iso_symbol_check; [lia|vm_compute; reflexivity]|]. intros E. assert (F : nth 0 hello_chosen [] = nth 0 hello_mask2 []) by (rewrite E; reflexivity).
  unfold hello_chosen, hello_mask2 in F. cbn [nth] in F. congruence.
Qed.

Print Assumptions C22_iso_minimal_refuted.
