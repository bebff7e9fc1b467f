(* The views of a matrix (Row, Col, Bitmap, Iterate) and the penalty rules on matrices of data modules. *)
From Coq Require Import Lia.
From Verif Require Import ModelBase ModelMatrix ModelKmp ModelEval.
From Verif Require Import SpecIso SpecReader SpecPenalty SpecMatrix.
From Verif Require Import ProofBase ProofMatrix ProofKmp ProofEval.

(* ---- Iterate ---- *)
Lemma visits_map dir m : visits dir m = map (fun '(x, y) => (x, y, rawget m x y)) (iter_coords dir (mwidth m) (mheight m)).
Proof.
  unfold visits, m_iter.
  enough (G : forall l acc, fold_left (fun s '(x, y) => s ++ [(x, y, rawget m x y)]) l acc = acc ++ map (fun '(x, y) => (x, y, rawget m x y)) l).
  { rewrite G. reflexivity. }
  induction l as [|[x y] l IH]; intros acc; cbn [fold_left map]; [rewrite app_nil_r; auto|].
  rewrite IH, <- app_assoc. reflexivity.
Qed.

Lemma nth_error_grid {A} (f : Z -> Z -> A) w : 0 < w -> forall h k, 0 <= h -> 0 <= k < h * w ->
  nth_error (flat_map (fun j => map (fun i => f i j) (upto w)) (upto h)) (Z.to_nat k) = Some (f (k mod w) (k / w)).
Proof.
  intros Hw h k Hh. replace (upto h) with (map Z.of_nat (seq 0 (Z.to_nat h))) by reflexivity.
  replace (h * w) with ((Z.of_nat (Z.to_nat h) + 0) * w - 0 * w) by (rewrite Z2Nat.id; lia).
  set (n := Z.to_nat h). clearbody n.
  assert (G : forall n s k, 0 <= k < Z.of_nat n * w ->
     nth_error (flat_map (fun j => map (fun i => f i j) (upto w)) (map Z.of_nat (seq s n))) (Z.to_nat k) = Some (f (k mod w) (Z.of_nat s + k / w))).
  { clear - Hw. induction n as [|n IH]; intros s k Hk; [lia|]. cbn [seq map flat_map].
    destruct (Z.ltb_spec k w) as [LT|GE].
    - rewrite nth_error_app1 by (rewrite map_length, upto_length; lia).
      rewrite nth_error_map. rewrite Z.mod_small, Z.div_small by lia.
      assert (E : nth_error (upto w) (Z.to_nat k) = Some k) by (rewrite <- zget_nth by lia; apply zget_upto; lia).
      rewrite E. cbn. repeat f_equal. lia.
    - rewrite nth_error_app2 by (rewrite map_length, upto_length; lia). rewrite map_length, upto_length.
      replace (Z.to_nat k - Z.to_nat w)%nat with (Z.to_nat (k - w)) by lia.
      assert (HK : 0 <= k - w < Z.of_nat n * w) by lia.
      rewrite (IH (S s) (k - w) HK). replace (k - w) with (k + -1 * w) by lia. rewrite Z_mod_plus_full, Z.div_add by lia.
      f_equal. f_equal. lia. }
  intros Hk. specialize (G n 0%nat k). cbn [Z.of_nat] in G. rewrite Z.add_0_l in G. apply G. lia.
Qed.

Lemma visits_row m k : 0 <= mwidth m -> 0 <= mheight m -> 0 <= k < mheight m * mwidth m ->
  nth_error (visits IterDirection_ROW m) (Z.to_nat k) = Some (k mod mwidth m, k / mwidth m, rawget m (k mod mwidth m) (k / mwidth m)).
Proof.
  intros Hw Hh Hk. rewrite visits_map, nth_error_map. cbn [iter_coords]. rewrite !zseq_upto.
  rewrite (nth_error_grid (fun x y => (x, y))) by nia. reflexivity.
Qed.
Lemma visits_column m k : 0 <= mwidth m -> 0 <= mheight m -> 0 <= k < mwidth m * mheight m ->
  nth_error (visits IterDirection_COLUMN m) (Z.to_nat k) = Some (k / mheight m, k mod mheight m, rawget m (k / mheight m) (k mod mheight m)).
Proof.
  intros Hw Hh Hk. rewrite visits_map, nth_error_map. cbn [iter_coords]. rewrite !zseq_upto.
  rewrite (nth_error_grid (fun y x => (x, y))) by nia. reflexivity.
Qed.

Lemma length_flat_map_const {A B} (f : A -> list B) l n : (forall a, In a l -> length (f a) = n) -> length (flat_map f l) = (length l * n)%nat.
Proof.
  induction l as [|a l IH]; intros HF; cbn [flat_map length]; [reflexivity|].
  rewrite app_length, (HF a (or_introl eq_refl)), IH; [lia|]. intros b Hb. apply HF. right. auto.
Qed.
Lemma visits_length dir m : 0 <= mwidth m -> 0 <= mheight m -> zlen (visits dir m) = mwidth m * mheight m.
Proof.
  intros Hw Hh. rewrite visits_map, zlen_map. unfold zlen. destruct dir; cbn [iter_coords]; rewrite !zseq_upto.
  - rewrite (length_flat_map_const _ _ (Z.to_nat (mwidth m))) by (intros; rewrite map_length; apply upto_length). rewrite upto_length, Nat2Z.inj_mul, !Z2Nat.id by lia. lia.
  - rewrite (length_flat_map_const _ _ (Z.to_nat (mheight m))) by (intros; rewrite map_length; apply upto_length). rewrite upto_length, Nat2Z.inj_mul, !Z2Nat.id by lia. lia.
Qed.

Lemma views n m : square n m -> forall x y, 0 <= x < n -> 0 <= y < n ->
  exists v row col, m_at m x y = (v, None) /\
    m_row m y = Some row /\ zlen row = n /\ zget row x = Some v /\
    m_col m x = Some col /\ zlen col = n /\ zget col y = Some v /\
    module_at (m_bitmap m) x y = qrbool v /\
    zget (visits IterDirection_ROW m) (y * n + x) = Some (x, y, v) /\
    zget (visits IterDirection_COLUMN m) (x * n + y) = Some (x, y, v).
Proof.
  intros (HW & EW & EH) x y Hx Hy.
  assert (IR : in_range m x y) by (split; lia).
  exists (rawget m x y), (map (fun x => rawget m x y) (upto (mwidth m))), (map (fun y => rawget m x y) (upto (mheight m))).
  assert (LU : forall f : Z -> Z, forall k, 0 <= k -> zlen (map f (upto k)) = k) by (intros; rewrite zlen_map; unfold zlen; rewrite upto_length; lia).
  split; [apply m_at_in; auto|].
  split; [apply m_row_eq; auto; lia|]. split; [rewrite LU; lia|].
  split; [rewrite zget_map, zget_upto by lia; reflexivity|].
  split; [apply m_col_eq; auto; lia|]. split; [rewrite LU; lia|].
  split; [rewrite zget_map, zget_upto by lia; reflexivity|].
  split; [apply module_at_bitmap; auto|].
  split.
  - rewrite zget_nth by nia. rewrite visits_row by (try lia; rewrite EW, EH; nia). rewrite EW.
    replace ((y * n + x) mod n) with x. 2:{ rewrite Z.add_comm, Z_mod_plus_full, Z.mod_small; lia. }
    replace ((y * n + x) / n) with y. 2:{ rewrite Z.div_add_l, Z.div_small by lia. lia. } reflexivity.
  - rewrite zget_nth by nia. rewrite visits_column by (try lia; rewrite EW, EH; nia). rewrite EH.
    replace ((x * n + y) mod n) with y. 2:{ rewrite Z.add_comm, Z_mod_plus_full, Z.mod_small; lia. }
    replace ((x * n + y) / n) with x. 2:{ rewrite Z.div_add_l, Z.div_small by lia. lia. } reflexivity.
Qed.

Lemma bitmap_shape n m : square n m -> zlen (m_bitmap m) = n /\ Forall (fun r => zlen r = n) (m_bitmap m).
Proof.
  intros (HW & EW & EH). rewrite bitmap_rows by auto. unfold rows_of. destruct HW as (A & B & _). split.
  - rewrite zlen_map. unfold zlen. rewrite upto_length. lia.
  - apply Forall_forall. intros r Hr. apply in_map_iff in Hr as (y & <- & _). rewrite zlen_map. unfold zlen. rewrite upto_length. lia.
Qed.

Lemma square_new n : 0 <= n -> square n (newMatrix n n).
Proof. intros Hn. split; [apply wf_new; auto|split; reflexivity]. Qed.
Lemma square_set n m x y c : square n m -> square n (m_set m x y c).
Proof. intros (A & B & C). split; [apply wf_set; auto|]. rewrite m_set_width, m_set_height. auto. Qed.
Lemma square_copy n m : square n m -> square n (m_copy m).
Proof. intros HS. rewrite m_copy_id; auto. apply HS. Qed.

(* ---- rule 2 and rule 3 when every module is a data module ---- *)
Definition data_only (m : Matrix) : Prop :=
  forall x y, in_range m x y -> rawget m x y = QRValue_DATA_V0 \/ rawget m x y = QRValue_DATA_V1.

Lemma data_value_qrbool v : v = QRValue_DATA_V0 \/ v = QRValue_DATA_V1 -> data_value (qrbool v) = v.
Proof. intros [-> | ->]; reflexivity. Qed.

Lemma rule2_data m : wf m -> mwidth m = mheight m -> data_only m -> rule2 m = penalty2 (m_bitmap m) (mwidth m).
Proof.
  intros Hm HE HD. rewrite rule2_eq by auto. unfold penalty2. rewrite <- HE.
  apply zsum_over_ext. intros x Hx. apply zsum_over_ext. intros y Hy. cbv zeta.
  rewrite !module_at_bitmap by (auto; split; lia). unfold same_window.
  assert (R : forall a b, 0 <= a < mwidth m -> 0 <= b < mheight m -> rawget m a b = data_value (qrbool (rawget m a b))).
  { intros a b Ha Hb. symmetry. apply data_value_qrbool, HD. split; auto. }
  rewrite (R x y), (R (x + 1) y), (R x (y + 1)), (R (x + 1) (y + 1)) by lia. rewrite !qrbool_data.
  destruct (qrbool (rawget m x y)), (qrbool (rawget m (x + 1) y)), (qrbool (rawget m x (y + 1))), (qrbool (rawget m (x + 1) (y + 1))); reflexivity.
Qed.

Lemma count_values_data pat l : Forall (fun v => v = QRValue_DATA_V0 \/ v = QRValue_DATA_V1) l ->
  count_values (map data_value pat) l = count_bits pat (map qrbool l).
Proof.
  intros HF. unfold count_values, count_bits. rewrite !map_length. f_equal. f_equal. apply filter_ext. intros i.
  rewrite skipn_map, firstn_map. unfold eq_bits.
  assert (E : forall l', Forall (fun v => v = QRValue_DATA_V0 \/ v = QRValue_DATA_V1) l' -> map data_value (map qrbool l') = l').
  { clear. induction 1 as [|v l Hv HF IH]; cbn [map]; [reflexivity|]. rewrite IH, data_value_qrbool by auto. reflexivity. }
  assert (HF' : Forall (fun v => v = QRValue_DATA_V0 \/ v = QRValue_DATA_V1) (firstn (length pat) (skipn i l))).
  { rewrite Forall_forall in *. intros v Hv. apply HF. rewrite <- (firstn_skipn i l). apply in_or_app. right.
    rewrite <- (firstn_skipn (length pat) (skipn i l)). apply in_or_app. left. auto. }
  destruct (list_eq_dec Z.eq_dec _ _) as [E1|E1], (list_eq_dec bool_dec _ _) as [E2|E2]; auto; exfalso.
  - apply E2. rewrite E1, map_map. rewrite (map_ext _ (fun b => b) qrbool_data). apply map_id.
  - apply E1. pose proof (E _ HF') as X. rewrite E2 in X. auto.
Qed.

Lemma rule3_data m : wf m -> mwidth m = mheight m -> data_only m -> rule3 m = Some (penalty3 (m_bitmap m) (mwidth m)).
Proof.
  intros Hm HE HD. rewrite rule3_eq by auto. f_equal. unfold penalty3. apply zsum_over_ext. intros i Hi.
  unfold line3. rewrite pattern1_eq, pattern2_eq.
  assert (FR : Forall (fun v => v = QRValue_DATA_V0 \/ v = QRValue_DATA_V1) (or_nil (m_row m i))).
  { rewrite m_row_eq by (auto; lia). cbn [or_nil]. apply Forall_forall. intros v Hv. apply in_map_iff in Hv as (x & <- & Hx). apply in_upto in Hx. apply HD. split; lia. }
  assert (FC : Forall (fun v => v = QRValue_DATA_V0 \/ v = QRValue_DATA_V1) (or_nil (m_col m i))).
  { rewrite m_col_eq by (auto; lia). cbn [or_nil]. apply Forall_forall. intros v Hv. apply in_map_iff in Hv as (x & <- & Hx). apply in_upto in Hx. apply HD. split; lia. }
  rewrite !count_values_data by auto. rewrite row_colours, col_colours by (auto; lia). lia.
Qed.

(* ---- rule 4 on a matrix ---- *)
Lemma rule4_matrix n m : square n m -> 0 < n ->
  rule4 m = rule4_score (dark_modules (m_bitmap m) n) (n * n) /\ 0 <= dark_modules (m_bitmap m) n <= n * n.
Proof.
  intros (HW & EW & EH) Hn. unfold rule4. rewrite EW, EH, Z.eqb_refl. cbn [negb].
  rewrite count_dark_spec by (auto; lia). rewrite EW. split; auto.
  pose proof (dark_bounds m HW ltac:(lia)). rewrite EW in *. auto.
Qed.

(* ---- kmp on an empty pattern ---- *)
Lemma kmp_empty_diverges {A} (eqb : A -> A -> bool) src next : forall fuel i c, kmp_loop eqb fuel src [] next i 0 c = None.
Proof.
  induction fuel as [|f IH]; intros i c; [reflexivity|]. cbn [kmp_loop].
  change (zlen (@nil A)) with 0. rewrite Z.ltb_irrefl, andb_false_r. cbn [Z.eqb]. apply IH.
Qed.
