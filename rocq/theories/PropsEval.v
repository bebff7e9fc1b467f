(* Theorems about the mask score, pattern counting and the views of a matrix: properties C25-C30. *)
From Coq Require Import Lia.
From Verif Require Import ModelBase ModelMatrix ModelKmp ModelEval ModelQRCode.
From Verif Require Import SpecIso SpecReader SpecSegment SpecAPI SpecPenalty SpecMatrix SpecScore.
From Verif Require Import Samples.
From Verif Require Import ProofMatrix ProofKmp ProofEval ProofScore ProofViews ProofSymbol ProofAPI ProofNew ProofRecovery ProofBuild ProofMasking.

(* ------------------------------------------------------------------ C25 *)
Theorem C25_run_penalty : forall n m, square n m -> rule1 m = penalty1 (m_bitmap m) n.
Proof. intros n m (HW & EW & EH). rewrite <- EW. apply rule1_spec; congruence. Qed.

(* ------------------------------------------------------------------ C26 *)
(* the code compares kind and colour, so only windows whose four modules are of one kind are counted *)
Theorem C26_block_penalty_partial :
  forall n m, square n m ->
    rule2 m = 3 * equal_windows m n /\ rule2 m <= penalty2 (m_bitmap m) n /\
    ((forall x y, 0 <= x < n -> 0 <= y < n -> qrtype (fst (m_at m x y)) = QRType_DATA /\ 0 <= fst (m_at m x y) < 256) ->
      rule2 m = penalty2 (m_bitmap m) n).
Proof.
  intros n m (HW & EW & EH). split; [|split].
  - rewrite rule2_eq by auto. rewrite EW, EH. unfold equal_windows.
    assert (S3 : forall k f, 3 * zsum_over k f = zsum_over k (fun i => 3 * f i)).
    { intros k f. unfold zsum_over. induction (upto k) as [|a l IH]; cbn [map fold_right]; lia. }
    rewrite S3. apply zsum_over_ext. intros x Hx. rewrite S3. apply zsum_over_ext. intros y Hy. cbv zeta. unfold value.
    rewrite !m_at_in by (split; lia). cbn [fst]. unfold same_window.
    destruct (Z.eqb_spec (rawget m x y) (rawget m (x + 1) y)) as [E1|E1];
    destruct (Z.eqb_spec (rawget m x (y + 1)) (rawget m (x + 1) (y + 1))) as [E2|E2];
    destruct (Z.eqb_spec (rawget m (x + 1) y) (rawget m x (y + 1))) as [E3|E3];
    destruct (Z.eqb_spec (rawget m (x + 1) y) (rawget m x y)) as [E4|E4];
    destruct (Z.eqb_spec (rawget m x (y + 1)) (rawget m x y)) as [E5|E5];
    destruct (Z.eqb_spec (rawget m (x + 1) (y + 1)) (rawget m x y)) as [E6|E6]; cbn [andb]; try lia; exfalso; congruence.
  - rewrite <- EW. apply rule2_le; congruence.
  - intros HD. rewrite <- EW. apply rule2_data; try congruence. intros x y [Hx Hy]. destruct (HD x y ltac:(lia) ltac:(lia)) as [HT HB].
    rewrite m_at_in in HT, HB by (split; lia). cbn [fst] in *.
    assert (SW : forallb (fun v => if qrtype v =? QRType_DATA then (v =? QRValue_DATA_V0) || (v =? QRValue_DATA_V1) else true) (upto 256) = true) by (vm_compute; reflexivity).
    rewrite forallb_forall in SW. specialize (SW _ (proj2 (ProofBase.in_upto _ 256) HB)). rewrite HT, Z.eqb_refl in SW.
    apply orb_true_iff in SW as [E|E]; apply Z.eqb_eq in E; auto.
Qed.

(* a dark finder module next to three dark data modules *)
Definition fill (w h : Z) (cells : list (Z * Z * Z)) : Matrix := fold_left (fun m '(x, y, v) => m_set m x y v) cells (newMatrix w h).
Definition c26_matrix : Matrix := fill 2 2 [(0, 0, QRValue_FINDER_V1); (1, 0, QRValue_DATA_V1); (0, 1, QRValue_DATA_V1); (1, 1, QRValue_DATA_V1)].
Lemma square_fill n cells : 0 <= n -> square n (fill n n cells).
Proof.
  intros Hn. unfold fill. pose proof (square_new n Hn) as S. revert S. generalize (newMatrix n n).
  induction cells as [|[[x y] v] l IH]; intros m S; cbn [fold_left]; auto. apply IH, square_set, S.
Qed.
Theorem C26_block_penalty_refuted : ~ (forall n m, square n m -> rule2 m = penalty2 (m_bitmap m) n).
Proof.
  intros G. specialize (G 2 c26_matrix (square_fill 2 _ ltac:(lia))). vm_compute in G. discriminate G.
Qed.

(* ------------------------------------------------------------------ C27 *)
(* the code looks for the pattern in data modules only *)
Theorem C27_pattern_penalty_partial :
  forall n m, square n m ->
    exists s, rule3 m = Some s /\ s = 40 * data_patterns m n /\ s <= penalty3 (m_bitmap m) n /\
      ((forall x y, 0 <= x < n -> 0 <= y < n -> qrtype (fst (m_at m x y)) = QRType_DATA /\ 0 <= fst (m_at m x y) < 256) ->
        s = penalty3 (m_bitmap m) n).
Proof.
  intros n m (HW & EW & EH). destruct (rule3_le m HW ltac:(congruence)) as (s & E & LE). exists s. split; auto. split; [rewrite (rule3_windows n) in E by (exact (conj HW (conj EW EH))); congruence|]. split; [congruence|].
  intros HD. enough (D : data_only m) by (rewrite rule3_data in E by (auto; congruence); congruence).
  intros x y [Hx Hy]. destruct (HD x y ltac:(lia) ltac:(lia)) as [HT HB].
  rewrite m_at_in in HT, HB by (split; lia). cbn [fst] in *.
  assert (SW : forallb (fun v => if qrtype v =? QRType_DATA then (v =? QRValue_DATA_V0) || (v =? QRValue_DATA_V1) else true) (upto 256) = true) by (vm_compute; reflexivity).
  rewrite forallb_forall in SW. specialize (SW _ (proj2 (ProofBase.in_upto _ 256) HB)). rewrite HT, Z.eqb_refl in SW.
  apply orb_true_iff in SW as [X|X]; apply Z.eqb_eq in X; auto.
Qed.

(* a row 1011101 0000 whose first seven modules are finder modules, in an 11 x 11 matrix of light data modules *)
Definition c27_matrix : Matrix :=
  fill 11 11 (flat_map (fun x => map (fun y => (x, y, QRValue_DATA_V0)) (upto 11)) (upto 11) ++
    [(0, 5, QRValue_FINDER_V1); (1, 5, QRValue_FINDER_V0); (2, 5, QRValue_FINDER_V1); (3, 5, QRValue_FINDER_V1);
     (4, 5, QRValue_FINDER_V1); (5, 5, QRValue_FINDER_V0); (6, 5, QRValue_FINDER_V1)]).
Theorem C27_pattern_penalty_refuted : ~ (forall n m, square n m -> rule3 m = Some (penalty3 (m_bitmap m) n)).
Proof.
  intros G. specialize (G 11 c27_matrix (square_fill 11 _ ltac:(lia))).
  assert (X : rule3 c27_matrix = Some 0) by (vm_compute; reflexivity).
  assert (Y : penalty3 (m_bitmap c27_matrix) 11 = 40) by (vm_compute; reflexivity).
  rewrite X, Y in G. discriminate G.
Qed.

(* ------------------------------------------------------------------ C28 *)
(* right unless the percentage lies strictly between a multiple of five other than 50 and the next integer *)
Theorem C28_balance_penalty_partial :
  forall n m, square n m -> 0 < n ->
    let dark := dark_modules (m_bitmap m) n in
    let percent := 100 * dark / (n * n) in
    rule4 m = balance_penalty dark (n * n) /\
    (is_penalty4 dark (n * n) (rule4 m) <-> ~ (percent mod 5 = 0 /\ percent <> 50 /\ percent * (n * n) < 100 * dark)).
Proof.
  intros n m HS Hn. cbv zeta. split; [apply rule4_balance; auto|]. destruct (rule4_matrix n m HS Hn) as [-> HD]. apply rule4_iff; auto. nia.
Qed.
(* 5 of 9 modules dark: 55.6 percent, penalty 10, the code says 0 *)
Definition c28_matrix : Matrix := fill 3 3 (map (fun '(x, y) => (x, y, QRValue_DATA_V1)) [(0, 0); (1, 0); (2, 0); (0, 1); (1, 1)]).
Theorem C28_balance_penalty_refuted :
  ~ (forall n m, square n m -> 0 < n -> is_penalty4 (dark_modules (m_bitmap m) n) (n * n) (rule4 m)).
Proof.
  intros G. pose proof (square_fill 3 (map (fun '(x, y) => (x, y, QRValue_DATA_V1)) [(0, 0); (1, 0); (2, 0); (0, 1); (1, 1)]) ltac:(lia)) as S.
  specialize (G 3 c28_matrix S ltac:(lia)). apply (proj2 (C28_balance_penalty_partial 3 c28_matrix S ltac:(lia))) in G. apply G.
  assert (X : dark_modules (m_bitmap c28_matrix) 3 = 5) by (vm_compute; reflexivity). rewrite X. vm_compute. repeat split; discriminate.
Qed.

(* the score of a matrix is the sum of the four *)
Theorem C28_total : forall n m, square n m -> 0 < n -> evaluation m = Some (search_penalty m n).
Proof. exact evaluation_is. Qed.

(* ------------------------------------------------------------------ C29 *)
Theorem C29_pattern_count :
  forall (A : Type) (eqb : A -> A -> bool), (forall a b, eqb a b = true <-> a = b) ->
  forall src pattern, pattern <> [] ->
    exists c, kmp_call eqb src pattern None = Some c /\ occurrence_count pattern src c /\
      exists next, kmpGetNext eqb pattern = Some next /\ kmp_call eqb src pattern (Some next) = Some c.
Proof.
  intros A eqb He src p Hp. destruct (kmp_correct eqb He src p Hp) as (next & c & E1 & E2 & OC & _).
  exists c. cbn [kmp_call]. rewrite E1. eauto.
Qed.
(* the empty pattern: computing the table panics, and with a table given the search never ends (for no number of steps is there a result) *)
Theorem C29_empty_pattern :
  forall (A : Type) (eqb : A -> A -> bool) src,
    kmpGetNext eqb [] = None /\ forall next steps, kmp_loop eqb steps src [] next 0 0 0 = None.
Proof. intros A eqb src. split; [reflexivity|]. intros. apply kmp_empty_diverges. Qed.

(* ------------------------------------------------------------------ C30 *)
(* every matrix handed to a writer is square; the theorems below are about any square matrix *)
Theorem C30_library_matrices :
  forall sjis, shift_jis_contract sjis ->
  forall text opts sched q, NewWith sjis text opts sched = Ok q -> exists v, valid_version v /\ square (side v) (qMat q).
Proof.
  intros sjis C t opts sched q HN. destruct (newwith_made sjis C t opts sched q HN) as (md & pl & l & v & b & w & k & c & s & HM).
  destruct (blocks_made _ _ _ _ _ _ _ _ _ _ _ _ _ HM) as (RV & HK & FB & EW & EB).
  destruct (md_cand _ _ _ _ _ _ _ _ _ _ _ _ _ HM k HK) as [SY _]. rewrite <- (md_mat _ _ _ _ _ _ _ _ _ _ _ _ _ HM) in SY.
  exists v. split; [apply HM|]. split; [apply SY|split; apply SY].
Qed.

(* v: the module at column x, row y *)
Theorem C30_views_agree :
  forall n m, square n m -> forall x y, 0 <= x < n -> 0 <= y < n ->
  exists v row col, m_at m x y = (v, None) /\
    m_row m y = Some row /\ zlen row = n /\ zget row x = Some v /\
    m_col m x = Some col /\ zlen col = n /\ zget col y = Some v /\
    module_at (m_bitmap m) x y = qrbool v /\
    zget (visits IterDirection_ROW m) (y * n + x) = Some (x, y, v) /\
    zget (visits IterDirection_COLUMN m) (x * n + y) = Some (x, y, v).
Proof. exact views. Qed.
(* together with the positions above: Iterate makes n * n calls, one for each module, row by row or column by column *)
Theorem C30_shapes :
  forall n m, square n m ->
    zlen (m_bitmap m) = n /\ Forall (fun r => zlen r = n) (m_bitmap m) /\
    (forall dir, zlen (visits dir m) = n * n) /\
    (forall i, ~ 0 <= i < n -> m_row m i = None /\ m_col m i = None).
Proof.
  intros n m HS. pose proof HS as (HW & EW & EH). pose proof HW as (A & B & _). destruct (bitmap_shape n m HS) as [P1 P2].
  split; auto. split; auto. split.
  - intros dir. rewrite visits_length by auto. congruence.
  - intros i Hi. unfold m_row, m_col. rewrite EW, EH.
    assert (E : (n <=? i) || (i <? 0) = true). { apply orb_true_iff. rewrite Z.leb_le, Z.ltb_lt. lia. }
    rewrite E. auto.
Qed.

(* ------------------------------------------------------------------ the hypotheses can be met *)
Example C25_example : square 3 c28_matrix. Proof. apply square_fill. lia. Qed.
Example C26_example : let m := fill 2 2 [(0, 0, QRValue_DATA_V1); (1, 0, QRValue_DATA_V1); (0, 1, QRValue_DATA_V1); (1, 1, QRValue_DATA_V1)] in
  square 2 m /\ (forall x y, 0 <= x < 2 -> 0 <= y < 2 -> qrtype (fst (m_at m x y)) = QRType_DATA /\ 0 <= fst (m_at m x y) < 256) /\ rule2 m = 3.
Proof.
  cbv zeta. split; [apply square_fill; lia|]. split; [|vm_compute; reflexivity].
  intros x y Hx Hy. assert (XX : x = 0 \/ x = 1) by lia. assert (YY : y = 0 \/ y = 1) by lia.
  destruct XX as [-> | ->], YY as [-> | ->]; vm_compute; repeat split; discriminate.
Qed.
Example C29_example : kmp_call Z.eqb [1; 1; 1; 1] [1; 1] None = Some 3. Proof. vm_compute. reflexivity. Qed.

Print Assumptions C25_run_penalty.
Print Assumptions C26_block_penalty_partial.
Print Assumptions C26_block_penalty_refuted.
Print Assumptions C27_pattern_penalty_partial.
Print Assumptions C27_pattern_penalty_refuted.
Print Assumptions C28_balance_penalty_partial.
Print Assumptions C28_balance_penalty_refuted.
Print Assumptions C29_pattern_count.
Print Assumptions C29_empty_pattern.
Print Assumptions C30_library_matrices.
Print Assumptions C30_views_agree.
Print Assumptions C30_shapes.
Print Assumptions C28_total.
