(* The four penalty rules. *)
From Coq Require Import Lia.
From Verif Require Import ModelBase ModelMatrix ModelKmp ModelEval SpecIso SpecReader SpecPenalty ProofBase ProofMatrix ProofKmp.

(* ---- bitmap access ---- *)
Lemma nth_upto_map {A} (f : Z -> A) n i d : 0 <= i < n -> nth (Z.to_nat i) (map f (upto n)) d = f i.
Proof.
  intros Hi. apply nth_error_nth. rewrite nth_error_map, nth_error_upto by lia. cbn. f_equal. f_equal. lia.
Qed.

Lemma module_at_bitmap m x y : wf m -> in_range m x y -> module_at (m_bitmap m) x y = qrbool (rawget m x y).
Proof.
  intros Hm [Hx Hy]. rewrite bitmap_rows by auto. unfold module_at, rows_of.
  rewrite nth_upto_map by auto. rewrite nth_upto_map by auto. reflexivity.
Qed.

Lemma m_row_eq m y : wf m -> mwidth m = mheight m -> 0 <= y < mheight m ->
  m_row m y = Some (map (fun x => rawget m x y) (upto (mwidth m))).
Proof.
  intros Hm HE Hy. unfold m_row. destruct (Z.leb_spec (mheight m) y); [lia|]. destruct (Z.ltb_spec y 0); [lia|]. cbn [orb].
  rewrite zseq_upto. replace (mheight m - mwidth m) with 0 by lia. cbn [Z.to_nat repeat]. rewrite app_nil_r. reflexivity.
Qed.

Lemma m_col_eq m x : wf m -> 0 <= x < mwidth m -> m_col m x = Some (map (fun y => rawget m x y) (upto (mheight m))).
Proof.
  intros Hm Hx. unfold m_col. destruct (Z.leb_spec (mwidth m) x); [lia|]. destruct (Z.ltb_spec x 0); [lia|]. cbn [orb].
  destruct (wf_col m x Hm Hx) as (c & E & L). rewrite E. f_equal. unfold rawget. rewrite E.
  apply list_ext. intros i. rewrite nth_error_map. destruct (Nat.ltb_spec i (length c)) as [X|X].
  - rewrite nth_error_upto by (unfold zlen in L; lia). cbn [option_map].
    destruct (zget_in_range c (Z.of_nat i)) as [a Ea]; [unfold zlen; lia|]. rewrite Ea.
    rewrite zget_nth in Ea by lia. rewrite Nat2Z.id in Ea. exact Ea.
  - rewrite (proj2 (nth_error_None c i)) by auto.
    rewrite (proj2 (nth_error_None (upto (mheight m)) i)) by (rewrite upto_length; unfold zlen in L; lia). reflexivity.
Qed.

(* ---- rule 1 ---- *)
Definition pen (n : Z) : Z := if 5 <=? n then 3 + (n - 5) else 0.
Definition pens (rs : list (bool * Z)) : Z := fold_right (fun '(_, n) acc => pen n + acc) 0 rs.

Definition resume (b : bool) (cnt : Z) (rs : list (bool * Z)) : Z :=
  match rs with
  | (c, n) :: r => if Bool.eqb b c then pen (cnt + n) - pen cnt + pens r else pens rs
  | [] => 0
  end.

Lemma runs_pos l : Forall (fun p => 1 <= snd p) (runs l).
Proof.
  induction l as [|b l IH]; cbn; [constructor|]. destruct (runs l) as [|[c n] r]; [repeat constructor; cbn; lia|].
  inversion IH; subst. cbn in *. destruct (Bool.eqb b c); repeat constructor; cbn; auto; lia.
Qed.
Lemma runs_alternate b l c n r : runs (b :: l) = (c, n) :: r -> c = b.
Proof.
  cbn. destruct (runs l) as [|[d k] q]; [congruence|]. destruct (Bool.eqb b d) eqn:E; intros HH; injection HH; intros; subst; auto.
  apply eqb_prop in E. auto.
Qed.

Lemma pen_step cnt : 0 <= cnt -> pen (cnt + 1) = pen cnt + (if cnt + 1 =? 5 then 3 else if 5 <? cnt + 1 then 1 else 0).
Proof.
  intros. unfold pen. destruct (Z.leb_spec 5 (cnt + 1)), (Z.leb_spec 5 cnt), (Z.eqb_spec (cnt + 1) 5), (Z.ltb_spec 5 (cnt + 1)); lia.
Qed.

Lemma scoreLine_loop_spec : forall arr s cnt cur, 0 <= cnt ->
  scoreLine_loop arr s cnt cur = s + resume (qrbool cur) cnt (runs (map qrbool arr)).
Proof.
  induction arr as [|v arr IH]; intros s cnt cur Hc; [cbn; lia|].
  cbn [scoreLine_loop map]. unfold samestate. cbn [runs].
  destruct (Bool.eqb (qrbool v) (qrbool cur)) eqn:E; cbn [negb].
  - apply eqb_prop in E. cbv zeta. rewrite IH by lia. rewrite E.
    assert (PS : (if cnt + 1 =? 5 then s + 3 else if 5 <? cnt + 1 then s + 1 else s) = s + (pen (cnt + 1) - pen cnt)).
    { rewrite pen_step by auto. destruct (cnt + 1 =? 5), (5 <? cnt + 1); lia. }
    rewrite PS. destruct (runs (map qrbool arr)) as [|[c n] r]; cbn [resume].
    + rewrite eqb_reflx. cbn [pens fold_right]. lia.
    + destruct (Bool.eqb (qrbool cur) c) eqn:EC; cbn [resume].
      * rewrite EC. replace (cnt + 1 + n) with (cnt + (n + 1)) by lia. lia.
      * rewrite eqb_reflx. lia.
  - rewrite IH by lia. f_equal.
    assert (N : Bool.eqb (qrbool cur) (qrbool v) = false) by (destruct (qrbool cur), (qrbool v); cbn in *; congruence).
    destruct (runs (map qrbool arr)) as [|[c n] r] eqn:ER; cbn [resume].
    + rewrite N. cbn. lia.
    + destruct (Bool.eqb (qrbool v) c) eqn:EC; cbn [resume].
      * apply eqb_prop in EC. subst c. rewrite N. cbn [pens fold_right]. replace (1 + n) with (n + 1) by lia.
        change (pen 1) with 0. fold (pens r). lia.
      * rewrite N. cbn [pens fold_right]. change (pen 1) with 0. lia.
Qed.

Lemma scoreLine_spec arr : scoreLine arr = run_penalty (map qrbool arr).
Proof.
  unfold scoreLine. rewrite scoreLine_loop_spec by lia. unfold run_penalty.
  change (fold_right _ 0 (runs (map qrbool arr))) with (pens (runs (map qrbool arr))).
  destruct (runs (map qrbool arr)) as [|[c n] r]; [reflexivity|].
  change (pens ((c, n) :: r)) with (pen n + pens r). unfold resume. change (pens ((c, n) :: r)) with (pen n + pens r).
  change (pen 0) with 0. destruct (Bool.eqb _ c); rewrite ?Z.add_0_l; lia.
Qed.

Lemma zsum_over_ext n f g : (forall i, 0 <= i < n -> f i = g i) -> zsum_over n f = zsum_over n g.
Proof. intros E. unfold zsum_over. f_equal. apply map_ext_in. intros i Hi. apply in_upto in Hi. auto. Qed.

Lemma fold_zsum (f : Z -> Z) n : forall s, fold_left (fun acc i => acc + f i) (upto n) s = s + zsum_over n f.
Proof.
  unfold zsum_over. induction (upto n) as [|a l IH]; intros s; cbn; [lia|]. rewrite IH. lia.
Qed.
Lemma fold_left_ext_in {A B} (f g : A -> B -> A) l : (forall a b, In b l -> f a b = g a b) -> forall a, fold_left f l a = fold_left g l a.
Proof. induction l as [|b l IH]; intros E a; cbn; auto. rewrite E by (left; auto). apply IH. intros; apply E; cbn; auto. Qed.

Lemma row_colours m y : wf m -> mwidth m = mheight m -> 0 <= y < mheight m ->
  map qrbool (or_nil (m_row m y)) = row_of (m_bitmap m) (mwidth m) y.
Proof.
  intros Hm HE Hy. rewrite m_row_eq by auto. cbn [or_nil]. rewrite map_map. unfold row_of.
  apply map_ext_in. intros x Hx. apply in_upto in Hx. symmetry. apply module_at_bitmap; auto. split; auto.
Qed.
Lemma col_colours m x : wf m -> mwidth m = mheight m -> 0 <= x < mwidth m ->
  map qrbool (or_nil (m_col m x)) = col_of (m_bitmap m) (mwidth m) x.
Proof.
  intros Hm HE Hx. rewrite m_col_eq by auto. cbn [or_nil]. rewrite map_map. unfold col_of. rewrite HE.
  apply map_ext_in. intros y Hy. apply in_upto in Hy. symmetry. apply module_at_bitmap; auto. split; auto; lia.
Qed.

Theorem rule1_spec m : wf m -> mwidth m = mheight m -> rule1 m = penalty1 (m_bitmap m) (mwidth m).
Proof.
  intros Hm HE. unfold rule1. rewrite HE, Z.eqb_refl. cbn [negb]. rewrite <- HE. rewrite zseq_upto.
  rewrite (fold_left_ext_in _ (fun acc i => acc + (scoreLine (or_nil (m_row m i)) + scoreLine (or_nil (m_col m i)))))
    by (intros; lia).
  rewrite fold_zsum. rewrite Z.add_0_l. apply zsum_over_ext. intros i Hi.
  rewrite !scoreLine_spec, row_colours, col_colours by (auto; lia). reflexivity.
Qed.

(* ---- rule 2 ---- *)
(* windows whose four stored values (colour and kind) are equal *)
Definition same_window (m : Matrix) (x y : Z) : bool :=
  (rawget m x y =? rawget m (x + 1) y) && (rawget m x (y + 1) =? rawget m (x + 1) (y + 1)) && (rawget m (x + 1) y =? rawget m x (y + 1)).

Lemma rule2_eq m : wf m -> rule2 m = zsum_over (mwidth m - 1) (fun x => zsum_over (mheight m - 1) (fun y => if same_window m x y then 3 else 0)).
Proof.
  intros Hm. unfold rule2. rewrite !zseq_upto.
  rewrite (fold_left_ext_in _ (fun acc x => acc + zsum_over (mheight m - 1) (fun y => if same_window m x y then 3 else 0))).
  - rewrite fold_zsum. lia.
  - intros s x Hx. apply in_upto in Hx.
    rewrite (fold_left_ext_in _ (fun acc y => acc + if same_window m x y then 3 else 0)).
    + rewrite fold_zsum. lia.
    + intros s' y Hy. apply in_upto in Hy.
      rewrite !m_at_in by (split; lia). cbn [fst]. unfold same_window. destruct (_ && _ && _); lia.
Qed.

Lemma zsum_over_le n f g : (forall i, 0 <= i < n -> f i <= g i) -> zsum_over n f <= zsum_over n g.
Proof.
  intros E. unfold zsum_over. assert (G : forall i, In i (upto n) -> f i <= g i) by (intros i Hi; apply in_upto in Hi; auto).
  clear E. induction (upto n) as [|a l IH]; cbn; [lia|]. pose proof (G a (or_introl eq_refl)).
  specialize (IH (fun i Hi => G i (or_intror Hi))). lia.
Qed.
Lemma zsum_over_bound n f B : 0 <= n -> 0 <= B -> (forall i, 0 <= i < n -> 0 <= f i <= B) -> 0 <= zsum_over n f <= n * B.
Proof.
  intros Hn HB E. unfold zsum_over. assert (G : forall i, In i (upto n) -> 0 <= f i <= B) by (intros i Hi; apply in_upto in Hi; auto).
  assert (L : zlen (upto n) = n) by (unfold zlen; rewrite upto_length; lia). replace (n * B) with (zlen (upto n) * B) by (rewrite L; auto). clear E L.
  induction (upto n) as [|a l IH]; [cbn; lia|]. rewrite zlen_cons. cbn [map fold_right]. pose proof (G a (or_introl eq_refl)).
  specialize (IH (fun i Hi => G i (or_intror Hi))). nia.
Qed.

Lemma window_colour m x y : wf m -> 0 <= x < mwidth m - 1 -> 0 <= y < mheight m - 1 -> same_window m x y = true ->
  let c := module_at (m_bitmap m) x y in
  Bool.eqb (module_at (m_bitmap m) (x + 1) y) c && Bool.eqb (module_at (m_bitmap m) x (y + 1)) c
       && Bool.eqb (module_at (m_bitmap m) (x + 1) (y + 1)) c = true.
Proof.
  intros Hm Hx Hy HS. cbv zeta. rewrite !module_at_bitmap by (auto; split; lia).
  unfold same_window in HS. rewrite !andb_true_iff, !Z.eqb_eq in HS. destruct HS as [[E1 E2] E3].
  rewrite <- E2, <- E3, <- E1, !eqb_reflx. reflexivity.
Qed.

Theorem rule2_le m : wf m -> mwidth m = mheight m -> rule2 m <= penalty2 (m_bitmap m) (mwidth m).
Proof.
  intros Hm HE. rewrite rule2_eq by auto. unfold penalty2. rewrite <- HE.
  apply zsum_over_le. intros x Hx. apply zsum_over_le. intros y Hy.
  destruct (same_window m x y) eqn:HS.
  - pose proof (window_colour m x y Hm ltac:(lia) ltac:(lia) HS) as W. cbv zeta in *. rewrite W. lia.
  - cbv zeta. destruct (_ && _ && _); lia.
Qed.

(* ---- rule 3 ---- *)
Lemma Zeqb_spec_iff : forall a b : Z, (a =? b) = true <-> a = b.
Proof. intros. apply Z.eqb_eq. Qed.

Definition count_values (pat src : list Z) : Z :=
  Z.of_nat (length (filter (fun i => if list_eq_dec Z.eq_dec (firstn (length pat) (skipn i src)) pat then true else false) (seq 0 (length src)))).

Lemma occurrence_count_unique {A} (pat src : list A) c d : occurrence_count pat src c -> occurrence_count pat src d -> c = d.
Proof.
  intros (p1 & N1 & I1 & ->) (p2 & N2 & I2 & ->). f_equal. apply Nat.le_antisymm; apply NoDup_incl_length; auto; intros i Hi.
  - apply I2, I1, Hi.
  - apply I1, I2, Hi.
Qed.

Lemma occurs_lt {A} (pat src : list A) i : pat <> [] -> occurs_at pat src i -> (i < length src)%nat.
Proof.
  intros Hp E. unfold occurs_at in E. destruct (Nat.ltb_spec i (length src)) as [X|X]; auto.
  rewrite skipn_all2 in E by auto. rewrite firstn_nil in E. congruence.
Qed.

Lemma count_values_spec pat src : pat <> [] -> occurrence_count pat src (count_values pat src).
Proof.
  intros Hp. unfold count_values. eexists. split; [|split; [|reflexivity]].
  - apply NoDup_filter, seq_NoDup.
  - intros i. rewrite filter_In, in_seq. destruct (list_eq_dec Z.eq_dec _ _) as [E|E].
    + split; [auto|]. intros HO. split; auto. apply occurs_lt in HO; auto. lia.
    + split; [intros [_ ?]; discriminate|]. intros HO. contradiction.
Qed.

Lemma count_bits_spec pat src : pat <> [] -> occurrence_count pat src (count_bits pat src).
Proof.
  intros Hp. unfold count_bits. eexists. split; [|split; [|reflexivity]].
  - apply NoDup_filter, seq_NoDup.
  - intros i. rewrite filter_In, in_seq. unfold eq_bits. destruct (list_eq_dec bool_dec _ _) as [E|E].
    + split; [auto|]. intros HO. split; auto. apply occurs_lt in HO; auto. lia.
    + split; [intros [_ ?]; discriminate|]. intros HO. contradiction.
Qed.

Lemma filter_length_le {A} (f : A -> bool) l : (length (filter f l) <= length l)%nat.
Proof. induction l as [|a l IH]; cbn; auto. destruct (f a); cbn; lia. Qed.

Lemma kmp_count pat : pat <> [] -> exists next, kmpGetNext Z.eqb pat = Some next /\
  forall src, kmp Z.eqb src pat next = Some (count_values pat src) /\ 0 <= count_values pat src <= zlen src.
Proof.
  intros Hp. destruct (kmpGetNext_ok Z.eqb Zeqb_spec_iff pat Hp) as (next & E & HN). exists next. split; auto.
  intros s. destruct (kmp_next_counts Z.eqb Zeqb_spec_iff s pat next Hp HN) as (c & E2 & HC & HB).
  pose proof (occurrence_count_unique _ _ _ _ HC (count_values_spec pat s Hp)) as ->. split; auto. split; [lia|].
  unfold count_values, zlen. pose proof (filter_length_le (fun i => if list_eq_dec Z.eq_dec (firstn (length pat) (skipn i s)) pat then true else false) (seq 0 (length s))).
  rewrite seq_length in *. lia.
Qed.

(* the patterns as stored values *)
Definition data_value (b : bool) : Z := if b then QRValue_DATA_V1 else QRValue_DATA_V0.
Lemma pattern1_eq : pattern1 = map data_value finder_like_1. Proof. reflexivity. Qed.
Lemma pattern2_eq : pattern2 = map data_value finder_like_2. Proof. reflexivity. Qed.

Definition line3 (l : list Z) : Z := count_values pattern1 l + count_values pattern2 l.

Lemma rule3_eq m : wf m -> mwidth m = mheight m ->
  rule3 m = Some (zsum_over (mwidth m) (fun i => 40 * (line3 (or_nil (m_row m i)) + line3 (or_nil (m_col m i))))).
Proof.
  intros Hm HE. unfold rule3.
  destruct (kmp_count pattern1 ltac:(discriminate)) as (n1 & -> & K1).
  destruct (kmp_count pattern2 ltac:(discriminate)) as (n2 & -> & K2).
  rewrite HE, Z.eqb_refl. cbn [negb]. rewrite <- HE, zseq_upto.
  assert (G : forall l s, fold_left (fun score i =>
           let col := or_nil (m_col m i) in
           let row := or_nil (m_row m i) in
           let score := add_opt score (mul40 (kmp Z.eqb col pattern1 n1)) in
           let score := add_opt score (mul40 (kmp Z.eqb col pattern2 n2)) in
           let score := add_opt score (mul40 (kmp Z.eqb row pattern1 n1)) in
           add_opt score (mul40 (kmp Z.eqb row pattern2 n2))) l (Some s)
         = Some (s + fold_right Z.add 0 (map (fun i => 40 * (line3 (or_nil (m_row m i)) + line3 (or_nil (m_col m i)))) l))).
  { induction l as [|i l IH]; intros s; cbn [fold_left map fold_right]; [f_equal; lia|].
    cbv zeta. rewrite (proj1 (K1 _)), (proj1 (K2 _)), (proj1 (K1 _)), (proj1 (K2 _)). cbn [mul40 add_opt]. rewrite IH. f_equal.
    unfold line3. lia. }
  rewrite G. reflexivity.
Qed.

(* an occurrence of the stored values is an occurrence of the colours *)
Lemma qrbool_data b : qrbool (data_value b) = b. Proof. destruct b; reflexivity. Qed.
Lemma count_values_le pat l : pat <> [] -> count_values (map data_value pat) l <= count_bits pat (map qrbool l).
Proof.
  intros Hp. unfold count_values, count_bits. rewrite !map_length. apply inj_le.
  apply NoDup_incl_length; [apply NoDup_filter, seq_NoDup|]. intros i Hi. rewrite filter_In in *.
  destruct Hi as [Hi HE]. split; auto. destruct (list_eq_dec Z.eq_dec _ _) as [E|E]; [|discriminate].
  unfold eq_bits. destruct (list_eq_dec bool_dec _ _) as [E2|E2]; auto. exfalso. apply E2.
  rewrite skipn_map, firstn_map, E, map_map. erewrite map_ext; [apply map_id|]. intros; apply qrbool_data.
Qed.

Theorem rule3_le m : wf m -> mwidth m = mheight m -> exists s, rule3 m = Some s /\ s <= penalty3 (m_bitmap m) (mwidth m).
Proof.
  intros Hm HE. eexists. split; [apply rule3_eq; auto|]. unfold penalty3. apply zsum_over_le. intros i Hi.
  unfold line3. rewrite pattern1_eq, pattern2_eq.
  rewrite <- row_colours, <- col_colours by (auto; lia).
  pose proof (count_values_le finder_like_1 (or_nil (m_row m i)) ltac:(discriminate)).
  pose proof (count_values_le finder_like_2 (or_nil (m_row m i)) ltac:(discriminate)).
  pose proof (count_values_le finder_like_1 (or_nil (m_col m i)) ltac:(discriminate)).
  pose proof (count_values_le finder_like_2 (or_nil (m_col m i)) ltac:(discriminate)). lia.
Qed.

(* ---- rule 4 ---- *)
Lemma count_dark_spec m : wf m -> mwidth m = mheight m -> count_dark m = dark_modules (m_bitmap m) (mwidth m).
Proof.
  intros Hm HE. unfold count_dark, dark_modules. rewrite !zseq_upto.
  rewrite (fold_left_ext_in _ (fun acc x => acc + zsum_over (mwidth m) (fun y => if module_at (m_bitmap m) x y then 1 else 0))).
  - rewrite fold_zsum. lia.
  - intros s x Hx. apply in_upto in Hx. cbv zeta. rewrite m_col_eq by auto. cbn [or_nil].
    rewrite (fold_left_ext_in _ (fun acc y => acc + if module_at (m_bitmap m) x y then 1 else 0)).
    + rewrite fold_zsum. lia.
    + intros s' y Hy. apply in_upto in Hy. rewrite zget_map, zget_upto by lia. cbn [option_map].
      rewrite module_at_bitmap by (auto; split; lia). unfold samestate. change (qrbool QRValue_DATA_V1) with true.
      destruct (qrbool (rawget m x y)); cbn; lia.
Qed.

Lemma dark_bounds m : wf m -> mwidth m = mheight m -> 0 <= dark_modules (m_bitmap m) (mwidth m) <= mwidth m * mwidth m.
Proof.
  intros Hm HE. destruct Hm as (Hw & _). unfold dark_modules.
  apply (zsum_over_bound _ _ (mwidth m)); auto. intros x Hx.
  pose proof (zsum_over_bound (mwidth m) (fun y => if module_at (m_bitmap m) x y then 1 else 0) 1 Hw ltac:(lia)) as B.
  rewrite Z.mul_1_r in B. apply B. intros i Hi. destruct (module_at _ _ _); lia.
Qed.

(* the code computes the score from the truncated percentage *)
Definition score_of_ratio (r : Z) : Z :=
  let step := if Z.rem r 5 =? 0 then 1 else 0 in
  Z.quot (Z.min (Z.abs ((Z.quot r 5 - step) * 5 - 50)) (Z.abs ((Z.quot r 5 + 1 - step) * 5 - 50))) 5 * 10.
Lemma rule4_score_eq dark total : rule4_score dark total = score_of_ratio (Z.quot (dark * 100) total).
Proof. reflexivity. Qed.

Definition penalty_at (prev : Z) : Z := 10 * Z.min (Z.abs (prev - 50) / 5) (Z.abs (prev + 5 - 50) / 5).

Lemma ratio_sweep : forallb (fun r =>
   (if r mod 5 =? 0 then score_of_ratio r =? penalty_at (r - 5) else score_of_ratio r =? penalty_at (5 * (r / 5)))
   && (if (r mod 5 =? 0) && negb (r =? 50) then negb (score_of_ratio r =? penalty_at r) else true)
   && (if r =? 50 then score_of_ratio r =? penalty_at r else true)
   && (0 <=? score_of_ratio r) && (score_of_ratio r <=? 100)) (upto 101) = true.
Proof. vm_compute. reflexivity. Qed.

Definition in_gap (dark total : Z) : Prop :=
  let r := 100 * dark / total in r mod 5 = 0 /\ r <> 50 /\ r * total < 100 * dark.

Theorem rule4_iff dark total : 0 < total -> 0 <= dark <= total ->
  (is_penalty4 dark total (rule4_score dark total) <-> ~ in_gap dark total).
Proof.
  intros Ht Hd. rewrite rule4_score_eq. rewrite Z.quot_div_nonneg by lia. rewrite (Z.mul_comm dark).
  unfold in_gap. cbv zeta. set (r := 100 * dark / total).
  assert (HR : 0 <= r < 101).
  { unfold r. split; [apply Z.div_pos; lia|]. apply Z.div_lt_upper_bound; lia. }
  assert (HQ : r * total <= 100 * dark < (r + 1) * total).
  { unfold r. pose proof (Z.div_mod (100 * dark) total ltac:(lia)). pose proof (Z.mod_pos_bound (100 * dark) total Ht). nia. }
  pose proof (forallb_upto _ _ ratio_sweep r ltac:(lia)) as S. cbv beta in S.
  rewrite !andb_true_iff in S. destruct S as ((((S1 & S2) & S3) & S4) & S5).
  assert (UNI : forall prev, prev mod 5 = 0 -> prev * total <= 100 * dark <= (prev + 5) * total ->
     prev = 5 * (r / 5) \/ (prev = r - 5 /\ r mod 5 = 0 /\ 100 * dark = r * total)).
  { intros prev Hp [P1 P2].
    assert (A1 : prev < r + 1) by nia. assert (A2 : r <= prev + 5) by nia.
    pose proof (Z.div_mod r 5 ltac:(lia)). pose proof (Z.mod_pos_bound r 5 ltac:(lia)).
    pose proof (Z.div_mod prev 5 ltac:(lia)). rewrite Hp in *.
    destruct (Z.eq_dec (prev / 5) (r / 5)) as [E|E]; [left; lia|].
    right. assert (prev / 5 = r / 5 - 1) by lia. assert (r mod 5 = 0) by lia. repeat split; try lia; nia. }
  split.
  - intros (prev & Hp & HPB & HE) (G1 & G2 & G3).
    destruct (UNI prev Hp HPB) as [->|(-> & _ & EX)]; [|lia].
    rewrite G1 in S2. cbn [andb] in S2. rewrite Z.eqb_refl in S2. destruct (Z.eqb_spec r 50); [lia|]. cbn [negb andb] in S2.
    assert (5 * (r / 5) = r) by (pose proof (Z.div_mod r 5 ltac:(lia)); lia).
    rewrite H in HE. fold (penalty_at r) in HE. rewrite HE, Z.eqb_refl in S2. discriminate.
  - intros HG. destruct (Z.eqb_spec (r mod 5) 0) as [E|E].
    + apply Z.eqb_eq in S1. destruct (Z.eq_dec r 50) as [E50|N50].
      * exists 50. rewrite E50 in *. cbn [Z.eqb] in S3. split; [reflexivity|]. split; [nia|].
        apply Z.eqb_eq in S3. exact S3.
      * exists (r - 5). split; [rewrite Zminus_mod, E; reflexivity|].
        assert (100 * dark = r * total) by (destruct (Z.eq_dec (100 * dark) (r * total)); auto; exfalso; apply HG; repeat split; auto; lia).
        split; [nia|]. exact S1.
    + apply Z.eqb_eq in S1. exists (5 * (r / 5)).
      pose proof (Z.div_mod r 5 ltac:(lia)) as DM. pose proof (Z.mod_pos_bound r 5 ltac:(lia)) as MB.
      split; [rewrite Z.mul_comm; apply Z.mod_mul; lia|]. split; [nia|exact S1].
Qed.

Lemma rule4_bounds dark total : 0 < total -> 0 <= dark <= total -> 0 <= rule4_score dark total <= 100.
Proof.
  intros Ht Hd. rewrite rule4_score_eq. rewrite Z.quot_div_nonneg by lia. set (r := dark * 100 / total).
  assert (HR : 0 <= r < 101).
  { unfold r. split; [apply Z.div_pos; lia|]. apply Z.div_lt_upper_bound; lia. }
  pose proof (forallb_upto _ _ ratio_sweep r ltac:(lia)) as S. cbv beta in S.
  rewrite !andb_true_iff, !Z.leb_le in S. lia.
Qed.

(* ---- the total is defined and below MaxInt32 for every symbol size ---- *)
Lemma pens_bound l : 0 <= pens (runs l) <= zlen l.
Proof.
  assert (G : forall rs, Forall (fun p => 1 <= snd p) rs -> 0 <= pens rs <= fold_right (fun p acc => snd p + acc) 0 rs).
  { induction 1 as [|[c n] rs Hn HF IH]; cbn [pens fold_right snd] in *; [lia|]. fold (pens rs). unfold pen. destruct (5 <=? n) eqn:E; [apply Z.leb_le in E|]; lia. }
  assert (T : fold_right (fun p acc => snd p + acc) 0 (runs l) = zlen l).
  { induction l as [|b l IH]; [reflexivity|]. rewrite zlen_cons, <- IH. cbn [runs]. destruct (runs l) as [|[c n] r]; [reflexivity|].
    destruct (Bool.eqb b c); cbn [fold_right snd]; lia. }
  rewrite <- T. apply G, runs_pos.
Qed.

Lemma evaluation_ok m : wf m -> mwidth m = mheight m -> 1 <= mwidth m <= 177 ->
  exists s, evaluation m = Some s /\ 0 <= s < MaxInt32.
Proof.
  intros Hm HE HW. unfold evaluation. rewrite rule3_eq by auto. eexists. split; [reflexivity|].
  set (n := mwidth m) in *.
  assert (B1 : 0 <= rule1 m <= n * (2 * n)).
  { rewrite rule1_spec by auto. unfold penalty1. fold n. apply zsum_over_bound; try lia. intros i Hi.
    assert (R : forall l, zlen l = n -> 0 <= run_penalty l <= n) by (intros l Hl; rewrite <- Hl; apply pens_bound).
    assert (L : forall f : Z -> bool, zlen (map f (upto n)) = n) by (intros; rewrite zlen_map; unfold zlen; rewrite upto_length; lia).
    pose proof (R (row_of (m_bitmap m) n i) (L _)). pose proof (R (col_of (m_bitmap m) n i) (L _)). lia. }
  assert (B2 : 0 <= rule2 m <= n * (n * 3)).
  { rewrite rule2_eq by auto. rewrite <- HE. fold n.
    assert (0 <= zsum_over (n - 1) (fun x => zsum_over (n - 1) (fun y => if same_window m x y then 3 else 0)) <= (n - 1) * ((n - 1) * 3)).
    { apply zsum_over_bound; try lia. intros x Hx. apply zsum_over_bound; try lia. intros y Hy. destruct (same_window m x y); lia. }
    nia. }
  assert (B3 : 0 <= zsum_over n (fun i => 40 * (line3 (or_nil (m_row m i)) + line3 (or_nil (m_col m i)))) <= n * (160 * n)).
  { apply zsum_over_bound; try lia. intros i Hi.
    assert (L3 : forall l, zlen l = n -> 0 <= line3 l <= 2 * n).
    { intros l Hl. unfold line3.
      destruct (kmp_count pattern1 ltac:(discriminate)) as (? & ? & K1). destruct (kmp_count pattern2 ltac:(discriminate)) as (? & ? & K2).
      pose proof (proj2 (K1 l)). pose proof (proj2 (K2 l)). lia. }
    rewrite m_row_eq, m_col_eq by (auto; lia). cbn [or_nil].
    assert (L : forall (f : Z -> Z) k, k = n -> zlen (map f (upto k)) = n) by (intros; subst; rewrite zlen_map; unfold zlen; rewrite upto_length; lia).
    pose proof (L3 _ (L (fun x => rawget m x i) (mwidth m) eq_refl)). pose proof (L3 _ (L (fun y => rawget m i y) (mheight m) ltac:(lia))). lia. }
  assert (B4 : 0 <= rule4 m <= 100).
  { unfold rule4. rewrite <- HE, Z.eqb_refl. cbn [negb]. apply rule4_bounds; [fold n; nia|].
    rewrite count_dark_spec by auto. apply dark_bounds; auto. }
  unfold MaxInt32. nia.
Qed.
