From Coq Require Import Lia.
From Verif Require Import ModelBase ModelMatrix ModelKmp ModelEval SpecScore SpecMatrix ProofBase ProofMatrix ProofViews ProofEval.

Lemma zsum_filter (f : Z -> bool) n : 
  zsum_over n (fun i => if f i then 1 else 0) = Z.of_nat (length (filter (fun i => f (Z.of_nat i)) (seq 0 (Z.to_nat n)))).
Proof.
  unfold zsum_over, upto. generalize (seq 0 (Z.to_nat n)). induction l as [|a l IH]; [reflexivity|].
  cbn [map fold_right filter]. rewrite IH. destruct (f (Z.of_nat a)); cbn [length]; lia.
Qed.

Lemma nth_firstn_lt {A} (l : list A) n k d : (k < n)%nat -> nth k (firstn n l) d = nth k l d.
Proof. revert n k. induction l as [|a l IH]; intros [|n] [|k] K; cbn; try lia; auto. apply IH. lia. Qed.
Lemma nth_skipn_add {A} (l : list A) n k d : nth k (skipn n l) d = nth (n + k) l d.
Proof. revert n. induction l as [|a l IH]; intros [|n]; cbn; auto. destruct k; reflexivity. Qed.

Lemma occurs_window line pat n i : 0 <= n -> pat <> [] ->
  occurs_at (map data_value pat) (map line (upto n)) i <->
  (Z.of_nat i < n - Z.of_nat (length pat) + 1 /\ data_window line pat (Z.of_nat i) = true).
Proof.
  intros Hn Hp. unfold occurs_at. rewrite map_length.
  assert (LU : length (map line (upto n)) = Z.to_nat n) by (rewrite map_length, upto_length; reflexivity).
  unfold data_window. rewrite forallb_forall. split.
  - intros E. assert (LL : length (firstn (length pat) (skipn i (map line (upto n)))) = length pat) by (rewrite E, map_length; reflexivity).
    rewrite firstn_length, skipn_length, LU in LL.
    assert (PP : (0 < length pat)%nat) by (destruct pat; [congruence|cbn; lia]).
    split; [lia|]. intros k K. apply in_upto in K. apply Z.eqb_eq.
    assert (EK : nth (Z.to_nat k) (firstn (length pat) (skipn i (map line (upto n)))) 0 = nth (Z.to_nat k) (map data_value pat) 0) by (rewrite E; reflexivity).
    rewrite nth_firstn_lt, nth_skipn_add in EK by lia.
    replace (i + Z.to_nat k)%nat with (Z.to_nat (Z.of_nat i + k)) in EK by lia.
    rewrite nth_upto_map in EK by lia. rewrite EK.
    rewrite (nth_indep _ 0 (data_value false)) by (rewrite map_length; lia). rewrite map_nth. reflexivity.
  - intros [B F]. apply (nth_ext _ _ 0 0).
    + rewrite firstn_length, skipn_length, LU, map_length. lia.
    + intros k K. rewrite firstn_length, skipn_length, LU in K.
      rewrite nth_firstn_lt, nth_skipn_add by lia.
      replace (i + k)%nat with (Z.to_nat (Z.of_nat i + Z.of_nat k)) by lia. rewrite nth_upto_map by lia.
      specialize (F (Z.of_nat k)). rewrite in_upto in F. specialize (F ltac:(lia)). apply Z.eqb_eq in F. rewrite F.
      rewrite (nth_indep _ 0 (data_value false)) by (rewrite map_length; lia). rewrite map_nth, Nat2Z.id. reflexivity.
Qed.

Lemma count_windows line pat n : 0 <= n -> pat <> [] ->
  count_values (map data_value pat) (map line (upto n)) = data_windows line pat n.
Proof.
  intros Hn Hp. unfold data_windows. rewrite zsum_filter.
  assert (HP : map data_value pat <> []) by (destruct pat; [congruence|discriminate]).
  eapply occurrence_count_unique; [apply count_values_spec; exact HP|].
  eexists. split; [|split; [|reflexivity]]; [apply NoDup_filter, seq_NoDup|].
  intros i. rewrite filter_In, in_seq, occurs_window by assumption. split; intros [A B]; (split; [lia|exact B]).
Qed.

Lemma line_value n m i : square n m -> 0 <= i < n ->
  or_nil (m_row m i) = map (fun x => value m x i) (upto n) /\ or_nil (m_col m i) = map (fun y => value m i y) (upto n).
Proof.
  intros (HW & EW & EH) Hi. rewrite m_row_eq, m_col_eq by (auto; lia). cbn [or_nil]. rewrite EW, EH.
  split; apply map_ext_in; intros j Hj; apply in_upto in Hj; unfold value; rewrite m_at_in by (split; lia); reflexivity.
Qed.

Lemma rule2_windows n m : square n m -> rule2 m = 3 * equal_windows m n.
Proof.
  intros (HW & EW & EH).
  rewrite rule2_eq by auto. rewrite EW, EH. unfold equal_windows.
    assert (S3 : forall k f, 3 * zsum_over k f = zsum_over k (fun i => 3 * f i)).
    { intros k f. unfold zsum_over. induction (upto k) as [|a l IH]; cbn [map fold_right]; lia. }
    rewrite S3. apply zsum_over_ext. intros x Hx. rewrite S3. apply zsum_over_ext. intros y Hy. cbv zeta. unfold value.
    rewrite !m_at_in by (split; lia). cbn [fst]. unfold same_window.
    set (a := rawget m x y). set (b := rawget m (x + 1) y). set (c := rawget m x (y + 1)). set (d := rawget m (x + 1) (y + 1)).
    destruct (Z.eqb_spec a b), (Z.eqb_spec c d), (Z.eqb_spec b c), (Z.eqb_spec b a), (Z.eqb_spec c a), (Z.eqb_spec d a); cbn [andb]; lia.
Qed.
Lemma rule3_windows n m : square n m -> rule3 m = Some (40 * data_patterns m n).
Proof.
  intros HS. pose proof HS as (HW & EW & EH). rewrite rule3_eq by (auto; lia). rewrite EW. f_equal.
  unfold data_patterns. assert (S40 : forall k f, 40 * zsum_over k f = zsum_over k (fun i => 40 * f i)).
    { intros k f. unfold zsum_over. induction (upto k) as [|a l IH]; cbn [map fold_right]; lia. }
    rewrite S40. apply zsum_over_ext. intros i Hi. destruct (line_value n m i HS Hi) as [-> ->].
    unfold line3. rewrite pattern1_eq, pattern2_eq, !count_windows by (lia || discriminate). lia.
Qed.
Lemma rule4_balance n m : square n m -> 0 < n -> rule4 m = balance_penalty (dark_modules (m_bitmap m) n) (n * n).
Proof.
  intros HS Hn. pose proof HS as (HW & EW & EH). unfold rule4. rewrite EW, EH, Z.eqb_refl. cbn [negb].
  rewrite rule4_score_eq, count_dark_spec by (auto; lia). rewrite EW.
  pose proof (dark_bounds m HW ltac:(lia)) as DB. rewrite EW in DB. rewrite Z.quot_div_nonneg by nia.
    unfold balance_penalty. rewrite (Z.mul_comm _ 100). set (r := 100 * dark_modules (m_bitmap m) n / (n * n)). cbv zeta.
    assert (HR : 0 <= r < 101).
    { unfold r. split; [apply Z.div_pos; nia|]. apply Z.div_lt_upper_bound; nia. }
    pose proof (forallb_upto _ _ ratio_sweep r ltac:(lia)) as S. cbv beta in S. rewrite !andb_true_iff in S. destruct S as ((((S1 & _) & _) & _) & _).
    destruct (r mod 5 =? 0); apply Z.eqb_eq in S1; rewrite S1; unfold penalty_at; [reflexivity|].
    replace (r - r mod 5) with (5 * (r / 5)) by (pose proof (Z.div_mod r 5 ltac:(lia)); lia). reflexivity.
Qed.
Theorem evaluation_is n m : square n m -> 0 < n -> evaluation m = Some (search_penalty m n).
Proof.
  intros HS Hn. unfold evaluation. rewrite (rule3_windows n), (rule2_windows n), (rule4_balance n) by auto.
  pose proof HS as (HW & EW & EH). rewrite rule1_spec by (auto; lia). rewrite EW. reflexivity.
Qed.
