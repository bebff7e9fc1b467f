(* The KMP variant counts all occurrences and terminates. *)
From Coq Require Import Lia.
From Verif Require Import ModelBase ModelKmp SpecPenalty ProofBase.

Section Kmp.
  Context {A : Type} (eqb : A -> A -> bool) (eqb_spec : forall a b, eqb a b = true <-> a = b).

  Lemma eq_at_iff (l1 l2 : list A) i j : 0 <= i < zlen l1 -> 0 <= j < zlen l2 ->
    eq_at eqb l1 i l2 j = true <-> zget l1 i = zget l2 j.
  Proof.
    intros Hi Hj. unfold eq_at. destruct (zget_in_range l1 i Hi) as [a ->]. destruct (zget_in_range l2 j Hj) as [b ->].
    rewrite eqb_spec. split; congruence.
  Qed.

  (* the first k elements are the last k of the first j *)
  Definition border (p : list A) (k j : Z) : Prop := forall t, 0 <= t < k -> zget p t = zget p (j - k + t).

  Lemma border_border p k k' j : k' <= k -> border p k j -> border p k' j -> border p k' k.
  Proof.
    intros Hk B B' t Ht. rewrite (B' t Ht). rewrite (B (k - k' + t)) by lia. f_equal. lia.
  Qed.

  Definition fail_at (p : list A) (fail : list Z) (j : Z) : Prop :=
    exists k, zget fail j = Some k /\ -1 <= k < j /\ (j = 0 -> k = -1) /\ (0 < j -> 0 <= k) /\
              border p k j /\ forall k', k < k' < j -> ~ border p k' j.

  Lemma getNext_ok p : p <> [] -> forall fuel fail j k,
    zlen fail = zlen p -> 0 <= j < zlen p -> -1 <= k < j \/ (j = 0 /\ k = -1) ->
    (forall i, 0 <= i <= j -> fail_at p fail i) ->
    border p k j ->
    (forall k', k < k' < j -> border p k' j -> zget p k' <> zget p j) ->
    2 * (zlen p - 1 - j) + k + 1 < Z.of_nat fuel ->
    exists fail', getNext_loop eqb fuel p fail j k = Some fail' /\ zlen fail' = zlen p /\
                  forall i, 0 <= i < zlen p -> fail_at p fail' i.
  Proof.
    intros Hp. induction fuel as [|fuel IH]; intros fail j k HL Hj Hk HF HB HM Hfuel; [lia|].
    cbn [getNext_loop]. destruct (Z.ltb_spec j (zlen p - 1)) as [X|X].
    - assert (SAME : k = -1 \/ (0 <= k /\ eq_at eqb p j p k = true) \/ (0 <= k /\ eq_at eqb p j p k = false)).
      { destruct (Z.eq_dec k (-1)); [auto|]. right. destruct (eq_at eqb p j p k); [left|right]; split; auto; lia. }
      assert (STEP : (k = -1 \/ (0 <= k /\ eq_at eqb p j p k = true)) ->
        exists fail', getNext_loop eqb fuel p (zupd fail (j + 1) (k + 1)) (j + 1) (k + 1) = Some fail' /\ zlen fail' = zlen p /\
                  forall i, 0 <= i < zlen p -> fail_at p fail' i).
      { intros HS.
        assert (NB : border p (k + 1) (j + 1)).
        { intros t Ht. destruct HS as [->|[Hk0 E]]; [lia|].
          apply eq_at_iff in E; try lia.
          destruct (Z.eq_dec t k) as [->|N].
          - replace (j + 1 - (k + 1) + k) with j by lia. auto.
          - rewrite (HB t) by lia. f_equal. lia. }
        assert (NM : forall k', k + 1 < k' < j + 1 -> ~ border p k' (j + 1)).
        { intros k' Hk' B. apply (HM (k' - 1)); [lia| |].
          - intros t Ht. rewrite (B t) by lia. f_equal. lia.
          - rewrite (B (k' - 1)) by lia. f_equal. lia. }
        apply IH; auto.
        - rewrite zlen_zupd. auto.
        - lia.
        - lia.
        - intros i Hi. destruct (Z.eq_dec i (j + 1)) as [->|N].
          + exists (k + 1). rewrite zget_zupd_same by lia.
            split; [reflexivity|]. split; [lia|]. split; [lia|]. split; [lia|]. split; [exact NB|exact NM].
          + destruct (HF i ltac:(lia)) as (q & Eq & R). exists q. split; auto. rewrite zget_zupd by lia.
            destruct (Z.eqb_spec (j + 1) i); [lia|]. exact Eq.
        - intros k' Hk' B. exfalso. apply (NM k'); auto.
        - lia. }
      destruct SAME as [E|[[H0 E]|[H0 E]]].
      + subst k. cbn [Z.eqb]. simpl. apply STEP. auto.
      + rewrite E, orb_true_r. apply STEP. auto.
      + rewrite E. destruct (Z.eqb_spec k (-1)); [lia|]. cbn [orb].
        destruct (HF k ltac:(lia)) as (q & Eq & Hq & Hq0 & Hq1 & Bq & Mq). rewrite Eq.
        apply IH; auto; try lia.
        * intros t Ht. rewrite (Bq t Ht). rewrite (HB (k - q + t)) by lia. f_equal. lia.
        * intros k' Hk' B. destruct (Z_lt_ge_dec k k') as [Y|Y]; [apply HM; auto; lia|].
          destruct (Z.eq_dec k' k) as [->|N].
          -- intros EQ. symmetry in EQ. apply eq_at_iff in EQ; try lia. congruence.
          -- exfalso. apply (Mq k'); [lia|]. eapply border_border; eauto. lia.
    - exists fail. split; auto. split; auto. intros i Hi. apply HF. lia.
  Qed.

  Lemma kmpGetNext_ok p : p <> [] -> exists fail, kmpGetNext eqb p = Some fail /\ forall i, 0 <= i < zlen p -> fail_at p fail i.
  Proof.
    intros Hp. unfold kmpGetNext. destruct p as [|a p']; [congruence|]. set (p := a :: p') in *.
    assert (LP : 0 < zlen p) by (unfold p; rewrite zlen_cons; pose proof (zlen_nonneg p'); lia).
    assert (LR : zlen (repeat 0 (length p)) = zlen p) by (unfold zlen; rewrite repeat_length; reflexivity).
    destruct (getNext_ok p Hp (2 * length p + 1) (zupd (repeat 0 (length p)) 0 (-1)) 0 (-1)) as (fail & E & _ & HF).
    - rewrite zlen_zupd. exact LR.
    - lia.
    - auto.
    - intros i Hi. assert (i = 0) by lia. subst i. exists (-1). rewrite zget_zupd_same by lia.
      split; auto. split; [lia|]. split; auto. split; [lia|]. split; [intros t Ht; lia|]. intros; lia.
    - intros t Ht; lia.
    - intros; lia.
    - unfold zlen in *. lia.
    - exists fail. auto.
  Qed.

  (* positions *)
  Definition matches (src p : list A) (s : Z) : Prop := 0 <= s /\ s + zlen p <= zlen src /\ forall t, 0 <= t < zlen p -> zget src (s + t) = zget p t.

  Variables (src p : list A) (next : list Z).
  Hypothesis Hp : p <> [].
  Hypothesis Hnext : forall i, 0 <= i < zlen p -> fail_at p next i.

  Definition phi (i j : Z) : Z := (zlen src + 2 - (i - j)) * (zlen src + 2) + (zlen src - i).

  (* counted: the occurrences starting before s *)
  Definition counted (s count : Z) : Prop :=
    exists ps, NoDup ps /\ (forall q, In q ps <-> matches src p q /\ q < s) /\ zlen ps = count.

  Lemma counted_skip s s' count : s <= s' -> (forall q, s <= q < s' -> ~ matches src p q) -> counted s count -> counted s' count.
  Proof.
    intros Hs HN (ps & ND & HI & HL). exists ps. split; auto. split; auto. intros q. rewrite HI. split.
    - intros [M L]; split; auto; lia.
    - intros [M L]; split; auto. destruct (Z_lt_ge_dec q s) as [X|X]; auto. exfalso. apply (HN q); [lia|auto].
  Qed.

  Lemma counted_add s count : matches src p s -> counted s count -> counted (s + 1) (count + 1).
  Proof.
    intros HM (ps & ND & HI & HL). exists (s :: ps). split; [constructor; auto; rewrite HI; lia|].
    split; [|rewrite zlen_cons; lia]. intros q. cbn [In]. rewrite HI. split.
    - intros [<-|[M L]]; split; auto; lia.
    - intros [M L]. destruct (Z.eq_dec s q); auto. right. split; auto. lia.
  Qed.

  Lemma kmp_ok : forall fuel i j count,
    -1 <= j <= zlen p -> 0 <= i <= zlen src -> 0 <= i - j -> (j = -1 -> i < zlen src) ->
    (forall t, 0 <= t < j -> zget src (i - j + t) = zget p t) ->
    counted (i - j) count -> phi i j < Z.of_nat fuel ->
    exists c, kmp_loop eqb fuel src p next i j count = Some c /\ counted (zlen src + 1) c.
  Proof.
    assert (LP : 0 < zlen p) by (destruct p; [congruence|rewrite zlen_cons; pose proof (zlen_nonneg l); lia]).
    pose proof (zlen_nonneg src) as LS.
    induction fuel as [|fuel IH]; intros i j count Hj Hi Hij Hneg HM HC Hf.
    { unfold phi in Hf. nia. }
    cbn [kmp_loop]. destruct ((i <? zlen src) && (j <? zlen p)) eqn:E.
    - rewrite andb_true_iff, !Z.ltb_lt in E. destruct E as [Ei Ej].
      destruct (Z.eqb_spec j (-1)) as [->|Nj].
      + cbn [orb]. apply IH; [lia|lia|lia|lia| | |].
        * intros t Ht; lia.
        * replace (i + 1 - (-1 + 1)) with (i - -1) by lia. exact HC.
        * unfold phi in *. nia.
      + cbn [orb]. destruct (eq_at eqb src i p j) eqn:EQ.
        * apply eq_at_iff in EQ; try lia. apply IH; [lia|lia|lia|lia| | |].
          -- intros t Ht. replace (i + 1 - (j + 1) + t) with (i - j + t) by lia.
             destruct (Z.eq_dec t j) as [->|N]; [|apply HM; lia]. replace (i - j + j) with i by lia. exact EQ.
          -- replace (i + 1 - (j + 1)) with (i - j) by lia. exact HC.
          -- unfold phi in *. nia.
        * destruct (Hnext j ltac:(lia)) as (k & Ek & Hk & Hk0 & Hk1 & Bk & Mk). rewrite Ek.
          assert (NEQ : zget src i <> zget p j) by (intros X; apply eq_at_iff in X; try lia; congruence).
          apply IH; [lia|lia|lia|lia| | |].
          -- intros t Ht. rewrite (Bk t Ht). rewrite <- (HM (j - k + t)) by lia. f_equal. lia.
          -- apply (counted_skip (i - j)); [lia| |exact HC]. intros q Hq MQ.
             (* an occurrence at q, i-j <= q < i-k *)
             destruct MQ as (Q0 & Q1 & Q2).
             destruct (Z.eq_dec q (i - j)) as [->|N].
             ++ apply NEQ. rewrite <- (Q2 j) by lia. f_equal. lia.
             ++ apply (Mk (i - q)); [lia|]. intros t Ht.
                rewrite <- (Q2 t) by lia. rewrite <- (HM (j - (i - q) + t)) by lia. f_equal. lia.
          -- unfold phi in *. nia.
    - apply andb_false_iff in E. rewrite !Z.ltb_ge in E.
      destruct (Z.eqb_spec j (zlen p)) as [->|Nj].
      + destruct (Z.leb_spec 0 (i - zlen p)); [|lia].
        assert (MT : matches src p (i - zlen p)) by (split; [lia|split; [lia|exact HM]]).
        apply IH; [lia|lia|lia|lia| | |].
        * intros t Ht; lia.
        * replace (i - (zlen p - 1) - 0) with (i - zlen p + 1) by lia. apply counted_add; auto.
        * unfold phi in *. nia.
      + exists count. split; auto. apply (counted_skip (i - j)); [lia| |exact HC].
        intros q Hq (Q0 & Q1 & Q2). lia.
  Qed.

  Lemma matches_occurs s : matches src p s <-> 0 <= s /\ occurs_at p src (Z.to_nat s).
  Proof.
    unfold matches, occurs_at. split.
    - intros (H0 & H1 & HM). split; auto. apply list_ext. intros t.
      destruct (Nat.ltb_spec t (length p)) as [X|X].
      + specialize (HM (Z.of_nat t) ltac:(unfold zlen; lia)). rewrite !zget_nth in HM by lia.
        replace (Z.to_nat (s + Z.of_nat t)) with (Z.to_nat s + t)%nat in HM by lia. rewrite Nat2Z.id in HM.
        rewrite <- HM. rewrite <- (firstn_skipn (Z.to_nat s) src) at 2.
        rewrite nth_error_app2 by (rewrite firstn_length; lia). rewrite firstn_length.
        replace (Z.to_nat s + t - Nat.min (Z.to_nat s) (length src))%nat with t by (unfold zlen in *; lia).
        rewrite <- (firstn_skipn (length p) (skipn (Z.to_nat s) src)) at 2.
        symmetry. apply nth_error_app1. rewrite firstn_length, skipn_length. unfold zlen in *. lia.
      + rewrite (proj2 (nth_error_None p t)) by auto. apply nth_error_None. rewrite firstn_length. lia.
    - intros [H0 E]. split; auto.
      assert (L : (length p <= length src - Z.to_nat s)%nat).
      { rewrite <- E at 1. rewrite firstn_length, skipn_length. lia. }
      assert (LP : (0 < length p)%nat) by (destruct p; [congruence|cbn; lia]).
      split; [unfold zlen; lia|]. intros t Ht. rewrite !zget_nth by lia. rewrite <- E.
      unfold zlen in Ht.
      rewrite <- (firstn_skipn (Z.to_nat s) src) at 1.
      rewrite nth_error_app2 by (rewrite firstn_length; lia). rewrite firstn_length.
      replace (Z.to_nat (s + t) - Nat.min (Z.to_nat s) (length src))%nat with (Z.to_nat t) by lia.
      rewrite <- (firstn_skipn (length p) (skipn (Z.to_nat s) src)) at 1.
      apply nth_error_app1. rewrite firstn_length, skipn_length. lia.
  Qed.

  Lemma kmp_next_counts : exists c, kmp eqb src p next = Some c /\ occurrence_count p src c /\ 0 <= c <= zlen src + 1.
  Proof.
    destruct (kmp_ok ((2 * length src + 3) * (length src + 2)) 0 0 0) as (c & E & ps & ND & HI & HL); try lia.
    - pose proof (zlen_nonneg p); lia.
    - pose proof (zlen_nonneg src); lia.
    - exists []. split; [constructor|]. split; [|reflexivity]. intros q. cbn. split; [tauto|]. intros [(?&_) ?]; lia.
    - unfold phi, zlen. nia.
    - exists c. split; [exact E|]. split.
      + exists (map Z.to_nat ps). split; [|split; [|unfold zlen in HL; rewrite map_length; auto]].
        * assert (P : forall q, In q ps -> 0 <= q) by (intros q Hq; apply HI in Hq; destruct Hq as [(?&_) _]; auto).
          clear - ND P. induction ND as [|q ps Hn ND IH]; cbn; constructor; auto.
          -- intros HX. apply in_map_iff in HX as (q' & E & HX). apply Hn.
             assert (q' = q); [|subst; auto]. pose proof (P q (or_introl eq_refl)). pose proof (P q' (or_intror HX)). lia.
          -- apply IH. intros; apply P; cbn; auto.
        * intros i. rewrite in_map_iff. split.
          -- intros (q & <- & Hq). apply HI in Hq as [MQ _]. apply matches_occurs in MQ. tauto.
          -- intros HO. exists (Z.of_nat i). split; [lia|]. apply HI.
             assert (MQ : matches src p (Z.of_nat i)) by (apply matches_occurs; split; [lia|rewrite Nat2Z.id; auto]).
             split; auto. destruct MQ as (_ & H1 & _). pose proof (zlen_nonneg p). lia.
      + split; [rewrite <- HL; apply zlen_nonneg|]. rewrite <- HL.
        assert (I : (length ps <= length (zseq 0 (zlen src + 1)))%nat).
        { apply NoDup_incl_length; auto. intros q Hq. apply HI in Hq as [(?&_) ?]. apply in_zseq. lia. }
        rewrite zseq_length in I. unfold zlen in *. lia.
  Qed.
End Kmp.

(* kmp with next computed by kmpGetNext (also what the code does when next == nil) *)
Theorem kmp_correct {A} (eqb : A -> A -> bool) : (forall a b, eqb a b = true <-> a = b) ->
  forall src p, p <> [] -> exists next c, kmpGetNext eqb p = Some next /\ kmp eqb src p next = Some c /\ occurrence_count p src c /\ 0 <= c <= zlen src + 1.
Proof.
  intros He src p Hp. destruct (kmpGetNext_ok eqb He p Hp) as (next & E & HN).
  destruct (kmp_next_counts eqb He src p next Hp HN) as (c & E2 & R). eauto 8.
Qed.
