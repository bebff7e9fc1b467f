(* C44: looking up a version. *)
From Coq Require Import Lia.
From Verif Require Import ModelBase ModelVersion ModelSearch SpecIso SpecAPI SpecSearch ProofBase ProofTables ProofSearchVersion.

(* C44: binarySearchVersion with the built-in comparison, for every version number, level and pair of bounds:
   it finds the entry whenever the bounds contain it; it reports "not found" when every entry between the bounds comes before
   the wanted one; otherwise - nothing to find, but a later entry in the range - it never returns. *)
Theorem C44_search_partial :
  forall low high ver ec,
    (forall i v, in_range low high i -> row i v -> is_entry ver ec v -> returns low high ver ec v true)
    /\ ((forall i v, in_range low high i -> row i v -> ~ precedes ver ec v /\ ~ is_entry ver ec v) ->
        returns low high ver ec (nothing low high) false)
    /\ ((forall i v, in_range low high i -> row i v -> ~ is_entry ver ec v) ->
        (exists i v, in_range low high i /\ row i v /\ precedes ver ec v) ->
        loops low high ver ec).
Proof.
  intros low high ver ec. unfold returns, loops, binarySearchVersion, in_range. rewrite start_spec. repeat split.
  - intros i v I E F. pose proof (row_range _ _ E).
    destruct (Z.ltb_spec high low), (Z.ltb_spec 160 low), (Z.ltb_spec high 0); try lia. cbn [orb].
    apply (found ver ec _ _ i v); try assumption; lia.
  - intros A. unfold nothing. destruct ((high <? low) || (160 <? low) || (high <? 0)) eqn:G.
    + exists 0%nat. reflexivity.
    + change (exists n, Nat.iter n (search_step (defaultBinaryCompare ver ec)) (Searching (Z.max 0 low) (Z.min 159 high)) = Returned zeroVersion false). apply missing; try lia. intros i I.
      destruct (row_key i ltac:(lia)) as (v & E & _). destruct (A i v ltac:(lia) E) as [P1 P2].
      pose proof (cmp_neg ver ec _ _ E). pose proof (cmp_zero ver ec _ _ E).
      destruct (Z.lt_trichotomy (cmp ver ec i) 0) as [O|[O|O]]; [tauto|tauto|exact O].
  - intros A (i & v & I & E & P). pose proof (row_range _ _ E) as R. intros n.
    destruct (Z.ltb_spec high low), (Z.ltb_spec 160 low), (Z.ltb_spec high 0); try lia. cbn [orb].
    assert (B : bad ver ec (Searching (Z.max 0 low) (Z.min 159 high))).
    { cbn [bad]. split; [lia|]. split; [lia|]. split; [lia|]. split.
      - intros j J Z0. destruct (row_key j ltac:(lia)) as (w & W & _). apply (A j w ltac:(lia) W). apply (cmp_zero ver ec _ _ W), Z0.
      - apply (cmp_neg ver ec _ _ E) in P. destruct (Z.eq_dec i (Z.min 159 high)) as [->|Ne]; [exact P|].
        apply (cmp_anti ver ec i); lia. }
    apply (bad_iter ver ec n) in B. destruct (Nat.iter n (search_step (defaultBinaryCompare ver ec)) _) as [l h|? ?|]; try contradiction.
    exists l, h. reflexivity.
Qed.
Print Assumptions C44_search_partial.

(* C44 claimed that the search terminates for all arguments *)
Theorem C44_search_refuted :
  ~ (forall low high ver ec, exists v found, returns low high ver ec v found).
Proof.
  intros A. destruct (A 0 159 0 1) as (v & fd & n & E).
  destruct (proj2 (proj2 (C44_search_partial 0 159 0 1))) with (n := n) as (l & h & E').
  - intros i w I R [X Y]. destruct (row_key' _ _ R) as [X' _]. unfold in_range in I. pose proof (Z.div_pos i 4 ltac:(lia) ltac:(lia)). lia.
  - destruct (row_key 5 ltac:(lia)) as (w & W & X & _). exists 5, w. repeat split; try (unfold in_range; lia). exact W. left. rewrite X. reflexivity.
  - rewrite E in E'. discriminate E'.
Qed.
Print Assumptions C44_search_refuted.

(* every existing (version, level) is found by a search of the whole table *)
Theorem C44_search_whole_table :
  forall v l, valid_version v ->
    exists r, returns 0 159 v (level_code l) r true /\ Ver r = v /\ ECLevel r = level_code l.
Proof.
  intros v l V. set (i := 4 * (v - 1) + (level_code l - 1)).
  assert (B : 1 <= level_code l <= 4) by (destruct l; cbv; split; discriminate).
  unfold valid_version in V. destruct (row_key i ltac:(lia)) as (r & R & X & Y). exists r.
  assert (X' : Ver r = v). { rewrite X. unfold i. replace (4 * (v - 1) + (level_code l - 1)) with (level_code l - 1 + (v - 1) * 4) by lia. rewrite Z.div_add, Z.div_small by lia. lia. }
  assert (Y' : ECLevel r = level_code l). { rewrite Y. unfold i. replace (4 * (v - 1) + (level_code l - 1)) with (level_code l - 1 + (v - 1) * 4) by lia. rewrite Z.mod_add, Z.mod_small by lia. lia. }
  repeat split; [|exact X'|exact Y']. apply (proj1 (C44_search_partial 0 159 v (level_code l)) i r); unfold in_range, is_entry; auto; lia.
Qed.
Print Assumptions C44_search_whole_table.

(* C44: loadVersion, the lookup New uses: exactly the pairs (1..40, level) have an entry, and it is the right one;
   for everything else the call panics *)
Theorem C44_load_version :
  forall lv ec,
    (valid_version lv /\ 1 <= ec <= 4 -> exists r, loadVersion lv ec = Ok r /\ Ver r = lv /\ ECLevel r = ec /\ In r versions)
    /\ (~ (valid_version lv /\ 1 <= ec <= 4) -> exists p, loadVersion lv ec = Panic p).
Proof.
  intros lv ec. unfold loadVersion, valid_version. cbv zeta.
  replace (lv * 4 - 1 - (lv - 1) * 4 + 1) with 4 by lia.
  change (zseq ((lv - 1) * 4) 4) with [(lv - 1) * 4; (lv - 1) * 4 + 1; (lv - 1) * 4 + 1 + 1; (lv - 1) * 4 + 1 + 1 + 1].
  set (b := (lv - 1) * 4).
  assert (OUT : ~ (1 <= lv <= 40) -> zget versions b = None).
  { intros O. destruct (zget versions b) as [v|] eqn:E; [|reflexivity]. apply row_range in E. lia. }
  assert (IN : 1 <= lv <= 40 -> forall j, 0 <= j < 4 -> exists v, zget versions (b + j) = Some v /\ Ver v = lv /\ ECLevel v = j + 1).
  { intros I j J. destruct (row_key (b + j) ltac:(lia)) as (v & E & X & Y). exists v. split; [exact E|]. split.
    - rewrite X. unfold b. rewrite (Z.add_comm ((lv - 1) * 4) j), Z.div_add, Z.div_small by lia. lia.
    - rewrite Y. unfold b. rewrite (Z.add_comm ((lv - 1) * 4) j), Z.mod_add, Z.mod_small by lia. reflexivity. }
  split.
  - intros [I J]. destruct (IN I 0 ltac:(lia)) as (v0 & E0 & X0 & Y0). destruct (IN I 1 ltac:(lia)) as (v1 & E1 & X1 & Y1).
    destruct (IN I 2 ltac:(lia)) as (v2 & E2 & X2 & Y2). destruct (IN I 3 ltac:(lia)) as (v3 & E3 & X3 & Y3).
    replace (b + 1 + 1 + 1) with (b + 3) by lia. replace (b + 1 + 1) with (b + 2) by lia. rewrite Z.add_0_r in E0.
    cbn [loadVersion_loop]. rewrite E0, E1, E2, E3, Y0, Y1, Y2, Y3.
    assert (MEM : forall i v, zget versions i = Some v -> In v versions).
    { intros i v E. unfold zget in E. destruct (i <? 0); [discriminate E|]. eapply nth_error_In. exact E. }
    destruct (Z.eqb_spec (0 + 1) ec); [exists v0; repeat split; try lia; eapply MEM; eauto|].
    destruct (Z.eqb_spec (1 + 1) ec); [exists v1; repeat split; try lia; eapply MEM; eauto|].
    destruct (Z.eqb_spec (2 + 1) ec); [exists v2; repeat split; try lia; eapply MEM; eauto|].
    destruct (Z.eqb_spec (3 + 1) ec); [exists v3; repeat split; try lia; eapply MEM; eauto|]. lia.
  - intros N. destruct (Z.le_gt_cases 1 lv) as [A|A], (Z.le_gt_cases lv 40) as [B|B];
      try (cbn [loadVersion_loop]; rewrite OUT by lia; eexists; reflexivity).
    assert (I : 1 <= lv <= 40) by lia.
    destruct (IN I 0 ltac:(lia)) as (v0 & E0 & X0 & Y0). destruct (IN I 1 ltac:(lia)) as (v1 & E1 & X1 & Y1).
    destruct (IN I 2 ltac:(lia)) as (v2 & E2 & X2 & Y2). destruct (IN I 3 ltac:(lia)) as (v3 & E3 & X3 & Y3).
    replace (b + 1 + 1 + 1) with (b + 3) by lia. replace (b + 1 + 1) with (b + 2) by lia. rewrite Z.add_0_r in E0.
    cbn [loadVersion_loop]. rewrite E0, E1, E2, E3, Y0, Y1, Y2, Y3.
    destruct (Z.eqb_spec (0 + 1) ec); [lia|]. destruct (Z.eqb_spec (1 + 1) ec); [lia|].
    destruct (Z.eqb_spec (2 + 1) ec); [lia|]. destruct (Z.eqb_spec (3 + 1) ec); [lia|]. eexists. reflexivity.
Qed.
Print Assumptions C44_load_version.

(* the hypotheses are met: version 7 level Q is row 26; version 3, level 5 between rows 8 and 20 is absent with a later row *)
Example C44_hits : returns 0 159 7 3 (mkVersion 7 3 (mkCap 207 125 86 53) 0 [mkGroup 2 14 18; mkGroup 4 15 18]) true.
Proof. exists 10%nat. vm_compute. reflexivity. Qed.
Example C44_absent : returns 0 11 4 1 zeroVersion false. Proof. exists 10%nat. vm_compute. reflexivity. Qed.
