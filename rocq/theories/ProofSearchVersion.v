From Coq Require Import Lia.
From Verif Require Import ModelBase ModelVersion ModelSearch SpecSearch ProofBase.

Lemma zlen_versions : zlen versions = 160. Proof. reflexivity. Qed.

Lemma keys_sweep : forallb (fun i => match zget versions i with
  | Some v => (Ver v =? i / 4 + 1) && (ECLevel v =? i mod 4 + 1) | None => false end) (zseq 0 160) = true.
Proof. vm_compute. reflexivity. Qed.

Lemma row_key i : 0 <= i < 160 -> exists v, row i v /\ Ver v = i / 4 + 1 /\ ECLevel v = i mod 4 + 1.
Proof.
  intros R. pose proof keys_sweep as K. rewrite forallb_forall in K. specialize (K i). unfold row.
  assert (I : In i (zseq 0 160)) by (apply in_zseq; lia). specialize (K I).
  destruct (zget versions i) as [v|]; [|discriminate K]. apply andb_true_iff in K as [A B].
  exists v. repeat split; [apply Z.eqb_eq, A|apply Z.eqb_eq, B].
Qed.
Lemma row_range i v : row i v -> 0 <= i < 160.
Proof.
  unfold row. intros E. unfold zget in E. destruct (Z.ltb_spec i 0); [discriminate E|].
  assert (X : (Z.to_nat i < length versions)%nat) by (apply nth_error_Some; congruence).
  change (length versions) with 160%nat in X. lia.
Qed.
Lemma row_key' i v : row i v -> Ver v = i / 4 + 1 /\ ECLevel v = i mod 4 + 1.
Proof.
  intros E. destruct (row_key i (row_range _ _ E)) as (w & E' & F). unfold row in E, E'. rewrite E in E'. injection E' as ->. exact F.
Qed.

Section S.
  Variables (ver ec : Z).
  (* sign of the comparison with row i *)
  Definition cmp (i : Z) : Z := let r := ver - (i / 4 + 1) in if r =? 0 then ec - (i mod 4 + 1) else r.
  Lemma cmp_row i v : row i v -> defaultBinaryCompare ver ec v = cmp i.
  Proof. intros E. destruct (row_key' _ _ E) as [A B]. unfold defaultBinaryCompare, cmp. rewrite A, B. reflexivity. Qed.
  Lemma cmp_anti i j : i < j -> 0 <= i -> (cmp i <= 0 -> cmp j < 0).
  Proof.
    intros ? ?. unfold cmp. cbv zeta.
    pose proof (Z.div_mod i 4 ltac:(lia)). pose proof (Z.div_mod j 4 ltac:(lia)).
    pose proof (Z.mod_pos_bound i 4 ltac:(lia)). pose proof (Z.mod_pos_bound j 4 ltac:(lia)).
    assert (i / 4 <= j / 4) by (apply Z.div_le_mono; lia).
    destruct (Z.eqb_spec (ver - (i / 4 + 1)) 0), (Z.eqb_spec (ver - (j / 4 + 1)) 0); lia.
  Qed.
  Lemma cmp_zero i v : row i v -> (cmp i = 0 <-> is_entry ver ec v).
  Proof.
    intros E. destruct (row_key' _ _ E) as [A B]. unfold cmp, is_entry. rewrite A, B. cbv zeta.
    destruct (Z.eqb_spec (ver - (i / 4 + 1)) 0); lia.
  Qed.
  Lemma cmp_neg i v : row i v -> (cmp i < 0 <-> precedes ver ec v).
  Proof.
    intros E. destruct (row_key' _ _ E) as [A B]. unfold cmp, precedes. rewrite A, B. cbv zeta.
    destruct (Z.eqb_spec (ver - (i / 4 + 1)) 0); lia.
  Qed.

  Let f := search_step (defaultBinaryCompare ver ec).
  Lemma step_at low high : 0 <= low -> high < 160 -> low <= high ->
    exists v, row ((low + high) / 2) v /\
    f (Searching low high) = if cmp ((low + high) / 2) =? 0 then Returned v true
                             else if 0 <? cmp ((low + high) / 2) then Searching ((low + high) / 2 + 1) high
                             else Searching low ((low + high) / 2).
  Proof.
    intros A B C. pose proof (Z.div_mod (low + high) 2 ltac:(lia)) as D. pose proof (Z.mod_pos_bound (low + high) 2 ltac:(lia)) as D'.
    destruct (row_key ((low + high) / 2) ltac:(lia)) as (v & E & _).
    exists v. split; [exact E|]. unfold f, search_step. destruct (Z.leb_spec low high); [|lia].
    rewrite Z.quot_div_nonneg by lia. rewrite <- (cmp_row _ _ E). unfold row in E. rewrite E. reflexivity.
  Qed.

  Lemma iter_done n s : (match s with Returned _ _ => True | _ => False end) -> Nat.iter n f s = s.
  Proof. intros D. induction n as [|n IH]; [reflexivity|]. change (Nat.iter (S n) f s) with (f (Nat.iter n f s)). rewrite IH. destruct s; try contradiction. reflexivity. Qed.
  Lemma iter_shift n s : Nat.iter (S n) f s = Nat.iter n f (f s).
  Proof. induction n as [|n IH]; [reflexivity|]. change (Nat.iter (S (S n)) f s) with (f (Nat.iter (S n) f s)). rewrite IH. reflexivity. Qed.
  Lemma shift_ex s r : (exists n, Nat.iter n f (f s) = r) -> exists n, Nat.iter n f s = r.
  Proof. intros [n E]. exists (S n). rewrite iter_shift. exact E. Qed.

  (* the entry is in the range: it is found *)
  Lemma found low high i v : 0 <= low -> high < 160 -> low <= i <= high -> row i v -> is_entry ver ec v ->
    exists n, Nat.iter n f (Searching low high) = Returned v true.
  Proof.
    intros A B C E F. remember (Z.to_nat (high - low)) as k eqn:K. revert low high A B C K.
    induction k as [k IH] using lt_wf_ind. intros low high A B C K.
    apply shift_ex. destruct (step_at low high A B ltac:(lia)) as (w & W & ->).
    pose proof (Z.div_mod (low + high) 2 ltac:(lia)) as D. pose proof (Z.mod_pos_bound (low + high) 2 ltac:(lia)) as D'.
    set (mid := (low + high) / 2) in *. apply (cmp_zero _ _ E) in F.
    destruct (Z.lt_trichotomy mid i) as [O|[O|O]].
    - assert (P : 0 < cmp mid).
      { destruct (Z.lt_ge_cases 0 (cmp mid)) as [P|P]; [exact P|]. pose proof (cmp_anti mid i O ltac:(lia) P). lia. }
      destruct (Z.eqb_spec (cmp mid) 0); [lia|]. destruct (Z.ltb_spec 0 (cmp mid)); [|lia].
      apply (IH (Z.to_nat (high - (mid + 1)))); lia.
    - subst i. rewrite F. cbn [Z.eqb]. assert (w = v) by (unfold row in *; congruence). subst w. exists 0%nat. reflexivity.
    - pose proof (cmp_anti i mid O ltac:(lia) ltac:(lia)).
      destruct (Z.eqb_spec (cmp mid) 0); [lia|]. destruct (Z.ltb_spec 0 (cmp mid)); [lia|].
      destruct (Z.eq_dec mid high); [lia|]. apply (IH (Z.to_nat (mid - low))); lia.
  Qed.

  (* every entry of the range comes before (ver, ec) *)
  Lemma missing low high : 0 <= low -> high < 160 -> (forall i, low <= i <= high -> 0 < cmp i) ->
    exists n, Nat.iter n f (Searching low high) = Returned zeroVersion false.
  Proof.
    intros A B C. remember (Z.to_nat (high - low + 1)) as k eqn:K. revert low A C K.
    induction k as [k IH] using lt_wf_ind. intros low A C K. apply shift_ex.
    destruct (Z.le_gt_cases low high) as [O|O].
    - destruct (step_at low high A B O) as (w & W & ->).
      pose proof (Z.div_mod (low + high) 2 ltac:(lia)) as D. pose proof (Z.mod_pos_bound (low + high) 2 ltac:(lia)) as D'.
      set (mid := (low + high) / 2) in *. pose proof (C mid ltac:(lia)).
      destruct (Z.eqb_spec (cmp mid) 0); [lia|]. destruct (Z.ltb_spec 0 (cmp mid)); [|lia].
      apply (IH (Z.to_nat (high - (mid + 1) + 1))); try lia. intros i I. apply C. lia.
    - exists 0%nat. change (f (Searching low high) = Returned zeroVersion false). unfold f, search_step. destruct (Z.leb_spec low high); [lia|]. reflexivity.
  Qed.

  (* some entry of the range comes after (ver, ec), and (ver, ec) is not in the range *)
  Definition bad (s : search_state) : Prop := match s with
    | Searching low high => 0 <= low /\ high < 160 /\ low <= high /\ (forall i, low <= i <= high -> cmp i <> 0) /\ cmp high < 0
    | _ => False end.
  Lemma bad_step s : bad s -> bad (f s).
  Proof.
    destruct s as [low high|v fd|]; try contradiction. intros (A & B & C & D & E).
    destruct (step_at low high A B C) as (w & W & ->).
    pose proof (Z.div_mod (low + high) 2 ltac:(lia)) as F. pose proof (Z.mod_pos_bound (low + high) 2 ltac:(lia)) as F'.
    set (mid := (low + high) / 2) in *. pose proof (D mid ltac:(lia)) as G.
    destruct (Z.eqb_spec (cmp mid) 0); [contradiction|]. destruct (Z.ltb_spec 0 (cmp mid)) as [P|P].
    - cbn [bad]. assert (mid <> high) by (intros Eq; rewrite Eq in P; lia). repeat split; try lia. intros i I. apply D. lia.
    - cbn [bad]. repeat split; try lia. intros i I. apply D. lia.
  Qed.
  Lemma bad_iter n s : bad s -> bad (Nat.iter n f s).
  Proof. intros B. induction n as [|n IH]; [exact B|]. change (Nat.iter (S n) f s) with (f (Nat.iter n f s)). apply bad_step, IH. Qed.
End S.

Lemma start_spec low high :
  search_start low high = if (high <? low) || (160 <? low) || (high <? 0) then Returned emptyVersion false
                          else Searching (Z.max 0 low) (Z.min 159 high).
Proof.
  unfold search_start. change VERSIONS_ITEM_COUNT with 160. rewrite zlen_versions.
  destruct (Z.ltb_spec high low), (Z.ltb_spec 160 low), (Z.ltb_spec high 0); cbn [orb]; try reflexivity.
  destruct (Z.ltb_spec low 0), (Z.leb_spec 160 high); f_equal; lia.
Qed.
