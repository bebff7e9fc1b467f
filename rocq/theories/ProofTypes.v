(* The types of the prefilled modules, for C64: a sweep over the 40 versions as in ProofSweep.v. *)
From Coq Require Import Lia.
From Verif Require Import ModelMatrix ModelBinary ModelLayout ModelVersion SpecIso SpecTypes ProofMatrix ProofWalk ProofSweep ProofLayout.

Definition pre_type (r : region) (x y : Z) : Z := if is_data r then QRType_INIT else type_of_region r x y.
Definition type_check (v : Z) : bool :=
  let n := side v in
  match prefillMatrix v (newMatrix n n) with
  | None => false
  | Some m =>
    let rows := annotate n (align_coords v) in
    forallb (fun '((x, nx, _), col) => forallb (fun '((y, ny, _), c) => qrtype c =? pre_type (region_fast v n x y nx ny) x y) (combine rows col)) (combine rows (mmat m))
  end.
Lemma type_sweep : forallb type_check all_versions = true.
Proof. vm_cast_no_check (eq_refl true). Qed.

Lemma nth_error_combine {A B} (l : list A) : forall (l' : list B) i a b, nth_error l i = Some a -> nth_error l' i = Some b -> nth_error (combine l l') i = Some (a, b).
Proof. induction l as [|x l IH]; intros [|y l'] [|i] a b; cbn; try discriminate; [intros [= ->] [= ->]; reflexivity|]. apply IH. Qed.

Lemma prefill_types v m : valid_version v -> prefillMatrix v (newMatrix (side v) (side v)) = Some m ->
  forall x y, 0 <= x < side v -> 0 <= y < side v -> qrtype (rawget m x y) = pre_type (region_of v x y) x y.
Proof.
  intros Hv PM x y Hx Hy. destruct (prefill_facts v Hv) as (m' & E & Hwf & HW & HH & _). rewrite PM in E. injection E as <-.
  pose proof (sweep _ type_sweep v Hv) as HS. unfold type_check in HS. rewrite PM in HS.
  rewrite forallb_forall in HS. destruct Hwf as (_ & _ & LM & FC). rewrite HW in LM. rewrite HH in FC.
  unfold zlen in LM. assert (CX : exists col, nth_error (mmat m) (Z.to_nat x) = Some col).
  { destruct (nth_error (mmat m) (Z.to_nat x)) eqn:E; [eauto|]. apply nth_error_None in E. lia. }
  destruct CX as [col CX]. pose proof (proj1 (Forall_forall _ _) FC col (nth_error_In _ _ CX)) as LC. unfold zlen in LC.
  assert (CY : exists c, nth_error col (Z.to_nat y) = Some c).
  { destruct (nth_error col (Z.to_nat y)) eqn:E; [eauto|]. apply nth_error_None in E. lia. }
  destruct CY as [c CY].
  pose proof (nth_error_combine _ _ _ _ _ (annotate_nth (side v) (align_coords v) x Hx) CX) as IX. apply nth_error_In in IX.
  specialize (HS _ IX). cbv beta iota in HS. rewrite forallb_forall in HS.
  pose proof (nth_error_combine _ _ _ _ _ (annotate_nth (side v) (align_coords v) y Hy) CY) as IY. apply nth_error_In in IY.
  specialize (HS _ IY). cbv beta iota in HS. apply Z.eqb_eq in HS. rewrite <- region_fast_spec in HS by assumption.
  unfold rawget. rewrite !zget_nth by lia. rewrite CX, zget_nth, CY by lia. exact HS.
Qed.

Lemma apply_writes_cases ws : forall m x y, wf m ->
  rawget (apply_writes m ws) x y = rawget m x y \/ exists c, In ((x, y), c) ws /\ rawget (apply_writes m ws) x y = c.
Proof.
  induction ws as [|[[a b] c] ws IH]; intros m x y Hwf; [left; reflexivity|]. cbn [apply_writes fold_left].
  change (fold_left _ ws ?m0) with (apply_writes m0 ws). destruct (IH (m_set m a b c) x y (wf_set _ _ _ _ Hwf)) as [E|(c' & I & E)].
  - rewrite E. destruct (in_range_dec m a b) as [R|R]; [|rewrite (m_set_out m a b c R); left; reflexivity].
    rewrite rawget_set by assumption. destruct (Z.eqb_spec a x) as [->|]; [destruct (Z.eqb_spec b y) as [->|]|]; cbn [andb]; auto.
    right. exists c. split; [left; reflexivity|reflexivity].
  - right. exists c'. split; [right; exact I|exact E].
Qed.
