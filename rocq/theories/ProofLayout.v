(* Cell-by-cell description of the candidate matrices, for all data. *)
From Coq Require Import Sorted FinFun.
From Verif Require Import ModelMatrix ModelBinary ModelLayout ModelVersion ModelMask SpecIso SpecReader.
From Verif Require Import ProofMatrix ProofWalk ProofSweep.

Global Opaque prefillMatrix newMatrix.
Global Arguments region_of : simpl never.
Global Arguments data_path : simpl never.
Global Arguments upto : simpl never.
Global Arguments to_bits : simpl never.
Global Arguments side : simpl never.

Lemma valid_side v : valid_version v -> 21 <= side v <= 177.
Proof. unfold valid_version, side. lia. Qed.

(* ---- prefillMatrix ---- *)
Lemma prefill_facts v : valid_version v ->
  exists m, prefillMatrix v (newMatrix (side v) (side v)) = Some m /\
    wf m /\ mwidth m = side v /\ mheight m = side v /\
    forall x y, in_range m x y -> cell_ok (region_of v x y) (rawget m x y) = true.
Proof.
  intros Hv. destruct (prefill_matrix v Hv) as (m & A & B & C & D & E & _). exists m. auto.
Qed.

(* ---- NoDup of the data path ---- *)
Lemma in_zigzag v cs up x y : In (x, y) (zigzag v cs up) ->
  (exists c, In c cs /\ (x = c \/ x = c - 1)) /\ 0 <= y < side v.
Proof.
  revert up; induction cs as [|c cs IH]; intros up; simpl; [intros []|].
  rewrite in_app_iff. intros [H|H].
  - unfold strip_modules in H. apply in_flat_map in H as (y0 & Hy & H).
    assert (0 <= y0 < side v).
    { destruct up; [apply in_rev in Hy|]; apply in_upto in Hy; auto. }
    simpl in H. split; [exists c; split; [auto|]|]; destruct H as [[= <- <-]|[[= <- <-]|[]]]; auto.
  - apply IH in H as [(c0 & Hc & E) Hy]. split; [exists c0|]; auto.
Qed.

Lemma NoDup_strip v c up : NoDup (strip_modules v c up).
Proof.
  unfold strip_modules. apply NoDup_flat_map.
  - destruct up; [apply NoDup_rev|]; apply NoDup_upto.
  - intros y _. constructor; [|constructor; [intros []|constructor]]. intros [[= E]|[]]. lia.
  - intros a b [x y] _ _ H1 H2. simpl in H1, H2.
    destruct H1 as [H1|[H1|[]]]; destruct H2 as [H2|[H2|[]]]; congruence.
Qed.

Lemma NoDup_zigzag v cs up : StronglySorted (fun a b => b + 2 <= a) cs -> NoDup (zigzag v cs up).
Proof.
  intros H. revert up. induction H as [|c cs Hs IH Hf]; intros up; simpl; [constructor|].
  apply NoDup_app_intro; auto using NoDup_strip.
  intros [x y] H1 H2. apply in_zigzag in H2 as [(c0 & Hc & E) _].
  rewrite Forall_forall in Hf. specialize (Hf _ Hc).
  unfold strip_modules in H1. apply in_flat_map in H1 as (y0 & _ & H1). simpl in H1.
  destruct H1 as [[= <- <-]|[[= <- <-]|[]]]; lia.
Qed.

Lemma strips_sorted v : valid_version v -> StronglySorted (fun a b => b + 2 <= a) (strips v).
Proof.
  intros Hv. unfold strips.
  assert (G : forall l k, StronglySorted (fun a b => a + 1 <= b) l ->
     (forall j, In j l -> 8 <= k - 1 - 2 * j) ->
     StronglySorted (fun a b => b + 2 <= a) (map (fun j => k - 1 - 2 * j) l ++ [5; 3; 1])).
  { intros l k Hl. induction Hl as [|j l Hs IH Hf]; intros Hb; cbn [map app].
    - repeat constructor; lia.
    - constructor; [apply IH; intros; apply Hb; simpl; auto|].
      apply Forall_app. split.
      + rewrite Forall_map. rewrite Forall_forall in *. intros a Ha. specialize (Hf _ Ha). lia.
      + assert (8 <= k - 1 - 2 * j) by (apply Hb; simpl; auto). repeat constructor; lia. }
  apply G.
  - unfold upto. generalize (Z.to_nat (2 * v + 5)). intros n. generalize 0%nat as s.
    induction n as [|n IH]; intros s; simpl; constructor; auto.
    rewrite Forall_map. apply Forall_forall. intros a Ha. apply in_seq in Ha. lia.
  - intros j Hj. apply in_upto in Hj. unfold side. lia.
Qed.

Lemma NoDup_data_path v : valid_version v -> NoDup (data_path v).
Proof. intros Hv. unfold data_path. apply NoDup_filter, NoDup_zigzag, strips_sorted, Hv. Qed.

Lemma in_data_path_region v x y : In (x, y) (data_path v) -> region_of v x y = DataArea.
Proof.
  unfold data_path. rewrite filter_In. intros [_ H]. unfold region_of.
  destruct (region_of_with (align_centres v) v x y); simpl in H; congruence.
Qed.

Lemma in_data_path_range v x y : valid_version v -> In (x, y) (data_path v) ->
  0 <= x < side v /\ 0 <= y < side v.
Proof.
  intros Hv. unfold data_path. rewrite filter_In. intros [H _].
  apply in_zigzag in H as [(c & Hc & E) Hy]. split; [|auto].
  unfold strips in Hc. apply in_app_iff in Hc as [Hc|Hc].
  - apply in_map_iff in Hc as (k & <- & Hk). apply in_upto in Hk. unfold side in *. lia.
  - pose proof (valid_side v Hv). simpl in Hc. lia.
Qed.

(* every data module of the symbol is on the path *)
Lemma in_zigzag_intro v cs up x y c : In c cs -> (x = c \/ x = c - 1) -> 0 <= y < side v -> In (x, y) (zigzag v cs up).
Proof.
  revert up; induction cs as [|c0 cs IH]; intros up Hc E Hy; [destruct Hc|].
  simpl. apply in_app_iff. destruct Hc as [->|Hc]; [left|right; auto].
  unfold strip_modules. apply in_flat_map. exists y. split.
  - destruct up; [rewrite <- in_rev|]; apply in_upto; auto.
  - simpl. destruct E as [->| ->]; auto.
Qed.

Lemma in_data_path v x y : valid_version v -> 0 <= x < side v -> 0 <= y < side v ->
  region_of v x y = DataArea -> In (x, y) (data_path v).
Proof.
  intros Hv Hx Hy Hr. unfold data_path. rewrite filter_In. split.
  - assert (x <> 6).
    { intros ->. unfold region_of, region_of_with in Hr.
      destruct (nearest 6 y (finder_centres v) 4); [destruct (_ =? _); discriminate|].
      destruct (nearest 6 y (align_centres v) 2); discriminate. }
    destruct (Z.leb_spec x 5).
    + apply (in_zigzag_intro v (strips v) true x y (if Z.even x then x + 1 else x)); auto.
      * unfold strips. apply in_app_iff. right.
        assert (x = 0 \/ x = 1 \/ x = 2 \/ x = 3 \/ x = 4 \/ x = 5) by lia.
        intuition (subst; simpl; auto).
      * destruct (Z.even x); lia.
    + apply (in_zigzag_intro v (strips v) true x y (if Z.even x then x else x + 1)); auto.
      * unfold strips. apply in_app_iff. left. apply in_map_iff.
        exists ((side v - 1 - (if Z.even x then x else x + 1)) / 2). rewrite in_upto.
        unfold side in *. destruct (Z.even x) eqn:E.
        -- apply Z.even_spec in E as [k ->].
           replace (4 * v + 17 - 1 - 2 * k) with ((2 * v + 8 - k) * 2) by lia.
           rewrite Z.div_mul by lia. lia.
        -- assert (O : Z.odd x = true) by (rewrite <- Z.negb_even, E; reflexivity).
           apply Z.odd_spec in O as [k ->].
           replace (4 * v + 17 - 1 - (2 * k + 1 + 1)) with ((2 * v + 7 - k) * 2) by lia.
           rewrite Z.div_mul by lia. lia.
      * destruct (Z.even x); lia.
  - unfold region_of in Hr. rewrite Hr. reflexivity.
Qed.

(* the number of free modules *)
Lemma count_column l : forall a, fold_left (fun acc c => if data_cell c then acc + 1 else acc) l a = a + zlen (filter data_cell l).
Proof.
  induction l as [|c l IH]; intros a; cbn [fold_left filter]; [unfold zlen; cbn; lia|].
  rewrite IH. destruct (data_cell c); rewrite ?zlen_cons; lia.
Qed.
Lemma filter_map_comm {A B} (f : A -> B) (p : B -> bool) l : filter p (map f l) = map f (filter (fun a => p (f a)) l).
Proof. induction l as [|a l IH]; cbn [map filter]; auto. destruct (p (f a)); cbn [map]; rewrite IH; reflexivity. Qed.
Lemma count_grid (g : Z -> Z -> Z) Ys : forall Xs a,
  fold_left (fun acc col => fold_left (fun acc c => if data_cell c then acc + 1 else acc) col acc)
     (map (fun x => map (g x) Ys) Xs) a
  = a + zlen (filter (fun q => data_cell (g (fst q) (snd q))) (flat_map (fun x => map (fun y => (x, y)) Ys) Xs)).
Proof.
  induction Xs as [|x Xs IH]; intros a; cbn [map fold_left flat_map]; [unfold zlen; cbn; lia|].
  rewrite IH, count_column, filter_app, zlen_app, !filter_map_comm, !zlen_map. cbn [fst snd]. lia.
Qed.
Lemma wf_grid m : wf m -> mmat m = map (fun x => map (rawget m x) (upto (mheight m))) (upto (mwidth m)).
Proof.
  intros Hm. destruct Hm as (Hw & Hh & HL & HC). apply list_ext. intros i. rewrite nth_error_map.
  destruct (Nat.ltb_spec i (length (mmat m))) as [X|X].
  - rewrite nth_error_upto by (unfold zlen in HL; lia). cbn [option_map].
    destruct (nth_error (mmat m) i) as [c|] eqn:EC; [|apply nth_error_None in EC; lia]. f_equal.
    assert (HCL : zlen c = mheight m) by (rewrite Forall_forall in HC; apply HC; eapply nth_error_In; eauto).
    apply list_ext. intros k. rewrite nth_error_map. unfold rawget. rewrite zget_nth, Nat2Z.id, EC by lia.
    destruct (Nat.ltb_spec k (length c)) as [Y|Y].
    + rewrite nth_error_upto by (unfold zlen in HCL; lia). cbn [option_map]. rewrite zget_nth, Nat2Z.id by lia.
      destruct (nth_error c k) eqn:E; auto. apply nth_error_None in E. lia.
    + rewrite (proj2 (nth_error_None c k)) by auto.
      rewrite (proj2 (nth_error_None (upto (mheight m)) k)) by (rewrite upto_length; unfold zlen in HCL; lia). reflexivity.
  - rewrite (proj2 (nth_error_None (mmat m) i)) by auto.
    rewrite (proj2 (nth_error_None (upto (mwidth m)) i)) by (rewrite upto_length; unfold zlen in HL; lia). reflexivity.
Qed.

Lemma data_path_length v : valid_version v -> Z.of_nat (length (data_path v)) = raw_modules v.
Proof.
  intros Hv. destruct (prefill_matrix v Hv) as (m & _ & Hm & HW & HH & HC & HN). rewrite <- HN.
  unfold count_init. rewrite (wf_grid m Hm), count_grid, HW, HH. rewrite Z.add_0_l. unfold zlen. f_equal.
  set (grid := flat_map _ _).
  assert (NG : NoDup (filter (fun q => data_cell (rawget m (fst q) (snd q))) grid)).
  { apply NoDup_filter. unfold grid. apply NoDup_flat_map.
    - apply NoDup_upto.
    - intros x _. apply Injective_map_NoDup; [intros a b E; congruence|apply NoDup_upto].
    - intros a b q _ _ Ha Hb. apply in_map_iff in Ha as (? & <- & _). apply in_map_iff in Hb as (? & E & _). congruence. }
  assert (IG : forall x y, In (x, y) grid <-> 0 <= x < side v /\ 0 <= y < side v).
  { intros x y. unfold grid. rewrite in_flat_map. split.
    - intros (a & Ha & Hb). apply in_map_iff in Hb as (b & E & Hb). injection E as <- <-. rewrite in_upto in *. auto.
    - intros [Hx Hy]. exists x. rewrite in_upto. split; auto. apply in_map_iff. exists y. rewrite in_upto. auto. }
  assert (SAME : forall x y, In (x, y) (data_path v) <-> In (x, y) (filter (fun q => data_cell (rawget m (fst q) (snd q))) grid)).
  { intros x y. rewrite filter_In, IG. cbn [fst snd]. split.
    - intros HI. pose proof (in_data_path_range v x y Hv HI) as R. split; auto.
      apply in_data_path_region in HI. specialize (HC x y ltac:(split; rewrite ?HW, ?HH; tauto)).
      unfold cell_ok in HC. rewrite HI in HC. exact HC.
    - intros [[Hx Hy] HD]. apply in_data_path; auto. specialize (HC x y ltac:(split; rewrite ?HW, ?HH; tauto)).
      unfold cell_ok in HC. destruct (region_of v x y); auto; cbn [is_data] in HC; exfalso;
        apply andb_true_iff in HC as [HC _]; unfold data_cell in HD; apply Z.eqb_eq in HD; rewrite HD in HC; discriminate. }
  apply Nat.le_antisymm; apply NoDup_incl_length; auto using NoDup_data_path; intros [x y] HI; apply SAME; exact HI.
Qed.

Lemma route_facts v : valid_version v ->
  walk (Z.to_nat (side v * side v + side v)) (fun x y => is_data (region_of v x y)) (side v)
       (side v - 1) (side v - 1) true 0 (length (data_path v)) = Some (data_path v).
Proof. apply route_walk. Qed.

(* ---- fillDataBinary on the prefilled matrix ---- *)
Lemma combine_fst {A B} (l1 : list A) (l2 : list B) : length l1 = length l2 -> map fst (combine l1 l2) = l1.
Proof. revert l2; induction l1; intros [|b l2]; simpl; intros; try discriminate; auto. f_equal; auto. Qed.

Lemma map_combine_writes (path : list (Z * Z)) (vals : list Z) m : wf m -> NoDup path -> length path = length vals ->
  (forall p, In p path -> in_range m (fst p) (snd p)) ->
  map (fun p => rawget (apply_writes m (combine path vals)) (fst p) (snd p)) path = vals.
Proof.
  intros Hwf Hnd Hl Hr.
  assert (G : forall k p, nth_error path k = Some p -> forall c, nth_error vals k = Some c ->
    rawget (apply_writes m (combine path vals)) (fst p) (snd p) = c).
  { intros k p Hk c Hc. apply apply_writes_in; auto.
    - rewrite combine_fst; auto.
    - apply Hr. eapply nth_error_In; eauto.
    - clear -Hk Hc. revert vals k Hk Hc. induction path as [|q path IH]; intros [|d vals] [|k]; simpl; try discriminate.
      + intros [= ->] [= ->]. destruct p; auto.
      + intros. right. eapply IH; eauto. }
  apply list_ext. intros i. rewrite nth_error_map.
  destruct (nth_error path i) as [p|] eqn:E; simpl.
  - destruct (nth_error vals i) as [c|] eqn:Ec.
    + erewrite G; eauto.
    + apply nth_error_None in Ec. assert (nth_error path i <> None) by congruence. apply nth_error_Some in H. lia.
  - apply nth_error_None in E. symmetry. apply nth_error_None. lia.
Qed.

Lemma fill_facts v m stream : valid_version v ->
  wf m -> mwidth m = side v -> mheight m = side v ->
  (forall x y, in_range m x y -> cell_ok (region_of v x y) (rawget m x y) = true) ->
  length stream = length (data_path v) ->
  exists m', fillDataBinary m (side v) stream = Some m' /\
    wf m' /\ mwidth m' = side v /\ mheight m' = side v /\
    map (fun p => rawget m' (fst p) (snd p)) (data_path v) = map dataval stream /\
    (forall x y, in_range m x y -> is_data (region_of v x y) = false -> rawget m' x y = rawget m x y).
Proof.
  intros Hv Hwf HW HH Hc Hl.
  assert (Hr : forall p, In p (data_path v) -> in_range m (fst p) (snd p)).
  { intros [x y] Hp. simpl. unfold in_range. rewrite HW, HH. apply in_data_path_range; auto. }
  exists (apply_writes m (combine (data_path v) (map dataval stream))).
  split.
  { unfold fillDataBinary. apply fill_walk with (free := fun x y => is_data (region_of v x y)) (n := side v); auto.
    - rewrite Hl. apply route_facts; auto.
    - apply NoDup_data_path; auto.
    - intros x y R E. specialize (Hc x y R). unfold cell_ok in Hc. rewrite E in Hc.
      apply andb_true_iff in Hc as [Hc _]. apply negb_true_iff in Hc. auto.
    - intros [x y] Hp. specialize (Hc x y (Hr _ Hp)). simpl. apply in_data_path_region in Hp.
      rewrite Hp in Hc. simpl in Hc. apply Z.eqb_eq in Hc. rewrite Hc. reflexivity. }
  destruct (apply_writes_dims (combine (data_path v) (map dataval stream)) m Hwf) as (A & B & C).
  split; [auto|]. split; [congruence|]. split; [congruence|]. split.
  - apply map_combine_writes; auto using NoDup_data_path. rewrite map_length; auto.
  - intros x y R E. apply apply_writes_other; auto.
    rewrite combine_fst by (rewrite map_length; auto).
    intros Hp. apply in_data_path_region in Hp. rewrite Hp in E. discriminate.
Qed.

(* ---- masks ---- *)
Lemma modulo_spec k x y : 0 <= k < 8 -> 0 <= x -> 0 <= y ->
  exists fn, getModuloFunc k = Some fn /\ fn x y = mask_condition k y x.
Proof.
  intros Hk Hx Hy.
  assert (E : k = 0 \/ k = 1 \/ k = 2 \/ k = 3 \/ k = 4 \/ k = 5 \/ k = 6 \/ k = 7) by lia.
  assert (Hxy : 0 <= x * y) by nia.
  destruct E as [->|[->|[->|[->|[->|[->|[->| ->]]]]]]]; eexists; (split; [reflexivity|]);
    simpl mask_condition;
    unfold modulo0Func, modulo1Func, modulo2Func, modulo3Func, modulo4Func, modulo5Func, modulo6Func, modulo7Func;
    rewrite ?(Z.add_comm y x), ?(Z.mul_comm y x), ?(Z.add_comm (y / 2)).
  all: repeat first [ rewrite Z.quot_div_nonneg by lia | rewrite (Z.rem_mod_nonneg (x * y)) by lia
                    | rewrite (Z.rem_mod_nonneg (x + y)) by lia | rewrite (Z.rem_mod_nonneg x) by lia
                    | rewrite (Z.rem_mod_nonneg y) by lia ].
  all: try reflexivity.
  all: rewrite Z.rem_mod_nonneg; try reflexivity; try lia.
  - assert (0 <= x / 3) by (apply Z.div_pos; lia). assert (0 <= y / 2) by (apply Z.div_pos; lia). lia.
  - pose proof (Z.mod_pos_bound (x * y) 2). pose proof (Z.mod_pos_bound (x * y) 3). lia.
  - pose proof (Z.mod_pos_bound (x + y) 2). pose proof (Z.mod_pos_bound (x * y) 3). lia.
Qed.

Lemma getModuloFunc_some k : 0 <= k < 8 -> exists fn, getModuloFunc k = Some fn.
Proof. intros H. destruct (modulo_spec k 0 0 H) as (fn & E & _); try lia. eauto. Qed.

Lemma newMask_facts mat k fn : wf mat -> getModuloFunc k = Some fn ->
  exists mk, newMask mat k = Some mk /\ wf mk /\ mwidth mk = mwidth mat /\ mheight mk = mheight mat /\
    forall x y, in_range mat x y ->
      rawget mk x y = if is_init (rawget mat x y) then dataval (fn x y) else QRValue_INIT_V0.
Proof.
  intros Hwf E. unfold newMask. rewrite E. eexists. split; [reflexivity|].
  rewrite m_copy_id by auto.
  pose proof (fold_cells
    (fun m '(x, y) => let '(v, _) := m_at m x y in
        if negb (qrtype v =? QRType_INIT) then m_set m x y QRValue_INIT_V0
        else if fn x y then m_set m x y QRValue_DATA_V1 else m_set m x y QRValue_DATA_V0)
    (fun x y old => if is_init old then dataval (fn x y) else QRValue_INIT_V0)
    (mwidth mat) (mheight mat) (iter_coords IterDirection_COLUMN (mwidth mat) (mheight mat)) mat) as F.
  destruct F as (A & B & C & D & _); auto using NoDup_iter_coords.
  { intros m x y Hm HW HH Hi. apply in_iter_coords in Hi.
    assert (R : in_range m x y) by (unfold in_range; rewrite HW, HH; auto).
    rewrite m_at_in by auto.
    assert (G : forall c, wf (m_set m x y c) /\ mwidth (m_set m x y c) = mwidth mat /\
       mheight (m_set m x y c) = mheight mat /\
       forall x' y', rawget (m_set m x y c) x' y' = if eq_pos (x, y) (x', y') then c else rawget m x' y').
    { intros c. split; [apply wf_set; auto|]. rewrite m_set_width, m_set_height. split; [auto|]. split; [auto|].
      intros x' y'. rewrite rawget_set by auto. reflexivity. }
    unfold is_init. destruct (qrtype (rawget m x y) =? QRType_INIT); simpl; [|apply G].
    destruct (fn x y); simpl; apply G. }
  split; [exact A|]. split; [exact B|]. split; [exact C|].
  intros x y R. apply D, in_iter_coords, R.
Qed.

Lemma xorMask_facts m mk : wf m -> wf mk -> mwidth mk = mwidth m -> mheight mk = mheight m ->
  wf (xorMask m mk) /\ mwidth (xorMask m mk) = mwidth m /\ mheight (xorMask m mk) = mheight m /\
  forall x y, in_range m x y ->
    rawget (xorMask m mk) x y =
      if is_init (rawget mk x y) then rawget m x y else qrxor (rawget m x y) (rawget mk x y).
Proof.
  intros Hwf Hk HW HH. unfold xorMask, m_iter.
  pose proof (fold_cells
    (fun m '(x, y) => if qrtype (rawget mk x y) =? QRType_INIT then m
        else let '(v2, _) := m_at m x y in m_set m x y (qrxor v2 (rawget mk x y)))
    (fun x y old => if is_init (rawget mk x y) then old else qrxor old (rawget mk x y))
    (mwidth m) (mheight m) (iter_coords IterDirection_COLUMN (mwidth mk) (mheight mk)) m) as F.
  destruct F as (A & B & C & D & _); auto using NoDup_iter_coords.
  { intros m1 x y Hm HW1 HH1 Hi. apply in_iter_coords in Hi.
    assert (R : in_range m1 x y) by (unfold in_range; rewrite HW1, HH1, <- HW, <- HH; auto).
    unfold is_init. destruct (qrtype (rawget mk x y) =? QRType_INIT).
    - split; [auto|]. split; [auto|]. split; [auto|]. intros x' y'.
      destruct (eq_pos (x, y) (x', y')) eqn:E; [|reflexivity]. apply eq_pos_spec in E. injection E as -> ->. reflexivity.
    - rewrite m_at_in by auto. split; [apply wf_set; auto|]. rewrite m_set_width, m_set_height.
      split; [auto|]. split; [auto|]. intros x' y'. rewrite rawget_set by auto. reflexivity. }
  split; [exact A|]. split; [exact B|]. split; [exact C|].
  intros x y R. apply D. apply in_iter_coords. rewrite HW, HH. apply R.
Qed.

Lemma qrxor_dataval a b : qrxor (dataval a) (dataval b) = dataval (xorb a b).
Proof. destruct a, b; reflexivity. Qed.
Lemma qrbool_dataval a : qrbool (dataval a) = a.
Proof. destruct a; reflexivity. Qed.

(* ---- format information ---- *)
Definition fmtval (b : bool) : Z := if b then QRValue_FORMAT_V1 else QRValue_FORMAT_V0.
Definition verval (b : bool) : Z := if b then QRValue_VERSION_V1 else QRValue_VERSION_V0.

Fixpoint fmt_path (k : nat) (n x y : Z) : list (Z * Z) :=
  match k with
  | O => []
  | S k' =>
    (x, y) ::
    (let x := x + 1 in
     let y := y - 1 in
     let x := if x =? 6 then 7 else if x =? 8 then n - 8 else x in
     let y := if y =? n - 8 then 8 else if y =? 6 then 5 else y in
     fmt_path k' n x y)
  end.

Definition fmt_writes (path : list (Z * Z)) (bits : list bool) : list ((Z * Z) * Z) :=
  flat_map (fun '((x, y), b) => [((x, 8), fmtval b); ((8, y), fmtval b)]) (combine path bits).

Lemma fillFormat_writes m n bits : length bits = 15%nat ->
  fillFormatInfo m n bits = apply_writes m (fmt_writes (fmt_path 15 n 0 (n - 1)) bits).
Proof.
  intros Hl. unfold fillFormatInfo. rewrite firstn_all2 by lia.
  rewrite <- Hl. clear Hl. generalize 0 as x. generalize (n - 1) as y. revert m.
  induction bits as [|b bits IH]; intros m y x; [reflexivity|].
  simpl length. simpl fmt_path. unfold fmt_writes. simpl combine. simpl flat_map.
  unfold apply_writes. simpl fold_left. simpl in IH.
  unfold fmt_writes, apply_writes in IH. unfold fmtval in *. rewrite <- IH. reflexivity.
Qed.

Definition eqpl (a b : list (Z * Z)) : bool := forallb (fun '(p, q) => eq_pos p q) (combine a b) && Nat.eqb (length a) (length b).
Lemma eqpl_spec a b : eqpl a b = true -> a = b.
Proof.
  unfold eqpl. rewrite andb_true_iff, Nat.eqb_eq. revert b; induction a as [|p a IH]; intros [|q b]; simpl; intros [H L]; try discriminate; auto.
  apply andb_true_iff in H as [E H]. apply eq_pos_spec in E. subst. f_equal. apply IH. auto.
Qed.

Definition fmt_pairs (v : Z) : list ((Z * Z) * (Z * Z)) :=
  combine (firstn 7 format_positions_1 ++ skipn 7 (format_positions_2 v))
          (firstn 7 (format_positions_2 v) ++ skipn 7 format_positions_1).

Lemma fmt_path_sweep : forallb (fun v =>
   let p := fmt_path 15 (side v) 0 (side v - 1) in
   eqpl (map (fun q => (fst q, 8)) p) (map fst (fmt_pairs v)) &&
   eqpl (map (fun q => (8, snd q)) p) (map snd (fmt_pairs v))) all_versions = true.
Proof. vm_compute. reflexivity. Qed.

Fixpoint nodup_pos (l : list (Z * Z)) : bool :=
  match l with [] => true | p :: t => negb (existsb (eq_pos p) t) && nodup_pos t end.
Lemma nodup_pos_spec l : nodup_pos l = true -> NoDup l.
Proof.
  induction l as [|p l IH]; simpl; [constructor|]. rewrite andb_true_iff, negb_true_iff. intros [H1 H2].
  constructor; auto. intros Hin.
  assert (existsb (eq_pos p) l = true) by (apply existsb_exists; exists p; split; auto using eq_pos_refl). congruence.
Qed.

Definition version_positions (v : Z) : list (Z * Z) :=
  flat_map (fun k => [version_position_1 v k; version_position_2 v k]) (upto 18).

Definition is_format (r : region) : bool := match r with FormatArea => true | _ => false end.
Definition is_version (r : region) : bool := match r with VersionArea => true | _ => false end.

Lemma fmt_positions_sweep : forallb (fun v =>
   nodup_pos (format_positions_1 ++ format_positions_2 v) &&
   forallb (fun '(x, y) => (0 <=? x) && (x <? side v) && (0 <=? y) && (y <? side v) && is_format (region_of v x y))
           (format_positions_1 ++ format_positions_2 v) &&
   (if 7 <=? v then
      nodup_pos (version_positions v) &&
      forallb (fun '(x, y) => (0 <=? x) && (x <? side v) && (0 <=? y) && (y <? side v) && is_version (region_of v x y))
           (version_positions v)
    else true)) all_versions = true.
Proof. vm_compute. reflexivity. Qed.

Lemma fmt_positions_facts v : valid_version v ->
  NoDup (format_positions_1 ++ format_positions_2 v) /\
  forall p, In p (format_positions_1 ++ format_positions_2 v) ->
    0 <= fst p < side v /\ 0 <= snd p < side v /\ region_of v (fst p) (snd p) = FormatArea.
Proof.
  intros Hv. pose proof (sweep _ fmt_positions_sweep v Hv) as H. cbv beta in H.
  rewrite !andb_true_iff in H. destruct H as [[H1 H2] _].
  split; [apply nodup_pos_spec; auto|].
  rewrite forallb_forall in H2. intros [x y] Hp. specialize (H2 _ Hp). cbv beta iota in H2.
  rewrite !andb_true_iff, !Z.leb_le, !Z.ltb_lt in H2. simpl.
  split; [lia|]. split; [lia|]. destruct (region_of v x y); simpl in H2; try reflexivity; destruct H2; discriminate.
Qed.

Lemma ver_positions_facts v : valid_version v -> 7 <= v ->
  NoDup (version_positions v) /\
  forall p, In p (version_positions v) ->
    0 <= fst p < side v /\ 0 <= snd p < side v /\ region_of v (fst p) (snd p) = VersionArea.
Proof.
  intros Hv H7. pose proof (sweep _ fmt_positions_sweep v Hv) as H. cbv beta in H.
  rewrite (proj2 (Z.leb_le 7 v) H7) in H.
  rewrite !andb_true_iff in H. destruct H as [_ [H1 H2]].
  split; [apply nodup_pos_spec; auto|].
  rewrite forallb_forall in H2. intros [x y] Hp. specialize (H2 _ Hp). cbv beta iota in H2.
  rewrite !andb_true_iff, !Z.leb_le, !Z.ltb_lt in H2. simpl.
  split; [lia|]. split; [lia|]. destruct (region_of v x y); simpl in H2; try reflexivity; destruct H2; discriminate.
Qed.
