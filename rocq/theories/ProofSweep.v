(* Facts about the 40 versions established by evaluation of the model's prefillMatrix and route against
   the specification, then lifted to forall 1 <= v <= 40. *)
From Verif Require Import ModelMatrix ModelBinary ModelLayout ModelVersion SpecIso ProofMatrix ProofWalk.

Definition all_versions : list Z := map (fun k => k + 1) (upto 40).

Lemma all_versions_in v : valid_version v -> In v all_versions.
Proof.
  intros H. unfold valid_version in H. apply in_map_iff. exists (v - 1). rewrite in_upto. lia.
Qed.

Lemma sweep (f : Z -> bool) : forallb f all_versions = true -> forall v, valid_version v -> f v = true.
Proof. rewrite forallb_forall. intros H v Hv. apply H, all_versions_in, Hv. Qed.

(* ---- prefillMatrix ---- *)
Definition cell_ok (r : region) (c : Z) : bool :=
  if is_data r then c =? QRValue_INIT_V0
  else negb (is_init c) && match fixed_colour r with Some b => Bool.eqb b (qrbool c) | None => true end.

(* ---- a faster, equivalent classification ---- *)
(* the alignment coordinate within distance 2, if any *)
Definition near (coords : list Z) (x : Z) : option Z := find (fun c => Z.abs (x - c) <=? 2) coords.

(* region from precomputed near x, near y *)
Definition finder_fast (n x y : Z) : option Z :=
  if x <=? 7 then
    if y <=? 7 then Some (dist x y 3 3)
    else if n - 8 <=? y then Some (dist x y 3 (n - 4)) else None
  else if n - 8 <=? x then (if y <=? 7 then Some (dist x y (n - 4) 3) else None)
  else None.

Definition align_fast (last x y : Z) (nx ny : option Z) : option Z :=
  match nx, ny with
  | Some cx, Some cy =>
    if ((cx =? 6) && (cy =? 6)) || ((cx =? 6) && (cy =? last)) || ((cx =? last) && (cy =? 6)) then None
    else Some (dist x y cx cy)
  | _, _ => None
  end.

Definition region_fast (v n x y : Z) (nx ny : option Z) : region :=
  match finder_fast n x y with
  | Some d => if d =? 4 then Separator else Finder (negb (d =? 2))
  | None =>
    match align_fast (n - 7) x y nx ny with
    | Some d => Alignment (negb (d =? 1))
    | None =>
      if (x =? 6) || (y =? 6) then Timing (Z.even (x + y))
      else if (x =? 8) && (y =? side v - 8) then DarkModule
      else if in_format_area v x y then FormatArea
      else if in_version_area v x y then VersionArea
      else DataArea
    end
  end.

Lemma finder_fast_spec v x y : valid_version v -> 0 <= x < side v -> 0 <= y < side v ->
  nearest x y (finder_centres v) 4 = finder_fast (side v) x y.
Proof.
  intros Hv Hx Hy. unfold valid_version in Hv. unfold nearest, finder_centres, finder_fast. cbn [find].
  assert (D : forall cx cy, (dist x y cx cy <=? 4) = (Z.abs (x - cx) <=? 4) && (Z.abs (y - cy) <=? 4)).
  { intros. unfold dist. apply eq_true_iff_eq. rewrite andb_true_iff, !Z.leb_le. lia. }
  rewrite !D. unfold side in *.
  destruct (Z.leb_spec x 7), (Z.leb_spec y 7).
  - destruct (Z.leb_spec (Z.abs (x - 3)) 4), (Z.leb_spec (Z.abs (y - 3)) 4); try lia. reflexivity.
  - destruct (Z.leb_spec (Z.abs (x - 3)) 4), (Z.leb_spec (Z.abs (y - 3)) 4); try lia. cbn [andb].
    destruct (Z.leb_spec (Z.abs (x - (4 * v + 17 - 4))) 4); try lia. cbn [andb].
    destruct (Z.leb_spec (4 * v + 17 - 8) y), (Z.leb_spec (Z.abs (y - (4 * v + 17 - 4))) 4); try lia; reflexivity.
  - destruct (Z.leb_spec (Z.abs (x - 3)) 4), (Z.leb_spec (Z.abs (y - 3)) 4); try lia. cbn [andb].
    destruct (Z.leb_spec (4 * v + 17 - 8) x), (Z.leb_spec (Z.abs (x - (4 * v + 17 - 4))) 4); try lia; reflexivity.
  - destruct (Z.leb_spec (Z.abs (x - 3)) 4), (Z.leb_spec (Z.abs (y - 3)) 4); try lia. cbn [andb].
    rewrite andb_false_r. destruct (4 * v + 17 - 8 <=? x); reflexivity.
Qed.

(* coordinates at least 5 apart, so that the near one is unique *)
Definition coords_apart (cs : list Z) : bool :=
  forallb (fun a => forallb (fun b => (a =? b) || (5 <=? Z.abs (a - b))) cs) cs.

Lemma align_fast_spec v x y : coords_apart (align_coords v) = true ->
  nearest x y (align_centres v) 2 = align_fast (side v - 7) x y (near (align_coords v) x) (near (align_coords v) y).
Proof.
  intros HA. set (cs := align_coords v) in *. set (last := side v - 7).
  assert (AP : forall a b, In a cs -> In b cs -> a = b \/ 5 <= Z.abs (a - b)).
  { intros a b Ha Hb. unfold coords_apart in HA. rewrite forallb_forall in HA. specialize (HA a Ha).
    rewrite forallb_forall in HA. specialize (HA b Hb). rewrite orb_true_iff, Z.eqb_eq, Z.leb_le in HA. exact HA. }
  assert (NS : forall z c, near cs z = Some c -> In c cs /\ Z.abs (z - c) <= 2).
  { intros z c E. unfold near in E. apply find_some in E as [H1 H2]. apply Z.leb_le in H2. auto. }
  assert (NN : forall z, near cs z = None -> forall c, In c cs -> 2 < Z.abs (z - c)).
  { intros z E c Hc. unfold near in E. eapply find_none in E; [|exact Hc]. cbv beta in E. apply Z.leb_gt in E. exact E. }
  set (bad := fun cx cy => ((cx =? 6) && (cy =? 6)) || ((cx =? 6) && (cy =? last)) || ((cx =? last) && (cy =? 6))).
  assert (IC : forall cx cy, In (cx, cy) (align_centres v) <-> In cx cs /\ In cy cs /\ bad cx cy = false).
  { intros cx cy. unfold align_centres. fold cs last. rewrite filter_In, in_prod_iff. fold (bad cx cy).
    rewrite negb_true_iff. tauto. }
  unfold nearest. destruct (find (fun '(cx, cy) => dist x y cx cy <=? 2) (align_centres v)) as [[cx cy]|] eqn:E.
  - apply find_some in E as [HI HD]. apply IC in HI as (Hx & Hy & HB). apply Z.leb_le in HD. unfold dist in HD.
    assert (EX : near cs x = Some cx).
    { destruct (near cs x) as [c|] eqn:EN; [|pose proof (NN _ EN _ Hx); lia].
      destruct (NS _ _ EN) as [HC HC2]. destruct (AP c cx HC Hx); [congruence|lia]. }
    assert (EY : near cs y = Some cy).
    { destruct (near cs y) as [c|] eqn:EN; [|pose proof (NN _ EN _ Hy); lia].
      destruct (NS _ _ EN) as [HC HC2]. destruct (AP c cy HC Hy); [congruence|lia]. }
    rewrite EX, EY. unfold align_fast. fold (bad cx cy). rewrite HB. reflexivity.
  - unfold align_fast. destruct (near cs x) as [cx|] eqn:EX; auto. destruct (near cs y) as [cy|] eqn:EY; auto.
    fold (bad cx cy). destruct (bad cx cy) eqn:EB; auto. exfalso.
    destruct (NS _ _ EX), (NS _ _ EY). eapply find_none in E; [|apply IC; eauto]. cbv beta in E.
    apply Z.leb_gt in E. unfold dist in E. lia.
Qed.

Lemma coords_apart_sweep : forallb (fun v => coords_apart (align_coords v)) all_versions = true.
Proof. vm_compute. reflexivity. Qed.

Lemma region_fast_spec v x y : valid_version v -> 0 <= x < side v -> 0 <= y < side v ->
  region_of v x y = region_fast v (side v) x y (near (align_coords v) x) (near (align_coords v) y).
Proof.
  intros Hv Hx Hy. unfold region_of, region_of_with, region_fast.
  rewrite finder_fast_spec by auto. rewrite align_fast_spec by (apply (sweep _ coords_apart_sweep); auto). reflexivity.
Qed.

(* ---- the sweep over the prefilled matrices: each column against its expected regions ---- *)
(* rows: (y, near y, interior y); a cell with both coordinates interior is an alignment or a data module *)
Definition interior (n x : Z) : bool := (8 <? x) && (x <? n - 11).
Definition annotate (n : Z) (cs : list Z) : list (Z * option Z * bool) :=
  map (fun y => (y, near cs y, interior n y)) (upto n).

Definition data_cell (c : Z) : bool := c =? QRValue_INIT_V0.
Definition cell_check (v n x y : Z) (nx ny : option Z) (inner : bool) (c : Z) : bool :=
  if inner then
    match nx, ny with
    | Some _, Some _ => cell_ok (region_fast v n x y nx ny) c
    | _, _ => data_cell c
    end
  else cell_ok (region_fast v n x y nx ny) c.

Fixpoint column_check (v n x : Z) (nx : option Z) (ix : bool) (rows : list (Z * option Z * bool)) (col : list Z) : bool :=
  match rows, col with
  | [], [] => true
  | (y, ny, iy) :: rows, c :: col => cell_check v n x y nx ny (ix && iy) c && column_check v n x nx ix rows col
  | _, _ => false
  end.
Fixpoint columns_check (v n : Z) (rows cols : list (Z * option Z * bool)) (mat : list (list Z)) : bool :=
  match cols, mat with
  | [], [] => true
  | (x, nx, ix) :: cols, col :: mat => column_check v n x nx ix rows col && columns_check v n rows cols mat
  | _, _ => false
  end.
Definition count_init (mat : list (list Z)) : Z :=
  fold_left (fun acc col => fold_left (fun acc c => if data_cell c then acc + 1 else acc) col acc) mat 0.

Definition prefill_check (v : Z) : bool :=
  let n := side v in
  match prefillMatrix v (newMatrix n n) with
  | None => false
  | Some m =>
    let rows := annotate n (align_coords v) in
    (mwidth m =? n) && (mheight m =? n) && columns_check v n rows rows (mmat m) && (count_init (mmat m) =? raw_modules v)
  end.

Lemma prefill_sweep : forallb prefill_check all_versions = true.
Proof. vm_cast_no_check (eq_refl true). Qed.

Lemma interior_data v x y nx ny : valid_version v -> interior (side v) x = true -> interior (side v) y = true ->
  (nx = None \/ ny = None) -> region_fast v (side v) x y nx ny = DataArea.
Proof.
  intros Hv Hx Hy HN. unfold interior in Hx, Hy. rewrite andb_true_iff, !Z.ltb_lt in Hx, Hy.
  unfold region_fast, finder_fast, in_format_area, in_version_area.
  destruct (Z.leb_spec x 7); [lia|]. destruct (Z.leb_spec (side v - 8) x); [lia|].
  assert (AF : align_fast (side v - 7) x y nx ny = None) by (destruct HN as [-> | ->]; [reflexivity|destruct nx; reflexivity]). rewrite AF.
  destruct (Z.eqb_spec x 6); [lia|]. destruct (Z.eqb_spec y 6); [lia|]. cbn [orb].
  destruct (Z.eqb_spec x 8); [lia|]. destruct (Z.eqb_spec y 8); [lia|]. cbn [andb orb].
  destruct (Z.leb_spec y 5); [lia|]. destruct (Z.leb_spec x 5); [lia|]. cbn [andb orb]. rewrite andb_false_r. reflexivity.
Qed.

Lemma cell_check_sound v x y c : valid_version v -> 0 <= x < side v -> 0 <= y < side v ->
  cell_check v (side v) x y (near (align_coords v) x) (near (align_coords v) y) (interior (side v) x && interior (side v) y) c = true ->
  cell_ok (region_of v x y) c = true.
Proof.
  intros Hv Hx Hy HC. rewrite region_fast_spec by auto. unfold cell_check in HC.
  destruct (interior (side v) x && interior (side v) y) eqn:EI; [|exact HC].
  apply andb_true_iff in EI as [IX IY].
  destruct (near (align_coords v) x) as [cx|] eqn:EX; [destruct (near (align_coords v) y) as [cy|] eqn:EY; [exact HC|]|];
    rewrite interior_data by auto; exact HC.
Qed.

Lemma annotate_nth n cs i : 0 <= i < n ->
  nth_error (annotate n cs) (Z.to_nat i) = Some (i, near cs i, interior n i).
Proof.
  intros Hi. unfold annotate. rewrite nth_error_map, nth_error_upto by lia. cbn [option_map].
  rewrite Z2Nat.id by lia. reflexivity.
Qed.

Lemma column_check_nth v n x nx ix : forall rows col, column_check v n x nx ix rows col = true ->
  length col = length rows /\
  forall i y ny iy, nth_error rows i = Some (y, ny, iy) -> exists c, nth_error col i = Some c /\ cell_check v n x y nx ny (ix && iy) c = true.
Proof.
  induction rows as [|[[y ny] iy] rows IH]; intros [|c col] HC; cbn [column_check] in HC; try discriminate.
  - split; auto. intros [|i]; discriminate.
  - apply andb_true_iff in HC as [H1 H2]. destruct (IH col H2) as [HL HI]. split; [cbn; lia|].
    intros [|i] y' ny' iy' E; cbn in E.
    + injection E as <- <- <-. exists c. auto.
    + apply HI. exact E.
Qed.
Lemma columns_check_nth v n rows : forall cols mat, columns_check v n rows cols mat = true ->
  length mat = length cols /\
  forall i x nx ix, nth_error cols i = Some (x, nx, ix) -> exists col, nth_error mat i = Some col /\ column_check v n x nx ix rows col = true.
Proof.
  induction cols as [|[[x nx] ix] cols IH]; intros [|col mat] HC; cbn [columns_check] in HC; try discriminate.
  - split; auto. intros [|i]; discriminate.
  - apply andb_true_iff in HC as [H1 H2]. destruct (IH mat H2) as [HL HI]. split; [cbn; lia|].
    intros [|i] x' nx' ix' E; cbn in E.
    + injection E as <- <- <-. exists col. auto.
    + apply HI. exact E.
Qed.

Lemma prefill_matrix v : valid_version v ->
  exists m, prefillMatrix v (newMatrix (side v) (side v)) = Some m /\
    wf m /\ mwidth m = side v /\ mheight m = side v /\
    (forall x y, in_range m x y -> cell_ok (region_of v x y) (rawget m x y) = true) /\
    count_init (mmat m) = raw_modules v.
Proof.
  intros Hv. pose proof (sweep _ prefill_sweep v Hv) as HS. unfold prefill_check in HS.
  destruct (prefillMatrix v (newMatrix (side v) (side v))) as [m|]; [|discriminate].
  exists m. rewrite !andb_true_iff, !Z.eqb_eq in HS. destruct HS as (((HW & HH) & HC) & HN).
  assert (Hn : 21 <= side v) by (unfold valid_version, side in *; lia).
  set (n := side v) in *.
  destruct (columns_check_nth _ _ _ _ _ HC) as [HL HI].
  assert (LA : length (annotate n (align_coords v)) = Z.to_nat n) by (unfold annotate; rewrite map_length, upto_length; reflexivity).
  assert (COL : forall x, 0 <= x < n -> exists col, nth_error (mmat m) (Z.to_nat x) = Some col /\ length col = Z.to_nat n /\
     forall y, 0 <= y < n -> exists c, nth_error col (Z.to_nat y) = Some c /\ cell_ok (region_of v x y) c = true).
  { intros x Hx. destruct (HI _ _ _ _ (annotate_nth n (align_coords v) x Hx)) as (col & EC & CC).
    exists col. destruct (column_check_nth _ _ _ _ _ _ _ CC) as [CL CI]. split; auto. split; [congruence|].
    intros y Hy. destruct (CI _ _ _ _ (annotate_nth n (align_coords v) y Hy)) as (c & Ec & Hc).
    exists c. split; auto. apply cell_check_sound; auto. }
  split; [reflexivity|]. split; [|split; [auto|split; [auto|split; [|auto]]]].
  - unfold wf. rewrite HW, HH. split; [lia|]. split; [lia|]. split; [unfold zlen; rewrite HL, LA; lia|].
    apply Forall_forall. intros c Hc. apply In_nth_error in Hc as [i Hi].
    assert (Hlt : (i < length (mmat m))%nat) by (apply nth_error_Some; congruence).
    destruct (COL (Z.of_nat i)) as (col & EC & CL & _); [rewrite HL, LA in Hlt; lia|].
    rewrite Nat2Z.id in EC. replace c with col by congruence. unfold zlen. rewrite CL. lia.
  - intros x y [Hx Hy]. rewrite HW in Hx. rewrite HH in Hy. destruct (COL x Hx) as (col & EC & CL & HCC).
    destruct (HCC y Hy) as (c & Ec & Hc). unfold rawget. rewrite !zget_nth by lia. rewrite EC, zget_nth, Ec by lia. exact Hc.
Qed.

(* ---- the route: the cells visited, irrespective of what is free ---- *)
Fixpoint cells (len : nat) (n x y : Z) (up : bool) (i : Z) : list (Z * Z) :=
  match len with
  | O => []
  | S l =>
    let '(x, y, up) :=
      if (n <=? y) || (y <? 0) then
        let x := x - 2 in
        let y := if up then y + 1 else y - 1 in
        let x := if (x =? 7) || (x =? 6) then x - 1 else x in
        (x, y, negb up)
      else (x, y, up) in
    let '(x', y') :=
      if up then (if Z.rem i 2 =? 0 then (x - 1, y) else (x + 1, y - 1))
      else (if Z.rem i 2 =? 0 then (x - 1, y) else (x + 1, y + 1)) in
    (x, y) :: cells l n x' y' up (i + 1)
  end.

Fixpoint cells_ok (len : nat) (n x y : Z) (up : bool) (i : Z) : Prop :=
  match len with
  | O => True
  | S l =>
    0 <= x < n /\
    let '(x, y, up) :=
      if (n <=? y) || (y <? 0) then
        let x := x - 2 in
        let y := if up then y + 1 else y - 1 in
        let x := if (x =? 7) || (x =? 6) then x - 1 else x in
        (x, y, negb up)
      else (x, y, up) in
    let '(x', y') :=
      if up then (if Z.rem i 2 =? 0 then (x - 1, y) else (x + 1, y - 1))
      else (if Z.rem i 2 =? 0 then (x - 1, y) else (x + 1, y + 1)) in
    0 <= x < n /\ 0 <= y < n /\ cells_ok l n x' y' up (i + 1)
  end.

(* the walk yields the free cells among those visited *)
Lemma walk_cells free n : forall len fuel x y up i,
  (len <= fuel)%nat -> cells_ok len n x y up i ->
  let path := filter (fun q => free (fst q) (snd q)) (cells len n x y up i) in
  walk fuel free n x y up i (length path) = Some path.
Proof.
  induction len as [|len IH]; intros fuel x y up i HF HO path.
  - unfold path. cbn. destruct fuel; reflexivity.
  - destruct fuel as [|fuel]; [lia|]. cbn [cells_ok] in HO. destruct HO as [Hx HO].
    destruct path as [|p0 pr] eqn:EP; [reflexivity|]. cbn [length walk].
    subst path. cbn [cells] in EP.
    destruct (Z.leb_spec n x); [lia|]. destruct (Z.ltb_spec x 0); [lia|]. cbn [orb].
    destruct (if (n <=? y) || (y <? 0)
        then let x0 := x - 2 in let y0 := if up then y + 1 else y - 1 in
             let x1 := if (x0 =? 7) || (x0 =? 6) then x0 - 1 else x0 in (x1, y0, negb up)
        else (x, y, up)) as [[x1 y1] up1].
    destruct (if up1 then if Z.rem i 2 =? 0 then (x1 - 1, y1) else (x1 + 1, y1 - 1)
              else if Z.rem i 2 =? 0 then (x1 - 1, y1) else (x1 + 1, y1 + 1)) as [x2 y2].
    destruct HO as (Rx & Ry & HO).
    destruct (Z.leb_spec n x1); [lia|]. destruct (Z.ltb_spec x1 0); [lia|].
    destruct (Z.leb_spec n y1); [lia|]. destruct (Z.ltb_spec y1 0); [lia|]. cbn [orb].
    specialize (IH fuel x2 y2 up1 (i + 1) ltac:(lia) HO). cbv zeta in IH.
    cbn [filter fst snd] in EP. destruct (free x1 y1).
    + injection EP as <- <-. rewrite IH. reflexivity.
    + rewrite EP in IH. exact IH.
Qed.

Definition pair_at (c y : Z) : list (Z * Z) := [(c, y); (c - 1, y)].

Lemma rem2_even j : 0 <= j -> Z.rem (2 * j) 2 = 0.
Proof. intros. rewrite Z.rem_mod_nonneg, Z.mul_comm by lia. apply Z.mod_mul. lia. Qed.
Lemma rem2_odd j : 0 <= j -> Z.rem (2 * j + 1) 2 = 1.
Proof. intros. rewrite Z.rem_mod_nonneg by lia. rewrite Z.add_comm, Z.mul_comm, Z.mod_add by lia. reflexivity. Qed.

(* two iterations inside a strip *)
Lemma two_up n c y j m : 1 <= c < n -> 0 <= y < n -> 0 <= j ->
  cells (S (S m)) n c y true (2 * j) = pair_at c y ++ cells m n c (y - 1) true (2 * (j + 1)) /\
  (cells_ok m n c (y - 1) true (2 * (j + 1)) -> cells_ok (S (S m)) n c y true (2 * j)).
Proof.
  intros Hc Hy Hj. cbn [cells cells_ok].
  destruct (Z.leb_spec n y); [lia|]. destruct (Z.ltb_spec y 0); [lia|]. cbn [orb].
  rewrite rem2_even by lia. cbn [Z.eqb].
  destruct (Z.leb_spec n y); [lia|]. destruct (Z.ltb_spec y 0); [lia|]. cbn [orb].
  rewrite rem2_odd by lia. cbn [Z.eqb].
  replace (c - 1 + 1) with c by lia. replace (2 * j + 1 + 1) with (2 * (j + 1)) by lia.
  split; [reflexivity|]. intros HO. repeat split; try lia; auto.
Qed.
Lemma two_down n c y j m : 1 <= c < n -> 0 <= y < n -> 0 <= j ->
  cells (S (S m)) n c y false (2 * j) = pair_at c y ++ cells m n c (y + 1) false (2 * (j + 1)) /\
  (cells_ok m n c (y + 1) false (2 * (j + 1)) -> cells_ok (S (S m)) n c y false (2 * j)).
Proof.
  intros Hc Hy Hj. cbn [cells cells_ok].
  destruct (Z.leb_spec n y); [lia|]. destruct (Z.ltb_spec y 0); [lia|]. cbn [orb].
  rewrite rem2_even by lia. cbn [Z.eqb].
  destruct (Z.leb_spec n y); [lia|]. destruct (Z.ltb_spec y 0); [lia|]. cbn [orb].
  rewrite rem2_odd by lia. cbn [Z.eqb].
  replace (c - 1 + 1) with c by lia. replace (2 * j + 1 + 1) with (2 * (j + 1)) by lia.
  split; [reflexivity|]. intros HO. repeat split; try lia; auto.
Qed.

Lemma strip_up n c m : 1 <= c < n -> forall Y j, Z.of_nat Y <= n -> 0 <= j ->
  cells (2 * Y + m) n c (Z.of_nat Y - 1) true (2 * j)
    = flat_map (pair_at c) (rev (upto (Z.of_nat Y))) ++ cells m n c (-1) true (2 * (j + Z.of_nat Y)) /\
  (cells_ok m n c (-1) true (2 * (j + Z.of_nat Y)) -> cells_ok (2 * Y + m) n c (Z.of_nat Y - 1) true (2 * j)).
Proof.
  intros Hc. induction Y as [|Y IH]; intros j HY Hj.
  - replace (j + Z.of_nat 0) with j by lia. split; [reflexivity|auto].
  - replace (2 * S Y + m)%nat with (S (S (2 * Y + m))) by lia.
    destruct (two_up n c (Z.of_nat (S Y) - 1) j (2 * Y + m) Hc ltac:(lia) Hj) as [E O].
    rewrite E. replace (Z.of_nat (S Y) - 1 - 1) with (Z.of_nat Y - 1) in * by lia.
    destruct (IH (j + 1) ltac:(lia) ltac:(lia)) as [E2 O2]. rewrite E2.
    replace (j + 1 + Z.of_nat Y) with (j + Z.of_nat (S Y)) in * by lia.
    split; [|intros HO; apply O, O2, HO].
    rewrite upto_S, rev_app_distr. cbn [rev app flat_map]. rewrite <- app_assoc.
    replace (Z.of_nat (S Y) - 1) with (Z.of_nat Y) by lia. reflexivity.
Qed.
Lemma strip_down n c m : 1 <= c < n -> forall Y j, Z.of_nat Y <= n -> 0 <= j ->
  cells (2 * Y + m) n c (n - Z.of_nat Y) false (2 * j)
    = flat_map (pair_at c) (map (fun k => n - Z.of_nat Y + k) (upto (Z.of_nat Y))) ++ cells m n c n false (2 * (j + Z.of_nat Y)) /\
  (cells_ok m n c n false (2 * (j + Z.of_nat Y)) -> cells_ok (2 * Y + m) n c (n - Z.of_nat Y) false (2 * j)).
Proof.
  intros Hc. induction Y as [|Y IH]; intros j HY Hj.
  - replace (n - Z.of_nat 0) with n by lia. replace (j + Z.of_nat 0) with j by lia. split; [reflexivity|auto].
  - replace (2 * S Y + m)%nat with (S (S (2 * Y + m))) by lia.
    destruct (two_down n c (n - Z.of_nat (S Y)) j (2 * Y + m) Hc ltac:(lia) Hj) as [E O].
    rewrite E. replace (n - Z.of_nat (S Y) + 1) with (n - Z.of_nat Y) in * by lia.
    destruct (IH (j + 1) ltac:(lia) ltac:(lia)) as [E2 O2]. rewrite E2.
    replace (j + 1 + Z.of_nat Y) with (j + Z.of_nat (S Y)) in * by lia.
    split; [|intros HO; apply O, O2, HO].
    assert (U : map (fun k => n - Z.of_nat (S Y) + k) (upto (Z.of_nat (S Y)))
                = (n - Z.of_nat (S Y)) :: map (fun k => n - Z.of_nat Y + k) (upto (Z.of_nat Y))).
    { unfold upto. rewrite !Nat2Z.id. cbn [seq map]. f_equal; [lia|]. rewrite <- seq_shift, !map_map. apply map_ext. intros; lia. }
    rewrite U. cbn [flat_map]. rewrite <- app_assoc. reflexivity.
Qed.

(* the column of the next strip *)
Definition next_strip (c : Z) : Z := if (c - 2 =? 7) || (c - 2 =? 6) then c - 2 - 1 else c - 2.
Lemma turn_up n c m j : 1 <= c < n -> 1 <= n -> 
  cells (S m) n c (-1) true j = cells (S m) n (next_strip c) 0 false j /\
  (cells_ok (S m) n (next_strip c) 0 false j -> cells_ok (S m) n c (-1) true j).
Proof.
  intros Hc Hn. cbn [cells cells_ok]. destruct (Z.leb_spec n (-1)); [lia|]. destruct (Z.leb_spec n 0); [lia|].
  cbn [orb Z.ltb Z.compare negb Z.add]. fold (next_strip c). cbn [Pos.add]. change (-1 + 1) with 0.
  split; [reflexivity|]. intros [G1 G2]. split; [lia|exact G2].
Qed.
Lemma turn_down n c m j : 1 <= c < n -> 1 <= n ->
  cells (S m) n c n false j = cells (S m) n (next_strip c) (n - 1) true j /\
  (cells_ok (S m) n (next_strip c) (n - 1) true j -> cells_ok (S m) n c n false j).
Proof.
  intros Hc Hn. cbn [cells cells_ok]. destruct (Z.leb_spec n n); [|lia]. destruct (Z.leb_spec n (n - 1)); [lia|].
  destruct (Z.ltb_spec (n - 1) 0); [lia|]. cbn [orb negb]. fold (next_strip c).
  split; [reflexivity|]. intros [G1 G2]. split; [lia|exact G2].
Qed.

Fixpoint chained (c : Z) (cs : list Z) : Prop :=
  match cs with [] => True | d :: r => d = next_strip c /\ chained d r end.

Lemma zigzag_cells v : valid_version v -> forall cs c (up : bool) j, 0 <= j ->
  chained c cs -> Forall (fun d => 1 <= d < side v) (c :: cs) ->
  let len := (length (c :: cs) * (2 * Z.to_nat (side v)))%nat in
  let y := if up then side v - 1 else 0 in
  cells len (side v) c y up (2 * j) = zigzag v (c :: cs) up /\ cells_ok len (side v) c y up (2 * j).
Proof.
  intros Hv. assert (Hn : 21 <= side v) by (unfold valid_version, side in *; lia). set (n := side v) in *.
  induction cs as [|d cs IH]; intros c up j Hj HC HF; inversion HF as [|? ? Hc HF']; subst; cbv zeta.
  - cbn [length]. replace (1 * (2 * Z.to_nat n))%nat with (2 * Z.to_nat n + 0)%nat by lia. cbn [zigzag]. rewrite app_nil_r. unfold strip_modules. fold n.
    destruct up.
    + destruct (strip_up n c 0 Hc (Z.to_nat n) j ltac:(lia) Hj) as [E O]. rewrite !Z2Nat.id in * by lia. rewrite E.
      split; [cbn [cells]; rewrite app_nil_r; reflexivity|apply O; exact I].
    + destruct (strip_down n c 0 Hc (Z.to_nat n) j ltac:(lia) Hj) as [E O]. rewrite !Z2Nat.id in * by lia.
      rewrite Z.sub_diag in *. rewrite E.
      split; [cbn [cells]; rewrite app_nil_r|apply O; exact I].
      rewrite (map_ext _ (fun k => k)) by (intros; lia). rewrite map_id. reflexivity.
  - destruct HC as [-> HC].
    set (m := (length (next_strip c :: cs) * (2 * Z.to_nat n))%nat).
    assert (LM : (length (c :: next_strip c :: cs) * (2 * Z.to_nat n) = 2 * Z.to_nat n + m)%nat) by (unfold m; cbn [length]; lia).
    rewrite LM. destruct m as [|m'] eqn:EM; [unfold m in EM; cbn [length] in EM; lia|]. rewrite <- EM in *.
    change (zigzag v (c :: next_strip c :: cs) up) with (strip_modules v c up ++ zigzag v (next_strip c :: cs) (negb up)).
    unfold strip_modules. fold n. destruct up; cbn [negb].
    + destruct (strip_up n c m Hc (Z.to_nat n) j ltac:(lia) Hj) as [E O]. rewrite !Z2Nat.id in * by lia. rewrite E.
      destruct (turn_up n c m' (2 * (j + n)) Hc ltac:(lia)) as [E3 O3]. rewrite <- EM in *.
      destruct (IH (next_strip c) false (j + n) ltac:(lia) HC HF') as [E2 O2]. cbv zeta in E2, O2. cbv iota in E2, O2.
      fold m in E2, O2. rewrite E3, E2. split; [reflexivity|apply O, O3, O2].
    + destruct (strip_down n c m Hc (Z.to_nat n) j ltac:(lia) Hj) as [E O]. rewrite !Z2Nat.id in * by lia.
      rewrite Z.sub_diag in *. rewrite E.
      destruct (turn_down n c m' (2 * (j + n)) Hc ltac:(lia)) as [E3 O3]. rewrite <- EM in *.
      destruct (IH (next_strip c) true (j + n) ltac:(lia) HC HF') as [E2 O2]. cbv zeta in E2, O2. cbv iota in E2, O2.
      fold m in E2, O2. rewrite E3, E2. split; [|apply O, O3, O2].
      rewrite (map_ext _ (fun k => k)) by (intros; lia). rewrite map_id. reflexivity.
Qed.

Lemma strips_shape v : valid_version v -> exists cs, strips v = (side v - 1) :: cs /\ chained (side v - 1) cs /\
  Forall (fun d => 1 <= d < side v) (strips v) /\ zlen (strips v) = 2 * v + 8.
Proof.
  intros Hv.
  assert (S : forallb (fun v => match strips v with
     | [] => false
     | c :: cs => (c =? side v - 1) && (fix ch c cs := match cs with [] => true | d :: r => (d =? next_strip c) && ch d r end) c cs
                  && forallb (fun d => (1 <=? d) && (d <? side v)) (c :: cs) && (zlen (c :: cs) =? 2 * v + 8)
     end) all_versions = true) by (vm_compute; reflexivity).
  pose proof (sweep _ S v Hv) as E. cbv beta in E. destruct (strips v) as [|c cs]; [discriminate|].
  rewrite !andb_true_iff in E. destruct E as (((E1 & E2) & E3) & E4). apply Z.eqb_eq in E1, E4. subst c.
  exists cs. split; [reflexivity|]. split; [|split; [|exact E4]].
  - revert E2. clear. generalize (side v - 1). induction cs as [|d cs IH]; intros c E; cbn [chained]; auto.
    apply andb_true_iff in E as [E1 E2]. apply Z.eqb_eq in E1. split; auto.
  - apply Forall_forall. intros d Hd. rewrite forallb_forall in E3. specialize (E3 d Hd). rewrite andb_true_iff, Z.leb_le, Z.ltb_lt in E3. exact E3.
Qed.

Lemma route_walk v : valid_version v ->
  walk (Z.to_nat (side v * side v + side v)) (fun x y => is_data (region_of v x y)) (side v)
       (side v - 1) (side v - 1) true 0 (length (data_path v)) = Some (data_path v).
Proof.
  intros Hv. destruct (strips_shape v Hv) as (cs & ES & HC & HF & HZ). rewrite ES in *.
  destruct (zigzag_cells v Hv cs (side v - 1) true 0 ltac:(lia) HC HF) as [E O]. cbv zeta in E, O. cbv iota in E, O.
  change (2 * 0) with 0 in *. rewrite <- ES in E.
  assert (EP : data_path v = filter (fun q => is_data (region_of v (fst q) (snd q))) (zigzag v (strips v) true)).
  { unfold data_path. apply filter_ext. intros [x y]. reflexivity. }
  rewrite EP, <- E. apply walk_cells; [|rewrite ES; exact O].
  assert (LL : length (side v - 1 :: cs) = Z.to_nat (2 * v + 8)) by (unfold zlen in HZ; lia). rewrite ?ES, LL.
  assert (Hn : side v = 4 * v + 17) by reflexivity. unfold valid_version in Hv. apply Nat2Z.inj_le.
  rewrite !Nat2Z.inj_mul, !Z2Nat.id by nia. nia.
Qed.
