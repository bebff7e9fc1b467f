(* The finished candidate matrix for a mask, described by the specification. *)
From Coq Require Import Permutation.
From Verif Require Import ModelMatrix ModelBinary ModelLayout ModelVersion ModelMask SpecIso SpecReader.
From Verif Require Import ProofMatrix ProofWalk ProofSweep ProofLayout SpecTypes ProofTypes.

(* numbering of the exported level constants *)
Definition ec_const (l : level) : Z :=
  match l with
  | L => ErrorCorrectionLow | M => ErrorCorrectionMedium | Q => ErrorCorrectionQuart | H => ErrorCorrectionHighest
  end.

Definition at_ (m : Matrix) (p : Z * Z) : bool := qrbool (rawget m (fst p) (snd p)).

(* what a symbol of version v, level l, mask k carrying `stream` looks like *)
Record symbol (v : Z) (l : level) (k : Z) (stream : list bool) (m : Matrix) : Prop := {
  sy_wf : wf m;
  sy_w : mwidth m = side v;
  sy_h : mheight m = side v;
  sy_fixed : forall x y c, 0 <= x < side v -> 0 <= y < side v ->
      fixed_colour (region_of v x y) = Some c -> at_ m (x, y) = c;
  sy_fmt1 : map (at_ m) format_positions_1 = to_bits (format_word l k) 15;
  sy_fmt2 : map (at_ m) (format_positions_2 v) = to_bits (format_word l k) 15;
  sy_ver : 7 <= v -> forall j, 0 <= j < 18 ->
      at_ m (version_position_1 v j) = Z.testbit (version_word v) j /\
      at_ m (version_position_2 v j) = Z.testbit (version_word v) j;
  sy_data : map (at_ m) (data_path v) =
      map (fun '(p, b) => xorb b (mask_condition k (snd p) (fst p))) (combine (data_path v) stream);
  sy_type : forall x y, 0 <= x < side v -> 0 <= y < side v -> qrtype (rawget m x y) = type_of_region (region_of v x y) x y
}.

(* ---- format and version words ---- *)
Fixpoint eqbl (a b : list bool) : bool :=
  match a, b with
  | [], [] => true
  | x :: a', y :: b' => Bool.eqb x y && eqbl a' b'
  | _, _ => false
  end.
Lemma eqbl_spec a : forall b, eqbl a b = true -> a = b.
Proof.
  induction a as [|x a IH]; intros [|y b]; simpl; try discriminate; auto.
  rewrite andb_true_iff. intros [E H]. apply eqb_prop in E. subst. f_equal; auto.
Qed.

Lemma format_sweep : forallb (fun l => forallb (fun k =>
   match v_formatInfo (mkVersion 1 (ec_const l) (mkCap 0 0 0 0) 0 []) k with
   | Some b => eqbl b (to_bits (format_word l k) 15)
   | None => false
   end) (upto 8)) [L; M; Q; H] = true.
Proof. vm_compute. reflexivity. Qed.

Lemma formatInfo_facts v l k : ECLevel v = ec_const l -> 0 <= k < 8 ->
  v_formatInfo v k = Some (to_bits (format_word l k) 15).
Proof.
  intros E Hk. pose proof format_sweep as HS. rewrite forallb_forall in HS.
  specialize (HS l). cbv beta in HS.
  assert (HI : In l [L; M; Q; H]) by (destruct l; simpl; auto). specialize (HS HI).
  pose proof (forallb_upto _ _ HS k Hk) as HK. cbv beta in HK.
  assert (G : v_formatInfo v k = v_formatInfo (mkVersion 1 (ec_const l) (mkCap 0 0 0 0) 0 []) k).
  { unfold v_formatInfo. rewrite E. reflexivity. }
  rewrite G. destruct (v_formatInfo _ k); [|discriminate]. f_equal. apply eqbl_spec, HK.
Qed.

Lemma version_sweep : forallb (fun v => if 7 <=? v then
   match v_verInfo (mkVersion v 1 (mkCap 0 0 0 0) 0 []) with
   | Some b => eqbl b (to_bits (version_word v) 18)
   | None => false
   end else true) all_versions = true.
Proof. vm_compute. reflexivity. Qed.

Lemma verInfo_facts v : valid_version (Ver v) -> 7 <= Ver v -> v_verInfo v = Some (to_bits (version_word (Ver v)) 18).
Proof.
  intros Hv H7. pose proof (sweep _ version_sweep _ Hv) as HK. cbv beta in HK.
  rewrite (proj2 (Z.leb_le 7 _) H7) in HK.
  assert (G : v_verInfo v = v_verInfo (mkVersion (Ver v) 1 (mkCap 0 0 0 0) 0 [])) by reflexivity.
  rewrite G. destruct (v_verInfo _); [|discriminate]. f_equal. apply eqbl_spec, HK.
Qed.

(* ---- writing the format bits ---- *)
Lemma to_bits_length x n : length (to_bits x n) = Z.to_nat n.
Proof. unfold to_bits. rewrite map_length. apply upto_length. Qed.

Lemma list15 {A} (l : list A) : length l = 15%nat ->
  exists a b c d e f g h i j k m n o p, l = [a;b;c;d;e;f;g;h;i;j;k;m;n;o;p].
Proof.
  intros Hl. do 15 (destruct l as [|? l]; [discriminate|]). destruct l; [|discriminate].
  repeat eexists.
Qed.

(* the two coordinate lists written for the 15 bits *)
Lemma fmt_path_eq v : valid_version v ->
  map (fun q => (fst q, 8)) (fmt_path 15 (side v) 0 (side v - 1)) = map fst (fmt_pairs v) /\
  map (fun q => (8, snd q)) (fmt_path 15 (side v) 0 (side v - 1)) = map snd (fmt_pairs v).
Proof.
  intros Hv. pose proof (sweep _ fmt_path_sweep v Hv) as HS. cbv beta zeta in HS.
  apply andb_true_iff in HS as [A B]. split; apply eqpl_spec; auto.
Qed.

Definition fmt_writes' (v : Z) (bits : list bool) : list ((Z * Z) * Z) :=
  flat_map (fun '((p, q), b) => [(p, fmtval b); (q, fmtval b)]) (combine (fmt_pairs v) bits).

Lemma fmt_writes_eq v bits : valid_version v ->
  fmt_writes (fmt_path 15 (side v) 0 (side v - 1)) bits = fmt_writes' v bits.
Proof.
  intros Hv. destruct (fmt_path_eq v Hv) as [A B]. unfold fmt_writes, fmt_writes'.
  revert A B. generalize (fmt_path 15 (side v) 0 (side v - 1)) (fmt_pairs v). clear.
  intros l. revert bits. induction l as [|[x y] l IH]; intros bits [|[p q] l'] A B; simpl in *; try discriminate; auto.
  destruct bits as [|b bits]; simpl; auto.
  injection A as A1 A2. injection B as B1 B2. subst. rewrite (IH bits l'); auto.
Qed.

Lemma qrbool_fmtval b : qrbool (fmtval b) = b. Proof. destruct b; reflexivity. Qed.
Lemma qrbool_verval b : qrbool (verval b) = b. Proof. destruct b; reflexivity. Qed.

Lemma in_fmt_writes v bits i p q b :
  nth_error (fmt_pairs v) i = Some (p, q) -> nth_error bits i = Some b ->
  In (p, fmtval b) (fmt_writes' v bits) /\ In (q, fmtval b) (fmt_writes' v bits).
Proof.
  intros A B. unfold fmt_writes'.
  assert (I : In ((p, q), b) (combine (fmt_pairs v) bits)).
  { revert A B. generalize (fmt_pairs v). intros l. clear. revert bits i.
    induction l as [|x l IH]; intros [|c bits] [|i]; simpl; try discriminate.
    - intros [= ->] [= ->]. auto.
    - intros. right. eapply IH; eauto. }
  split; apply in_flat_map; exists ((p, q), b); split; simpl; auto.
Qed.

Lemma fmt_writes_fst v bits : length bits = 15%nat ->
  Permutation (map fst (fmt_writes' v bits)) (format_positions_1 ++ format_positions_2 v).
Proof.
  intros Hl. destruct (list15 bits Hl) as (b1&b2&b3&b4&b5&b6&b7&b8&b9&b10&b11&b12&b13&b14&b15&->).
  assert (E : map fst (fmt_writes' v [b1;b2;b3;b4;b5;b6;b7;b8;b9;b10;b11;b12;b13;b14;b15])
     = flat_map (fun p => [fst p; snd p]) (fmt_pairs v)) by reflexivity.
  rewrite E.
  assert (P : forall l : list ((Z*Z)*(Z*Z)), Permutation (flat_map (fun p => [fst p; snd p]) l) (map fst l ++ map snd l)).
  { induction l as [|[p q] l IH]; simpl; [constructor|]. constructor.
    rewrite IH. apply Permutation_middle. }
  rewrite P. unfold fmt_pairs.
  replace (map fst _) with (firstn 7 format_positions_1 ++ skipn 7 (format_positions_2 v)) by reflexivity.
  replace (map snd _) with (firstn 7 (format_positions_2 v) ++ skipn 7 format_positions_1) by reflexivity.
  rewrite <- !app_assoc.
  transitivity (firstn 7 format_positions_1 ++ skipn 7 format_positions_1 ++ firstn 7 (format_positions_2 v) ++ skipn 7 (format_positions_2 v)).
  - apply Permutation_app_head.
    rewrite (app_assoc (skipn 7 (format_positions_2 v))).
    rewrite Permutation_app_comm. apply Permutation_app_head.
    apply Permutation_app_comm.
  - rewrite !app_assoc, firstn_skipn, <- app_assoc, firstn_skipn. reflexivity.
Qed.

Lemma fillFormat_facts v m bits : valid_version v -> wf m -> mwidth m = side v -> mheight m = side v ->
  length bits = 15%nat ->
  let m' := fillFormatInfo m (side v) bits in
  wf m' /\ mwidth m' = side v /\ mheight m' = side v /\
  map (at_ m') format_positions_1 = bits /\ map (at_ m') (format_positions_2 v) = bits /\
  (forall x y, region_of v x y <> FormatArea -> rawget m' x y = rawget m x y).
Proof.
  intros Hv Hwf HW HH Hl m'.
  destruct (fmt_positions_facts v Hv) as [Hnd Hpos].
  assert (E : m' = apply_writes m (fmt_writes' v bits)).
  { unfold m'. rewrite fillFormat_writes by auto. rewrite fmt_writes_eq by auto. reflexivity. }
  destruct (apply_writes_dims (fmt_writes' v bits) m Hwf) as (A & B & C).
  rewrite E. split; [auto|]. split; [congruence|]. split; [congruence|].
  pose proof (fmt_writes_fst v bits Hl) as HP.
  assert (Hnd' : NoDup (map fst (fmt_writes' v bits))).
  { eapply Permutation_NoDup; [symmetry; exact HP|auto]. }
  assert (G : forall i p q b, nth_error (fmt_pairs v) i = Some (p, q) -> nth_error bits i = Some b ->
     at_ (apply_writes m (fmt_writes' v bits)) p = b /\ at_ (apply_writes m (fmt_writes' v bits)) q = b).
  { intros i p q b Hi Hb. destruct (in_fmt_writes v bits i p q b Hi Hb) as [I1 I2].
    assert (R : forall c d, In (c, d) (fmt_writes' v bits) -> in_range m (fst c) (snd c)).
    { intros c d I. apply (in_map fst) in I. apply (Permutation_in _ HP) in I. simpl in I.
      apply Hpos in I. unfold in_range. rewrite HW, HH. tauto. }
    unfold at_. rewrite <- (qrbool_fmtval b). split; f_equal; apply apply_writes_in; auto.
    - eapply R; eauto.
    - destruct p; auto.
    - eapply R; eauto.
    - destruct q; auto. }
  split; [|split].
  - destruct (list15 bits Hl) as (b1&b2&b3&b4&b5&b6&b7&b8&b9&b10&b11&b12&b13&b14&b15&EB).
    rewrite EB in G. rewrite EB. clear -G. cbn [map format_positions_1].
    pose proof (G 0%nat _ _ _ eq_refl eq_refl) as [A0 B0].
    pose proof (G 1%nat _ _ _ eq_refl eq_refl) as [A1 B1].
    pose proof (G 2%nat _ _ _ eq_refl eq_refl) as [A2 B2].
    pose proof (G 3%nat _ _ _ eq_refl eq_refl) as [A3 B3].
    pose proof (G 4%nat _ _ _ eq_refl eq_refl) as [A4 B4].
    pose proof (G 5%nat _ _ _ eq_refl eq_refl) as [A5 B5].
    pose proof (G 6%nat _ _ _ eq_refl eq_refl) as [A6 B6].
    pose proof (G 7%nat _ _ _ eq_refl eq_refl) as [A7 B7].
    pose proof (G 8%nat _ _ _ eq_refl eq_refl) as [A8 B8].
    pose proof (G 9%nat _ _ _ eq_refl eq_refl) as [A9 B9].
    pose proof (G 10%nat _ _ _ eq_refl eq_refl) as [A10 B10].
    pose proof (G 11%nat _ _ _ eq_refl eq_refl) as [A11 B11].
    pose proof (G 12%nat _ _ _ eq_refl eq_refl) as [A12 B12].
    pose proof (G 13%nat _ _ _ eq_refl eq_refl) as [A13 B13].
    pose proof (G 14%nat _ _ _ eq_refl eq_refl) as [A14 B14].
    clear G. cbv [Nat.add] in *. repeat (apply f_equal2; [assumption|]). reflexivity.
  - destruct (list15 bits Hl) as (b1&b2&b3&b4&b5&b6&b7&b8&b9&b10&b11&b12&b13&b14&b15&EB).
    rewrite EB in G. rewrite EB. clear -G. unfold format_positions_2. cbn [map].
    pose proof (G 0%nat _ _ _ eq_refl eq_refl) as [A0 B0].
    pose proof (G 1%nat _ _ _ eq_refl eq_refl) as [A1 B1].
    pose proof (G 2%nat _ _ _ eq_refl eq_refl) as [A2 B2].
    pose proof (G 3%nat _ _ _ eq_refl eq_refl) as [A3 B3].
    pose proof (G 4%nat _ _ _ eq_refl eq_refl) as [A4 B4].
    pose proof (G 5%nat _ _ _ eq_refl eq_refl) as [A5 B5].
    pose proof (G 6%nat _ _ _ eq_refl eq_refl) as [A6 B6].
    pose proof (G 7%nat _ _ _ eq_refl eq_refl) as [A7 B7].
    pose proof (G 8%nat _ _ _ eq_refl eq_refl) as [A8 B8].
    pose proof (G 9%nat _ _ _ eq_refl eq_refl) as [A9 B9].
    pose proof (G 10%nat _ _ _ eq_refl eq_refl) as [A10 B10].
    pose proof (G 11%nat _ _ _ eq_refl eq_refl) as [A11 B11].
    pose proof (G 12%nat _ _ _ eq_refl eq_refl) as [A12 B12].
    pose proof (G 13%nat _ _ _ eq_refl eq_refl) as [A13 B13].
    pose proof (G 14%nat _ _ _ eq_refl eq_refl) as [A14 B14].
    clear G. cbv [Nat.add] in *. repeat (apply f_equal2; [assumption|]). reflexivity.
  - intros x y N. apply apply_writes_other; auto. intros I.
    apply (Permutation_in _ HP) in I. apply Hpos in I. apply N, I.
Qed.

(* ---- writing the version bits ---- *)
Definition ver_writes (n : Z) (js : list (Z * Z)) (bin : list bool) : list ((Z * Z) * Z) :=
  flat_map (fun '((j, i), b) => [((n - 8 - i, j), verval b); ((j, n - 8 - i), verval b)]) (combine js bin).

Lemma fillVersion_writes m n bin :
  fillVersionInfo m n bin =
  apply_writes m (ver_writes n (flat_map (fun j => map (fun i => (j, i)) [1; 2; 3]) [5; 4; 3; 2; 1; 0]) bin).
Proof.
  unfold fillVersionInfo. generalize (flat_map (fun j => map (fun i => (j, i)) [1; 2; 3]) [5; 4; 3; 2; 1; 0]).
  intros js. revert m bin. induction js as [|[j i] js IH]; intros m bin; [reflexivity|].
  destruct bin as [|b bin].
  - simpl. clear. induction js as [|[j' i'] js IH]; simpl; auto.
  - simpl. rewrite IH. reflexivity.
Qed.

Lemma ver_writes_eq v w :
  ver_writes (side v) (flat_map (fun j => map (fun i => (j, i)) [1; 2; 3]) [5; 4; 3; 2; 1; 0]) (to_bits w 18)
  = flat_map (fun k => [(version_position_1 v k, verval (Z.testbit w k)); (version_position_2 v k, verval (Z.testbit w k))])
             (rev (upto 18)).
Proof.
  unfold ver_writes, to_bits, version_position_1, version_position_2.
  replace (upto 18) with [0;1;2;3;4;5;6;7;8;9;10;11;12;13;14;15;16;17] by reflexivity.
  generalize (side v). intros n. cbn [flat_map map combine rev app].
  repeat match goal with |- context [?a mod 3] => let r := eval vm_compute in (a mod 3) in change (a mod 3) with r end.
  repeat match goal with |- context [?a / 3] => let r := eval vm_compute in (a / 3) in change (a / 3) with r end.
  repeat match goal with |- context [18 - 1 - ?a] => let r := eval vm_compute in (18 - 1 - a) in change (18 - 1 - a) with r end.
  replace (n - 11 + 2) with (n - 8 - 1) by lia. replace (n - 11 + 1) with (n - 8 - 2) by lia.
  replace (n - 11 + 0) with (n - 8 - 3) by lia. reflexivity.
Qed.

Lemma fillVersion_facts v m w : valid_version v -> 7 <= v -> wf m -> mwidth m = side v -> mheight m = side v ->
  let m' := fillVersionInfo m (side v) (to_bits w 18) in
  wf m' /\ mwidth m' = side v /\ mheight m' = side v /\
  (forall k, 0 <= k < 18 -> at_ m' (version_position_1 v k) = Z.testbit w k /\
                            at_ m' (version_position_2 v k) = Z.testbit w k) /\
  (forall x y, region_of v x y <> VersionArea -> rawget m' x y = rawget m x y).
Proof.
  intros Hv H7 Hwf HW HH m'.
  destruct (ver_positions_facts v Hv H7) as [Hnd Hpos].
  set (ws := flat_map (fun k => [(version_position_1 v k, verval (Z.testbit w k)); (version_position_2 v k, verval (Z.testbit w k))])
             (rev (upto 18))).
  assert (E : m' = apply_writes m ws).
  { unfold m'. rewrite fillVersion_writes, ver_writes_eq. reflexivity. }
  destruct (apply_writes_dims ws m Hwf) as (A & B & C).
  rewrite E. split; [auto|]. split; [congruence|]. split; [congruence|].
  assert (HP : Permutation (map fst ws) (version_positions v)).
  { unfold ws, version_positions.
    transitivity (flat_map (fun k => [version_position_1 v k; version_position_2 v k]) (rev (upto 18))).
    - generalize (rev (upto 18)). induction l as [|k l IH]; simpl; [constructor|]. do 2 constructor. auto.
    - apply Permutation_flat_map. symmetry. apply Permutation_rev. }
  assert (Hnd' : NoDup (map fst ws)) by (eapply Permutation_NoDup; [symmetry; exact HP|auto]).
  assert (R : forall c d, In (c, d) ws -> in_range m (fst c) (snd c)).
  { intros c d I. apply (in_map fst) in I. apply (Permutation_in _ HP) in I. simpl in I.
    apply Hpos in I. unfold in_range. rewrite HW, HH. tauto. }
  split.
  - intros k Hk. unfold at_. rewrite <- (qrbool_verval (Z.testbit w k)).
    assert (I1 : In (version_position_1 v k, verval (Z.testbit w k)) ws).
    { apply in_flat_map. exists k. split; [rewrite <- in_rev; apply in_upto; auto|simpl; auto]. }
    assert (I2 : In (version_position_2 v k, verval (Z.testbit w k)) ws).
    { apply in_flat_map. exists k. split; [rewrite <- in_rev; apply in_upto; auto|simpl; auto]. }
    split; f_equal; apply apply_writes_in; auto; try (eapply R; eauto).
  - intros x y N. apply apply_writes_other; auto. intros I.
    apply (Permutation_in _ HP) in I. apply Hpos in I. apply N, I.
Qed.

(* ---- types of the modules ---- *)
Lemma fillFormat_type v m bits x y : valid_version v -> wf m -> length bits = 15%nat ->
  rawget (fillFormatInfo m (side v) bits) x y = rawget m x y \/ qrtype (rawget (fillFormatInfo m (side v) bits) x y) = QRType_FORMAT.
Proof.
  intros Hv Hwf Hl. rewrite fillFormat_writes, fmt_writes_eq by auto. destruct (apply_writes_cases (fmt_writes' v bits) m x y Hwf) as [E|(c & I & E)]; [auto|].
  right. rewrite E. unfold fmt_writes' in I. apply in_flat_map in I as ([[p q] b] & _ & I). cbn in I. destruct I as [I|[I|[]]]; apply (f_equal snd) in I; cbn [snd] in I; subst c; destruct b; reflexivity.
Qed.
Lemma fillVersion_type v m w x y : wf m ->
  rawget (fillVersionInfo m (side v) (to_bits w 18)) x y = rawget m x y \/ qrtype (rawget (fillVersionInfo m (side v) (to_bits w 18)) x y) = QRType_VERSION.
Proof.
  intros Hwf. rewrite fillVersion_writes, ver_writes_eq. match goal with |- context [apply_writes m ?ws] => destruct (apply_writes_cases ws m x y Hwf) as [E|(c & I & E)] end; [auto|].
  right. rewrite E. apply in_flat_map in I as (k & _ & I). destruct I as [I|[I|[]]]; apply (f_equal snd) in I; cbn [snd] in I; subst c; destruct (Z.testbit w k); reflexivity.
Qed.

(* ---- the candidate ---- *)
Definition finish (v : version) (m : Matrix) : Matrix :=
  if 7 <=? Ver v then fillVersionInfo m (side (Ver v)) (to_bits (version_word (Ver v)) 18) else m.

Lemma candidate_symbol v l k mat cpy mk stream :
  valid_version (Ver v) -> 0 <= k < 8 ->
  prefillMatrix (Ver v) (newMatrix (side (Ver v)) (side (Ver v))) = Some mat ->
  length stream = length (data_path (Ver v)) ->
  fillDataBinary mat (side (Ver v)) stream = Some cpy ->
  newMask mat k = Some mk ->
  symbol (Ver v) l k stream
    (finish v (fillFormatInfo (xorMask cpy mk) (side (Ver v)) (to_bits (format_word l k) 15))).
Proof.
  intros Hv Hk Hpre Hlen Hfill Hmask.
  destruct (prefill_facts (Ver v) Hv) as (mat' & E & Hwf & HW & HH & Hcell).
  rewrite Hpre in E. injection E as <-.
  destruct (fill_facts (Ver v) mat stream Hv Hwf HW HH Hcell Hlen) as (cpy' & E & Cwf & CW & CH & Cdata & Cother).
  rewrite Hfill in E. injection E as <-.
  destruct (getModuloFunc_some k Hk) as (fn & Efn).
  destruct (newMask_facts mat k fn Hwf Efn) as (mk' & E & Mwf & MW & MH & Mg).
  rewrite Hmask in E. injection E as <-.
  assert (Hmk1 : mwidth mk = mwidth cpy) by congruence.
  assert (Hmk2 : mheight mk = mheight cpy) by congruence.
  destruct (xorMask_facts cpy mk Cwf Mwf Hmk1 Hmk2) as (Xwf & XW & XH & Xg).
  rewrite CW in XW. rewrite CH in XH.
  set (fm := fillFormatInfo (xorMask cpy mk) (side (Ver v)) (to_bits (format_word l k) 15)).
  destruct (fillFormat_facts (Ver v) (xorMask cpy mk) (to_bits (format_word l k) 15) Hv Xwf XW XH)
    as (Fwf & FW & FH & F1 & F2 & Fo); [apply to_bits_length|].
  fold fm in Fwf, FW, FH, F1, F2, Fo.
  set (n := side (Ver v)) in *.
  (* cells of the masked matrix *)
  assert (Hdata : forall p b, In (p, b) (combine (data_path (Ver v)) stream) ->
            at_ (xorMask cpy mk) p = xorb b (mask_condition k (snd p) (fst p))).
  { intros [x y] b I. pose proof (in_combine_l _ _ _ _ I) as Ip.
    assert (Hr : in_range mat x y).
    { unfold in_range. rewrite HW, HH. apply in_data_path_range; auto. }
    assert (Hc : rawget cpy x y = dataval b).
    { apply In_nth_error in I as [i Hi].
      assert (nth_error (data_path (Ver v)) i = Some (x, y) /\ nth_error stream i = Some b) as [A B].
      { revert Hi. generalize (data_path (Ver v)), stream. clear. induction i as [|i IH]; intros [|p ps] [|c cs]; simpl; try discriminate.
        - intros [= -> ->]. auto.
        - apply IH. }
      pose proof (map_nth_error (fun p => rawget cpy (fst p) (snd p)) _ _ A) as A'. rewrite Cdata in A'.
      rewrite (map_nth_error dataval _ _ B) in A'. simpl in A'. congruence. }
    unfold at_. simpl. rewrite Xg by (unfold in_range; rewrite CW, CH, <- HW at 1; rewrite <- HH; exact Hr).
    rewrite Mg by auto.
    specialize (Hcell x y Hr). rewrite (in_data_path_region _ _ _ Ip) in Hcell. simpl in Hcell.
    apply Z.eqb_eq in Hcell. rewrite Hcell. change (is_init QRValue_INIT_V0) with true. cbv iota.
    rewrite dataval_not_init, Hc, qrxor_dataval, qrbool_dataval.
    destruct (modulo_spec k x y Hk) as (fn' & E' & Hfn); try (destruct Hr; lia).
    rewrite Efn in E'. injection E' as <-. rewrite Hfn. reflexivity. }
  assert (Hother : forall x y, 0 <= x < n -> 0 <= y < n -> is_data (region_of (Ver v) x y) = false ->
            rawget (xorMask cpy mk) x y = rawget mat x y).
  { intros x y Hx Hy Hd.
    assert (Hr : in_range mat x y) by (unfold in_range; rewrite HW, HH; auto).
    rewrite Xg by (unfold in_range; rewrite CW, CH; auto).
    rewrite Mg by auto. specialize (Hcell x y Hr). unfold cell_ok in Hcell. rewrite Hd in Hcell.
    apply andb_true_iff in Hcell as [Hi _]. apply negb_true_iff in Hi. rewrite Hi. simpl. apply Cother; auto. }
  assert (Hfixed : forall x y c, 0 <= x < n -> 0 <= y < n -> fixed_colour (region_of (Ver v) x y) = Some c ->
            at_ (xorMask cpy mk) (x, y) = c).
  { intros x y c Hx Hy Hc. unfold at_. simpl.
    assert (Hd : is_data (region_of (Ver v) x y) = false) by (destruct (region_of (Ver v) x y); simpl in Hc |- *; congruence).
    rewrite Hother by auto.
    assert (Hr : in_range mat x y) by (unfold in_range; rewrite HW, HH; auto).
    specialize (Hcell x y Hr). unfold cell_ok in Hcell. rewrite Hd, Hc in Hcell.
    apply andb_true_iff in Hcell as [_ Hb]. apply eqb_prop in Hb. auto. }
  assert (Hdl : forall m', (forall x y, region_of (Ver v) x y = DataArea -> rawget m' x y = rawget (xorMask cpy mk) x y) ->
     map (at_ m') (data_path (Ver v)) =
      map (fun '(p, b) => xorb b (mask_condition k (snd p) (fst p))) (combine (data_path (Ver v)) stream)).
  { intros m' Hm'.
    transitivity (map (fun q : (Z*Z)*bool => at_ m' (fst q)) (combine (data_path (Ver v)) stream)).
    - rewrite <- (map_map fst (at_ m')). rewrite combine_fst; auto.
    - apply map_ext_in. intros [[x y] b] I. pose proof (Hdata (x, y) b I) as HD. simpl in HD |- *. rewrite <- HD. unfold at_. simpl.
      f_equal. apply Hm'. apply in_data_path_region. eapply in_combine_l; eauto. }
  assert (Htype : forall x y, 0 <= x < n -> 0 <= y < n -> qrtype (rawget (xorMask cpy mk) x y) = type_of_region (region_of (Ver v) x y) x y).
  { intros x y Hx Hy. pose proof (prefill_types (Ver v) mat Hv Hpre x y Hx Hy) as PT. unfold pre_type in PT.
    destruct (is_data (region_of (Ver v) x y)) eqn:Hd; [|rewrite Hother by auto; exact PT].
    assert (Hr : in_range mat x y) by (unfold in_range; rewrite HW, HH; auto).
    rewrite Xg by (unfold in_range; rewrite CW, CH; auto). rewrite Mg by auto. unfold is_init at 2. rewrite PT, Z.eqb_refl, dataval_not_init.
    destruct (region_of (Ver v) x y); try discriminate Hd. unfold qrxor. destruct (_ =? _); reflexivity. }
  assert (Ftype : forall x y, 0 <= x < n -> 0 <= y < n -> qrtype (rawget fm x y) = type_of_region (region_of (Ver v) x y) x y).
  { intros x y Hx Hy. rewrite <- Htype by auto.
    destruct (fillFormat_type (Ver v) (xorMask cpy mk) (to_bits (format_word l k) 15) x y Hv Xwf (to_bits_length _ _)) as [E|E]; fold n fm in E; [rewrite E; reflexivity|].
    assert (D : {region_of (Ver v) x y = FormatArea} + {region_of (Ver v) x y <> FormatArea}) by (clear; destruct (region_of (Ver v) x y); (left; reflexivity) || (right; intros X; discriminate X)).
    destruct D as [ER|ER]; [|rewrite (Fo x y ER); reflexivity]. rewrite E, Htype, ER by auto. reflexivity. }
  unfold finish. destruct (Z.leb_spec 7 (Ver v)) as [H7|H7].
  - destruct (fillVersion_facts (Ver v) fm (version_word (Ver v)) Hv H7 Fwf FW FH) as (Vwf & VW & VH & Vv & Vo).
    fold n in Vwf, VW, VH, Vv, Vo.
    assert (Hfp : forall p, In p (format_positions_1 ++ format_positions_2 (Ver v)) ->
       at_ (fillVersionInfo fm n (to_bits (version_word (Ver v)) 18)) p = at_ fm p).
    { intros p Hp. unfold at_. f_equal. apply Vo. apply (proj2 (fmt_positions_facts (Ver v) Hv)) in Hp.
      destruct Hp as (_ & _ & ->). discriminate. }
    constructor; auto.
    + intros x y c Hx Hy Hc. rewrite <- (Hfixed x y c Hx Hy Hc). unfold at_. simpl. f_equal.
      rewrite Vo, Fo; [reflexivity| |]; intros E; rewrite E in Hc; discriminate.
    + rewrite <- F1. apply map_ext_in. intros p Hp. apply Hfp, in_or_app; auto.
    + rewrite <- F2. apply map_ext_in. intros p Hp. apply Hfp, in_or_app; auto.
    + apply Hdl. intros x y Hr. rewrite Vo, Fo; [reflexivity| |]; rewrite Hr; discriminate.
    + intros x y Hx Hy. rewrite <- Ftype by auto.
      destruct (fillVersion_type (Ver v) fm (version_word (Ver v)) x y Fwf) as [E|E]; fold n in E; fold n; [rewrite E; reflexivity|].
      assert (D : {region_of (Ver v) x y = VersionArea} + {region_of (Ver v) x y <> VersionArea}) by (clear; destruct (region_of (Ver v) x y); (left; reflexivity) || (right; intros X; discriminate X)).
      destruct D as [ER|ER]; [|rewrite (Vo x y ER); reflexivity]. rewrite E, Ftype, ER by auto. reflexivity.
  - constructor; auto.
    + intros x y c Hx Hy Hc. rewrite <- (Hfixed x y c Hx Hy Hc). unfold at_. simpl. f_equal.
      apply Fo. intros E; rewrite E in Hc; discriminate.
    + intros; lia.
    + apply Hdl. intros x y Hr. apply Fo. rewrite Hr; discriminate.
Qed.
