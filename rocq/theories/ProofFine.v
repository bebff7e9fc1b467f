(* Proofs for C76: the mask search with single reads and writes refines the one of ModelQRCode.v. *)
From Coq Require Import Lia.
From Verif Require Import ModelBase ModelBinary ModelMatrix ModelVersion ModelEncoder ModelMask ModelEval ModelLayout ModelHeap ModelQRCode ModelFine.
From Verif Require Import SpecMatrix SpecFine SpecShare ProofBase ProofMatrix ProofHeap.

(* ---- matrices in memory ---- *)
Definition nw (hm : HMatrix) : nat := Z.to_nat (h_width hm).
Definition first (hm : HMatrix) : nat := (h_mat hm - nw hm)%nat.
Record holds (h : heap) (hm : HMatrix) (c : Matrix) : Prop := {
  ho_wf : wf c;
  ho_w : h_width hm = mwidth c;
  ho_h : h_height hm = mheight c;
  ho_le : (nw hm <= h_mat hm)%nat;
  ho_cols : nth_error h (h_mat hm) = Some (Columns (seq (first hm) (nw hm)));
  ho_val : forall x col, zget (mmat c) x = Some col -> nth_error h (first hm + Z.to_nat x) = Some (Values col)
}.
Definition apart (a b : HMatrix) : Prop := (h_mat a < first b)%nat \/ (h_mat b < first a)%nat.

Lemma wf_length c : wf c -> length (mmat c) = Z.to_nat (mwidth c).
Proof. intros (_ & _ & A & _). unfold zlen in *. lia. Qed.
Lemma seq_get b n x : 0 <= x < Z.of_nat n -> zget (seq b n) x = Some (b + Z.to_nat x)%nat.
Proof.
  intros R. unfold zget. destruct (Z.ltb_spec x 0); [lia|]. rewrite (nth_error_nth' _ 0%nat) by (rewrite seq_length; lia). rewrite seq_nth by lia. reflexivity.
Qed.
Lemma column_holds h hm c x : holds h hm c -> 0 <= x < mwidth c -> h_column h hm x = Some (first hm + Z.to_nat x)%nat.
Proof. intros S R. unfold h_column. rewrite (ho_cols _ _ _ S). apply seq_get. unfold nw. rewrite (ho_w _ _ _ S). lia. Qed.
Lemma at_holds h hm c x y : holds h hm c -> at_cell h hm x y = fst (m_at c x y).
Proof.
  intros S. unfold at_cell, m_at. rewrite (ho_w _ _ _ S), (ho_h _ _ _ S).
  destruct (Z.leb_spec (mwidth c) x), (Z.ltb_spec x 0); cbn [orb fst]; try reflexivity.
  destruct (Z.leb_spec (mheight c) y), (Z.ltb_spec y 0); cbn [orb fst]; try reflexivity.
  unfold rd_cell, rawget. rewrite (column_holds h hm c x S) by lia.
  destruct (wf_col c x (ho_wf _ _ _ S) ltac:(lia)) as (col & EC & LC). rewrite EC. unfold h_values. rewrite (ho_val _ _ _ S x col EC). reflexivity.
Qed.
Lemma zget_upd {A} (l : list A) x a z : 0 <= x < zlen l -> zget (zupd l x a) z = if z =? x then Some a else zget l z.
Proof.
  intros R. unfold zlen in R. destruct (Z.eqb_spec z x) as [->|NE].
  - apply zget_zupd_same. unfold zlen. lia.
  - rewrite zget_zupd by (unfold zlen; lia). destruct (Z.eqb_spec x z); [lia|reflexivity].
Qed.
Lemma set_in h hm c x y v : holds h hm c -> 0 <= x < mwidth c -> 0 <= y < mheight c -> exists col, zget (mmat c) x = Some col /\
  set_cell h hm x y v = upd_nat h (first hm + Z.to_nat x) (Values (zupd col y v)).
Proof.
  intros S RX RY. destruct (wf_col c x (ho_wf _ _ _ S) RX) as (col & EC & LC). exists col. split; [exact EC|].
  unfold set_cell. rewrite (ho_w _ _ _ S), (ho_h _ _ _ S). destruct (Z.leb_spec (mwidth c) x), (Z.ltb_spec x 0); try lia. destruct (Z.leb_spec (mheight c) y), (Z.ltb_spec y 0); try lia. cbn [orb].
  rewrite (column_holds h hm c x S RX). unfold h_values. rewrite (ho_val _ _ _ S x col EC). reflexivity.
Qed.
Lemma set_out h hm c x y v : holds h hm c -> ~ (0 <= x < mwidth c /\ 0 <= y < mheight c) -> set_cell h hm x y v = h /\ m_set c x y v = c.
Proof.
  intros S NR. unfold set_cell, m_set. rewrite (ho_w _ _ _ S), (ho_h _ _ _ S). destruct (Z.leb_spec (mwidth c) x), (Z.ltb_spec x 0); cbn [orb]; auto.
  destruct (Z.leb_spec (mheight c) y), (Z.ltb_spec y 0); cbn [orb]; auto. exfalso. apply NR. lia.
Qed.
Lemma in_range_cases c x y : (0 <= x < mwidth c /\ 0 <= y < mheight c) \/ ~ (0 <= x < mwidth c /\ 0 <= y < mheight c).
Proof. lia. Qed.
Lemma set_holds h hm c x y v : holds h hm c -> holds (set_cell h hm x y v) hm (m_set c x y v).
Proof.
  intros S. destruct (in_range_cases c x y) as [[RX RY]|NR]; [|destruct (set_out h hm c x y v S NR) as [-> ->]; exact S].
  destruct (set_in h hm c x y v S RX RY) as (col & EC & ->). destruct (m_set_dims c x y v) as [DW DH].
  assert (NW : (nw hm = Z.to_nat (mwidth c))%nat) by (unfold nw; rewrite (ho_w _ _ _ S); reflexivity). pose proof (ho_le _ _ _ S) as LE.
  constructor.
  - apply wf_set, S.
  - rewrite DW. apply S.
  - rewrite DH. apply S.
  - exact LE.
  - rewrite nth_error_upd_other by (unfold first; lia). apply S.
  - intros z cz EZ. rewrite (m_set_in c x y v col) in EZ by (unfold in_range; auto). cbn [mmat] in EZ.
    assert (LL : 0 <= x < zlen (mmat c)) by (unfold zlen; rewrite (wf_length c (ho_wf _ _ _ S)); lia).
    rewrite zget_upd in EZ by exact LL. destruct (Z.eqb_spec z x) as [->|NE].
    + injection EZ as <-. apply (nth_error_upd_some _ _ _ (Values col)). apply (ho_val _ _ _ S), EC.
    + rewrite nth_error_upd_other; [apply (ho_val _ _ _ S), EZ|]. assert (0 <= z) by (unfold zget in EZ; destruct (Z.ltb_spec z 0); [discriminate|lia]). lia.
Qed.
Lemma set_apart h hm c hm' c' x y v : holds h hm c -> holds h hm' c' -> apart hm hm' -> holds (set_cell h hm x y v) hm' c'.
Proof.
  intros S S' AP. destruct (in_range_cases c x y) as [[RX RY]|NR]; [|destruct (set_out h hm c x y v S NR) as [-> _]; exact S'].
  destruct (set_in h hm c x y v S RX RY) as (col & EC & ->). assert (NW : (nw hm = Z.to_nat (mwidth c))%nat) by (unfold nw; rewrite (ho_w _ _ _ S); reflexivity).
  assert (NW' : (nw hm' = Z.to_nat (mwidth c'))%nat) by (unfold nw; rewrite (ho_w _ _ _ S'); reflexivity).
  pose proof (ho_le _ _ _ S) as LE. pose proof (ho_le _ _ _ S') as LE'. constructor; try apply S'.
  - rewrite nth_error_upd_other by (unfold apart, first in *; lia). apply S'.
  - intros z cz EZ. rewrite nth_error_upd_other; [apply (ho_val _ _ _ S'), EZ|].
    assert (RZ : 0 <= z < mwidth c').
    { pose proof (wf_length c' (ho_wf _ _ _ S')) as WL. unfold zget in EZ. destruct (Z.ltb_spec z 0); [discriminate|]. assert (Z.to_nat z < length (mmat c'))%nat by (apply nth_error_Some; congruence). lia. }
    unfold apart, first in *. lia.
Qed.
Lemma read_holds h hm c : holds h hm c -> h_read h hm = Some c.
Proof.
  intros S. unfold h_read. rewrite (ho_cols _ _ _ S).
  assert (X : all_some (map (h_values h) (seq (first hm) (nw hm))) = Some (mmat c)).
  { apply all_some_map.
    assert (NL : nw hm = length (mmat c)) by (rewrite (wf_length c (ho_wf _ _ _ S)); unfold nw; rewrite (ho_w _ _ _ S); reflexivity).
    apply (nth_ext _ _ None None); [rewrite !map_length, seq_length; exact NL|]. intros k LK. rewrite map_length, seq_length in LK.
    rewrite (nth_indep _ None (h_values h 0)) by (rewrite map_length, seq_length; exact LK). rewrite map_nth, seq_nth by exact LK.
    destruct (nth_error (mmat c) k) as [col|] eqn:EK; [|apply nth_error_None in EK; lia].
    pose proof (ho_val _ _ _ S (Z.of_nat k) col) as HV. unfold zget in HV. destruct (Z.ltb_spec (Z.of_nat k) 0); [lia|]. rewrite Nat2Z.id in HV. specialize (HV EK).
    unfold h_values. rewrite HV. rewrite (nth_indep _ None (Some [])) by (rewrite map_length; lia). rewrite map_nth. f_equal. symmetry. apply nth_error_nth, EK. }
  rewrite X, (ho_w _ _ _ S), (ho_h _ _ _ S). destruct c; reflexivity.
Qed.
Lemma object_region h hm c x y a : holds h hm c -> In a (cell_object h hm x y) -> (first hm <= a < h_mat hm)%nat.
Proof.
  intros S. unfold cell_object. rewrite (ho_w _ _ _ S), (ho_h _ _ _ S). destruct (Z.leb_spec (mwidth c) x), (Z.ltb_spec x 0); cbn [orb]; try contradiction.
  destruct (Z.leb_spec (mheight c) y), (Z.ltb_spec y 0); cbn [orb]; try contradiction. rewrite (column_holds h hm c x S) by lia. intros [<-|[]].
  assert (NW : (nw hm = Z.to_nat (mwidth c))%nat) by (unfold nw; rewrite (ho_w _ _ _ S); reflexivity). pose proof (ho_le _ _ _ S). unfold first. lia.
Qed.
Lemma holds_grow h t hm c : holds h hm c -> holds (h ++ t) hm c.
Proof.
  intros S. constructor; try apply S.
  - rewrite nth_error_app1 by (apply nth_error_Some; rewrite (ho_cols _ _ _ S); discriminate). apply S.
  - intros x col E. pose proof (ho_val _ _ _ S x col E) as X. rewrite nth_error_app1 by (apply nth_error_Some; congruence). exact X.
Qed.
Lemma alloc_holds h m : wf m -> holds (fst (h_alloc h m)) (snd (h_alloc h m)) m /\ first (snd (h_alloc h m)) = length h /\ (h_mat (snd (h_alloc h m)) < length (fst (h_alloc h m)))%nat /\ exists t, fst (h_alloc h m) = h ++ t.
Proof.
  intros W. pose proof (wf_length m W) as WL. rewrite alloc_length. cbn [snd h_alloc h_mat].
  assert (FI : first (mkH (length h + length (mmat m)) (mwidth m) (mheight m)) = length h) by (unfold first, nw; cbn [h_mat h_width]; lia).
  split; [|split; [exact FI|split; [lia|eexists; reflexivity]]]. constructor; unfold h_alloc; cbn [h_width h_height h_mat fst]; auto.
  - unfold nw. cbn [h_width]. lia.
  - rewrite FI. unfold nw. cbn [h_width]. rewrite nth_error_app2 by lia. replace (length h + length (mmat m) - length h)%nat with (length (mmat m)) by lia.
    rewrite nth_error_app2 by (rewrite map_length; lia). rewrite map_length, Nat.sub_diag. cbn [nth_error]. rewrite WL. reflexivity.
  - intros x col E. rewrite FI. unfold zget in E. destruct (Z.ltb_spec x 0); [discriminate|]. rewrite nth_error_app2 by lia.
    replace (length h + Z.to_nat x - length h)%nat with (Z.to_nat x) by lia. rewrite nth_error_app1 by (rewrite map_length; apply nth_error_Some; congruence).
    rewrite nth_error_map, E. reflexivity.
Qed.
Lemma alloc_all_spec ms : forall h, Forall wf ms -> let '(h', hs) := alloc_all h ms in
  (exists t, h' = h ++ t) /\ length hs = length ms /\
  (forall i hm c, nth_error hs i = Some hm -> nth_error ms i = Some c -> holds h' hm c /\ (length h <= first hm)%nat /\ (h_mat hm < length h')%nat) /\
  forall i j a b, i <> j -> nth_error hs i = Some a -> nth_error hs j = Some b -> apart a b.
Proof.
  induction ms as [|m ms IH]; intros h F; cbn [alloc_all].
  - split; [exists []; rewrite app_nil_r; reflexivity|]. split; [reflexivity|]. split; intros [|i]; intros; discriminate.
  - inversion F as [|? ? W F']; subst. destruct (alloc_holds h m W) as (HO & FI & LT & t1 & E1). destruct (h_alloc h m) as [h1 hm] eqn:EA. cbn [fst snd] in *.
    specialize (IH h1 F'). destruct (alloc_all h1 ms) as [h2 hs]. destruct IH as ((t2 & E2) & LH & HH & AP).
    assert (L1 : (length h <= length h1)%nat) by (rewrite E1, app_length; lia). assert (L2 : (length h1 <= length h2)%nat) by (rewrite E2, app_length; lia).
    split; [exists (t1 ++ t2); rewrite E2, E1, app_assoc; reflexivity|]. split; [cbn [length]; lia|]. split.
    + intros [|i] hx c Ei Ec; cbn [nth_error] in *.
      * injection Ei as <-. injection Ec as <-. split; [rewrite E2; apply holds_grow, HO|]. split; [lia|lia].
      * destruct (HH i hx c Ei Ec) as (A & B & D). split; [exact A|]. split; lia.
    + assert (FAR : forall j b, nth_error hs j = Some b -> (h_mat hm < first b)%nat).
      { intros j b Ej. destruct (nth_error ms j) as [c|] eqn:Ec; [|apply nth_error_None in Ec; assert (j < length hs)%nat by (apply nth_error_Some; congruence); lia]. destruct (HH j b c Ej Ec) as (_ & B & _). lia. }
      intros [|i] [|j] a b NE Ei Ej; cbn [nth_error] in *; try lia.
      * injection Ei as <-. left. eapply FAR; eauto.
      * injection Ej as <-. right. eapply FAR; eauto.
      * apply (AP i j); auto.
Qed.
