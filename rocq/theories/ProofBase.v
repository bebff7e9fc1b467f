(* Lemmas about the base vocabulary. *)
From Coq Require Export Lia.
From Coq Require Import FinFun.
From Verif Require Export ModelBase.
From Verif Require Import SpecIso.

Lemma zseq_nat_spec s n : zseq_nat s n = map (fun k => s + Z.of_nat k) (seq 0 n).
Proof.
  revert s; induction n as [|n IH]; intros s; [reflexivity|].
  simpl. f_equal; [lia|]. rewrite IH, <- seq_shift, map_map.
  apply map_ext; intros; lia.
Qed.

Lemma zseq_length s n : length (zseq s n) = Z.to_nat n.
Proof. unfold zseq. rewrite zseq_nat_spec, map_length, seq_length. reflexivity. Qed.

Lemma zseq_upto n : zseq 0 n = upto n.
Proof. unfold zseq, upto. rewrite zseq_nat_spec. apply map_ext; intros; lia. Qed.

Lemma zseq_upto_s s n : zseq s n = map (fun k => s + k) (upto n).
Proof. unfold zseq, upto. rewrite zseq_nat_spec, map_map. reflexivity. Qed.

Lemma in_upto x n : In x (upto n) <-> 0 <= x < n.
Proof.
  unfold upto. rewrite in_map_iff. split.
  - intros (k & <- & H). apply in_seq in H. lia.
  - intros H. exists (Z.to_nat x). rewrite in_seq. lia.
Qed.

Lemma in_zseq x s n : In x (zseq s n) <-> s <= x < s + n.
Proof.
  rewrite zseq_upto_s, in_map_iff. split.
  - intros (k & <- & H). apply in_upto in H. lia.
  - intros H. exists (x - s). rewrite in_upto. lia.
Qed.

Lemma NoDup_upto n : NoDup (upto n).
Proof.
  unfold upto. apply FinFun.Injective_map_NoDup; [|apply seq_NoDup].
  intros a b; lia.
Qed.

Lemma NoDup_zseq s n : NoDup (zseq s n).
Proof.
  rewrite zseq_upto_s. apply FinFun.Injective_map_NoDup; [|apply NoDup_upto].
  intros a b; lia.
Qed.

Lemma upto_length n : length (upto n) = Z.to_nat n.
Proof. unfold upto. rewrite map_length, seq_length. reflexivity. Qed.

Lemma nth_error_seq i n : (i < n)%nat -> nth_error (seq 0 n) i = Some i.
Proof.
  intros H. rewrite (nth_error_nth' _ 0%nat) by (rewrite seq_length; lia).
  rewrite seq_nth by lia. reflexivity.
Qed.

Lemma nth_error_upto i n : (Z.of_nat i < n) -> nth_error (upto n) i = Some (Z.of_nat i).
Proof.
  intros H. unfold upto. erewrite map_nth_error; [reflexivity|].
  apply nth_error_seq; lia.
Qed.

Lemma upto_S n : upto (Z.of_nat (S n)) = upto (Z.of_nat n) ++ [Z.of_nat n].
Proof.
  unfold upto. rewrite !Nat2Z.id, seq_S, map_app. reflexivity.
Qed.

(* zget *)
Lemma zget_nth {A} (l : list A) i : 0 <= i -> zget l i = nth_error l (Z.to_nat i).
Proof. unfold zget. intros. destruct (Z.ltb_spec i 0); [lia|reflexivity]. Qed.

Lemma zget_in_range {A} (l : list A) i : 0 <= i < zlen l -> exists a, zget l i = Some a.
Proof.
  intros H. rewrite zget_nth by lia. unfold zlen in H.
  destruct (nth_error l (Z.to_nat i)) eqn:E; [eauto|].
  apply nth_error_None in E. lia.
Qed.

Lemma zget_none {A} (l : list A) i : (i < 0 \/ zlen l <= i) -> zget l i = None.
Proof.
  unfold zget, zlen. intros H. destruct (Z.ltb_spec i 0); [reflexivity|].
  apply nth_error_None. lia.
Qed.

Lemma zget_some_range {A} (l : list A) i a : zget l i = Some a -> 0 <= i < zlen l.
Proof.
  unfold zget, zlen. destruct (Z.ltb_spec i 0); [discriminate|]. intros E.
  assert (nth_error l (Z.to_nat i) <> None) by congruence.
  apply nth_error_Some in H0. lia.
Qed.

Lemma zget_In {A} (l : list A) i a : zget l i = Some a -> In a l.
Proof.
  unfold zget. destruct (Z.ltb_spec i 0); [discriminate|]. apply nth_error_In.
Qed.

Lemma zget_app1 {A} (l1 l2 : list A) i : i < zlen l1 -> zget (l1 ++ l2) i = zget l1 i.
Proof.
  intros H. unfold zget. destruct (Z.ltb_spec i 0); [reflexivity|].
  apply nth_error_app1. unfold zlen in H. lia.
Qed.

Lemma zget_map {A B} (f : A -> B) l i : zget (map f l) i = option_map f (zget l i).
Proof.
  unfold zget. destruct (i <? 0); [reflexivity|]. apply nth_error_map.
Qed.

Lemma zget_upto n i : 0 <= i < n -> zget (upto n) i = Some i.
Proof.
  intros H. rewrite zget_nth by lia. rewrite nth_error_upto by lia. f_equal; lia.
Qed.

Lemma zget_repeat {A} (a : A) n i : 0 <= i < Z.of_nat n -> zget (repeat a n) i = Some a.
Proof.
  intros H. rewrite zget_nth by lia.
  rewrite (nth_error_nth' _ a) by (rewrite repeat_length; lia).
  rewrite nth_repeat. reflexivity.
Qed.

(* upd_nat / zupd *)
Lemma upd_nat_length {A} (l : list A) n a : length (upd_nat l n a) = length l.
Proof. revert n; induction l; intros [|n]; simpl; auto. Qed.

Lemma nth_error_upd {A} (l : list A) n a k :
  nth_error (upd_nat l n a) k =
  if Nat.eqb n k then (if (n <? length l)%nat then Some a else None) else nth_error l k.
Proof.
  revert n k; induction l as [|x l IH]; intros n k.
  - simpl. destruct (Nat.eqb_spec n k); destruct k; reflexivity.
  - destruct n as [|n], k as [|k]; simpl; try reflexivity.
    rewrite IH. reflexivity.
Qed.

Lemma zupd_length {A} (l : list A) i a : length (zupd l i a) = length l.
Proof. unfold zupd. destruct (i <? 0); [reflexivity|apply upd_nat_length]. Qed.

Lemma zlen_zupd {A} (l : list A) i a : zlen (zupd l i a) = zlen l.
Proof. unfold zlen. rewrite zupd_length. reflexivity. Qed.

Lemma zget_zupd {A} (l : list A) i a k : 0 <= i < zlen l ->
  zget (zupd l i a) k = if i =? k then Some a else zget l k.
Proof.
  intros H. unfold zget, zupd. destruct (Z.ltb_spec i 0); [lia|].
  destruct (Z.ltb_spec k 0).
  - destruct (Z.eqb_spec i k); [lia|reflexivity].
  - rewrite nth_error_upd.
    unfold zlen in H.
    destruct (Z.eqb_spec i k) as [->|N].
    + rewrite Nat.eqb_refl. destruct (Nat.ltb_spec (Z.to_nat k) (length l)); [reflexivity|lia].
    + destruct (Nat.eqb_spec (Z.to_nat i) (Z.to_nat k)); [lia|reflexivity].
Qed.

Lemma zget_zupd_same {A} (l : list A) i a : 0 <= i < zlen l -> zget (zupd l i a) i = Some a.
Proof. intros. rewrite zget_zupd by auto. rewrite Z.eqb_refl. reflexivity. Qed.

Lemma list_ext {A} (l1 l2 : list A) :
  (forall i, nth_error l1 i = nth_error l2 i) -> l1 = l2.
Proof.
  revert l2; induction l1 as [|a l1 IH]; intros [|b l2] H; auto.
  - specialize (H 0%nat); discriminate.
  - specialize (H 0%nat); discriminate.
  - f_equal; [specialize (H 0%nat); simpl in H; congruence|].
    apply IH; intros i; apply (H (S i)).
Qed.

Lemma map_zget_id {A} (l : list A) (d : A) :
  map (fun i => match zget l i with Some a => a | None => d end) (upto (zlen l)) = l.
Proof.
  apply list_ext. intros i. rewrite nth_error_map.
  destruct (Nat.ltb_spec i (length l)) as [H|H].
  - rewrite nth_error_upto by (unfold zlen; lia). simpl.
    rewrite zget_nth by lia. rewrite Nat2Z.id.
    destruct (nth_error l i) eqn:E; [reflexivity|].
    apply nth_error_None in E; lia.
  - rewrite (proj2 (nth_error_None l i)) by auto.
    assert (nth_error (upto (zlen l)) i = None) as ->.
    { apply nth_error_None. rewrite upto_length. unfold zlen. lia. }
    reflexivity.
Qed.

(* bind *)
Lemma bind_ok {A B} (o : outcome A) (f : A -> outcome B) b :
  bind o f = Ok b -> exists a, o = Ok a /\ f a = Ok b.
Proof. destruct o; simpl; intros; try discriminate. eauto. Qed.

Lemma zlen_app {A} (l1 l2 : list A) : zlen (l1 ++ l2) = zlen l1 + zlen l2.
Proof. unfold zlen. rewrite app_length. lia. Qed.
Lemma zlen_cons {A} (a : A) l : zlen (a :: l) = zlen l + 1.
Proof. unfold zlen. simpl length. lia. Qed.
Lemma zlen_nonneg {A} (l : list A) : 0 <= zlen l.
Proof. unfold zlen. lia. Qed.
Lemma zlen_map {A B} (f : A -> B) l : zlen (map f l) = zlen l.
Proof. unfold zlen. rewrite map_length. reflexivity. Qed.

Lemma forallb_upto (f : Z -> bool) n : forallb f (upto n) = true -> forall x, 0 <= x < n -> f x = true.
Proof. rewrite forallb_forall. intros H x Hx. apply H, in_upto, Hx. Qed.

Lemma NoDup_app_intro {A} (l1 l2 : list A) :
  NoDup l1 -> NoDup l2 -> (forall x, In x l1 -> In x l2 -> False) -> NoDup (l1 ++ l2).
Proof.
  induction 1 as [|a l1 Ha _ IH]; intros H2 Hd; simpl; [auto|].
  constructor.
  - rewrite in_app_iff. intros [H|H]; [contradiction|]. apply (Hd a); simpl; auto.
  - apply IH; auto. intros x Hx. apply Hd. simpl; auto.
Qed.

Lemma NoDup_list_prod {A B} (la : list A) (lb : list B) : NoDup la -> NoDup lb -> NoDup (list_prod la lb).
Proof.
  induction 1 as [|a la Ha _ IH]; intros Hb; simpl; [constructor|].
  apply NoDup_app_intro; auto.
  - apply FinFun.Injective_map_NoDup; auto. intros x y E; congruence.
  - intros [x y] H1 H2. apply in_map_iff in H1 as (b & E & _). injection E as <- <-.
    apply in_prod_iff in H2 as [H2 _]. contradiction.
Qed.
