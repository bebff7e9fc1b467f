(* Non-interference of a Writer with the matrix it is given. *)
From Coq Require Import Lia.
From Verif Require Import ModelBase ModelMatrix ModelHeap.
From Verif Require Import SpecMatrix SpecSave ProofBase ProofMatrix.

Lemma all_some_map {A B} (f : A -> option B) l r : all_some (map f l) = Some r <-> map f l = map Some r.
Proof.
  revert r. induction l as [|a l IH]; intros r; cbn [map all_some].
  - split; [intros [= <-]; reflexivity|]. destruct r; [auto|discriminate].
  - destruct (f a) as [b|] eqn:E.
    + destruct (all_some (map f l)) as [r'|] eqn:E2.
      * split; [intros [= <-]; cbn [map]; rewrite (proj1 (IH r') eq_refl); reflexivity|].
        destruct r as [|b' r]; [discriminate|]. cbn [map]. intros [= <- EE]. apply IH in EE. congruence.
      * split; [discriminate|]. destruct r as [|b' r]; [discriminate|]. cbn [map]. intros [= <- EE]. apply IH in EE. discriminate.
    + split; [discriminate|]. destruct r; discriminate.
Qed.

Lemma alloc_read_gen h m tail : h_read (fst (h_alloc h m) ++ tail) (snd (h_alloc h m)) = Some (mkMatrix (mmat m) (mwidth m) (mheight m)).
Proof.
  unfold h_alloc, h_read. cbn [fst snd h_mat h_width h_height].
  rewrite <- !app_assoc, nth_error_app2 by lia. replace (length h + length (mmat m) - length h)%nat with (length (mmat m)) by lia.
  rewrite nth_error_app2 by (rewrite map_length; lia). rewrite map_length, Nat.sub_diag. cbn [app nth_error].
  assert (G : forall cols pre h2, h2 = h ++ map Values pre ++ map Values cols ++ Columns (seq (length h) (length (mmat m))) :: tail ->
     all_some (map (h_values h2) (seq (length h + length pre) (length cols))) = Some cols).
  { induction cols as [|c cols IH]; intros pre h2 E; [reflexivity|]. cbn [length seq map all_some].
    assert (E1 : h_values h2 (length h + length pre) = Some c).
    { unfold h_values. rewrite E, nth_error_app2 by lia. replace (length h + length pre - length h)%nat with (length pre) by lia.
      rewrite nth_error_app2 by (rewrite map_length; lia). rewrite map_length, Nat.sub_diag. reflexivity. }
    rewrite E1. specialize (IH (pre ++ [c]) h2). rewrite app_length in IH. cbn [length] in IH. rewrite Nat.add_assoc, Nat.add_1_r in IH.
    rewrite IH; auto. rewrite E, map_app, <- !app_assoc. reflexivity. }
  specialize (G (mmat m) [] _ eq_refl). cbn [length map app] in G. rewrite Nat.add_0_r in G. rewrite G. reflexivity.
Qed.
Lemma alloc_read h m : h_read (fst (h_alloc h m)) (snd (h_alloc h m)) = Some m.
Proof. pose proof (alloc_read_gen h m []) as X. rewrite app_nil_r in X. rewrite X. destruct m; reflexivity. Qed.

Lemma alloc_length h m : length (fst (h_alloc h m)) = (length h + length (mmat m) + 1)%nat.
Proof. unfold h_alloc. cbn [fst]. rewrite !app_length, map_length. cbn. lia. Qed.

(* reading depends only on the addresses of the matrix *)
Lemma h_read_frame h1 h2 m : (forall a o, nth_error h1 a = Some o -> (h_mat m = a \/ (exists cs, nth_error h1 (h_mat m) = Some (Columns cs) /\ In a cs)) -> nth_error h2 a = Some o) ->
  forall c, h_read h1 m = Some c -> h_read h2 m = Some c.
Proof.
  intros HF c. unfold h_read. destruct (nth_error h1 (h_mat m)) as [[l|cs|t]|] eqn:E; try discriminate.
  rewrite (HF _ _ E (or_introl eq_refl)). destruct (all_some (map (h_values h1) cs)) as [cols|] eqn:E2; [|discriminate].
  intros [= <-]. assert (X : map (h_values h2) cs = map (h_values h1) cs).
  { apply map_ext_in. intros a Ha. apply all_some_map in E2.
    assert (exists v, h_values h1 a = Some v) as [v Hv].
    { apply (in_map (h_values h1)) in Ha. rewrite E2 in Ha. apply in_map_iff in Ha as (v & Hv & _). exists v. auto. }
    rewrite Hv. unfold h_values in *. destruct (nth_error h1 a) as [[l| |]|] eqn:E3; try discriminate.
    rewrite (HF _ _ E3); auto. right. exists cs. split; [reflexivity|auto]. }
  rewrite X, E2. reflexivity.
Qed.

Lemma nth_error_upd_other {A} (l : list A) a b o : a <> b -> nth_error (upd_nat l a o) b = nth_error l b.
Proof. revert a b. induction l as [|x l IH]; intros [|a] [|b] Hn; cbn; auto; try lia. Qed.
Lemma nth_error_upd_some {A} (l : list A) a o o' : nth_error l a = Some o' -> nth_error (upd_nat l a o) a = Some o.
Proof. revert a. induction l as [|x l IH]; intros [|a]; cbn; try discriminate; auto. Qed.
Lemma upd_length {A} (l : list A) a o : length (upd_nat l a o) = length l.
Proof. revert a. induction l as [|x l IH]; intros [|a]; cbn; auto. Qed.

Section Base.
  Variable h0 : heap.
  Variable m : Matrix.
  Let base := fst (h_alloc h0 m).
  Let limit := length base.
  Let lower := length h0.

  Definition fresh (a : nat) : Prop := (limit <= a)%nat.

  Record inv (s : wstate) : Prop := {
    in_len : (limit <= length (w_heap s))%nat;
    in_base : forall a, (lower <= a < limit)%nat -> nth_error (w_heap s) a = nth_error base a;
    in_first : nth_error (w_mats s) 0 = Some (snd (h_alloc h0 m));
    in_mats : forall i hm, nth_error (w_mats s) (S i) = Some hm -> fresh (h_mat hm) /\ (h_mat hm < length (w_heap s))%nat /\
        forall cs a, nth_error (w_heap s) (h_mat hm) = Some (Columns cs) -> In a cs -> fresh a;
    in_slices : forall n a, nth_error (w_slices s) n = Some a -> ~ In n (w_cols s) -> fresh a;
    in_cols : forall n, In n (w_cols s) -> (n < length (w_slices s))%nat
  }.

  Lemma nth_app_cases {A} (l : list A) x n a : nth_error (l ++ [x]) n = Some a -> nth_error l n = Some a \/ (n = length l /\ a = x).
  Proof.
    intros E. destruct (Nat.ltb_spec n (length l)) as [LT|GE]; [rewrite nth_error_app1 in E by auto; auto|].
    rewrite nth_error_app2 in E by auto. destruct (n - length l)%nat as [|k] eqn:K; cbn in E; [|destruct k; discriminate].
    right. split; [lia|congruence].
  Qed.

  (* growing the heap keeps everything about old addresses *)
  Lemma inv_grow s tail : inv s -> inv (mkW (w_heap s ++ tail) (w_mats s) (w_slices s) (w_tables s) (w_cols s)).
  Proof.
    intros I. constructor; cbn [w_heap w_mats w_slices w_tables w_cols].
    - rewrite app_length. pose proof (in_len s I). lia.
    - intros a Ha. rewrite nth_error_app1 by (pose proof (in_len s I); lia). apply (in_base s I); auto.
    - apply (in_first s I).
    - intros i hm E. destruct (in_mats s I i hm E) as (F1 & F2 & F3). split; auto. split; [rewrite app_length; lia|].
      intros cs a EC HA. rewrite nth_error_app1 in EC by auto. eapply F3; eauto.
    - apply (in_slices s I).
    - apply (in_cols s I).
  Qed.

  Lemma inv_step s op : inv s -> (forall n k v, op = AssignValue n k v -> ~ In n (w_cols s)) -> inv (wstep s op).
  Proof.
    intros I HO. destruct op as [i|i cur|i cur|i|i d|n k v|n y x b]; cbn [wstep].
    - destruct (nth_error (w_mats s) i) as [hm|] eqn:Ei; auto. destruct (h_read (w_heap s) hm) as [c|] eqn:Er; auto.
      destruct (h_alloc (w_heap s) (m_copy c)) as [h' m'] eqn:EA.
      assert (E1 : h' = w_heap s ++ map Values (mmat (m_copy c)) ++ [Columns (seq (length (w_heap s)) (length (mmat (m_copy c))))]).
      { pose proof (f_equal fst EA) as X. cbn [fst] in X. rewrite <- X. reflexivity. }
      assert (E2 : m' = mkH (length (w_heap s) + length (mmat (m_copy c))) (mwidth (m_copy c)) (mheight (m_copy c))).
      { pose proof (f_equal snd EA) as X. cbn [snd] in X. rewrite <- X. reflexivity. }
      pose proof (inv_grow s (map Values (mmat (m_copy c)) ++ [Columns (seq (length (w_heap s)) (length (mmat (m_copy c))))]) I) as G.
      rewrite <- E1 in G. constructor; cbn [w_heap w_mats w_slices w_tables w_cols]; try apply G.
      + pose proof (in_first s I). destruct (w_mats s); [discriminate|auto].
      + intros j hm' Ej. destruct (nth_app_cases _ _ _ _ Ej) as [Ej'|[_ ->]]; [exact (in_mats _ G j hm' Ej')|].
        pose proof (in_len s I) as HL. rewrite E2, E1. cbn [h_mat]. unfold fresh. split; [lia|]. split; [rewrite !app_length, map_length; cbn; lia|].
        intros cs a EC HA. rewrite nth_error_app2 in EC by lia. replace (length (w_heap s) + length (mmat (m_copy c)) - length (w_heap s))%nat with (length (map Values (mmat (m_copy c)))) in EC by (rewrite map_length; lia).
        rewrite nth_error_app2, Nat.sub_diag in EC by lia. cbn in EC. injection EC as <-. apply in_seq in HA. lia.
    - destruct (nth_error (w_mats s) i) as [hm|]; auto. destruct (h_read (w_heap s) hm) as [c|]; auto. destruct (m_row c cur) as [l|]; auto.
      pose proof (inv_grow s [Values l] I) as G. constructor; cbn [w_heap w_mats w_slices w_tables w_cols]; try apply G.
      + intros n a E NI. destruct (nth_app_cases _ _ _ _ E) as [E'|[_ ->]]; [apply (in_slices s I n a); auto|]. exact (in_len s I).
      + intros n Hn. rewrite app_length. pose proof (in_cols s I n Hn). lia.
    - destruct (nth_error (w_mats s) i) as [hm|] eqn:Ei; auto. destruct ((h_width hm <=? cur) || (cur <? 0)); auto.
      destruct (h_column (w_heap s) hm cur) as [a|] eqn:EC; auto.
      constructor; cbn [w_heap w_mats w_slices w_tables w_cols]; try apply I.
      + intros n a' E NI. destruct (nth_app_cases _ _ _ _ E) as [E'|[-> ->]].
        * apply (in_slices s I n a'); auto. intros HI. apply NI. destruct (Nat.eqb i 0); [apply in_or_app; auto|auto].
        * destruct i as [|i]; cbn [Nat.eqb] in NI. { exfalso. apply NI, in_or_app. right. cbn. auto. }
          destruct (in_mats s I i hm Ei) as (_ & _ & F). unfold h_column in EC.
          destruct (nth_error (w_heap s) (h_mat hm)) as [[|cs|]|] eqn:E3; try discriminate.
          eapply F; [reflexivity|]. eapply zget_In; eauto.
      + intros n Hn. rewrite app_length. cbn [length]. destruct (Nat.eqb i 0).
        * apply in_app_or in Hn as [Hn|[<-|[]]]; [pose proof (in_cols s I n Hn)|]; lia.
        * pose proof (in_cols s I n Hn). lia.
    - destruct (nth_error (w_mats s) i) as [hm|]; auto. destruct (h_read (w_heap s) hm) as [c|]; auto.
      pose proof (inv_grow s [Table (m_bitmap c)] I) as G. constructor; cbn [w_heap w_mats w_slices w_tables w_cols]; apply G.
    - auto.
    - destruct (nth_error (w_slices s) n) as [a|] eqn:En; auto. destruct (h_values (w_heap s) a) as [l|] eqn:Ev; auto.
      destruct ((0 <=? k) && (k <? zlen l)); auto.
      pose proof (in_slices s I n a En (HO n k v eq_refl)) as FA. unfold fresh in FA.
      assert (EO : nth_error (w_heap s) a = Some (Values l)).
      { unfold h_values in Ev. destruct (nth_error (w_heap s) a) as [[l'| |]|]; try discriminate. congruence. }
      unfold upd_obj. constructor; cbn [w_heap w_mats w_slices w_tables w_cols]; try apply I.
      + rewrite upd_length. apply (in_len s I).
      + intros a' Ha. rewrite nth_error_upd_other by lia. apply (in_base s I); auto.
      + intros j hm Ej. destruct (in_mats s I j hm Ej) as (F1 & F2 & F3). split; auto. split; [rewrite upd_length; auto|].
        intros cs a' EC HA. destruct (Nat.eq_dec a (h_mat hm)) as [EA|N]; [rewrite <- EA, (nth_error_upd_some _ _ _ _ EO) in EC; discriminate|].
        rewrite nth_error_upd_other in EC by auto. eapply F3; eauto.
    - destruct (nth_error (w_tables s) n) as [a|] eqn:En; auto. destruct (nth_error (w_heap s) a) as [[| |t]|] eqn:EO; auto.
      destruct (zget t y) as [row|]; auto.
      assert (FA : ~ (lower <= a < limit)%nat).
      { intros HA. rewrite (in_base s I a HA) in EO. unfold base, h_alloc in EO. cbn [fst] in EO. unfold lower in HA.
        rewrite nth_error_app2 in EO by lia.
        destruct (Nat.ltb_spec (a - length h0) (length (map Values (mmat m)))) as [LT|GE].
        - rewrite nth_error_app1 in EO by auto. rewrite nth_error_map in EO. destruct (nth_error (mmat m) (a - length h0)); discriminate.
        - rewrite nth_error_app2 in EO by auto. destruct (a - length h0 - length (map Values (mmat m)))%nat as [|z]; cbn in EO; [discriminate|destruct z; discriminate]. }
      unfold upd_obj. constructor; cbn [w_heap w_mats w_slices w_tables w_cols]; try apply I.
      + rewrite upd_length. apply (in_len s I).
      + intros a' Ha. rewrite nth_error_upd_other by (intros X; subst a'; auto). apply (in_base s I); auto.
      + intros j hm Ej. destruct (in_mats s I j hm Ej) as (F1 & F2 & F3). split; auto. split; [rewrite upd_length; auto|].
        intros cs a' EC HA. destruct (Nat.eq_dec a (h_mat hm)) as [EA|N]; [rewrite <- EA, (nth_error_upd_some _ _ _ _ EO) in EC; discriminate|].
        rewrite nth_error_upd_other in EC by auto. eapply F3; eauto.
  Qed.

  Lemma inv_run ops : forall s, inv s -> ~ assigns_through_col s ops -> inv (wrun s ops).
  Proof.
    induction ops as [|op ops IH]; intros s I NA; [exact I|]. change (wrun s (op :: ops)) with (wrun (wstep s op) ops).
    apply IH.
    - apply inv_step; auto. intros n k v -> HI. apply NA. exists [], n, k, v, ops. split; [reflexivity|exact HI].
    - intros (before & n & k & v & after & -> & HI). apply NA. exists (op :: before), n, k, v, after. split; [reflexivity|exact HI].
  Qed.

  Lemma inv_start : inv (wstart h0 m).
  Proof.
    constructor.
    - apply Nat.le_refl.
    - reflexivity.
    - reflexivity.
    - intros [|i] x; discriminate.
    - intros [|n] a; discriminate.
    - intros n [].
  Qed.

  Theorem non_interference ops : ~ assigns_through_col (wstart h0 m) ops -> second_save h0 m ops = Some m.
  Proof.
    intros NA. unfold second_save. pose proof (inv_run ops _ inv_start NA) as I.
    apply (h_read_frame base); [|apply alloc_read].
    intros a o EO HA. rewrite (in_base _ I a); auto.
    assert (LT : (a < limit)%nat) by (unfold limit; apply nth_error_Some; congruence). split; auto. unfold lower.
    destruct HA as [<-|(cs & EC & HA)]; [unfold h_alloc; cbn [snd h_mat]; lia|].
    unfold base, h_alloc in EC. cbn [fst snd h_mat] in EC. rewrite nth_error_app2 in EC by lia.
    replace (length h0 + length (mmat m) - length h0)%nat with (length (map Values (mmat m))) in EC by (rewrite map_length; lia).
    rewrite nth_error_app2, Nat.sub_diag in EC by lia. cbn in EC. injection EC as <-. apply in_seq in HA. lia.
  Qed.
End Base.
