(* Lemmas about Matrix: get/set algebra, iteration, Bitmap. *)
From Coq Require Import FinFun.
From Verif Require Import ModelMatrix SpecIso.
From Verif Require Export SpecMatrix.
From Verif Require Export ProofBase.

Definition in_rangeb (m : Matrix) (x y : Z) : bool :=
  (0 <=? x) && (x <? mwidth m) && (0 <=? y) && (y <? mheight m).

Lemma in_rangeb_spec m x y : in_rangeb m x y = true <-> in_range m x y.
Proof. unfold in_rangeb, in_range. rewrite !andb_true_iff, !Z.leb_le, !Z.ltb_lt. tauto. Qed.

Lemma wf_col m x : wf m -> 0 <= x < mwidth m -> exists c, zget (mmat m) x = Some c /\ zlen c = mheight m.
Proof.
  intros (Hw & Hh & Hl & Hc) Hx.
  destruct (zget_in_range (mmat m) x) as [c E]; [lia|].
  exists c. split; auto. rewrite Forall_forall in Hc. apply Hc. eapply zget_In; eauto.
Qed.

Lemma m_at_in m x y : in_range m x y -> m_at m x y = (rawget m x y, None).
Proof.
  unfold in_range, m_at. intros [[] []].
  destruct (Z.leb_spec (mwidth m) x); [lia|]. destruct (Z.ltb_spec x 0); [lia|].
  destruct (Z.leb_spec (mheight m) y); [lia|]. destruct (Z.ltb_spec y 0); [lia|]. reflexivity.
Qed.

Lemma m_set_out m x y c : ~ in_range m x y -> m_set m x y c = m.
Proof.
  unfold in_range, m_set. intros H.
  destruct (Z.leb_spec (mwidth m) x); [reflexivity|]. destruct (Z.ltb_spec x 0); [reflexivity|].
  destruct (Z.leb_spec (mheight m) y); [reflexivity|]. destruct (Z.ltb_spec y 0); [reflexivity|].
  exfalso; apply H; lia.
Qed.

Lemma m_set_in m x y c col : in_range m x y -> zget (mmat m) x = Some col ->
  m_set m x y c = mkMatrix (zupd (mmat m) x (zupd col y c)) (mwidth m) (mheight m).
Proof.
  unfold in_range, m_set. intros [[] []] E.
  destruct (Z.leb_spec (mwidth m) x); [lia|]. destruct (Z.ltb_spec x 0); [lia|].
  destruct (Z.leb_spec (mheight m) y); [lia|]. destruct (Z.ltb_spec y 0); [lia|].
  rewrite E. reflexivity.
Qed.

Lemma m_set_dims m x y c : mwidth (m_set m x y c) = mwidth m /\ mheight (m_set m x y c) = mheight m.
Proof.
  unfold m_set. destruct (_ || _); [auto|]. destruct (_ || _); [auto|]. simpl; auto.
Qed.
Lemma m_set_width m x y c : mwidth (m_set m x y c) = mwidth m. Proof. apply m_set_dims. Qed.
Lemma m_set_height m x y c : mheight (m_set m x y c) = mheight m. Proof. apply m_set_dims. Qed.

Lemma in_range_dec m x y : in_range m x y \/ ~ in_range m x y.
Proof.
  destruct (in_rangeb m x y) eqn:E; [left|right]; rewrite <- in_rangeb_spec, E; congruence.
Qed.

Lemma Forall_upd {A} (P : A -> Prop) l n a : Forall P l -> P a -> Forall P (upd_nat l n a).
Proof.
  intros Hl Ha. revert n. induction Hl as [|x l Hx Hl IH]; intros [|n]; simpl; auto.
Qed.
Lemma Forall_zupd {A} (P : A -> Prop) l i a : Forall P l -> P a -> Forall P (zupd l i a).
Proof. unfold zupd. destruct (i <? 0); auto using Forall_upd. Qed.

Lemma wf_set m x y c : wf m -> wf (m_set m x y c).
Proof.
  intros H. destruct (in_range_dec m x y) as [R|R]; [|rewrite m_set_out; auto].
  destruct (wf_col m x H) as (col & E & L); [apply R|].
  rewrite (m_set_in _ _ _ _ col R E).
  destruct H as (Hw & Hh & Hl & Hc). unfold wf; simpl. repeat split; auto.
  - rewrite zlen_zupd; auto.
  - apply Forall_zupd; auto. rewrite zlen_zupd; auto.
Qed.

Lemma rawget_set m x y c x' y' : wf m -> in_range m x y ->
  rawget (m_set m x y c) x' y' = if (x =? x') && (y =? y') then c else rawget m x' y'.
Proof.
  intros H R. destruct (wf_col m x H) as (col & E & L); [apply R|].
  rewrite (m_set_in _ _ _ _ col R E). unfold rawget at 1; simpl.
  rewrite zget_zupd by (destruct H as (?&?&->&?); apply R).
  destruct (Z.eqb_spec x x') as [<-|N]; simpl.
  - rewrite zget_zupd by (rewrite L; apply R).
    destruct (Z.eqb_spec y y') as [<-|N]; [reflexivity|].
    unfold rawget. rewrite E. reflexivity.
  - reflexivity.
Qed.

Lemma rawget_set_same m x y c : wf m -> in_range m x y -> rawget (m_set m x y c) x y = c.
Proof. intros. rewrite rawget_set by auto. rewrite !Z.eqb_refl. reflexivity. Qed.

Lemma rawget_set_other m x y c x' y' : wf m -> (x, y) <> (x', y') ->
  rawget (m_set m x y c) x' y' = rawget m x' y'.
Proof.
  intros H N. destruct (in_range_dec m x y) as [R|R]; [|rewrite m_set_out; auto].
  rewrite rawget_set by auto.
  destruct (Z.eqb_spec x x'), (Z.eqb_spec y y'); simpl; try reflexivity. congruence.
Qed.

Lemma wf_new w h : 0 <= w -> 0 <= h -> wf (newMatrix w h).
Proof.
  intros. unfold wf, newMatrix; simpl. repeat split; auto.
  - rewrite zlen_map. unfold zlen. rewrite zseq_length. lia.
  - apply Forall_forall. intros c Hc. apply in_map_iff in Hc as (k & <- & _).
    rewrite zlen_map. unfold zlen. rewrite zseq_length. lia.
Qed.

Lemma rawget_new w h x y : 0 <= x < w -> 0 <= y < h -> rawget (newMatrix w h) x y = QRValue_INIT_V0.
Proof.
  intros Hx Hy. unfold rawget, newMatrix; simpl mmat.
  rewrite zget_map, (zseq_upto w), zget_upto by auto. simpl option_map. cbv beta iota.
  rewrite zget_map, zseq_upto, zget_upto by auto. reflexivity.
Qed.

(* Copy of a well-formed matrix *)
Lemma m_copy_id m : wf m -> m_copy m = m.
Proof.
  intros (Hw & Hh & Hl & Hc). unfold m_copy. rewrite zseq_upto, <- Hl, map_zget_id, Hl.
  destruct m; reflexivity.
Qed.

(* coordinates *)
Lemma in_iter_coords dir w h x y : In (x, y) (iter_coords dir w h) <-> 0 <= x < w /\ 0 <= y < h.
Proof.
  destruct dir; unfold iter_coords; rewrite in_flat_map; split.
  - intros (k & Hk & H). apply in_map_iff in H as (k' & E & Hk'). injection E as -> ->.
    rewrite in_zseq in Hk, Hk'. lia.
  - intros [Hx Hy]. exists y. rewrite in_zseq. split; [lia|]. apply in_map_iff. exists x.
    rewrite in_zseq. split; [auto|lia].
  - intros (k & Hk & H). apply in_map_iff in H as (k' & E & Hk'). injection E as -> ->.
    rewrite in_zseq in Hk, Hk'. lia.
  - intros [Hx Hy]. exists x. rewrite in_zseq. split; [lia|]. apply in_map_iff. exists y.
    rewrite in_zseq. split; [auto|lia].
Qed.

Lemma NoDup_flat_map {A B} (f : A -> list B) l :
  NoDup l -> (forall a, In a l -> NoDup (f a)) ->
  (forall a b x, In a l -> In b l -> In x (f a) -> In x (f b) -> a = b) ->
  NoDup (flat_map f l).
Proof.
  induction 1 as [|a l Ha Hl IH]; intros Hf Hd; simpl; [constructor|].
  apply NoDup_app_intro.
  - apply Hf; simpl; auto.
  - apply IH; intros; [apply Hf; simpl; auto|]. eapply Hd; simpl; eauto.
  - intros x H1 H2. apply in_flat_map in H2 as (b & Hb & Hx).
    assert (a = b) by (eapply Hd; simpl; eauto). subst. contradiction.
Qed.

Lemma NoDup_iter_coords dir w h : NoDup (iter_coords dir w h).
Proof.
  destruct dir; unfold iter_coords; apply NoDup_flat_map; try apply NoDup_zseq;
    intros; try (apply FinFun.Injective_map_NoDup; [intros ? ?; congruence|apply NoDup_zseq]).
  - apply in_map_iff in H1 as (? & <- & _). apply in_map_iff in H2 as (? & E & _). congruence.
  - apply in_map_iff in H1 as (? & <- & _). apply in_map_iff in H2 as (? & E & _). congruence.
Qed.

(* fold of a step that touches and reads only the module it is applied to *)
Definition eq_pos (p q : Z * Z) : bool := (fst p =? fst q) && (snd p =? snd q).
Lemma eq_pos_spec p q : eq_pos p q = true <-> p = q.
Proof.
  destruct p, q; unfold eq_pos; simpl. rewrite andb_true_iff, !Z.eqb_eq. split; [intros []|intros [=]]; subst; auto.
Qed.
Lemma eq_pos_refl p : eq_pos p p = true. Proof. apply eq_pos_spec; reflexivity. Qed.

Lemma fold_cells (step : Matrix -> Z * Z -> Matrix) (g : Z -> Z -> Z -> Z) W Hh coords m :
  (forall m x y, wf m -> mwidth m = W -> mheight m = Hh -> In (x, y) coords ->
     wf (step m (x, y)) /\ mwidth (step m (x, y)) = W /\ mheight (step m (x, y)) = Hh /\
     forall x' y', rawget (step m (x, y)) x' y' =
       if eq_pos (x, y) (x', y') then g x y (rawget m x y) else rawget m x' y') ->
  NoDup coords -> wf m -> mwidth m = W -> mheight m = Hh ->
  let r := fold_left step coords m in
  wf r /\ mwidth r = W /\ mheight r = Hh /\
  (forall x y, In (x, y) coords -> rawget r x y = g x y (rawget m x y)) /\
  (forall x y, ~ In (x, y) coords -> rawget r x y = rawget m x y).
Proof.
  intros Hs Nd. revert m. induction Nd as [|[x0 y0] l Hn Nd IH]; intros m Hwf HW HH.
  - simpl. do 3 (split; [auto|]). split; [intros x y []|auto].
  - simpl. destruct (Hs m x0 y0 Hwf HW HH) as (Hwf1 & HW1 & HH1 & Hg); [simpl; auto|].
    destruct (IH (fun m' x y a b c d => Hs m' x y a b c (or_intror d)) _ Hwf1 HW1 HH1)
      as (Hwf2 & HW2 & HH2 & Hin & Hout).
    do 3 (split; [auto|]). split.
    + intros x y [E|Hi].
      * injection E as -> ->. rewrite Hout by auto. rewrite Hg, eq_pos_refl. reflexivity.
      * rewrite Hin by auto. rewrite Hg.
        destruct (eq_pos (x0, y0) (x, y)) eqn:E; [|reflexivity].
        apply eq_pos_spec in E. injection E as -> ->. contradiction.
    + intros x y Hni. rewrite Hout by (intro; apply Hni; simpl; auto).
      rewrite Hg. destruct (eq_pos (x0, y0) (x, y)) eqn:E; [|reflexivity].
      apply eq_pos_spec in E. exfalso; apply Hni; simpl; auto.
Qed.

Lemma rawget_ext m1 m2 : wf m1 -> wf m2 -> mwidth m1 = mwidth m2 -> mheight m1 = mheight m2 ->
  (forall x y, in_range m1 x y -> rawget m1 x y = rawget m2 x y) -> m1 = m2.
Proof.
  intros H1 H2 HW HH HG. destruct m1 as [l1 w1 h1], m2 as [l2 w2 h2]. simpl in *. subst w2 h2.
  f_equal. apply list_ext. intros i.
  destruct (Z.ltb_spec (Z.of_nat i) w1) as [Hi|Hi].
  - destruct (wf_col _ (Z.of_nat i) H1) as (c1 & E1 & L1); [simpl; lia|].
    destruct (wf_col _ (Z.of_nat i) H2) as (c2 & E2 & L2); [simpl; lia|].
    simpl in *. assert (G : c1 = c2).
    { apply list_ext. intros j.
      destruct (Z.ltb_spec (Z.of_nat j) h1) as [Hj|Hj].
      - specialize (HG (Z.of_nat i) (Z.of_nat j)). unfold rawget, in_range in HG. simpl in HG.
        rewrite E1, E2 in HG.
        destruct (zget_in_range c1 (Z.of_nat j)) as [a1 A1]; [lia|].
        destruct (zget_in_range c2 (Z.of_nat j)) as [a2 A2]; [lia|].
        rewrite A1, A2 in HG. rewrite zget_nth in A1, A2 by lia. rewrite Nat2Z.id in A1, A2.
        rewrite A1, A2. f_equal. apply HG; lia.
      - rewrite !(proj2 (nth_error_None _ _)); auto; unfold zlen in *; lia. }
    rewrite zget_nth in E1, E2 by lia. rewrite Nat2Z.id in E1, E2. congruence.
  - destruct H1 as (?&?&L1&?), H2 as (?&?&L2&?). unfold zlen in *; simpl in *.
    rewrite !(proj2 (nth_error_None _ _)); auto; lia.
Qed.

(* Bitmap *)
Definition rows_of (m : Matrix) : list (list bool) :=
  map (fun y => map (fun x => qrbool (rawget m x y)) (upto (mwidth m))) (upto (mheight m)).

Definition tset (table : list (list bool)) (x y : Z) (b : bool) : list (list bool) :=
  match zget table y with Some row => zupd table y (zupd row x b) | None => table end.
Definition tget (table : list (list bool)) (x y : Z) : option bool :=
  match zget table y with Some row => zget row x | None => None end.
Definition twf (table : list (list bool)) (w h : Z) : Prop :=
  zlen table = h /\ Forall (fun r => zlen r = w) table.

Lemma twf_row t w h y : twf t w h -> 0 <= y < h -> exists r, zget t y = Some r /\ zlen r = w.
Proof.
  intros [L F] Hy. destruct (zget_in_range t y) as [r E]; [lia|]. exists r; split; auto.
  rewrite Forall_forall in F. eapply F, zget_In; eauto.
Qed.

Lemma tset_spec t w h x y b : twf t w h -> 0 <= x < w -> 0 <= y < h ->
  twf (tset t x y b) w h /\
  forall x' y', tget (tset t x y b) x' y' = if eq_pos (x, y) (x', y') then Some b else tget t x' y'.
Proof.
  intros H Hx Hy. destruct (twf_row t w h y H Hy) as (r & E & L). destruct H as [LT F].
  unfold tset. rewrite E. split.
  - split; [rewrite zlen_zupd; auto|]. apply Forall_zupd; auto. rewrite zlen_zupd; auto.
  - intros x' y'. unfold tget, eq_pos; simpl. rewrite zget_zupd by lia.
    destruct (Z.eqb_spec y y') as [<-|N].
    + rewrite zget_zupd by lia. rewrite E, andb_true_r. reflexivity.
    + rewrite andb_false_r. reflexivity.
Qed.

Lemma fold_tset (f : Z -> Z -> bool) w h coords t :
  (forall x y, In (x, y) coords -> 0 <= x < w /\ 0 <= y < h) -> NoDup coords -> twf t w h ->
  let r := fold_left (fun t '(x, y) => tset t x y (f x y)) coords t in
  twf r w h /\ (forall x y, In (x, y) coords -> tget r x y = Some (f x y)) /\
  (forall x y, ~ In (x, y) coords -> tget r x y = tget t x y).
Proof.
  intros Hr Nd. revert t. induction Nd as [|[x0 y0] l Hn Nd IH]; intros t Ht.
  - simpl. split; [auto|]. split; [intros x y []|auto].
  - simpl. destruct (Hr x0 y0) as [Hx Hy]; [simpl; auto|].
    destruct (tset_spec t w h x0 y0 (f x0 y0) Ht Hx Hy) as [Ht1 Hg].
    destruct (IH (fun x y H => Hr x y (or_intror H)) _ Ht1) as (Ht2 & Hin & Hout).
    split; [auto|]. split.
    + intros x y [E|Hi]; [|auto]. injection E as -> ->. rewrite Hout by auto. rewrite Hg, eq_pos_refl. reflexivity.
    + intros x y Hni. rewrite Hout by (intro; apply Hni; simpl; auto). rewrite Hg.
      destruct (eq_pos (x0, y0) (x, y)) eqn:E; [|reflexivity].
      apply eq_pos_spec in E. exfalso; apply Hni; simpl; auto.
Qed.

Lemma twf_ext t1 t2 w h : twf t1 w h -> twf t2 w h ->
  (forall x y, 0 <= x < w -> 0 <= y < h -> tget t1 x y = tget t2 x y) -> t1 = t2.
Proof.
  intros H1 H2 HG. apply list_ext. intros i.
  destruct (Z.ltb_spec (Z.of_nat i) h) as [Hi|Hi].
  - destruct (twf_row t1 w h (Z.of_nat i) H1) as (r1 & E1 & L1); [lia|].
    destruct (twf_row t2 w h (Z.of_nat i) H2) as (r2 & E2 & L2); [lia|].
    assert (r1 = r2).
    { apply list_ext. intros j. destruct (Z.ltb_spec (Z.of_nat j) w) as [Hj|Hj].
      - specialize (HG (Z.of_nat j) (Z.of_nat i)). unfold tget in HG. rewrite E1, E2 in HG.
        rewrite !zget_nth in HG by lia. rewrite !Nat2Z.id in HG. apply HG; lia.
      - rewrite !(proj2 (nth_error_None _ _)); auto; unfold zlen in *; lia. }
    rewrite zget_nth in E1, E2 by lia. rewrite Nat2Z.id in E1, E2. congruence.
  - destruct H1 as [L1 _], H2 as [L2 _]. unfold zlen in *.
    rewrite !(proj2 (nth_error_None _ _)); auto; lia.
Qed.

Lemma bitmap_rows m : wf m -> m_bitmap m = rows_of m.
Proof.
  intros (Hw & Hh & _ & _). unfold m_bitmap, m_iter.
  set (t0 := repeat _ _).
  assert (Ht0 : twf t0 (mwidth m) (mheight m)).
  { unfold t0, twf. split; [unfold zlen; rewrite repeat_length; lia|].
    apply Forall_forall. intros r Hr. apply repeat_spec in Hr. subst.
    unfold zlen; rewrite repeat_length; lia. }
  pose proof (fold_tset (fun x y => qrbool (rawget m x y)) (mwidth m) (mheight m)
    (iter_coords IterDirection_ROW (mwidth m) (mheight m)) t0) as Hf.
  destruct Hf as (Hwf & Hin & _); auto.
  { intros x y Hi. apply in_iter_coords in Hi. auto. }
  { apply NoDup_iter_coords. }
  unfold tset in Hwf, Hin.
  eapply (twf_ext _ _ (mwidth m) (mheight m)); [exact Hwf| |].
  - unfold rows_of, twf. split; [rewrite zlen_map; unfold zlen; rewrite upto_length; lia|].
    apply Forall_forall. intros r Hr. apply in_map_iff in Hr as (y & <- & _).
    rewrite zlen_map; unfold zlen; rewrite upto_length; lia.
  - intros x y Hx Hy. etransitivity; [apply Hin, in_iter_coords; auto|].
    unfold tget, rows_of. rewrite zget_map, zget_upto by auto. simpl.
    rewrite zget_map, zget_upto by auto. reflexivity.
Qed.
