From Coq Require Import Lia.
From Verif Require Import ModelBase ModelMatrix ModelTerminal SpecReader SpecMatrix SpecTerminal ProofBase ProofMatrix ProofViews ProofEval.

(* does any call of the list set (px, py)? *)
Definition at_pos (px py : Z) (c : setcell) : bool := let '(x, y, _) := c in (px =? x) && (py =? y).
Definition inside_t (t : terminal) (px py : Z) : Prop := 0 <= px < t_width t /\ 0 <= py < t_height t.

Lemma set_size t c : t_width (SetCell t c) = t_width t /\ t_height (SetCell t c) = t_height t.
Proof. destruct c as [[x y] c]. unfold SetCell. destruct (_ || _); auto. Qed.
Lemma fold_size calls : forall t, t_width (fold_left SetCell calls t) = t_width t /\ t_height (fold_left SetCell calls t) = t_height t.
Proof. induction calls as [|c calls IH]; intros t; [auto|]. cbn [fold_left]. destruct (set_size t c) as [<- <-]. apply IH. Qed.

Lemma set_at t x y c px py : inside_t t px py -> t_cell (SetCell t (x, y, c)) px py = if (px =? x) && (py =? y) then c else t_cell t px py.
Proof.
  intros [A B]. unfold SetCell. destruct ((x <? 0) || (t_width t <=? x) || (y <? 0) || (t_height t <=? y)) eqn:E; [|reflexivity].
  destruct (Z.eqb_spec px x) as [->|]; [|reflexivity]. destruct (Z.eqb_spec py y) as [->|]; [|reflexivity].
  destruct (Z.ltb_spec x 0), (Z.leb_spec (t_width t) x), (Z.ltb_spec y 0), (Z.leb_spec (t_height t) y); lia.
Qed.

Lemma fold_none calls px py : forall t, inside_t t px py -> existsb (at_pos px py) calls = false -> t_cell (fold_left SetCell calls t) px py = t_cell t px py.
Proof.
  induction calls as [|[[x y] c] calls IH]; intros t I E; [reflexivity|]. cbn [existsb] in E. apply orb_false_iff in E as [E1 E2].
  cbn [fold_left]. rewrite IH; [|destruct (set_size t (x, y, c)) as [S1 S2]; unfold inside_t; rewrite S1, S2; exact I|exact E2].
  rewrite set_at by exact I. unfold at_pos in E1. rewrite E1. reflexivity.
Qed.
Lemma fold_some calls px py v : forall t, inside_t t px py -> existsb (at_pos px py) calls = true ->
  (forall c, In (px, py, c) calls -> c = v) -> t_cell (fold_left SetCell calls t) px py = v.
Proof.
  induction calls as [|[[x y] c] calls IH]; intros t I E A; [discriminate E|].
  assert (I' : inside_t (SetCell t (x, y, c)) px py) by (destruct (set_size t (x, y, c)) as [S1 S2]; unfold inside_t; rewrite S1, S2; exact I).
  cbn [fold_left]. destruct (existsb (at_pos px py) calls) eqn:E'.
  - apply IH; auto. intros d D. apply A. right. exact D.
  - rewrite fold_none by auto. cbn [existsb] in E. rewrite E', orb_false_r in E. unfold at_pos in E. rewrite set_at by exact I. rewrite E.
    apply A. left. apply andb_true_iff in E as [E1 E2]. apply Z.eqb_eq in E1, E2. subst. reflexivity.
Qed.
Lemma exists_at calls px py : existsb (at_pos px py) calls = true <-> exists c, In (px, py, c) calls.
Proof.
  rewrite existsb_exists. split.
  - intros ([[x y] c] & I & E). unfold at_pos in E. apply andb_true_iff in E as [E1 E2]. apply Z.eqb_eq in E1, E2. subst. eauto.
  - intros [c I]. exists (px, py, c). split; [exact I|]. unfold at_pos. rewrite !Z.eqb_refl. reflexivity.
Qed.

(* the three groups of calls *)
Lemma preDraw_in w h px py c : 0 <= w -> 0 <= h ->
  (In (px, py, c) (preDraw w h 1 ColorWhite) <-> c = solid false /\ 0 <= px < 2 * w + 4 /\ 0 <= py < h + 2).
Proof.
  intros HW HH. unfold preDraw. rewrite in_flat_map. setoid_rewrite in_zseq. setoid_rewrite in_flat_map. setoid_rewrite in_zseq. split.
  - intros (i & Hi & j & Hj & I). unfold drawBlock in I. cbn [In] in I. destruct I as [E|[E|[]]]; injection E as <- <- <-; repeat split; lia.
  - intros (-> & HX & HY). exists (px / 2). pose proof (Z.div_mod px 2 ltac:(lia)) as D. pose proof (Z.mod_pos_bound px 2 ltac:(lia)) as D'.
    split; [lia|]. exists py. split; [lia|]. unfold drawBlock. cbn [In]. unfold solid.
    assert (M : px mod 2 = 0 \/ px mod 2 = 1) by lia. destruct M as [M|M]; [left|right; left]; f_equal; f_equal; lia.
Qed.

Definition module_calls (m : Matrix) : list setcell :=
  flat_map (fun '(x, y) => drawBlock x y 1 (if qrbool (rawget m x y) then ColorBlack else ColorWhite) ColorWhite)
           (iter_coords IterDirection_ROW (mwidth m) (mheight m)).

Lemma zseq_snoc s k : zseq s (Z.of_nat (S k)) = zseq s (Z.of_nat k) ++ [s + Z.of_nat k].
Proof. unfold zseq. rewrite !Nat2Z.id, !zseq_nat_spec. rewrite seq_S, map_app. reflexivity. Qed.
Lemma last_snoc {A} (l : list A) x d : last (l ++ [x]) d = x.
Proof. apply last_last. Qed.
Lemma row_last w h d : 1 <= w -> 1 <= h -> snd (last (iter_coords IterDirection_ROW w h) d) = h - 1.
Proof.
  intros HW HH. unfold iter_coords. replace h with (Z.of_nat (S (Z.to_nat (h - 1)))) by lia. set (k := Z.to_nat (h - 1)).
  rewrite zseq_snoc, flat_map_app. cbn [flat_map]. rewrite app_nil_r.
  replace w with (Z.of_nat (S (Z.to_nat (w - 1)))) by lia. rewrite zseq_snoc, map_app, app_assoc. cbn [map]. rewrite last_snoc. cbn [snd]. lia.
Qed.

Lemma fold_left_ext' {A B} (f g : A -> B -> A) l : (forall a b, f a b = g a b) -> forall a, fold_left f l a = fold_left g l a.
Proof. intros E. induction l as [|b l IH]; intros a; [reflexivity|]. cbn [fold_left]. rewrite E. apply IH. Qed.
Lemma iter_split m : forall l c r, fold_left (fun '(calls, _) '(x, y) => (calls ++ drawBlock x y 1 (if qrbool (rawget m x y) then ColorBlack else ColorWhite) ColorWhite, y)) l (c, r) =
  (c ++ flat_map (fun '(x, y) => drawBlock x y 1 (if qrbool (rawget m x y) then ColorBlack else ColorWhite) ColorWhite) l,
   snd (last l (0, r))).
Proof.
  induction l as [|[x y] l IH]; intros c r; [rewrite app_nil_r; reflexivity|]. cbn [fold_left flat_map]. rewrite IH, <- app_assoc. f_equal.
  destruct l as [|p l]; [reflexivity|]. change (last ((x, y) :: p :: l) (0, r)) with (last (p :: l) (0, r)).
  clear IH. revert p. induction l as [|q l IH]; intros p; [reflexivity|]. exact (IH q).
Qed.
Lemma write_calls_split m : 1 <= mwidth m -> 1 <= mheight m ->
  write_calls m = preDraw (mwidth m) (mheight m) 1 ColorWhite ++ module_calls m ++ printTip (mheight m + 3).
Proof.
  intros HW HH. unfold write_calls, m_iter.
  match goal with |- (let '(_, _) := ?e in _) = _ => assert (E : e =
    (preDraw (mwidth m) (mheight m) 1 ColorWhite ++ module_calls m, mheight m - 1)) end.
  { etransitivity; [|etransitivity; [apply (iter_split m (iter_coords IterDirection_ROW (mwidth m) (mheight m)) (preDraw (mwidth m) (mheight m) 1 ColorWhite) 0)|]].
    - apply fold_left_ext'. intros [? ?] [? ?]. reflexivity.
    - rewrite row_last by assumption. reflexivity. }
  rewrite E, <- app_assoc. do 3 f_equal. lia.
Qed.

Lemma module_calls_in m px py c :
  In (px, py, c) (module_calls m) <->
  c = solid (qrbool (rawget m (px / 2 - 1) (py - 1))) /\ 2 <= px < 2 * mwidth m + 2 /\ 1 <= py < mheight m + 1.
Proof.
  unfold module_calls. rewrite in_flat_map. split.
  - intros ([x y] & Hi & I). apply in_iter_coords in Hi. unfold drawBlock in I. cbn [In] in I.
    destruct I as [E|[E|[]]]; injection E as <- <- <-.
    + replace ((x * 2 + 2) / 2) with (x + 1) by (replace (x * 2 + 2) with ((x + 1) * 2) by lia; rewrite Z.div_mul; lia).
      replace (x + 1 - 1) with x by lia. replace (y + 1 - 1) with y by lia. split; [reflexivity|lia].
    + replace ((x * 2 + 2 + 1) / 2) with (x + 1) by (replace (x * 2 + 2 + 1) with ((x + 1) * 2 + 1) by lia; rewrite Z.div_add_l by lia; change (1 / 2) with 0; lia).
      replace (x + 1 - 1) with x by lia. replace (y + 1 - 1) with y by lia. split; [reflexivity|lia].
  - intros (-> & HX & HY). exists (px / 2 - 1, py - 1).
    pose proof (Z.div_mod px 2 ltac:(lia)) as D. pose proof (Z.mod_pos_bound px 2 ltac:(lia)) as D'.
    split; [apply in_iter_coords; lia|]. unfold drawBlock, solid, fullBlock. cbn [In].
    assert (M : px mod 2 = 0 \/ px mod 2 = 1) by lia. destruct M as [M|M]; [left|right; left]; f_equal; f_equal; lia.
Qed.

Lemma printTip_eq y : printTip y = map (fun k => (k, y, mkCell (nth (Z.to_nat k) tip 0) ColorDefault ColorDefault)) (zseq 0 22).
Proof. reflexivity. Qed.
Lemma printTip_in y px py c : In (px, py, c) (printTip y) <-> py = y /\ 0 <= px < 22 /\ c = mkCell (nth (Z.to_nat px) tip 0) ColorDefault ColorDefault.
Proof.
  rewrite printTip_eq, in_map_iff. split.
  - intros (k & E & I). apply in_zseq in I. injection E as <- <- <-. repeat split; lia.
  - intros (-> & HX & ->). exists px. split; [reflexivity|]. apply in_zseq. lia.
Qed.

Lemma fold_group calls px py v t (P : bool) : inside_t t px py ->
  (forall c, In (px, py, c) calls <-> c = v /\ P = true) ->
  t_cell (fold_left SetCell calls t) px py = if P then v else t_cell t px py.
Proof.
  intros I A. destruct P eqn:EP.
  - apply fold_some; [exact I| |]. + apply exists_at. exists v. apply A. auto. + intros c C. apply A in C. tauto.
  - apply fold_none; [exact I|]. destruct (existsb _ _) eqn:E; [|reflexivity]. apply exists_at in E as [c C]. apply A in C as [_ C]. discriminate C.
Qed.

Lemma screen_spec t m n px py : wf m -> mwidth m = n -> mheight m = n -> 1 <= n -> inside_t t px py ->
  t_cell (fold_left SetCell (write_calls m) t) px py = screen n (m_bitmap m) (t_cell t) px py.
Proof.
  intros Wf EW EH Hn I. rewrite write_calls_split by lia. rewrite !fold_left_app, EW, EH.
  assert (I1 : forall l, inside_t (fold_left SetCell l t) px py).
  { intros l. destruct (fold_size l t) as [A B]. unfold inside_t. rewrite A, B. exact I. }
  assert (I2 : forall l l', inside_t (fold_left SetCell l (fold_left SetCell l' t)) px py).
  { intros l l'. rewrite <- fold_left_app. apply I1. }
  rewrite (fold_group (printTip (n + 3)) px py (mkCell (nth (Z.to_nat px) tip 0) ColorDefault ColorDefault) _
             ((py =? n + 3) && (0 <=? px) && (px <? 22)) (I2 _ _)).
  2:{ intros c. rewrite printTip_in, !andb_true_iff, Z.eqb_eq, Z.leb_le, Z.ltb_lt. tauto. }
  rewrite (fold_group (module_calls m) px py (solid (qrbool (rawget m (px / 2 - 1) (py - 1)))) _
             ((2 <=? px) && (px <? 2 * n + 2) && (1 <=? py) && (py <? n + 1)) (I1 _)).
  2:{ intros c. rewrite module_calls_in, !andb_true_iff, !Z.leb_le, !Z.ltb_lt, EW, EH. tauto. }
  rewrite (fold_group (preDraw n n 1 ColorWhite) px py (solid false) _
             ((0 <=? px) && (px <? 2 * n + 4) && (0 <=? py) && (py <? n + 2)) I).
  2:{ intros c. rewrite preDraw_in by lia. rewrite !andb_true_iff, !Z.leb_le, !Z.ltb_lt. tauto. }
  unfold screen.
  destruct ((2 <=? px) && (px <? 2 * n + 2) && (1 <=? py) && (py <? n + 1)) eqn:E1.
  - rewrite !andb_true_iff, !Z.leb_le, !Z.ltb_lt in E1.
    destruct (Z.eqb_spec py (n + 3)); [lia|]. cbn [andb]. f_equal. symmetry. apply module_at_bitmap; [assumption|].
    pose proof (Z.div_mod px 2 ltac:(lia)) as D. pose proof (Z.mod_pos_bound px 2 ltac:(lia)) as D'.
    unfold in_range. rewrite EW, EH. lia.
  - destruct ((0 <=? px) && (px <? 2 * n + 4) && (0 <=? py) && (py <? n + 2)) eqn:E2; [|reflexivity].
    rewrite !andb_true_iff, !Z.leb_le, !Z.ltb_lt in E2. destruct (Z.eqb_spec py (n + 3)); [lia|]. reflexivity.
Qed.

Lemma hold_spec events k : forall polled, hold_loop events polled = HoldReturned k ->
  exists pre post, events = pre ++ EventKey :: post /\ ~ In EventKey pre /\ k = (polled + length pre + 1)%nat.
Proof.
  induction events as [|[] events IH]; intros polled E; cbn [hold_loop] in E.
  - discriminate E.
  - injection E as <-. exists [], events. cbn. repeat split; [tauto|lia].
  - apply IH in E as (pre & post & -> & N & ->). exists (EventOther :: pre), post. repeat split.
    + intros [X|X]; [discriminate X|tauto]. + cbn. lia.
Qed.
Lemma hold_all pre post : forall polled, ~ In EventKey pre -> hold_loop (pre ++ EventKey :: post) polled = HoldReturned (polled + length pre + 1)%nat.
Proof.
  induction pre as [|[] pre IH]; intros polled N; cbn [hold_loop app length].
  - f_equal. lia. - exfalso. apply N. left. reflexivity.
  - rewrite IH; [f_equal; lia|]. intros X. apply N. right. exact X.
Qed.
Lemma hold_none events : forall polled, ~ In EventKey events -> hold_loop events polled = HoldWaiting.
Proof. induction events as [|[] r IH]; intros p N; cbn [hold_loop]; [reflexivity|exfalso; apply N; left; reflexivity|]. apply IH. intros X. apply N. right. exact X. Qed.
