(* The shapes whose float64 arithmetic is exact, and all of them together. *)
From Coq Require Import Lia.
From Verif Require Import ModelBase ModelMatrix ModelStandard ModelFloat ModelShapes ModelShapes64.
From Verif Require Import SpecReader SpecMatrix SpecStandard SpecFloat64 SpecShape SpecShapes SpecShapes64 ProofStandard ProofLinks ProofFloat ProofFloatNear ProofShapes ProofShapes64.
From Coq Require Import QArith Qabs Lqa Lia.
Open Scope Z_scope.

Local Notation Add := ModelShapes.Add.

(* ---- pieces with the same numbers ---- *)
Definition pteq (p q : pt) : Prop := (fst p == fst q /\ snd p == snd q)%Q.
Inductive peq : piece -> piece -> Prop :=
| peq_rect x y w h x' y' w' h' : (x == x' -> y == y' -> w == w' -> h == h' -> peq (Rect x y w h) (Rect x' y' w' h'))%Q
| peq_disc x y r x' y' r' : (x == x' -> y == y' -> r == r' -> peq (Disc x y r) (Disc x' y' r'))%Q
| peq_curve ps ps' core core' : Forall2 pteq ps ps' -> Forall2 pteq core core' -> peq (Curve ps core) (Curve ps' core').
Definition opeq (a b : op) : Prop := match a, b with Add g, Add g' => peq g g' | Fill, Fill => True | _, _ => False end.

Lemma qb a b a' b' : (a == a' -> b == b' -> Qle_bool a b = Qle_bool a' b')%Q.
Proof. intros E F. apply eq_true_iff_eq. rewrite !Qle_bool_iff, E, F. reflexivity. Qed.
Lemma forallb_eq {A B} (R : A -> B -> Prop) f g l l' : Forall2 R l l' -> (forall a b, R a b -> f a = g b) -> forallb f l = forallb g l'.
Proof. intros F E. induction F; [reflexivity|]. cbn [forallb]. rewrite (E _ _ H), IHF. reflexivity. Qed.
Lemma none_eq g g' px py : peq g g' -> none g px py = none g' px py.
Proof.
  intros [x y w h x' y' w' h' E1 E2 E3 E4|x y r x' y' r' E1 E2 E3|ps ps' core core' E1 E2]; cbn [none].
  - rewrite (qb (qpx px + 1) x (qpx px + 1) x'), (qb (x + w) (qpx px) (x' + w') (qpx px)), (qb (qpx py + 1) y (qpx py + 1) y'), (qb (y + h) (qpx py) (y' + h') (qpx py)); try reflexivity; lra.
  - rewrite (qb (qpx px + 1) (x - r) (qpx px + 1) (x' - r')), (qb (x + r) (qpx px) (x' + r') (qpx px)), (qb (qpx py + 1) (y - r) (qpx py + 1) (y' - r')), (qb (y + r) (qpx py) (y' + r') (qpx py)); try reflexivity; lra.
  - unfold separated. induction directions as [|d ds IH]; [reflexivity|]. cbn [existsb]. f_equal; [|exact IH].
    apply (forallb_eq pteq); [exact E1|]. intros p p' [P1 P2]. clear IH. induction (corners_of px py) as [|c cs IHc]; [reflexivity|]. cbn [forallb]. f_equal; [|exact IHc].
    apply qb; [|reflexivity]. unfold along_dir. rewrite P1, P2. reflexivity.
Qed.
Lemma side_eq a b a' b' p : pteq a a' -> pteq b b' -> on_side a b p = on_side a' b' p.
Proof. intros [A1 A2] [B1 B2]. unfold on_side. apply qb; [reflexivity|]. rewrite A1, A2, B1, B2. reflexivity. Qed.
Lemma polygon_eq core core' p : Forall2 pteq core core' -> in_polygon core p = in_polygon core' p.
Proof.
  intros F. destruct F as [|a a' r r' A F]; [reflexivity|]. unfold in_polygon, edges.
  assert (FL : Forall2 pteq (a :: r) (a' :: r')) by (constructor; assumption). assert (FR : Forall2 pteq (r ++ [a]) (r' ++ [a'])) by (apply Forall2_app; [exact F|repeat constructor; apply A]).
  revert FL FR. generalize (a :: r) (a' :: r') (r ++ [a]) (r' ++ [a']). clear. intros l l' m m' FL. revert m m'.
  induction FL as [|x x' l l' X FL IH]; intros m m' FR; [reflexivity|]. destruct FR as [|y y' m m' Y FR]; [reflexivity|].
  cbn [combine forallb]. rewrite (side_eq x y x' y' p X Y), (IH m m' FR). reflexivity.
Qed.
Lemma full_eq g g' px py : peq g g' -> full g px py = full g' px py.
Proof.
  intros [x y w h x' y' w' h' E1 E2 E3 E4|x y r x' y' r' E1 E2 E3|ps ps' core core' E1 E2]; cbn [full].
  - rewrite (qb x (qpx px) x' (qpx px)), (qb (qpx px + 1) (x + w) (qpx px + 1) (x' + w')), (qb y (qpx py) y' (qpx py)), (qb (qpx py + 1) (y + h) (qpx py + 1) (y' + h')); try reflexivity; lra.
  - induction (corners_of px py) as [|[u v] cs IH]; [reflexivity|]. cbn [forallb]. f_equal; [|exact IH]. apply qb; rewrite ?E1, ?E2, ?E3; reflexivity.
  - induction (corners_of px py) as [|c cs IH]; [reflexivity|]. cbn [forallb]. f_equal; [|exact IH]. apply polygon_eq, E2.
Qed.
Lemma ops_in ops ops' g : Forall2 opeq ops ops' -> In (Add g) ops -> exists g', In (Add g') ops' /\ peq g g'.
Proof.
  intros F. induction F as [|a b l l' E F IH]; intros I; [destruct I|]. destruct I as [->|I].
  - destruct b as [g'|]; [|destruct E]. exists g'. split; [left; reflexivity|exact E].
  - destruct (IH I) as (g' & I' & P). exists g'. split; [right; exact I'|exact P].
Qed.
Lemma fill_in ops ops' : Forall2 opeq ops ops' -> In Fill ops' -> In Fill ops.
Proof.
  intros F. induction F as [|a b l l' E F IH]; intros I; [destruct I|]. destruct I as [->|I]; [destruct a; [destruct E|left; reflexivity]|right; apply IH, I].
Qed.
Lemma reach_eq f f' bw d k : Forall2 opeq (f k) (f' k) -> call_reach f' bw d k -> call_reach f bw d k.
Proof. intros F R i j NE g I. destruct (ops_in _ _ g F I) as (g' & I' & P). rewrite (none_eq _ _ _ _ P). apply R; assumption. Qed.
Lemma solid_eq f f' d k : Forall2 opeq (f k) (f' k) -> call_solid f' d k -> call_solid f d k.
Proof.
  intros F S SD. destruct (S SD) as (a & g & b & E & HF & SO). rewrite E in F. apply Forall2_app_inv_r in F as (a' & r & FA & FB & E').
  inversion FB as [|o o' b' b'' EO FB']; subst. destruct o as [g'|]; [|destruct EO]. exists a', g', b'. split; [exact E'|]. split; [eapply fill_in; eauto|].
  cbn in EO. destruct SO as [S1 S2]. split; [rewrite (full_eq _ _ _ _ EO); exact S1|rewrite (none_eq _ _ _ _ EO); exact S2].
Qed.

Section Rounding.
Context (rnd : Q -> Q) (RN : round_nearest rnd) (k : call) (RK : call_in_range k) (TX : k_tx k = 0) (TY : k_ty k = 0) (EH : k_h k = k_w k).
Let RR : rounding rnd := rn_rounding rnd RN.

Lemma ex_ulx : (ul_x k == inject_Z (k_x k))%Q. Proof. unfold ul_x. rewrite TX. change (inject_Z 0) with 0%Q. field. Qed.
Lemma ex_uly : (ul_y k == inject_Z (k_y k))%Q. Proof. unfold ul_y. rewrite TY. change (inject_Z 0) with 0%Q. field. Qed.

(* a is computed, b is the exact number: both are the same half of a whole number *)
Definition same (B : Z) (a b : Q) : Prop := (a == b)%Q /\ half B b.
Lemma same_x : same 8589934592 (ul_x64 rnd k) (ul_x k).
Proof. split; [rewrite ex_ulx; apply x64; assumption|]. eapply half_q; [symmetry; apply ex_ulx|]. apply (hX (k_x k)). apply RK. Qed.
Lemma same_y : same 8589934592 (ul_y64 rnd k) (ul_y k).
Proof. split; [rewrite ex_uly; apply y64; assumption|]. eapply half_q; [symmetry; apply ex_uly|]. apply (hX (k_y k)). apply RK. Qed.
Lemma same_w : same 8589934592 (edge_w64 rnd k) (edge_w k).
Proof. split; [apply w64; assumption|]. apply (hW (k_w k)). apply RK. Qed.
Lemma same_h : same 8589934592 (edge_h64 rnd k) (edge_h k).
Proof. split; [unfold edge_h; rewrite EH; apply h64; assumption|]. apply (hW (k_h k)). apply RK. Qed.
Lemma same_w2 : same 4294967296 (fdiv rnd (edge_w64 rnd k) 2) (edge_w k / 2).
Proof.
  assert (E : (edge_w k / 2 == inject_Z (k_w k) * (1 # 2))%Q) by (unfold edge_w; field). split; [rewrite E; apply (e_half rnd RN (k_w k)); [apply RK|apply w64; assumption]|].
  eapply half_q; [symmetry; exact E|]. apply hW2. apply RK.
Qed.
Lemma same_h2 : same 4294967296 (fdiv rnd (edge_h64 rnd k) 2) (edge_h k / 2).
Proof.
  assert (E : (edge_h k / 2 == inject_Z (k_w k) * (1 # 2))%Q) by (unfold edge_h; rewrite EH; field). split; [rewrite E; apply (e_half rnd RN (k_w k)); [apply RK|apply h64; assumption]|].
  eapply half_q; [symmetry; exact E|]. apply hW2. apply RK.
Qed.
Lemma same_add A B a a' b b' : same A a a' -> same B b b' -> A + B <= 2 ^ 53 -> same (A + B) (fadd rnd a b) (a' + b').
Proof.
  intros [EA HA] [EB HB] L. pose proof (half_add _ _ _ _ HA HB) as HS. split; [|exact HS]. unfold fadd.
  rewrite (rnd_q rnd RN (a + b) (a' + b')) by (rewrite EA, EB; reflexivity). eapply half_id; eauto.
Qed.
Lemma same_sub A B a a' b b' : same A a a' -> same B b b' -> A + B <= 2 ^ 53 -> same (A + B) (fsub rnd a b) (a' - b').
Proof.
  intros [EA HA] [EB HB] L. pose proof (half_sub _ _ _ _ HA HB) as HS. split; [|exact HS]. unfold fsub.
  rewrite (rnd_q rnd RN (a - b) (a' - b')) by (rewrite EA, EB; reflexivity). eapply half_id; eauto.
Qed.
Lemma same_two A a a' : same A a a' -> 2 * A <= 2 ^ 53 -> same (2 * A) (fmul rnd 2 a) (2 * a').
Proof.
  intros [EA HA] L. assert (HS : half (2 * A) (2 * a')). { replace (2 * A) with (A + A) by ring. eapply half_q; [|apply (half_add _ _ _ _ HA HA)]. ring. }
  split; [|exact HS]. unfold fmul. rewrite (rnd_q rnd RN (2 * a) (2 * a')) by (rewrite EA; reflexivity). eapply half_id; eauto.
Qed.

Ltac same_tac := first [exact same_x|exact same_y|exact same_w2|exact same_h2|exact same_w|exact same_h
  |eapply same_add; [same_tac|same_tac|rewrite pow53; lia]|eapply same_sub; [same_tac|same_tac|rewrite pow53; lia]|eapply same_two; [same_tac|rewrite pow53; lia]].
Ltac same_num := match goal with |- (?a == ?b)%Q => let S := fresh in assert (S : exists B, same B a b) by (eexists; same_tac); destruct S as [? [S _]]; exact S end.
Lemma rect_eq A B C D x y w h x' y' w' h' : same A x x' -> same B y y' -> same C w w' -> same D h h' -> A + C <= 2 ^ 53 -> B + D <= 2 ^ 53 ->
  peq (rect64 rnd x y w h) (Rect x' y' w' h').
Proof.
  intros X Y W H L1 L2. unfold rect64. pose proof (same_add _ _ _ _ _ _ X W L1) as [EX _]. pose proof (same_add _ _ _ _ _ _ Y H L2) as [EY _].
  destruct X as [X _], Y as [Y _]. constructor; lra.
Qed.
Ltac peq_tac := match goal with
  | |- peq (rect64 _ _ _ _ _) _ => eapply rect_eq; [same_tac|same_tac|same_tac|same_tac|rewrite pow53; lia|rewrite pow53; lia]
  | |- peq (Disc _ _ _) _ => apply peq_disc; same_num
  | |- peq (Curve _ _) _ => apply peq_curve; repeat (first [apply Forall2_nil|apply Forall2_cons; [split; cbn [fst snd]; first [same_num|idtac]|]]) end.
Ltac opeq_tac := repeat match goal with
  | |- Forall2 opeq (_ ++ _) (_ ++ _) => apply Forall2_app
  | |- Forall2 opeq (when ?b _) (when ?b _) => destruct b; cbn [when]
  | |- Forall2 opeq (if ?b then _ else _) (if ?b then _ else _) => destruct b
  | |- Forall2 opeq [] [] => apply Forall2_nil
  | |- Forall2 opeq (_ :: _) (_ :: _) => apply Forall2_cons
  | |- opeq Fill Fill => exact I
  | |- opeq (Add _) (Add _) => cbn [opeq] end.
Lemma liquid_eq : Forall2 opeq (LiquidBlock64 rnd k) (LiquidBlock k).
Proof. unfold LiquidBlock64, LiquidBlock, drawRect64, rect. cbv zeta. opeq_tac; peq_tac. Qed.
Lemma rounded_eq : Forall2 opeq (RoundedFinder64 rnd k) (RoundedFinder k).
Proof.
  pose proof (proj1 same_x) as EX. pose proof (proj1 same_y) as EY. pose proof (proj1 same_w) as EW. pose proof (proj1 same_h) as EH'.
  unfold RoundedFinder64, RoundedFinder, rect. cbv zeta. opeq_tac; peq_tac; unfold Qdiv; rewrite ?EX, ?EY, ?EW, ?EH'; reflexivity.
Qed.
End Rounding.
