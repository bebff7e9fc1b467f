(* The drawing functions of the shapes package are linking shapes. *)
From Coq Require Import Lia.
From Verif Require Import ModelBase ModelMatrix ModelStandard ModelShapes.
From Verif Require Import SpecReader SpecMatrix SpecStandard SpecShapes ProofStandard ProofLinks.
From Coq Require Import QArith Qabs Lqa Lia.
Open Scope Z_scope.

Local Notation Add := ModelShapes.Add.

Section Ops.
Context (cover : list piece -> Z -> Z -> Z) (color : rgba) (px py : Z).

Lemma fill_tinted path cv : tinted color (cv px py) (fill_path cover path color cv px py).
Proof.
  unfold fill_path. destruct (forallb _ path); [constructor|]. destruct (existsb _ path); [apply tinted_over|].
  econstructor; [|constructor]. lia.
Qed.
Lemma ops_tinted ops : forall path cv, tinted color (cv px py) (run_ops cover ops path color cv px py).
Proof.
  induction ops as [|[g|] r IH]; intros path cv; cbn [run_ops]; [constructor|apply IH|].
  eapply tinted_trans; [apply fill_tinted|apply IH].
Qed.

Definition missed (g : piece) : Prop := none g px py = true.
Lemma fill_missed path cv : Forall missed path -> fill_path cover path color cv px py = cv px py.
Proof.
  intros F. unfold fill_path. replace (forallb _ path) with true; [reflexivity|]. symmetry. apply forallb_forall. intros g I. rewrite Forall_forall in F. apply F. exact I.
Qed.
Definition misses (ops : list op) : Prop := forall g, In (Add g) ops -> missed g.
Lemma ops_missed ops : forall path cv, Forall missed path -> misses ops -> run_ops cover ops path color cv px py = cv px py.
Proof.
  induction ops as [|[g|] r IH]; intros path cv HP HM; cbn [run_ops]; [reflexivity| |].
  - apply IH; [apply Forall_app; split; [exact HP|constructor; [apply HM; left; reflexivity|constructor]]|intros h I; apply HM; right; exact I].
  - rewrite IH; [apply fill_missed; exact HP|constructor|intros h I; apply HM; right; exact I].
Qed.

Definition solid (g : piece) : Prop := full g px py = true /\ none g px py = false.
Lemma fill_solid g path cv : In g path -> solid g -> fill_path cover path color cv px py = over (cv px py) color.
Proof.
  intros I [F N]. unfold fill_path.
  replace (forallb _ path) with false. 2: { symmetry. apply not_true_iff_false. rewrite forallb_forall. intros A. rewrite (A g I) in N. discriminate N. }
  replace (existsb _ path) with true; [reflexivity|]. symmetry. apply existsb_exists. exists g. auto.
Qed.
Lemma over_hides c q : opaque c -> good q -> over q c = c.
Proof. intros [G1 A] G. apply over_opaque; assumption. Qed.
Lemma ops_hold : forall ops path cv, opaque color -> good (cv px py) -> forall g, In g path -> solid g -> In Fill ops ->
  run_ops cover ops path color cv px py = color.
Proof.
  induction ops as [|[h|] r IH]; intros path cv O G g I S HF; [destruct HF| |]; cbn [run_ops].
  - destruct HF as [F|HF]; [discriminate F|]. apply (IH _ _ O G g); auto. apply in_app_iff. left. exact I.
  - pose proof (ops_tinted r [] (fill_path cover path color cv)) as T. rewrite (fill_solid g) in T by assumption. rewrite over_hides in T by assumption. apply tinted_same in T; assumption.
Qed.
Lemma ops_paint g b : solid g -> In Fill b -> opaque color -> forall a path cv, good (cv px py) -> run_ops cover (a ++ Add g :: b) path color cv px py = color.
Proof.
  intros S HF O. induction a as [|[h|] a IH]; intros path cv G; cbn [app run_ops].
  - apply (ops_hold _ _ _ O G g); auto. apply in_app_iff. right. left. reflexivity.
  - apply IH. exact G.
  - apply IH. eapply tinted_good; [apply fill_tinted|exact G].
Qed.
End Ops.

(* ---- geometry ---- *)
Lemma ql a b : (a <= b)%Q -> Qle_bool a b = true.
Proof. apply Qle_bool_iff. Qed.
Lemma qnl a b : (b < a)%Q -> Qle_bool a b = false.
Proof. intros HL. apply not_true_iff_false. rewrite Qle_bool_iff. lra. Qed.

Lemma rect_left x y w h px py : (qpx px + 1 <= x)%Q -> none (Rect x y w h) px py = true.
Proof. intros HL. cbn [none]. rewrite (ql _ _ HL). reflexivity. Qed.
Lemma rect_right x y w h px py : (x + w <= qpx px)%Q -> none (Rect x y w h) px py = true.
Proof. intros HL. cbn [none]. rewrite (ql _ _ HL). rewrite !orb_true_r. reflexivity. Qed.
Lemma rect_above x y w h px py : (qpx py + 1 <= y)%Q -> none (Rect x y w h) px py = true.
Proof. intros HL. cbn [none]. rewrite (ql _ _ HL). rewrite !orb_true_r. reflexivity. Qed.
Lemma rect_below x y w h px py : (y + h <= qpx py)%Q -> none (Rect x y w h) px py = true.
Proof. intros HL. cbn [none]. rewrite (ql _ _ HL). rewrite !orb_true_r. reflexivity. Qed.
Lemma disc_left x y r px py : (qpx px + 1 <= x - r)%Q -> none (Disc x y r) px py = true.
Proof. intros HL. cbn [none]. rewrite (ql _ _ HL). reflexivity. Qed.
Lemma disc_right x y r px py : (x + r <= qpx px)%Q -> none (Disc x y r) px py = true.
Proof. intros HL. cbn [none]. rewrite (ql _ _ HL). rewrite !orb_true_r. reflexivity. Qed.
Lemma disc_above x y r px py : (qpx py + 1 <= y - r)%Q -> none (Disc x y r) px py = true.
Proof. intros HL. cbn [none]. rewrite (ql _ _ HL). rewrite !orb_true_r. reflexivity. Qed.
Lemma disc_below x y r px py : (y + r <= qpx py)%Q -> none (Disc x y r) px py = true.
Proof. intros HL. cbn [none]. rewrite (ql _ _ HL). rewrite !orb_true_r. reflexivity. Qed.

Definition before (e p : pt) (px py : Z) : Prop :=
  (along_dir e p <= along_dir e (qpx px, qpx py) /\ along_dir e p <= along_dir e (qpx px + 1, qpx py) /\
   along_dir e p <= along_dir e (qpx px, qpx py + 1) /\ along_dir e p <= along_dir e (qpx px + 1, qpx py + 1))%Q.
Lemma curve_missed e ps core px py : In e directions -> Forall (fun p => before e p px py) ps -> none (Curve ps core) px py = true.
Proof.
  intros I F. cbn [none]. unfold separated. apply existsb_exists. exists e. split; [exact I|]. apply forallb_forall. intros p IP.
  rewrite Forall_forall in F. destruct (F p IP) as (A & B & C & D). unfold corners_of. cbn [forallb]. rewrite !ql by assumption. reflexivity.
Qed.

Lemma rect_solid x y w h px py : (x <= qpx px -> qpx px + 1 <= x + w -> y <= qpx py -> qpx py + 1 <= y + h -> solid px py (Rect x y w h))%Q.
Proof.
  intros A B C D. split; cbn [full none]; [rewrite !ql by assumption; reflexivity|]. rewrite !qnl by lra. reflexivity.
Qed.
(* the pixel within a box of half width s around the centre *)
Lemma disc_solid cx cy r s px py : (0 <= s -> 200 * (s * s) <= 81 * (r * r) -> s < r ->
  cx - s <= qpx px -> qpx px + 1 <= cx + s -> cy - s <= qpx py -> qpx py + 1 <= cy + s -> solid px py (Disc cx cy r))%Q.
Proof.
  intros S0 S1 SR A B C D.
  assert (SQ : forall u, (- s <= u -> u <= s -> u * u <= s * s)%Q) by (intros u U1 U2; nra).
  split; cbn [full none corners_of forallb].
  - assert (X0 := SQ (qpx px - cx)%Q ltac:(lra) ltac:(lra)). assert (X1 := SQ (qpx px + 1 - cx)%Q ltac:(lra) ltac:(lra)).
    assert (Y0 := SQ (qpx py - cy)%Q ltac:(lra) ltac:(lra)). assert (Y1 := SQ (qpx py + 1 - cy)%Q ltac:(lra) ltac:(lra)).
    rewrite !ql; [reflexivity| | | |]; lra.
  - rewrite !qnl by lra. reflexivity.
Qed.

(* ---- masks ---- *)
Lemma has_bit mask N b : has mask N = true -> Z.testbit N b = true -> Z.testbit mask b = true.
Proof. unfold has. intros E T. apply Z.eqb_eq in E. rewrite <- E, Z.land_spec in T. apply andb_true_iff in T. apply T. Qed.
Lemma is_bit mask N b : (mask =? N) = true -> Z.testbit N b = true -> Z.testbit mask b = true.
Proof. intros E T. apply Z.eqb_eq in E. subst. exact T. Qed.
Lemma self_mask k : (Z.land (k_neighbours k) NSelf =? NSelf) = true -> self_dark k = true.
Proof. intros E. apply (has_bit _ NSelf 4); [exact E|reflexivity]. Qed.
Lemma no_self k N : self_dark k = false -> Z.testbit N 4 = true -> has (k_neighbours k) N = false /\ (k_neighbours k =? N) = false.
Proof.
  intros S T. split; apply not_true_iff_false; intros E; [apply (has_bit _ _ 4) in E|apply (is_bit _ _ 4) in E]; try exact T; unfold self_dark in S; congruence.
Qed.

(* ---- one call ---- *)
Record on_grid (k : call) (bw : Z) : Prop := { g_tx : k_tx k = 0; g_ty : k_ty k = 0; g_w : k_w k = bw; g_h : k_h k = bw }.

(* one call of a drawing: where it paints *)
Definition call_reach (f : drawing) (bw d : Z) (k : call) : Prop :=
  forall i j, ~ (i = 0 /\ j = 0) -> forall g, In (Add g) (f k) -> none g (k_x k + i * bw + d) (k_y k + j * bw + d) = true \/ dark_neighbour k i j.
Definition call_solid (f : drawing) (d : Z) (k : call) : Prop :=
  self_dark k = true -> exists a g b, f k = a ++ Add g :: b /\ In Fill b /\ solid (k_x k + d) (k_y k + d) g.
Lemma linking_call cover f bw d k cv : call_reach f bw d k -> call_solid f d k ->
  (forall i j, ~ (i = 0 /\ j = 0) -> let px := k_x k + i * bw + d in let py := k_y k + j * bw + d in
     draw_ops cover f cv k px py = cv px py \/ (dark_neighbour k i j /\ tinted (k_color k) (cv px py) (draw_ops cover f cv k px py))) /\
  (let px := k_x k + d in let py := k_y k + d in
     (self_dark k = true -> opaque (k_color k) -> good (cv px py) -> draw_ops cover f cv k px py = k_color k) /\
     (self_dark k = false -> tinted (k_color k) (cv px py) (draw_ops cover f cv k px py))).
Proof.
  intros R S. unfold call_reach, call_solid in *. cbv zeta. unfold draw_ops. split; [|split].
  - intros i j NE. specialize (R i j NE). set (px := k_x k + i * bw + d) in *. set (py := k_y k + j * bw + d) in *.
    assert (C : misses px py (f k) \/ dark_neighbour k i j).
    { clear S. induction (f k) as [|[g|] l IH].
      - left. intros g [].
      - destruct (R g (or_introl eq_refl)) as [N|N]; [|right; exact N]. destruct IH as [IH|IH]; [intros h I; apply R; right; exact I| |right; exact IH].
        left. intros h [F|I]; [injection F as <-; exact N|apply IH; exact I].
      - destruct IH as [IH|IH]; [intros h I; apply R; right; exact I| |right; exact IH]. left. intros h [F|I]; [discriminate F|apply IH; exact I]. }
    destruct C as [C|C]; [left; apply ops_missed; auto|right]. split; [exact C|apply ops_tinted].
  - intros SD O GD. destruct (S SD) as (a & g & b & -> & HF & SO). apply (ops_paint _ _ _ _ g b SO HF O). exact GD.
  - intros _. apply ops_tinted.
Qed.

Lemma linking_of_ops cover f bw d : (forall k, on_grid k bw -> call_reach f bw d k) -> (forall k, on_grid k bw -> call_solid f d k) -> linking_shape (draw_ops cover f) bw d.
Proof. intros R S cv k E1 E2 E3 E4 _. assert (G : on_grid k bw) by (split; assumption). apply linking_call; auto. Qed.

Lemma grid_q k bw : on_grid k bw -> (ul_x k == qpx (k_x k) /\ ul_y k == qpx (k_y k) /\ edge_w k == inject_Z bw /\ edge_h k == inject_Z bw)%Q.
Proof.
  intros [E1 E2 E3 E4]. unfold ul_x, ul_y, edge_w, edge_h, qpx. rewrite E1, E2, E3, E4. change (inject_Z 0) with 0%Q. repeat split; try reflexivity; field.
Qed.
Lemma middle_q bw : 0 <= bw -> (inject_Z bw - 1 <= 2 * inject_Z (bw / 2) /\ 2 * inject_Z (bw / 2) <= inject_Z bw)%Q.
Proof.
  intros HB. change 2%Q with (inject_Z 2). change 1%Q with (inject_Z 1). unfold Qminus. rewrite <- inject_Z_opp, <- inject_Z_plus, <- inject_Z_mult, <- !Zle_Qle.
  pose proof (Z.div_mod bw 2). pose proof (Z.mod_pos_bound bw 2). lia.
Qed.
Lemma sample_q v i bw d : (qpx (v + i * bw + d) == qpx v + inject_Z (i * bw) + inject_Z d)%Q.
Proof. unfold qpx. rewrite !inject_Z_plus. reflexivity. Qed.
Lemma own_q v d : (qpx (v + d) == qpx v + inject_Z d)%Q.
Proof. unfold qpx. rewrite !inject_Z_plus. reflexivity. Qed.
Lemma step_q i bw : 0 <= bw -> (i <= -2 /\ (inject_Z (i * bw) <= - (2) * inject_Z bw)%Q) \/ (i = -1 /\ (inject_Z (i * bw) == - inject_Z bw)%Q) \/
  (i = 0 /\ (inject_Z (i * bw) == 0)%Q) \/ (i = 1 /\ (inject_Z (i * bw) == inject_Z bw)%Q) \/ (2 <= i /\ (2 * inject_Z bw <= inject_Z (i * bw))%Q).
Proof.
  intros HB. assert (C : i <= -2 \/ i = -1 \/ i = 0 \/ i = 1 \/ 2 <= i) by lia. destruct C as [C|[C|[C|[C|C]]]].
  - left. split; [exact C|]. change (- (2))%Q with (inject_Z (-2)). rewrite <- inject_Z_mult, <- Zle_Qle. nia.
  - right. left. split; [exact C|]. subst. rewrite <- inject_Z_opp. replace (-1 * bw) with (- bw) by ring. reflexivity.
  - right. right. left. split; [exact C|]. subst. reflexivity.
  - right. right. right. left. split; [exact C|]. subst. rewrite Z.mul_1_l. reflexivity.
  - right. right. right. right. split; [exact C|]. change 2%Q with (inject_Z 2). rewrite <- inject_Z_mult, <- Zle_Qle. nia.
Qed.

(* the geometry of a call, in numbers: X Y the corner, B the block, D the offset of the sample *)
Ltac bit_in := cbn; repeat (first [left; reflexivity|right]).
Ltac is_dark := match goal with
  | |- dark_neighbour ?k ?i ?j => 
    match goal with
    | HM : has (k_neighbours k) _ = true |- _ => split; [exact (has_bit _ _ 4 HM eq_refl)|];
        first [ exists 0; split; [solve [bit_in]|exact (has_bit _ _ 0 HM eq_refl)] | exists 1; split; [solve [bit_in]|exact (has_bit _ _ 1 HM eq_refl)]
              | exists 2; split; [solve [bit_in]|exact (has_bit _ _ 2 HM eq_refl)] | exists 3; split; [solve [bit_in]|exact (has_bit _ _ 3 HM eq_refl)]
              | exists 5; split; [solve [bit_in]|exact (has_bit _ _ 5 HM eq_refl)] | exists 6; split; [solve [bit_in]|exact (has_bit _ _ 6 HM eq_refl)]
              | exists 7; split; [solve [bit_in]|exact (has_bit _ _ 7 HM eq_refl)] | exists 8; split; [solve [bit_in]|exact (has_bit _ _ 8 HM eq_refl)] ]
    | HM : (k_neighbours k =? _) = true |- _ => split; [exact (is_bit _ _ 4 HM eq_refl)|];
        first [ exists 0; split; [solve [bit_in]|exact (is_bit _ _ 0 HM eq_refl)] | exists 1; split; [solve [bit_in]|exact (is_bit _ _ 1 HM eq_refl)]
              | exists 2; split; [solve [bit_in]|exact (is_bit _ _ 2 HM eq_refl)] | exists 3; split; [solve [bit_in]|exact (is_bit _ _ 3 HM eq_refl)]
              | exists 5; split; [solve [bit_in]|exact (is_bit _ _ 5 HM eq_refl)] | exists 6; split; [solve [bit_in]|exact (is_bit _ _ 6 HM eq_refl)]
              | exists 7; split; [solve [bit_in]|exact (is_bit _ _ 7 HM eq_refl)] | exists 8; split; [solve [bit_in]|exact (is_bit _ _ 8 HM eq_refl)] ]
    end end.
Ltac dir_in := cbn; repeat (first [left; reflexivity|right]).
(* one inequality per point *)
Lemma curve_dir e lim ps core px py : In e directions -> 
  (lim <= along_dir e (qpx px, qpx py) -> lim <= along_dir e (qpx px + 1, qpx py) -> lim <= along_dir e (qpx px, qpx py + 1) -> lim <= along_dir e (qpx px + 1, qpx py + 1) ->
   Forall (fun p => along_dir e p <= lim) ps -> none (Curve ps core) px py = true)%Q.
Proof.
  intros I A B C D F. apply (curve_missed e); [exact I|]. eapply Forall_impl; [|exact F]. intros p L. unfold before. cbv beta in L. repeat split; eapply Qle_trans; eauto.
Qed.
Ltac go_dir e lim := apply (curve_dir e lim); unfold along_dir; cbn [fst snd]; [solve [dir_in]|lra|lra|lra|lra|repeat constructor; cbv beta; cbn [fst snd]; lra].
(* the pixel's box: [X0, X1] x [Y0, Y1] *)
Ltac curve_out px py := first
  [ go_dir (1, 0)%Q (qpx px) | go_dir (-1, 0)%Q (- qpx px - 1)%Q | go_dir (0, 1)%Q (qpx py) | go_dir (0, -1)%Q (- qpx py - 1)%Q
  | go_dir (1, 1)%Q (qpx px + qpx py)%Q | go_dir (1, -1)%Q (qpx px - qpx py - 1)%Q | go_dir (-1, 1)%Q (qpx py - qpx px - 1)%Q | go_dir (-1, -1)%Q (- qpx px - qpx py - 2)%Q ].
Ltac outside := lazymatch goal with
  | |- none (Rect _ _ _ _) _ _ = true => first [ apply rect_left; lra | apply rect_right; lra | apply rect_above; lra | apply rect_below; lra ]
  | |- none (Disc _ _ _) _ _ = true => first [ apply disc_left; lra | apply disc_right; lra | apply disc_above; lra | apply disc_below; lra ]
  | |- none (Curve _ _) ?px ?py = true => curve_out px py end.
Ltac on_steps HB i j bw := destruct (step_q i bw ltac:(lia)) as [[? ?]|[[? ?]|[[? ?]|[[? ?]|[? ?]]]]]; destruct (step_q j bw ltac:(lia)) as [[? ?]|[[? ?]|[[? ?]|[[? ?]|[? ?]]]]].
Ltac set_grid G bw := let E := fresh in destruct (grid_q _ bw G) as (? & ? & ? & ?); pose proof (middle_q bw ltac:(lia)) as [? ?].
Ltac add_in I := match type of I with In _ (_ ++ _) => apply in_app_iff in I; destruct I as [I|I] | In _ (when ?b _) => let E := fresh "HM" in destruct b eqn:E; cbn [when] in I
  | In (Add ?g) (_ :: _) => destruct I as [I|I]; [try discriminate I; try (injection I as <-)|] | In _ [] => destruct I end.


Ltac reach := match goal with |- none _ _ _ = true \/ dark_neighbour _ _ _ => first [left; solve [outside] | right; subst; solve [is_dark]] end.


Ltac touch HB f := let I := fresh "I" in intros k G i j NE g I;
  match type of HB with _ <= ?bw =>
  destruct (grid_q _ bw G) as (EX & EY & EW & EH); destruct (middle_q bw ltac:(lia)) as [D1 D2];
  pose proof (sample_q (k_x k) i bw (bw / 2)) as PX; pose proof (sample_q (k_y k) j bw (bw / 2)) as PY;
  unfold f, rect, Qdiv in I; cbv zeta in I; change (/ 2)%Q with (1 # 2)%Q in I; repeat add_in I;
  on_steps HB i j bw; try (exfalso; lia); reach end.
Lemma three_q bw : 3 <= bw -> (3 <= inject_Z bw)%Q.
Proof. intros HB. change 3%Q with (inject_Z 3). rewrite <- Zle_Qle. exact HB. Qed.

Lemma odd_middle bw : Z.odd bw = true -> (2 * inject_Z (bw / 2) == inject_Z bw - 1)%Q.
Proof.
  intros O. change 2%Q with (inject_Z 2). change 1%Q with (inject_Z 1). unfold Qminus. rewrite <- inject_Z_opp, <- inject_Z_plus, <- inject_Z_mult.
  pose proof (Z.div_mod bw 2 ltac:(lia)) as E. rewrite (Zmod_odd bw), O in E. replace (2 * (bw / 2)) with (bw + -(1)) by lia. reflexivity.
Qed.
Lemma disc_own k bw cx cy r rho : on_grid k bw -> 0 <= bw -> (cx == ul_x k + edge_w k * (1 # 2) -> cy == ul_y k + edge_h k * (1 # 2) -> 0 <= rho -> 2 * r == edge_w k * rho)%Q ->
  (cx == ul_x k + edge_w k * (1 # 2))%Q -> (cy == ul_y k + edge_h k * (1 # 2))%Q -> (0 <= rho)%Q -> wide_circle bw rho -> solid (k_x k + bw / 2) (k_y k + bw / 2) (Disc cx cy r).
Proof.
  intros G HB R CX CY RP W. specialize (R CX CY RP).
  destruct (grid_q _ bw G) as (EX & EY & EW & EH). destruct (middle_q bw ltac:(lia)) as [D1 D2].
  pose proof (own_q (k_x k) (bw / 2)) as PX. pose proof (own_q (k_y k) (bw / 2)) as PY.
  assert (R2 : (2 * r == inject_Z bw * rho)%Q) by (rewrite R, EW; reflexivity). destruct W as [W|[O W]].
  - assert (RR : (5 # 3 <= r)%Q) by lra. apply (disc_solid _ _ _ 1); try lra. nra.
  - pose proof (odd_middle bw O) as OM. assert (RR : (4 # 5 <= r)%Q) by lra. apply (disc_solid _ _ _ (1 # 2)); try lra. nra.
Qed.

(* ---- the blocks ---- *)
Ltac first_disc rho := match goal with |- exists a g b, ?l = _ /\ _ => match l with ?g0 :: ?b0 => exists [], (match g0 with Add g => g | Fill => Disc 0 0 0 end), b0 end end.

Lemma fill_last l : In Fill (l ++ [Fill]).
Proof. apply in_app_iff. right. left. reflexivity. Qed.
Ltac fills := cbn [app]; rewrite ?app_assoc; apply fill_last.

Lemma wide_85 bw : 3 <= bw -> wide_circle bw (85 # 100).
Proof.
  intros HB. destruct (Z.eq_dec bw 3) as [->|N]; [right; split; [reflexivity|cbv; discriminate]|]. left.
  assert (Q4 : (4 <= inject_Z bw)%Q) by (change 4%Q with (inject_Z 4); rewrite <- Zle_Qle; lia). lra.
Qed.
Lemma wide_more bw a b : 0 <= bw -> (a <= b)%Q -> wide_circle bw a -> wide_circle bw b.
Proof.
  intros HB L. assert (B0 : (0 <= inject_Z bw)%Q) by (change 0%Q with (inject_Z 0); rewrite <- Zle_Qle; exact HB).
  assert (M : (inject_Z bw * a <= inject_Z bw * b)%Q) by nra. intros [W|[O W]]; [left; lra|right; split; [exact O|lra]].
Qed.

Ltac disc_here rho := apply (disc_own _ _ _ _ _ rho); [assumption|lia|intros _ _ _; field|field|field|try lra|].

Lemma chain_links cover bw : 3 <= bw -> linking_shape (draw_ops cover ChainBlock) bw (bw / 2).
Proof.
  intros HB. pose proof (three_q bw HB) as QB. apply linking_of_ops; [touch HB ChainBlock|].
  intros k G S. unfold ChainBlock. cbv zeta. cbn [app]. eexists [], _, _. split; [reflexivity|]. split; [fills|].
  disc_here (9 # 10)%Q. apply (wide_more _ (85 # 100)); [lia|lra|apply wide_85; exact HB].
Qed.
Lemma vchain_links cover bw : 3 <= bw -> linking_shape (draw_ops cover VChainBlock) bw (bw / 2).
Proof.
  intros HB. pose proof (three_q bw HB) as QB. apply linking_of_ops; [touch HB VChainBlock|].
  intros k G S. unfold VChainBlock. cbv zeta. cbn [app]. eexists [], _, _. split; [reflexivity|]. split; [fills|].
  disc_here (85 # 100)%Q. apply wide_85; exact HB.
Qed.
Lemma hchain_links cover bw : 3 <= bw -> linking_shape (draw_ops cover HChainBlock) bw (bw / 2).
Proof.
  intros HB. pose proof (three_q bw HB) as QB. apply linking_of_ops; [touch HB HChainBlock|].
  intros k G S. unfold HChainBlock. cbv zeta. cbn [app]. eexists [], _, _. split; [reflexivity|]. split; [fills|].
  disc_here (85 # 100)%Q. apply wide_85; exact HB.
Qed.
Lemma hstripe_links cover ratio bw : 3 <= bw -> linking_shape (draw_ops cover (HStripeBlock ratio)) bw (bw / 2).
Proof.
  intros HB. pose proof (three_q bw HB) as QB. apply linking_of_ops; [touch HB HStripeBlock|].
  intros k G S. unfold HStripeBlock. cbv zeta. cbn [app]. eexists [], _, _. split; [reflexivity|]. split; [fills|].
  disc_here (9 # 10)%Q. apply (wide_more _ (85 # 100)); [lia|lra|apply wide_85; exact HB].
Qed.

(* a parameter between 0 and 1 *)
Lemma ratio_range s : (6 # 10 <= stripe_ratio s /\ stripe_ratio s <= 1)%Q.
Proof.
  unfold stripe_ratio. destruct (Qle_bool (6 # 10) s) eqn:E1; cbn [negb orb]; [|split; lra].
  destruct (Qle_bool s 1) eqn:E2; cbn [negb]; [|split; lra]. apply Qle_bool_iff in E1, E2. split; assumption.
Qed.
Lemma size_range s : (1 # 10 <= block_size s /\ block_size s <= 1)%Q.
Proof.
  unfold block_size. destruct (Qle_bool (1 # 10) s) eqn:E1; cbn [negb orb]; [|split; lra].
  destruct (Qle_bool s 1) eqn:E2; cbn [negb]; [|split; lra]. apply Qle_bool_iff in E1, E2. split; assumption.
Qed.
Lemma part_q w s : (0 <= w -> 0 <= s -> s <= 1 -> 0 <= w * s /\ w * s <= w)%Q.
Proof. intros. split; nra. Qed.

Ltac touch_part HB f s R := let I := fresh "I" in intros k G i j NE g I;
  match type of HB with _ <= ?bw =>
  destruct (grid_q _ bw G) as (EX & EY & EW & EH); destruct (middle_q bw ltac:(lia)) as [D1 D2];
  pose proof (sample_q (k_x k) i bw (bw / 2)) as PX; pose proof (sample_q (k_y k) j bw (bw / 2)) as PY;
  destruct R as [R1 R2]; destruct (part_q (edge_w k) s ltac:(lra) ltac:(lra) R2) as [P1 P2]; destruct (part_q (edge_h k) s ltac:(lra) ltac:(lra) R2) as [P3 P4];
  unfold f, rect, Qdiv in I; cbv zeta in I; change (/ 2)%Q with (1 # 2)%Q in I; repeat add_in I;
  on_steps HB i j bw; try (exfalso; lia); reach end.

Lemma vstripe_links cover ratio bw : 2 <= bw -> wide_circle bw (stripe_ratio ratio) -> linking_shape (draw_ops cover (VStripeBlock ratio)) bw (bw / 2).
Proof.
  intros HB W. assert (QB : (2 <= inject_Z bw)%Q) by (change 2%Q with (inject_Z 2); rewrite <- Zle_Qle; exact HB).
  apply linking_of_ops; [touch_part HB VStripeBlock (stripe_ratio ratio) (ratio_range ratio)|].
  intros k G S. unfold VStripeBlock. cbv zeta. cbn [app]. eexists [], _, _. split; [reflexivity|]. split; [fills|].
  pose proof (ratio_range ratio) as [R1 R2]. disc_here (stripe_ratio ratio). exact W.
Qed.
Lemma circles_links cover size bw : 2 <= bw -> wide_circle bw (block_size size) -> linking_shape (draw_ops cover (CircleBlocks size)) bw (bw / 2).
Proof.
  intros HB W. assert (QB : (2 <= inject_Z bw)%Q) by (change 2%Q with (inject_Z 2); rewrite <- Zle_Qle; exact HB).
  apply linking_of_ops; [touch_part HB CircleBlocks (block_size size) (size_range size)|].
  intros k G S. unfold CircleBlocks. cbv zeta. eexists [], _, _. split; [reflexivity|]. split; [left; reflexivity|].
  pose proof (size_range size) as [R1 R2]. disc_here (block_size size). exact W.
Qed.
Lemma squares_links cover size bw : 1 <= bw -> wide_square bw (block_size size) -> linking_shape (draw_ops cover (SquareBlocks size)) bw (bw / 2).
Proof.
  intros HB W. assert (QB : (1 <= inject_Z bw)%Q) by (change 1%Q with (inject_Z 1); rewrite <- Zle_Qle; exact HB).
  assert (B2 : bw = 1 \/ 2 <= bw) by lia. assert (D3 : (inject_Z (bw / 2) + 1 <= inject_Z bw)%Q).
  { change 1%Q with (inject_Z 1). rewrite <- inject_Z_plus, <- Zle_Qle. destruct B2 as [->|B2]; [cbn; lia|]. pose proof (Z.div_mod bw 2). pose proof (Z.mod_pos_bound bw 2). lia. }
  apply linking_of_ops; [touch_part HB SquareBlocks (block_size size) (size_range size)|].
  intros k G S. unfold SquareBlocks. cbv zeta. eexists [], _, _. split; [reflexivity|]. split; [left; reflexivity|].
  destruct (grid_q _ bw G) as (EX & EY & EW & EH). destruct (middle_q bw ltac:(lia)) as [D1 D2].
  pose proof (own_q (k_x k) (bw / 2)) as PX. pose proof (own_q (k_y k) (bw / 2)) as PY.
  assert (M : (edge_w k * block_size size == inject_Z bw * block_size size /\ edge_h k * block_size size == inject_Z bw * block_size size)%Q) by (rewrite EW, EH; split; reflexivity).
  destruct M as [M1 M2]. unfold Qdiv. change (/ 2)%Q with (1 # 2)%Q.
  destruct W as [W|[O W]]; [|pose proof (odd_middle bw O)]; apply rect_solid; lra.
Qed.
Lemma square_finder_links cover bw d : 0 <= d < bw -> linking_shape (draw_ops cover SquareFinder) bw d.
Proof.
  intros HD. assert (Q0 : (0 <= inject_Z d /\ inject_Z d + 1 <= inject_Z bw)%Q).
  { change 0%Q with (inject_Z 0). change 1%Q with (inject_Z 1). rewrite <- inject_Z_plus, <- !Zle_Qle. lia. }
  destruct Q0 as [Q0 Q1]. apply linking_of_ops.
  - intros k G i j NE g I. destruct (grid_q _ bw G) as (EX & EY & EW & EH).
    pose proof (sample_q (k_x k) i bw d) as PX. pose proof (sample_q (k_y k) j bw d) as PY.
    unfold SquareFinder, rect in I. repeat add_in I; on_steps HD i j bw; try (exfalso; lia); reach.
  - intros k G S. eexists [], _, _. split; [reflexivity|]. split; [left; reflexivity|]. destruct (grid_q _ bw G) as (EX & EY & EW & EH).
    pose proof (own_q (k_x k) d) as PX. pose proof (own_q (k_y k) d) as PY. apply rect_solid; lra.
Qed.

(* LiquidBlock *)
Definition ends (l : list op) (g : piece) : Prop := exists a, l = a ++ [Add g; Fill].
Lemma ends_app a l g : ends l g -> ends (a ++ l) g.
Proof. intros [b ->]. exists (a ++ b). rewrite app_assoc. reflexivity. Qed.


Lemma liquid_calls bw : 3 <= bw -> (forall k, on_grid k bw -> call_reach LiquidBlock bw (bw / 2) k) /\ (forall k, on_grid k bw -> call_solid LiquidBlock (bw / 2) k).
Proof.
  intros HB. pose proof (three_q bw HB) as QB. destruct (middle_q bw ltac:(lia)) as [D1 D2].
  assert (D3 : (2 * inject_Z (bw / 2) <= (3 # 2) * inject_Z bw - 2)%Q).
  { destruct (Z.eq_dec bw 3) as [->|N]; [cbv; discriminate|].
    assert (Q4 : (4 <= inject_Z bw)%Q) by (change 4%Q with (inject_Z 4); rewrite <- Zle_Qle; lia). lra. }
  split.
  - intros k G i j NE g I.
    destruct (grid_q _ bw G) as (EX & EY & EW & EH).
    pose proof (sample_q (k_x k) i bw (bw / 2)) as PX; pose proof (sample_q (k_y k) j bw (bw / 2)) as PY.
    unfold LiquidBlock, rect, Qdiv in I; cbv zeta in I; change (/ 2)%Q with (1 # 2)%Q in I.
    apply in_app_iff in I. destruct I as [I|I].
    + repeat match type of I with In _ (if ?b then _ else _) => let E := fresh "HM" in destruct b eqn:E end; repeat match goal with F : (_ =? _) = false |- _ => clear F end;
      repeat add_in I; on_steps HB i j bw; try (exfalso; lia); clear NE; reach.
    + repeat add_in I; repeat match goal with HM : _ && _ = true |- _ => apply andb_true_iff in HM; destruct HM as [HM _] end;
      on_steps HB i j bw; try (exfalso; lia); clear NE; reach.
  - intros k G S. assert (E : exists g, ends (LiquidBlock k) g /\ solid (k_x k + bw / 2) (k_y k + bw / 2) g).
    { unfold LiquidBlock. cbv zeta. eexists. split; [repeat apply ends_app; exists []; reflexivity|]. disc_here 1%Q.
      apply (wide_more _ (85 # 100)); [lia|lra|apply wide_85; exact HB]. }
    destruct E as (g & [a E] & SO). exists a, g, [Fill]. split; [exact E|]. split; [left; reflexivity|exact SO].
Qed.
Lemma liquid_links cover bw : 3 <= bw -> linking_shape (draw_ops cover LiquidBlock) bw (bw / 2).
Proof. intros HB. destruct (liquid_calls bw HB). apply linking_of_ops; assumption. Qed.

(* RoundedFinder *)
Lemma side_ok a b p W u v : (fst b - fst a == W * u -> snd b - snd a == W * v -> 0 <= W -> 0 <= u * (snd p - snd a) - v * (fst p - fst a))%Q -> 
  (fst b - fst a == W * u)%Q -> (snd b - snd a == W * v)%Q -> (0 <= W)%Q -> on_side a b p = true.
Proof.
  intros L EU EV W0. specialize (L EU EV W0). unfold on_side. apply ql. rewrite EU, EV.
  setoid_replace (W * u * (snd p - snd a) - W * v * (fst p - fst a))%Q with (W * (u * (snd p - snd a) - v * (fst p - fst a)))%Q by ring. nra.
Qed.
Ltac side W u v := apply (side_ok _ _ _ W u v); cbn [fst snd]; [intros _ _ _; lra|lra|lra|lra].
Ltac sides W := first [ side W (3 # 4)%Q (1 # 4)%Q | side W (1 # 4)%Q (3 # 4)%Q | side W (-1)%Q 0%Q | side W 0%Q (-1)%Q | side W 1%Q 0%Q | side W 0%Q 1%Q
  | side W (1 # 4)%Q (-3 # 4)%Q | side W (3 # 4)%Q (-1 # 4)%Q | side W (-3 # 4)%Q (-1 # 4)%Q | side W (-1 # 4)%Q (-3 # 4)%Q | side W (-1 # 4)%Q (3 # 4)%Q | side W (-3 # 4)%Q (1 # 4)%Q ].
(* the box of the pixel is strictly within the four corners, which are among the points *)
Lemma curve_not_none x0 y0 x1 y1 ps core px py : In (x0, y0) ps -> In (x1, y0) ps -> In (x0, y1) ps -> In (x1, y1) ps ->
  (x0 < qpx px -> qpx px + 1 < x1 -> y0 < qpx py -> qpx py + 1 < y1 -> none (Curve ps core) px py = false)%Q.
Proof.
  intros I1 I2 I3 I4 A B C D. cbn [none]. apply not_true_iff_false. unfold separated. rewrite existsb_exists. intros (e & IE & F). rewrite forallb_forall in F.
  assert (K : forall p c, In p ps -> In c (corners_of px py) -> (along_dir e p <= along_dir e c)%Q).
  { intros p c IP IC. specialize (F p IP). rewrite forallb_forall in F. apply Qle_bool_iff. apply F. exact IC. }
  assert (C1 : In (qpx px, qpx py) (corners_of px py)) by (left; reflexivity).
  pose proof (K _ _ I1 C1) as K1. pose proof (K _ _ I2 C1) as K2. pose proof (K _ _ I3 C1) as K3. pose proof (K _ _ I4 C1) as K4. unfold along_dir in *.
  cbn in IE. repeat (destruct IE as [<-|IE]); cbn [fst snd] in *; try lra.
Qed.

Lemma rounded_calls bw : 3 <= bw -> (forall k, on_grid k bw -> call_reach RoundedFinder bw (bw / 2) k) /\ (forall k, on_grid k bw -> call_solid RoundedFinder (bw / 2) k).
Proof.
  intros HB. pose proof (three_q bw HB) as QB. destruct (middle_q bw ltac:(lia)) as [D1 D2].
  assert (D3 : (2 * inject_Z (bw / 2) <= (3 # 2) * inject_Z bw - 2 /\ 1 <= inject_Z (bw / 2) /\ inject_Z (bw / 2) + 2 <= inject_Z bw)%Q).
  { destruct (Z.eq_dec bw 3) as [->|N]; [repeat split; cbv; discriminate|].
    assert (Q4 : (4 <= inject_Z bw)%Q) by (change 4%Q with (inject_Z 4); rewrite <- Zle_Qle; lia). repeat split; lra. }
  destruct D3 as (D3 & D4 & D5). split.
  - intros k G i j NE g I.
    destruct (grid_q _ bw G) as (EX & EY & EW & EH).
    pose proof (sample_q (k_x k) i bw (bw / 2)) as PX; pose proof (sample_q (k_y k) j bw (bw / 2)) as PY.
    unfold RoundedFinder, rect, Qdiv in I; cbv zeta in I. change (/ 2)%Q with (1 # 2)%Q in I. change (/ 4)%Q with (1 # 4)%Q in I.
    destruct (negb _); [destruct I|]. apply in_app_iff in I. destruct I as [I|I]; [|repeat add_in I].
    repeat match type of I with In _ (if ?b then _ else _) => let E := fresh "HM" in destruct b eqn:E end; repeat match goal with F : (_ =? _) = false |- _ => clear F end;
      repeat add_in I; on_steps HB i j bw; try (exfalso; lia); clear NE; reach.
  - intros k G S. destruct (grid_q _ bw G) as (EX & EY & EW & EH).
    pose proof (own_q (k_x k) (bw / 2)) as PX; pose proof (own_q (k_y k) (bw / 2)) as PY.
    unfold RoundedFinder, Qdiv. cbv zeta. change (/ 2)%Q with (1 # 2)%Q. change (/ 4)%Q with (1 # 4)%Q.
    assert (SM : Z.land (k_neighbours k) NSelf = NSelf).
    { apply Z.bits_inj'. intros b HB0. rewrite Z.land_spec. unfold NSelf. change 16 with (2 ^ 4). rewrite Z.pow2_bits_eqb by lia.
      destruct (Z.eqb_spec 4 b) as [<-|N]; [|apply andb_false_r]. unfold self_dark in S. rewrite S. reflexivity. }
    rewrite SM, Z.eqb_refl. cbn [negb].
    repeat match goal with |- context [if ?b then _ else _] => destruct b end; cbn [app]; (eexists [], _, _; split; [reflexivity|]; split; [solve [cbn; auto]|]).
    all: lazymatch goal with |- solid _ _ (Rect _ _ _ _) => apply rect_solid; lra | _ => idtac end.
    all: split; [|apply (curve_not_none (ul_x k) (ul_y k) (ul_x k + edge_w k) (ul_y k + edge_h k)); [solve [cbn; tauto]|solve [cbn; tauto]|solve [cbn; tauto]|solve [cbn; tauto]|lra|lra|lra|lra]].
    all: cbn [full corners_of forallb in_polygon edges combine app]; rewrite !andb_true_r; repeat (apply andb_true_iff; split).
    all: sides (edge_w k).
Qed.
Lemma rounded_links cover bw : 3 <= bw -> linking_shape (draw_ops cover RoundedFinder) bw (bw / 2).
Proof. intros HB. destruct (rounded_calls bw HB). apply linking_of_ops; assumption. Qed.

Lemma assemble_links cover f b bw d : linking_shape (draw_ops cover f) bw d -> linking_shape (draw_ops cover b) bw d -> linking_shape (Assemble cover f b) bw d.
Proof.
  intros HF HB cv k E1 E2 E3 E4 E5. unfold Assemble. destruct (k_finder k); [apply (HF cv k)|apply (HB cv k)]; assumption.
Qed.
