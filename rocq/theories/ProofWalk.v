(* The data placement walk: separating the route from the bits, and the list-of-writes view. *)
From Verif Require Import ModelMatrix ModelBinary ModelLayout SpecIso ProofMatrix.

(* ---- a list of writes ---- *)
Definition apply_writes (m : Matrix) (ws : list ((Z * Z) * Z)) : Matrix :=
  fold_left (fun m '((x, y), c) => m_set m x y c) ws m.

Lemma apply_writes_app m a b : apply_writes m (a ++ b) = apply_writes (apply_writes m a) b.
Proof. unfold apply_writes. apply fold_left_app. Qed.

Lemma apply_writes_dims ws : forall m, wf m ->
  wf (apply_writes m ws) /\ mwidth (apply_writes m ws) = mwidth m /\ mheight (apply_writes m ws) = mheight m.
Proof.
  induction ws as [|[[x y] c] ws IH]; intros m H; simpl; [auto|].
  destruct (IH (m_set m x y c) (wf_set _ _ _ _ H)) as (A & B & C).
  rewrite B, C, m_set_width, m_set_height. auto.
Qed.

Lemma apply_writes_other ws : forall m x y, wf m -> ~ In (x, y) (map fst ws) ->
  rawget (apply_writes m ws) x y = rawget m x y.
Proof.
  induction ws as [|[[x0 y0] c] ws IH]; intros m x y H N; simpl; [auto|].
  rewrite IH; [|apply wf_set; auto|simpl in N; tauto].
  apply rawget_set_other; auto. simpl in N. intros E; apply N; auto.
Qed.

Lemma apply_writes_in ws : forall m x y c, wf m -> NoDup (map fst ws) -> in_range m x y ->
  In ((x, y), c) ws -> rawget (apply_writes m ws) x y = c.
Proof.
  induction ws as [|[[x0 y0] c0] ws IH]; intros m x y c H Nd R Hi; [destruct Hi|].
  simpl. simpl in Nd. inversion Nd as [|? ? Hn Nd']; subst.
  destruct Hi as [E|Hi].
  - injection E as -> -> ->. rewrite apply_writes_other; auto using wf_set.
    apply rawget_set_same; auto.
  - apply IH; auto using wf_set. unfold in_range. rewrite m_set_width, m_set_height. auto.
Qed.

(* ---- the route of fillDataBinary ---- *)
Definition dataval (b : bool) : Z := if b then QRValue_DATA_V1 else QRValue_DATA_V0.

(* the coordinates at which bits are consumed, for k bits on an n x n matrix whose free modules are given *)
Fixpoint walk (fuel : nat) (free : Z -> Z -> bool) (n x y : Z) (up : bool) (i : Z) (k : nat)
  : option (list (Z * Z)) :=
  match k with
  | O => Some []
  | S k' =>
    match fuel with
    | O => None
    | S f =>
      if (n <=? x) || (x <? 0) then Some []
      else
        let '(x, y, up) :=
          if (n <=? y) || (y <? 0) then
            let x := x - 2 in
            let y := if up then y + 1 else y - 1 in
            let x := if (x =? 7) || (x =? 6) then x - 1 else x in
            (x, y, negb up)
          else (x, y, up) in
        let fr := if (n <=? x) || (x <? 0) || (n <=? y) || (y <? 0) then true else free x y in
        let mod2 := Z.rem i 2 in
        let '(x', y') :=
          if up then (if mod2 =? 0 then (x - 1, y) else (x + 1, y - 1))
          else (if mod2 =? 0 then (x - 1, y) else (x + 1, y + 1)) in
        if fr then
          match walk f free n x' y' up (i + 1) k' with Some l => Some ((x, y) :: l) | None => None end
        else walk f free n x' y' up (i + 1) k
    end
  end.

Definition is_init (v : Z) : bool := qrtype v =? QRType_INIT.

Lemma dataval_not_init b : is_init (dataval b) = false.
Proof. destruct b; reflexivity. Qed.

Lemma fill_walk fuel free n : forall m x y up i bits path,
  wf m -> mwidth m = n -> mheight m = n ->
  walk fuel free n x y up i (length bits) = Some path ->
  length path = length bits ->
  (forall q, In q path -> in_range m (fst q) (snd q)) ->
  NoDup path ->
  (forall x y, in_range m x y -> free x y = false -> is_init (rawget m x y) = false) ->
  (forall q, In q path -> is_init (rawget m (fst q) (snd q)) = true) ->
  fill_loop fuel m x y up i bits = Some (apply_writes m (combine path (map dataval bits))).
Proof.
  induction fuel as [|f IH]; intros m x y up i bits path Hwf HW HH Hwalk Hlen Hrange Hnd Hnf Hfr.
  { destruct bits; simpl in *; [injection Hwalk as <-; reflexivity|discriminate]. }
  destruct bits as [|b rest].
  { simpl in Hwalk. injection Hwalk as <-. reflexivity. }
  simpl in Hwalk. simpl fill_loop.
  unfold m_at at 1. rewrite HW, HH.
  destruct ((n <=? x) || (x <? 0)) eqn:EW.
  { injection Hwalk as <-. discriminate Hlen. }
  set (st := if (n <=? y) || (y <? 0)
             then (let x1 := x - 2 in
                   let y0 := if up then y + 1 else y - 1 in
                   let x2 := if (x1 =? 7) || (x1 =? 6) then x1 - 1 else x1 in (x2, y0, negb up))
             else (x, y, up)) in *.
  match goal with |- ?LHS = _ => 
    assert (LHS = (fun q : Z * Z * bool * Z =>
      let '(x, y, upForward, state) := q in
      let '(m0, bits) := if qrtype state =? QRType_INIT
                         then (m_set m x y (dataval b), rest) else (m, b :: rest) in
      let '(x0, y0) := if upForward then (if Z.rem i 2 =? 0 then (x - 1, y) else (x + 1, y - 1))
                       else (if Z.rem i 2 =? 0 then (x - 1, y) else (x + 1, y + 1)) in
      fill_loop f m0 x0 y0 upForward (i + 1) bits)
      (fst (fst st), snd (fst st), snd st, fst (m_at m (fst (fst st)) (snd (fst st))))) as ->
  end.
  { unfold st. destruct ((n <=? y) || (y <? 0)) eqn:EH; simpl; [reflexivity|].
    unfold m_at. rewrite HW, HH, EW, EH. reflexivity. }
  destruct st as [[x1 y1] up1]. cbn [fst snd].
  set (nxt := if up1 then (if Z.rem i 2 =? 0 then (x1 - 1, y1) else (x1 + 1, y1 - 1))
              else (if Z.rem i 2 =? 0 then (x1 - 1, y1) else (x1 + 1, y1 + 1))) in *.
  destruct nxt as [x2 y2].
  destruct ((n <=? x1) || (x1 <? 0) || (n <=? y1) || (y1 <? 0)) eqn:ER.
  - (* out of range after the turn: excluded because the path stays in range *)
    destruct (walk f free n x2 y2 up1 (i + 1) (length rest)) eqn:E; [|discriminate].
    injection Hwalk as <-. exfalso.
    destruct (Hrange (x1, y1)) as [R1 R2]; [simpl; auto|]. simpl in R1, R2.
    rewrite HW in R1; rewrite HH in R2.
    rewrite !orb_true_iff, !Z.leb_le, !Z.ltb_lt in ER. lia.
  - assert (Hr : in_range m x1 y1).
    { unfold in_range. rewrite HW, HH. rewrite !orb_false_iff, !Z.leb_gt, !Z.ltb_ge in ER. lia. }
    rewrite m_at_in by auto. cbn [fst].
    destruct (free x1 y1) eqn:EF.
    + destruct (walk f free n x2 y2 up1 (i + 1) (length rest)) as [p|] eqn:E; [|discriminate].
      injection Hwalk as <-.
      assert (Hi : is_init (rawget m x1 y1) = true) by (apply (Hfr (x1, y1)); simpl; auto).
      unfold is_init in Hi. rewrite Hi.
      inversion Hnd as [|? ? Hnin Hnd']; subst.
      rewrite (IH (m_set m x1 y1 (dataval b)) x2 y2 up1 (i + 1) rest p); auto using wf_set.
      * apply m_set_width.
      * rewrite m_set_height; auto.
      * intros q Hq. unfold in_range. rewrite m_set_width, m_set_height. apply Hrange; simpl; auto.
      * intros x' y' Hr' Hf'. unfold in_range in Hr'. rewrite m_set_width, m_set_height in Hr'.
        rewrite rawget_set_other; auto. intros [= <- <-]. congruence.
      * intros q Hq. rewrite rawget_set_other; auto; [apply Hfr; simpl; auto|].
        intros E'. destruct q; simpl in E'. injection E' as -> ->. contradiction.
    + assert (Hi : is_init (rawget m x1 y1) = false) by (apply Hnf; auto).
      unfold is_init in Hi. rewrite Hi.
      apply IH; auto.
Qed.
