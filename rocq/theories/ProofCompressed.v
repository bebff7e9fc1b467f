(* The compressed writer's image and file. *)
From Coq Require Import Lia.
From Verif Require Import ModelBase ModelMatrix ModelCompressed.
From Verif Require Import SpecIso SpecReader SpecMatrix SpecImage ProofBase ProofMatrix ProofEval ProofViews.

(* images at the origin *)
Definition img_ok (W : Z) (i : paletted) : Prop := p_min i = 0 /\ p_size i = W /\ zlen (p_pix i) = W * W /\ 0 <= W.

Lemma set_pix_ok W i x y c : img_ok W i -> 0 <= x < W -> 0 <= y < W ->
  exists i', set_pix i x y c = Some i' /\ img_ok W i' /\
    forall x' y', 0 <= x' < W -> 0 <= y' < W -> pix i' x' y' = if (x' =? x) && (y' =? y) then Some c else pix i x' y'.
Proof.
  intros (A & B & C & D) Hx Hy. unfold set_pix, PixOffset. rewrite A, B, !Z.sub_0_r.
  assert (R : 0 <= y * W + x < W * W) by nia.
  destruct (Z.leb_spec 0 (y * W + x)); [|lia]. destruct (Z.ltb_spec (y * W + x) (zlen (p_pix i))); [|lia]. cbn [andb].
  eexists. split; [reflexivity|]. split; [repeat split; cbn [p_min p_size p_pix]; auto; rewrite zlen_zupd; auto|].
  intros x' y' Hx' Hy'. unfold pix. cbn [p_size p_pix]. rewrite B. rewrite zget_zupd by lia.
  destruct (Z.eqb_spec (y * W + x) (y' * W + x')) as [E|N].
  - assert (y' = y) by nia. assert (x' = x) by nia. subst. rewrite !Z.eqb_refl. reflexivity.
  - destruct (Z.eqb_spec x' x) as [->|]; auto. destruct (Z.eqb_spec y' y) as [->|]; auto. lia.
Qed.

Definition inside (x1 y1 x2 y2 x y : Z) : bool := (x1 <=? x) && (x <? x2) && (y1 <=? y) && (y <? y2).

Lemma column_ok W c x : 0 <= x < W -> forall n y1 i, img_ok W i -> 0 <= y1 -> y1 + Z.of_nat n <= W ->
  exists i', fold_left (fun o y => match o with Some i => set_pix i x y c | None => None end) (zseq y1 (Z.of_nat n)) (Some i) = Some i' /\ img_ok W i' /\
    forall x' y', 0 <= x' < W -> 0 <= y' < W -> pix i' x' y' = if inside x y1 (x + 1) (y1 + Z.of_nat n) x' y' then Some c else pix i x' y'.
Proof.
  intros Hx. induction n as [|n IH]; intros y1 i I Hy Hn.
  - exists i. split; [reflexivity|]. split; auto. intros x' y' _ _.
    assert (inside x y1 (x + 1) (y1 + Z.of_nat 0) x' y' = false) as ->; [|reflexivity].
    unfold inside. destruct (Z.leb_spec y1 y'); destruct (Z.ltb_spec y' (y1 + Z.of_nat 0)); try lia; rewrite ?andb_false_r; auto; destruct (_ && _); auto.
  - assert (EZ : zseq y1 (Z.of_nat (S n)) = y1 :: zseq (y1 + 1) (Z.of_nat n)) by (unfold zseq; rewrite !Nat2Z.id; reflexivity).
    rewrite EZ. cbn [fold_left]. destruct (set_pix_ok W i x y1 c I Hx ltac:(lia)) as (i1 & -> & I1 & P1).
    destruct (IH (y1 + 1) i1 I1 ltac:(lia) ltac:(lia)) as (i2 & E2 & I2 & P2). exists i2. split; auto. split; auto.
    intros x' y' Hx' Hy'. rewrite P2, P1 by auto. unfold inside.
    destruct (Z.eqb_spec x' x), (Z.eqb_spec y' y1), (Z.leb_spec x x'), (Z.ltb_spec x' (x + 1)), (Z.leb_spec (y1 + 1) y'), (Z.ltb_spec y' (y1 + 1 + Z.of_nat n)),
      (Z.leb_spec y1 y'), (Z.ltb_spec y' (y1 + Z.of_nat (S n))); cbn [andb]; try reflexivity; exfalso; lia.
Qed.

Lemma rectangle_ok W c x1 y1 x2 y2 i : img_ok W i -> 0 <= x1 <= x2 -> x2 <= W -> 0 <= y1 <= y2 -> y2 <= W ->
  exists i', rectangle x1 y1 x2 y2 i c = Some i' /\ img_ok W i' /\
    forall x y, 0 <= x < W -> 0 <= y < W -> pix i' x y = if inside x1 y1 x2 y2 x y then Some c else pix i x y.
Proof.
  intros I Hx Hx2 Hy Hy2. unfold rectangle.
  assert (G : forall n x1 i, img_ok W i -> 0 <= x1 -> x1 + Z.of_nat n <= W ->
    exists i', fold_left (fun o x => fold_left (fun o y => match o with Some i => set_pix i x y c | None => None end) (zseq y1 (y2 - y1)) o) (zseq x1 (Z.of_nat n)) (Some i) = Some i' /\ img_ok W i' /\
    forall x y, 0 <= x < W -> 0 <= y < W -> pix i' x y = if inside x1 y1 (x1 + Z.of_nat n) y2 x y then Some c else pix i x y).
  { clear x1 x2 i I Hx Hx2. induction n as [|n IH]; intros x1 i I Hx Hn.
    - exists i. split; [reflexivity|]. split; auto. intros x y _ _.
      assert (inside x1 y1 (x1 + Z.of_nat 0) y2 x y = false) as ->; [|reflexivity].
      unfold inside. destruct (Z.leb_spec x1 x); destruct (Z.ltb_spec x (x1 + Z.of_nat 0)); try lia; auto.
    - assert (EZ : zseq x1 (Z.of_nat (S n)) = x1 :: zseq (x1 + 1) (Z.of_nat n)) by (unfold zseq; rewrite !Nat2Z.id; reflexivity).
      rewrite EZ. cbn [fold_left]. replace (y2 - y1) with (Z.of_nat (Z.to_nat (y2 - y1))) by lia.
      destruct (column_ok W c x1 ltac:(lia) (Z.to_nat (y2 - y1)) y1 i I ltac:(lia) ltac:(lia)) as (i1 & -> & I1 & P1).
      replace (y1 + Z.of_nat (Z.to_nat (y2 - y1))) with y2 in P1 by lia. replace (Z.of_nat (Z.to_nat (y2 - y1))) with (y2 - y1) by lia.
      destruct (IH (x1 + 1) i1 I1 ltac:(lia) ltac:(lia)) as (i2 & E2 & I2 & P2). exists i2. split; auto. split; auto.
      intros x y Hx' Hy'. rewrite P2, P1 by auto. unfold inside.
      destruct (Z.leb_spec (x1 + 1) x), (Z.ltb_spec x (x1 + 1 + Z.of_nat n)), (Z.leb_spec x1 x), (Z.ltb_spec x (x1 + 1)), (Z.ltb_spec x (x1 + Z.of_nat (S n)));
        cbn [andb]; try reflexivity; try (exfalso; lia); destruct ((y1 <=? y) && (y <? y2)); auto; cbn [andb]; destruct (y1 <=? y), (y <? y2); reflexivity. }
  replace (x2 - x1) with (Z.of_nat (Z.to_nat (x2 - x1))) by lia.
  destruct (G (Z.to_nat (x2 - x1)) x1 i I ltac:(lia) ltac:(lia)) as (i' & E & I' & P). exists i'. split; auto. split; auto.
  replace (x1 + Z.of_nat (Z.to_nat (x2 - x1))) with x2 in P by lia. exact P.
Qed.

Definition cell_of (block padding p : Z) : Z := (p - padding) / block.

Lemma in_cell block padding x p : 1 <= block -> (x * block + padding <= p < (x + 1) * block + padding <-> cell_of block padding p = x).
Proof.
  intros HB. unfold cell_of. split.
  - intros HP. symmetry. apply (Z.div_unique_pos _ _ _ (p - padding - x * block)); lia.
  - intros <-. pose proof (Z.div_mod (p - padding) block ltac:(lia)). pose proof (Z.mod_pos_bound (p - padding) block ltac:(lia)). lia.
Qed.

Lemma inside_cell block padding x y px py : 1 <= block ->
  inside (x * block + padding) (y * block + padding) ((x + 1) * block + padding) ((y + 1) * block + padding) px py
  = eq_pos (cell_of block padding px, cell_of block padding py) (x, y).
Proof.
  intros HB. apply eq_true_iff_eq. unfold inside. rewrite eq_pos_spec, !andb_true_iff, !Z.leb_le, !Z.ltb_lt.
  pose proof (in_cell block padding x px HB). pose proof (in_cell block padding y py HB). split.
  - intros HI. f_equal; [apply H|apply H0]; lia.
  - intros [= E1 E2]. apply H in E1. apply H0 in E2. lia.
Qed.

Theorem compressed_ok n m padding block : square n m -> 0 <= padding -> 1 <= block ->
  exists i, compressed_draw padding block m = Some i /\ p_min i = 0 /\ p_size i = n * block + 2 * padding /\ zlen (p_pix i) = p_size i * p_size i /\
    forall px py, 0 <= px < p_size i -> 0 <= py < p_size i ->
      let x := (px - padding) / block in let y := (py - padding) / block in
      pix i px py = Some (if (0 <=? x) && (x <? n) && (0 <=? y) && (y <? n) && module_at (m_bitmap m) x y then 1 else 0).
Proof.
  intros HS HP HB. pose proof HS as (HW & EW & EH). pose proof HW as (W0 & _).
  unfold compressed_draw. rewrite EW. set (W := n * block + 2 * padding). assert (HW0 : 0 <= W) by (unfold W; nia).
  assert (I0 : img_ok W (NewPaletted W)).
  { unfold NewPaletted, img_ok. cbn [p_min p_size p_pix]. rewrite Z.abs_eq, Z.min_l by lia. repeat split; auto. unfold zlen. rewrite repeat_length. nia. }
  cbv zeta. destruct (rectangle_ok W 0 0 0 W W (NewPaletted W) I0 ltac:(lia) ltac:(lia) ltac:(lia) ltac:(lia)) as (i1 & -> & I1 & P1).
  unfold m_iter. rewrite EW, EH.
  assert (B0 : forall px py, 0 <= px < W -> 0 <= py < W -> pix i1 px py = Some 0).
  { intros px py Hx Hy. rewrite P1 by auto. unfold inside. destruct (Z.leb_spec 0 px), (Z.ltb_spec px W), (Z.leb_spec 0 py), (Z.ltb_spec py W); try lia. reflexivity. }
  assert (G : forall coords done i, (forall x y, In (x, y) coords -> 0 <= x < n /\ 0 <= y < n) -> img_ok W i ->
     (forall px py, 0 <= px < W -> 0 <= py < W -> pix i px py = Some (if existsb (eq_pos (cell_of block padding px, cell_of block padding py)) done && qrbool (rawget m (cell_of block padding px) (cell_of block padding py)) then 1 else 0)) ->
     exists i', fold_left (fun s '(x, y) => match s with
        | None => None
        | Some i => if qrbool (rawget m x y) then rectangle (x * block + padding) (y * block + padding) ((x + 1) * block + padding) ((y + 1) * block + padding) i 1 else Some i end) coords (Some i) = Some i' /\ img_ok W i' /\
       forall px py, 0 <= px < W -> 0 <= py < W -> pix i' px py = Some (if existsb (eq_pos (cell_of block padding px, cell_of block padding py)) (done ++ coords) && qrbool (rawget m (cell_of block padding px) (cell_of block padding py)) then 1 else 0)).
  { induction coords as [|[x y] coords IH]; intros done i HR I P.
    - exists i. rewrite app_nil_r. auto.
    - cbn [fold_left]. destruct (HR x y (or_introl eq_refl)) as [Hx Hy].
      replace (done ++ (x, y) :: coords) with ((done ++ [(x, y)]) ++ coords) by (rewrite <- app_assoc; reflexivity).
      assert (HR' : forall a b, In (a, b) coords -> 0 <= a < n /\ 0 <= b < n) by (intros a b Hab; apply HR; right; auto).
      destruct (qrbool (rawget m x y)) eqn:EB.
      + destruct (rectangle_ok W 1 (x * block + padding) (y * block + padding) ((x + 1) * block + padding) ((y + 1) * block + padding) i I) as (i2 & -> & I2 & P2); try (unfold W; nia).
        apply IH; auto. intros px py Hpx Hpy. rewrite P2, P by auto. rewrite inside_cell by auto. rewrite existsb_app. cbn [existsb]. rewrite orb_false_r.
        destruct (eq_pos (cell_of block padding px, cell_of block padding py) (x, y)) eqn:E; [|rewrite orb_false_r; reflexivity].
        apply eq_pos_spec in E. injection E as -> ->. rewrite orb_true_r, EB. reflexivity.
      + apply IH; auto. intros px py Hpx Hpy. rewrite P by auto. rewrite existsb_app. cbn [existsb]. rewrite orb_false_r.
        destruct (eq_pos (cell_of block padding px, cell_of block padding py) (x, y)) eqn:E; [|rewrite orb_false_r; reflexivity].
        apply eq_pos_spec in E. injection E as -> ->. rewrite EB, !andb_false_r. reflexivity. }
  destruct (G (iter_coords IterDirection_COLUMN n n) [] i1) as (i & E & I & P); auto.
  { intros x y HI. apply in_iter_coords in HI. auto. }
  exists i. pose proof I as (A & B & C & D). split; [exact E|]. split; auto. split; auto. rewrite B. split; auto.
  intros px py Hpx Hpy. cbv zeta. rewrite P by auto. cbn [app]. fold (cell_of block padding px). fold (cell_of block padding py).
  set (cx := cell_of block padding px). set (cy := cell_of block padding py).
  destruct (existsb (eq_pos (cx, cy)) (iter_coords IterDirection_COLUMN n n)) eqn:EX.
  - apply existsb_exists in EX as ([a b] & HI & EP). apply eq_pos_spec in EP. injection EP as <- <-. apply in_iter_coords in HI as [R1 R2].
    rewrite module_at_bitmap by (auto; split; lia).
    destruct (Z.leb_spec 0 cx), (Z.ltb_spec cx n), (Z.leb_spec 0 cy), (Z.ltb_spec cy n); try lia. reflexivity.
  - destruct (Z.leb_spec 0 cx), (Z.ltb_spec cx n), (Z.leb_spec 0 cy), (Z.ltb_spec cy n); cbn [andb]; try reflexivity.
    exfalso. assert (X : existsb (eq_pos (cx, cy)) (iter_coords IterDirection_COLUMN n n) = true); [|congruence].
    apply existsb_exists. exists (cx, cy). split; [apply in_iter_coords; lia|apply eq_pos_refl].
Qed.

Theorem compressed_pixels n m padding block : square n m -> 0 <= padding -> 1 <= block ->
  exists i, compressed_draw padding block m = Some i /\
    p_min i = 0 /\ p_size i = n * block + 2 * padding /\ zlen (p_pix i) = p_size i * p_size i /\
    (forall x y dx dy, 0 <= x < n -> 0 <= y < n -> 0 <= dx < block -> 0 <= dy < block ->
       pix i (padding + x * block + dx) (padding + y * block + dy) = Some (if module_at (m_bitmap m) x y then 1 else 0)) /\
    (forall px py, 0 <= px < p_size i -> 0 <= py < p_size i ->
       ~ (padding <= px < padding + n * block /\ padding <= py < padding + n * block) -> pix i px py = Some 0).
Proof.
  intros HS HP HB. destruct (compressed_ok n m padding block HS HP HB) as (i & E & A & B & C & D).
  exists i. split; auto. split; auto. split; auto. split; auto. split.
  - intros x y dx dy Hx Hy Hdx Hdy. rewrite D by (rewrite B; nia). cbv zeta.
    replace ((padding + x * block + dx - padding) / block) with x by (apply (Z.div_unique_pos _ _ _ dx); lia).
    replace ((padding + y * block + dy - padding) / block) with y by (apply (Z.div_unique_pos _ _ _ dy); lia).
    destruct (Z.leb_spec 0 x), (Z.ltb_spec x n), (Z.leb_spec 0 y), (Z.ltb_spec y n); try lia. reflexivity.
  - intros px py Hpx Hpy HN. rewrite D by auto. cbv zeta.
    destruct (Z.leb_spec 0 ((px - padding) / block)), (Z.ltb_spec ((px - padding) / block) n),
      (Z.leb_spec 0 ((py - padding) / block)), (Z.ltb_spec ((py - padding) / block) n); cbn [andb]; try reflexivity.
    exfalso. apply HN.
    pose proof (Z.div_mod (px - padding) block ltac:(lia)). pose proof (Z.mod_pos_bound (px - padding) block ltac:(lia)).
    pose proof (Z.div_mod (py - padding) block ltac:(lia)). pose proof (Z.mod_pos_bound (py - padding) block ltac:(lia)). nia.
Qed.

Lemma fold_none {A B} (f : option A -> B -> option A) l : (forall b, f None b = None) -> fold_left f l None = None.
Proof. intros HF. induction l as [|b l IH]; [reflexivity|]. cbn [fold_left]. rewrite HF. exact IH. Qed.

Theorem compressed_negative n m padding block : square n m -> 1 <= n -> padding < 0 -> 1 <= block -> 0 <= n * block + 2 * padding ->
  module_at (m_bitmap m) 0 0 = true -> compressed_draw padding block m = None.
Proof.
  intros HS HN HP HB HW0 HD. pose proof HS as (HW & EW & EH).
  unfold compressed_draw. rewrite EW. set (W := n * block + 2 * padding).
  assert (I0 : img_ok W (NewPaletted W)).
  { unfold NewPaletted, img_ok. cbn [p_min p_size p_pix]. rewrite Z.abs_eq, Z.min_l by (unfold W; lia). repeat split; auto. unfold zlen. rewrite repeat_length. unfold W. nia. }
  cbv zeta. destruct (rectangle_ok W 0 0 0 W W (NewPaletted W) I0 ltac:(unfold W; lia) ltac:(unfold W; lia) ltac:(unfold W; lia) ltac:(unfold W; lia)) as (i1 & -> & I1 & P1).
  unfold m_iter. rewrite EW, EH.
  assert (EC : exists r, iter_coords IterDirection_COLUMN n n = (0, 0) :: r).
  { unfold iter_coords. replace n with (1 + (n - 1)) by lia. unfold zseq at 1. replace (Z.to_nat (1 + (n - 1))) with (S (Z.to_nat (n - 1))) by lia.
    cbn [zseq_nat flat_map]. unfold zseq. replace (Z.to_nat (1 + (n - 1))) with (S (Z.to_nat (n - 1))) by lia. cbn. eexists. reflexivity. }
  destruct EC as (r & ->). cbn [fold_left].
  assert (HB0 : qrbool (rawget m 0 0) = true).
  { rewrite <- HD. symmetry. apply module_at_bitmap; auto. split; rewrite ?EW, ?EH; lia. }
  rewrite HB0.
  assert (ER : rectangle (0 * block + padding) (0 * block + padding) ((0 + 1) * block + padding) ((0 + 1) * block + padding) i1 1 = None).
  { unfold rectangle. replace (zseq (0 * block + padding) ((0 + 1) * block + padding - (0 * block + padding))) with (padding :: zseq (padding + 1) (block - 1)).
    2:{ replace (0 * block + padding) with padding by lia. replace ((0 + 1) * block + padding - padding) with block by lia. unfold zseq. replace (Z.to_nat block) with (S (Z.to_nat (block - 1))) by lia. reflexivity. }
    assert (SP : set_pix i1 padding padding 1 = None).
    { destruct I1 as (A & B & C & D). unfold set_pix, PixOffset. rewrite A, B. destruct (Z.leb_spec 0 ((padding - 0) * W + (padding - 0))); [nia|]. reflexivity. }
    cbn [fold_left]. rewrite SP. rewrite (fold_none _ (zseq (padding + 1) (block - 1))) by reflexivity. apply fold_none. intros b. apply fold_none. reflexivity. }
  rewrite ER. apply fold_none. intros [x y]. reflexivity.
Qed.

(* ---- files ---- *)
Lemma skipn_add {A} (m n : nat) : forall l : list A, skipn n (skipn m l) = skipn (m + n) l.
Proof. induction m as [|m IH]; intros l; [reflexivity|]. destruct l; [rewrite !skipn_nil; reflexivity|]. cbn. apply IH. Qed.

Lemma os_write_all_content pieces : forall f, (o_pos f <= length (o_content f))%nat ->
  o_content (os_write_all f pieces) = firstn (o_pos f) (o_content f) ++ concat pieces ++ skipn (o_pos f + length (concat pieces)) (o_content f).
Proof.
  induction pieces as [|p pieces IH]; intros f Hf.
  - cbn. rewrite Nat.add_0_r, firstn_skipn. reflexivity.
  - cbn [os_write_all fold_left]. change (fold_left os_write pieces (os_write f p)) with (os_write_all (os_write f p) pieces).
    assert (LF : length (firstn (o_pos f) (o_content f)) = o_pos f) by (rewrite firstn_length; lia).
    rewrite IH; unfold os_write; cbn [o_content o_pos].
    + cbn [concat].
      set (A := firstn (o_pos f) (o_content f)) in *. set (B := skipn (o_pos f + length p) (o_content f)).
      assert (LA : length (A ++ p) = (o_pos f + length p)%nat) by (rewrite app_length; lia).
      rewrite (app_assoc A p B). rewrite firstn_app, LA, Nat.sub_diag, firstn_O, app_nil_r, firstn_all2 by lia.
      rewrite <- !app_assoc. f_equal. f_equal. f_equal. rewrite (app_assoc A p B).
      rewrite skipn_app. rewrite skipn_all2 by lia. cbn [app]. rewrite LA. unfold B. rewrite skipn_add. f_equal. rewrite app_length. lia.
    + rewrite !app_length, LF. lia.
Qed.
