(* C88: with ints of at least 32 bits the core computes what ModelQRCode.v computes. *)
From Verif Require Import ModelBase ModelBinary ModelVersion ModelMatrix ModelChardet ModelEncoder ModelRS ModelKmp ModelEval ModelLayout ModelMask ModelQRCode ModelInt.
From Verif Require Import ProofBase ProofMatrix ProofEval ProofViews ProofCache.

Lemma fold_left_inv {A E} (P : A -> Prop) (f g : A -> E -> A) l :
  (forall a b, In b l -> P a -> f a b = g a b /\ P (g a b)) -> forall a, P a -> fold_left f l a = fold_left g l a /\ P (fold_left g l a).
Proof.
  induction l as [|b l IH]; intros HS a Ha; [auto|]. destruct (HS a b (or_introl eq_refl) Ha) as [E1 P1]. cbn [fold_left]. rewrite E1.
  apply IH; [|exact P1]. intros a' b' I. apply HS. right. exact I.
Qed.

Lemma zseq_nat_length n : forall a, length (zseq_nat a n) = n.
Proof. induction n as [|n IH]; intros a; [reflexivity|]. cbn [zseq_nat length]. rewrite IH. reflexivity. Qed.

Section Int.
  Context (int : Z -> Z) (B : Z) (big : 2147483648 <= B) (small : forall z, -B <= z < B -> int z = z).

  Ltac norm := repeat match goal with |- context [int ?z] => lazymatch z with context [int _] => fail | _ => rewrite (small z) by lia end end.

  (* ---- version.go ---- *)
  Lemma dimension_int ver : 1 <= ver <= 40 -> dimensionI int ver = ver * 4 + 17.
  Proof. intros H1. unfold dimensionI. norm. reflexivity. Qed.

  Lemma loadVersion_int lv ec : 1 <= lv <= 40 -> loadVersionI int lv ec = loadVersion lv ec.
  Proof. intros H1. unfold loadVersionI, loadVersion. cbv zeta. norm. reflexivity. Qed.

  Lemma analyzeVersion_int raw ec mode : 0 <= zlen raw < B -> 0 <= rune_count raw < B -> analyzeVersionI int raw ec mode = analyzeVersion raw ec mode.
  Proof.
    intros H1 H2. unfold analyzeVersionI, analyzeVersion. cbv zeta.
    replace (int (if mode =? EncModeByte then zlen raw else rune_count raw)) with (if mode =? EncModeByte then zlen raw else rune_count raw)
      by (destruct (mode =? EncModeByte); norm; reflexivity).
    assert (HH : forall s, 0 <= s <= 3 -> map (fun k => int (s + 4 * k)) (zseq 0 40) = map (fun k => s + 4 * k) (zseq 0 40)).
    { intros s Hs. apply map_ext_in. intros k Hk. apply in_zseq in Hk. norm. reflexivity. }
    destruct (ec =? ErrorCorrectionLow); [rewrite HH by lia; reflexivity|].
    destruct (ec =? ErrorCorrectionMedium); [rewrite HH by lia; reflexivity|].
    destruct (ec =? ErrorCorrectionQuart); [rewrite HH by lia; reflexivity|].
    destruct (ec =? ErrorCorrectionHighest); [rewrite HH by lia; reflexivity|reflexivity].
  Qed.

  Lemma valid_int x y d : 0 <= x <= 1000 -> 0 <= y <= 1000 -> 0 <= d <= 1000 -> validI int x y d = valid x y d.
  Proof. intros H1 H2 H3. unfold validI, valid. norm. reflexivity. Qed.

  Lemma align_table : forallb (fun o => match o with Some l => forallb (fun p => (0 <=? p) && (p <=? 1000)) l | None => true end) alignPatternTable = true.
  Proof. vm_compute. reflexivity. Qed.
  Lemma align_positions ver l : alignPatternLocation ver = Some l -> Forall (fun p => 0 <= p <= 1000) l.
  Proof.
    unfold alignPatternLocation. destruct (zget alignPatternTable ver) as [o|] eqn:G; [|discriminate]. intros ->.
    assert (I : In (Some l) alignPatternTable). { unfold zget in G. destruct (ver <? 0); [discriminate G|]. eapply nth_error_In. exact G. }
    pose proof (proj1 (forallb_forall _ _) align_table _ I) as F. cbv beta iota in F. apply Forall_forall. intros p Hp.
    pose proof (proj1 (forallb_forall _ _) F _ Hp) as X. cbv beta in X. lia.
  Qed.

  Lemma flat_map_ext_in {X Y} (f g : X -> list Y) l : (forall a, In a l -> f a = g a) -> flat_map f l = flat_map g l.
  Proof. induction l as [|a l IH]; intros HS; [reflexivity|]. cbn [flat_map]. rewrite HS by (left; reflexivity). f_equal. apply IH. intros b Hb. apply HS. right. exact Hb. Qed.

  Lemma align_int ver : 1 <= ver <= 40 -> calcAlignPatternLocsI int ver = loadAlignmentPatternLocV2 ver.
  Proof.
    intros H1. unfold calcAlignPatternLocsI, loadAlignmentPatternLocV2, calcAlignPatternLocs. destruct (ver <? 2); [reflexivity|].
    destruct (alignPatternLocation ver) as [l|] eqn:E1; [|reflexivity]. cbv zeta. norm. f_equal. apply align_positions in E1. rewrite Forall_forall in E1.
    apply flat_map_ext_in. intros a Ha. apply flat_map_ext_in. intros b Hb. pose proof (E1 a Ha). pose proof (E1 b Hb). rewrite valid_int by lia. reflexivity.
  Qed.
  Lemma align_range ver l : 1 <= ver <= 40 -> loadAlignmentPatternLocV2 ver = Some l -> Forall (fun '(x, y) => 0 <= x <= 1000 /\ 0 <= y <= 1000) l.
  Proof.
    intros H1. unfold loadAlignmentPatternLocV2, calcAlignPatternLocs. destruct (ver <? 2); [injection 1 as <-; constructor|].
    destruct (alignPatternLocation ver) as [ps|] eqn:E1; [|discriminate]. cbv zeta. intros E2. injection E2 as <-. apply align_positions in E1. rewrite Forall_forall in E1.
    apply Forall_forall. intros [x y] I. apply in_flat_map in I as (a & Ha & I). apply in_flat_map in I as (b & Hb & I).
    destruct (valid a b (ver * 4 + 17)); [|destruct I]. destruct I as [I|[]]. injection I as <- <-. split; apply E1; auto.
  Qed.

  (* ---- the matrix ---- *)
  Lemma ring_fold c side l : forall m x y, - B <= x - zlen l -> x + zlen l < B -> - B <= y - zlen l -> y + zlen l < B ->
    fold_left (fun '(m, x, y) i =>
        let m := m_set m x y c in
        if i <? side then (m, int (x + 1), y) else if i <? 2 * side then (m, x, int (y + 1)) else if i <? 3 * side then (m, int (x - 1), y) else (m, x, int (y - 1))) l (m, x, y)
    = fold_left (fun '(m, x, y) i =>
        let m := m_set m x y c in
        if i <? side then (m, x + 1, y) else if i <? 2 * side then (m, x, y + 1) else if i <? 3 * side then (m, x - 1, y) else (m, x, y - 1)) l (m, x, y).
  Proof.
    induction l as [|i l IH]; intros m x y H1 H2 H3 H4; [reflexivity|]. cbn [fold_left]. cbv zeta.
    assert (zlen (i :: l) = zlen l + 1) by (unfold zlen; cbn [length]; lia). assert (0 <= zlen l) by (unfold zlen; lia).
    destruct (i <? side); [norm; apply IH; lia|]. destruct (i <? 2 * side); [norm; apply IH; lia|]. destruct (i <? 3 * side); norm; apply IH; lia.
  Qed.
  Lemma ring_int m x y side c : 0 <= side <= 6 -> -1000 <= x <= 1000 -> -1000 <= y <= 1000 -> ringI int m x y side c = ring m x y side c.
  Proof.
    intros H1 H2 H3. unfold ringI, ring. assert (zlen (zseq 0 (4 * side)) <= 24) by (unfold zlen, zseq; rewrite zseq_nat_length; lia). rewrite ring_fold by lia. reflexivity.
  Qed.
  Lemma addFinder_int m t l : 0 <= t <= 900 -> 0 <= l <= 900 -> addFinderI int m t l = addFinder m t l.
  Proof.
    intros H1 H2. unfold addFinderI, addFinder. cbv zeta. norm. rewrite !ring_int by lia.
    replace (t + 5 - (t + 2)) with 3 by lia. replace (l + 5 - (l + 2)) with 3 by lia. reflexivity.
  Qed.
  Lemma addSplitter_int m x y d : 0 <= x <= 900 -> 0 <= y <= 900 -> 0 <= d <= 900 -> addSplitterI int m x y d = addSplitter m x y d.
  Proof.
    intros H1 H2 H3. unfold addSplitterI, addSplitter. norm. destruct ((x =? 7) && (y =? 7)); [reflexivity|].
    destruct ((x =? d - 8) && (y =? 7)); [apply fold_left_ext_in; intros m' p Hp; apply in_zseq in Hp; norm; reflexivity|].
    destruct ((x =? 7) && (y =? d - 8)); [apply fold_left_ext_in; intros m' p Hp; apply in_zseq in Hp; norm; reflexivity|reflexivity].
  Qed.
  Lemma addAlignment_int m x y : 0 <= x <= 900 -> 0 <= y <= 900 -> addAlignmentI int m x y = addAlignment m x y.
  Proof. intros H1 H2. unfold addAlignmentI, addAlignment. cbv zeta. norm. rewrite !ring_int by lia. reflexivity. Qed.
  Lemma addTimingLine_int m d : 0 <= d <= 900 -> addTimingLineI int m d = addTimingLine m d.
  Proof. intros H1. unfold addTimingLineI, addTimingLine. norm. reflexivity. Qed.
  Lemma reserveFormat_int m d : 0 <= d <= 900 -> reserveFormatBlockI int m d = reserveFormatBlock m d.
  Proof.
    intros H1. unfold reserveFormatBlockI, reserveFormatBlock. cbv zeta.
    match goal with |- m_set (m_set ?a _ _ _) _ _ _ = m_set (m_set ?b _ _ _) _ _ _ => assert (E : a = b); [|rewrite E; reflexivity] end.
    apply fold_left_ext_in. intros m' p Hp. apply in_zseq in Hp. norm. reflexivity.
  Qed.
  Lemma reserveVersion_int m d : 0 <= d <= 900 -> reserveVersionBlockI int m d = reserveVersionBlock m d.
  Proof.
    intros H1. unfold reserveVersionBlockI, reserveVersionBlock. apply fold_left_ext_in. intros m' i Hi. apply in_zseq in Hi.
    apply fold_left_ext_in. intros m2 p Hp. norm. reflexivity.
  Qed.

  Lemma prefill_int ver m : 1 <= ver <= 40 -> prefillMatrixI int ver m = prefillMatrix ver m.
  Proof.
    intros H1. unfold prefillMatrixI. with_strategy transparent [prefillMatrix] unfold prefillMatrix. unfold prefill_from. cbv zeta. rewrite dimension_int by exact H1. norm.
    rewrite (addFinder_int m 0 0) by lia. rewrite (addSplitter_int _ 7 7) by lia. rewrite (addFinder_int _ (ver * 4 + 17 - 7) 0) by lia.
    rewrite (addSplitter_int _ (ver * 4 + 17 - 8) 7) by lia. rewrite (addFinder_int _ 0 (ver * 4 + 17 - 7)) by lia. rewrite (addSplitter_int _ 7 (ver * 4 + 17 - 8)) by lia.
    rewrite align_int by exact H1.
    destruct (1 <? ver).
    - destruct (loadAlignmentPatternLocV2 ver) as [l|] eqn:E1; [|reflexivity]. apply align_range in E1; [|exact H1]. rewrite Forall_forall in E1.
      rewrite (fold_left_ext_in (fun m '(x, y) => addAlignmentI int m x y) (fun m '(x, y) => addAlignment m x y)).
      + rewrite addTimingLine_int by lia. rewrite reserveFormat_int by lia. destruct (7 <=? ver); [rewrite reserveVersion_int by lia|]; reflexivity.
      + intros m' [x y] I. apply E1 in I. unfold addAlignmentI, addAlignment. cbv zeta. norm. rewrite !ring_int by lia. reflexivity.
    - rewrite addTimingLine_int by lia. rewrite reserveFormat_int by lia. destruct (7 <=? ver); [rewrite reserveVersion_int by lia|]; reflexivity.
  Qed.

  Lemma fill_loop_int fuel : forall m x y u i bits,
    - B <= x - 4 * Z.of_nat fuel -> x + 4 * Z.of_nat fuel < B -> - B <= y - 4 * Z.of_nat fuel -> y + 4 * Z.of_nat fuel < B -> 0 <= i -> i + Z.of_nat fuel < B ->
    fill_loopI int fuel m x y u i bits = fill_loop fuel m x y u i bits.
  Proof.
    induction fuel as [|f IH]; intros m x y u i bits H1 H2 H3 H4 H5 H6; [reflexivity|].
    destruct bits as [|b rest]; [reflexivity|]. cbn [fill_loopI fill_loop].
    destruct (m_at m x y) as [st err]. destruct err as [[|]|]; [reflexivity| |].
    - cbv zeta. norm.
      assert (HX : x - 3 <= (if (x - 2 =? 7) || (x - 2 =? 6) then x - 2 - 1 else x - 2) <= x - 2) by (destruct ((x - 2 =? 7) || (x - 2 =? 6)); lia).
      set (x2 := if (x - 2 =? 7) || (x - 2 =? 6) then x - 2 - 1 else x - 2) in *. clearbody x2.
      assert (HY : y - 1 <= (if u then y + 1 else y - 1) <= y + 1) by (destruct u; lia).
      set (y2 := if u then y + 1 else y - 1) in *. clearbody y2.
      destruct (if qrtype (fst (m_at m x2 y2)) =? QRType_INIT then _ else _) as [m' bits'].
      destruct (negb u), (Z.rem i 2 =? 0); norm; apply IH; lia.
    - cbv zeta. destruct (if qrtype st =? QRType_INIT then _ else _) as [m' bits']. destruct u, (Z.rem i 2 =? 0); norm; apply IH; lia.
  Qed.
  Lemma fillData_int m d bits : 0 <= d <= 177 -> fillDataBinaryI int m d bits = fillDataBinary m d bits.
  Proof.
    intros H1. unfold fillDataBinaryI, fillDataBinary. norm. assert (d * d <= 177 * 177) by (apply Z.mul_le_mono_nonneg; lia).
    assert (0 <= d * d) by (apply Z.mul_nonneg_nonneg; lia). apply fill_loop_int; rewrite ?Z2Nat.id by lia; lia.
  Qed.

  Lemma fillVersion_int m d b : 0 <= d <= 900 -> fillVersionInfoI int m d b = fillVersionInfo m d b.
  Proof.
    intros H1. unfold fillVersionInfoI, fillVersionInfo. f_equal. apply fold_left_ext_in. intros [m' bin] [j i] I.
    assert (1 <= i <= 3). { apply in_flat_map in I as (k & _ & I). apply in_map_iff in I as (k2 & E & I). injection E as <- <-. repeat destruct I as [<-|I]; try lia. destruct I. }
    destruct bin; [reflexivity|]. cbv zeta. norm. reflexivity.
  Qed.

  Lemma fillFormat_int m d bits : 0 <= d <= 900 -> fillFormatInfoI int m d bits = fillFormatInfo m d bits.
  Proof.
    intros H1. unfold fillFormatInfoI, fillFormatInfo. norm.
    assert (G : forall l m x y, zlen l <= 15 -> - 1000 + zlen l <= x <= 1000 - zlen l -> - 1000 + zlen l <= y <= 1000 - zlen l ->
      fold_left (fun '(m, x, y) (b : bool) =>
        let c := if b then QRValue_FORMAT_V1 else QRValue_FORMAT_V0 in let m := m_set m x 8 c in let m := m_set m 8 y c in
        let x := int (x + 1) in let y := int (y - 1) in
        let x := if x =? 6 then 7 else if x =? 8 then d - 8 else x in
        let y := if y =? d - 8 then 8 else if y =? 6 then 5 else y in (m, x, y)) l (m, x, y) =
      fold_left (fun '(m, x, y) (b : bool) =>
        let c := if b then QRValue_FORMAT_V1 else QRValue_FORMAT_V0 in let m := m_set m x 8 c in let m := m_set m 8 y c in
        let x := x + 1 in let y := y - 1 in
        let x := if x =? 6 then 7 else if x =? 8 then d - 8 else x in
        let y := if y =? d - 8 then 8 else if y =? 6 then 5 else y in (m, x, y)) l (m, x, y)).
    { induction l as [|b l IH]; intros m' x y L1 L2 L3; [reflexivity|]. cbn [fold_left]. cbv zeta.
      assert (zlen (b :: l) = zlen l + 1) by (unfold zlen; cbn [length]; lia). assert (0 <= zlen l) by (unfold zlen; lia). norm.
      apply IH; [lia| |].
      - destruct (x + 1 =? 6); [lia|]. destruct (x + 1 =? 8); lia.
      - destruct (y - 1 =? d - 8); [lia|]. destruct (y - 1 =? 6); lia. }
    assert (zlen (firstn 15 bits) <= 15) by (unfold zlen; rewrite firstn_length; lia). rewrite G by lia. reflexivity.
  Qed.

  (* ---- masks ---- *)
  Lemma newMask_int n mat mode : square n mat -> 0 <= n <= 177 -> newMaskI int mat mode = newMask mat mode.
  Proof.
    intros HQ Hn. unfold newMaskI, newMask.
    assert (G : match getModuloFuncI int mode, getModuloFunc mode with
                | Some f, Some g => forall x y, 0 <= x < n -> 0 <= y < n -> f x y = g x y | None, None => True | _, _ => False end).
    { unfold getModuloFuncI, getModuloFunc, zget. destruct (mode <? 0); [exact I|].
      assert (K : forall x y, 0 <= x < n -> 0 <= y < n -> 0 <= x * y <= 177 * 177) by (intros; split; [apply Z.mul_nonneg_nonneg; lia|apply Z.mul_le_mono_nonneg; lia]).
      assert (R : forall z k, 0 <= z -> 0 < k -> 0 <= Z.rem z k < k) by (intros; apply Z.rem_bound_pos; lia).
      assert (QQ : forall z k, 0 <= z -> 0 < k -> 0 <= Z.quot z k <= z) by (intros; split; [apply Z.quot_pos; lia|rewrite Z.quot_div_nonneg by lia; apply Z.div_le_upper_bound; nia]).
      destruct (Z.to_nat mode) as [|[|[|[|[|[|[|[|k]]]]]]]]; cbn [nth_error]; [ | | | | | | | |destruct k; exact I]; intros x y Hx Hy; specialize (K x y Hx Hy);
        unfold modulo0Func, modulo1Func, modulo2Func, modulo3Func, modulo4Func, modulo5Func, modulo6Func, modulo7Func;
        try (pose proof (R (x * y) 2 ltac:(lia) ltac:(lia)); pose proof (R (x * y) 3 ltac:(lia) ltac:(lia)); pose proof (R (x + y) 2 ltac:(lia) ltac:(lia));
             pose proof (QQ x 3 ltac:(lia) ltac:(lia)); pose proof (QQ y 2 ltac:(lia) ltac:(lia))); norm; reflexivity. }
    destruct (getModuloFuncI int mode) as [f|], (getModuloFunc mode) as [g|]; try contradiction; [|reflexivity]. cbv zeta. f_equal.
    apply fold_left_ext_in. intros m' [x y] I. assert (X : 0 <= x < n /\ 0 <= y < n).
    { destruct (square_copy _ _ HQ) as (_ & E1 & E2). rewrite E1, E2 in I. unfold iter_coords in I. apply in_flat_map in I as (a & Ha & I). apply in_map_iff in I as (b & E & Hb).
      injection E as <- <-. apply in_zseq in Ha, Hb. lia. }
    rewrite G by apply X. reflexivity.
  Qed.
  Lemma all_masks_int n mat : square n mat -> 0 <= n <= 177 -> all_masksI int mat = all_masks mat.
  Proof.
    intros HQ Hn. unfold all_masksI, all_masks. induction (zseq 0 8) as [|i l IH]; [reflexivity|]. cbn [fold_right]. rewrite IH, (newMask_int n) by auto. reflexivity.
  Qed.

  (* ---- kmp ---- *)
  Definition table_ok (fail : list Z) : Prop := forall i z, zget fail i = Some z -> -1 <= z <= i.
  Lemma zget_nonneg {X} (l : list X) i x : zget l i = Some x -> 0 <= i.
  Proof. unfold zget. destruct (Z.ltb_spec i 0); [discriminate|auto]. Qed.
  Lemma zlen_zupd {X} (l : list X) i x : zlen (zupd l i x) = zlen l.
  Proof. unfold zlen, zupd. destruct (i <? 0); [reflexivity|]. rewrite upd_nat_length. reflexivity. Qed.

  Lemma getNext_int fuel : forall pattern fail j k, zlen pattern <= 1000 -> zlen fail = zlen pattern -> 0 <= j -> -1 <= k <= j -> table_ok fail ->
    getNext_loopI int fuel pattern fail j k = getNext_loop Z.eqb fuel pattern fail j k /\ (forall t, getNext_loop Z.eqb fuel pattern fail j k = Some t -> table_ok t /\ zlen t = zlen pattern).
  Proof.
    induction fuel as [|f IH]; intros pattern fail j k H1 H2 H3 H4 H5; [split; [reflexivity|discriminate]|]. cbn [getNext_loopI getNext_loop].
    assert (0 <= zlen pattern) by (unfold zlen; lia). norm.
    destruct (Z.ltb_spec j (zlen pattern - 1)); [|split; [reflexivity|intros t Ht; injection Ht as <-; auto]].
    destruct (((k =? -1) || eq_at Z.eqb pattern j pattern k)) eqn:E1.
    - norm. apply IH; try lia; [rewrite zlen_zupd; exact H2|].
      intros i z. rewrite zget_zupd by lia. destruct (Z.eqb_spec (j + 1) i) as [<-|]; [intros G; injection G as <-; lia|apply H5].
    - destruct (zget fail k) as [k'|] eqn:E2; [|split; [reflexivity|discriminate]].
      pose proof (zget_nonneg _ _ _ E2). pose proof (H5 _ _ E2). apply IH; try lia; auto.
  Qed.
  Lemma kmpGetNext_int pattern : zlen pattern <= 1000 -> kmpGetNextI int pattern = kmpGetNext Z.eqb pattern /\ (forall t, kmpGetNext Z.eqb pattern = Some t -> table_ok t /\ zlen t = zlen pattern).
  Proof.
    intros H1. unfold kmpGetNextI, kmpGetNext. destruct pattern as [|a p]; [split; [reflexivity|discriminate]|]. apply getNext_int; try lia.
    - rewrite zlen_zupd. unfold zlen. rewrite repeat_length. reflexivity.
    - intros i z. rewrite zget_zupd by (unfold zlen; rewrite repeat_length; cbn [length]; lia). destruct (Z.eqb_spec 0 i) as [<-|]; [intros G; injection G as <-; lia|].
      intros G. pose proof (zget_nonneg _ _ _ G). unfold zget in G. destruct (i <? 0); [discriminate G|]. apply nth_error_In, repeat_spec in G. lia.
  Qed.

  Lemma kmp_loop_int F fuel : F <= 100000 -> forall src pattern next i j count, zlen src <= 1000 -> 1 <= zlen pattern <= 12 -> table_ok next -> zlen next = zlen pattern ->
    -2000000 + 11 * Z.of_nat fuel <= i <= zlen src -> -1 <= j <= zlen pattern -> 0 <= count -> count + Z.of_nat fuel <= F ->
    kmp_loopI int fuel src pattern next i j count = kmp_loop Z.eqb fuel src pattern next i j count /\
    (forall c, kmp_loop Z.eqb fuel src pattern next i j count = Some c -> 0 <= c <= F).
  Proof.
    intros HF. induction fuel as [|f IH]; intros src pattern next i j count H1 H2 H3 H4 H5 H6 H7 H8; [split; [reflexivity|discriminate]|].
    cbn [kmp_loopI kmp_loop]. assert (0 <= zlen pattern) by (unfold zlen; lia).
    destruct ((i <? zlen src) && (j <? zlen pattern)) eqn:E1.
    - apply andb_true_iff in E1 as [E1 E2]. apply Z.ltb_lt in E1, E2. destruct (((j =? -1) || eq_at Z.eqb src i pattern j)).
      + norm. apply IH; auto; lia.
      + destruct (zget next j) as [j'|] eqn:E3; [|split; [reflexivity|discriminate]]. pose proof (H3 _ _ E3). apply IH; auto; lia.
    - destruct (Z.eqb_spec j (zlen pattern)) as [->|]; [|split; [reflexivity|intros c G; injection G as <-; lia]].
      norm. destruct (0 <=? i - zlen pattern) eqn:E2.
      + assert (zlen pattern <= i) by lia. norm. apply IH; auto; lia.
      + apply Z.leb_gt in E2. apply IH; auto; lia.
  Qed.

  (* ---- the rules ---- *)
  Definition line (n : Z) (l : list Z) : Prop := zlen l <= n.
  Lemma row_line n m i : square n m -> 0 <= i < n -> line n (or_nil (m_row m i)).
  Proof.
    intros (W & E1 & E2) Hi. rewrite m_row_eq by (auto; lia). cbn [or_nil]. unfold line, zlen. rewrite map_length, upto_length. lia.
  Qed.
  Lemma col_line n m i : square n m -> 0 <= i < n -> line n (or_nil (m_col m i)).
  Proof.
    intros (W & E1 & E2) Hi. rewrite m_col_eq by (auto; lia). cbn [or_nil]. unfold line, zlen. rewrite map_length, upto_length. lia.
  Qed.

  Lemma scoreLine_loop_int arr : forall l cnt cur, 0 <= l -> l + 3 * zlen arr < B -> 0 <= cnt -> cnt + zlen arr + 1 < B ->
    scoreLine_loopI int arr l cnt cur = scoreLine_loop arr l cnt cur /\ 0 <= scoreLine_loop arr l cnt cur <= l + 3 * zlen arr.
  Proof.
    induction arr as [|v rest IH]; intros l cnt cur H1 H2 H3 H4.
    - cbn [scoreLine_loopI scoreLine_loop]. change (zlen []) with 0. split; [reflexivity|lia].
    - assert (zlen (v :: rest) = zlen rest + 1) by (unfold zlen; cbn [length]; lia). assert (0 <= zlen rest) by (unfold zlen; lia).
      cbn [scoreLine_loopI scoreLine_loop]. destruct (negb (samestate v cur)).
      + destruct (IH l 1 v) as [E1 E2]; lia.
      + cbv zeta. norm. destruct (cnt + 1 =? 5); [|destruct (5 <? cnt + 1)]; norm.
        * destruct (IH (l + 3) (cnt + 1) cur) as [E1 E2]; lia.
        * destruct (IH (l + 1) (cnt + 1) cur) as [E1 E2]; lia.
        * destruct (IH l (cnt + 1) cur) as [E1 E2]; lia.
  Qed.
  Lemma scoreLine_int n l : 0 <= n <= 177 -> line n l -> scoreLineI int l = scoreLine l /\ 0 <= scoreLine l <= 531.
  Proof. intros H1 H2. unfold line in H2. unfold scoreLineI, scoreLine. assert (0 <= zlen l) by (unfold zlen; lia). destruct (scoreLine_loop_int l 0 0 QRValue_INIT_V0) as [E1 E2]; lia. Qed.

  (* a sum of bounded terms *)
  Lemma sum_int (f g : Z -> Z -> Z) (l : list Z) k : 0 <= k -> (forall s i, In i l -> 0 <= s -> s + k < B -> f s i = g s i /\ s <= g s i <= s + k) ->
    forall s, 0 <= s -> s + k * zlen l < B -> fold_left f l s = fold_left g l s /\ s <= fold_left g l s <= s + k * zlen l.
  Proof.
    intros Hk. induction l as [|i l IH]; intros HS s H1 H2; [cbn; unfold zlen; cbn; lia|].
    assert (zlen (i :: l) = zlen l + 1) by (unfold zlen; cbn [length]; lia). assert (0 <= zlen l) by (unfold zlen; lia).
    assert (k * zlen (i :: l) = k * zlen l + k) by (rewrite H; lia). assert (0 <= k * zlen l) by (apply Z.mul_nonneg_nonneg; lia).
    destruct (HS s i (or_introl eq_refl) H1 ltac:(lia)) as [E1 E2]. cbn [fold_left]. rewrite E1.
    destruct (IH (fun s i I => HS s i (or_intror I)) (g s i)) as [E3 E4]; try lia.
  Qed.

  Lemma zlen_zseq a n : 0 <= n -> zlen (zseq a n) = n.
  Proof. intros H1. unfold zlen. rewrite zseq_length. lia. Qed.

  Lemma rule1_int n m : square n m -> 1 <= n <= 177 -> rule1I int m = rule1 m /\ 0 <= rule1 m <= 1062 * n.
  Proof.
    intros HQ Hn. pose proof HQ as (W & E1 & E2). unfold rule1I, rule1. rewrite E1, E2, Z.eqb_refl. cbn [negb].
    destruct (sum_int (fun s i => int (int (s + scoreLineI int (or_nil (m_row m i))) + scoreLineI int (or_nil (m_col m i)))) (fun s i => s + scoreLine (or_nil (m_row m i)) + scoreLine (or_nil (m_col m i))) (zseq 0 n) 1062 ltac:(lia)) with (s := 0) as [G1 G2].
    - intros s i I Hs Hb. apply in_zseq in I. destruct (scoreLine_int n (or_nil (m_row m i))) as [A1 A2]; [lia|apply row_line; auto; lia|].
      destruct (scoreLine_int n (or_nil (m_col m i))) as [B1 B2]; [lia|apply col_line; auto; lia|]. rewrite A1, B1. norm. split; [reflexivity|lia].
    - lia.
    - rewrite zlen_zseq by lia. lia.
    - rewrite zlen_zseq in G2 by lia. rewrite G1. split; [reflexivity|lia].
  Qed.

  Lemma rule2_int n m : square n m -> 1 <= n <= 177 -> rule2I int m = rule2 m /\ 0 <= rule2 m <= 528 * n.
  Proof.
    intros HQ Hn. pose proof HQ as (W & E1 & E2). unfold rule2I, rule2. rewrite E1, E2. norm.
    assert (IN : forall x s, 0 <= x < n -> 0 <= s -> s + 528 < B ->
      fold_left (fun score y => let s0 := fst (m_at m x y) in let s1 := fst (m_at m (int (x + 1)) y) in let s2 := fst (m_at m x (int (y + 1))) in let s3 := fst (m_at m (int (x + 1)) (int (y + 1))) in
        if (s0 =? s1) && (s2 =? s3) && (s1 =? s2) then int (score + 3) else score) (zseq 0 (n - 1)) s =
      fold_left (fun score y => let s0 := fst (m_at m x y) in let s1 := fst (m_at m (x + 1) y) in let s2 := fst (m_at m x (y + 1)) in let s3 := fst (m_at m (x + 1) (y + 1)) in
        if (s0 =? s1) && (s2 =? s3) && (s1 =? s2) then score + 3 else score) (zseq 0 (n - 1)) s /\
      s <= fold_left (fun score y => let s0 := fst (m_at m x y) in let s1 := fst (m_at m (x + 1) y) in let s2 := fst (m_at m x (y + 1)) in let s3 := fst (m_at m (x + 1) (y + 1)) in
        if (s0 =? s1) && (s2 =? s3) && (s1 =? s2) then score + 3 else score) (zseq 0 (n - 1)) s <= s + 528).
    { intros x s Hx Hs Hb. edestruct (sum_int) with (k := 3) (s := s) (l := zseq 0 (n - 1)) as [G1 G2]; cycle 3.
      - rewrite zlen_zseq by lia. lia.
      - split; [exact G1|]. rewrite zlen_zseq in G2 by lia. lia.
      - lia.
      - intros t y I Ht Hb2. apply in_zseq in I. cbv zeta. norm. destruct (_ && _ && _); norm; split; lia || reflexivity.
      - exact Hs. }
    edestruct (sum_int) with (k := 528) (s := 0) (l := zseq 0 (n - 1)) as [G1 G2]; cycle 3.
    - rewrite zlen_zseq by lia. lia.
    - split; [exact G1|]. rewrite zlen_zseq in G2 by lia. lia.
    - lia.
    - intros s x I Hs Hb. apply in_zseq in I. apply IN; lia.
    - lia.
  Qed.

  Lemma kmp_int n l p t : 0 <= n <= 177 -> line n l -> 1 <= zlen p <= 12 -> table_ok t -> zlen t = zlen p ->
    kmpI int l p t = kmp Z.eqb l p t /\ (forall c, kmp Z.eqb l p t = Some c -> 0 <= c <= 63903).
  Proof.
    intros H1 H2 H3 H4 H5. unfold line in H2. unfold kmpI, kmp.
    assert (FU : Z.of_nat ((2 * length l + 3) * (length l + 2)) <= 63903).
    { unfold zlen in H2. set (k := length l) in *. assert (k <= 177)%nat by lia. assert (((2 * k + 3) * (k + 2) <= 357 * 179)%nat) by (apply Nat.mul_le_mono; lia). lia. }
    assert (0 <= zlen l) by (unfold zlen; lia). assert (0 <= zlen p) by (unfold zlen; lia). apply kmp_loop_int; auto; lia.
  Qed.

  Lemma rule3_int n m : square n m -> 1 <= n <= 177 -> rule3I int m = rule3 m /\ (forall s, rule3 m = Some s -> 0 <= s <= 10224480 * n).
  Proof.
    intros HQ Hn. pose proof HQ as (W & E1 & E2). unfold rule3I, rule3.
    assert (P1 : zlen pattern1 = 11) by reflexivity. assert (P2 : zlen pattern2 = 11) by reflexivity.
    destruct (kmpGetNext_int pattern1 ltac:(lia)) as [A1 A2]. destruct (kmpGetNext_int pattern2 ltac:(lia)) as [B1 B2]. rewrite A1, B1.
    destruct (kmpGetNext Z.eqb pattern1) as [t1|]; [|split; [reflexivity|discriminate]]. destruct (kmpGetNext Z.eqb pattern2) as [t2|]; [|split; [reflexivity|discriminate]].
    destruct (A2 t1 eq_refl) as [T1 L1]. destruct (B2 t2 eq_refl) as [T2 L2]. clear A1 A2 B1 B2. rewrite E1, E2, Z.eqb_refl. cbn [negb].
    assert (STEP : forall l p t (s : option Z) b, line n l -> zlen p = 11 -> table_ok t -> zlen t = zlen p -> 0 <= b -> b + 2556120 < B -> (forall z, s = Some z -> 0 <= z <= b) ->
      add_optI int s (mul40I int (kmpI int l p t)) = add_opt s (mul40 (kmp Z.eqb l p t)) /\ (forall z, add_opt s (mul40 (kmp Z.eqb l p t)) = Some z -> 0 <= z <= b + 2556120)).
    { intros l p t s b HL HP HT HZ Hb HB Hs. destruct (kmp_int n l p t ltac:(lia) HL ltac:(lia) HT HZ) as [K1 K2]. rewrite K1.
      destruct (kmp Z.eqb l p t) as [c|]; [|destruct s; cbn [add_optI mul40I add_opt mul40]; split; [reflexivity|discriminate|reflexivity|discriminate]].
      pose proof (K2 c eq_refl). cbn [mul40I mul40]. norm. destruct s as [z|]; cbn [add_optI add_opt]; [|split; [reflexivity|discriminate]].
      pose proof (Hs z eq_refl). norm. split; [reflexivity|]. intros z' G. assert (z' = z + 40 * c) by congruence. lia. }
    assert (GEN : forall l s b, (forall i, In i l -> 0 <= i < n) -> 0 <= b -> b + 10224480 * zlen l < B -> (forall z, s = Some z -> 0 <= z <= b) ->
      let f := fun score i => let col := or_nil (m_col m i) in let row := or_nil (m_row m i) in
             let score := add_optI int score (mul40I int (kmpI int col pattern1 t1)) in
             let score := add_optI int score (mul40I int (kmpI int col pattern2 t2)) in
             let score := add_optI int score (mul40I int (kmpI int row pattern1 t1)) in
             add_optI int score (mul40I int (kmpI int row pattern2 t2)) in
      let g := fun score i => let col := or_nil (m_col m i) in let row := or_nil (m_row m i) in
             let score := add_opt score (mul40 (kmp Z.eqb col pattern1 t1)) in
             let score := add_opt score (mul40 (kmp Z.eqb col pattern2 t2)) in
             let score := add_opt score (mul40 (kmp Z.eqb row pattern1 t1)) in
             add_opt score (mul40 (kmp Z.eqb row pattern2 t2)) in
      fold_left f l s = fold_left g l s /\ (forall z, fold_left g l s = Some z -> 0 <= z <= b + 10224480 * zlen l)).
    { induction l as [|i l IH]; intros s b HI Hb HB Hs f g.
      - cbn [fold_left]. split; [reflexivity|]. intros z Hz. specialize (Hs z Hz). unfold zlen; cbn [length]. lia.
      - assert (zlen (i :: l) = zlen l + 1) by (unfold zlen; cbn [length]; lia). assert (0 <= zlen l) by (unfold zlen; lia).
        pose proof (HI i (or_introl eq_refl)) as Hi. pose proof (row_line n m i HQ Hi) as RL. pose proof (col_line n m i HQ Hi) as CL.
        destruct (STEP _ pattern1 t1 s b CL P1 T1 L1) as [S1 S2]; [lia|lia|exact Hs|].
        destruct (STEP _ pattern2 t2 _ (b + 2556120) CL P2 T2 L2 ltac:(lia) ltac:(lia) S2) as [S3 S4].
        destruct (STEP _ pattern1 t1 _ (b + 2556120 + 2556120) RL P1 T1 L1 ltac:(lia) ltac:(lia) S4) as [S5 S6].
        destruct (STEP _ pattern2 t2 _ (b + 2556120 + 2556120 + 2556120) RL P2 T2 L2 ltac:(lia) ltac:(lia) S6) as [S7 S8].
        cbn [fold_left]. assert (FG : f s i = g s i) by (unfold f, g; cbv zeta; rewrite S1, S3, S5, S7; reflexivity). rewrite FG.
        destruct (IH (g s i) (b + 10224480)) as [I1 I2]; [intros k Hk; apply HI; right; exact Hk|lia|lia|intros z Hz; specialize (S8 z Hz); lia|].
        split; [exact I1|]. intros z Hz. specialize (I2 z Hz). lia. }
    destruct (GEN (zseq 0 n) (Some 0) 0) as [G1 G2]; [intros i I; apply in_zseq in I; lia|lia|rewrite zlen_zseq by lia; lia|intros z Hz; injection Hz as <-; lia|].
    rewrite zlen_zseq in G2 by lia. split; [exact G1|]. intros s Hs. specialize (G2 s Hs). lia.
  Qed.

  Lemma count_dark_int n m : square n m -> 1 <= n <= 177 -> count_darkI int m = count_dark m /\ 0 <= count_dark m <= n * n.
  Proof.
    intros HQ Hn. pose proof HQ as (W & E1 & E2). unfold count_darkI, count_dark. rewrite E1.
    assert (n * n <= 177 * 177) by (apply Z.mul_le_mono_nonneg; lia).
    edestruct (sum_int) with (k := n) (s := 0) (l := zseq 0 n) as [G1 G2]; cycle 3.
    - rewrite zlen_zseq by lia. lia.
    - split; [exact G1|]. rewrite zlen_zseq in G2 by lia. lia.
    - lia.
    - intros s x I Hs Hb. apply in_zseq in I. cbv zeta. edestruct (sum_int) with (k := 1) (s := s) (l := zseq 0 n) as [G1 G2]; cycle 3.
      + rewrite zlen_zseq by lia. lia.
      + split; [exact G1|]. rewrite zlen_zseq in G2 by lia. lia.
      + lia.
      + intros t y I2 Ht Hb2. cbv beta. destruct (zget _ y) as [v|]; [destruct (samestate v QRValue_DATA_V1)|]; norm; split; lia || reflexivity.
      + exact Hs.
    - lia.
  Qed.

  Lemma rule4_int n m : square n m -> 1 <= n <= 177 -> rule4I int m = rule4 m /\ 0 <= rule4 m <= 2000.
  Proof.
    intros HQ Hn. pose proof HQ as (W & E1 & E2). unfold rule4I, rule4. rewrite E1, E2, Z.eqb_refl. cbn [negb].
    destruct (count_dark_int n m HQ Hn) as [D1 D2]. rewrite D1. assert (1 <= n * n <= 177 * 177) by (split; [nia|apply Z.mul_le_mono_nonneg; lia]). norm.
    unfold rule4_scoreI, rule4_score. cbv zeta. norm. set (d := count_dark m) in *. clearbody d.
    assert (R : 0 <= Z.quot (d * 100) (n * n) <= 100). { rewrite Z.quot_div_nonneg by lia. split; [apply Z.div_pos; lia|apply Z.div_le_upper_bound; lia]. }
    set (r := Z.quot (d * 100) (n * n)) in *. clearbody r.
    assert (R5 : 0 <= Z.quot r 5 <= 20). { rewrite Z.quot_div_nonneg by lia. split; [apply Z.div_pos; lia|apply Z.div_le_upper_bound; lia]. }
    set (r5 := Z.quot r 5) in *. clearbody r5.
    assert (ST : exists st, (if Z.rem r 5 =? 0 then 1 else 0) = st /\ 0 <= st <= 1) by (destruct (Z.rem r 5 =? 0); eexists; split; [reflexivity|lia|reflexivity|lia]).
    destruct ST as (st & -> & HST). norm.
    set (mn := Z.min _ _). assert (0 <= mn <= 100) by (unfold mn; lia). clearbody mn.
    assert (0 <= Z.quot mn 5 <= 20). { rewrite Z.quot_div_nonneg by lia. split; [apply Z.div_pos; lia|apply Z.div_le_upper_bound; lia]. }
    norm. split; [reflexivity|lia].
  Qed.

  Lemma evaluation_int n m : square n m -> 1 <= n <= 177 -> evaluationI int m = evaluation m.
  Proof.
    intros HQ Hn. unfold evaluationI, evaluation. destruct (rule3_int n m HQ Hn) as [A1 A2]. rewrite A1. destruct (rule3 m) as [s3|]; [|reflexivity].
    pose proof (A2 s3 eq_refl). destruct (rule1_int n m HQ Hn) as [B1 B2]. destruct (rule2_int n m HQ Hn) as [C1 C2]. destruct (rule4_int n m HQ Hn) as [D1 D2].
    rewrite B1, C1, D1. norm. reflexivity.
  Qed.
End Int.
