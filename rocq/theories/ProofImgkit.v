(* imgkit. *)
From Coq Require Import Lia.
From Verif Require Import ModelBase ModelStandard ModelCompressed ModelWriters ModelCli ModelImgkit SpecStandard SpecImgkit ProofBase ProofCli.

Definition same_rect (g h : gray) : Prop := g_x0 h = g_x0 g /\ g_y0 h = g_y0 g /\ g_x1 h = g_x1 g /\ g_y1 h = g_y1 g.
Lemma same_rect_refl g : same_rect g g. Proof. repeat split. Qed.
Lemma same_rect_trans a b c : same_rect a b -> same_rect b c -> same_rect a c.
Proof. unfold same_rect. intuition congruence. Qed.
Lemma same_in g h x y : same_rect g h -> g_in h x y = g_in g x y.
Proof. intros (A & B & C & D). unfold g_in. rewrite A, B, C, D. reflexivity. Qed.

Lemma set_rect g x y c : same_rect g (g_set g x y c).
Proof. unfold g_set. destruct (g_in g x y); repeat split. Qed.
Lemma set_at g x y c x' y' : g_at (g_set g x y c) x' y' = if g_in g x y && (x' =? x) && (y' =? y) then c else g_at g x' y'.
Proof.
  unfold g_at. rewrite (same_in _ _ x' y' (set_rect g x y c)). unfold g_set. destruct (g_in g x y) eqn:E; cbn [andb]; [|reflexivity].
  cbn [g_pix]. destruct (Z.eqb_spec x' x) as [->|]; [|reflexivity]. destruct (Z.eqb_spec y' y) as [->|]; [|reflexivity]. cbn [andb]. rewrite E. reflexivity.
Qed.

Section Loop.
Context (F : Z -> Z -> Z -> Z).
Let step g i j := g_set g j i (F i j (g_at g j i)).

Lemma inner_loop i : forall js g, NoDup js ->
  let g' := fold_left (fun g j => step g i j) js g in
  same_rect g g' /\ forall x y, g_at g' x y = if g_in g x y && (y =? i) && existsb (Z.eqb x) js then F i x (g_at g x y) else g_at g x y.
Proof.
  induction js as [|j js IH]; intros g ND; cbn [fold_left].
  - split; [apply same_rect_refl|]. intros x y. rewrite andb_false_r. reflexivity.
  - inversion ND as [|? ? NI ND']; subst. destruct (IH (step g i j) ND') as [R A]. cbv zeta in *.
    pose proof (set_rect g j i (F i j (g_at g j i))) as R0. fold (step g i j) in R0.
    split; [eapply same_rect_trans; eauto|]. intros x y. rewrite A, (same_in _ _ x y R0). unfold step. rewrite set_at. cbn [existsb].
    destruct (Z.eqb_spec x j) as [->|NE]; cbn [orb].
    + assert (EX : existsb (Z.eqb j) js = false).
      { apply not_true_iff_false. rewrite existsb_exists. intros (k & K & E). apply Z.eqb_eq in E. subst k. contradiction. }
      rewrite EX, andb_false_r. destruct (Z.eqb_spec y i) as [->|]; rewrite ?andb_true_r, ?andb_false_r; reflexivity.
    + rewrite andb_false_r. cbn [andb]. reflexivity.
Qed.

Lemma outer_loop js : NoDup js -> forall is g, NoDup is ->
  let g' := fold_left (fun g i => fold_left (fun g j => step g i j) js g) is g in
  same_rect g g' /\ forall x y, g_at g' x y = if g_in g x y && existsb (Z.eqb y) is && existsb (Z.eqb x) js then F y x (g_at g x y) else g_at g x y.
Proof.
  intros NJ. induction is as [|i is IH]; intros g ND; cbn [fold_left].
  - split; [apply same_rect_refl|]. intros x y. rewrite andb_false_r. reflexivity.
  - inversion ND as [|? ? NI ND']; subst. destruct (inner_loop i js g NJ) as [R0 A0]. cbv zeta in *.
    set (g1 := fold_left (fun g j => step g i j) js g) in *. destruct (IH g1 ND') as [R A].
    split; [eapply same_rect_trans; eauto|]. intros x y. rewrite A, (same_in _ _ x y R0), A0. cbn [existsb].
    destruct (Z.eqb_spec y i) as [->|NE]; cbn [orb].
    + assert (EX : existsb (Z.eqb i) is = false).
      { apply not_true_iff_false. rewrite existsb_exists. intros (k & K & E). apply Z.eqb_eq in E. subst k. contradiction. }
      rewrite EX, andb_false_r, andb_true_r. cbn [andb]. reflexivity.
    + rewrite andb_false_r. cbn [andb]. reflexivity.
Qed.
End Loop.

Lemma existsb_zseq x n : existsb (Z.eqb x) (zseq 0 n) = (0 <=? x) && (x <? n).
Proof.
  apply eq_true_iff_eq. rewrite existsb_exists, andb_true_iff, Z.leb_le, Z.ltb_lt. split.
  - intros (k & K & E). apply Z.eqb_eq in E. subst k. apply in_zseq in K. lia.
  - intros HX. exists x. split; [apply in_zseq; lia|apply Z.eqb_refl].
Qed.

Lemma loop_spec F w h g : let g' := g_loop w h (fun g i j => g_set g j i (F i j (g_at g j i))) g in
  same_rect g g' /\ forall x y, g_at g' x y = if g_in g x y && ((0 <=? y) && (y <? h)) && ((0 <=? x) && (x <? w)) then F y x (g_at g x y) else g_at g x y.
Proof.
  unfold g_loop. destruct (outer_loop F (zseq 0 w) (NoDup_zseq 0 w) (zseq 0 h) g (NoDup_zseq 0 h)) as [R A]. cbv zeta in *. split; [exact R|].
  intros x y. rewrite A, !existsb_zseq. reflexivity.
Qed.

(* both processing functions, on any bounds *)
Definition visited (i : image) (x y : Z) : bool := (0 <=? x) && (x <? i_x1 i - i_x0 i) && (0 <=? y) && (y <? i_y1 i - i_y0 i).

Lemma gray_spec i : same_rect (NewGray i) (imgkit_Gray i) /\
  forall x y, g_at (imgkit_Gray i) x y = if g_in (NewGray i) x y && visited i x y then gray_of (i_at i x y) else 0.
Proof.
  unfold imgkit_Gray. destruct (loop_spec (fun a b _ => gray_of (i_at i b a)) (i_x1 i - i_x0 i) (i_y1 i - i_y0 i) (NewGray i)) as [R A]. cbv zeta in *.
  split; [exact R|]. intros x y. rewrite A. unfold visited.
  assert (EZ : g_at (NewGray i) x y = 0) by (unfold g_at; destruct (g_in (NewGray i) x y); reflexivity). rewrite EZ.
  destruct (g_in (NewGray i) x y), (0 <=? y), (y <? i_y1 i - i_y0 i), (0 <=? x), (x <? i_x1 i - i_x0 i); reflexivity.
Qed.

Lemma binary_spec i t : 0 <= t <= 255 -> same_rect (NewGray i) (Binaryzation i t) /\
  forall x y, g_at (Binaryzation i t) x y = if g_in (NewGray i) x y && visited i x y then (if t <? gray_of (i_at i x y) then 255 else 0) else 0.
Proof.
  intros HT. unfold Binaryzation. destruct (Z.ltb_spec t 0); [lia|]. destruct (Z.ltb_spec 255 t); [lia|]. cbn [orb].
  destruct (gray_spec i) as [RG AG].
  destruct (loop_spec (fun a b v => if t <? v then 255 else 0) (i_x1 i - i_x0 i) (i_y1 i - i_y0 i) (imgkit_Gray i)) as [R A]. cbv zeta in *.
  assert (EL : g_loop (i_x1 i - i_x0 i) (i_y1 i - i_y0 i) (fun g i0 j => if t <? g_at g j i0 then g_set g j i0 255 else g_set g j i0 0) (imgkit_Gray i)
             = g_loop (i_x1 i - i_x0 i) (i_y1 i - i_y0 i) (fun g i0 j => g_set g j i0 (if t <? g_at g j i0 then 255 else 0)) (imgkit_Gray i)).
  { unfold g_loop. generalize (imgkit_Gray i) as g. generalize (zseq 0 (i_x1 i - i_x0 i)) as js. generalize (zseq 0 (i_y1 i - i_y0 i)) as is. clear.
    induction is as [|a is IH]; intros js g; [reflexivity|]. cbn [fold_left]. rewrite IH. f_equal.
    clear. revert g. induction js as [|b js IH]; intros g; [reflexivity|]. cbn [fold_left]. rewrite IH. f_equal. destruct (t <? g_at g b a); reflexivity. }
  rewrite EL. split; [eapply same_rect_trans; eauto|]. intros x y. rewrite A, (same_in _ _ x y RG), AG. unfold visited.
  destruct (g_in (NewGray i) x y), (0 <=? y), (y <? i_y1 i - i_y0 i), (0 <=? x), (x <? i_x1 i - i_x0 i); reflexivity.
Qed.

Lemma gray_div c : good c -> gray_of c = (19595 * (c_r c * 257) + 38470 * (c_g c * 257) + 7471 * (c_b c * 257) + 32768) / 16777216 /\ 0 <= gray_of c <= 255.
Proof.
  intros (HR & HG & HB & _). unfold byte in *. unfold gray_of. change (Z.shiftl 1 15) with 32768. rewrite Z.shiftr_div_pow2 by lia. change (2 ^ 24) with 16777216.
  set (s := 19595 * (c_r c * 257) + 38470 * (c_g c * 257) + 7471 * (c_b c * 257) + 32768).
  assert (0 <= s < 256 * 16777216) by (unfold s; lia).
  assert (0 <= s / 16777216 < 256) by (split; [apply Z.div_pos; lia|apply Z.div_lt_upper_bound; lia]).
  rewrite Z.mod_small by lia. split; [reflexivity|]. lia.
Qed.

Lemma gray_luminance c : good c -> luminance c (gray_of c).
Proof.
  intros HG. destruct (gray_div c HG) as [E _]. destruct HG as (HR & HG & HB & _). unfold byte, luminance in *. rewrite E.
  set (s := 19595 * (c_r c * 257) + 38470 * (c_g c * 257) + 7471 * (c_b c * 257) + 32768).
  pose proof (Z.div_mod s 16777216 ltac:(lia)). pose proof (Z.mod_pos_bound s 16777216 ltac:(lia)). unfold s in *. lia.
Qed.

Lemma gray_of_gray v : byte v -> gray_of (mkRGBA v v v 255) = v.
Proof.
  intros HV. destruct (gray_div (mkRGBA v v v 255)) as [-> _]; [unfold good, byte in *; cbn; lia|]. cbn [c_r c_g c_b]. unfold byte in HV.
  symmetry. apply (Z.div_unique _ _ _ (v * 65536 + 32768)); lia.
Qed.

Lemma ext_iff s e : ~ In dot e -> ~ In slash e -> (Ext s = dot :: e <-> ends_in s (dot :: e)).
Proof.
  intros ND NS. unfold Ext, ends_in. split.
  - intros E. destruct (ext_rev_spec _ _ _ E ltac:(discriminate)) as (p & q & E1 & E2 & _ & _).
    injection E2 as E2. rewrite app_nil_r in E2. exists (rev q). rewrite <- (rev_involutive s), E1, rev_app_distr. cbn [rev]. rewrite <- app_assoc, E2. reflexivity.
  - intros (p & ->). rewrite rev_app_distr. cbn [rev]. rewrite <- app_assoc. cbn [app].
    rewrite ext_rev_dot; [rewrite rev_involutive, app_nil_r; reflexivity|rewrite <- in_rev; exact ND|rewrite <- in_rev; exact NS].
Qed.
