(* Reed-Solomon: the encoder produces code words; minimum distance; unique decoding. *)
From Coq Require Import Lia.
From Verif Require Import ModelBase ModelBinary ModelRS SpecIso SpecRS ProofBase ProofBits ProofGF ProofStream.

Notation "a +! b" := (Z.lxor a b) (at level 50, left associativity).
Notation "a *! b" := (gf_mul a b) (at level 40, left associativity).
Notation bytes := (Forall is_byte).

Ltac xor_bits := apply Z.bits_inj'; intros ?i ?Hi; rewrite ?Z.lxor_spec, ?Z.bits_0;
  repeat match goal with |- context [Z.testbit ?a ?i] => destruct (Z.testbit a i) end; reflexivity.

Definition ev (word : list Z) (x : Z) : Z := fold_left (fun acc c => acc *! x +! c) word 0.

Lemma ev_gen_byte x : forall word acc, bytes word -> is_byte acc -> is_byte (fold_left (fun acc c => acc *! x +! c) word acc).
Proof. induction word as [|c word IH]; intros acc Hw Ha; cbn [fold_left]; auto. inversion Hw; subst. apply IH; auto with gf. Qed.
Lemma ev_byte x word : bytes word -> is_byte (ev word x).
Proof. intros. apply ev_gen_byte; auto with gf. Qed.

Lemma eval_ev word x : bytes word -> is_byte x -> eval word x = ev word x.
Proof.
  intros Hw Hx. unfold eval, ev. assert (H0 : is_byte 0) by auto with gf. revert H0. generalize 0.
  induction Hw as [|c word Hc Hw IH]; intros acc Ha; cbn [fold_left]; auto.
  unfold gf_plus. rewrite gf_times_mul by auto. apply IH. auto with gf.
Qed.

Fixpoint gpow (x : Z) (n : nat) : Z := match n with O => 1 | S k => gpow x k *! x end.
Lemma gpow_byte x n : is_byte x -> is_byte (gpow x n).
Proof. intros. induction n; cbn [gpow]; auto with gf. Qed.
#[export] Hint Resolve gpow_byte ev_byte : gf.

Lemma gpow_add x a b : is_byte x -> gpow x (a + b) = gpow x a *! gpow x b.
Proof.
  intros Hx. induction b as [|b IH]; cbn [gpow]; [rewrite Nat.add_0_r, gf_mul_1_r; auto with gf|].
  rewrite Nat.add_succ_r. cbn [gpow]. rewrite IH, gf_mul_assoc by auto with gf. reflexivity.
Qed.

Lemma ev_acc x : is_byte x -> forall word acc, bytes word -> is_byte acc ->
  fold_left (fun acc c => acc *! x +! c) word acc = acc *! gpow x (length word) +! ev word x.
Proof.
  intros Hx. unfold ev. induction word as [|c word IH]; intros acc Hw Ha; cbn [fold_left length gpow].
  - rewrite gf_mul_1_r, Z.lxor_0_r by auto. reflexivity.
  - inversion Hw; subst. rewrite IH by auto with gf. rewrite (IH (0 *! x +! c)) by auto with gf.
    rewrite gf_mul_0_l, Z.lxor_0_l by auto.
    rewrite gf_mul_distr_l by auto with gf.
    rewrite (gf_mul_comm (gpow x (length word)) x) by auto with gf.
    rewrite <- (gf_mul_assoc acc x) by auto with gf. rewrite Z.lxor_assoc. reflexivity.
Qed.

Lemma ev_app x a b : is_byte x -> bytes a -> bytes b -> ev (a ++ b) x = ev a x *! gpow x (length b) +! ev b x.
Proof. intros Hx Ha Hb. unfold ev at 1. rewrite fold_left_app. apply ev_acc; auto. apply ev_byte; auto. Qed.

Lemma ev_cons x c b : is_byte x -> is_byte c -> bytes b -> ev (c :: b) x = c *! gpow x (length b) +! ev b x.
Proof.
  intros Hx Hc Hb. change (c :: b) with ([c] ++ b). rewrite ev_app; auto. unfold ev at 1. cbn [fold_left].
  rewrite gf_mul_0_l, Z.lxor_0_l by auto. reflexivity.
Qed.
Lemma ev_snoc x a c : is_byte x -> bytes a -> is_byte c -> ev (a ++ [c]) x = ev a x *! x +! c.
Proof. intros. unfold ev. rewrite fold_left_app. reflexivity. Qed.

Lemma xor_list_bytes : forall a b, bytes a -> bytes b -> bytes (xor_list a b).
Proof. induction a as [|x a IH]; intros [|y b] Ha Hb; cbn [xor_list]; auto. inversion Ha; inversion Hb; subst. constructor; auto with gf. Qed.

Lemma ev_xor x : is_byte x -> forall a b, length a = length b -> bytes a -> bytes b -> ev (xor_list a b) x = ev a x +! ev b x.
Proof.
  intros Hx. induction a as [|p a IH]; intros [|q b] HL Ha Hb; try discriminate; [reflexivity|].
  inversion Ha; inversion Hb; subst. injection HL as HL. cbn [xor_list].
  rewrite !ev_cons by (auto with gf; apply xor_list_bytes; auto).
  rewrite IH by auto. rewrite xor_list_length, HL, Nat.min_id. rewrite gf_mul_distr_l by auto with gf. xor_bits.
Qed.

Lemma map_mul_bytes f g : is_byte f -> bytes g -> bytes (map (fun c => c *! f) g).
Proof. intros Hf Hg. apply Forall_map. eapply Forall_impl; [|exact Hg]. cbv beta. intros; auto with gf. Qed.

Lemma ev_scale x f : is_byte x -> is_byte f -> forall g, bytes g -> ev (map (fun c => c *! f) g) x = ev g x *! f.
Proof.
  intros Hx Hf. induction g as [|c g IH]; intros Hg.
  - cbn [map]. unfold ev. cbn [fold_left]. rewrite gf_mul_0_l; auto.
  - inversion Hg; subst. cbn [map]. rewrite !ev_cons by (auto with gf; apply map_mul_bytes; auto).
    rewrite IH, map_length by auto. rewrite gf_mul_distr_l by auto with gf.
    rewrite !gf_mul_assoc by auto with gf. rewrite (gf_mul_comm f) by auto with gf. reflexivity.
Qed.

(* ---- generator ---- *)
Lemma poly_mul_root_bytes r : forall p c, bytes p -> is_byte c -> bytes (poly_mul_root p c r).
Proof.
  induction p as [|a p IH]; intros c Hp Hc; cbn [poly_mul_root]; [constructor; [apply gf_mul_byte; auto|constructor]|].
  inversion Hp; subst. constructor; auto with gf.
Qed.

(* multiplying by (x + r): with carry c the list is c*? *)
Lemma ev_mul_root x r : is_byte x -> is_byte r -> forall p c, bytes p -> is_byte c ->
  ev (poly_mul_root p c r) x = (c *! gpow x (length p) +! ev p x) *! (x +! r) +! c *! gpow x (S (length p)).
Proof.
  intros Hx Hr. induction p as [|a p IH]; intros c Hp Hc.
  - cbn [poly_mul_root length gpow]. unfold ev. cbn [fold_left].
    rewrite gf_mul_0_l, !Z.lxor_0_l, gf_mul_1_r, Z.lxor_0_r, gf_mul_1_l, gf_mul_distr_r by auto. xor_bits.
  - inversion Hp; subst. cbn [poly_mul_root].
    rewrite ev_cons by (auto with gf; apply poly_mul_root_bytes; auto).
    rewrite IH, poly_mul_root_length by auto. rewrite ev_cons by auto.
    cbn [length gpow].
    set (g := gpow x (length p)). assert (Hg : is_byte g) by (unfold g; auto with gf).
    set (e := ev p x). assert (He : is_byte e) by (unfold e; auto with gf).

    set (h := g *! x). assert (Hh : is_byte h) by (unfold h; auto with gf).
    set (E := (a *! g +! e) *! (x +! r)).
    rewrite (gf_mul_distr_l (c *! h)) by auto with gf. fold E.
    rewrite (gf_mul_distr_r (c *! h)), gf_mul_distr_l by auto with gf.
    rewrite <- (gf_mul_assoc c h x) by auto.
    replace (c *! h *! r) with (c *! r *! h)
      by (rewrite !gf_mul_assoc by auto; rewrite (gf_mul_comm r h) by auto; reflexivity).
    generalize (c *! h *! x) (c *! r *! h) (a *! h). intros. xor_bits.
Qed.

Lemma rs_generator_bytes n : bytes (rs_generator n).
Proof. induction n; cbn [rs_generator]; [constructor; [auto with gf|constructor]|]. apply poly_mul_root_bytes; auto with gf. Qed.

Lemma rs_generator_step n x : is_byte x -> ev (rs_generator (S n)) x = ev (rs_generator n) x *! (x +! gf_pow2 n).
Proof.
  intros Hx. cbn [rs_generator]. rewrite ev_mul_root by (auto with gf; apply rs_generator_bytes).
  rewrite !gf_mul_0_l, Z.lxor_0_l, Z.lxor_0_r by auto with gf. reflexivity.
Qed.

Lemma rs_generator_root n i : (i < n)%nat -> ev (rs_generator n) (gf_pow2 i) = 0.
Proof.
  induction n as [|n IH]; intros Hi; [lia|]. rewrite rs_generator_step by auto with gf.
  destruct (Nat.eq_dec i n) as [->|N].
  - rewrite Z.lxor_nilpotent, gf_mul_0_r. reflexivity.
  - rewrite IH by lia. apply gf_mul_0_l.
Qed.

Lemma rs_generator_head n : exists t, rs_generator n = 1 :: t.
Proof.
  induction n as [|n [t E]]; [exists []; reflexivity|]. cbn [rs_generator]. rewrite E. cbn [poly_mul_root].
  rewrite gf_mul_0_l, Z.lxor_0_r by auto with gf. eauto.
Qed.

(* ---- encoding ---- *)
Lemma rs_step_bytes g rem b : bytes g -> bytes rem -> is_byte b -> bytes (rs_step g rem b).
Proof.
  intros Hg Hr Hb. destruct rem as [|r0 rt]; [constructor|]. cbn [rs_step]. inversion Hr; subst.
  apply xor_list_bytes; [apply Forall_app; split; auto; constructor; [auto with gf|constructor]|].
  apply map_mul_bytes; auto with gf.
Qed.

Lemma rs_fold_invariant x gtail n : is_byte x -> bytes gtail -> length gtail = n -> ev gtail x = gpow x n ->
  forall data, bytes data -> let rem := fold_left (rs_step gtail) data (repeat 0 n) in
    bytes rem /\ length rem = n /\ ev data x *! gpow x n +! ev rem x = 0.
Proof.
  intros Hx Hg HL HE data. induction data as [|b data IH] using rev_ind; intros Hd; cbv zeta.
  - cbn [fold_left]. assert (B0 : bytes (repeat 0 n)) by (clear; induction n; cbn; constructor; auto with gf).
    split; auto. split; [apply repeat_length|].
    unfold ev at 1. cbn [fold_left]. rewrite gf_mul_0_l, Z.lxor_0_l by auto with gf.
    clear - Hx. induction n as [|n IH]; [reflexivity|]. cbn [repeat].
    assert (B0 : bytes (repeat 0 n)) by (clear; induction n; cbn; constructor; auto with gf).
    rewrite ev_cons by auto with gf. rewrite gf_mul_0_l, Z.lxor_0_l by auto with gf. exact IH.
  - apply Forall_app in Hd as [Hd Hb]. inversion Hb as [|? ? Hb' _]; subst.
    destruct (IH Hd) as (Hr & HrL & HrE). cbv zeta in *. rewrite fold_left_app. cbn [fold_left].
    set (rem := fold_left (rs_step gtail) data (repeat 0 (length gtail))) in *.
    split; [apply rs_step_bytes; auto|]. split; [rewrite rs_step_length; auto|].
    rewrite ev_snoc by auto. destruct rem as [|r0 rt].
    + cbn in HrL. destruct gtail; [|discriminate]. unfold ev in HE. cbn in HE. discriminate.
    + inversion Hr as [|? ? Hr0 Hrt]; subst. cbn [rs_step].
      assert (L1 : length (rt ++ [0]) = length (map (fun g => g *! (b +! r0)) gtail)).
      { rewrite app_length, map_length. cbn in *. lia. }
      assert (B1 : bytes (rt ++ [0])) by (apply Forall_app; split; auto; constructor; [auto with gf|constructor]).
      assert (B2 : bytes (map (fun g => g *! (b +! r0)) gtail)) by (apply map_mul_bytes; auto with gf).
      rewrite ev_xor by auto. rewrite ev_scale, ev_snoc, Z.lxor_0_r, HE by auto with gf.
      rewrite ev_cons in HrE by auto.
      assert (LN : gpow x (length gtail) = gpow x (length rt) *! x) by (rewrite <- HrL; reflexivity).
      set (D := ev data x) in *. assert (HD : is_byte D) by (unfold D; auto with gf).
      set (R := ev rt x) in *. assert (HR : is_byte R) by (unfold R; auto with gf).
      set (P := gpow x (length gtail)) in *. assert (HP : is_byte P) by (unfold P; auto with gf).
      set (Q := gpow x (length rt)) in *. assert (HQ : is_byte Q) by (unfold Q; auto with gf).
      (* multiply the induction hypothesis by x *)
      assert (HX : (D *! P +! (r0 *! Q +! R)) *! x = 0) by (rewrite HrE; apply gf_mul_0_l; auto).
      rewrite !gf_mul_distr_l in HX by auto with gf.
      rewrite (gf_mul_assoc r0 Q x), <- LN in HX by auto.
      rewrite (gf_mul_distr_l (D *! x) b P) by auto with gf.
      rewrite (gf_mul_distr_r P b r0), (gf_mul_comm P b), (gf_mul_comm P r0) by auto with gf.
      replace (D *! x *! P) with (D *! P *! x)
        by (rewrite !gf_mul_assoc by auto; rewrite (gf_mul_comm P x) by auto; reflexivity).
      rewrite <- HX. generalize (D *! P *! x) (r0 *! P) (R *! x) (b *! P). intros. xor_bits.
Qed.

Lemma rs_ecc_facts data n : (1 <= n)%nat -> bytes data ->
  bytes (rs_ecc data n) /\ length (rs_ecc data n) = n /\
  forall i, (i < n)%nat -> ev (data ++ rs_ecc data n) (gf_pow2 i) = 0.
Proof.
  intros Hn Hd. unfold rs_ecc.
  destruct (rs_generator_head n) as [t Et].
  assert (Ht : tl (rs_generator n) = t) by (rewrite Et; reflexivity).
  assert (Bt : bytes t) by (pose proof (rs_generator_bytes n) as B; rewrite Et in B; inversion B; auto).
  assert (Lt : length t = n) by (pose proof (rs_generator_length n) as L; rewrite Et in L; cbn in L; lia).
  rewrite Ht.
  assert (I : forall i, (i < n)%nat -> ev t (gf_pow2 i) = gpow (gf_pow2 i) n).
  { intros i Hi. pose proof (rs_generator_root n i Hi) as R. rewrite Et in R.
    rewrite ev_cons in R by auto with gf. rewrite gf_mul_1_l, Lt in R by auto with gf.
    apply Z.lxor_eq in R. auto. }
  destruct (rs_fold_invariant (gf_pow2 0) t n ltac:(auto with gf) Bt Lt (I 0%nat ltac:(lia)) data Hd) as (B & L & _).
  cbv zeta in *. split; auto. split; auto. intros i Hi.
  destruct (rs_fold_invariant (gf_pow2 i) t n ltac:(auto with gf) Bt Lt (I i Hi) data Hd) as (_ & _ & E).
  cbv zeta in E. rewrite ev_app by auto with gf. rewrite L. exact E.
Qed.

Theorem rs_codeword data n : (1 <= n)%nat -> bytes data -> is_codeword n (data ++ rs_ecc data n).
Proof.
  intros Hn Hd. destruct (rs_ecc_facts data n Hn Hd) as (B & L & E).
  split; [apply Forall_app; auto|]. intros i Hi. rewrite alpha_pow_pow2, eval_ev; auto with gf.
  apply Forall_app; auto.
Qed.

(* ---- minimum distance ---- *)
(* weighted power sums of the points X with coefficients C *)
Definition psum (l : list (Z * Z)) (i : nat) : Z := fold_right (fun p acc => fst p *! gpow (snd p) i +! acc) 0 l.

Lemma psum_byte l i : Forall (fun p => is_byte (fst p) /\ is_byte (snd p)) l -> is_byte (psum l i).
Proof. induction 1 as [|p l [A B] HF IH]; [exact byte_0|]. apply byte_lxor; [apply gf_mul_byte; auto|exact IH]. Qed.

Lemma gf_neq_sum a b : a <> b -> a +! b <> 0.
Proof. intros N E. apply Z.lxor_eq in E. congruence. Qed.

Lemma psum_cons c X l i : psum ((c, X) :: l) i = c *! gpow X i +! psum l i.
Proof. reflexivity. Qed.

(* eliminate the point Y: sums of the scaled coefficients *)
Lemma psum_eliminate Y l i : is_byte Y -> Forall (fun p => is_byte (fst p) /\ is_byte (snd p)) l ->
  psum (map (fun p => (fst p *! (snd p +! Y), snd p)) l) i = psum l (S i) +! Y *! psum l i.
Proof.
  intros HY. induction 1 as [|[c X] l [Hc HX] HF IH].
  - change (0 = 0 +! Y *! 0). rewrite gf_mul_0_r. reflexivity.
  - cbn [fst snd] in Hc, HX. rewrite map_cons. rewrite !psum_cons.
    rewrite IH. cbn [gpow fst snd].
    assert (Hg : is_byte (gpow X i)) by auto with gf. set (g := gpow X i) in *.
    pose proof (psum_byte l i HF) as Hp. pose proof (psum_byte l (S i) HF) as Hp'.
    rewrite !gf_mul_distr_r, gf_mul_distr_l by auto with gf.
    replace (c *! X *! g) with (c *! (g *! X)) by (rewrite gf_mul_assoc by auto; rewrite (gf_mul_comm X g) by auto; reflexivity).
    replace (c *! Y *! g) with (Y *! (c *! g)) by (rewrite <- gf_mul_assoc by auto; rewrite (gf_mul_comm Y c) by auto; reflexivity).
    generalize (c *! (g *! X)) (Y *! (c *! g)) (psum l (S i)) (Y *! psum l i). intros. xor_bits.
Qed.

Lemma vandermonde : forall l, Forall (fun p => is_byte (fst p) /\ is_byte (snd p)) l -> NoDup (map snd l) ->
  (forall i, (i < length l)%nat -> psum l i = 0) -> Forall (fun p => fst p = 0) l.
Proof.
  intros l. remember (length l) as n eqn:En. revert l En.
  induction n as [|n IH]; intros l En HF HN HS.
  - destruct l; [constructor|discriminate].
  - destruct l as [|[c Y] l]; [discriminate|]. injection En as En.
    inversion HF as [|? ? [Hc HY] HF']; subst. cbn in Hc, HY. inversion HN as [|? ? Hnin HN']; subst.
    set (f := fun p : Z * Z => (fst p *! (snd p +! Y), snd p)).
    assert (HZ : Forall (fun p => fst p = 0) (map f l)).
    { apply IH.
      - rewrite map_length. reflexivity.
      - apply Forall_map. eapply Forall_impl; [|exact HF']. intros [a b] [Ha Hb]. split; cbn [f fst snd] in *; unfold f; cbn [fst snd]; auto with gf.
      - rewrite map_map. exact HN'.
      - intros i Hi. unfold f. rewrite psum_eliminate by auto.
        pose proof (HS i ltac:(lia)) as S1. pose proof (HS (S i) ltac:(lia)) as S2.
        rewrite psum_cons in S1, S2.
        apply Z.lxor_eq in S1. apply Z.lxor_eq in S2. rewrite <- S1, <- S2. cbn [gpow].
        replace (Y *! (c *! gpow Y i)) with (c *! (gpow Y i *! Y)).
        + apply Z.lxor_nilpotent.
        + rewrite <- !gf_mul_assoc by auto with gf. rewrite (gf_mul_comm _ Y) by auto with gf.
          rewrite <- gf_mul_assoc by auto with gf. reflexivity. }
    assert (HL : Forall (fun p => fst p = 0) l).
    { apply Forall_forall. intros [a X] Hin. cbn. rewrite Forall_forall in HF'. destruct (HF' _ Hin) as [Ha HX]. cbn in Ha, HX.
      rewrite Forall_forall in HZ. specialize (HZ (f (a, X)) (in_map f _ _ Hin)). unfold f in HZ; cbn in HZ.
      destruct (gf_no_zero_divisors a (X +! Y) Ha ltac:(auto with gf) HZ) as [E|E]; auto.
      exfalso. apply Z.lxor_eq in E. subst X. apply Hnin. apply in_map_iff. exists (a, Y). auto. }
    constructor; auto. cbn. pose proof (HS 0%nat ltac:(lia)) as S0. rewrite psum_cons in S0. cbn [gpow] in S0.
    assert (P0 : psum l 0 = 0).
    { clear - HL HF'. induction HL as [|[a X] l E HL IH]; [reflexivity|]. inversion HF' as [|? ? [A B] HF2]; subst. cbn in E. subst a.
      rewrite psum_cons, IH by auto. rewrite gf_mul_0_l by auto with gf. reflexivity. }
    rewrite P0, Z.lxor_0_r, gf_mul_1_r in S0 by auto. exact S0.
Qed.

(* a word as power sums: position j from the end has the point alpha^j *)
Fixpoint points (word : list Z) : list (Z * Z) :=
  match word with [] => [] | c :: t => (c, gf_pow2 (length t)) :: points t end.

Lemma gpow_swap a b : gpow (gf_pow2 a) b = gpow (gf_pow2 b) a.
Proof.
  assert (G : forall a b, gpow (gf_pow2 a) b = gf_pow2 (a * b)).
  { intros x y. induction y as [|y IH]; cbn [gpow]; [rewrite Nat.mul_0_r; reflexivity|].
    rewrite IH, Nat.mul_succ_r, gf_pow2_add. reflexivity. }
  rewrite !G, Nat.mul_comm. reflexivity.
Qed.

Lemma ev_psum word i : bytes word -> ev word (gf_pow2 i) = psum (points word) i.
Proof.
  induction 1 as [|c word Hc Hw IH]; [reflexivity|]. rewrite ev_cons by auto with gf.
  cbn [points]. rewrite psum_cons, IH, gpow_swap. reflexivity.
Qed.

Definition support (word : list Z) : list (Z * Z) := filter (fun p => negb (fst p =? 0)) (points word).

Lemma points_bytes word : bytes word -> Forall (fun p => is_byte (fst p) /\ is_byte (snd p)) (points word).
Proof. induction 1; cbn; constructor; cbn; auto with gf. Qed.

Lemma psum_support word i : bytes word -> psum (support word) i = psum (points word) i.
Proof.
  intros Hw. unfold support. induction Hw as [|c word Hc Hw IH]; [reflexivity|].
  cbn [points filter fst]. destruct (Z.eqb_spec c 0) as [->|N]; cbn [negb].
  - rewrite IH. rewrite ?psum_cons. rewrite gf_mul_0_l by auto with gf. reflexivity.
  - rewrite ?psum_cons. rewrite <- IH. reflexivity.
Qed.

Lemma points_in word p : In p (points word) -> exists k, (k < length word)%nat /\ snd p = gf_pow2 k.
Proof.
  induction word as [|c word IH]; intros HH; [destruct HH|]. cbn in *. destruct HH as [<-|HH].
  - exists (length word). cbn. split; auto.
  - destruct (IH HH) as (k & Hk & E). exists k. split; auto.
Qed.

Lemma points_nodup word : (length word <= 255)%nat -> NoDup (map snd (points word)).
Proof.
  induction word as [|c word IH]; intros HL; cbn in *; constructor; [|apply IH; lia].
  intros HI. apply in_map_iff in HI as (p & E & HI). apply points_in in HI as (k & Hk & E2). rewrite E2 in E.
  apply gf_pow2_inj in E; lia.
Qed.

Lemma NoDup_map_filter {A B} (f : A -> B) p l : NoDup (map f l) -> NoDup (map f (filter p l)).
Proof.
  induction l as [|a l IH]; intros HN; cbn in *; auto. inversion HN; subst. destruct (p a); cbn; auto.
  constructor; auto. intros HI. apply H1. apply in_map_iff in HI as (x & E & HI). apply filter_In in HI as [HI _].
  apply in_map_iff. exists x. auto.
Qed.

(* number of non-zero symbols *)
Lemma low_weight_zero n word : (length word <= 255)%nat -> bytes word ->
  (forall i, (i < n)%nat -> ev word (gf_pow2 i) = 0) -> (length (support word) <= n)%nat -> Forall (fun c => c = 0) word.
Proof.
  intros HL Hw HE HS.
  assert (Z0 : Forall (fun p => fst p = 0) (support word)).
  { apply vandermonde.
    - apply Forall_forall. intros p Hp. apply filter_In in Hp as [Hp _].
      pose proof (points_bytes word Hw) as HB. rewrite Forall_forall in HB. auto.
    - apply NoDup_map_filter. apply points_nodup. auto.
    - intros i Hi. rewrite psum_support, <- ev_psum by auto. apply HE. lia. }
  assert (SE : support word = []).
  { unfold support in *. destruct (filter _ _) as [|p l] eqn:E; auto. exfalso.
    inversion Z0; subst. assert (HI : In p (filter (fun p => negb (fst p =? 0)) (points word))) by (rewrite E; left; auto).
    apply filter_In in HI as [_ HI]. rewrite H1 in HI. discriminate. }
  clear - SE. unfold support in SE. induction word as [|c word IH]; constructor.
  - cbn [points filter fst] in SE. destruct (Z.eqb_spec c 0); auto. discriminate.
  - apply IH. cbn [points filter fst] in SE. destruct (c =? 0); auto. discriminate.
Qed.

Lemma support_distance a : forall b, length a = length b -> length (support (xor_list a b)) = distance a b.
Proof.
  induction a as [|x a IH]; intros [|y b] HL; try discriminate; [reflexivity|]. injection HL as HL.
  cbn [xor_list distance]. unfold support in *. cbn [points filter fst].
  destruct (Z.eqb_spec x y) as [->|N].
  - rewrite Z.lxor_nilpotent. cbn. apply IH; auto.
  - destruct (Z.eqb_spec (x +! y) 0) as [E|E]; [apply Z.lxor_eq in E; congruence|]. cbn. f_equal. apply IH; auto.
Qed.

Theorem rs_min_distance n a b : length a = length b -> (length a <= 255)%nat ->
  is_codeword n a -> is_codeword n b -> (distance a b <= n)%nat -> a = b.
Proof.
  intros HL H255 [Ba Ea] [Bb Eb] HD.
  assert (Z0 : Forall (fun c => c = 0) (xor_list a b)).
  { apply (low_weight_zero n).
    - rewrite xor_list_length. lia.
    - apply xor_list_bytes; auto.
    - intros i Hi. rewrite ev_xor by auto with gf.
      specialize (Ea i Hi). specialize (Eb i Hi). rewrite alpha_pow_pow2 in Ea, Eb.
      rewrite eval_ev in Ea, Eb by auto with gf. rewrite Ea, Eb. reflexivity.
    - rewrite support_distance by auto. exact HD. }
  clear - HL Z0. revert b HL Z0. induction a as [|x a IH]; intros [|y b] HL Z0; try discriminate; auto.
  cbn in Z0. inversion Z0; subst. injection HL as HL. f_equal; [apply Z.lxor_eq; auto|]. apply IH; auto.
Qed.

Lemma distance_triangle a : forall b c, length a = length b -> length b = length c ->
  (distance a c <= distance a b + distance b c)%nat.
Proof.
  induction a as [|x a IH]; intros [|y b] [|z c] H1 H2; try discriminate; [cbn; lia|].
  injection H1 as H1. injection H2 as H2. specialize (IH b c H1 H2). cbn [distance].
  destruct (Z.eqb_spec x y), (Z.eqb_spec y z), (Z.eqb_spec x z); subst; try congruence; lia.
Qed.
Lemma distance_sym a : forall b, distance a b = distance b a.
Proof. induction a as [|x a IH]; intros [|y b]; cbn; auto. rewrite Z.eqb_sym, IH. reflexivity. Qed.

(* unique decoding *)
Theorem rs_unique_decoding n received a b : length received = length a -> length a = length b -> (length a <= 255)%nat ->
  is_codeword n a -> is_codeword n b ->
  (2 * distance received a <= n)%nat -> (2 * distance received b <= n)%nat -> a = b.
Proof.
  intros H1 H2 H255 Ca Cb Da Db. apply (rs_min_distance n); auto.
  pose proof (distance_triangle a received b ltac:(congruence) ltac:(congruence)) as T.
  rewrite (distance_sym a received) in T. lia.
Qed.
