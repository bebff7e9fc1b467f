(* Blocks, error-correction code words, interleaving and the ISO de-interleaving. *)
From Verif Require Import ModelBase ModelBinary ModelRS ModelVersion ModelQRCode SpecIso SpecReader.
From Verif Require Import ProofBase ProofBits.

Lemma bin_subset_mid (a b c : list bool) : bin_subset (a ++ b ++ c) (zlen a) (zlen a + zlen b) = Some b.
Proof.
  unfold bin_subset. rewrite !zlen_app.
  pose proof (zlen_nonneg a). pose proof (zlen_nonneg b). pose proof (zlen_nonneg c).
  destruct (Z.ltb_spec (zlen a) 0); [lia|]. destruct (Z.ltb_spec (zlen a + zlen b) (zlen a)); [lia|].
  destruct (Z.ltb_spec (zlen a + (zlen b + zlen c)) (zlen a + zlen b)); [lia|]. simpl.
  f_equal. replace (zlen a + zlen b - zlen a) with (zlen b) by lia.
  rewrite skipn_app_exact by (unfold zlen; lia). apply firstn_app_exact. unfold zlen; lia.
Qed.

(* ---- split ---- *)
Definition mk_block (eccn : Z) (d : list Z) : dataBlock := mkDataBlock (bytes_to_bits d) (8 * zlen d) eccn.

Lemma split_blocks_bytes eccn : forall (blocks : list (list Z)) pre post,
  split_blocks (map (fun d => (zlen d, eccn)) blocks) (pre ++ bytes_to_bits (concat blocks) ++ post) (zlen pre)
  = Ok (map (mk_block eccn) blocks).
Proof.
  induction blocks as [|d blocks IH]; intros pre post; [reflexivity|].
  cbn [map split_blocks concat].
  rewrite bytes_to_bits_app, <- app_assoc.
  replace (zlen pre + zlen d * 8) with (zlen pre + zlen (bytes_to_bits d)) by (rewrite zlen_bytes_to_bits; lia).
  rewrite bin_subset_mid.
  replace (zlen pre + zlen (bytes_to_bits d)) with (zlen (pre ++ bytes_to_bits d)) by (rewrite zlen_app; reflexivity).
  rewrite (app_assoc pre). rewrite IH. simpl. unfold mk_block at 2. f_equal. f_equal. f_equal.
  rewrite zlen_app, zlen_bytes_to_bits. lia.
Qed.

(* any data of the right length is such a concatenation *)
Lemma cut_into lens : Forall (fun n => 0 <= n) lens -> forall l : list Z,
  zlen l = fold_right Z.add 0 lens ->
  exists blocks, concat blocks = l /\ map zlen blocks = lens.
Proof.
  induction 1 as [|n lens Hn Hf IH]; intros l Hl; simpl in Hl.
  - exists []. destruct l; [auto|]. rewrite zlen_cons in Hl. pose proof (zlen_nonneg l). lia.
  - assert (0 <= fold_right Z.add 0 lens) by (clear -Hf; induction Hf; simpl; lia).
    destruct (IH (skipn (Z.to_nat n) l)) as (bs & E & EL).
    { unfold zlen in *. rewrite skipn_length. lia. }
    exists (firstn (Z.to_nat n) l :: bs). split.
    + simpl. rewrite E. apply firstn_skipn.
    + simpl. rewrite EL. f_equal. unfold zlen in *. rewrite firstn_length. lia.
Qed.

(* ---- error correction ---- *)
Lemma xor_list_length a b : length (xor_list a b) = Nat.min (length a) (length b).
Proof. revert b; induction a; intros [|? b]; simpl; auto. Qed.

Lemma poly_mul_root_length p : forall c r, length (poly_mul_root p c r) = S (length p).
Proof. induction p; intros; simpl; auto. Qed.

Lemma rs_generator_length n : length (rs_generator n) = S n.
Proof. induction n; simpl; auto. rewrite poly_mul_root_length, IHn. reflexivity. Qed.

Lemma rs_step_length g rem b : length g = length rem -> length (rs_step g rem b) = length rem.
Proof.
  intros Hg. destruct rem as [|r rem]; [reflexivity|].
  unfold rs_step. rewrite xor_list_length, app_length, map_length. simpl in *. lia.
Qed.

Lemma rs_ecc_length data n : length (rs_ecc data n) = n.
Proof.
  unfold rs_ecc.
  assert (G : forall g rem, length g = length rem -> length (fold_left (rs_step g) data rem) = length rem).
  { induction data as [|b data IH]; intros g rem Hg; simpl; auto.
    rewrite IH; rewrite rs_step_length; auto. }
  rewrite G; [apply repeat_length|]. rewrite repeat_length.
  pose proof (rs_generator_length n). destruct (rs_generator n); simpl in *; [discriminate|lia].
Qed.

Definition ecc_of (n : Z) (d : list Z) : list Z := rs_ecc d (Z.to_nat n).

Lemma ec_blocks n blocks : 0 <= n -> Forall (Forall is_byte) blocks ->
  errorCorrectionEncoding (map (mk_block n) blocks) = Ok (map (fun d => bytes_to_bits (ecc_of n d)) blocks).
Proof.
  intros Hn. induction 1 as [|d blocks Hd Hb IH]; [reflexivity|].
  cbn [map errorCorrectionEncoding]. cbn [mk_block dbData dbStartOffset dbNumECBlock].
  unfold rs_encode. rewrite bits_to_bytes_bits by auto.
  rewrite <- zlen_bytes_to_bits.
  set (e := bytes_to_bits (rs_ecc d (Z.to_nat n))).
  pose proof (bin_subset_mid (bytes_to_bits d) e []) as E. rewrite app_nil_r, <- zlen_app in E.
  rewrite E, IH. reflexivity.
Qed.

(* ---- interleaving ---- *)
Definition column (blocks : list (list Z)) (i : Z) : list Z :=
  flat_map (fun b => match zget b i with Some x => [x] | None => [] end) blocks.

Definition short_count (blocks : list (list Z)) (i : Z) : Z :=
  zlen (filter (fun b => zlen b <=? i) blocks).

Lemma bin_subset_byte (b : list Z) i x : zget b i = Some x ->
  bin_subset (bytes_to_bits b) (i * 8) (i * 8 + 8) = Some (uint_bits x 8).
Proof.
  intros E. pose proof (zget_some_range _ _ _ E) as R.
  rewrite zget_nth in E by lia. apply nth_error_split in E as (l1 & l2 & -> & Hl).
  rewrite bytes_to_bits_app, bytes_to_bits_cons.
  replace (i * 8) with (zlen (bytes_to_bits l1)) by (rewrite zlen_bytes_to_bits; unfold zlen; lia).
  replace (zlen (bytes_to_bits l1) + 8) with (zlen (bytes_to_bits l1) + zlen (uint_bits x 8))
    by (rewrite zlen_uint_bits; lia).
  apply bin_subset_mid.
Qed.

Lemma arrange_pass_bytes i : 0 <= i -> forall blocks ov dst,
  arrange_pass (map bytes_to_bits blocks) i ov dst
  = Ok (ov + short_count blocks i, dst ++ bytes_to_bits (column blocks i)).
Proof.
  intros Hi. unfold short_count, column. induction blocks as [|b blocks IH]; intros ov dst.
  - simpl. rewrite app_nil_r. f_equal. f_equal. unfold zlen; simpl. lia.
  - cbn [map arrange_pass filter flat_map]. rewrite zlen_bytes_to_bits.
    destruct (Z.leb_spec (8 * zlen b) (i * 8)).
    + rewrite IH. destruct (Z.leb_spec (zlen b) i); [|lia].
      rewrite zget_none by lia. simpl app. rewrite zlen_cons. f_equal. f_equal. lia.
    + destruct (Z.leb_spec (zlen b) i); [lia|].
      destruct (zget_in_range b i) as [x E]; [lia|]. rewrite E.
      rewrite (bin_subset_byte _ _ _ E). rewrite IH. rewrite bytes_to_bits_app, app_assoc. reflexivity.
Qed.

Lemma short_count_bounds blocks i : 0 <= short_count blocks i <= zlen blocks.
Proof.
  unfold short_count. split; [apply zlen_nonneg|].
  generalize (fun b : list Z => zlen b <=? i). intros f.
  induction blocks as [|b blocks IH]; cbn [filter]; [lia|].
  destruct (f b); rewrite ?zlen_cons; lia.
Qed.

Lemma short_count_zero blocks i : (forall b, In b blocks -> i < zlen b) -> short_count blocks i = 0.
Proof.
  unfold short_count. induction blocks as [|b blocks IH]; intros Hb; [reflexivity|].
  simpl. destruct (Z.leb_spec (zlen b) i) as [X|X].
  - specialize (Hb b (or_introl eq_refl)). lia.
  - apply IH. intros; apply Hb; simpl; auto.
Qed.

Lemma short_count_all blocks i : (forall b, In b blocks -> zlen b <= i) -> short_count blocks i = zlen blocks.
Proof.
  unfold short_count. induction blocks as [|b blocks IH]; intros Hb; [reflexivity|].
  simpl. destruct (Z.leb_spec (zlen b) i) as [X|X].
  - rewrite !zlen_cons. rewrite IH; auto. intros; apply Hb; simpl; auto.
  - specialize (Hb b (or_introl eq_refl)). lia.
Qed.

Lemma short_count_lt blocks i b : In b blocks -> i < zlen b -> short_count blocks i < zlen blocks.
Proof.
  unfold short_count. induction blocks as [|c blocks IH]; intros Hb Hl; [destruct Hb|].
  simpl. rewrite zlen_cons. destruct Hb as [->|Hb].
  - destruct (Z.leb_spec (zlen b) i); [lia|]. pose proof (short_count_bounds blocks i). unfold short_count in *. lia.
  - specialize (IH Hb Hl). destruct (zlen c <=? i); [rewrite zlen_cons|]; lia.
Qed.

Lemma column_empty blocks i : (forall b, In b blocks -> zlen b <= i) -> column blocks i = [].
Proof.
  unfold column. induction blocks as [|b blocks IH]; intros Hb; [reflexivity|].
  simpl. rewrite zget_none, IH; auto; [intros; apply Hb; simpl; auto|]. right. apply Hb; simpl; auto.
Qed.

Lemma arrange_step f blocks i ov dst : 0 <= i -> 
  arrange_loop (S f) (map bytes_to_bits blocks) i ov dst =
  (let ov' := ov + short_count blocks i in
   let dst' := dst ++ bytes_to_bits (column blocks i) in
   if zlen blocks <=? ov' then Ok dst' else arrange_loop f (map bytes_to_bits blocks) (i + 1) ov' dst').
Proof.
  intros Hi. cbn [arrange_loop]. rewrite arrange_pass_bytes by auto. simpl bind. cbv beta iota zeta.
  rewrite zlen_map. reflexivity.
Qed.

Definition columns (blocks : list (list Z)) (n : Z) : list Z := flat_map (column blocks) (upto n).

(* The loop emits exactly the columns, for blocks whose lengths are s or s+1. *)
Lemma arrange_bytes blocks s : 0 <= s -> blocks <> [] ->
  (forall b, In b blocks -> zlen b = s \/ zlen b = s + 1) ->
  arrange (map bytes_to_bits blocks) = Ok (bytes_to_bits (columns blocks (s + 1))).
Proof.
  intros Hs Hne Hb. unfold arrange.
  set (fuel := fold_left (fun n b => Nat.max n (length b)) (map bytes_to_bits blocks) 0%nat).
  assert (Hfuel : forall b, In b blocks -> (length b <= fuel)%nat).
  { intros b Hi.
    assert (G : forall (l : list (list bool)) n b, (In b l -> (length b <= fold_left (fun n b => Nat.max n (length b)) l n)%nat)
              /\ (n <= fold_left (fun n b => Nat.max n (length b)) l n)%nat).
    { clear. induction l as [|a l IH]; intros n b; simpl; [split; [intros []|lia]|].
      destruct (IH (Nat.max n (length a)) b) as [A B]. split; [|lia]. intros [->|Hi]; auto. lia. }
    destruct (G (map bytes_to_bits blocks) 0%nat (bytes_to_bits b)) as [A _]. fold fuel in A.
    specialize (A (in_map _ _ _ Hi)). rewrite bytes_to_bits_length in A. lia. }
  assert (HF : (Z.to_nat s <= fuel)%nat).
  { destruct blocks as [|b bl]; [congruence|]. specialize (Hfuel b (or_introl eq_refl)).
    destruct (Hb b (or_introl eq_refl)); unfold zlen in *; lia. }
  (* first s passes *)
  assert (P : forall k i dst f, s = i + Z.of_nat k -> 0 <= i -> (k <= f)%nat ->
     arrange_loop f (map bytes_to_bits blocks) i 0 dst =
     arrange_loop (f - k) (map bytes_to_bits blocks) s 0
       (dst ++ bytes_to_bits (flat_map (column blocks) (map (fun j => i + j) (upto (Z.of_nat k)))))).
  { induction k as [|k IH]; intros i dst f E Hi Hf.
    - replace s with i by lia. rewrite Nat.sub_0_r. simpl. rewrite app_nil_r. reflexivity.
    - destruct f as [|f]; [lia|]. rewrite arrange_step by auto.
      rewrite short_count_zero by (intros b Hin; destruct (Hb b Hin); lia).
      cbv zeta. destruct (Z.leb_spec (zlen blocks) (0 + 0)) as [X|X].
      + destruct blocks; [congruence|]. rewrite zlen_cons in X. pose proof (zlen_nonneg blocks). lia.
      + simpl (0 + 0). rewrite (IH (i + 1)) by lia. simpl (S f - S k)%nat. f_equal.
        rewrite <- app_assoc, <- bytes_to_bits_app. f_equal. f_equal.
        unfold upto. rewrite !Nat2Z.id. rewrite <- cons_seq. cbn [map flat_map]. rewrite Z.add_0_r. f_equal.
        rewrite <- seq_shift, !map_map. f_equal. apply map_ext. intros; lia. }
  rewrite (P (Z.to_nat s) 0 [] (S (S fuel))) by lia. clear P.
  replace (S (S fuel) - Z.to_nat s)%nat with (S (S (fuel - Z.to_nat s))) by lia.
  rewrite arrange_step by auto. cbv zeta.
  assert (EC : bytes_to_bits (columns blocks (s + 1)) =
     ([] ++ bytes_to_bits (flat_map (column blocks) (map (fun j => 0 + j) (upto (Z.of_nat (Z.to_nat s)))))) ++
       bytes_to_bits (column blocks s)).
  { unfold columns. replace (s + 1) with (Z.of_nat (S (Z.to_nat s))) by lia.
    rewrite upto_S, flat_map_app. simpl flat_map. rewrite app_nil_r, bytes_to_bits_app. simpl app.
    rewrite map_id. rewrite Z2Nat.id by lia. reflexivity. }
  destruct (Z.leb_spec (zlen blocks) (0 + short_count blocks s)) as [X|X].
  - rewrite EC. reflexivity.
  - rewrite arrange_step by lia. cbv zeta.
    rewrite (short_count_all blocks (s + 1)) by (intros b Hin; destruct (Hb b Hin); lia).
    pose proof (short_count_bounds blocks s).
    destruct (Z.leb_spec (zlen blocks) (0 + short_count blocks s + zlen blocks)) as [Y|Y]; [|lia].
    rewrite (column_empty blocks (s + 1)) by (intros b Hin; destruct (Hb b Hin); lia).
    simpl bytes_to_bits. rewrite app_nil_r, EC. reflexivity.
Qed.

(* ---- columns in terms of the specified order ---- *)
Definition get2 (blocks : list (list Z)) (p : Z * Z) : Z := nth (Z.to_nat (snd p)) (nth (Z.to_nat (fst p)) blocks []) 0.

Lemma flat_map_ext_in {A B} (f g : A -> list B) l : (forall a, In a l -> f a = g a) -> flat_map f l = flat_map g l.
Proof. induction l as [|a l IH]; intros E; simpl; [auto|]. rewrite E, IH; simpl; auto. intros; apply E; simpl; auto. Qed.

Lemma map_flat_map {A B C} (f : B -> C) (g : A -> list B) l : map f (flat_map g l) = flat_map (fun a => map f (g a)) l.
Proof. induction l as [|a l IH]; simpl; [auto|]. rewrite map_app, IH. reflexivity. Qed.

Lemma flat_map_index {A B} (f : A -> list B) (d : A) l :
  flat_map f l = flat_map (fun i => f (nth (Z.to_nat i) l d)) (upto (zlen l)).
Proof.
  unfold upto, zlen. rewrite Nat2Z.id.
  assert (E : l = map (fun i => nth i l d) (seq 0 (length l))).
  { apply list_ext. intros i. rewrite nth_error_map. destruct (Nat.ltb_spec i (length l)).
    - rewrite nth_error_seq by auto. simpl. apply nth_error_nth'. auto.
    - rewrite (proj2 (nth_error_None l i)) by auto.
      rewrite (proj2 (nth_error_None _ _)) by (rewrite seq_length; auto). reflexivity. }
  transitivity (flat_map f (map (fun i => nth i l d) (seq 0 (length l)))); [rewrite <- E; reflexivity|].
  rewrite !flat_map_concat_map, !map_map. f_equal. apply map_ext. intros a. rewrite Nat2Z.id. reflexivity.
Qed.

Lemma column_order blocks i : 0 <= i ->
  column blocks i = map (get2 blocks) (flat_map (fun b => if i <? nth (Z.to_nat b) (map zlen blocks) 0 then [(b, i)] else [])
      (upto (zlen blocks))).
Proof.
  intros Hi. unfold column. rewrite (flat_map_index _ []).
  rewrite map_flat_map.
  apply flat_map_ext_in. intros b Hb. apply in_upto in Hb.
  replace (nth (Z.to_nat b) (map zlen blocks) 0) with (zlen (nth (Z.to_nat b) blocks [])).
  2:{ change 0 with (zlen (@nil Z)). rewrite map_nth. reflexivity. }
  destruct (Z.ltb_spec i (zlen (nth (Z.to_nat b) blocks []))) as [X|X].
  - destruct (zget_in_range (nth (Z.to_nat b) blocks []) i) as [x E]; [lia|]. rewrite E. simpl. unfold get2. simpl.
    rewrite zget_nth in E by lia. f_equal. symmetry. apply nth_error_nth. exact E.
  - rewrite zget_none by lia. reflexivity.
Qed.

Lemma max_lens (blocks : list (list Z)) s : 0 <= s -> blocks <> [] -> (forall b, In b blocks -> zlen b = s \/ zlen b = s + 1) ->
  fold_right Z.max 0 (map zlen blocks) = s \/ fold_right Z.max 0 (map zlen blocks) = s + 1.
Proof.
  intros Hs Hne Hb. destruct blocks as [|b0 bl]; [congruence|].
  assert (G : forall l, (forall b : list Z, In b l -> zlen b = s \/ zlen b = s + 1) -> 0 <= fold_right Z.max 0 (map zlen l) <= s + 1).
  { induction l as [|a l IH]; intros HL; simpl; [lia|]. 
    pose proof (HL a (or_introl eq_refl)). specialize (IH (fun b Hi => HL b (or_intror Hi))). lia. }
  simpl. pose proof (Hb b0 (or_introl eq_refl)). specialize (G bl (fun b Hi => Hb b (or_intror Hi))). lia.
Qed.

Lemma max_lens_ge (blocks : list (list Z)) b : In b blocks -> zlen b <= fold_right Z.max 0 (map zlen blocks).
Proof. induction blocks as [|a l IH]; intros Hi; [destruct Hi|]. simpl. destruct Hi as [->|Hi]; [lia|]. specialize (IH Hi). lia. Qed.

Lemma columns_order blocks s : 0 <= s -> blocks <> [] -> (forall b, In b blocks -> zlen b = s \/ zlen b = s + 1) ->
  columns blocks (s + 1) = map (get2 blocks) (interleave_order (map zlen blocks)).
Proof.
  intros Hs Hne Hb. unfold columns, interleave_order.
  set (mx := fold_right Z.max 0 (map zlen blocks)).
  assert (E : flat_map (column blocks) (upto (s + 1)) = flat_map (column blocks) (upto mx)).
  { destruct (max_lens blocks s Hs Hne Hb) as [E|E]; fold mx in E; rewrite E; [|reflexivity].
    replace (s + 1) with (Z.of_nat (S (Z.to_nat s))) by lia. rewrite upto_S, flat_map_app. simpl flat_map.
    rewrite Z2Nat.id by lia. rewrite (column_empty blocks s); [simpl; rewrite ?app_nil_r; reflexivity|].
    intros b Hi. pose proof (max_lens_ge blocks b Hi). fold mx in H. lia. }
  rewrite E. rewrite map_length. fold (zlen blocks).
  rewrite map_flat_map.
  apply flat_map_ext_in. intros i Hi. apply in_upto in Hi. apply column_order. lia.
Qed.

(* ---- de-interleaving recovers the blocks ---- *)
Lemma pick_block_map b order (f : Z * Z -> Z) :
  pick_block b order (map f order) = map f (filter (fun p => fst p =? b) order).
Proof.
  unfold pick_block. induction order as [|p order IH]; [reflexivity|].
  cbn [map combine filter fst snd]. destruct (fst p =? b); simpl; rewrite IH; reflexivity.
Qed.

Lemma filter_flat_map {A B} (p : B -> bool) (f : A -> list B) l :
  filter p (flat_map f l) = flat_map (fun a => filter p (f a)) l.
Proof. induction l as [|a l IH]; simpl; [auto|]. rewrite filter_app, IH. reflexivity. Qed.

Lemma filter_order lens b : 0 <= b < zlen lens ->
  filter (fun p => fst p =? b) (interleave_order lens) = map (fun i => (b, i)) (upto (nth (Z.to_nat b) lens 0)).
Proof.
  intros Hb. unfold interleave_order. rewrite filter_flat_map.
  set (n := nth (Z.to_nat b) lens 0). set (mx := fold_right Z.max 0 lens).
  assert (Hn : n <= mx).
  { unfold n, mx. assert (I : In (nth (Z.to_nat b) lens 0) lens) by (apply nth_In; unfold zlen in Hb; lia).
    revert I. generalize (nth (Z.to_nat b) lens 0). clear. induction lens as [|a l IH]; intros z Hi; [destruct Hi|].
    simpl. destruct Hi as [->|Hi]; [lia|]. specialize (IH _ Hi). lia. }
  transitivity (flat_map (fun i => if i <? n then [(b, i)] else []) (upto mx)).
  - apply flat_map_ext_in. intros i Hi.
    assert (G : forall k, (k <= Z.to_nat (Z.of_nat (length lens)))%nat ->
       filter (fun p : Z * Z => fst p =? b)
         (flat_map (fun b0 => if i <? nth (Z.to_nat b0) lens 0 then [(b0, i)] else []) (upto (Z.of_nat k)))
       = if b <? Z.of_nat k then (if i <? n then [(b, i)] else []) else []).
    { induction k as [|k IH]; intros Hk; [destruct (Z.ltb_spec b (Z.of_nat 0)); [lia|reflexivity]|].
      rewrite upto_S, flat_map_app, filter_app, IH by lia. simpl flat_map. rewrite app_nil_r.
      destruct (Z.ltb_spec b (Z.of_nat k)) as [X|X].
      - destruct (Z.ltb_spec b (Z.of_nat (S k))); [|lia].
        assert (F : filter (fun p : Z * Z => fst p =? b) (if i <? nth (Z.to_nat (Z.of_nat k)) lens 0 then [(Z.of_nat k, i)] else []) = []).
        { destruct (i <? nth (Z.to_nat (Z.of_nat k)) lens 0); [|reflexivity]. simpl. destruct (Z.eqb_spec (Z.of_nat k) b); [lia|reflexivity]. }
        rewrite F. apply app_nil_r.
      - destruct (Z.ltb_spec b (Z.of_nat (S k))) as [Y|Y].
        + assert (b = Z.of_nat k) by lia. subst b. fold n. destruct (i <? n); simpl; [|reflexivity].
          rewrite Z.eqb_refl. reflexivity.
        + destruct (i <? nth (Z.to_nat (Z.of_nat k)) lens 0); simpl; [|reflexivity]. destruct (Z.eqb_spec (Z.of_nat k) b); [lia|reflexivity]. }
    replace (upto (Z.of_nat (length lens))) with (upto (Z.of_nat (Z.to_nat (Z.of_nat (length lens))))) by (f_equal; lia).
    rewrite G by lia. destruct (Z.ltb_spec b (Z.of_nat (Z.to_nat (Z.of_nat (length lens))))); [reflexivity|]. unfold zlen in Hb. lia.
  - destruct (Z.leb_spec n 0) as [N|N].
    { replace (upto n) with (@nil Z) by (unfold upto; replace (Z.to_nat n) with 0%nat by lia; reflexivity).
      simpl. assert (G : forall l, (forall i, In i l -> 0 <= i) -> flat_map (fun i => if i <? n then [(b, i)] else []) l = []).
      { induction l as [|i l IH]; intros HL; simpl; [auto|]. pose proof (HL i (or_introl eq_refl)).
        destruct (Z.ltb_spec i n); [lia|]. apply IH. intros; apply HL; simpl; auto. }
      apply G. intros i Hi. apply in_upto in Hi. lia. }
    assert (G : forall k, flat_map (fun i => if i <? n then [(b, i)] else []) (upto (Z.of_nat k))
             = map (fun i => (b, i)) (upto (Z.min n (Z.of_nat k)))).
    { induction k as [|k IH]; [replace (Z.min n (Z.of_nat 0)) with 0 by lia; reflexivity|].
      rewrite upto_S, flat_map_app, IH. simpl flat_map. rewrite app_nil_r.
      destruct (Z.ltb_spec (Z.of_nat k) n).
      - replace (Z.min n (Z.of_nat (S k))) with (Z.of_nat (S k)) by lia.
        replace (Z.min n (Z.of_nat k)) with (Z.of_nat k) by lia. rewrite upto_S, map_app. reflexivity.
      - rewrite app_nil_r. f_equal. f_equal. lia. }
    replace mx with (Z.of_nat (Z.to_nat mx)) by lia. rewrite G. f_equal. f_equal. lia.
Qed.

Lemma map_nth_upto (l : list Z) : map (fun i => nth (Z.to_nat i) l 0) (upto (zlen l)) = l.
Proof.
  apply list_ext. intros i. rewrite nth_error_map.
  destruct (Nat.ltb_spec i (length l)) as [X|X].
  - rewrite nth_error_upto by (unfold zlen; lia). simpl. rewrite Nat2Z.id. symmetry. apply nth_error_nth'. auto.
  - rewrite (proj2 (nth_error_None l i)) by auto.
    rewrite (proj2 (nth_error_None _ _)) by (rewrite upto_length; unfold zlen; lia). reflexivity.
Qed.

Lemma deinterleave blocks b : 0 <= b < zlen blocks ->
  pick_block b (interleave_order (map zlen blocks)) (map (get2 blocks) (interleave_order (map zlen blocks)))
  = nth (Z.to_nat b) blocks [].
Proof.
  intros Hb. rewrite pick_block_map, filter_order by (rewrite zlen_map; auto).
  rewrite map_map. unfold get2. simpl.
  replace (nth (Z.to_nat b) (map zlen blocks) 0) with (zlen (nth (Z.to_nat b) blocks [])).
  2:{ change 0 with (zlen (@nil Z)). rewrite map_nth. reflexivity. }
  apply map_nth_upto.
Qed.
