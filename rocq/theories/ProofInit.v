(* From the data bits to the interleaved stream. *)
From Coq Require Import Lia.
From Verif Require Import ModelBase ModelBinary ModelUtf8 ModelVersion ModelMatrix ModelChardet ModelEncoder ModelRS ModelLayout ModelQRCode.
From Verif Require Import SpecIso SpecReader SpecSegment SpecRS.
From Verif Require Import ProofBase ProofBits ProofSweep ProofLayout ProofSymbol ProofTables ProofStream ProofRS.

(* ---- length of the interleaving order ---- *)
Definition zsum (l : list Z) : Z := fold_right Z.add 0 l.
Lemma zsum_app a b : zsum (a ++ b) = zsum a + zsum b.
Proof. unfold zsum. induction a; simpl; lia. Qed.
Lemma zsum_map_add {A} (f g : A -> Z) l : zsum (map (fun a => f a + g a) l) = zsum (map f l) + zsum (map g l).
Proof. unfold zsum. induction l; simpl; lia. Qed.
Lemma zlen_flat_map {A B} (f : A -> list B) l : zlen (flat_map f l) = zsum (map (fun a => zlen (f a)) l).
Proof. induction l as [|a l IH]; [reflexivity|]. cbn [flat_map map]. rewrite zlen_app, IH. reflexivity. Qed.

Lemma sum_below n : 0 <= n -> forall mx, n <= mx -> zsum (map (fun i => if i <? n then 1 else 0) (upto mx)) = n.
Proof.
  intros Hn mx Hm. replace mx with (Z.of_nat (Z.to_nat mx)) by lia.
  assert (G : forall k, zsum (map (fun i => if i <? n then 1 else 0) (upto (Z.of_nat k))) = Z.min n (Z.of_nat k)).
  { induction k as [|k IH]; [change (upto (Z.of_nat 0)) with (@nil Z); cbn [map zsum fold_right]; lia|]. rewrite upto_S, map_app, zsum_app, IH. cbn [map zsum fold_right].
    destruct (Z.ltb_spec (Z.of_nat k) n); lia. }
  rewrite G. lia.
Qed.

Lemma interleave_order_length lens : Forall (fun n => 0 <= n) lens -> zlen (interleave_order lens) = zsum lens.
Proof.
  intros HF. unfold interleave_order. rewrite zlen_flat_map.
  set (mx := fold_right Z.max 0 lens).
  assert (HM : Forall (fun n => n <= mx) lens).
  { unfold mx. clear. induction lens as [|a l IH]; constructor; cbn [fold_right]; [lia|].
    eapply Forall_impl; [|exact IH]. cbv beta. intros; lia. }
  rewrite (map_ext _ (fun i => zsum (map (fun n => if i <? n then 1 else 0) lens))).
  - clearbody mx. induction lens as [|n lens IH].
    + cbn [map zsum fold_right]. induction (upto mx) as [|a q IHq]; [reflexivity|]. exact IHq.
    + inversion HF; inversion HM; subst. 
      transitivity (zsum (map (fun i => (if i <? n then 1 else 0) + zsum (map (fun n => if i <? n then 1 else 0) lens)) (upto mx))); [reflexivity|].
      rewrite zsum_map_add, sum_below by auto. rewrite IH by auto. reflexivity.
  - intros i. change (Z.of_nat (length lens)) with (zlen lens). rewrite zlen_flat_map. unfold zsum.
    rewrite (map_ext _ (fun b => (fun n => if i <? n then 1 else 0) (nth (Z.to_nat b) lens 0))).
    + rewrite <- (map_map (fun b => nth (Z.to_nat b) lens 0) (fun n => if i <? n then 1 else 0)). rewrite map_nth_upto. reflexivity.
    + intros b. destruct (i <? nth (Z.to_nat b) lens 0); reflexivity.
Qed.

(* ---- blocks ---- *)
Lemma concat_bytes blocks : Forall is_byte (concat blocks) -> Forall (Forall is_byte) blocks.
Proof. induction blocks as [|b bs IH]; intros HF; constructor; cbn in HF; apply Forall_app in HF; tauto. Qed.

Record stream_facts (v : Z) (l : level) (bset : list bool) (blocks : list (list Z)) (words : list Z) : Prop := {
  sf_lens : map zlen blocks = block_data_lengths v l;
  sf_bytes : Forall (Forall is_byte) blocks;
  sf_bits : bytes_to_bits (concat blocks) = bset;
  sf_words : Forall is_byte words;
  sf_total : zlen words = total_codewords v;
  sf_read : read_blocks v l words = map (fun d => (d, ecc_of (ecc_per_block v l) d)) blocks;
  sf_order : words = map (get2 blocks) (interleave_order (block_data_lengths v l))
       ++ map (get2 (map (ecc_of (ecc_per_block v l)) blocks)) (interleave_order (map (fun _ => ecc_per_block v l) (block_data_lengths v l)))
}.

Lemma get2_byte blocks p : Forall (Forall is_byte) blocks -> is_byte (get2 blocks p).
Proof.
  intros HF. unfold get2.
  assert (B : Forall is_byte (nth (Z.to_nat (fst p)) blocks [])).
  { destruct (nth_in_or_default (Z.to_nat (fst p)) blocks []) as [HI|E]; [|rewrite E; constructor].
    rewrite Forall_forall in HF. auto. }
  destruct (nth_in_or_default (Z.to_nat (snd p)) (nth (Z.to_nat (fst p)) blocks []) 0) as [HI|E]; [|rewrite E; unfold is_byte; lia].
  rewrite Forall_forall in B. auto.
Qed.

Lemma map_get2_bytes blocks o : Forall (Forall is_byte) blocks -> Forall is_byte (map (get2 blocks) o).
Proof. intros HF. apply Forall_map, Forall_forall. intros p _. apply get2_byte; auto. Qed.

Lemma list_as_map {A B} (f : A -> B) (d : A) l : map f l = map (fun b => f (nth (Z.to_nat b) l d)) (upto (zlen l)).
Proof.
  apply list_ext. intros i. rewrite !nth_error_map.
  destruct (Nat.ltb_spec i (length l)) as [X|X].
  - rewrite nth_error_upto by (unfold zlen; lia). cbn [option_map]. rewrite Nat2Z.id.
    rewrite (nth_error_nth' l d) by auto. reflexivity.
  - rewrite (proj2 (nth_error_None l i)) by auto.
    rewrite (proj2 (nth_error_None _ _)) by (rewrite upto_length; unfold zlen; lia). reflexivity.
Qed.

Lemma zlen_ecc_of n d : 0 <= n -> zlen (ecc_of n d) = n.
Proof. intros. unfold ecc_of, zlen. rewrite rs_ecc_length. lia. Qed.

(* the stream the library builds from the data bits *)
Lemma stream_of v l r bset : row_facts v l r -> zlen bset = 8 * data_codewords v l ->
  exists blocks words,
    stream_facts v l bset blocks words /\
    cut_blocks r bset = Ok (map (mk_block (ecc_per_block v l)) blocks) /\
    errorCorrectionEncoding (map (mk_block (ecc_per_block v l)) blocks)
      = Ok (map (fun d => bytes_to_bits (ecc_of (ecc_per_block v l) d)) blocks) /\
    exists dw ew,
      arrange (map dbData (map (mk_block (ecc_per_block v l)) blocks)) = Ok (bytes_to_bits dw) /\
      arrange (map (fun d => bytes_to_bits (ecc_of (ecc_per_block v l) d)) blocks) = Ok (bytes_to_bits ew) /\
      words = dw ++ ew.
Proof.
  intros RF HL. set (n := ecc_per_block v l). pose proof (rf_ecc _ _ _ RF) as Hn. fold n in Hn.
  destruct (rf_lens _ _ _ RF) as (s & Hs & HS).
  set (lens := block_data_lengths v l) in *.
  assert (HP : Forall (fun k => 0 <= k) lens) by (apply Forall_forall; intros d Hd; destruct (HS d Hd); lia).
  assert (ED : data_codewords v l = zsum lens) by reflexivity.
  assert (D0 : 0 <= data_codewords v l) by (rewrite ED; clear -HP; induction HP; cbn; unfold zsum in *; cbn; lia).
  destruct (bits_are_bytes (Z.to_nat (data_codewords v l)) bset) as (ws & HwL & HwB & Ews).
  { unfold zlen in HL. lia. }
  destruct (cut_into lens HP ws) as (blocks & Ec & Em).
  { change (fold_right Z.add 0 lens) with (zsum lens). rewrite <- ED. unfold zlen. lia. }
  assert (HB : Forall (Forall is_byte) blocks) by (apply concat_bytes; rewrite Ec; auto).
  assert (LB : zlen blocks = num_blocks v l).
  { rewrite <- (zlen_map zlen blocks), Em. unfold lens, zlen. rewrite block_lens_length. pose proof (rf_nb _ _ _ RF). lia. }
  assert (NE : blocks <> []) by (intros ->; pose proof (rf_nb _ _ _ RF); cbn in LB; lia).
  assert (HL2 : forall b, In b blocks -> zlen b = s \/ zlen b = s + 1).
  { intros b Hb. apply HS. rewrite <- Em. apply in_map. exact Hb. }
  set (eccs := map (ecc_of n) blocks).
  assert (EL : map zlen eccs = map (fun _ => n) lens).
  { unfold eccs. rewrite <- Em, !map_map. apply map_ext. intros d. apply zlen_ecc_of. lia. }
  assert (EB : Forall (Forall is_byte) eccs).
  { unfold eccs. apply Forall_map. eapply Forall_impl; [|exact HB]. intros d Hd. unfold ecc_of.
    apply rs_ecc_facts; auto. lia. }
  set (dw := map (get2 blocks) (interleave_order lens)).
  set (ew := map (get2 eccs) (interleave_order (map (fun _ => n) lens))).
  assert (LD : zlen dw = data_codewords v l).
  { unfold dw. rewrite zlen_map, interleave_order_length by auto. reflexivity. }
  assert (LE : zlen ew = num_blocks v l * n).
  { unfold ew. rewrite zlen_map, interleave_order_length.
    - assert (G : forall {A} (q : list A), zsum (map (fun _ => n) q) = zlen q * n).
      { intros A q. induction q as [|a q IH]; [reflexivity|]. cbn [map zsum fold_right]. unfold zsum in IH. rewrite IH, zlen_cons. lia. }
      rewrite G. f_equal. rewrite <- LB, <- (zlen_map zlen blocks), Em. reflexivity.
    - apply Forall_map, Forall_forall. intros; lia. }
  exists blocks, (dw ++ ew). split; [|split; [|split; [|exists dw, ew; split; [|split; [|reflexivity]]]]].
  - constructor; auto.
    + rewrite Ec. auto.
    + apply Forall_app; split; apply map_get2_bytes; auto.
    + rewrite zlen_app, LD, LE. rewrite <- (rf_sum _ _ _ RF). reflexivity.
    + unfold read_blocks. fold lens n.
      change (fold_right Z.add 0 lens) with (zsum lens).
      assert (LDn : length dw = Z.to_nat (zsum lens)) by (rewrite <- ED; unfold zlen in LD; lia).
      rewrite firstn_app_exact, skipn_app_exact by exact LDn.
      rewrite <- LB. rewrite (list_as_map (fun d => (d, ecc_of n d)) [] blocks).
      apply map_ext_in. intros b Hb. apply in_upto in Hb. f_equal.
      * unfold dw. rewrite <- Em. apply deinterleave. exact Hb.
      * unfold ew. rewrite <- EL. rewrite deinterleave by (unfold eccs; rewrite zlen_map; exact Hb).
        unfold eccs. rewrite (nth_indep _ _ (ecc_of n [])).
        -- apply map_nth.
        -- rewrite map_length. unfold zlen in Hb. lia.
  - pose proof (rf_plan _ _ _ RF) as E2.
    pose proof (split_blocks_bytes n blocks [] []) as E. cbn [app zlen length] in E. rewrite app_nil_r, Ec in E.
    rewrite <- Ews in E. unfold cut_blocks. rewrite E2. fold lens n. rewrite <- Em, map_map. change (zlen (@nil bool)) with 0 in E. rewrite E. cbn [bind].
    rewrite zlen_map, LB, (rf_blocks _ _ _ RF), Z.eqb_refl. reflexivity.
  - apply ec_blocks; [lia|auto].
  - rewrite map_map. cbn [mk_block dbData]. change (map (fun x => bytes_to_bits x) blocks) with (map bytes_to_bits blocks).
    rewrite (arrange_bytes blocks s) by (auto; lia). rewrite (columns_order blocks s) by (auto; lia). rewrite Em. reflexivity.
  - rewrite <- (map_map (ecc_of n) bytes_to_bits). fold eccs.
    assert (NE2 : eccs <> []) by (unfold eccs; destruct blocks; [congruence|discriminate]).
    assert (HE2 : forall b, In b eccs -> zlen b = n \/ zlen b = n + 1).
    { intros b Hb. left. assert (HI : In (zlen b) (map zlen eccs)) by (apply in_map; auto). rewrite EL in HI.
      apply in_map_iff in HI as (? & <- & _). reflexivity. }
    rewrite (arrange_bytes eccs n) by (auto; lia). rewrite (columns_order eccs n) by (auto; lia). rewrite EL. reflexivity.
Qed.

Lemma raw_modules_split v : raw_modules v = 8 * total_codewords v + remainder_bits v /\ 0 <= remainder_bits v < 8.
Proof. unfold total_codewords, remainder_bits. split; [apply Z.div_mod; lia|apply Z.mod_pos_bound; lia]. Qed.

Definition final_stream (v : Z) (words : list Z) : list bool := bytes_to_bits words ++ repeat false (Z.to_nat (remainder_bits v)).

Lemma final_stream_length v words : valid_version v -> zlen words = total_codewords v ->
  length (final_stream v words) = length (data_path v).
Proof.
  intros Hv HW. pose proof (data_path_length v Hv) as DP. destruct (raw_modules_split v) as [E B].
  unfold final_stream. rewrite app_length, repeat_length, bytes_to_bits_length. unfold zlen in HW. lia.
Qed.

(* reading the stream back *)
Lemma read_stream_words v l bset blocks words : stream_facts v l bset blocks words ->
  flat_map (fun w => to_bits w 8) (flat_map fst (read_blocks v l (read_bytes (Z.to_nat (total_codewords v)) (final_stream v words)))) = bset.
Proof.
  intros SF. unfold final_stream.
  assert (EL : Z.to_nat (total_codewords v) = length words) by (rewrite <- (sf_total _ _ _ _ _ SF); unfold zlen; lia).
  rewrite EL, read_bytes_bits by apply (sf_words _ _ _ _ _ SF).
  rewrite (sf_read _ _ _ _ _ SF). rewrite <- (sf_bits _ _ _ _ _ SF).
  unfold bytes_to_bits. rewrite (flat_map_concat_map fst), map_map. cbn [fst]. rewrite map_id.
  apply flat_map_ext. intros w. apply to_bits_8.
Qed.
