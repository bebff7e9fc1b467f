(* Error recovery: uniqueness of format and block correction, recovery of the text from a damaged symbol. *)
From Coq Require Import Lia.
From Verif Require Import ModelBase ModelBinary ModelUtf8 ModelVersion ModelMatrix ModelChardet ModelEncoder ModelRS
  ModelLayout ModelMask ModelEval ModelQRCode.
From Verif Require Import SpecIso SpecReader SpecSegment SpecAPI SpecRS SpecRecovery.
From Verif Require Import ProofBase ProofMatrix ProofSweep ProofLayout ProofSymbol ProofBits ProofTables ProofStream
  ProofEncode ProofMode ProofKanji ProofSegment ProofInit ProofEval ProofMasking ProofVersion ProofBuild ProofAPI ProofRS ProofNew.

Lemma hamming_triangle a : forall b c, length a = length b -> length b = length c -> (hamming a c <= hamming a b + hamming b c)%nat.
Proof.
  induction a as [|x a IH]; intros [|y b] [|z c] E1 E2; try discriminate; [cbn; lia|].
  injection E1 as E1. injection E2 as E2. specialize (IH b c E1 E2). cbn [hamming]. destruct x, y, z; cbn [Bool.eqb]; lia.
Qed.
Lemma hamming_sym a : forall b, hamming a b = hamming b a.
Proof. induction a as [|x a IH]; intros [|y b]; cbn [hamming]; auto. rewrite IH. destruct x, y; reflexivity. Qed.

Lemma all_formats_in l k : 0 <= k < 8 -> In (l, k) all_formats.
Proof. intros Hk. unfold all_formats. apply in_prod; [destruct l; cbn; auto|apply in_upto; auto]. Qed.

Definition fmt_eqb (a b : level * Z) : bool := (level_bits (fst a) =? level_bits (fst b)) && (snd a =? snd b).
Lemma format_distance_sweep :
  forallb (fun a => forallb (fun b => fmt_eqb a b || Nat.leb 7 (hamming (to_bits (format_word (fst a) (snd a)) 15) (to_bits (format_word (fst b) (snd b)) 15)))
     all_formats) all_formats = true.
Proof. vm_compute. reflexivity. Qed.

Lemma format_distance l k l' k' : 0 <= k < 8 -> 0 <= k' < 8 ->
  (hamming (to_bits (format_word l k) 15) (to_bits (format_word l' k') 15) < 7)%nat -> l = l' /\ k = k'.
Proof.
  intros Hk Hk' HD. pose proof format_distance_sweep as S. rewrite forallb_forall in S.
  specialize (S (l, k) (all_formats_in l k Hk)). rewrite forallb_forall in S. specialize (S (l', k') (all_formats_in l' k' Hk')).
  cbn [fst snd] in S. apply orb_true_iff in S as [S|S]; [|apply Nat.leb_le in S; lia].
  apply andb_true_iff in S as [S1 S2]. cbn [fst snd] in *. apply Z.eqb_eq in S1, S2. split; auto. destruct l, l'; cbn in S1; congruence.
Qed.

Lemma format_bits_length bm : length (format_bits_1 bm) = 15%nat.
Proof. unfold format_bits_1. rewrite map_length. reflexivity. Qed.
Lemma to_bits_len x n : length (to_bits x n) = Z.to_nat n.
Proof. apply to_bits_length. Qed.

Lemma format_unique bs l k l' k' : length bs = 15%nat -> 0 <= k < 8 -> 0 <= k' < 8 ->
  (hamming bs (to_bits (format_word l k) 15) <= 3)%nat -> (hamming bs (to_bits (format_word l' k') 15) <= 3)%nat -> l = l' /\ k = k'.
Proof.
  intros HL Hk Hk' A B. apply format_distance; auto.
  pose proof (hamming_triangle (to_bits (format_word l k) 15) bs (to_bits (format_word l' k') 15)) as T.
  rewrite !to_bits_len, HL in T. specialize (T eq_refl eq_refl). rewrite (hamming_sym _ bs) in T. lia.
Qed.

(* version information: minimum distance 8 *)
Lemma version_distance_sweep :
  forallb (fun a => forallb (fun b => (a =? b) || Nat.leb 8 (hamming (to_bits (version_word a) 18) (to_bits (version_word b) 18)))
     (filter (fun v => 7 <=? v) (upto 41))) (filter (fun v => 7 <=? v) (upto 41)) = true.
Proof. vm_compute. reflexivity. Qed.
Lemma version_distance a b : 7 <= a <= 40 -> 7 <= b <= 40 ->
  (hamming (to_bits (version_word a) 18) (to_bits (version_word b) 18) < 8)%nat -> a = b.
Proof.
  intros Ha Hb HD. pose proof version_distance_sweep as S. rewrite forallb_forall in S.
  assert (IN : forall c, 7 <= c <= 40 -> In c (filter (fun v => 7 <=? v) (upto 41))).
  { intros c Hc. apply filter_In. split; [apply in_upto; lia|apply Z.leb_le; lia]. }
  specialize (S a (IN a Ha)). rewrite forallb_forall in S. specialize (S b (IN b Hb)).
  apply orb_true_iff in S as [S|S]; [apply Z.eqb_eq in S; auto|apply Nat.leb_le in S; lia].
Qed.
Lemma version_unique bs a b : length bs = 18%nat -> 7 <= a <= 40 -> 7 <= b <= 40 ->
  (hamming bs (to_bits (version_word a) 18) <= 3)%nat -> (hamming bs (to_bits (version_word b) 18) <= 3)%nat -> a = b.
Proof.
  intros HL Ha Hb A B. apply version_distance; auto.
  pose proof (hamming_triangle (to_bits (version_word a) 18) bs (to_bits (version_word b) 18)) as T.
  rewrite !to_bits_len, HL in T. specialize (T eq_refl eq_refl). rewrite (hamming_sym _ bs) in T. lia.
Qed.

(* percentages *)
Lemma percent_sweep :
  forallb (fun v => forallb (fun l => forallb (fun d => let e := ecc_per_block v l in recovery_percent l * (d + e) / 100 <=? e / 2)
     (block_data_lengths v l)) all_levels) all_versions = true.
Proof. vm_compute. reflexivity. Qed.
Lemma percent_ok v l d t : valid_version v -> In d (block_data_lengths v l) -> 100 * t <= recovery_percent l * (d + ecc_per_block v l) ->
  2 * t <= ecc_per_block v l.
Proof.
  intros Hv Hd HT. pose proof (sweep _ percent_sweep v Hv) as S. cbv beta in S. rewrite forallb_forall in S.
  specialize (S l (all_levels_in l)). rewrite forallb_forall in S. specialize (S d Hd). cbv zeta in S. apply Z.leb_le in S.
  assert (t <= recovery_percent l * (d + ecc_per_block v l) / 100) by (apply Z.div_le_lower_bound; lia).
  assert (2 * (ecc_per_block v l / 2) <= ecc_per_block v l) by (apply Z.mul_div_le; lia). lia.
Qed.

Section Sjis.
  Variable sjis : Z -> option (list Z).
  Hypothesis C : shift_jis_contract sjis.

  Lemma blocks_made t opts q md pl l v b w k c s : made sjis t opts q md pl l v b w k c s ->
    read_version (m_bitmap (qMat q)) = Some v /\ 0 <= k < 8 /\
    format_bits_1 (m_bitmap (qMat q)) = to_bits (format_word l k) 15 /\
    symbol_words (m_bitmap (qMat q)) v k = w /\
    read_blocks v l (symbol_words (m_bitmap (qMat q)) v k) = map (fun d => (d, ecc_of (ecc_per_block v l) d)) b.
  Proof.
    intros HM. pose proof (md_valid _ _ _ _ _ _ _ _ _ _ _ _ _ HM) as HV. pose proof (md_stream _ _ _ _ _ _ _ _ _ _ _ _ _ HM) as SF.
    destruct (md_cand _ _ _ _ _ _ _ _ _ _ _ _ _ HM k (md_k _ _ _ _ _ _ _ _ _ _ _ _ _ HM)) as [SY _].
    rewrite <- (md_mat _ _ _ _ _ _ _ _ _ _ _ _ _ HM) in SY.
    split; [eapply read_version_ok; eauto|]. split; [apply HM|].
    split; [apply (positions_bits v l k (final_stream v w) (qMat q) HV SY)|].
    assert (EW : symbol_words (m_bitmap (qMat q)) v k = w).
    { unfold symbol_words. rewrite (read_stream_ok v l k (final_stream v w) (qMat q)) by (auto; apply final_stream_length; auto; apply (sf_total _ _ _ _ _ SF)).
      assert (EL : Z.to_nat (total_codewords v) = length w) by (rewrite <- (sf_total _ _ _ _ _ SF); unfold zlen; lia).
      unfold final_stream. rewrite EL. apply read_bytes_bits, (sf_words _ _ _ _ _ SF). }
    split; [auto|]. rewrite EW. apply (sf_read _ _ _ _ _ SF).
  Qed.

  Lemma made_codeword t opts q md pl l v b w k c s d : made sjis t opts q md pl l v b w k c s -> In d b ->
    let n := Z.to_nat (ecc_per_block v l) in
    length (ecc_of (ecc_per_block v l) d) = n /\ is_codeword n (d ++ ecc_of (ecc_per_block v l) d) /\
    (length (d ++ ecc_of (ecc_per_block v l) d) <= 255)%nat /\ (1 <= n)%nat.
  Proof.
    intros HM HI n. pose proof (md_stream _ _ _ _ _ _ _ _ _ _ _ _ _ HM) as SF. pose proof (md_row _ _ _ _ _ _ _ _ _ _ _ _ _ HM) as RF.
    pose proof (rf_ecc _ _ _ RF) as EN.
    assert (BD : Forall is_byte d).
    { pose proof (sf_bytes _ _ _ _ _ SF) as FB. rewrite Forall_forall in FB. auto. }
    assert (LN : length (ecc_of (ecc_per_block v l) d) = n) by (unfold ecc_of; rewrite rs_ecc_length; reflexivity).
    split; auto. split; [apply rs_codeword; auto; unfold n; lia|]. split; [|unfold n; lia].
    rewrite app_length, LN. assert (ID : In (zlen d) (block_data_lengths v l)) by (rewrite <- (sf_lens _ _ _ _ _ SF); apply in_map; auto).
    pose proof (rf_255 _ _ _ RF (zlen d) ID). unfold zlen, n in *. lia.
  Qed.

  (* C18 *)
  Lemma blocks_codewords t opts sched q : NewWith sjis t opts sched = Ok q ->
    exists v l k, read_version (m_bitmap (qMat q)) = Some v /\ read_format (m_bitmap (qMat q)) = Some (l, k) /\
      eff_level opts = level_code l /\
      map (fun w => Z.of_nat (length w)) (symbol_blocks (m_bitmap (qMat q)) v l k)
        = map (fun d => d + ecc_per_block v l) (block_data_lengths v l) /\
      Forall (is_codeword (Z.to_nat (ecc_per_block v l))) (symbol_blocks (m_bitmap (qMat q)) v l k).
  Proof.
    intros HN. destruct (newwith_made sjis C t opts sched q HN) as (md & pl & l & v & b & w & k & c & s & HM).
    destruct (blocks_made _ _ _ _ _ _ _ _ _ _ _ _ HM) as (RV & HK & _ & _ & EB).
    exists v, l, k. split; auto.
    destruct (md_cand _ _ _ _ _ _ _ _ _ _ _ _ _ HM k HK) as [SY _]. rewrite <- (md_mat _ _ _ _ _ _ _ _ _ _ _ _ _ HM) in SY.
    split; [apply (read_format_ok v l k (final_stream v w)); auto; apply HM|]. split; [apply HM|].
    unfold symbol_blocks. rewrite EB, !map_map. cbn [fst snd]. split.
    - rewrite <- (sf_lens _ _ _ _ _ (md_stream _ _ _ _ _ _ _ _ _ _ _ _ _ HM)), map_map. apply map_ext_in. intros d Hd.
      destruct (made_codeword _ _ _ _ _ _ _ _ _ _ _ _ d HM Hd) as (LN & _ & _ & N1). rewrite app_length, LN. unfold zlen. lia.
    - apply Forall_map, Forall_forall. intros d Hd. apply (made_codeword _ _ _ _ _ _ _ _ _ _ _ _ d HM Hd).
  Qed.

  Lemma Forall2_unique {A B} (P : A -> B -> Prop) (Q : A -> B -> Prop) : forall (rs : list A) (cs ds : list B),
    (forall r c d, In d ds -> P r c -> Q r d -> c = d) -> Forall2 P rs cs -> Forall2 Q rs ds -> cs = ds.
  Proof.
    induction rs as [|r rs IH]; intros cs ds HU HP HQ; inversion HP; inversion HQ; subst; auto. f_equal.
    - eapply HU; eauto. left. auto.
    - apply (IH l' l'0); auto. intros; eapply HU; eauto. right. auto.
  Qed.

  (* every symbol, read with error correction, whatever the damage within the bounds *)
  Lemma recovery_made t opts q md pl l v b w k c s : made sjis t opts q md pl l v b w k c s ->
    text_ok sjis md (text_bytes t) -> pl = payload_of sjis md (text_bytes t) ->
    forall bm', read_version bm' = Some v ->
      (hamming (format_bits_1 bm') (format_bits_1 (m_bitmap (qMat q))) <= 3)%nat ->
      Forall2 (fun r o => length r = length o /\ (2 * distance r o <= Z.to_nat (ecc_per_block v l))%nat)
         (symbol_blocks bm' v l k) (symbol_blocks (m_bitmap (qMat q)) v l k) ->
      forall seg, recovers bm' seg <-> seg = expected sjis md (text_bytes t).
  Proof.
    intros HM HT HP bm' RV' HH HB seg.
    destruct (blocks_made _ _ _ _ _ _ _ _ _ _ _ _ HM) as (RV & HK & FB & EW & EB).
    rewrite FB in HH. set (n := Z.to_nat (ecc_per_block v l)) in *.
    assert (ES : symbol_blocks (m_bitmap (qMat q)) v l k = map (fun d => d ++ ecc_of (ecc_per_block v l) d) b).
    { unfold symbol_blocks. rewrite EB, map_map. reflexivity. }
    assert (CW : forall o, In o (symbol_blocks (m_bitmap (qMat q)) v l k) -> is_codeword n o /\ (length o <= 255)%nat).
    { intros o Ho. rewrite ES in Ho. apply in_map_iff in Ho as (d & <- & Hd).
      destruct (made_codeword _ _ _ _ _ _ _ _ _ _ _ _ d HM Hd) as (_ & A & B' & _). auto. }
    assert (DP : flat_map (data_part n) (symbol_blocks (m_bitmap (qMat q)) v l k) = concat b).
    { rewrite ES, flat_map_concat_map, map_map. f_equal. rewrite <- (map_id b) at 2. apply map_ext_in. intros d Hd.
      destruct (made_codeword _ _ _ _ _ _ _ _ _ _ _ _ d HM Hd) as (LN & _). unfold data_part. rewrite app_length, LN.
      apply firstn_app_exact. unfold n. lia. }
    assert (SEG : read_segment v (flat_map (fun w => to_bits w 8) (concat b)) = Some (expected sjis md (text_bytes t))).
    { rewrite <- (read_made sjis C _ _ _ _ _ _ _ _ _ _ _ _ HM HT HP). 
      destruct (md_cand _ _ _ _ _ _ _ _ _ _ _ _ _ HM k HK) as [SY _]. rewrite <- (md_mat _ _ _ _ _ _ _ _ _ _ _ _ _ HM) in SY.
      rewrite (read_symbol_ok v l k _ b w (qMat q) (md_valid _ _ _ _ _ _ _ _ _ _ _ _ _ HM) HK (md_stream _ _ _ _ _ _ _ _ _ _ _ _ _ HM) SY).
      f_equal. apply (sf_bits _ _ _ _ _ (md_stream _ _ _ _ _ _ _ _ _ _ _ _ _ HM)). }
    split.
    - intros (v' & l' & k' & cs & RV2 & HK' & HF & HC & HR). rewrite RV' in RV2. injection RV2 as <-.
      destruct (format_unique (format_bits_1 bm') l' k' l k (format_bits_length bm') HK' HK HF HH) as [-> ->].
      fold n in HC, HR.
      assert (E : cs = symbol_blocks (m_bitmap (qMat q)) v l k).
      { apply (Forall2_unique _ _ _ _ _) with (2 := HC) (3 := HB). intros r c0 o Ho (L1 & CW1 & D1) (L2 & D2). destruct (CW o Ho) as [CWo LO].
        apply (rs_unique_decoding n r); auto; lia. }
      subst cs. rewrite DP, SEG in HR. congruence.
    - intros ->. exists v, l, k, (symbol_blocks (m_bitmap (qMat q)) v l k). split; auto. split; auto. split; auto. fold n. split.
      + revert HB CW. generalize (symbol_blocks (m_bitmap (qMat q)) v l k). generalize (symbol_blocks bm' v l k).
        intros rs os HB. induction HB as [|r o rs os [HL HD] HB IH]; intros CW; constructor; [|apply IH; intros; apply CW; right; auto].
        split; [auto|]. split; auto. apply CW. left. auto.
      + rewrite DP. exact SEG.
  Qed.
End Sjis.
