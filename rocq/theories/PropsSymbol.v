(* Theorems about the produced symbols: properties C12-C24 and C45, C46. *)
From Coq Require Import Lia Init.Byte.
From Verif Require Import ModelBase ModelBinary ModelUtf8 ModelVersion ModelMatrix ModelRS ModelMask ModelEval ModelQRCode.
From Verif Require Import SpecIso SpecReader SpecSegment SpecAPI SpecRS SpecRecovery SpecSymbol SpecMatrix SpecScore.
From Verif Require Import Samples.
From Verif Require Import ProofBase ProofMatrix ProofSweep ProofTables ProofEncode ProofMode ProofSegment ProofInit ProofVersion ProofAPI ProofNew
  ProofRS ProofRecovery ProofSearch ProofStream ProofMasking ProofScore.
From Verif Require PropsNew.

(* ------------------------------------------------------------------ C12, C13, C14 *)
Theorem C12_function_patterns :
  forall sjis, shift_jis_contract sjis ->
  forall text opts sched q, NewWith sjis text opts sched = Ok q ->
    exists v, read_version (m_bitmap (qMat q)) = Some v /\
      forall x y c, 0 <= x < side v -> 0 <= y < side v ->
        fixed_colour (region_of v x y) = Some c -> module_at (m_bitmap (qMat q)) x y = c.
Proof. exact function_patterns. Qed.

(* the level is the requested one; the mask k in the format information is the one under which the data modules
   unmask to the message q.data (whose content is the subject of C15 and C21) *)
Theorem C13_format_information :
  forall sjis, shift_jis_contract sjis ->
  forall text opts sched q, NewWith sjis text opts sched = Ok q ->
    exists l v k, eff_level opts = level_code l /\ read_version (m_bitmap (qMat q)) = Some v /\ 0 <= k < 8 /\
      format_bits_1 (m_bitmap (qMat q)) = to_bits (format_word l k) 15 /\
      format_bits_2 (m_bitmap (qMat q)) v = to_bits (format_word l k) 15 /\
      read_stream (m_bitmap (qMat q)) v k = qData q.
Proof. exact format_info. Qed.

Theorem C14_version_information :
  forall sjis, shift_jis_contract sjis ->
  forall text opts sched q, NewWith sjis text opts sched = Ok q ->
    exists v, read_version (m_bitmap (qMat q)) = Some v /\
      (7 <= v -> forall j, 0 <= j < 18 ->
         (let '(x, y) := version_position_1 v j in module_at (m_bitmap (qMat q)) x y) = Z.testbit (version_word v) j /\
         (let '(x, y) := version_position_2 v j in module_at (m_bitmap (qMat q)) x y) = Z.testbit (version_word v) j) /\
      (v < 7 -> forall x y, region_of v x y <> VersionArea).
Proof. exact version_info. Qed.

(* ------------------------------------------------------------------ C15 *)
Theorem C15_data_modules :
  forall sjis, shift_jis_contract sjis ->
  forall text opts sched q, NewWith sjis text opts sched = Ok q ->
    exists v k words, read_version (m_bitmap (qMat q)) = Some v /\ 0 <= k < 8 /\
      NoDup (data_path v) /\
      (forall x y, In (x, y) (data_path v) <-> 0 <= x < side v /\ 0 <= y < side v /\ region_of v x y = DataArea) /\
      Z.of_nat (length words) = total_codewords v /\ Forall (fun w => 0 <= w < 256) words /\
      read_stream (m_bitmap (qMat q)) v k = flat_map (fun w => to_bits w 8) words ++ repeat false (Z.to_nat (remainder_bits v)) /\
      Z.of_nat (length (data_path v)) = 8 * total_codewords v + remainder_bits v.
Proof. exact data_modules. Qed.

(* ------------------------------------------------------------------ C16, C17 *)
(* the table: exactly one row for each version and level *)
Theorem C16_block_structure :
  forall v l, valid_version v ->
  exists r, loadVersion v (level_code l) = Ok r /\ Ver r = v /\ ECLevel r = level_code l /\
    flat_map (fun g => repeat (NumDataCodewords g, ECBlockwordsPerBlock g) (Z.to_nat (NumBlocks g))) (Groups r)
      = map (fun d => (d, ecc_per_block v l)) (block_data_lengths v l) /\
    RemainderBits r = remainder_bits v /\
    data_codewords v l + num_blocks v l * ecc_per_block v l = total_codewords v.
Proof.
  intros v l Hv. destruct (row_of v l Hv) as (r & E & RF). exists r. rewrite level_code_const.
  split; auto. split; [apply RF|]. split; [apply RF|]. split; [apply RF|]. split; apply RF.
Qed.

Theorem C17_capacity_exact :
  forall v l, valid_version v ->
  exists r, loadVersion v (level_code l) = Ok r /\
    forall n, 0 <= n ->
      (n <= capNumeric (Cap r) <-> fits v l Numeric n) /\
      (n <= capAlphaNumeric (Cap r) <-> fits v l Alphanumeric n) /\
      (n <= capByte (Cap r) <-> fits v l Byte n) /\
      (n <= capJP (Cap r) <-> fits v l Kanji n).
Proof.
  intros v l Hv. destruct (row_of v l Hv) as (r & E & RF). exists r. rewrite level_code_const. split; auto.
  intros n Hn. pose proof (fun md => fits_cap v l r md n RF Hn) as F.
  split; [|split; [|split]]; symmetry; [apply (F Numeric)|apply (F Alphanumeric)|apply (F Byte)|apply (F Kanji)].
Qed.

(* ------------------------------------------------------------------ C18 *)
Theorem C18_blocks_are_codewords :
  forall sjis, shift_jis_contract sjis ->
  forall text opts sched q, NewWith sjis text opts sched = Ok q ->
    exists v l k, read_version (m_bitmap (qMat q)) = Some v /\ read_format (m_bitmap (qMat q)) = Some (l, k) /\
      eff_level opts = level_code l /\
      map (fun w => Z.of_nat (length w)) (symbol_blocks (m_bitmap (qMat q)) v l k)
        = map (fun d => d + ecc_per_block v l) (block_data_lengths v l) /\
      Forall (is_codeword (Z.to_nat (ecc_per_block v l))) (symbol_blocks (m_bitmap (qMat q)) v l k).
Proof. exact blocks_codewords. Qed.

(* ------------------------------------------------------------------ C19 *)
(* whatever happens to the symbol (bm is any bitmap of the same size) as long as at most three bits of the
   format information and half as many code words per block as there are EC code words are wrong: a reader with
   error correction returns the text and nothing but the text *)
Theorem C19_damaged_symbol_recovered :
  forall sjis, shift_jis_contract sjis ->
  forall text opts sched q, NewWith sjis text opts sched = Ok q -> ~ misdetected sjis opts (text_bytes text) ->
    exists md v l k, qMode q = mode_code md /\ eff_level opts = level_code l /\ read_version (m_bitmap (qMat q)) = Some v /\
      read_format (m_bitmap (qMat q)) = Some (l, k) /\
      forall bm, read_version bm = Some v ->
        (hamming (format_bits_1 bm) (format_bits_1 (m_bitmap (qMat q))) <= 3)%nat ->
        Forall2 (fun r o => length r = length o /\ (2 * distance r o <= Z.to_nat (ecc_per_block v l))%nat)
           (symbol_blocks bm v l k) (symbol_blocks (m_bitmap (qMat q)) v l k) ->
        (exists seg, recovers bm seg) /\ forall seg, recovers bm seg -> carries sjis md (text_bytes text) seg.
Proof.
  intros sjis C t opts sched q HN NM. destruct (newwith_made sjis C t opts sched q HN) as (md & pl & l & v & b & w & k & c & s & HM).
  destruct (choice_text _ _ _ _ _ (md_choice _ _ _ _ _ _ _ _ _ _ _ _ _ HM)) as [[HT HP]|(_ & E1 & E2 & _)].
  2:{ exfalso. apply NM. split; auto. apply mixed_iff; auto. }
  destruct (blocks_made _ _ _ _ _ _ _ _ _ _ _ _ _ HM) as (RV & HK & _).
  destruct (md_cand _ _ _ _ _ _ _ _ _ _ _ _ _ HM k HK) as [SY _]. rewrite <- (md_mat _ _ _ _ _ _ _ _ _ _ _ _ _ HM) in SY.
  exists md, v, l, k. split; [apply HM|]. split; [apply HM|]. split; auto.
  split; [apply (ProofBuild.read_format_ok v l k (final_stream v w)); auto; apply HM|].
  intros bm RV' HH HB. pose proof (recovery_made sjis C _ _ _ _ _ _ _ _ _ _ _ _ HM HT HP bm RV' HH HB) as R. split.
  - exists (expected sjis md (text_bytes t)). apply R. reflexivity.
  - intros seg HS. apply R in HS. subst seg. apply carries_expected; auto.
Qed.

(* per block: unique decoding within half the number of EC code words, for every code word *)
Theorem C19_unique_correction :
  forall n received a b, length received = length a -> length a = length b -> (length a <= 255)%nat ->
    is_codeword n a -> is_codeword n b ->
    (2 * distance received a <= n)%nat -> (2 * distance received b <= n)%nat -> a = b.
Proof. exact rs_unique_decoding. Qed.

(* 7 / 15 / 25 / 30 percent of the code words of any block are within that bound *)
Theorem C19_percentages :
  forall v l d damaged, valid_version v -> In d (block_data_lengths v l) ->
    100 * damaged <= recovery_percent l * (d + ecc_per_block v l) -> 2 * damaged <= ecc_per_block v l.
Proof. exact percent_ok. Qed.

(* ------------------------------------------------------------------ C20 *)
(* blocks as byte lists; lengths differ by at most one, as in every ISO block structure (C16) *)
Theorem C20_interleaving :
  forall blocks s, 0 <= s -> blocks <> [] ->
    (forall b, In b blocks -> zlen b = s \/ zlen b = s + 1) ->
    exists w, arrange (map bytes_to_bits blocks) = Ok (bytes_to_bits w) /\
      w = map (fun p => nth (Z.to_nat (snd p)) (nth (Z.to_nat (fst p)) blocks []) 0) (interleave_order (map zlen blocks)) /\
      zlen w = fold_right Z.add 0 (map zlen blocks) /\
      forall b, 0 <= b < zlen blocks -> pick_block b (interleave_order (map zlen blocks)) w = nth (Z.to_nat b) blocks [].
Proof. exact interleaving. Qed.

(* outside that range the code loses code words *)
Theorem C20_unequal_blocks_refuted :
  ~ (forall blocks : list (list Z), blocks <> [] -> exists w, arrange (map bytes_to_bits blocks) = Ok (bytes_to_bits w) /\ length w = length (concat blocks)).
Proof.
  intros G. destruct (G [[1]; [2; 3; 4; 5]] ltac:(discriminate)) as (w & E & HL).
  assert (X : exists r, arrange (map bytes_to_bits [[1]; [2; 3; 4; 5]]) = Ok r /\ length r = 32%nat).
  { eexists. split; [vm_compute; reflexivity|reflexivity]. }
  destruct X as (r & E2 & HR). rewrite E in E2. injection E2 as E2. rewrite <- E2, ProofBits.bytes_to_bits_length, HL in HR. discriminate.
Qed.

(* ------------------------------------------------------------------ C21 *)
Theorem C21_framing :
  forall sjis, shift_jis_contract sjis ->
  forall text opts sched q, NewWith sjis text opts sched = Ok q -> ~ misdetected sjis opts (text_bytes text) ->
    exists md v l k payload, qMode q = mode_code md /\ read_version (m_bitmap (qMat q)) = Some v /\
      read_format (m_bitmap (qMat q)) = Some (l, k) /\
      payload_for sjis md (text_bytes text) payload /\
      flat_map (fun w => to_bits w 8) (flat_map fst (read_blocks v l (symbol_words (m_bitmap (qMat q)) v k)))
        = data_bits v l md (char_count md (text_bytes text)) payload /\
      Z.of_nat (length (data_bits v l md (char_count md (text_bytes text)) payload)) = 8 * data_codewords v l.
Proof. exact framing. Qed.

(* ------------------------------------------------------------------ C22 *)
(* the eight candidates of a call, independent of the schedule, and the choice of a minimal one *)
Theorem C22_minimal_penalty :
  forall sjis, shift_jis_contract sjis ->
  forall text opts, (exists sched q, NewWith sjis text opts sched = Ok q) ->
    exists v l stream (cand : Z -> Matrix),
      eff_level opts = level_code l /\
      (forall j, 0 <= j < 8 -> iso_symbol v l j stream (m_bitmap (cand j))) /\
      forall sched q, NewWith sjis text opts sched = Ok q ->
        exists k, 0 <= k < 8 /\ qMat q = cand k /\ qData q = stream /\
          forall j, 0 <= j < 8 -> search_penalty (cand k) (side v) <= search_penalty (cand j) (side v).
Proof.
  intros sjis C t opts HE. destruct (search sjis C t opts HE) as (v & l & md & r & st & cand & score & HV & EL & A & K & B).
  assert (SC : forall j, 0 <= j < 8 -> score j = search_penalty (cand j) (side v)).
  { intros j Hj. destruct (A j Hj) as (_ & SQ & E). rewrite (evaluation_is (side v)) in E by (auto; unfold side, valid_version in *; lia). congruence. }
  exists v, l, st, cand. split; auto. split; [intros j Hj; apply (A j Hj)|]. intros sched q HN. destruct (B sched q HN) as (k & Hk & -> & MIN).
  exists k. split; auto. split; auto. split; auto. intros j Hj. rewrite <- !SC by auto. apply MIN; auto.
Qed.

(* no schedule leads to a deadlock: any prefix extends to a completed call, and every fair continuation completes *)
Theorem C22_terminates :
  forall sjis, shift_jis_contract sjis ->
  forall text opts sched rounds, plain text -> supported opts -> length rounds = 57%nat -> Forall round rounds ->
    (exists q, NewWith sjis text opts (sched ++ concat rounds) = Ok q) \/
    (exists e, NewWith sjis text opts (sched ++ concat rounds) = Err e).
Proof.
  intros sjis C t opts sched rounds HP SU HL HR. apply PropsNew.C04_result_or_error; auto.
  destruct rounds as [|r rounds]; [discriminate|]. exists ((sched ++ r) :: rounds), []. cbn [concat].
  split; [rewrite app_nil_r, app_assoc; reflexivity|]. split; [exact HL|]. inversion HR; subst. constructor; auto.
  intros a Ha. apply in_or_app. right. auto.
Qed.

(* ------------------------------------------------------------------ C23 *)
Lemma iso_read_format v l j stream bm : 0 <= j < 8 -> iso_symbol v l j stream bm -> read_format bm = Some (l, j).
Proof.
  intros Hj SY. unfold read_format. rewrite (is_format_1 _ _ _ _ _ SY).
  assert (SW : forallb (fun p => let '(l, k) := p in (0 <=? format_word l k) && (format_word l k <? 2 ^ 15) &&
      match find (fun '(l', k') => format_word l' k' =? format_word l k) all_formats with
      | Some (l', k') => (level_code l' =? level_code l) && (k' =? k) | None => false end) all_formats = true) by (vm_compute; reflexivity).
  rewrite forallb_forall in SW. specialize (SW (l, j) (all_formats_in l j Hj)). cbv beta iota in SW.
  apply andb_true_iff in SW as [R SW]. apply andb_true_iff in R as [R1 R2]. apply Z.leb_le in R1. apply Z.ltb_lt in R2.
  rewrite ProofBuild.bits_value_to_bits by lia. destruct (find _ all_formats) as [[l' j']|]; [|discriminate].
  apply andb_true_iff in SW as [E1 E2]. apply Z.eqb_eq in E1, E2. subst j'. apply level_code_inj in E1. subst l'. reflexivity.
Qed.

(* what does not depend on the schedule: version, mode, message, penalty; and the matrix, if one mask is strictly best *)
Theorem C23_deterministic_partial :
  forall sjis, shift_jis_contract sjis ->
  forall text opts sched sched' q q', NewWith sjis text opts sched = Ok q -> NewWith sjis text opts sched' = Ok q' ->
    qV q = qV q' /\ qMode q = qMode q' /\ qData q = qData q' /\
    search_penalty (qMat q) (q_dimension q) = search_penalty (qMat q') (q_dimension q') /\
    (read_format (m_bitmap (qMat q)) = read_format (m_bitmap (qMat q')) -> q = q').
Proof.
  intros sjis C t opts s s' q q' HN HN'.
  destruct (search sjis C t opts (ex_intro _ s (ex_intro _ q HN))) as (v & l & md & r & st & cand & score & HV & EL & A & K & B).
  destruct (B s q HN) as (k & Hk & -> & MIN). destruct (B s' q' HN') as (k' & Hk' & -> & MIN'). cbn [qV qMode qData qMat].
  split; auto. split; auto. split; auto. split.
  - assert (SC : forall j, 0 <= j < 8 -> search_penalty (cand j) (q_dimension (mkQR r (mode_code md) st (cand j))) = score j).
    { intros j Hj. destruct (A j Hj) as (_ & SQ & E). assert (D : q_dimension (mkQR r (mode_code md) st (cand j)) = side v) by apply SQ.
      rewrite D. rewrite (evaluation_is (side v)) in E by (auto; unfold side, valid_version in *; lia). congruence. }
    rewrite !SC by auto. specialize (MIN k' Hk'). specialize (MIN' k Hk). lia.
  - intros EF.
    assert (FM : forall j, 0 <= j < 8 -> read_format (m_bitmap (cand j)) = Some (l, j)) by (intros j Hj; eapply iso_read_format; [exact Hj|apply (A j Hj)]).
    rewrite (FM k Hk), (FM k' Hk') in EF. injection EF as ->. reflexivity.
Qed.

(* exactly which results a call can have: the eight candidates (one for each mask, all carrying the same codewords)
   do not depend on the schedule, and a symbol is the result under some fair schedule iff it is a candidate of lowest penalty *)
Theorem C23_possible_results :
  forall sjis, shift_jis_contract sjis ->
  forall text opts, (exists sched q, NewWith sjis text opts sched = Ok q) ->
    exists v l stream (cand : Z -> Matrix),
      eff_level opts = level_code l /\
      (forall j, 0 <= j < 8 -> iso_symbol v l j stream (m_bitmap (cand j)) /\ read_format (m_bitmap (cand j)) = Some (l, j)) /\
      forall mat, (exists sched q, fair sched /\ NewWith sjis text opts sched = Ok q /\ qMat q = mat) <->
        (exists k, 0 <= k < 8 /\ mat = cand k /\
           forall j, 0 <= j < 8 -> search_penalty (cand k) (side v) <= search_penalty (cand j) (side v)).
Proof.
  intros sjis C t opts HE. destruct (search sjis C t opts HE) as (v & l & md & r & st & cand & score & HV & EL & A & K & B).
  assert (SC : forall j, 0 <= j < 8 -> score j = search_penalty (cand j) (side v)).
  { intros j Hj. destruct (A j Hj) as (_ & SQ & E). rewrite (evaluation_is (side v)) in E by (auto; unfold side, valid_version in *; lia). congruence. }
  exists v, l, st, cand. split; [exact EL|]. split.
  { intros j Hj. destruct (A j Hj) as (SY & _). split; [exact SY|]. eapply iso_read_format; eauto. }
  intros mat. split.
  - intros (sched & q & _ & HN & <-). destruct (B sched q HN) as (k & Hk & -> & MIN). exists k. split; [exact Hk|]. split; [reflexivity|].
    intros j Hj. rewrite <- !SC by auto. auto.
  - intros (k & Hk & -> & MIN). destruct (K k Hk) as ((sched & FA & E) & _).
    { intros j Hj. rewrite !SC by auto. auto. }
    eexists. eexists. split; [exact FA|]. split; [exact E|reflexivity].
Qed.

(* the result is the same under every schedule iff one mask is strictly better than the seven others *)
Theorem C23_deterministic_iff :
  forall sjis, shift_jis_contract sjis ->
  forall text opts, (exists sched q, NewWith sjis text opts sched = Ok q) ->
    exists v l stream (cand : Z -> Matrix),
      eff_level opts = level_code l /\
      (forall j, 0 <= j < 8 -> iso_symbol v l j stream (m_bitmap (cand j))) /\
      ((forall sched sched' q q', NewWith sjis text opts sched = Ok q -> NewWith sjis text opts sched' = Ok q' ->
          m_bitmap (qMat q) = m_bitmap (qMat q')) <->
       (exists k, 0 <= k < 8 /\ forall j, 0 <= j < 8 -> j <> k -> search_penalty (cand k) (side v) < search_penalty (cand j) (side v))) /\
      ((exists k, 0 <= k < 8 /\ forall j, 0 <= j < 8 -> j <> k -> search_penalty (cand k) (side v) < search_penalty (cand j) (side v)) ->
       forall sched sched' q q', NewWith sjis text opts sched = Ok q -> NewWith sjis text opts sched' = Ok q' -> q = q').
Proof.
  intros sjis C t opts HE. destruct (search sjis C t opts HE) as (v & l & md & r & st & cand & score & HV & EL & A & K & B).
  assert (SC : forall j, 0 <= j < 8 -> score j = search_penalty (cand j) (side v)).
  { intros j Hj. destruct (A j Hj) as (_ & SQ & E). rewrite (evaluation_is (side v)) in E by (auto; unfold side, valid_version in *; lia). congruence. }
  assert (FM : forall j, 0 <= j < 8 -> read_format (m_bitmap (cand j)) = Some (l, j)) by (intros j Hj; eapply iso_read_format; [exact Hj|apply (A j Hj)]).
  assert (UQ : (exists k, 0 <= k < 8 /\ forall j, 0 <= j < 8 -> j <> k -> search_penalty (cand k) (side v) < search_penalty (cand j) (side v)) ->
       forall sched sched' q q', NewWith sjis t opts sched = Ok q -> NewWith sjis t opts sched' = Ok q' -> q = q').
  { intros (k & Hk & ST) s s' q q' HN HN'.
    assert (ONE : forall s q, NewWith sjis t opts s = Ok q -> q = mkQR r (mode_code md) st (cand k)).
    { intros s1 q1 H1. destruct (B s1 q1 H1) as (j & Hj & -> & MIN). destruct (Z.eq_dec j k) as [->|N]; [reflexivity|].
      specialize (ST j Hj N). specialize (MIN k Hk). rewrite !SC in MIN by auto. lia. }
    rewrite (ONE s q HN), (ONE s' q' HN'). reflexivity. }
  exists v, l, st, cand. split; [exact EL|]. split; [intros j Hj; apply (A j Hj)|]. split; [|exact UQ]. split.
  - intros DET. destruct HE as (s & q & HN). destruct (B s q HN) as (k & Hk & EQ & MIN). exists k. split; [exact Hk|].
    intros j Hj NE. rewrite <- !SC by auto. pose proof (MIN j Hj) as LE. apply Z.le_neq. split; [exact LE|]. intros ES. apply NE.
    destruct (K j Hj) as ((s' & _ & E') & _). { intros i Hi. rewrite <- ES. auto. }
    pose proof (DET _ _ _ _ HN E') as BM. rewrite EQ in BM. cbn [qMat] in BM. pose proof (FM k Hk) as F1. rewrite BM, (FM j Hj) in F1. congruence.
  - intros U s s' q q' HN HN'. rewrite (UQ U s s' q q' HN HN'). reflexivity.
Qed.

(* "7573446868": masks 1 and 4 have the same, lowest penalty; which of them is used depends on the schedule *)
Definition tie_text : GoText := GoString [x37; x35; x37; x33; x34; x34; x36; x38; x36; x38].
Definition one_by_one (order : list nat) : list actor := repeat Main 8 ++ flat_map (fun i => repeat (Goroutine i) 6) order ++ [Main].
Definition row_12 (o : outcome QRCode) : option (list bool) := match o with Ok q => nth_error (m_bitmap (qMat q)) 12 | _ => None end.
Lemma row_12_ok o a : row_12 o = Some a -> exists q, o = Ok q /\ nth_error (m_bitmap (qMat q)) 12 = Some a.
Proof. destruct o as [q| | |]; try discriminate. exists q. auto. Qed.
Theorem C23_deterministic_refuted :
  ~ (forall sjis, shift_jis_contract sjis -> forall text sched sched' q q',
       New sjis text sched = Ok q -> New sjis text sched' = Ok q' -> m_bitmap (qMat q) = m_bitmap (qMat q')).
Proof.
  intros G. assert (X : exists a b, row_12 (New sample_sjis tie_text (one_by_one [0;1;2;3;4;5;6;7]%nat)) = Some a /\
    row_12 (New sample_sjis tie_text (one_by_one [7;6;5;4;3;2;1;0]%nat)) = Some b /\ a <> b).
  { eexists. eexists. split; [vm_compute; reflexivity|]. split; [vm_compute; reflexivity|discriminate]. }
  destruct X as (a & b & A & B & N). apply row_12_ok in A as (q & E1 & A). apply row_12_ok in B as (q' & E2 & B).
  pose proof (G sample_sjis sample_contract _ _ _ _ _ E1 E2) as E. rewrite E, B in A. congruence.
Qed.

(* goroutine k has drawn, scored and reported its mask before the others start; what happens then is left open *)
Definition ahead (k : Z) (rest : list actor) : list actor := repeat Main 8 ++ repeat (Goroutine (Z.to_nat k)) 5 ++ rest.
(* a criterion that needs eight runs only: if they all choose the same mask, every run returns the same *)
Theorem C23_deterministic_if :
  forall sjis, shift_jis_contract sjis ->
  forall text opts l k0,
    (forall k, 0 <= k < 8 -> exists rest q, NewWith sjis text opts (ahead k rest) = Ok q /\ read_format (m_bitmap (qMat q)) = Some (l, k0)) ->
    forall sched sched' q q', NewWith sjis text opts sched = Ok q -> NewWith sjis text opts sched' = Ok q' -> q = q'.
Proof.
  intros sjis C t opts l0 k0 EIGHT.
  assert (HE : exists s q, NewWith sjis t opts s = Ok q) by (destruct (EIGHT 0 ltac:(lia)) as (rest & q & E & _); eauto).
  destruct (search sjis C t opts HE) as (v & l & md & r & st & cand & score & HV & EL & A & K & B).
  assert (FM : forall j, 0 <= j < 8 -> read_format (m_bitmap (cand j)) = Some (l, j)) by (intros j Hj; eapply iso_read_format; [exact Hj|apply (A j Hj)]).
  assert (ONE : forall s q, NewWith sjis t opts s = Ok q -> q = mkQR r (mode_code md) st (cand k0)).
  { intros s q E. destruct (B s q E) as (k & Hk & -> & MIN). destruct (K k Hk MIN) as [_ FI].
    destruct (EIGHT k Hk) as (rest & q1 & E1 & R1). unfold ahead in E1. rewrite app_assoc in E1. rewrite (FI rest q1 E1) in R1. cbn [qMat] in R1.
    rewrite (FM k Hk) in R1. injection R1 as _ <-. reflexivity. }
  intros s s' q q' E E'. rewrite (ONE s q E), (ONE s' q' E'). reflexivity.
Qed.

(* if some schedule leads to a symbol, every fair one does *)
Lemma fair_success sjis t opts sched : shift_jis_contract sjis -> (exists s q, NewWith sjis t opts s = Ok q) -> fair sched -> exists q, NewWith sjis t opts sched = Ok q.
Proof.
  intros C (s0 & q0 & HN0) FA.
  assert (HP : plain t) by (destruct t; try exact I; cbn in HN0; discriminate).
  assert (EN : forall s, NewWith sjis t opts s = build sjis (text_bytes t) (ProofBuild.options_of opts) s) by (intros; apply newwith_plain; auto).
  rewrite EN in *. destruct (ProofAPI.supported_dec opts) as [SU|NS].
  2:{ rewrite ProofAPI.build_unsupported in HN0 by auto. destruct (eff_version opts =? 0); discriminate. }
  destruct (ProofBuild.build_cases sjis C opts (text_bytes t) SU) as [md E NT B|md pl l MC EL HV TL BU|md pl l MC EL E0 HF B|md pl l v MC EL E0 HV HF HM B].
  - rewrite B in HN0. discriminate.
  - destruct (Z.lt_ge_cases (8 * data_codewords (eff_version opts) l) (4 + width_of (eff_version opts) md + zlen pl)) as [LT|GE].
    { rewrite (TL LT) in HN0. discriminate. }
    exact (ProofNew.built_fair _ _ _ _ _ _ _ FA (BU GE)).
  - rewrite B in HN0. discriminate.
  - exact (ProofNew.built_fair _ _ _ _ _ _ _ FA B).
Qed.
(* goroutine k first, then everybody in turn until all have finished *)
Definition first_of_all (k : Z) : list actor := ahead k (concat (repeat all_actors 57)).
(* so it can be decided whether a call is deterministic *)
Theorem C23_decided_by_eight_runs :
  forall sjis, shift_jis_contract sjis ->
  forall text opts, (exists sched q, NewWith sjis text opts sched = Ok q) ->
    ((forall sched sched' q q', NewWith sjis text opts sched = Ok q -> NewWith sjis text opts sched' = Ok q' -> q = q') <->
     (exists l k0, forall k, 0 <= k < 8 -> exists q, NewWith sjis text opts (first_of_all k) = Ok q /\ read_format (m_bitmap (qMat q)) = Some (l, k0))).
Proof.
  intros sjis C t opts HE. split.
  - intros DET. destruct (search sjis C t opts HE) as (v & l & md & r & st & cand & score & HV & EL & A & K & B). destruct HE as (s & q & E).
    destruct (B s q E) as (k0 & Hk0 & EQ & _). exists l, k0. intros k Hk.
    assert (FA : fair (first_of_all k)).
    { exists ((repeat Main 8 ++ repeat (Goroutine (Z.to_nat k)) 5 ++ all_actors) :: repeat all_actors 56), [].
      split; [rewrite app_nil_r; unfold first_of_all, ahead; change (repeat all_actors 57) with (all_actors :: repeat all_actors 56); cbn [concat]; rewrite !app_assoc; reflexivity|].
      split; [cbn [length]; rewrite repeat_length; reflexivity|].
      constructor; [intros a Ha; apply in_or_app; right; apply in_or_app; right; exact Ha|]. apply Forall_forall. intros x Hx. apply repeat_spec in Hx. subst x. intros a Ha. exact Ha. }
    destruct (fair_success sjis t opts _ C (ex_intro _ s (ex_intro _ q E)) FA) as (q1 & E1). exists q1. split; [exact E1|].
    rewrite <- (DET s _ q q1 E E1), EQ. cbn [qMat]. eapply iso_read_format; [exact Hk0|apply (A k0 Hk0)].
  - intros (l & k0 & EIGHT). refine (C23_deterministic_if sjis C t opts l k0 _). intros k Hk. destruct (EIGHT k Hk) as (q & E & R). exists (concat (repeat all_actors 57)), q. split; [exact E|exact R].
Qed.

(* "HELLO WORLD": whatever the schedule, the symbol is the same (its mask is number 5) *)
Definition format_of (o : outcome QRCode) : option (level * Z) := match o with Ok q => read_format (m_bitmap (qMat q)) | _ => None end.
Definition rest_of (k : nat) : list actor := Goroutine k :: flat_map (fun i => repeat (Goroutine i) 6) (filter (fun i => negb (Nat.eqb i k)) (seq 0 8)) ++ [Main].
Lemma format_of_ok o f : format_of o = Some f -> exists q, o = Ok q /\ read_format (m_bitmap (qMat q)) = Some f.
Proof. destruct o as [q| | |]; cbn [format_of]; try discriminate. intros E. exists q. split; [reflexivity|exact E]. Qed.
Definition is_q5 (f : option (level * Z)) : bool := match f with Some (SpecIso.Q, j) => j =? 5 | _ => false end.
Lemma is_q5_ok f : is_q5 f = true -> f = Some (SpecIso.Q, 5).
Proof. destruct f as [[l j]|]; [|discriminate]. destruct l; try discriminate. cbn [is_q5]. intros E. apply Z.eqb_eq in E. subst j. reflexivity. Qed.
Lemma hello_q5 : forallb (fun k => is_q5 (format_of (NewWith sample_sjis hello [] (ahead k (rest_of (Z.to_nat k)))))) (zseq 0 8) = true.
Proof. vm_compute. reflexivity. Qed.
Example C23_example :
  (exists q, NewWith sample_sjis hello [] fair_schedule = Ok q) /\
  forall sched sched' q q', NewWith sample_sjis hello [] sched = Ok q -> NewWith sample_sjis hello [] sched' = Ok q' -> q = q'.
Proof.
  split; [apply PropsNew.hello_ok; auto|]. refine (C23_deterministic_if sample_sjis sample_contract hello [] SpecIso.Q 5 _).
  pose proof hello_q5 as X. rewrite forallb_forall in X.
  intros k Hk. specialize (X k (proj2 (in_zseq k 0 8) Hk)). cbv beta in X. exists (rest_of (Z.to_nat k)). apply format_of_ok. apply is_q5_ok. exact X.
Qed.

(* ------------------------------------------------------------------ C24 *)
(* pre: the matrix with the function patterns; m: the same with the data filled in.  wf = the matrix has the
   width and height it says it has (true of every matrix newMatrix returns) *)
Theorem C24_masking :
  forall pre m k, wf pre -> wf m -> mwidth m = mwidth pre -> mheight m = mheight pre -> 0 <= k < 8 ->
    (forall x y, in_range pre x y -> qrtype (fst (m_at pre x y)) = QRType_INIT ->
       qrtype (fst (m_at m x y)) = QRType_DATA /\ 0 <= fst (m_at m x y) < 256) ->
    exists mask, newMask pre k = Some mask /\
      mwidth (xorMask m mask) = mwidth m /\ mheight (xorMask m mask) = mheight m /\
      (forall x y, in_range pre x y -> qrtype (fst (m_at pre x y)) = QRType_INIT ->
         qrbool (fst (m_at (xorMask m mask) x y)) = xorb (qrbool (fst (m_at m x y))) (mask_condition k y x)) /\
      (forall x y, in_range pre x y -> qrtype (fst (m_at pre x y)) <> QRType_INIT ->
         fst (m_at (xorMask m mask) x y) = fst (m_at m x y)) /\
      xorMask (xorMask m mask) mask = m.
Proof. exact mask_effect. Qed.

(* ------------------------------------------------------------------ C45, C46 *)
(* up to three wrong bits in the format (version) information are corrected unambiguously *)
Theorem C45_format_error_correction :
  forall bits l k l' k', length bits = 15%nat -> 0 <= k < 8 -> 0 <= k' < 8 ->
    (hamming bits (to_bits (format_word l k) 15) <= 3)%nat -> (hamming bits (to_bits (format_word l' k') 15) <= 3)%nat ->
    l = l' /\ k = k'.
Proof. exact format_unique. Qed.
Theorem C46_version_error_correction :
  forall bits v v', length bits = 18%nat -> 7 <= v <= 40 -> 7 <= v' <= 40 ->
    (hamming bits (to_bits (version_word v) 18) <= 3)%nat -> (hamming bits (to_bits (version_word v') 18) <= 3)%nat -> v = v'.
Proof. exact version_unique. Qed.

(* ------------------------------------------------------------------ the hypotheses can be met *)
Example symbol_example : (exists q, NewWith sample_sjis hello [] fair_schedule = Ok q) /\ ~ misdetected sample_sjis [] (text_bytes hello).
Proof. split; [apply PropsNew.hello_ok; auto|]. intros [_ X]. apply (hello_not_mixed X). Qed.
(* C14: a symbol of version 7 *)
Example C14_example : exists q, NewWith sample_sjis hello [WithMinimumVersion 7] fair_schedule = Ok q /\ read_version (m_bitmap (qMat q)) = Some 7.
Proof.
  destruct (PropsNew.hello_ok [WithMinimumVersion 7]) as [q E]; auto. exists q. split; auto.
  destruct (PropsNew.C10_minimum_version sample_sjis sample_contract _ _ _ _ E eq_refl) as (md & l & v0 & EM & EL & LV & R).
  assert (ED : md = Alphanumeric).
  { destruct (auto_documented sample_sjis sample_contract _ _ _ _ E eq_refl hello_not_mixed) as (md' & EM' & [D1 D2] & _).
    rewrite EM in EM'. apply mode_code_inj in EM'. subst md'. destruct hello_alnum as [D1' D2'].
    destruct (Z.lt_trichotomy (mode_rank md) (mode_rank Alphanumeric)) as [X|[X|X]].
    - exfalso. apply (D2' md X D1).
    - destruct md; cbn in X; try lia; reflexivity.
    - exfalso. apply (D2 Alphanumeric X D1'). }
  assert (EQ : l = Q) by (apply level_code_inj; rewrite <- EL; reflexivity). subst md l.
  destruct LV as (V0 & _ & MIN). assert (v0 <= 1).
  { apply MIN; [unfold valid_version; lia|]. PropsNew.fits_now. }
  rewrite R. f_equal. change (eff_min [WithMinimumVersion 7]) with 7. lia.
Qed.
(* C16, C17, C19: version 5-Q has blocks of two lengths *)
Example C16_example : valid_version 5 /\ block_data_lengths 5 Q = [15; 15; 16; 16] /\ fits 5 Q Numeric 144 /\ ~ fits 5 Q Numeric 145.
Proof. split; [unfold valid_version; lia|]. split; [reflexivity|]. split; vm_compute; [discriminate|]. intros X. apply X. reflexivity. Qed.
Example C19_percentages_example : In 13 (block_data_lengths 1 Q) /\ 100 * 6 <= recovery_percent Q * (13 + ecc_per_block 1 Q).
Proof. split; [left; reflexivity|vm_compute; discriminate]. Qed.
(* C19: two damaged code words of a (5,1) code *)
Example C19_unique_example : is_codeword 4 [1; 15; 54; 120; 64] /\ (2 * distance [1; 0; 54; 120; 65]%Z [1; 15; 54; 120; 64]%Z <= 4)%nat.
Proof. split; [split; [repeat constructor; lia|]|vm_compute; lia]. intros i Hi. do 4 (destruct i as [|i]; [vm_compute; reflexivity|]). lia. Qed.
Example C20_example : forall b, In b [[1; 2]; [3; 4]; [5; 6; 7]] -> zlen b = 2 \/ zlen b = 2 + 1.
Proof. intros b [<-|[<-|[<-|[]]]]; cbn; auto. Qed.
Ltac wf_now := unfold wf; vm_compute; repeat (split || constructor || discriminate).
(* C24: a 2 x 1 matrix with a finder module and a data module *)
Example C24_example : let pre := m_set (newMatrix 2 1) 0 0 QRValue_FINDER_V1 in let m := m_set pre 1 0 QRValue_DATA_V1 in
  wf pre /\ wf m /\ mwidth m = mwidth pre /\
  (forall x y, in_range pre x y -> qrtype (fst (m_at pre x y)) = QRType_INIT -> qrtype (fst (m_at m x y)) = QRType_DATA /\ 0 <= fst (m_at m x y) < 256).
Proof.
  cbv zeta. split; [wf_now|]. split; [wf_now|]. split; [reflexivity|].
  intros x y [Hx Hy] E. change (0 <= x < 2) in Hx. change (0 <= y < 1) in Hy. assert (XX : x = 0 \/ x = 1) by lia. assert (y = 0) by lia. subst y.
  destruct XX as [-> | ->]; vm_compute in E; [discriminate|]. vm_compute. split; [reflexivity|split; [discriminate|reflexivity]].
Qed.
Example C45_example : (hamming [true;true;true;false;true;true;true;true;true;false;false;false;true;true;true] (to_bits (format_word L 0) 15) <= 3)%nat.
Proof. vm_compute. lia. Qed.
Example C46_example : (hamming [false;false;false;true;true;true;true;true;false;false;true;false;false;true;false;false;true;true] (to_bits (version_word 7) 18) <= 3)%nat.
Proof. vm_compute. lia. Qed.

Print Assumptions C12_function_patterns.
Print Assumptions C13_format_information.
Print Assumptions C14_version_information.
Print Assumptions C15_data_modules.
Print Assumptions C16_block_structure.
Print Assumptions C17_capacity_exact.
Print Assumptions C18_blocks_are_codewords.
Print Assumptions C19_damaged_symbol_recovered.
Print Assumptions C19_unique_correction.
Print Assumptions C19_percentages.
Print Assumptions C20_interleaving.
Print Assumptions C20_unequal_blocks_refuted.
Print Assumptions C21_framing.
Print Assumptions C22_minimal_penalty.
Print Assumptions C22_terminates.
Print Assumptions C23_deterministic_partial.
Print Assumptions C23_possible_results.
Print Assumptions C23_deterministic_iff.
Print Assumptions C23_deterministic_if.
Print Assumptions C23_decided_by_eight_runs.
Print Assumptions C23_example.
Print Assumptions C23_deterministic_refuted.
Print Assumptions C24_masking.
Print Assumptions C45_format_error_correction.
Print Assumptions C46_version_error_correction.
