From Coq Require Import Lia.
From Verif Require Import ModelBase ModelMatrix ModelQRCode SpecIso SpecReader SpecSegment SpecRecovery SpecRS SpecAPI SpecMedium SpecLogo SpecDirt.
From Verif Require Import ProofBase ProofMatrix ProofLayout ProofMode ProofSegment ProofAPI ProofNew ProofRecovery ProofSearch ProofBuild ProofLogo.

Definition trues (l : list bool) : nat := length (filter (fun b => b) l).
Lemma trues_split n l : (trues (firstn n l) + trues (skipn n l) = trues l)%nat.
Proof. unfold trues. rewrite <- app_length, <- filter_app, firstn_skipn. reflexivity. Qed.
Lemma trues_any l : existsb (fun b => b) l = true -> (1 <= trues l)%nat.
Proof. unfold trues. induction l as [|[] l IH]; cbn [existsb filter length orb]; intros E; [discriminate E|lia|auto]. Qed.
Lemma trues_any8 n : forall l, (trues (any8 n l) <= trues l)%nat.
Proof.
  induction n as [|n IH]; intros l; [cbn; lia|]. rewrite <- (trues_split 8 l). pose proof (IH (skipn 8 l)) as I. pose proof (trues_any (firstn 8 l)) as A.
  change (any8 (S n) l) with (existsb (fun b => b) (firstn 8 l) :: any8 n (skipn 8 l)).
  unfold trues at 1. cbn [filter]. destruct (existsb _ _); cbn [length]; fold (trues (any8 n (skipn 8 l))); [specialize (A eq_refl)|]; lia.
Qed.
Lemma hits_trues b order : forall fl, (hits b (hit order fl) <= trues fl)%nat.
Proof.
  unfold hits, hit, trues. induction order as [|p order IH]; intros fl; [cbn; lia|]. destruct fl as [|f fl]; [cbn; lia|]. specialize (IH fl).
  cbn [combine filter snd]. destruct f; [|exact IH]. cbn [map filter fst]. destruct (_ =? b); cbn [length]; lia.
Qed.
Lemma check_few v l fl : 2 * Z.of_nat (trues fl) <= ecc_per_block v l -> check v l fl = true.
Proof.
  intros E. unfold check. apply forallb_forall. intros b _. apply Z.leb_le. rewrite hits_app.
  set (nd := Z.to_nat _). pose proof (trues_split nd fl).
  pose proof (hits_trues b (interleave_order (block_data_lengths v l)) (firstn nd fl)).
  pose proof (hits_trues b (interleave_order (map (fun _ => ecc_per_block v l) (block_data_lengths v l))) (skipn nd fl)). lia.
Qed.
Lemma trues_map {A} (f : A -> bool) l : trues (map f l) = length (filter f l).
Proof. unfold trues. induction l as [|x l IH]; [reflexivity|]. cbn [map filter]. destruct (f x); cbn [length]; congruence. Qed.

Definition differ (a b : bitmap) (p : Z * Z) : bool := negb (Bool.eqb (module_at a (fst p) (snd p)) (module_at b (fst p) (snd p))).
Lemma in_misread n area a b x y : In (x, y) (misread n area a b) <-> 0 <= x < n /\ 0 <= y < n /\ area x y = true /\ module_at a x y <> module_at b x y.
Proof.
  unfold misread. rewrite filter_In, in_prod_iff, !in_upto, andb_true_iff, negb_true_iff, eqb_false_iff. tauto.
Qed.
Lemma misread_sym n area a b : misread n area a b = misread n area b a.
Proof. unfold misread. apply filter_ext. intros [x y]. f_equal. f_equal. destruct (module_at a x y), (module_at b x y); reflexivity. Qed.
Lemma nodup_misread n area a b : NoDup (misread n area a b).
Proof. apply NoDup_filter. apply NoDup_list_prod; apply NoDup_upto. Qed.

Lemma data_count v a b : valid_version v -> (length (filter (differ a b) (data_path v)) <= length (misread (side v) (in_data v) a b))%nat.
Proof.
  intros VV. apply NoDup_incl_length; [apply NoDup_filter, NoDup_data_path, VV|]. intros [x y] I. apply filter_In in I. destruct I as [I D].
  destruct (in_data_path_range v x y VV I) as [X Y]. apply in_misread. repeat (split; [assumption|]).
  split; [unfold in_data; rewrite (in_data_path_region _ _ _ I); reflexivity|]. unfold differ in D. cbn [fst snd] in D. apply negb_true_iff, eqb_false_iff in D. exact D.
Qed.
Lemma hamming_map {A} (f g : A -> bool) l : hamming (map f l) (map g l) = length (filter (fun p => negb (Bool.eqb (f p) (g p))) l).
Proof. induction l as [|x l IH]; [reflexivity|]. cbn [map hamming filter]. destruct (Bool.eqb _ _); cbn [negb length]; congruence. Qed.
Lemma format_positions_nodup : NoDup format_positions_1.
Proof. unfold format_positions_1. repeat constructor; cbn [In]; intros D; repeat (destruct D as [D|D]; [discriminate D|]); exact D. Qed.
Lemma format_positions_range p : In p format_positions_1 -> 0 <= fst p <= 8 /\ 0 <= snd p <= 8.
Proof. unfold format_positions_1. cbn [In]. intros D. repeat (destruct D as [<-|D]; [cbn; lia|]). destruct D. Qed.
Lemma format_count n a b : 9 <= n -> (hamming (format_bits_1 a) (format_bits_1 b) <= length (misread n in_format a b))%nat.
Proof.
  intros N. unfold format_bits_1. rewrite hamming_map. apply NoDup_incl_length; [apply NoDup_filter, format_positions_nodup|].
  intros [x y] I. apply filter_In in I. destruct I as [I D]. destruct (format_positions_range _ I) as [X Y]. cbn [fst snd] in X, Y.
  apply in_misread. split; [lia|]. split; [lia|]. split; [|apply negb_true_iff, eqb_false_iff in D; exact D].
  apply existsb_exists. exists (x, y). split; [exact I|]. rewrite !Z.eqb_refl. reflexivity.
Qed.
Lemma stream_differs v k a b : off (map (differ a b) (data_path v)) (read_stream a v k) (read_stream b v k).
Proof.
  unfold read_stream. apply off_map. intros [x y] _ D. unfold differ in D. cbn [fst snd] in D. apply negb_false_iff, eqb_prop in D. rewrite D. reflexivity.
Qed.
Lemma dirt_blocks v l k a b : valid_version v -> 2 * misread_count (side v) (in_data v) a b <= ecc_per_block v l ->
  Forall2 (fun r o => length r = length o /\ (2 * distance r o <= Z.to_nat (ecc_per_block v l))%nat) (symbol_blocks a v l k) (symbol_blocks b v l k).
Proof.
  intros VV LE. unfold symbol_blocks, symbol_words. eapply check_blocks; [|apply off_bytes, stream_differs]. apply check_few.
  pose proof (trues_any8 (Z.to_nat (total_codewords v)) (map (differ a b) (data_path v))) as T. rewrite trues_map in T.
  pose proof (data_count v a b VV). unfold misread_count in LE. lia.
Qed.

Lemma dirt_recovered sjis : shift_jis_contract sjis ->
  forall text opts sched q l, NewWith sjis text opts sched = Ok q -> ~ misdetected sjis opts (text_bytes text) ->
  eff_level opts = level_code l ->
  forall bm, let n := q_dimension q in let v := (n - 17) / 4 in
  Z.of_nat (length bm) = n -> Forall (fun row => Z.of_nat (length row) = n) bm ->
  2 * misread_count n (in_data v) (m_bitmap (qMat q)) bm <= ecc_per_block v l ->
  misread_count n in_format (m_bitmap (qMat q)) bm <= 3 -> recovers_text sjis text bm.
Proof.
  intros C t opts sched q l HN NM HL bm n0 v0 LB FR MD MF. destruct (newwith_made sjis C t opts sched q HN) as (md & pl & l' & v & b & w & k & c & s & HM).
  assert (EL : l' = l).
  { pose proof (md_level _ _ _ _ _ _ _ _ _ _ _ _ _ HM) as E. rewrite HL in E. destruct l, l'; cbn in E; congruence. }
  subst l'.
  destruct (choice_text _ _ _ _ _ (md_choice _ _ _ _ _ _ _ _ _ _ _ _ _ HM)) as [[HT HP]|(_ & E1 & E2 & _)].
  2:{ exfalso. apply NM. split; auto. apply mixed_iff; auto. }
  destruct (blocks_made _ _ _ _ _ _ _ _ _ _ _ _ _ HM) as (RV & HK & _).
  destruct (md_cand _ _ _ _ _ _ _ _ _ _ _ _ _ HM k HK) as [SY _]. rewrite <- (md_mat _ _ _ _ _ _ _ _ _ _ _ _ _ HM) in SY.
  assert (VV : valid_version v) by apply HM.
  assert (QD : q_dimension q = side v) by (unfold q_dimension; destruct SY as [A B D _ _ _ _ _ _]; exact B).
  assert (VS : (q_dimension q - 17) / 4 = v) by (rewrite QD; unfold side; replace (4 * v + 17 - 17) with (v * 4) by lia; apply Z.div_mul; lia).
  assert (RB : read_version bm = Some v) by (rewrite <- VS; apply size_version; auto; rewrite VS; auto).
  subst v0 n0. rewrite VS in MD. rewrite QD in MD, MF. unfold misread_count in MF. rewrite misread_sym in MF. unfold misread_count in MD. rewrite misread_sym in MD.
  assert (N : 9 <= side v) by (unfold side; unfold valid_version in VV; lia).
  pose proof (format_count (side v) bm (m_bitmap (qMat q)) N) as F3.
  pose proof (recovery_made sjis C _ _ _ _ _ _ _ _ _ _ _ _ HM HT HP bm RB ltac:(lia) (dirt_blocks v l k _ _ VV MD)) as R.
  split.
  - exists (expected sjis md (text_bytes t)). apply R. reflexivity.
  - exists md. intros seg HS. apply R in HS. subst seg. apply carries_expected; auto.
Qed.
