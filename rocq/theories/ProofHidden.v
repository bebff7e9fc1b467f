(* As ProofLogo.v, for any set of hidden modules. *)
From Coq Require Import Lia.
From Verif Require Import ModelBase ModelMatrix ModelQRCode ModelCompressed ModelStandard ModelWriters ModelSave SpecIso SpecReader SpecSegment SpecRecovery SpecRS SpecAPI SpecMatrix SpecStandard SpecMedium SpecShape SpecCombine SpecLogo SpecHidden.
From Verif Require Import ProofBase ProofMatrix ProofLayout ProofMode ProofSegment ProofAPI ProofNew ProofTables ProofInit ProofRecovery ProofSearch ProofBuild ProofLogo ProofDirt ProofStandard ProofMedium ProofShape ProofCombine.
From Verif Require PropsShape PropsLogo PropsCombine.

Definition agree_off (n : Z) (hid : Z -> Z -> bool) (bm bm' : list (list bool)) : Prop :=
  forall x y, 0 <= x < n -> 0 <= y < n -> hid x y = false -> module_at bm x y = module_at bm' x y.
(* no block loses more code words than it can correct, and of the first copy of the format word no more than three modules are hidden *)
Definition harmless (v : Z) (l : level) (hid : Z -> Z -> bool) : Prop :=
  check v l (any8 (Z.to_nat (total_codewords v)) (map (fun '(x, y) => hid x y) (data_path v))) = true /\
  (length (filter (fun p => hid (fst p) (snd p)) format_positions_1) <= 3)%nat.

Lemma hidden_stream_off v k hid bm bm' : valid_version v -> agree_off (side v) hid bm bm' ->
  off (map (fun '(x, y) => hid x y) (data_path v)) (read_stream bm v k) (read_stream bm' v k).
Proof.
  intros VV AG. unfold read_stream. apply off_map. intros [x y] I F. destruct (in_data_path_range v x y VV I) as [X Y].
  rewrite (AG x y X Y); [reflexivity|exact F].
Qed.
Lemma hidden_blocks v l k hid bm bm' : valid_version v -> harmless v l hid -> agree_off (side v) hid bm bm' ->
  Forall2 (fun r o => length r = length o /\ (2 * distance r o <= Z.to_nat (ecc_per_block v l))%nat) (symbol_blocks bm v l k) (symbol_blocks bm' v l k).
Proof.
  intros VV [CK _] AG. unfold symbol_blocks, symbol_words. eapply check_blocks; [exact CK|]. apply off_bytes. apply hidden_stream_off; assumption.
Qed.
Lemma hidden_format v hid bm bm' : valid_version v -> (length (filter (fun p => hid (fst p) (snd p)) format_positions_1) <= 3)%nat -> agree_off (side v) hid bm bm' ->
  (hamming (format_bits_1 bm) (format_bits_1 bm') <= 3)%nat.
Proof.
  intros VV HF AG. assert (N : 21 <= side v) by (unfold side; unfold valid_version in VV; lia).
  unfold format_bits_1. rewrite hamming_map. eapply Nat.le_trans; [|exact HF]. apply NoDup_incl_length; [apply NoDup_filter, format_positions_nodup|].
  intros [x y] I. apply filter_In in I. destruct I as [I D]. destruct (format_positions_range _ I) as [X Y]. cbn [fst snd] in X, Y.
  apply filter_In. split; [exact I|]. cbn [fst snd]. destruct (hid x y) eqn:E; [reflexivity|]. rewrite (AG x y) in D by (auto; lia). rewrite eqb_reflx in D. exact D.
Qed.
Lemma no_format (hid : Z -> Z -> bool) : (forall x y, 0 <= x <= 8 -> 0 <= y <= 8 -> x < 8 \/ y < 8 -> hid x y = false) ->
  (length (filter (fun p => hid (fst p) (snd p)) format_positions_1) <= 3)%nat.
Proof. intros E. unfold format_positions_1. cbn [filter fst snd]. rewrite (E 0 8), (E 1 8), (E 2 8), (E 3 8), (E 4 8), (E 5 8), (E 7 8), (E 8 7), (E 8 5), (E 8 4), (E 8 3), (E 8 2), (E 8 1), (E 8 0) by lia. destruct (hid 8 8); cbn [length]; lia. Qed.

Lemma hidden_recovered sjis : shift_jis_contract sjis ->
  forall text opts sched q l v hid, NewWith sjis text opts sched = Ok q -> ~ misdetected sjis opts (text_bytes text) ->
  eff_level opts = level_code l -> q_dimension q = side v -> harmless v l hid ->
  forall bm, Z.of_nat (length bm) = q_dimension q -> Forall (fun row => Z.of_nat (length row) = q_dimension q) bm ->
  agree_off (q_dimension q) hid (m_bitmap (qMat q)) bm -> recovers_text sjis text bm.
Proof.
  intros C t opts sched q l v0 hid HN NM HL HD0 HH bm LB FR AG. destruct (newwith_made sjis C t opts sched q HN) as (md & pl & l' & v & b & w & k & c & s & HM).
  assert (EL : l' = l).
  { pose proof (md_level _ _ _ _ _ _ _ _ _ _ _ _ _ HM) as E. rewrite HL in E. destruct l, l'; cbn in E; congruence. }
  subst l'.
  destruct (choice_text _ _ _ _ _ (md_choice _ _ _ _ _ _ _ _ _ _ _ _ _ HM)) as [[HT HP]|(_ & E1 & E2 & _)].
  2:{ exfalso. apply NM. split; auto. apply mixed_iff; auto. }
  destruct (blocks_made _ _ _ _ _ _ _ _ _ _ _ _ _ HM) as (RV & HK & _).
  destruct (md_cand _ _ _ _ _ _ _ _ _ _ _ _ _ HM k HK) as [SY _]. rewrite <- (md_mat _ _ _ _ _ _ _ _ _ _ _ _ _ HM) in SY.
  assert (VV : valid_version v) by apply HM.
  assert (QD : q_dimension q = side v) by (unfold q_dimension; destruct SY as [A B D _ _ _ _ _ _]; exact B).
  assert (v0 = v) by (rewrite QD in HD0; unfold side in HD0; lia). subst v0.
  assert (VS : (q_dimension q - 17) / 4 = v) by (rewrite QD; unfold side; replace (4 * v + 17 - 17) with (v * 4) by lia; apply Z.div_mul; lia).
  assert (RB : read_version bm = Some v) by (rewrite <- VS; apply size_version; auto; rewrite VS; auto).
  rewrite QD in AG. assert (AG' : agree_off (side v) hid bm (m_bitmap (qMat q))) by (intros x y X Y Z; symmetry; apply AG; auto).
  pose proof (recovery_made sjis C _ _ _ _ _ _ _ _ _ _ _ _ HM HT HP bm RB (hidden_format v hid _ _ VV (proj2 HH) AG') (hidden_blocks v l k hid _ _ VV HH AG')) as R.
  split.
  - exists (expected sjis md (text_bytes t)). apply R. reflexivity.
  - exists md. intros seg HS. apply R in HS. subst seg. apply carries_expected; auto.
Qed.

(* drawn in a readable style and saved: whatever is drawn over the hidden modules, the text is recovered *)
Lemma hidden_saved sjis : shift_jis_contract sjis ->
  forall text opts sched q l v hid, NewWith sjis text opts sched = Ok q -> ~ misdetected sjis opts (text_bytes text) ->
  eff_level opts = level_code l -> q_dimension q = side v -> harmless v l hid ->
  forall (near : rgba -> rgba -> Prop) encode decode fails others scale o old d dark_pixel, keeps near (o_encoder o) encode decode ->
  encodable (o_encoder o) (img_w o (q_dimension q)) (img_h o (q_dimension q)) -> (forall k, fails k = None) ->
  readable_style others o d -> painter_colors o -> (o_gradient o <> None -> o_bgTransparent o = false -> o_bgColor o <> o_qrColor o) ->
  (forall px py, 0 <= px < img_w o (q_dimension q) -> 0 <= py < img_h o (q_dimension q) -> opaque (ink o px py)) ->
  tells_apart near o (img_w o (q_dimension q)) (img_h o (q_dimension q)) dark_pixel ->
  0 <= b_left o -> 0 <= b_right o -> 0 <= b_top o -> 0 <= b_bottom o ->
  (forall x y, 0 <= x < q_dimension q -> 0 <= y < q_dimension q -> hid x y = false ->
     safe_b o (q_dimension q) x y = false /\ safe_b o (q_dimension q) y x = false /\
     forall i, o_logo o = Some i -> logo_fits o (img_w o (q_dimension q)) (img_h o (q_dimension q)) i ->
       ~ logo_covers (img_w o (q_dimension q)) (img_h o (q_dimension q)) i (sample_x o d x) (sample_y o d y)) ->
  exists s' o' cv,
    Save (Some (qMat q)) (standard_writer encode fails others scale) (standard_new old, o) = ((s', o'), [EvWrite (qMat q); EvClose], Returned None) /\
    s_open s' = false /\ decode (o_content (s_file s')) = Some (img_w o (q_dimension q), img_h o (q_dimension q), cv) /\
    recovers_text sjis text (sampled (q_dimension q) (fun x y => dark_pixel (cv (sample_x o d x) (sample_y o d y)))).
Proof.
  intros C text opts sched q l v hid HN NM HL HD0 HH near encode decode fails others scale o old d dk DEC ENC NF ST PC DIFF OP [TD TL] B1 B2 B3 B4 HID.
  destruct (made_square sjis C text opts sched q HN) as [SQ N21]. pose proof ST as (_ & HD & _).
  destruct (style_samples_any others scale (q_dimension q) (qMat q) o d SQ ltac:(lia) ST PC DIFF OP B1 B2 B3 B4) as (cv & o' & ED & HP).
  destruct (PropsLogo.saved_near near _ _ SQ N21 encode decode fails others scale o old cv o' DEC ENC NF B1 B2 B3 B4 ED) as (s' & cv' & A1 & A2 & A3 & A4).
  exists s', o', cv'. split; [exact A1|]. split; [exact A2|]. split; [exact A3|].
  destruct (PropsLogo.sampled_size (q_dimension q) (fun x y => dk (cv' (sample_x o d x) (sample_y o d y))) ltac:(lia)) as [S1 S2].
  apply (hidden_recovered sjis C text opts sched q l v hid HN NM HL HD0 HH); [exact S1|exact S2|]. intros x y X Y NH.
  rewrite PropsLogo.sampled_module by assumption. destruct (PropsShape.sample_range o _ d x y B1 B2 B3 B4 HD X Y) as [RX RY].
  destruct (HID x y X Y NH) as (S3 & S4 & NL). specialize (HP x y X Y S3 S4 NL). specialize (A4 _ _ RX RY). symmetry.
  destruct (module_at (m_bitmap (qMat q)) x y); [rewrite HP in A4; eapply TD; eauto|eapply TL; eauto].
Qed.

(* correctable and harmless *)
Lemma hit_app o1 o2 fl : hit (o1 ++ o2) fl = hit o1 (firstn (length o1) fl) ++ hit o2 (skipn (length o1) fl).
Proof.
  unfold hit. revert fl. induction o1 as [|p o1 IH]; intros fl; [reflexivity|]. destruct fl as [|f fl]; [destruct o2; reflexivity|].
  cbn [app combine length firstn skipn filter snd]. destruct f; cbn [map app]; rewrite IH; reflexivity.
Qed.
Lemma filter_seq (f : nat -> bool) n k : length (filter f (seq (S k) n)) = length (filter (fun i => f (S i)) (seq k n)).
Proof. revert k. induction n as [|n IH]; intros k; [reflexivity|]. cbn [seq filter]. destruct (f (S k)); cbn [length]; rewrite IH; reflexivity. Qed.
Lemma filter_first (f : nat -> bool) n : length (filter f (seq 0 (S n))) = ((if f O then 1 else 0) + length (filter (fun i => f (S i)) (seq 0 n)))%nat.
Proof. rewrite <- filter_seq. cbn [seq filter]. destruct (f O); reflexivity. Qed.
Lemma hits_count b order : forall fl, (hits b (hit order fl) <=
  length (filter (fun i => nth i fl false && (nth i (map fst order) (-1)%Z =? b)%Z) (seq 0 (length fl))))%nat.
Proof.
  unfold hits, hit. induction order as [|p order IH]; intros fl; [cbn; lia|]. destruct fl as [|f fl]; [cbn; lia|]. specialize (IH fl).
  change (length (f :: fl)) with (S (length fl)). rewrite filter_first. cbn [combine filter snd nth map].
  destruct f; cbn [andb map filter fst]; [destruct (fst p =? b); cbn [length]|]; lia.
Qed.
Lemma any8_length n fl : length (any8 n fl) = n.
Proof. revert fl. induction n as [|n IH]; intros fl; [reflexivity|]. cbn [any8 length]. rewrite IH. reflexivity. Qed.
Lemma any8_nth n : forall fl i, (i < n)%nat -> nth i (any8 n fl) false = existsb (fun b => b) (firstn 8 (skipn (8 * i) fl)).
Proof.
  induction n as [|n IH]; intros fl i LT; [lia|]. change (any8 (S n) fl) with (existsb (fun b => b) (firstn 8 fl) :: any8 n (skipn 8 fl)).
  destruct i as [|i]; [reflexivity|]. cbn [nth]. rewrite IH by lia. replace (8 * S i)%nat with (8 + 8 * i)%nat by lia.
  f_equal. f_equal. generalize (8 * i)%nat. intros k. clear. do 8 (destruct fl as [|? fl]; [rewrite ?skipn_nil; reflexivity|]). reflexivity.
Qed.
Lemma lens_pos v l : valid_version v -> Forall (fun n => 0 <= n) (block_data_lengths v l).
Proof.
  intros VV. destruct (row_of v l VV) as (r & _ & RF). destruct (rf_lens _ _ _ RF) as (s & S1 & S2). apply Forall_forall. intros d I. destruct (S2 d I); lia.
Qed.
Lemma order_length v l : valid_version v -> length (interleave_order (block_data_lengths v l)) = Z.to_nat (fold_right Z.add 0 (block_data_lengths v l)).
Proof. intros VV. pose proof (interleave_order_length _ (lens_pos v l VV)) as E. unfold zlen in E. change zsum with (fold_right Z.add 0) in E. rewrite <- E. lia. Qed.
Lemma existsb_map_eq {A B} (f : A -> B) (g : B -> bool) l : existsb g (map f l) = existsb (fun x => g (f x)) l.
Proof. induction l as [|x l IH]; [reflexivity|]. cbn [map existsb]. rewrite IH. reflexivity. Qed.
Lemma correctable_check v l hid : valid_version v -> (forall b, 0 <= b < num_blocks v l -> 2 * Z.of_nat (length (lost_words v l hid b)) <= ecc_per_block v l) ->
  check v l (any8 (Z.to_nat (total_codewords v)) (map (fun '(x, y) => hid x y) (data_path v))) = true.
Proof.
  intros VV HL. unfold check. cbv zeta. apply forallb_forall. intros b I. apply in_upto in I. specialize (HL b I). apply Z.leb_le.
  rewrite <- order_length, <- hit_app by exact VV.
  eapply Z.le_trans; [|exact HL]. apply Z.mul_le_mono_nonneg_l; [lia|]. apply inj_le. eapply Nat.le_trans; [apply hits_count|].
  unfold lost_words. rewrite any8_length. apply Nat.eq_le_incl. f_equal. apply filter_ext_in. intros i J. apply in_seq in J. f_equal.
  rewrite any8_nth by lia. unfold word_modules. rewrite skipn_map, firstn_map, existsb_map_eq.
  induction (firstn 8 _) as [|[a c] q IH]; [reflexivity|]. cbn [existsb fst snd]. rewrite IH. reflexivity.
Qed.
Lemma correctable_harmless v l hid : valid_version v -> correctable v l hid -> harmless v l hid.
Proof. intros VV [A B]. split; [apply correctable_check; assumption|exact B]. Qed.

(* the modules under a logo in the middle *)
Definition mid_hid (n z m x y : Z) : bool := mid_b n z m x && mid_b n z m y.
Lemma mid_harmless v l z m : valid_version v -> 0 <= z <= 2 -> small_enough l v z m -> harmless v l (mid_hid (side v) z m).
Proof.
  intros VV Z2 SE. split; [apply (check_mid v l z m); assumption|]. apply no_format. intros x y X Y D. unfold mid_hid. apply not_true_iff_false. intros F.
  apply andb_true_iff in F. destruct F as [F1 F2].
  assert (M : 5 <= m \/ 4 <= m /\ 3 <= v \/ 3 <= m /\ 4 <= v) by (destruct l; cbn in SE; lia). unfold valid_version in VV.
  unfold mid_b in F1, F2. rewrite andb_true_iff, !Z.ltb_lt in F1, F2. destruct F1 as [F1 _], F2 as [F2 _]. unfold side in *. nia.
Qed.
Lemma touched_mid m n z bw b lw x p : 1 <= m -> 1 <= bw -> 0 <= n -> 0 <= b <= z * bw -> 0 < lw -> m * lw <= n * bw + b + b ->
  b + x * bw <= p < b + x * bw + bw -> Z.quot (n * bw + b + b - lw) 2 <= p < Z.quot (n * bw + b + b - lw) 2 + lw -> mid_b n z m x = true.
Proof.
  intros M HB HN Hb HL HF HX HP. assert (0 <= n * bw) by nia. assert (LW : lw <= n * bw + b + b) by nia. rewrite Z.quot_div_nonneg in HP by lia.
  set (w := n * bw + b + b - lw) in *. pose proof (Z.div_mod w 2 ltac:(lia)). pose proof (Z.mod_pos_bound w 2 ltac:(lia)).
  assert (A1 : n * bw + b + b - lw + 1 <= 2 * (b + x * bw + bw)) by lia. assert (A2 : 2 * (b + x * bw) <= n * bw + b + b + lw - 2) by lia.
  apply (Z.mul_le_mono_nonneg_l _ _ m) in A1, A2; [|lia..].
  assert (G1 : (m - 1) * (n * bw) - 2 * b < 2 * m * (x * bw + bw)) by nia. assert (G2 : 2 * m * (x * bw) < (m + 1) * (n * bw) + 2 * b) by nia.
  unfold mid_b. apply andb_true_iff. rewrite !Z.ltb_lt. split; nia.
Qed.
Lemma hides_mid o z n d x y : even_borders o z -> 1 <= o_multiplier o -> (forall i, o_logo o = Some i -> i_x0 i = 0 /\ i_y0 i = 0 /\ 0 < i_x1 i /\ 0 < i_y1 i) ->
  0 <= n -> 0 <= d < qrBlockWidth o -> logo_hides o n d x y -> mid_hid n z (o_multiplier o) x y = true.
Proof.
  intros (LR & TB & BL & BT) M LG HN HD.
  assert (G : forall i px py x y, o_logo o = Some i -> logo_fits o (img_w o n) (img_h o n) i -> in_module o x y px py -> in_logo (img_w o n) (img_h o n) i px py ->
    mid_b n z (o_multiplier o) x = true /\ mid_b n z (o_multiplier o) y = true).
  { clear x y. intros i px py x y EL [F1 F2] IM [I1 I2]. destruct (LG i EL) as (X0 & Y0 & X1 & Y1). pose proof (block_width_range o) as HB.
    unfold img_w, img_h, logo_left, logo_top, in_module in *. rewrite <- LR, <- TB in *. rewrite X0, Y0, !Z.sub_0_r in *.
    split; [eapply (touched_mid _ n z (qrBlockWidth o) (b_left o) (i_x1 i) x px)|eapply (touched_mid _ n z (qrBlockWidth o) (b_top o) (i_y1 i) y py)]; try lia; nia. }
  unfold logo_hides, mid_hid. cbv zeta. rewrite andb_true_iff. intros [(i & EL & LF & IL)|[S|S]].
  - eapply G; eauto; [apply PropsLogo.sample_in_module, HD|]. destruct (LG i EL) as (X0 & Y0 & _). apply covers_middle in IL; auto.
  - destruct S as (_ & i & EL & LF & px & py & IM & IL). eapply G; eauto.
  - destruct S as (_ & i & EL & LF & px & py & IM & IL). apply and_comm. eapply G; eauto.
Qed.
Lemma made_version sjis : shift_jis_contract sjis -> forall text opts sched q v, NewWith sjis text opts sched = Ok q -> q_dimension q = side v -> valid_version v.
Proof.
  intros C text opts sched q v HN HD. destruct (newwith_made sjis C text opts sched q HN) as (md & pl & l' & v' & b & w & k & c & s & HM).
  destruct (blocks_made _ _ _ _ _ _ _ _ _ _ _ _ _ HM) as (_ & HK & _).
  destruct (md_cand _ _ _ _ _ _ _ _ _ _ _ _ _ HM k HK) as [SY _]. rewrite <- (md_mat _ _ _ _ _ _ _ _ _ _ _ _ _ HM) in SY.
  assert (VV : valid_version v') by apply HM.
  assert (QD : q_dimension q = side v') by (unfold q_dimension; destruct SY as [A B D _ _ _ _ _ _]; exact B).
  assert (v = v') by (rewrite QD in HD; unfold side in HD; lia). subst v. exact VV.
Qed.
(* what is not hidden by the logo *)
Lemma visible_outside o n d (hid : Z -> Z -> bool) : proper_logo o ->
  (forall x y, 0 <= x < n -> 0 <= y < n -> logo_hides o n d x y -> hid x y = true) ->
  forall x y, 0 <= x < n -> 0 <= y < n -> hid x y = false ->
     safe_b o n x y = false /\ safe_b o n y x = false /\
     forall i, o_logo o = Some i -> logo_fits o (img_w o n) (img_h o n) i -> ~ logo_covers (img_w o n) (img_h o n) i (sample_x o d x) (sample_y o d y).
Proof.
  intros PL HID x y X Y F.
  assert (NH : ~ logo_hides o n d x y) by (intros A; rewrite (HID x y X Y A) in F; discriminate F).
  split; [|split]; [apply not_true_iff_false; intros S; apply NH; right..|].
  - left. apply (safe_zone_spec o n x y PL), S.
  - right. apply (safe_zone_spec o n y x PL), S.
  - intros i EL LF IL. apply NH. left. exists i. auto.
Qed.
