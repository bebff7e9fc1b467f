(* C68: debug mode (SetDebugMode, QRCODE_DEBUG) changes no result, and leaves pictures of all eight candidates. *)
From Coq Require Import Lia.
From Coq Require Import String.
From Coq Require Strings.Byte.
From Verif Require Import ModelBase ModelBinary ModelUtf8 ModelVersion ModelMatrix ModelChardet ModelEncoder ModelRS ModelLayout ModelMask ModelEval ModelQRCode.
From Verif Require Import ModelCompressed ModelStandard ModelWriters ModelCli ModelFs ModelDebug.
From Verif Require Import SpecIso SpecReader SpecSegment SpecAPI SpecMatrix SpecMedium SpecDebug Samples.
From Verif Require Import ProofBase ProofMatrix ProofWalk ProofSweep ProofLayout ProofSymbol ProofBits ProofTables ProofStream
  ProofEncode ProofMode ProofKanji ProofSegment ProofInit ProofEval ProofMasking ProofVersion ProofBuild ProofAPI ProofNew ProofCompressed ProofMedium ProofCli ProofDebug ProofDebug2.
From Verif Require PropsNew PropsSymbol PropsSaved.

(* whatever debug mode, files and schedule: the result is one that New gives without debug mode *)
Theorem C68_same_result :
  forall resolve may_create jpeg fails env sjis text opts sw fs sched fs' r,
  NewWith_debug resolve may_create jpeg fails env sjis text opts sw fs sched = (fs', r) -> exists sched', r = NewWith sjis text opts sched'.
Proof.
  intros resolve mc jpeg fails env sjis text opts sw fs sched fs' r. unfold NewWith_debug, NewWith.
  destruct (toBytes text) as [raw| | |]; cbn [bind]; try (intros [= <- <-]; exists []; reflexivity). unfold build.
  destruct (init sjis (apply_options opts) raw) as [st| | |]; cbn [bind]; try (intros [= <- <-]; exists []; reflexivity).
  unfold masking_debug, masking. destruct (mask_start (iV st) (iData st) (iMat st)) as [[masks s]| | |]; cbn [bind]; try (intros [= <- <-]; exists []; reflexivity).
  destruct (sim resolve mc jpeg fails env (iV st) masks sched (mkD s (repeat 0%nat 8) (fst (debugEnabled env sw)) fs)) as [sched' E]. cbn [d_core] in E.
  intros X. exists sched'. apply (f_equal snd) in X. cbv zeta in X. cbn [snd bind] in X |- *. rewrite E in X. symmetry. exact X.
Qed.

(* the drafts are files of the directory draft, named after what they show and the number of the mask *)
Definition named (s : string) : path := map (fun b => Z.of_N (Strings.Byte.to_N b)) (list_byte_of_string s).
Theorem C68_draft_names :
  forall i, (i < 8)%nat -> forall digit, digit = [Z.of_nat i + 48] ->
  draft 0 i = named "draft/mats_"%string ++ digit ++ named ".jpeg"%string /\
  draft 1 i = named "draft/mask_"%string ++ digit ++ named ".jpeg"%string /\
  draft 2 i = named "draft/mats_mask_"%string ++ digit ++ named ".jpeg"%string /\
  draft 3 i = named "draft/qrcode_mask_"%string ++ digit ++ named ".jpeg"%string.
Proof. intros i HI digit ->. rewrite (Z.add_comm _ 48). repeat apply conj; reflexivity. Qed.
(* no file but the 32 drafts is touched; with debug mode off, none *)
Theorem C68_only_drafts_touched :
  forall resolve may_create jpeg fails env sjis text opts sw fs sched fs' r,
  NewWith_debug resolve may_create jpeg fails env sjis text opts sw fs sched = (fs', r) ->
  (forall id, (forall a, In a draft_names -> resolve a <> id) -> fs' id = fs id) /\
  (snd (debugEnabled env sw) = false -> ~ In SwitchOn sched -> fs' = fs).
Proof.
  intros resolve mc jpeg fails env sjis text opts sw fs sched fs' r. unfold NewWith_debug.
  destruct (let* raw := toBytes text in init sjis (apply_options opts) raw) as [st| | |]; try (intros [= <- <-]; split; intros; reflexivity).
  unfold masking_debug. destruct (mask_start (iV st) (iData st) (iMat st)) as [[masks s]| | |]; try (intros [= <- <-]; split; intros; reflexivity).
  intros [= <- <-]. split.
  - intros id N. apply (only_drafts resolve mc jpeg fails env (iV st) masks sched (mkD s (repeat 0%nat 8) (fst (debugEnabled env sw)) fs) eq_refl id N).
  - intros OFF NS. apply (off_quiet resolve mc jpeg fails env (iV st) masks sched NS (mkD s (repeat 0%nat 8) (fst (debugEnabled env sw)) fs)); unfold debugEnabled in *; cbn [fst snd d_sw sw_debug sw_once] in *; [exact OFF|].
    destruct (sw_once sw) eqn:E; [exact E|reflexivity].
Qed.

Section Facts.
Context (sjis : Z -> option (list Z)) (C : shift_jis_contract sjis).

Lemma init_facts t opts sched q : NewWith sjis t opts sched = Ok q ->
  exists raw st, toBytes t = Ok raw /\ init sjis (apply_options opts) raw = Ok st /\ iV st = qV q /\ iMode st = qMode q /\ iData st = qData q /\
    prefillMatrix (Ver (iV st)) (newMatrix (side (Ver (iV st))) (side (Ver (iV st)))) = Some (iMat st).
Proof.
  unfold NewWith. destruct (toBytes t) as [raw| | |]; cbn [bind]; try (intros X; discriminate X). unfold build.
  destruct (init sjis (apply_options opts) raw) as [st| | |] eqn:EI; cbn [bind]; try (intros X; discriminate X).
  destruct (masking (iV st) (iData st) (iMat st) sched) as [mm| | |]; cbn [bind]; try (intros X; discriminate X). intros [= <-].
  exists raw, st. cbn [qV qMode qData]. split; [reflexivity|]. split; [exact EI|]. split; [reflexivity|]. split; [reflexivity|]. split; [reflexivity|].
  rewrite init_unfold in EI. destruct (chooseMode sjis (apply_options opts) raw) as [mode| | |]; cbn [bind] in EI; try discriminate EI.
  destruct (calcVersion (apply_options opts) mode raw) as [v| | |]; cbn [bind] in EI; try discriminate EI. unfold finish_init in EI. cbv zeta in EI.
  destruct (negb (newEncoder_ok mode)); try discriminate EI.
  destruct (encode sjis mode v raw) as [b| | |]; cbn [bind] in EI; try discriminate EI.
  destruct (cut_blocks v b) as [db| | |]; cbn [bind] in EI; try discriminate EI.
  destruct (errorCorrectionEncoding db) as [eb| | |]; cbn [bind] in EI; try discriminate EI.
  destruct (arrange (map dbData db)) as [x| | |]; cbn [bind] in EI; try discriminate EI.
  destruct (arrange eb) as [y| | |]; cbn [bind] in EI; try discriminate EI.
  rewrite v_dimension_side in EI. destruct (prefillMatrix (Ver v) _) as [mat|] eqn:EP; try discriminate EI. injection EI as <-. cbn [iV iMat]. exact EP.
Qed.

(* the search, in the words of NewWith_debug *)
Lemma debug_facts resolve mc jpeg fails env t opts sched0 q0 : told_apart resolve -> NewWith sjis t opts sched0 = Ok q0 ->
  exists v l stream (cand before mask after : nat -> Matrix),
    valid_version v /\ eff_level opts = level_code l /\ 
    (~ misdetected sjis opts (text_bytes t) -> forall i, (i < 8)%nat -> reads_back sjis t (m_bitmap (cand i))) /\
    (forall i, (i < 8)%nat -> symbol v l (Z.of_nat i) stream (cand i)) /\
    (forall i, (i < 8)%nat -> square (side v) (before i) /\ square (side v) (mask i) /\ square (side v) (after i) /\
       forall x y, 0 <= x < side v -> 0 <= y < side v -> qrbool (rawget (after i) x y) = xorb (qrbool (rawget (before i) x y)) (qrbool (rawget (mask i) x y))) /\
    forall sw fs sched fs' res, NewWith_debug resolve mc jpeg fails env sjis t opts sw fs sched = (fs', res) ->
      (over (fst (drun sched)) = true -> exists i, (i < 8)%nat /\ res = Ok (mkQR (qV q0) (qMode q0) (qData q0) (cand i))) /\
      (over (fst (drun sched)) = false -> res = Pending) /\
      (snd (debugEnabled env sw) = true -> over (fst (drun sched)) = true -> forall i j, (i < 8)%nat -> (j < 4)%nat -> mc (draft j i) = true ->
         fs' (resolve (draft j i)) = Some (written jpeg fails (draft j i) (match j with 0%nat => before i | 1%nat => mask i | 2%nat => after i | _ => cand i end))).
Proof.
  intros HT HN. destruct (init_facts t opts sched0 q0 HN) as (raw & st & TB & EI & EV & EMo & ED & PF).
  destruct (newwith_made sjis C t opts sched0 q0 HN) as (md & pl & l & v & b & w & k & c & s & HM).
  pose proof (md_row _ _ _ _ _ _ _ _ _ _ _ _ _ HM) as HR. pose proof (md_data _ _ _ _ _ _ _ _ _ _ _ _ _ HM) as HD. pose proof (md_valid _ _ _ _ _ _ _ _ _ _ _ _ _ HM) as HV.
  pose proof (md_stream _ _ _ _ _ _ _ _ _ _ _ _ _ HM) as SF.
  rewrite EV in PF. rewrite (rf_ver _ _ _ HR) in PF.
  destruct (masking_debug_ok resolve mc jpeg fails env (qV q0) v l (iMat st) (final_stream v w) HT HR HV PF (final_stream_length v w HV (sf_total _ _ _ _ _ SF)))
    as (cand & before & mask & after & HS & HB & HO).
  exists v, l, (final_stream v w), cand, before, mask, after. split; [exact HV|]. split; [apply HM|]. split; [|split; [exact HS|split; [exact HB|]]].
  - intros NM i Hi. destruct (choice_text _ _ _ _ _ (md_choice _ _ _ _ _ _ _ _ _ _ _ _ _ HM)) as [[HTx HP]|(_ & E1 & E2 & _)].
    2:{ exfalso. apply NM. split; auto. apply mixed_iff; auto. }
    exists md, (expected sjis md (text_bytes t)). split; [|apply carries_expected; auto].
    rewrite (read_symbol_ok v l (Z.of_nat i) (data_bits v l md (text_length md (text_bytes t)) pl) b w (cand i)); auto; [|lia].
    rewrite HP. apply (read_data_bits sjis C v l (qV q0)); auto; [apply text_bytes_bytes|].
    pose proof (md_fits _ _ _ _ _ _ _ _ _ _ _ _ _ HM) as HF. rewrite HP, payload_of_length in HF by auto. unfold fits, needed_bits. lia.
  - intros sw fs sched fs' res. unfold NewWith_debug. rewrite TB. cbn [bind]. rewrite EI, EV, EMo, ED, HD.
    destruct (masking_debug _ _ _ _ _ _ _ _ _ _ _) as [fs1 r1] eqn:EM. intros [= <- <-]. destruct (HO sw fs sched fs1 r1 EM) as (A & B & D).
    split; [|split; [|exact D]].
    + intros OV. destruct (A OV) as (i & Hi & ->). exists i. split; [exact Hi|]. reflexivity.
    + intros OV. rewrite (B OV). reflexivity.
Qed.
End Facts.

(* no deadlock: if New makes a symbol, then in debug mode it also does, under every schedule with enough turns for all *)
Theorem C68_returns :
  forall sjis, shift_jis_contract sjis ->
  forall resolve may_create jpeg fails env text opts sw fs sched, told_apart resolve -> dfair sched -> (exists sched0 q0, NewWith sjis text opts sched0 = Ok q0) ->
  exists fs' q, NewWith_debug resolve may_create jpeg fails env sjis text opts sw fs sched = (fs', Ok q).
Proof.
  intros sjis C resolve mc jpeg fails env text opts sw fs sched HT HF (sched0 & q0 & HN).
  destruct (debug_facts sjis C resolve mc jpeg fails env text opts sched0 q0 HT HN) as (v & l & stream & cand & before & mask & after & _ & _ & _ & _ & _ & HO).
  destruct (NewWith_debug resolve mc jpeg fails env sjis text opts sw fs sched) as [fs' res] eqn:E. destruct (HO _ _ _ _ _ E) as (A & _ & _).
  destruct (A (dfair_over _ HF)) as (i & _ & ->). eauto.
Qed.

(* debug mode on: when New returns, draft/qrcode_mask_<i>.jpeg shows candidate i, complete and readable, and one of them is the result *)
Theorem C68_candidates_drawn :
  forall sjis, shift_jis_contract sjis ->
  forall resolve may_create jpeg decode fails env text opts sw fs sched fs' q t d,
  told_apart resolve -> (forall a, In a draft_names -> may_create a = true) -> (forall a k, fails a k = None) -> grey_keeps t jpeg decode -> t <= 32767 -> 0 <= d < 10 ->
  snd (debugEnabled env sw) = true -> ~ misdetected sjis opts (text_bytes text) ->
  NewWith_debug resolve may_create jpeg fails env sjis text opts sw fs sched = (fs', Ok q) ->
  let n := q_dimension q in
  (forall i, (i < 8)%nat -> exists content p l, fs' (resolve (draft 3 i)) = Some content /\ decode content = Some (10 * n + 20, 10 * n + 20, p) /\
     reads_back sjis text (scan_grey d n p) /\ read_format (scan_grey d n p) = Some (l, Z.of_nat i) /\ eff_level opts = level_code l) /\
  (exists i content p, (i < 8)%nat /\ fs' (resolve (draft 3 i)) = Some content /\ decode content = Some (10 * n + 20, 10 * n + 20, p) /\ scan_grey d n p = m_bitmap (qMat q)).
Proof.
  intros sjis C resolve mc jpeg decode fails env text opts sw fs sched fs' q t d HT MC NF GK T D ON NM E n.
  destruct (C68_same_result _ _ _ _ _ _ _ _ _ _ _ _ _ E) as (sched' & EN). symmetry in EN.
  destruct (debug_facts sjis C resolve mc jpeg fails env text opts sched' q HT EN) as (v & l & stream & cand & before & mask & after & HV & EL & RB & HS & _ & HO).
  destruct (HO _ _ _ _ _ E) as (A & B & F). destruct (over (fst (drun sched))) eqn:OV; [|specialize (B eq_refl); discriminate B].
  destruct (A eq_refl) as (i0 & I0 & EQ). injection EQ as EQ. specialize (F ON eq_refl).
  assert (SQ : forall i, (i < 8)%nat -> square (side v) (cand i)) by (intros i Hi; destruct (HS i Hi) as [S1 S2 S3 _ _ _ _ _ _]; split; auto).
  assert (EDim : n = side v) by (unfold n, q_dimension; rewrite EQ; cbn [qMat]; apply SQ, I0).
  assert (NR : 1 <= n <= 177) by (rewrite EDim; unfold side; unfold valid_version in HV; lia).
  assert (K : forall i, (i < 8)%nat -> exists content p, fs' (resolve (draft 3 i)) = Some content /\ decode content = Some (10 * n + 20, 10 * n + 20, p) /\ scan_grey d n p = m_bitmap (cand i)).
  { intros i Hi. specialize (F i 3%nat Hi ltac:(lia) (MC _ (draft_in 3 i ltac:(lia) Hi))).
    destruct (picture_scan t jpeg decode fails n (cand i) d (draft 3 i) GK T (NF _)) as (p & P1 & P2); try assumption; [rewrite EDim; apply SQ, Hi|].
    eexists. exists p. split; [exact F|]. split; [exact P1|exact P2]. }
  split.
  - intros i Hi. destruct (K i Hi) as (content & p & K1 & K2 & K3). exists content, p, l. split; [exact K1|]. split; [exact K2|]. rewrite K3.
    split; [apply RB; assumption|]. split; [|exact EL]. eapply read_format_ok; [exact HV|lia|apply HS, Hi].
  - destruct (K i0 I0) as (content & p & K1 & K2 & K3). exists i0, content, p. split; [exact I0|]. split; [exact K1|]. split; [exact K2|]. rewrite K3, EQ. reflexivity.
Qed.

(* the other drafts: the masked picture is the picture before masking, inverted where the mask is dark *)
Theorem C68_masking_drawn :
  forall sjis, shift_jis_contract sjis ->
  forall resolve may_create jpeg decode fails env text opts sw fs sched fs' q t d,
  told_apart resolve -> (forall a, In a draft_names -> may_create a = true) -> (forall a k, fails a k = None) -> grey_keeps t jpeg decode -> t <= 32767 -> 0 <= d < 10 ->
  snd (debugEnabled env sw) = true ->
  NewWith_debug resolve may_create jpeg fails env sjis text opts sw fs sched = (fs', Ok q) ->
  let n := q_dimension q in
  forall i, (i < 8)%nat -> exists c0 c1 c2 p0 p1 p2,
    fs' (resolve (draft 0 i)) = Some c0 /\ fs' (resolve (draft 1 i)) = Some c1 /\ fs' (resolve (draft 2 i)) = Some c2 /\
    decode c0 = Some (10 * n + 20, 10 * n + 20, p0) /\ decode c1 = Some (10 * n + 20, 10 * n + 20, p1) /\ decode c2 = Some (10 * n + 20, 10 * n + 20, p2) /\
    forall x y, 0 <= x < n -> 0 <= y < n ->
      module_at (scan_grey d n p2) x y = xorb (module_at (scan_grey d n p0) x y) (module_at (scan_grey d n p1) x y).
Proof.
  intros sjis C resolve mc jpeg decode fails env text opts sw fs sched fs' q t d HT MC NF GK T D ON E n i Hi.
  destruct (C68_same_result _ _ _ _ _ _ _ _ _ _ _ _ _ E) as (sched' & EN). symmetry in EN.
  destruct (debug_facts sjis C resolve mc jpeg fails env text opts sched' q HT EN) as (v & l & stream & cand & before & mask & after & HV & EL & _ & HS & HB & HO).
  destruct (HO _ _ _ _ _ E) as (A & B & F). destruct (over (fst (drun sched))) eqn:OV; [|specialize (B eq_refl); discriminate B].
  destruct (A eq_refl) as (i0 & I0 & EQ). injection EQ as EQ. specialize (F ON eq_refl).
  assert (EDim : n = side v) by (unfold n, q_dimension; rewrite EQ; cbn [qMat]; destruct (HS i0 I0) as [S1 S2 S3 _ _ _ _ _ _]; exact S2).
  assert (NR : 1 <= n <= 177) by (rewrite EDim; unfold side; unfold valid_version in HV; lia).
  destruct (HB i Hi) as (Q0 & Q1 & Q2 & X). rewrite <- EDim in *.
  assert (K : forall j m, (j < 4)%nat -> fs' (resolve (draft j i)) = Some (written jpeg fails (draft j i) m) -> square n m ->
    exists content p, fs' (resolve (draft j i)) = Some content /\ decode content = Some (10 * n + 20, 10 * n + 20, p) /\ scan_grey d n p = m_bitmap m).
  { intros j m J FJ SQ. destruct (picture_scan t jpeg decode fails n m d (draft j i) GK T (NF _)) as (p & P1 & P2); try assumption. eexists. exists p. split; [exact FJ|]. split; [exact P1|exact P2]. }
  destruct (K 0%nat (before i) ltac:(lia)) as (c0 & p0 & A0 & B0 & S0); [apply (F i 0%nat Hi ltac:(lia)), MC, draft_in; lia|exact Q0|].
  destruct (K 1%nat (mask i) ltac:(lia)) as (c1 & p1 & A1 & B1 & S1); [apply (F i 1%nat Hi ltac:(lia)), MC, draft_in; lia|exact Q1|].
  destruct (K 2%nat (after i) ltac:(lia)) as (c2 & p2 & A2 & B2 & S2); [apply (F i 2%nat Hi ltac:(lia)), MC, draft_in; lia|exact Q2|].
  exists c0, c1, c2, p0, p1, p2. do 6 (split; [assumption|]). intros x y HX HY. rewrite S0, S1, S2.
  destruct Q0 as (W0 & U0 & V0), Q1 as (W1 & U1 & V1), Q2 as (W2 & U2 & V2).
  rewrite !module_at_bitmap by (auto; unfold in_range; lia). apply X; assumption.
Qed.

(* the switch: it is on exactly if SetDebugMode has been called or the variable said so at the first query; later changes of the variable
   do not count *)
Theorem C68_switch :
  forall before env after, let es := before ++ Query env :: after in let answer := nth (length (queries before)) (snd (replay switch0 es)) false in
  answer = true <-> In Set_ before \/ says_yes (hd env (queries before)).
Proof.
  assert (EO : forall env, env_on env = true <-> says_yes env).
  { intros env. unfold env_on, says_yes. rewrite existsb_exists. split; [intros (x & I & E); apply eq_bytes_spec in E; subst x; exact I|intros I; exists env; split; [exact I|apply eq_bytes_spec; reflexivity]]. }
  assert (ONCE : forall before sw env after, sw_once sw = true -> nth (length (queries before)) (snd (replay sw (before ++ Query env :: after))) false = true <-> sw_debug sw = true \/ In Set_ before).
  { induction before as [|[|e] before IH]; intros sw env after O; cbn [app replay queries flat_map length].
    - unfold debugEnabled. rewrite O. destruct (replay sw after). cbn [snd nth]. cbn [In]. tauto.
    - cbn [app]. fold (queries before). rewrite IH by exact O. cbn [SetDebugMode sw_debug In]. tauto.
    - fold (queries before). cbn [length app]. unfold debugEnabled. rewrite O. pose proof (IH sw env after O) as X. destruct (replay sw (before ++ Query env :: after)). cbn [snd nth] in *.
      rewrite X. cbn [In]. split; [intros [?|?]; auto|intros [?|[Y|?]]; auto; discriminate Y]. }
  assert (G : forall before sw env after, sw_once sw = false ->
    nth (length (queries before)) (snd (replay sw (before ++ Query env :: after))) false = true <-> sw_debug sw = true \/ In Set_ before \/ env_on (hd env (queries before)) = true).
  { induction before as [|[|e] before IH]; intros sw env after O; cbn [app replay queries flat_map length].
    - unfold debugEnabled. rewrite O. destruct (replay _ after). cbn [snd nth hd sw_debug In]. destruct (env_on env); intuition congruence.
    - cbn [app]. fold (queries before). rewrite IH by exact O. cbn [SetDebugMode sw_debug In]. tauto.
    - fold (queries before). cbn [length app hd]. unfold debugEnabled. rewrite O. pose proof (ONCE before (mkSwitch (if env_on e then true else sw_debug sw) true) env after eq_refl) as X.
      destruct (replay _ (before ++ Query env :: after)). cbn [snd nth sw_debug] in *. rewrite X. cbn [In]. destruct (env_on e); intuition congruence. }
  intros before env after es answer. unfold answer, es. rewrite (G before switch0 env after eq_refl), EO. cbn [switch0 sw_debug]. intuition congruence.
Qed.

(* ---- the hypotheses can be met ---- *)
Definition toy_grey (g : grey) : list (list Z) :=
  let '(w, h, p) := g in PropsSaved.toy_encode JpegEncoder (w, h, fun x y => mkRGBA (p x y) 0 0 0).
Definition toy_ungrey (l : list Z) : option grey :=
  match PropsSaved.toy_decode l with Some (w, h, cv) => Some (w, h, fun x y => c_r (cv x y)) | None => None end.
Definition dfair_schedule : list dactor := concat (repeat (map Actor all_actors) 89).
Example C68_example : grey_keeps 0 toy_grey toy_ungrey /\ told_apart (fun p => fold_left (fun a b => 256 * a + b) p 0) /\ dfair dfair_schedule /\
  snd (debugEnabled [49] switch0) = true /\ snd (debugEnabled [] switch0) = false /\ (exists sched0 q0, NewWith sample_sjis hello [] sched0 = Ok q0) /\
  ~ misdetected sample_sjis [] (text_bytes hello).
Proof.
  split; [|split; [|split; [|split; [reflexivity|split; [reflexivity|split; [destruct (PropsNew.hello_ok []) as [q H]; eauto|apply PropsSymbol.symbol_example]]]]]].
  - intros w h p _. unfold toy_grey, toy_ungrey, PropsSaved.toy_encode. eexists. split; [cbn [concat app PropsSaved.toy_decode]; rewrite app_nil_r; reflexivity|].
    intros x y X Y. cbn beta. rewrite (PropsSaved.toy_pixel w h (fun x y => mkRGBA (p x y) 0 0 0)) by assumption. cbn [c_r]. lia.
  - assert (K : forallb (fun a => forallb (fun b => negb (fold_left (fun a b => 256 * a + b) a 0 =? fold_left (fun a b => 256 * a + b) b 0) || eq_bytes a b) draft_names) draft_names = true) by (vm_compute; reflexivity).
    intros a b IA IB E. rewrite forallb_forall in K. specialize (K a IA). rewrite forallb_forall in K. specialize (K b IB). rewrite E, Z.eqb_refl in K. apply eq_bytes_spec, K.
  - exists (repeat (map Actor all_actors) 89), []. split; [rewrite app_nil_r; reflexivity|]. split; [apply repeat_length|].
    apply Forall_forall. intros r Hr. apply repeat_spec in Hr. subst r. intros a Ha. apply in_map, Ha.
Qed.
Print Assumptions C68_same_result.
Print Assumptions C68_draft_names.
Print Assumptions C68_only_drafts_touched.
Print Assumptions C68_returns.
Print Assumptions C68_candidates_drawn.
Print Assumptions C68_masking_drawn.
Print Assumptions C68_switch.
