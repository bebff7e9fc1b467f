(* C87: Japanese texts. *)
From Coq Require Import Lia FMapPositive.
From Verif Require Import ModelBase ModelUtf8 ModelMatrix ModelQRCode.
From Verif Require Import SpecIso SpecReader SpecSegment SpecAPI SpecUtf8 SpecMatrix SpecJis.
From Verif Require Import ProofBase ProofAPI ProofNew ProofUtf8 PropsNew PropsText Samples.

(* ---- about the table ---- *)
Fixpoint rising (b : Z) (l : list (Z * Z)) : bool := match l with [] => true | (c, _) :: l => (b <? c) && rising c l end.
Lemma table_rising : rising 0 ideographs = true.
Proof. vm_compute. reflexivity. Qed.
Fixpoint fresh (l : list (Z * Z)) (s : PositiveMap.t unit) : bool :=
  match l with [] => true | (_, r) :: l => negb (PositiveMap.mem (Z.to_pos r) s) && fresh l (PositiveMap.add (Z.to_pos r) tt s) end.
Lemma table_fresh : fresh ideographs (PositiveMap.empty unit) = true.
Proof. vm_compute. reflexivity. Qed.
Definition entry_ok (e : Z * Z) : bool :=
  let '(c, r) := e in ((0x4E00 <=? r) && (r <=? 0x9FFF) || (0x3400 <=? r) && (r <=? 0x4DBF) || (0xF900 <=? r) && (r <=? 0xFAFF)) && (0x8141 <=? c) && (c <? 65536) && (0x40 <=? c mod 256).
Lemma table_ok : forallb entry_ok ideographs = true.
Proof. vm_compute. reflexivity. Qed.
(* 6356 of them have codes in range: the 2965 + 3390 ideographs of JIS X 0208, and the sign for "as above", U+4EDD *)
Theorem C87_count : Z.of_nat (length (filter (fun '(c, _) => (0x8140 <=? c) && (c <=? 0x9FFC) || (0xE040 <=? c) && (c <=? 0xEBBF)) ideographs)) = 6356.
Proof. vm_compute. reflexivity. Qed.
Lemma find_in c r : existsb (fun '(c', r') => (c' =? c) && (r' =? r)) ideographs = true -> In (c, r) ideographs.
Proof. intros E. apply existsb_exists in E as ([c' r'] & K & E). apply andb_true_iff in E as [E1 E2]. apply Z.eqb_eq in E1, E2. subst. exact K. Qed.
Global Opaque ideographs.

Lemma rising_gt l : forall b c r, rising b l = true -> In (c, r) l -> b < c.
Proof.
  induction l as [|[c0 r0] l IH]; intros b c r R K; [contradiction|]. cbn [rising] in R. apply andb_true_iff in R as [R1 R2]. apply Z.ltb_lt in R1.
  destruct K as [E|K]; [injection E as <- <-; exact R1|]. specialize (IH _ _ _ R2 K). lia.
Qed.
Lemma rising_unique l : forall b c r r', rising b l = true -> In (c, r) l -> In (c, r') l -> r = r'.
Proof.
  induction l as [|[c0 r0] l IH]; intros b c r r' R K K'; [contradiction|]. cbn [rising] in R. apply andb_true_iff in R as [R1 R2].
  destruct K as [E|K], K' as [E'|K'].
  - congruence.
  - injection E as -> ->. pose proof (rising_gt _ _ _ _ R2 K'). lia.
  - injection E' as -> ->. pose proof (rising_gt _ _ _ _ R2 K). lia.
  - exact (IH _ _ _ _ R2 K K').
Qed.
Lemma code_unique c r r' : In (c, r) ideographs -> In (c, r') ideographs -> r = r'.
Proof. apply (rising_unique _ 0). exact table_rising. Qed.
Lemma entry c r : In (c, r) ideographs -> cjk r /\ 0x8141 <= c < 65536 /\ 0x40 <= c mod 256.
Proof.
  intros K. pose proof table_ok as T. rewrite forallb_forall in T. specialize (T _ K). unfold entry_ok in T.
  rewrite !andb_true_iff, !orb_true_iff, !andb_true_iff, !Z.leb_le, Z.ltb_lt in T. unfold cjk. lia.
Qed.
Lemma fresh_unique l : forall s c c' r, fresh l s = true -> (forall c r, In (c, r) l -> 0 < r) -> In (c, r) l -> In (c', r) l -> c = c' /\ PositiveMap.mem (Z.to_pos r) s = false.
Proof.
  assert (OUT : forall l s c r, fresh l s = true -> In (c, r) l -> PositiveMap.mem (Z.to_pos r) s = false).
  { clear l. intros l. induction l as [|[c0 r0] l IH]; intros s c r F K; [contradiction|]. cbn [fresh] in F. apply andb_true_iff in F as [F1 F2]. apply negb_true_iff in F1.
    destruct K as [E|K]; [injection E as <- <-; exact F1|]. pose proof (IH _ _ _ F2 K) as M.
    destruct (PositiveMap.mem (Z.to_pos r) s) eqn:E; [|reflexivity]. rewrite PositiveMap.mem_find in *. destruct (Pos.eq_dec (Z.to_pos r) (Z.to_pos r0)) as [EQ|N].
    - rewrite EQ, PositiveMap.gss in M. discriminate M.
    - rewrite PositiveMap.gso in M by exact N. destruct (PositiveMap.find (Z.to_pos r) s); [discriminate M|discriminate E]. }
  induction l as [|[c0 r0] l IH]; intros s c c' r F POS K K'; [contradiction|]. split; [|exact (OUT _ _ _ _ F K)]. cbn [fresh] in F. apply andb_true_iff in F as [F1 F2].
  assert (SAME : forall c, In (c, r0) l -> False).
  { intros c1 K1. pose proof (OUT _ _ _ _ F2 K1) as M. rewrite PositiveMap.mem_find, PositiveMap.gss in M. discriminate M. }
  destruct K as [E|K], K' as [E'|K'].
  - congruence.
  - injection E as -> ->. destruct (SAME _ K').
  - injection E' as -> ->. destruct (SAME _ K).
  - apply (IH _ c c' r F2); auto. intros; eapply POS; right; eassumption.
Qed.
Lemma rune_unique c c' r : In (c, r) ideographs -> In (c', r) ideographs -> c = c'.
Proof.
  intros K K'. eapply (fresh_unique _ _ c c' r table_fresh); auto. intros c0 r0 K0. destruct (entry _ _ K0) as [CJ _]. unfold cjk in CJ. lia.
Qed.
Lemma char_of_code c r : In (c, r) ideographs -> char_of c = r.
Proof.
  intros K. unfold char_of. destruct (find (fun '(c', _) => c' =? c) ideographs) as [[c1 r1]|] eqn:F.
  - apply find_some in F as [K1 E]. apply Z.eqb_eq in E. subst c1. exact (code_unique _ _ _ K1 K).
  - exfalso. pose proof (find_none _ _ F _ K) as N. cbn in N. rewrite Z.eqb_refl in N. discriminate N.
Qed.

Section Agrees.
Context (sjis : Z -> option (list Z)) (C : shift_jis_contract sjis) (A : agrees sjis).

(* the library takes exactly the ideographs of JIS X 0208 as kanji *)
Theorem C87_which_kanji : forall r, kanji_char sjis r <-> jis_kanji r.
Proof.
  destruct A as [A1 A2]. intros r. split.
  - intros (CJ & c & D & R). destruct (in_dec Z.eq_dec r (map snd ideographs)) as [K|K]; [|unfold double_byte in D; rewrite (A2 r CJ K) in D; discriminate D].
    apply in_map_iff in K as ([c' r'] & E & K). cbn [snd] in E. subst r'. unfold double_byte in D. rewrite (A1 _ _ K) in D. injection D as D.
    exists c'. split; [exact K|]. replace c' with c by (rewrite <- D; pose proof (Z.div_mod c' 256 ltac:(lia)); lia). exact R.
  - intros (c & K & R). destruct (entry _ _ K) as (CJ & _ & _). split; [exact CJ|]. exists c. split; [|exact R].
    unfold double_byte. rewrite (A1 _ _ K). f_equal. pose proof (Z.div_mod c 256 ltac:(lia)); lia.
Qed.

(* no two of them have the same code *)
Theorem C87_injective : injective_sjis sjis.
Proof.
  destruct A as [A1 A2]. intros r r' bs K K' E E'. apply C87_which_kanji in K as (c & K & _). apply C87_which_kanji in K' as (c' & K' & _).
  rewrite (A1 _ _ K) in E. rewrite (A1 _ _ K') in E'. assert (EC : c = c'); [|subst c'; exact (code_unique _ _ _ K K')].
  injection E as <-. injection E' as E1 E2. pose proof (Z.div_mod c 256 ltac:(lia)). pose proof (Z.div_mod c' 256 ltac:(lia)). lia.
Qed.

Lemma jis_text_not_mixed text : Forall jis_kanji (go_runes (text_bytes text)) -> ~ alnum_then_kanji sjis (text_bytes text).
Proof.
  intros F (pre & ks & E & N & _ & P & _). destruct pre as [|a pre]; [congruence|]. rewrite E in F. inversion F as [|? ? (c & K & _) _]; subst. inversion P as [|? ? AL _]; subst.
  destruct (entry _ _ K) as [CJ _]. unfold alnum_ch, alphanumeric_table in AL. unfold cjk in CJ. cbn [In] in AL. lia.
Qed.
Lemma jis_documented text : go_runes (text_bytes text) <> [] -> Forall jis_kanji (go_runes (text_bytes text)) -> documented_mode sjis (text_bytes text) Kanji.
Proof.
  intros NE F. split.
  - unfold encodable. eapply Forall_impl; [|exact F]. intros r K. apply C87_which_kanji. exact K.
  - intros md R E. destruct (go_runes (text_bytes text)) as [|a l] eqn:ER; [congruence|]. unfold encodable in E. rewrite ER in E. inversion E as [|? ? RA _]; subst. inversion F as [|? ? (c & K & _) _]; subst.
    destruct (entry _ _ K) as [CJ _]. unfold cjk in CJ. destruct md; cbn [mode_rank representable] in *; try lia.
    + unfold digit_ch in RA. lia.
    + unfold alnum_ch, alphanumeric_table in RA. cbn [In] in RA. lia.
Qed.

(* Every text of ideographs of JIS X 0208: the library chooses Kanji mode by itself, and a reader with the table shows the text, all bytes *)
Theorem C87_japanese_reads_back :
  forall text opts sched q, go_runes (text_bytes text) <> [] -> Forall jis_kanji (go_runes (text_bytes text)) ->
  NewWith sjis text opts sched = Ok q -> eff_mode opts = auto_code ->
  qMode q = mode_code Kanji /\
  exists codes, read_symbol (m_bitmap (qMat q)) = Some (KanjiSeg codes) /\ length codes = length (go_runes (text_bytes text)) /\ utf8 (map char_of codes) = text_bytes text.
Proof.
  intros text opts sched q NE F HN EM. destruct (C03_automatic_mode_partial sjis C text opts sched q HN EM (jis_text_not_mixed _ F)) as (md & QM & D & seg & R & CA).
  assert (MD : md = Kanji).
  { destruct (jis_documented text NE F) as [E1 E2]. destruct D as [D1 D2]. destruct (Z.lt_trichotomy (mode_rank md) (mode_rank Kanji)) as [X|[X|X]].
    - contradiction (E2 md X D1). - destruct md; cbn in X; try lia; reflexivity. - contradiction (D2 Kanji X E1). }
  subst md. split; [exact QM|]. destruct CA as (codes & -> & EC). exists codes. split; [exact R|]. split; [rewrite <- (map_length Some codes), EC; apply map_length|].
  apply (C54_kanji_text_recovered sjis C char_of) with (opts := opts) (sched := sched) (q := q); auto.
  - intros r hi lo K S. apply C87_which_kanji in K as (c & K & _). destruct A as [A1 _]. rewrite (A1 _ _ K) in S. injection S as <- <-.
    rewrite (Z.mul_comm _ 256), <- Z.div_mod by lia. apply char_of_code. exact K.
  - intros [_ X]. exact (jis_text_not_mixed _ F X).
Qed.

(* it is accepted if it has at most as many characters as version 40 holds at the level *)
Theorem C87_japanese_accepted :
  forall text opts sched l, plain text -> fair sched -> go_runes (text_bytes text) <> [] -> Forall jis_kanji (go_runes (text_bytes text)) ->
  eff_mode opts = auto_code -> eff_version opts = 0 -> eff_level opts = level_code l ->
  Z.of_nat (length (go_runes (text_bytes text))) <= match l with L => 1817 | M => 1435 | Q => 1024 | H => 784 end ->
  exists q, NewWith sjis text opts sched = Ok q.
Proof.
  intros text opts sched l P FA NE F EM EV EL LEN.
  apply (C07_succeeds_iff_fits_partial sjis C text opts sched Kanji l P FA).
  - intros [_ X]. exact (jis_text_not_mixed _ F X).
  - right. split; [exact EM|apply jis_documented; assumption].
  - exact EL.
  - destruct (jis_documented text NE F) as [E _]. split; [exact E|]. rewrite EV. cbn [Z.eqb]. unfold text_fits, char_count.
    unfold fits. assert (DC : 8 * data_codewords 40 l = match l with L => 23648 | M => 18672 | Q => 13328 | H => 10208 end) by (destruct l; reflexivity). rewrite DC.
    assert (NB : forall n, needed_bits 40 Kanji n = 16 + 13 * n) by (intros n; reflexivity || (unfold needed_bits; cbn; lia)). rewrite NB. destruct l; lia.
Qed.

(* different Japanese texts give different symbols *)
Theorem C87_distinct :
  forall text text' opts opts' sched sched' q q',
  Forall jis_kanji (go_runes (text_bytes text)) -> Forall jis_kanji (go_runes (text_bytes text')) ->
  NewWith sjis text opts sched = Ok q -> NewWith sjis text' opts' sched' = Ok q' -> text_bytes text <> text_bytes text' -> m_bitmap (qMat q) <> m_bitmap (qMat q').
Proof.
  intros text text' opts opts' sched sched' q q' F F' HN HN' D.
  apply (C54_distinct_texts_partial sjis C C87_injective text text' opts opts' sched sched' q q' HN HN'); [intros [_ X]; exact (jis_text_not_mixed _ F X)|intros [_ X]; exact (jis_text_not_mixed _ F' X)|exact D].
Qed.
End Agrees.

(* there is a conversion that meets the contract assumed everywhere and agrees with the table *)
Theorem C87_contract_met : shift_jis_contract shift_jis /\ agrees shift_jis.
Proof.
  assert (FIND : forall r c r', find (fun '(_, r') => r' =? r) ideographs = Some (c, r') -> In (c, r) ideographs).
  { intros r c r' E. apply find_some in E as [K E]. apply Z.eqb_eq in E. subst r'. exact K. }
  split; [constructor|split].
  - assert (F1 : forall a, 0 <= a < 256 -> Forall (fun b => 0 <= b < 256) [a]) by (intros a R; apply Forall_cons; [exact R|apply Forall_nil]).
    intros r bs. unfold shift_jis. destruct ((0x20 <=? r) && (r <=? 0x7E)) eqn:B1; [intros [= <-]; apply F1; apply andb_true_iff in B1 as [B1 B1']; apply Z.leb_le in B1, B1'; lia|].
    destruct ((0xFF61 <=? r) && (r <=? 0xFF9F)) eqn:B2; [intros [= <-]; apply F1; apply andb_true_iff in B2 as [B2 B2']; apply Z.leb_le in B2, B2'; lia|].
    destruct (r =? 0x3000); [intros [= <-]; apply Forall_cons; [lia|apply F1; lia]|].
    destruct (find _ _) as [[c r']|] eqn:E; [|discriminate]. intros [= <-]. destruct (entry _ _ (FIND _ _ _ E)) as (_ & B & _).
    apply Forall_cons; [split; [apply Z.div_pos; lia|apply Z.div_lt_upper_bound; lia]|apply F1; apply Z.mod_pos_bound; lia].
  - intros r hi lo. unfold shift_jis. destruct ((0x20 <=? r) && (r <=? 0x7E)); [discriminate|]. destruct ((0xFF61 <=? r) && (r <=? 0xFF9F)); [discriminate|].
    destruct (r =? 0x3000); [intros [= <- <-]; lia|]. destruct (find _ _) as [[c r']|] eqn:E; [|discriminate]. intros [= <- <-]. apply (entry _ _ (FIND _ _ _ E)).
  - intros r. unfold shift_jis. destruct ((0x20 <=? r) && (r <=? 0x7E)); [discriminate|]. destruct ((0xFF61 <=? r) && (r <=? 0xFF9F)); [discriminate|].
    destruct (Z.eqb_spec r 0x3000); [auto|]. destruct (find _ _) as [[c r']|] eqn:E; [|discriminate]. intros [= E1 E2]. destruct (entry _ _ (FIND _ _ _ E)) as (_ & B & _).
    pose proof (Z.div_mod c 256 ltac:(lia)). lia.
  - intros r R. unfold shift_jis. destruct (Z.leb_spec 0x20 r), (Z.leb_spec r 0x7E); try lia. reflexivity.
  - intros c r K. destruct (entry _ _ K) as (CJ & _ & _). unfold cjk in CJ. unfold shift_jis.
    destruct (Z.leb_spec 0x20 r), (Z.leb_spec r 0x7E); try lia; cbn [andb]. destruct (Z.leb_spec 0xFF61 r), (Z.leb_spec r 0xFF9F); try lia; cbn [andb]; (destruct (Z.eqb_spec r 0x3000); [lia|]);
    (destruct (find (fun '(_, r') => r' =? r) ideographs) as [[c1 r1]|] eqn:F; [|exfalso; pose proof (find_none _ _ F _ K) as N; cbn in N; rewrite Z.eqb_refl in N; discriminate N]);
    rewrite (rune_unique _ _ _ K (FIND _ _ _ F)); reflexivity.
  - intros r CJ K. unfold cjk in CJ. unfold shift_jis.
    destruct (Z.leb_spec 0x20 r), (Z.leb_spec r 0x7E); try lia; cbn [andb]. destruct (Z.leb_spec 0xFF61 r), (Z.leb_spec r 0xFF9F); try lia; cbn [andb]; (destruct (Z.eqb_spec r 0x3000); [lia|]);
    (destruct (find (fun '(_, r') => r' =? r) ideographs) as [[c1 r1]|] eqn:F; [|reflexivity]; exfalso; apply K; apply in_map_iff; exists (c1, r); split; [reflexivity|]; eapply FIND; eassumption).
Qed.

(* a text that meets the hypotheses: three kanji, of both ranges *)
Example C87_example : In (0x935F, 0x70B9) ideographs /\ In (0xE4AA, 0x8317) ideographs /\
  go_runes [0xE7; 0x82; 0xB9; 0xE8; 0x8C; 0x97] = [0x70B9; 0x8317] /\ Forall jis_kanji [0x70B9; 0x8317] /\ char_of 0x935F = 0x70B9.
Proof.
  assert (I1 : In (0x935F, 0x70B9) ideographs) by (apply find_in; vm_compute; reflexivity).
  assert (I2 : In (0xE4AA, 0x8317) ideographs) by (apply find_in; vm_compute; reflexivity).
  split; [exact I1|]. split; [exact I2|]. split; [reflexivity|]. split; [|apply char_of_code; exact I1].
  repeat constructor; [exists 0x935F|exists 0xE4AA]; (split; [assumption|]); unfold qr_range; lia.
Qed.

Print Assumptions C87_count.
Print Assumptions C87_which_kanji.
Print Assumptions C87_injective.
Print Assumptions C87_japanese_reads_back.
Print Assumptions C87_japanese_accepted.
Print Assumptions C87_distinct.
Print Assumptions C87_contract_met.
