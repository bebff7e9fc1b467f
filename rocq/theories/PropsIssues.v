(* C93: the programs of the issues make pictures that can be read. *)
From Coq Require Import Lia Init.Byte.
From Verif Require Import ModelBase ModelUtf8 ModelMatrix ModelQRCode ModelSave ModelStandard ModelCompressed ModelFile ModelWriters ModelFs ModelExamples ModelIssues.
From Verif Require Import SpecIso SpecReader SpecSegment SpecAPI SpecUtf8 SpecMatrix SpecMedium SpecFs SpecJis SpecIssues.
From Verif Require Import Samples ProofBase ProofVersion ProofBits ProofSegment ProofAPI ProofInit ProofNew ProofMedium ProofExamples.
From Verif Require PropsFs PropsNew PropsMonotone PropsText PropsCompressed PropsJis.
Open Scope Z_scope.

(* the symbol of a fixed text in a given mode *)
Lemma fixed_mode sjis : shift_jis_contract sjis -> forall text eopts sched md l v0,
  fair sched -> eff_mode eopts = mode_code md -> SpecAPI.encodable sjis md (text_bytes (GoString text)) -> eff_level eopts = level_code l -> eff_version eopts = 0 -> eff_min eopts = 0 ->
  1 <= v0 <= 40 -> text_fits v0 l md (text_bytes (GoString text)) -> (v0 = 1 \/ ~ text_fits (v0 - 1) l md (text_bytes (GoString text))) ->
  exists q, NewWith sjis (GoString text) eopts sched = Ok q /\ ~ misdetected sjis eopts (text_bytes (GoString text)) /\ q_dimension q = 4 * v0 + 17 /\
    exists seg, read_symbol (m_bitmap (qMat q)) = Some seg /\ carries sjis md (text_bytes (GoString text)) seg.
Proof.
  intros C text eopts sched md l v0 FS EM EN EL EV EMIN R F1 F0. set (raw := text_bytes (GoString text)) in *.
  assert (NM : ~ misdetected sjis eopts raw) by (intros [E _]; rewrite EM in E; destruct md; discriminate E).
  assert (EF : effective_mode sjis eopts raw md) by (left; exact EM).
  assert (N0 : 0 <= char_count md raw) by (unfold char_count; lia).
  destruct (PropsNew.C07_succeeds_iff_fits_partial sjis C (GoString text) eopts sched md l Logic.I FS NM EF EL) as [IFF _].
  destruct (proj2 IFF) as (q & HN).
  { fold raw. split; [exact EN|]. rewrite EV. cbn [Z.eqb]. apply (fits_mono l md _ v0 40); auto; unfold valid_version; lia. }
  exists q. split; [exact HN|]. split; [exact NM|].
  assert (UN : forall m, effective_mode sjis eopts raw m -> m = md).
  { intros m [E|[E _]]; rewrite EM in E; [destruct m, md; try discriminate E; reflexivity|destruct md; discriminate E]. }
  split.
  - destruct (PropsMonotone.promised_mode sjis C (GoString text) eopts sched q HN NM) as (md' & l' & v & EMD & _ & EL' & PV & DQ).
    assert (l' = l) by (rewrite EL in EL'; symmetry; apply level_code_inj; exact EL'). subst l'. rewrite (UN _ EMD) in PV. rewrite DQ. f_equal. f_equal.
    destruct PV as [[N _]|(_ & vm & (VM & FM & LM) & ->)]; [contradiction|]. rewrite EMIN. unfold valid_version in VM.
    assert (L1 : vm <= v0) by (apply LM; [unfold valid_version; lia|exact F1]). enough (vm = v0) by lia.
    destruct F0 as [-> | F0]; [lia|]. destruct (Z.eq_dec vm v0) as [E|NE]; [exact E|]. exfalso. apply F0.
    apply (fits_mono l md (char_count md raw) vm (v0 - 1)); auto; unfold valid_version in *; lia.
  - destruct (newwith_made sjis C (GoString text) eopts sched q HN) as (m & pl & l1 & v & b & w & k & c & s & HM).
    assert (m = md) as ->.
    { apply UN. destruct (md_choice _ _ _ _ _ _ _ _ _ _ _ _ _ HM) as [(E & _)|(E & _)]; [left; exact E|rewrite EM in E; destruct md; discriminate E]. }
    destruct (choice_text _ _ _ _ _ (md_choice _ _ _ _ _ _ _ _ _ _ _ _ _ HM)) as [[HT HP]|(_ & E1 & E2 & _)].
    2:{ exfalso. apply NM. split; auto. apply (mixed_iff sjis C); auto. }
    exists (expected sjis md raw). split; [eapply read_made; eauto|apply carries_expected; auto].
Qed.

Section C93.
Context (resolve : path -> Z) (may_create : path -> bool) (sjis : Z -> option (list Z)) (png_pieces : paletted -> list (list Z)) (png_decode : list Z -> option paletted)
        (fails : nat -> option nat).
Context (C : shift_jis_contract sjis) (DEC : png_codec png_pieces png_decode) (NF : forall k, fails k = None).
Notation save := (save_compressed resolve may_create sjis png_pieces fails).
Notation holds := (holds_paletted resolve png_decode).

(* a run with a text that NewWith accepts, whatever was in the file before *)
Lemma run_compressed refused text eopts file sched fs q : NewWith sjis (GoString text) eopts sched = Ok q -> may_create file = true ->
  exists fs', save refused text eopts file sched fs = (fs', Finished) /\ only_changes resolve file fs fs' /\
    forall reads : list (list bool) -> Prop, reads (m_bitmap (qMat q)) -> holds fs' file (q_dimension q) 1 4 reads.
Proof.
  intros HN MC. pose proof (PropsFs.dimension_bound sjis C _ _ _ _ HN) as DB. pose proof (made_square sjis C _ _ _ _ HN) as SQ0.
  assert (SQ : square (q_dimension q) (qMat q)) by apply SQ0.
  destruct (PropsCompressed.C34_pixel_exact _ _ 4 1 SQ ltac:(lia) ltac:(lia)) as (i & ED & _ & ES & _ & PX & _).
  set (old := fs (resolve file)).
  destruct (sink_all fails NF (png_pieces i) (compressed_open old) 0) as [calls EW].
  set (f := os_write_all (compressed_open old) (png_pieces i)) in *.
  exists (fs_set fs (resolve file) (o_content f)). split; [|split].
  - unfold save_compressed. rewrite HN, MC. fold old. unfold Save, compressed_writer, compressed_new. cbn [wr_write wr_close].
    rewrite ED, (encodable_ok PngEncoder), EW by (rewrite ES; unfold encodable; nia). reflexivity.
  - intros j N. unfold fs_set. apply Z.eqb_neq in N. rewrite N. reflexivity.
  - intros reads RD. exists (o_content f), i. split; [unfold fs_set; rewrite Z.eqb_refl; reflexivity|]. split; [|split; [exact ES|]].
    + unfold f. rewrite (PropsCompressed.C35_file_content_partial old). apply DEC.
    + replace (scan_paletted i 4 1 (q_dimension q)) with (m_bitmap (qMat q)); [exact RD|]. symmetry.
      unfold scan_paletted. apply (sampled_bitmap (q_dimension q) (qMat q)); [exact SQ|]. intros x y X Y.
      change (1 / 2) with 0. rewrite PX by lia. destruct (module_at _ x y); reflexivity.
Qed.

(* ---- 69: the program says that the length is 158 ---- *)
Theorem C93_issue_69_length : Datatypes.length issue_69_content = 158%nat.
Proof. reflexivity. Qed.
Lemma ascii_runes : go_runes (text_bytes (GoString issue_69_content)) = text_bytes (GoString issue_69_content).
Proof. vm_compute. reflexivity. Qed.
Definition alnum_b (c : Z) : bool := existsb (Z.eqb c) alphanumeric_table.
Lemma issue_69_encodable : SpecAPI.encodable sjis Alphanumeric (text_bytes (GoString issue_69_content)).
Proof.
  unfold SpecAPI.encodable. rewrite ascii_runes. apply Forall_forall. intros c I.
  assert (A : forallb alnum_b (text_bytes (GoString issue_69_content)) = true) by (vm_compute; reflexivity).
  rewrite forallb_forall in A. specialize (A c I). unfold alnum_b in A. apply existsb_exists in A as (x & J & E). apply Z.eqb_eq in E. subst x. exact J.
Qed.
Lemma issue_69_symbol sched : fair sched ->
  exists q, NewWith sjis (GoString issue_69_content) [WithEncodingMode 8; WithErrorCorrectionLevel 4] sched = Ok q /\ q_dimension q = 57 /\
    read_symbol (m_bitmap (qMat q)) = Some (AlphanumericSeg (text_bytes (GoString issue_69_content))).
Proof.
  intros FS. destruct (fixed_mode sjis C issue_69_content [WithEncodingMode 8; WithErrorCorrectionLevel 4] sched Alphanumeric SpecIso.H 10) as (q & HN & _ & D & seg & R & CA);
    [exact FS|reflexivity|exact issue_69_encodable|reflexivity|reflexivity|reflexivity|lia| | |].
  - unfold text_fits, char_count. rewrite ascii_runes. vm_compute. discriminate.
  - right. unfold text_fits, char_count. rewrite ascii_runes. vm_compute. intros X. apply X. reflexivity.
  - exists q. split; [exact HN|]. split; [exact D|]. rewrite R. f_equal. exact CA.
Qed.

(* Both files hold the symbol of version 10, of one pixel a module, and read back; no other file has changed.  (This is the moment at which
   main calls encodeWithSkip2.) *)
Theorem C93_issue_69 : forall sched1 sched2 fs, fair sched1 -> fair sched2 -> may_create (name "qr-yeqown.png") = true -> may_create (name "qr-yeqown-best.png") = true ->
  resolve (name "qr-yeqown.png") <> resolve (name "qr-yeqown-best.png") ->
  exists fs', issue_69 resolve may_create sjis png_pieces fails sched1 sched2 fs = (fs', Finished) /\
    (forall i, i <> resolve (name "qr-yeqown.png") -> i <> resolve (name "qr-yeqown-best.png") -> fs' i = fs i) /\
    forall file, In file [name "qr-yeqown.png"; name "qr-yeqown-best.png"] ->
      holds fs' file 57 1 4 (fun bm => read_symbol bm = Some (AlphanumericSeg (text_bytes (GoString issue_69_content)))).
Proof.
  intros sched1 sched2 fs F1 F2 M1 M2 NE. destruct (issue_69_symbol _ F1) as (q1 & HN1 & D1 & R1). destruct (issue_69_symbol _ F2) as (q2 & HN2 & D2 & R2).
  destruct (run_compressed Died _ _ (name "qr-yeqown.png") _ fs q1 HN1 M1) as (fs1 & E1 & O1 & H1).
  destruct (run_compressed Died _ _ (name "qr-yeqown-best.png") _ fs1 q2 HN2 M2) as (fs2 & E2 & O2 & H2).
  exists fs2. split; [|split].
  - unfold issue_69, encodeWithYeqown. rewrite E1. exact E2.
  - intros i N1 N2. rewrite (O2 i N2). exact (O1 i N1).
  - specialize (H1 (fun bm => read_symbol bm = Some (AlphanumericSeg (text_bytes (GoString issue_69_content)))) R1). rewrite D1 in H1.
    specialize (H2 (fun bm => read_symbol bm = Some (AlphanumericSeg (text_bytes (GoString issue_69_content)))) R2). rewrite D2 in H2.
    intros file [<-|[<-|[]]]; [|exact H2]. destruct H1 as (c & i & A1 & A2). exists c, i. split; [|exact A2]. rewrite (O2 _ NE). exact A1.
Qed.
(* if the second file cannot be created the program panics, and the first file is there *)
Theorem C93_issue_69_second_refused : forall sched1 sched2 fs, fair sched1 -> fair sched2 -> may_create (name "qr-yeqown.png") = true -> may_create (name "qr-yeqown-best.png") = false ->
  exists fs', issue_69 resolve may_create sjis png_pieces fails sched1 sched2 fs = (fs', Died) /\ only_changes resolve (name "qr-yeqown.png") fs fs' /\
    holds fs' (name "qr-yeqown.png") 57 1 4 (fun bm => read_symbol bm = Some (AlphanumericSeg (text_bytes (GoString issue_69_content)))).
Proof.
  intros sched1 sched2 fs F1 F2 M1 M2. destruct (issue_69_symbol _ F1) as (q1 & HN1 & D1 & R1). destruct (issue_69_symbol _ F2) as (q2 & HN2 & D2 & R2).
  destruct (run_compressed Died _ _ (name "qr-yeqown.png") _ fs q1 HN1 M1) as (fs1 & E1 & O1 & H1).
  exists fs1. split; [|split; [exact O1|rewrite D1 in H1; apply H1; exact R1]].
  unfold issue_69, encodeWithYeqown. rewrite E1. unfold save_compressed. rewrite HN2, M2. reflexivity.
Qed.

(* ---- 106: three ideographs, given the table of Shift-JIS ---- *)
Context (A : agrees sjis).
Definition issue_106_reads (bm : list (list bool)) : Prop :=
  read_symbol bm = Some (KanjiSeg [0x93FA; 0x967B; 0x8CEA]) /\ utf8 (map char_of [0x93FA; 0x967B; 0x8CEA]) = text_bytes (GoString issue_106_content).
Lemma issue_106_runes : go_runes (text_bytes (GoString issue_106_content)) = [0x65E5; 0x672C; 0x8A9E].
Proof. vm_compute. reflexivity. Qed.
Lemma issue_106_table : In (0x93FA, 0x65E5) ideographs /\ In (0x967B, 0x672C) ideographs /\ In (0x8CEA, 0x8A9E) ideographs.
Proof. repeat split; apply PropsJis.find_in; vm_compute; reflexivity. Qed.
Lemma issue_106_encodable : SpecAPI.encodable sjis Kanji (text_bytes (GoString issue_106_content)).
Proof.
  destruct issue_106_table as (T1 & T2 & T3). unfold SpecAPI.encodable. rewrite issue_106_runes. change (Forall (kanji_char sjis) [0x65E5; 0x672C; 0x8A9E]).
  apply Forall_forall. intros r I. apply (proj2 (PropsJis.C87_which_kanji sjis A r)).
  destruct I as [<-|[<-|[<-|[]]]]; eexists; (split; [eassumption|unfold qr_range; lia]).
Qed.
Theorem C93_issue_106 : forall sched fs, fair sched -> may_create (name "qr-kanji.png") = true ->
  exists fs', issue_106 resolve may_create sjis png_pieces fails sched fs = (fs', Finished) /\ only_changes resolve (name "qr-kanji.png") fs fs' /\
    holds fs' (name "qr-kanji.png") 21 1 4 issue_106_reads.
Proof.
  intros sched fs FS MC. destruct issue_106_table as (T1 & T2 & T3). pose proof A as [A1 _].
  destruct (fixed_mode sjis C issue_106_content [WithEncodingMode 16] sched Kanji SpecIso.Q 1) as (q & HN & _ & D & seg & R & CA);
    [exact FS|reflexivity| |reflexivity|reflexivity|reflexivity|lia| |left; reflexivity|].
  - exact issue_106_encodable.
  - unfold text_fits, char_count. rewrite issue_106_runes. vm_compute. discriminate.
  - destruct (run_compressed Complained _ _ (name "qr-kanji.png") _ fs q HN MC) as (fs1 & E1 & O1 & H1). exists fs1. split; [exact E1|]. split; [exact O1|].
    rewrite D in H1. apply H1. split.
    + cbn [carries] in CA. destruct CA as (codes & -> & EC). rewrite R. do 2 f_equal. rewrite issue_106_runes in EC. cbn [map] in EC. unfold double_byte in EC.
      rewrite (A1 _ _ T1), (A1 _ _ T2), (A1 _ _ T3) in EC. destruct codes as [|a [|b [|c [|]]]]; try discriminate EC. injection EC as -> -> ->. reflexivity.
    + cbn [map]. rewrite (PropsJis.char_of_code _ _ T1), (PropsJis.char_of_code _ _ T2), (PropsJis.char_of_code _ _ T3). vm_compute. reflexivity.
Qed.
Theorem C93_issue_106_refused : forall sched fs, fair sched -> may_create (name "qr-kanji.png") = false ->
  issue_106 resolve may_create sjis png_pieces fails sched fs = (fs, Died).
Proof.
  intros sched fs FS MC.
  destruct (fixed_mode sjis C issue_106_content [WithEncodingMode 16] sched Kanji SpecIso.Q 1) as (q & HN & _);
    [exact FS|reflexivity| |reflexivity|reflexivity|reflexivity|lia| |left; reflexivity|].
  - exact issue_106_encodable.
  - unfold text_fits, char_count. rewrite issue_106_runes. vm_compute. discriminate.
  - unfold issue_106, save_compressed. rewrite HN, MC. reflexivity.
Qed.
End C93.

(* ---- the assumptions can be met: Shift-JIS as in C87, a codec that stops at the end of the picture ---- *)
Definition toy_pieces (i : paletted) : list (list Z) := [[p_min i; p_size i]; [zlen (p_pix i)]; p_pix i].
Definition toy_decode (l : list Z) : option paletted :=
  match l with a :: b :: n :: l => Some (mkImg a b (firstn (Z.to_nat n) l)) | _ => None end.
Lemma toy_codec : png_codec toy_pieces toy_decode.
Proof.
  intros [a b l] rest. unfold toy_pieces, toy_decode. cbn [concat app p_min p_size p_pix]. rewrite app_nil_r. unfold zlen. rewrite Nat2Z.id, firstn_app, Nat.sub_diag, firstn_all.
  cbn [firstn]. rewrite app_nil_r. reflexivity.
Qed.
(* an old file that is longer than the new picture *)
Theorem C93_example : forall fs, (forall i, fs i = Some (repeat 7 5000)) ->
  exists fs', issue_106 (fun p => zlen p) (fun _ => true) shift_jis toy_pieces (fun _ => None) fair_schedule fs = (fs', Finished) /\
    holds_paletted (fun p => zlen p) toy_decode fs' (name "qr-kanji.png") 21 1 4 issue_106_reads.
Proof.
  intros fs _. destruct PropsJis.C87_contract_met as [SC AG].
  destruct (C93_issue_106 (fun p => zlen p) (fun _ => true) shift_jis toy_pieces toy_decode (fun _ => None) SC toy_codec (fun _ => eq_refl) AG fair_schedule fs fair_schedule_fair eq_refl) as (fs' & E & _ & H).
  exists fs'. split; [exact E|exact H].
Qed.

Print Assumptions C93_issue_69_length.
Print Assumptions C93_issue_69.
Print Assumptions C93_issue_69_second_refused.
Print Assumptions C93_issue_106.
Print Assumptions C93_issue_106_refused.
Print Assumptions C93_example.
