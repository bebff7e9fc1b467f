(* C62, level Low: a logo that the writer accepts can change the text. *)
From Coq Require Import Lia Init.Byte.
From Verif Require Import ModelBase ModelUtf8 ModelMatrix ModelQRCode ModelStandard ModelWriters ModelShapes.
From Verif Require Import SpecIso SpecReader SpecSegment SpecRS SpecRecovery SpecAPI SpecMatrix SpecStandard SpecMedium SpecShape SpecLogo Samples.
From Verif Require Import ProofBase ProofMatrix ProofEval ProofViews ProofStandard ProofMedium ProofShape ProofLogo.
From Verif Require Import PropsShape PropsLogo.
From Verif Require PropsStandard.

(* sixteen letters: a symbol of version 1 at level Low *)
Definition letters : GoText := GoString [x61; x62; x63; x64; x65; x66; x67; x68; x69; x6a; x6b; x6c; x6d; x6e; x6f; x70].
Definition letters_opts : list EncodeOption := [WithErrorCorrectionLevel 1].
Definition letters_bitmap : bitmap := Eval vm_compute in match NewWith sample_sjis letters letters_opts fair_schedule with Ok q => m_bitmap (qMat q) | _ => [] end.
Definition view (r : outcome QRCode) : option bitmap := match r with Ok q => Some (m_bitmap (qMat q)) | _ => None end.
Lemma letters_ok : view (NewWith sample_sjis letters letters_opts fair_schedule) = Some letters_bitmap.
Proof. vm_cast_no_check (eq_refl (Some letters_bitmap)). Qed.

(* the modules to change: code words 14, 15, 18, 19 and 22, changed in these bits *)
Definition changes : list (nat * Z) := [(14%nat, 0xF9); (15%nat, 0x80); (18%nat, 0x03); (19%nat, 0x13); (22%nat, 0x28)].
Definition changed : list (Z * Z) := Eval vm_compute in
  flat_map (fun '(i, e) => map snd (filter fst (combine (to_bits e 8) (firstn 8 (skipn (8 * i) (data_path 1)))))) changes.
Definition attacked : bitmap := Eval vm_compute in
  sampled 21 (fun x y => xorb (module_at letters_bitmap x y) (existsb (fun '(a, b) => (a =? x) && (b =? y)) changed)).
(* a fifth of the symbol: 84 x 84 pixels; black and white squares in the places of the modules *)
Definition evil_logo : image :=
  mkImage 0 0 84 84 (fun u v => if module_at attacked ((168 + u) / 20) ((168 + v) / 20) then color_BLACK else color_WHITE).
(* what a reader finds *)
Definition evil_block : list Z := Eval vm_compute in
  map (fun '(i, w) => Z.lxor w (nth i [0;0;0;0xB0;0;0;0;0;0;0;0;0;0;0;0xF9;0x80;0xB7;0;3;0x13;0;0;0x28;0;0x46;0]%Z 0))
      (combine (seq 0 26) (concat (symbol_blocks letters_bitmap 1 L (match read_format letters_bitmap with Some (_, k) => k | None => 0 end)))).
Definition evil_text : list Z := Eval vm_compute in
  match read_segment 1 (flat_map (fun w => to_bits w 8) (data_part 7 evil_block)) with Some (ByteSeg t) => t | _ => [] end.

Lemma evil_text_read : recovers attacked (ByteSeg evil_text).
Proof.
  exists 1, L, (match read_format letters_bitmap with Some (_, k) => k | None => 0 end), [evil_block].
  split; [vm_compute; reflexivity|]. split; [vm_compute; intuition congruence|]. split; [apply Nat.leb_le; vm_compute; reflexivity|]. split; [|vm_compute; reflexivity].
  match goal with |- Forall2 _ ?b _ => let b' := eval vm_compute in b in change b with b' end.
  constructor; [|constructor]. split; [reflexivity|]. split; [split|].
  - repeat constructor; lia.
  - change (Z.to_nat (ecc_per_block 1 L)) with 7%nat. intros i LT. do 7 (destruct i as [|i]; [vm_compute; reflexivity|]). lia.
  - apply Nat.leb_le. vm_compute. reflexivity.
Qed.

Lemma outside_same : forall x y, 0 <= x < 21 -> 0 <= y < 21 -> ~ (8 <= x <= 12 /\ 8 <= y <= 12) -> module_at attacked x y = module_at letters_bitmap x y.
Proof.
  assert (A : forallb (fun y => forallb (fun x => ((8 <=? x) && (x <=? 12) && (8 <=? y) && (y <=? 12)) || Bool.eqb (module_at attacked x y) (module_at letters_bitmap x y)) (upto 21)) (upto 21) = true) by (vm_compute; reflexivity).
  intros x y X Y N. pose proof (forallb_upto _ 21 (forallb_upto _ 21 A y Y) x X) as B. cbv beta in B.
  apply orb_true_iff in B. destruct B as [B|B]; [|apply eqb_prop, B]. exfalso. apply N. rewrite !andb_true_iff, !Z.leb_le in B. lia.
Qed.

(* The writer with this logo, no borders and otherwise default options accepts and draws the logo; the symbol in the middles of the
   modules of the picture is one from which a reader may return another text. *)
Theorem C62_low_level_refuted :
  exists o q, NewWith sample_sjis letters [WithErrorCorrectionLevel 1] fair_schedule = Ok q /\ ~ misdetected sample_sjis [WithErrorCorrectionLevel 1] (text_bytes letters) /\
    NewWithWriter (fun _ => None) [WithLogoImage (Some evil_logo); WithBorderWidth [0]] = Some o /\ logo_options o 0 /\
    logo_fits o (img_w o (q_dimension q)) (img_h o (q_dimension q)) evil_logo /\
    forall others scale, exists cv o', draw others scale (qMat q) o = Some (420, 420, cv, o') /\
      agree_outside (q_dimension q) 0 (m_bitmap (qMat q)) (scan_at 10 cv o 21) /\
      recovers (scan_at 10 cv o 21) (ByteSeg evil_text) /\ evil_text <> text_bytes letters /\
      ~ recovers_text sample_sjis letters (scan_at 10 cv o 21).
Proof.
  pose proof letters_ok as LO. destruct (NewWith sample_sjis letters letters_opts fair_schedule) as [q| | |] eqn:EN; cbn [view] in LO; try (exfalso; congruence).
  injection LO as LO. fold letters_opts.
  destruct (made_square sample_sjis sample_contract _ _ _ _ EN) as [SQ N21].
  assert (QD : q_dimension q = 21).
  { destruct SQ as (Wf & _ & EH). pose proof (f_equal (fun b => Z.of_nat (length b)) LO) as E. cbv beta in E. change (Z.of_nat (length letters_bitmap)) with 21 in E.
    rewrite (bitmap_rows _ Wf) in E. unfold rows_of in E. rewrite map_length, upto_length in E. lia. }
  assert (NM : ~ misdetected sample_sjis letters_opts (text_bytes letters)).
  { intros [_ (pre & ks & EA & _ & N & _ & K)]. assert (IK : forall k, In k ks -> In k (go_runes (text_bytes letters))) by (intros k Hk; rewrite EA; apply in_or_app; auto).
    let r := eval vm_compute in (go_runes (text_bytes letters)) in change (go_runes (text_bytes letters)) with r in IK.
    destruct ks as [|k ks]; [congruence|]. inversion K as [|? ? [CJ _] _]; subst.
    specialize (IK k (or_introl eq_refl)). unfold cjk in CJ. cbn [In] in IK. lia. }
  eexists. exists q. split; [exact EN|]. split; [exact NM|]. split; [reflexivity|]. set (o := set_borders _ _).
  assert (LP : logo_options o 0).
  { unfold logo_options. split; [cbn; lia|]. split; [reflexivity|]. split; [reflexivity|]. split; [cbn; lia|]. split; [cbn; lia|]. intros i F. injection F as <-. cbn. lia. }
  split; [exact LP|]. rewrite QD in *. split; [unfold logo_fits; cbn; lia|]. intros others scale.
  destruct (PropsStandard.C39_pixels others scale 21 (qMat q) o SQ eq_refl eq_refl eq_refl) as (cv & o' & E & P).
  { cbv; intuition congruence. } { reflexivity. } { intros i F. injection F as <-. cbn. lia. } { intros i F. injection F as <-. cbn. lia. }
  exists cv, o'. split; [exact E|].
  assert (SC : scan_at 10 cv o 21 = attacked).
  { transitivity (sampled 21 (fun x y => module_at attacked x y)); [|vm_compute; reflexivity].
    unfold scan_at, sampled. apply map_ext_in. intros y IY. apply map_ext_in. intros x IX. rewrite zseq_upto in IX, IY. apply in_upto in IX, IY.
    unfold sample_x, sample_y. change (b_left o) with 0. change (b_top o) with 0. change (qrBlockWidth o) with 20. change (o_qrColor o) with color_BLACK.
    assert (RX : 0 <= 0 + x * 20 + 10 < img_w o 21) by (change (img_w o 21) with 420; lia). assert (RY : 0 <= 0 + y * 20 + 10 < img_h o 21) by (change (img_h o 21) with 420; lia).
    destruct (P _ _ RX RY) as (c & P1 & P2 & P3 & P4 & P5).
    assert (IM : in_module o x y (0 + x * 20 + 10) (0 + y * 20 + 10)) by (unfold in_module; change (b_left o) with 0; change (b_top o) with 0; change (qrBlockWidth o) with 20; lia).
    assert (G : c = if module_at letters_bitmap x y then color_BLACK else color_WHITE).
    { rewrite <- LO. destruct (module_at (m_bitmap (qMat q)) x y) eqn:EM.
      - apply (P1 x y IX IY IM EM). intros (F & _). discriminate F.
      - apply (P2 x y IX IY IM). left. exact EM. }
    change (logo_left (img_w o 21) evil_logo) with 168 in *. change (logo_top (img_h o 21) evil_logo) with 168 in *.
    assert (D : 8 <= x <= 12 /\ 8 <= y <= 12 \/ ~ (8 <= x <= 12 /\ 8 <= y <= 12)) by lia. destruct D as [D|D].
    - rewrite (P4 evil_logo eq_refl); [|unfold logo_fits; cbn; lia|].
      + change (logo_left (img_w o 21) evil_logo) with 168. change (logo_top (img_h o 21) evil_logo) with 168. cbn [evil_logo i_at].
        replace ((168 + (0 + x * 20 + 10 - 168)) / 20) with x by (apply (Z.div_unique _ _ _ 10); lia).
        replace ((168 + (0 + y * 20 + 10 - 168)) / 20) with y by (apply (Z.div_unique _ _ _ 10); lia).
        rewrite G. destruct (module_at attacked x y), (module_at letters_bitmap x y); vm_compute; reflexivity.
      + unfold in_logo. change (logo_left (img_w o 21) evil_logo) with 168. change (logo_top (img_h o 21) evil_logo) with 168. cbn [evil_logo i_x0 i_x1 i_y0 i_y1]. lia.
    - rewrite P5.
      + rewrite G, outside_same by assumption. destruct (module_at letters_bitmap x y); reflexivity.
      + intros i F LF [I1 I2]. injection F as <-. apply D.
        change (logo_left (img_w o 21) evil_logo) with 168 in I1. change (logo_top (img_h o 21) evil_logo) with 168 in I2. cbn [evil_logo i_x0 i_x1 i_y0 i_y1] in I1, I2. lia. }
  rewrite SC. split.
  { intros x y X Y N. rewrite LO. symmetry. apply outside_same; auto. intros D. apply N. unfold middle. lia. }
  split; [exact evil_text_read|]. split; [intros F; vm_compute in F; discriminate F|].
  intros [_ [md F]]. specialize (F _ evil_text_read). destruct md; cbn [carries] in F.
  - discriminate F.
  - discriminate F.
  - injection F as F. vm_compute in F. discriminate F.
  - destruct F as (codes & F & _). discriminate F.
Qed.
Print Assumptions C62_low_level_refuted.
