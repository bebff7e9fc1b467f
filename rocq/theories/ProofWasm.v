From Coq Require Import Lia Init.Byte.
From Verif Require Import ModelBase ModelQRCode ModelMatrix ModelStandard ModelSave ModelWasm SpecAPI SpecStandard SpecWasm ProofBase ProofStandard.
Open Scope string_scope.
Open Scope list_scope.
Open Scope Z_scope.

Lemma digit_value n : 0 <= n < 64 -> b64_value (b64_digit n) = Some n /\ (b64_digit n =? 61) = false.
Proof.
  intros Hn. assert (K : forallb (fun n => match b64_value (b64_digit n) with Some m => (m =? n) | None => false end && negb (b64_digit n =? 61)) (zseq 0 64) = true)
    by (vm_compute; reflexivity).
  rewrite forallb_forall in K. specialize (K n). rewrite in_zseq in K. specialize (K ltac:(lia)).
  apply andb_prop in K. destruct K as [K1 K2]. apply negb_true_iff in K2. split; [|exact K2].
  destruct (b64_value (b64_digit n)); [|discriminate K1]. apply Z.eqb_eq in K1. congruence.
Qed.

Lemma base64_back n : forall l, (length l <= n)%nat -> Forall (fun b => 0 <= b < 256) l -> base64_decode (base64 l) = Some l.
Proof.
  induction n as [|n IH]; intros l Hl F.
  - destruct l; [reflexivity|cbn in Hl; lia].
  - destruct l as [|a [|b [|c r]]]; [reflexivity| | |].
    + inversion F; subst. cbn [base64 base64_decode]. rewrite !Z.eqb_refl. cbn [andb].
      assert (A1 : 0 <= a / 4 < 64) by (split; [apply Z.div_pos; lia|apply Z.div_lt_upper_bound; lia]).
      assert (A2 : 0 <= a mod 4 < 4) by (apply Z.mod_pos_bound; lia).
      rewrite (proj1 (digit_value (a / 4) A1)), (proj1 (digit_value (a mod 4 * 16) ltac:(lia))).
      rewrite Z.div_mul by lia. pose proof (Z.div_mod a 4 ltac:(lia)). do 2 f_equal. lia.
    + inversion F as [|? ? Ha F']; subst. inversion F' as [|? ? Hb _]; subst. cbn [base64 base64_decode].
      assert (A1 : 0 <= a / 4 < 64) by (split; [apply Z.div_pos; lia|apply Z.div_lt_upper_bound; lia]).
      assert (A2 : 0 <= a mod 4 < 4) by (apply Z.mod_pos_bound; lia).
      assert (B1 : 0 <= b / 16 < 16) by (split; [apply Z.div_pos; lia|apply Z.div_lt_upper_bound; lia]).
      assert (B2 : 0 <= b mod 16 < 16) by (apply Z.mod_pos_bound; lia).
      rewrite (proj2 (digit_value (b mod 16 * 4) ltac:(lia))). rewrite !Z.eqb_refl. cbn [andb].
      rewrite (proj1 (digit_value (a / 4) A1)), (proj1 (digit_value (a mod 4 * 16 + b / 16) ltac:(lia))), (proj1 (digit_value (b mod 16 * 4) ltac:(lia))).
      rewrite Z.div_mul by lia. rewrite Z.div_add_l, (Z.div_small (b / 16) 16) by lia.
      rewrite (Z.add_comm (a mod 4 * 16)), Z.mod_add, (Z.mod_small (b / 16) 16) by lia.
      pose proof (Z.div_mod a 4 ltac:(lia)). pose proof (Z.div_mod b 16 ltac:(lia)). f_equal. f_equal; [lia|]. f_equal. lia.
    + inversion F as [|? ? Ha F1]; subst. inversion F1 as [|? ? Hb F2]; subst. inversion F2 as [|? ? Hc F3]; subst.
      cbn [base64 base64_decode].
      assert (A1 : 0 <= a / 4 < 64) by (split; [apply Z.div_pos; lia|apply Z.div_lt_upper_bound; lia]).
      assert (A2 : 0 <= a mod 4 < 4) by (apply Z.mod_pos_bound; lia).
      assert (B1 : 0 <= b / 16 < 16) by (split; [apply Z.div_pos; lia|apply Z.div_lt_upper_bound; lia]).
      assert (B2 : 0 <= b mod 16 < 16) by (apply Z.mod_pos_bound; lia).
      assert (C1 : 0 <= c / 64 < 4) by (split; [apply Z.div_pos; lia|apply Z.div_lt_upper_bound; lia]).
      assert (C2 : 0 <= c mod 64 < 64) by (apply Z.mod_pos_bound; lia).
      rewrite (proj2 (digit_value (c mod 64) C2)), andb_false_r.
      rewrite (proj1 (digit_value (a / 4) A1)), (proj1 (digit_value (a mod 4 * 16 + b / 16) ltac:(lia))),
        (proj1 (digit_value (b mod 16 * 4 + c / 64) ltac:(lia))), (proj1 (digit_value (c mod 64) C2)).
      cbn [length] in Hl. rewrite IH by (try assumption; lia).
      rewrite Z.div_add_l, (Z.div_small (b / 16) 16) by lia. rewrite Z.div_add_l, (Z.div_small (c / 64) 4) by lia.
      rewrite (Z.add_comm (a mod 4 * 16)), Z.mod_add, (Z.mod_small (b / 16) 16) by lia.
      rewrite (Z.add_comm (b mod 16 * 4) (c / 64)), (Z.mod_add (c / 64) (b mod 16) 4), (Z.mod_small (c / 64) 4) by lia.
      pose proof (Z.div_mod a 4 ltac:(lia)). pose proof (Z.div_mod b 16 ltac:(lia)). pose proof (Z.div_mod c 64 ltac:(lia)).
      f_equal. f_equal; [lia|]. f_equal; [lia|]. f_equal. lia.
Qed.

Lemma eq_str_spec a : forall b, eq_str a b = true <-> a = b.
Proof.
  induction a as [|x a IH]; intros [|y b]; cbn [eq_str]; try (split; [reflexivity || congruence | reflexivity || congruence]).
  rewrite andb_true_iff, IH. split.
  - intros [K ->]. apply Byte.byte_dec_bl in K. congruence.
  - intros [= -> ->]. split; [apply Byte.byte_dec_lb|]; reflexivity.
Qed.
Lemma eq_str_false a b : a <> b -> eq_str a b = false.
Proof. intros K. destruct (eq_str a b) eqn:E; [|reflexivity]. apply eq_str_spec in E. congruence. Qed.

Definition gen_of version mode level bg transparent fg width circle format margin : genOption :=
  mkGenOption version (mode mod 256) level bg transparent fg (width mod 256) circle format margin.

Lemma option_documented nt fields version mode level bg transparent fg width circle format margin :
  documented fields version mode level bg transparent fg width circle format margin ->
  optionFromJSValue nt (JObject fields) = Some (Some (gen_of version mode level bg transparent fg width circle format margin)).
Proof. intros [E1 E2 E3 E4 E5 E6 E7 E8 E9 E10]. cbn [optionFromJSValue]. rewrite E1, E2, E3, E4, E5, E6, E7, E8, E9, E10. reflexivity. Qed.

Lemma colour_option_bg scan s d c o : colour_text s d c -> o_bgColor o = d ->
  exists o', (if eq_str s [] then Some o else apply_option scan o (WithBgColorRGBHex (map byteZ s))) = Some o' /\ o' = set_bgColor c o.
Proof.
  intros [[-> ->]|(r1 & r2 & g1 & g2 & b1 & b2 & c1 & c2 & c3 & c4 & c5 & c6 & E & H1 & H2 & H3 & H4 & H5 & H6 & ->)] Ho.
  - exists o. split; [reflexivity|]. destruct o. cbn in *. subst. reflexivity.
  - rewrite eq_str_false by (intros ->; discriminate E). rewrite E.
    destruct (proj1 (hex_options scan o) _ _ _ _ _ _ _ _ _ _ _ _ H1 H2 H3 H4 H5 H6) as [_ ->]. eexists. split; reflexivity.
Qed.
Lemma colour_option_fg scan s d c o : colour_text s d c -> o_qrColor o = d ->
  exists o', (if eq_str s [] then Some o else apply_option scan o (WithFgColorRGBHex (map byteZ s))) = Some o' /\ o' = set_qrColor c o.
Proof.
  intros [[-> ->]|(r1 & r2 & g1 & g2 & b1 & b2 & c1 & c2 & c3 & c4 & c5 & c6 & E & H1 & H2 & H3 & H4 & H5 & H6 & ->)] Ho.
  - exists o. split; [reflexivity|]. destruct o. cbn in *. subst. reflexivity.
  - rewrite eq_str_false by (intros ->; discriminate E). rewrite E.
    destruct (proj1 (hex_options scan o) _ _ _ _ _ _ _ _ _ _ _ _ H1 H2 H3 H4 H5 H6) as [-> _]. eexists. split; reflexivity.
Qed.

(* the options of the writer *)
Definition wasm_result bgc transparent fgc width (circle : bool) format margin : options :=
  mkOptions bgc transparent fgc None None 5 false (if width mod 256 =? 0 then 20 else width mod 256)
    (Some (if circle then ShapeCircle else ShapeRectangle))
    (if eq_str format (str "jpg") || eq_str format (str "jpeg") then JpegEncoder else PngEncoder)
    (if margin =? 0 then (40, 40, 40, 40) else (margin, margin, margin, margin)) None.

Definition step scan := fun (o : option options) opt => match o with Some o => apply_option scan o opt | None => None end.
Lemma step_if scan (b : bool) opt r o : fold_left (step scan) ((if b then [] else [opt]) ++ r) (Some o) =
  fold_left (step scan) r (if b then Some o else apply_option scan o opt).
Proof. destruct b; reflexivity. Qed.

Lemma wasm_options scan version mode level bg transparent fg width circle format margin bgc fgc :
  colour_text bg color_WHITE bgc -> colour_text fg color_BLACK fgc ->
  NewWithWriter scan (outputOptions (Some (gen_of version mode level bg transparent fg width circle format margin))) =
    Some (wasm_result bgc transparent fgc width circle format margin).
Proof.
  intros Hb Hf. unfold NewWithWriter, outputOptions, gen_of. cbn [g_bgColor g_bgTransparent g_qrColor g_qrWidth g_circleShape g_imageEncoder g_margin].
  change (fun (o : option options) (opt : image_option) => match o with Some o0 => apply_option scan o0 opt | None => None end) with (step scan).
  rewrite step_if. destruct (colour_option_bg scan _ _ _ defaultOptions Hb eq_refl) as (o1 & -> & ->).
  replace (if transparent then [WithBgTransparent] else []) with (if negb transparent then [] else [WithBgTransparent]) by (destruct transparent; reflexivity).
  rewrite step_if.
  assert (exists o2, (if negb transparent then Some (set_bgColor bgc defaultOptions) else apply_option scan (set_bgColor bgc defaultOptions) WithBgTransparent) = Some o2
     /\ o_qrColor o2 = color_BLACK /\ o2 = mkOptions bgc transparent color_BLACK None None 5 false 20 (Some ShapeRectangle) JpegEncoder (40, 40, 40, 40) None)
    as (o2 & -> & E2 & E3).
  { destruct transparent; eexists; (split; [reflexivity|]); split; reflexivity. }
  rewrite step_if. destruct (colour_option_fg scan _ _ _ o2 Hf E2) as (o4 & -> & ->). subst o2.
  unfold wasm_result.
  destruct (width mod 256 =? 0), circle, (eq_str format (str "jpg") || eq_str format (str "jpeg")), (margin =? 0); reflexivity.
Qed.
