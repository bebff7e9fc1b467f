(* C88: the symbol does not depend on how wide an int is. *)
From Coq Require Import ZArith List Lia.
From Verif Require Import ModelBase ModelVersion ModelMatrix ModelQRCode ModelInt.
From Verif Require Import SpecAPI SpecSegment ProofBase ProofBuild ProofVersion ProofAPI ProofIntNew Samples.
Import ListNotations.
Open Scope Z_scope.

(* what a w-bit int keeps of a number: the only number in range that differs from it by a multiple of 2^w *)
Theorem C88_wrap w z : 1 <= w -> - 2 ^ (w - 1) <= wrap_bits w z < 2 ^ (w - 1) /\ exists k, z = wrap_bits w z + k * 2 ^ w.
Proof.
  intros Hw. assert (P : 0 < 2 ^ (w - 1)) by (apply Z.pow_pos_nonneg; lia).
  assert (D : 2 ^ w = 2 * 2 ^ (w - 1)) by (replace w with (Z.succ (w - 1)) at 1 by lia; apply Z.pow_succ_r; lia).
  unfold wrap_bits. pose proof (Z.mod_pos_bound (z + 2 ^ (w - 1)) (2 ^ w) ltac:(lia)). split; [lia|].
  exists ((z + 2 ^ (w - 1)) / 2 ^ w). pose proof (Z.div_mod (z + 2 ^ (w - 1)) (2 ^ w) ltac:(lia)). lia.
Qed.
Lemma wrap_small w z : 1 <= w -> - 2 ^ (w - 1) <= z < 2 ^ (w - 1) -> wrap_bits w z = z.
Proof.
  intros Hw Hz. assert (D : 2 ^ w = 2 * 2 ^ (w - 1)) by (replace w with (Z.succ (w - 1)) at 1 by lia; apply Z.pow_succ_r; lia).
  unfold wrap_bits. rewrite Z.mod_small by lia. lia.
Qed.

(* a text that a machine with w-bit ints can hold; with a version forced by the caller the text is not bounded by the capacity of a
   symbol, and the number of its bits must fit an int too *)
Definition text_fits (w : Z) (text : GoText) (opts : list EncodeOption) : Prop :=
  zlen (text_bytes text) < 2 ^ (w - 1) /\ (eff_version opts = 0 \/ 16 * zlen (text_bytes text) + 200 < 2 ^ (w - 1)).

Theorem C88_same_as_unbounded w sjis text opts sched : 32 <= w -> shift_jis_contract sjis -> text_fits w text opts ->
  NewWithI (wrap_bits w) sjis text opts sched = NewWith sjis text opts sched.
Proof.
  intros Hw SC [F1 F2].
  assert (big : 2147483648 <= 2 ^ (w - 1)) by (change 2147483648 with (2 ^ 31); apply Z.pow_le_mono_r; lia).
  unfold NewWithI, NewWith. unfold toBytes. destruct text; try reflexivity; cbn [bind].
  all: rewrite apply_options_spec; apply (build_int (wrap_bits w) (2 ^ (w - 1)) big (fun z H => wrap_small w z ltac:(lia) H));
       [exact SC|cbn [oMinimumVersion]; destruct (eff_min_range opts) as [->|?]; unfold SpecIso.valid_version in *; lia|exact F1|exact F2].
Qed.
Print Assumptions C88_same_as_unbounded.

(* 32-bit and 64-bit machines print the same symbol, or the same error, on the same schedule *)
Theorem C88_widths_agree w1 w2 sjis text opts sched : 32 <= w1 -> 32 <= w2 -> shift_jis_contract sjis -> text_fits w1 text opts -> text_fits w2 text opts ->
  NewWithI (wrap_bits w1) sjis text opts sched = NewWithI (wrap_bits w2) sjis text opts sched.
Proof. intros. rewrite !C88_same_as_unbounded by assumption. reflexivity. Qed.
Print Assumptions C88_widths_agree.

(* what the bound is: on 32 bits every text of less than 2 GB when the version is left to the library, and of less than 128 MB in any case *)
Theorem C88_on_32_bits text opts : (eff_version opts = 0 -> zlen (text_bytes text) < 2147483648 -> text_fits 32 text opts) /\
  (zlen (text_bytes text) <= 134217000 -> text_fits 32 text opts).
Proof. unfold text_fits. change (2 ^ (32 - 1)) with 2147483648. split; [intros A C; auto|intros A; split; [|right]; lia]. Qed.

Example C88_meets : text_fits 32 hello [] /\ text_fits 64 hello [WithVersion 40] /\ shift_jis_contract sample_sjis.
Proof. split; [|split; [|exact sample_contract]]; split; vm_compute; auto; right; reflexivity. Qed.

(* the width matters: with 8 bits the table of versions is read outside its bounds *)
Example C88_eight_bits : NewWithI (wrap_bits 8) sample_sjis hello [WithVersion 40] [] = Panic PanicIndex.
Proof. vm_compute. reflexivity. Qed.
Print Assumptions C88_on_32_bits.
Print Assumptions C88_wrap.
