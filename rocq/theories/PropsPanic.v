(* C05, C06: exactly which calls of NewWith panic. *)
From Coq Require Import Lia.
From Verif Require Import ModelBase ModelVersion ModelQRCode.
From Verif Require Import SpecIso SpecSegment SpecAPI ProofBuild ProofAPI ProofNew PropsNew Samples.

(* NewWith panics iff the text has a defined type, or a mode other than the documented ones is in force together with a version *)
Theorem C05_panics_iff_partial :
  forall sjis, shift_jis_contract sjis ->
  forall text opts sched,
    (exists p, NewWith sjis text opts sched = Panic p) <-> ~ plain text \/ (~ supported opts /\ eff_version opts <> 0).
Proof.
  intros sjis C t opts sched. split.
  - intros (p & E). destruct t as [s|s|s|s]; try (left; exact (fun h => h)); right.
    all: match type of E with NewWith _ ?t _ _ = _ => assert (HP : plain t) by exact I end.
    all: assert (NS : ~ supported opts) by (intros SU; exact (C04_no_panic sjis C _ opts sched HP SU p E)).
    all: split; [exact NS|]; intros E0; rewrite (C05_unsupported_mode_partial sjis _ opts sched HP NS E0) in E; discriminate E.
  - intros [NP|[NS NV]].
    + exists PanicUnreachable. apply newwith_named. exact NP.
    + destruct t as [s|s|s|s].
      3:{ exists PanicUnreachable. apply newwith_named. exact (fun h => h). }
      3:{ exists PanicUnreachable. apply newwith_named. exact (fun h => h). }
      all: exists PanicNewEncoder; rewrite newwith_plain, build_unsupported by (try exact I; exact NS);
        destruct (Z.eqb_spec (eff_version opts) 0); [contradiction|reflexivity].
Qed.

(* both sides occur *)
Example C05_panics_iff_example :
  ~ plain (GoNamedString []) /\
  (~ supported [WithEncodingMode none_code; WithVersion 3] /\ eff_version [WithEncodingMode none_code; WithVersion 3] <> 0) /\
  ~ (~ plain (GoString []) \/ (~ supported [WithVersion 3] /\ eff_version [WithVersion 3] <> 0)).
Proof.
  split; [exact (fun h => h)|]. split; [split; [intros [E|[[] E]]; discriminate E|discriminate]|].
  intros [N|[N _]]; [apply N; exact I|]. apply N. left. reflexivity.
Qed.

Print Assumptions C05_panics_iff_partial.
