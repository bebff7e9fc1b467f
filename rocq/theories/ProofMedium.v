From Coq Require Import Lia.
From Verif Require Import ModelBase ModelMatrix ModelQRCode ModelSave ModelFile ModelTerminal ModelCompressed ModelStandard ModelWriters.
From Verif Require Import SpecIso SpecReader SpecSegment SpecAPI SpecMatrix SpecText SpecImage SpecStandard SpecTerminal SpecMedium.
From Verif Require Import ProofBase ProofMatrix ProofViews ProofEval ProofFile ProofCompressed ProofStandard ProofTerminal ProofMode ProofSegment ProofAPI ProofNew ProofRecovery ProofSearch ProofBuild.

Lemma sampled_bitmap n m f : square n m -> (forall x y, 0 <= x < n -> 0 <= y < n -> f x y = module_at (m_bitmap m) x y) -> sampled n f = m_bitmap m.
Proof.
  intros (Wf & EW & EH) A. rewrite (bitmap_rows m Wf) at 1. unfold sampled, rows_of. rewrite EW, EH, zseq_upto.
  apply map_ext_in. intros y HY. apply in_upto in HY. apply map_ext_in. intros x HX. apply in_upto in HX.
  rewrite A by assumption. apply module_at_bitmap; [exact Wf|]. split; lia.
Qed.

Lemma made_square sjis : shift_jis_contract sjis -> forall text opts sched q,
  NewWith sjis text opts sched = Ok q -> square (q_dimension q) (qMat q) /\ 21 <= q_dimension q.
Proof.
  intros C text opts sched q HN. destruct (newwith_made sjis C text opts sched q HN) as (md & pl & l & v & b & w & k & c & s & HM).
  destruct (blocks_made _ _ _ _ _ _ _ _ _ _ _ _ _ HM) as (RV & HK & _).
  destruct (md_cand _ _ _ _ _ _ _ _ _ _ _ _ _ HM k HK) as [SY _]. rewrite <- (md_mat _ _ _ _ _ _ _ _ _ _ _ _ _ HM) in SY.
  assert (VV : valid_version v) by apply HM.
  split.
  - unfold q_dimension. destruct SY as [A B D _ _ _ _ _ _]. split; [exact A|]. split; [reflexivity|]. lia.
  - unfold q_dimension. destruct SY as [A B D _ _ _ _ _ _]. rewrite B. unfold side. unfold valid_version in VV. lia.
Qed.
Lemma symbol_reads_back sjis : shift_jis_contract sjis -> forall text opts sched q,
  NewWith sjis text opts sched = Ok q -> ~ misdetected sjis opts (text_bytes text) ->
  square (q_dimension q) (qMat q) /\ 21 <= q_dimension q /\ reads_back sjis text (m_bitmap (qMat q)).
Proof.
  intros C text opts sched q HN NM. destruct (newwith_made sjis C text opts sched q HN) as (md & pl & l & v & b & w & k & c & s & HM).
  destruct (choice_text _ _ _ _ _ (md_choice _ _ _ _ _ _ _ _ _ _ _ _ _ HM)) as [[HT HP]|(_ & E1 & E2 & _)].
  2:{ exfalso. apply NM. split; auto. apply mixed_iff; auto. }
  destruct (blocks_made _ _ _ _ _ _ _ _ _ _ _ _ _ HM) as (RV & HK & _).
  destruct (md_cand _ _ _ _ _ _ _ _ _ _ _ _ _ HM k HK) as [SY _]. rewrite <- (md_mat _ _ _ _ _ _ _ _ _ _ _ _ _ HM) in SY.
  assert (VV : valid_version v) by apply HM.
  split; [|split].
  - unfold q_dimension. destruct SY as [A B D _ _ _ _ _ _]. split; [exact A|]. split; [reflexivity|]. lia.
  - unfold q_dimension. destruct SY as [A B D _ _ _ _ _ _]. rewrite B. unfold side. unfold valid_version in VV. lia.
  - exists md, (expected sjis md (text_bytes text)). split; [eapply read_made; eauto|apply carries_expected; auto].
Qed.

(* ---- sinks ---- *)
Lemma sink_all fails : (forall k, fails k = None) -> forall pieces f calls,
  exists calls', sink_write_all fails (mkSink f true calls) pieces = (mkSink (os_write_all f pieces) true calls', None).
Proof.
  intros NF. induction pieces as [|p r IH]; intros f calls; cbn [sink_write_all]; [exists calls; reflexivity|].
  unfold sink_write. cbn [s_open s_calls s_file]. rewrite NF. apply IH.
Qed.
(* whatever fails: no error is reported only if everything was written *)
Lemma sink_all_none fails pieces : forall s s', sink_write_all fails s pieces = (s', None) ->
  s_file s' = os_write_all (s_file s) pieces /\ s_open s' = s_open s /\ (pieces <> [] -> s_open s = true).
Proof.
  induction pieces as [|p r IH]; intros s s' E; cbn [sink_write_all] in E.
  - injection E as <-. repeat split; congruence.
  - unfold sink_write in E. destruct (s_open s) eqn:O; [|discriminate E]. destruct (fails (s_calls s)); [discriminate E|].
    apply IH in E as (A & B & D). cbn [s_file s_open] in *. split; [exact A|]. split; [congruence|]. reflexivity.
Qed.
(* and an error is reported exactly when a write fails *)
Lemma sink_all_error fails pieces : forall f calls,
  (exists s', sink_write_all fails (mkSink f true calls) pieces = (s', None)) <-> (forall k, (k < length pieces)%nat -> fails (calls + k)%nat = None).
Proof.
  induction pieces as [|p r IH]; intros f calls; cbn [sink_write_all length].
  - split; [intros _ k K; lia|]. eexists. reflexivity.
  - unfold sink_write. cbn [s_open s_calls s_file]. destruct (fails calls) eqn:F.
    + split; [intros [s' E]; discriminate E|]. intros A. specialize (A 0%nat ltac:(lia)). rewrite Nat.add_0_r in A. congruence.
    + rewrite IH. split.
      * intros A k K. destruct k as [|k]; [rewrite Nat.add_0_r; exact F|]. replace (calls + S k)%nat with (S calls + k)%nat by lia. apply A. lia.
      * intros A k K. replace (S calls + k)%nat with (calls + S k)%nat by lia. apply A. lia.
Qed.

Lemma encodable_iff e w h : encoder_refuses e w h = false <-> encodable e w h.
Proof.
  unfold encoder_refuses, encodable. destruct e; rewrite ?orb_false_iff, ?Z.leb_gt; change (2 ^ 16) with 65536; change (2 ^ 32) with 4294967296; [lia|lia|tauto].
Qed.
Lemma encodable_ok e w h : encodable e w h -> encoder_refuses e w h = false.
Proof. apply encodable_iff. Qed.
Lemma draw_encoder others scale n m o w h cv o' : square n m -> draw others scale m o = Some (w, h, cv, o') -> o_encoder o' = o_encoder o.
Proof.
  intros HS. unfold draw, draw_with. destruct (plan_spec scale n m o HS) as (p & t & -> & _ & _ & _ & _ & _ & ST & _). cbv zeta. intros [= _ _ _ <-].
  destruct ST as [[[c ->] _] _]. reflexivity.
Qed.
