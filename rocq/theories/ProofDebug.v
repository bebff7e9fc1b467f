(* The mask search in debug mode: it simulates the plain one, draws every picture before the caller goes on, and ends. *)
From Coq Require Import Lia.
From Verif Require Import ModelBase ModelBinary ModelVersion ModelMatrix ModelLayout ModelMask ModelEval ModelQRCode.
From Verif Require Import ModelCompressed ModelStandard ModelWriters ModelCli ModelFs ModelDebug.
From Verif Require Import SpecIso SpecReader SpecAPI SpecMatrix SpecMedium SpecDebug.
From Verif Require Import ProofBase ProofMatrix ProofSweep ProofLayout ProofSymbol ProofEval ProofMasking.

(* ---- simulation, whatever the data ---- *)
Section Sim.
Context (resolve : path -> Z) (may_create : path -> bool) (jpeg : grey -> list (list Z)) (fails : path -> nat -> option nat) (env : list Z).
Context (v : version) (masks : list Matrix).
Notation dstep := (dstep resolve may_create jpeg fails env v masks).

Lemma dstep_core d a : d_core (dstep d a) = d_core d \/ exists b, d_core (dstep d a) = step v masks (d_core d) b.
Proof.
  destruct a as [[|i]|]; cbn [ModelDebug.dstep d_core]; auto.
  - right. exists Main. reflexivity.
  - destruct (Nat.ltb i (gSpawned (d_core d))) eqn:E; [|auto]. destruct (draw_next masks d i) as [[name m]|].
    + left. destruct (debugDraw _ _ _ _ _ _ _ _ _). reflexivity.
    + right. exists (Goroutine i). cbn [step]. rewrite E. reflexivity.
Qed.
Lemma sim sched : forall d, exists sched', d_core (fold_left dstep sched d) = fold_left (step v masks) sched' (d_core d).
Proof.
  induction sched as [|a sched IH]; intros d; [exists []; reflexivity|]. cbn [fold_left]. destruct (IH (dstep d a)) as [s' E]. rewrite E.
  destruct (dstep_core d a) as [->|[b ->]]; [exists s'; reflexivity|exists (b :: s'); reflexivity].
Qed.

(* the switch *)
Lemma enabled_on sw : sw_debug sw = true -> sw_debug (fst (debugEnabled env sw)) = true /\ snd (debugEnabled env sw) = true.
Proof. intros E. unfold debugEnabled. cbn [fst snd]. destruct (sw_once sw); cbn [sw_debug]; [auto|]. destruct (env_on env); auto. Qed.
Lemma enabled_off sw : sw_debug sw = false -> sw_once sw = true -> debugEnabled env sw = (sw, false).
Proof. intros E O. unfold debugEnabled. rewrite O, E. reflexivity. Qed.

Lemma draw_next_drawn d i name m : draw_next masks d i = Some (name, m) -> exists j, (j < 4)%nat /\ nth_error (d_drawn d) i = Some j /\ name = draft j i.
Proof.
  unfold draw_next. destruct (nth_error (gPcs (d_core d)) i) as [pc|]; [|discriminate].
  destruct (nth_error (d_drawn d) i) as [n|]; [|destruct pc; discriminate].
  destruct (nth_error (gMats (d_core d)) i); destruct (nth_error masks i); destruct pc; try discriminate; destruct n as [|[|[|[|?]]]]; try discriminate;
    intros [= <- _]; eexists; (split; [|split; reflexivity]); lia.
Qed.
Lemma draft_in j i : (j < 4)%nat -> (i < 8)%nat -> In (draft j i) draft_names.
Proof. intros J I. apply in_flat_map. exists j. split; [apply in_seq; lia|]. apply in_map, in_seq. lia. Qed.
Lemma draw_file_only fs name m id : id <> resolve name -> draw_file resolve may_create jpeg fails fs name m id = fs id.
Proof.
  intros N. unfold draw_file. destruct (may_create name); [|reflexivity]. destruct (debug_picture m) as [[w h] p]. destruct (encoder_refuses _ _ _).
  - unfold fs_set. destruct (Z.eqb_spec id (resolve name)); [contradiction|reflexivity].
  - destruct (sink_write_all _ _ _). unfold fs_set. destruct (Z.eqb_spec id (resolve name)); [contradiction|reflexivity].
Qed.

(* files are touched only under the 32 names *)
Lemma only_drafts sched : forall d, length (d_drawn d) = 8%nat -> forall id, (forall a, In a draft_names -> resolve a <> id) ->
  d_fs (fold_left dstep sched d) id = d_fs d id.
Proof.
  induction sched as [|a sched IH]; intros d HL id HN; [reflexivity|]. cbn [fold_left].
  assert (K : length (d_drawn (dstep d a)) = 8%nat /\ d_fs (dstep d a) id = d_fs d id).
  { destruct a as [[|i]|]; cbn [ModelDebug.dstep]; auto. destruct (Nat.ltb i _); [|auto]. destruct (draw_next masks d i) as [[name m]|] eqn:ED; [|auto].
    destruct (debugDraw _ _ _ _ _ _ _ _ _) as [sw fs] eqn:EE. cbn [d_drawn d_fs]. rewrite upd_length. split; [exact HL|].
    unfold debugDraw in EE. destruct (debugEnabled env (d_sw d)) as [sw' on]. injection EE as <- <-. destruct on; [|reflexivity].
    destruct (draw_next_drawn _ _ _ _ ED) as (j & J & EJ & ->). apply draw_file_only. apply not_eq_sym, HN, draft_in; [exact J|].
    rewrite <- HL. apply nth_error_Some. congruence. }
  destruct K as [K1 K2]. rewrite IH; auto.
Qed.
(* and not at all while debug mode is off *)
Lemma off_quiet sched : ~ In SwitchOn sched -> forall d, sw_debug (d_sw d) = false -> sw_once (d_sw d) = true -> d_fs (fold_left dstep sched d) = d_fs d.
Proof.
  induction sched as [|a sched IH]; intros NS d OFF ON; [reflexivity|]. cbn [fold_left].
  assert (K : d_fs (dstep d a) = d_fs d /\ d_sw (dstep d a) = d_sw d).
  { destruct a as [[|i]|]; cbn [ModelDebug.dstep]; auto. 2: { exfalso. apply NS. left. reflexivity. }
    destruct (Nat.ltb i _); [|auto]. destruct (draw_next masks d i) as [[name m]|]; [|auto].
    unfold debugDraw. rewrite (enabled_off _ OFF ON). auto. }
  destruct K as [K1 K2]. rewrite IH; [exact K1|intros X; apply NS; right; exact X|rewrite K2; exact OFF|rewrite K2; exact ON].
Qed.
End Sim.

(* ---- progress: the abstract machine of ProofMasking, with the number of drawings made by each goroutine ---- *)
Definition dprog := (progress * (nat -> nat))%type.
Definition draws_now (p n : nat) : bool := (Nat.eqb p 0 && Nat.ltb n 2) || (Nat.eqb p 1 && Nat.eqb n 2) || (Nat.eqb p 5 && Nat.eqb n 3).
Definition bump (dr : nat -> nat) (i : nat) : nat -> nat := fun j => if Nat.eqb i j then S (dr j) else dr j.
Definition dastep (A : dprog) (a : dactor) : dprog :=
  match a with
  | SwitchOn => A
  | Actor Main => (astep (fst A) Main, snd A)
  | Actor (Goroutine i) =>
    if Nat.ltb i (spawned (fst A)) && draws_now (prog (fst A) i) (snd A i) then (fst A, bump (snd A) i) else (astep (fst A) (Goroutine i), snd A)
  end.
(* how far the drawings are at each point *)
Definition in_step (p n : nat) : Prop :=
  match p with 0 => n <= 2 | 1 => 2 <= n <= 3 | 2 | 3 | 4 => n = 3 | 5 => 3 <= n <= 4 | _ => n = 4 end%nat.
Definition start : dprog := (mkP (fun _ => 0%nat) 0 false, fun _ => 0%nat).
Definition drun (sched : list dactor) : dprog := fold_left dastep sched start.

Record wfD (A : dprog) : Prop := { wd_p : wfP (fst A); wd_s : forall i, in_step (prog (fst A) i) (snd A i) }.
Definition dmeasure (A : dprog) : nat := (measure (fst A) + fold_right Nat.add 0 (map (snd A) (seq 0 8)))%nat.

Lemma in_step_4 p n : (p <= 6)%nat -> in_step p n -> (n <= 4)%nat.
Proof. destruct p as [|[|[|[|[|[|[|p]]]]]]]; cbn; lia. Qed.
Lemma sum_bump dr i : forall l, NoDup l -> fold_right Nat.add 0%nat (map (bump dr i) l) = ((if in_dec Nat.eq_dec i l then 1 else 0) + fold_right Nat.add 0 (map dr l))%nat.
Proof.
  induction l as [|a l IH]; intros ND; [reflexivity|]. inversion ND; subst. cbn [map fold_right]. rewrite IH by auto. unfold bump at 1.
  destruct (Nat.eqb_spec i a) as [->|N].
  - destruct (in_dec Nat.eq_dec a l); [contradiction|]. destruct (in_dec Nat.eq_dec a (a :: l)) as [_|C]; [lia|]. exfalso; apply C; left; auto.
  - destruct (in_dec Nat.eq_dec i l) as [Y|NY], (in_dec Nat.eq_dec i (a :: l)) as [Y2|NY2]; try lia.
    + exfalso. apply NY2. right; auto.
    + exfalso. destruct Y2; [congruence|contradiction].
Qed.

Lemma draws_now_ok p n : draws_now p n = true -> (p <= 6)%nat -> in_step p n -> in_step p (S n).
Proof.
  unfold draws_now. destruct p as [|[|[|[|[|[|p]]]]]]; cbn [Nat.eqb andb orb in_step]; try discriminate; intros E _ K.
  - rewrite !orb_false_r in E. apply Nat.ltb_lt in E. lia.
  - rewrite orb_false_r in E. apply Nat.eqb_eq in E. lia.
  - apply Nat.eqb_eq in E. lia.
Qed.
Lemma no_draw_ok p n : draws_now p n = false -> (p < 6)%nat -> in_step p n -> in_step (S p) n.
Proof.
  unfold draws_now. destruct p as [|[|[|[|[|[|p]]]]]]; cbn [Nat.eqb andb orb in_step]; intros E P K; try lia.
  - rewrite !orb_false_r in E. apply Nat.ltb_ge in E. lia.
  - rewrite orb_false_r in E. apply Nat.eqb_neq in E. lia.
  - apply Nat.eqb_neq in E. lia.
Qed.

Lemma dastep_wf A a : wfD A -> wfD (dastep A a).
Proof.
  intros [WP WS]. destruct A as [P dr]. cbn [fst snd] in *. destruct a as [[|i]|]; cbn [dastep fst snd].
  - constructor; cbn [fst snd]; [apply astep_wf, WP|]. intros j. unfold astep. destruct (enabled P Main); [|apply WS]. destruct (Nat.ltb _ 8); apply WS.
  - destruct (Nat.ltb i (spawned P) && draws_now (prog P i) (dr i)) eqn:E.
    + apply andb_true_iff in E as [_ E]. constructor; cbn [fst snd]; [exact WP|]. intros j. unfold bump. destruct (Nat.eqb_spec i j) as [<-|]; [|apply WS].
      apply draws_now_ok; [exact E|apply WP|apply WS].
    + constructor; cbn [fst snd]; [apply astep_wf, WP|]. intros j. unfold astep. destruct (enabled P (Goroutine i)) eqn:EE; [|apply WS]. cbn [prog].
      cbn [enabled] in EE. apply andb_true_iff in EE as [E1 E2]. rewrite E1 in E. cbn [andb] in E. apply Nat.ltb_lt in E2.
      unfold advance. destruct (Nat.eqb_spec i j) as [<-|]; [|apply WS]. replace (Nat.min 6 (S (prog P i))) with (S (prog P i)) by lia.
      apply no_draw_ok; [exact E|exact E2|apply WS].
  - constructor; auto.
Qed.
Lemma dmeasure_step A a : wfD A -> (dmeasure A <= dmeasure (dastep A a))%nat /\
  (dmeasure (dastep A a) = dmeasure A -> dastep A a = A /\ forall b, a = Actor b -> enabled (fst A) b = false).
Proof.
  intros [WP WS]. destruct A as [P dr]. cbn [fst snd] in *. unfold dmeasure. destruct a as [[|i]|]; cbn [dastep fst snd].
  - rewrite (astep_measure P Main WP). destruct (enabled P Main) eqn:E; split; try lia.
    intros _. split; [unfold astep; rewrite E; reflexivity|]. intros b [= <-]. exact E.
  - destruct (Nat.ltb i (spawned P) && draws_now (prog P i) (dr i)) eqn:E; cbn [fst snd].
    + apply andb_true_iff in E as [E _]. apply Nat.ltb_lt in E. pose proof (wp_8 _ WP). rewrite sum_bump by apply seq_NoDup.
      destruct (in_dec Nat.eq_dec i (seq 0 8)) as [_|N]; [lia|]. exfalso. apply N, in_seq. lia.
    + rewrite (astep_measure P (Goroutine i) WP). destruct (enabled P (Goroutine i)) eqn:EE; split; try lia.
      intros _. split; [unfold astep; rewrite EE; reflexivity|]. intros b [= <-]. exact EE.
  - split; [lia|]. intros _. split; [reflexivity|]. intros b X. discriminate X.
Qed.
Lemma dmeasure_bound A : wfD A -> (dmeasure A <= 89)%nat.
Proof.
  intros [WP WS]. destruct A as [P dr]. cbn [fst snd] in *. unfold dmeasure. cbn [fst snd]. pose proof (measure_bound P WP). cbn [seq map fold_right].
  assert (K : forall i, (dr i <= 4)%nat) by (intros i; apply (in_step_4 (prog P i)); [apply WP|apply WS]).
  pose proof (K 0%nat); pose proof (K 1%nat); pose proof (K 2%nat); pose proof (K 3%nat); pose proof (K 4%nat); pose proof (K 5%nat); pose proof (K 6%nat); pose proof (K 7%nat). lia.
Qed.
Lemma dfold_wf sched : forall A, wfD A -> wfD (fold_left dastep sched A).
Proof. induction sched; cbn [fold_left]; auto using dastep_wf. Qed.
Lemma dfold_measure sched : forall A, wfD A -> (dmeasure A <= dmeasure (fold_left dastep sched A))%nat /\
  (dmeasure (fold_left dastep sched A) = dmeasure A -> forall b, In (Actor b) sched -> enabled (fst A) b = false).
Proof.
  induction sched as [|a sched IH]; intros A HA; cbn [fold_left]; [split; [auto|intros _ b []]|].
  destruct (IH (dastep A a) (dastep_wf A a HA)) as [X Y]. destruct (dmeasure_step A a HA) as [U W]. split; [lia|].
  intros EQ. destruct W as [W1 W2]; [lia|]. rewrite W1 in *. intros b [E|Hb]; [apply W2, E|]. apply Y; auto.
Qed.
Lemma dover_stable sched : forall A, wfD A -> over (fst A) = true -> over (fst (fold_left dastep sched A)) = true.
Proof.
  induction sched as [|a sched IH]; intros A HA HO; cbn [fold_left]; auto. apply IH; [apply dastep_wf; auto|].
  destruct a as [[|i]|]; cbn [dastep fst]; auto.
  - unfold astep. destruct (enabled _ _); auto. destruct (Nat.ltb _ _); auto.
  - destruct (_ && _); cbn [fst]; auto. unfold astep. destruct (enabled _ _); auto.
Qed.
Lemma drounds_finish rounds : Forall dround rounds -> forall A, wfD A -> (89 <= length rounds + dmeasure A)%nat ->
  over (fst (fold_left dastep (concat rounds) A)) = true.
Proof.
  induction rounds as [|r rounds IH]; intros HR A HA HM.
  - cbn [concat fold_left length] in *. destruct (over (fst A)) eqn:EO; auto. exfalso. destruct (some_enabled _ (wd_p _ HA) EO) as (a & _ & E).
    destruct (dmeasure_step A (Actor a) HA) as [X Y]. pose proof (dmeasure_bound _ (dastep_wf A (Actor a) HA)).
    destruct Y as [_ Y]; [lia|]. rewrite (Y a eq_refl) in E. discriminate.
  - inversion HR as [|? ? HR1 HR2]; subst. cbn [concat]. rewrite fold_left_app.
    destruct (over (fst A)) eqn:EO.
    { apply dover_stable; [apply dfold_wf; auto|]. apply dover_stable; auto. }
    apply IH; [auto|apply dfold_wf; auto|].
    destruct (dfold_measure r A HA) as [X Y].
    destruct (Nat.eq_dec (dmeasure (fold_left dastep r A)) (dmeasure A)) as [E|N].
    + exfalso. destruct (some_enabled _ (wd_p _ HA) EO) as (a & Ha & Z). rewrite (Y E a (HR1 a Ha)) in Z. discriminate.
    + cbn [length] in HM. lia.
Qed.
Lemma start_wf : wfD start.
Proof. constructor; cbn; [apply wf0|]. intros i. lia. Qed.
Lemma dfair_over sched : dfair sched -> over (fst (drun sched)) = true.
Proof.
  intros (rounds & rest & -> & HL & HR). unfold drun. rewrite fold_left_app. apply dover_stable; [apply dfold_wf, start_wf|].
  apply drounds_finish; auto using start_wf. lia.
Qed.

(* ---- what is in the files ---- *)
Section Files.
Context (resolve : path -> Z) (may_create : path -> bool) (jpeg : grey -> list (list Z)) (fails : path -> nat -> option nat) (env : list Z).
Context (v : version) (masks : list Matrix) (cpy : Matrix) (fmt : nat -> binary) (vinfo : binary) (score : nat -> Z) (mk : nat -> Matrix).
Context (Hmasks : forall i, (i < 8)%nat -> nth_error masks i = Some (mk i)).
Context (Hfmt : forall i, (i < 8)%nat -> v_formatInfo v (Z.of_nat i) = Some (fmt i)).
Context (Hver : 7 <= Ver v -> v_verInfo v = Some vinfo).
Context (Hscore : forall i, (i < 8)%nat -> evaluation (candidate v cpy fmt vinfo mk i) = Some (score i)).
Context (HT : told_apart resolve) (on : bool).
Notation dstep := (dstep resolve may_create jpeg fails env v masks).
Notation inv := (inv v cpy fmt vinfo score mk).

Definition written (name : path) (m : Matrix) : list Z :=
  let '(w, h, p) := debug_picture m in
  if encoder_refuses JpegEncoder w h then []
  else let '(s, _) := sink_write_all (fails name) (standard_new None) (jpeg (w, h, p)) in o_content (s_file s).
Lemma draw_file_written fs name m : may_create name = true -> draw_file resolve may_create jpeg fails fs name m = fs_set fs (resolve name) (written name m).
Proof.
  intros MC. unfold draw_file, written. rewrite MC. destruct (debug_picture m) as [[w h] p]. destruct (encoder_refuses _ _ _); [reflexivity|].
  destruct (sink_write_all _ _ _). reflexivity.
Qed.
Definition drawing (j i : nat) : Matrix :=
  match j with 0%nat => cpy | 1%nat => mk i | 2%nat => after_xor cpy mk i | _ => candidate v cpy fmt vinfo mk i end.

Lemma draft_inj j i j' i' : (j < 4)%nat -> (i < 8)%nat -> (j' < 4)%nat -> (i' < 8)%nat -> resolve (draft j i) = resolve (draft j' i') -> j = j' /\ i = i'.
Proof.
  intros J I J' I' E. apply HT in E; [|apply draft_in; assumption..]. unfold draft, draft_prefix in E.
  destruct j as [|[|[|[|j]]]]; [| | | |lia]; destruct j' as [|[|[|[|j']]]]; [| | | |lia| | | | |lia| | | | |lia| | | | |lia];
    cbn [app] in E; try discriminate E; apply (f_equal (fun l => nth (length l - 6) l 0)) in E; cbn [length Nat.sub nth] in E; (split; [reflexivity|lia]).
Qed.

Record dinv (A : dprog) (d : dstate) : Prop := {
  di_core : inv (fst A) (d_core d);
  di_wf : wfD A;
  di_len : length (d_drawn d) = 8%nat;
  di_drawn : forall i, (i < 8)%nat -> nth_error (d_drawn d) i = Some (snd A i);
  di_on : on = true -> sw_debug (d_sw d) = true;
  di_files : on = true -> forall i j, (i < 8)%nat -> (j < snd A i)%nat -> may_create (draft j i) = true -> d_fs d (resolve (draft j i)) = Some (written (draft j i) (drawing j i))
}.

Lemma draw_next_spec A d i : dinv A d -> (i < 8)%nat ->
  draw_next masks d i = if draws_now (prog (fst A) i) (snd A i) then Some (draft (snd A i) i, drawing (snd A i) i) else None.
Proof.
  intros [IC WF LN DR _ _] I. unfold draw_next. rewrite (in_pcs _ _ _ _ _ _ _ _ IC i I), (DR i I), (in_mats _ _ _ _ _ _ _ _ IC i I), (Hmasks i I).
  pose proof (wd_s _ WF i) as WS. pose proof (wp_6 _ (wd_p _ WF) i) as W6. unfold draws_now.
  destruct (prog (fst A) i) as [|[|[|[|[|[|[|p]]]]]]]; try lia; cbn [pc_at mat_at Nat.eqb andb orb in_step] in *.
  - destruct (snd A i) as [|[|[|n]]]; try lia; reflexivity.
  - destruct (snd A i) as [|[|[|[|n]]]]; try lia; reflexivity.
  - reflexivity.
  - reflexivity.
  - reflexivity.
  - destruct (snd A i) as [|[|[|[|[|n]]]]]; try lia; reflexivity.
  - reflexivity.
Qed.

Lemma dstep_inv A d a : dinv A d -> dinv (dastep A a) (dstep d a).
Proof.
  intros DI. pose proof DI as [IC WF LN DR ON FI]. pose proof (dastep_wf A a WF) as WF'.
  destruct a as [[|i]|]; cbn [dastep ModelDebug.dstep] in *.
  - constructor; cbn [fst snd d_core d_drawn d_sw d_fs]; auto. exact (step_inv v masks cpy fmt vinfo score mk Hmasks Hfmt Hver Hscore (fst A) (d_core d) Main IC).
  - rewrite (in_sp _ _ _ _ _ _ _ _ IC). destruct (Nat.ltb_spec i (spawned (fst A))) as [SP|SP]; cbn [andb] in *.
    + pose proof (in_sp8 _ _ _ _ _ _ _ _ IC). assert (I : (i < 8)%nat) by lia. rewrite (draw_next_spec A d i DI I).
      destruct (draws_now (prog (fst A) i) (snd A i)) eqn:DN.
      * assert (J4 : (snd A i < 4)%nat). { pose proof (wd_s _ WF' i) as X. cbn [fst snd] in X. unfold bump in X. rewrite Nat.eqb_refl in X. apply in_step_4 in X; [lia|apply WF]. }
        assert (ON' : on = true -> sw_debug (fst (debugEnabled env (d_sw d))) = true /\ snd (debugEnabled env (d_sw d)) = true) by (intros X; apply enabled_on, ON, X).
        unfold debugDraw. destruct (debugEnabled env (d_sw d)) as [sw on']. cbn [fst snd] in ON'.
        constructor; cbn [fst snd d_core d_drawn d_sw d_fs]; auto; [| |apply ON'|].
        -- rewrite upd_length. exact LN.
        -- intros k K. rewrite nth_error_upd. unfold bump. destruct (Nat.eqb_spec i k) as [<-|N]; [|apply DR, K]. rewrite (DR i I). f_equal.
           rewrite (nth_error_nth _ _ _ (DR i I)). reflexivity.
        -- intros OT. destruct (ON' OT) as [_ ->]. specialize (FI OT). intros k j K J MC. assert (J4' : (j < 4)%nat) by (pose proof (wd_s _ WF' k) as X; cbn [fst snd] in X; apply in_step_4 in X; [lia|apply WF]).
           destruct (may_create (draft (snd A i) i)) eqn:MC'.
           ++ rewrite draw_file_written by exact MC'. unfold fs_set, bump in *. destruct (Z.eqb_spec (resolve (draft j k)) (resolve (draft (snd A i) i))) as [E|N].
              ** apply draft_inj in E as [-> ->]; try assumption. reflexivity.
              ** destruct (Nat.eqb_spec i k) as [<-|NK]; [|apply FI; assumption]. apply FI; try assumption. assert (j <> snd A i) by congruence. lia.
           ++ unfold draw_file. rewrite MC'. unfold bump in J. destruct (Nat.eqb_spec i k) as [<-|NK]; [|apply FI; assumption].
              apply FI; try assumption. assert (j <> snd A i) by congruence. lia.
      * constructor; cbn [fst snd d_core d_drawn d_sw d_fs]; auto.
        pose proof (step_inv v masks cpy fmt vinfo score mk Hmasks Hfmt Hver Hscore (fst A) (d_core d) (Goroutine i) IC) as X. cbn [step] in X.
        rewrite (in_sp _ _ _ _ _ _ _ _ IC) in X. destruct (Nat.ltb_spec i (spawned (fst A))); [exact X|lia].
    + assert (E : astep (fst A) (Goroutine i) = fst A). { unfold astep, enabled. destruct (Nat.ltb_spec i (spawned (fst A))); [lia|]. reflexivity. }
      rewrite E in *. destruct A as [P dr]. exact DI.
  - constructor; auto.
Qed.
Lemma drun_inv sched : forall A d, dinv A d -> dinv (fold_left dastep sched A) (fold_left dstep sched d).
Proof. induction sched as [|a sched IH]; intros A d DI; cbn [fold_left]; auto. apply IH, dstep_inv, DI. Qed.
Lemma dinit_inv sw fs : wf cpy -> (on = true -> sw_debug sw = true) -> dinv start (mkD (ginit cpy) (repeat 0%nat 8) sw fs).
Proof.
  intros W ON. constructor; cbn [fst snd start d_core d_drawn d_sw d_fs]; auto.
  - apply init_inv, W.
  - apply start_wf.
  - intros i I. do 8 (destruct i as [|i]; [reflexivity|]). lia.
  - intros _ i j I J. lia.
Qed.

(* once the caller has passed wg.Wait(), everything is drawn, and the matrices are the candidates *)
Lemma drawn_at_end A d : dinv A d -> gMain (d_core d) = true ->
  (forall i, (i < 8)%nat -> nth_error (gMats (d_core d)) i = Some (candidate v cpy fmt vinfo mk i)) /\
  (on = true -> forall i j, (i < 8)%nat -> (j < 4)%nat -> may_create (draft j i) = true -> d_fs d (resolve (draft j i)) = Some (written (draft j i) (drawing j i))).
Proof.
  intros [IC WF LN DR ON FI] GM. rewrite (in_main _ _ _ _ _ _ _ _ IC) in GM. destruct (in_over _ _ _ _ _ _ _ _ IC GM) as [_ F]. rewrite finished_all in F.
  split.
  - intros i I. rewrite (in_mats _ _ _ _ _ _ _ _ IC i I). specialize (F i I). pose proof (wp_6 _ (wd_p _ WF) i).
    replace (prog (fst A) i) with 6%nat by lia. reflexivity.
  - intros OT i j I J MC. apply FI; auto. specialize (F i I). pose proof (wp_6 _ (wd_p _ WF) i). pose proof (wd_s _ WF i) as X.
    replace (prog (fst A) i) with 6%nat in X by lia. cbn in X. lia.
Qed.
End Files.
