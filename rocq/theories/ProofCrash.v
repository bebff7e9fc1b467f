(* Proofs about ModelCrash: what is in a file while it is being written. *)
From Coq Require Import Lia.
From Verif Require Import ModelBase ModelMatrix ModelQRCode ModelSave ModelFile ModelCompressed ModelStandard ModelTerminal ModelWriters ModelCli ModelFs ModelCrash.
From Verif Require Import SpecFs SpecCrash.
From Verif Require Import ProofCompressed ProofMedium.

Lemma prefix_nil l : prefix [] l.
Proof. exists l. reflexivity. Qed.
Lemma prefix_refl l : prefix l l.
Proof. exists []. symmetry. apply app_nil_r. Qed.
Lemma prefix_trans a b c : prefix a b -> prefix b c -> prefix a c.
Proof. intros [x ->] [y ->]. exists (x ++ y). symmetry. apply app_assoc. Qed.
Lemma prefix_app a b c : prefix b c -> prefix (a ++ b) (a ++ c).
Proof. intros [x ->]. exists x. apply app_assoc. Qed.
Lemma prefix_first a b : prefix a (a ++ b).
Proof. exists b. reflexivity. Qed.
Lemma prefix_firstn n l : prefix (firstn n l) l.
Proof. exists (skipn n l). symmetry. apply firstn_skipn. Qed.

Definition at_off (c : list Z) (off : nat) (p : list Z) : list Z := firstn off c ++ p ++ skipn (off + length p) c.
Lemma at_off_write c off p : o_content (os_write (mkOs c off) p) = at_off c off p.
Proof. reflexivity. Qed.
Lemma at_off_nil c off : at_off c off [] = c.
Proof. unfold at_off. cbn [length app]. rewrite Nat.add_0_r. apply firstn_skipn. Qed.
Lemma at_off_length c off p : (off <= length c)%nat -> (off + length p <= length (at_off c off p))%nat.
Proof. intros O. unfold at_off. rewrite !app_length, firstn_length. lia. Qed.
Lemma at_off_app c off p q : (off <= length c)%nat -> at_off (at_off c off p) (off + length p) q = at_off c off (p ++ q).
Proof.
  intros O. unfold at_off. assert (LF : length (firstn off c) = off) by (rewrite firstn_length; lia).
  rewrite (app_assoc (firstn off c) p). set (A := firstn off c ++ p). assert (LA : length A = (off + length p)%nat) by (unfold A; rewrite app_length; lia).
  rewrite firstn_app, LA, Nat.sub_diag, firstn_O, app_nil_r, firstn_all2 by lia.
  rewrite skipn_app, skipn_all2 by lia. rewrite LA, skipn_add, app_length. cbn [app]. unfold A. rewrite <- !app_assoc. do 3 f_equal. f_equal. lia.
Qed.
Lemma at_off_start c p : at_off c 0 p = p ++ skipn (length p) c.
Proof. reflexivity. Qed.
Lemma at_off_end c p : at_off c (length c) p = c ++ p.
Proof. unfold at_off. rewrite firstn_all, skipn_all2 by lia. rewrite app_nil_r. reflexivity. Qed.

Lemma padded_le c off : (off <= length c)%nat -> padded c off = c.
Proof. intros O. unfold padded. rewrite (proj2 (Nat.sub_0_le _ _) O). apply app_nil_r. Qed.
Lemma fs_same fs i c : fs_set fs i c i = Some c.
Proof. unfold fs_set. rewrite Z.eqb_refl. reflexivity. Qed.
Lemma fs_other fs i c j : j <> i -> fs_set fs i c j = fs j.
Proof. intros N. unfold fs_set. destruct (Z.eqb_spec j i); [contradiction|reflexivity]. Qed.
Lemma content_some fs i c : fs i = Some c -> fs_content fs i = c.
Proof. unfold fs_content. intros ->. reflexivity. Qed.

(* operations on one file leave the others alone, wherever the process ends *)
Definition on_file (i : Z) (op : sysop) : Prop := match op with SCreate j | STrunc j | SWrite j _ _ | SClose j => j = i end.
Lemma sys_on i op fs j : on_file i op -> j <> i -> sys fs op j = fs j.
Proof. destruct op; cbn [on_file sys]; intros -> N; try (apply fs_other; exact N); reflexivity. Qed.
Lemma crashed_on i ops fs fs' : crashed fs ops fs' -> Forall (on_file i) ops -> forall j, j <> i -> fs' j = fs j.
Proof.
  induction 1 as [fs ops|fs k off data p ops P|fs op ops fs' H IH]; intros F j N; [reflexivity| |]; apply Forall_inv in F as O; apply Forall_inv_tail in F.
  - apply (sys_on i); assumption.
  - rewrite (IH F j N). apply (sys_on i); assumption.
Qed.
Lemma sys_all_on i ops : Forall (on_file i) ops -> forall fs j, j <> i -> sys_all fs ops j = fs j.
Proof.
  induction 1 as [|op ops O F IH]; intros fs j N; [reflexivity|]. unfold sys_all in *. cbn [fold_left]. rewrite IH by exact N. apply (sys_on i); assumption.
Qed.
Lemma sys_all_app fs a b : sys_all fs (a ++ b) = sys_all (sys_all fs a) b.
Proof. apply fold_left_app. Qed.
(* at the end of a run the process may end *)
Lemma crashed_end ops : forall fs, crashed fs ops (sys_all fs ops).
Proof. induction ops as [|op ops IH]; intros fs; [constructor|]. apply crash_later. apply IH. Qed.
Lemma crashed_app a b : forall fs fs', crashed fs (a ++ b) fs' -> crashed fs a fs' \/ crashed (sys_all fs a) b fs'.
Proof.
  induction a as [|op a IH]; intros fs fs' H; [right; exact H|]. cbn [app] in H. inversion H; subst.
  - left. constructor.
  - left. constructor. assumption.
  - destruct (IH _ _ H4) as [L|R]; [left; apply crash_later; exact L|right; exact R].
Qed.

Section Pieces.
Context (fails : nat -> option nat) (i : Z).
Lemma piece_ops_on pieces : forall off calls, Forall (on_file i) (piece_ops fails i off calls pieces).
Proof.
  induction pieces as [|p r IH]; intros off calls; cbn [piece_ops]; [constructor|]. destruct (fails calls); constructor; try reflexivity; [constructor|apply IH].
Qed.
(* during the writes the file holds what it held, overwritten by the beginning of the data *)
Lemma pieces_crash pieces : forall fs off calls c fs', fs i = Some c -> (off <= length c)%nat -> crashed fs (piece_ops fails i off calls pieces) fs' ->
  exists p, prefix p (concat pieces) /\ fs' i = Some (at_off c off p).
Proof.
  induction pieces as [|d r IH]; intros fs off calls c fs' EC O H; cbn [piece_ops concat] in *.
  - inversion H; subst. exists []. split; [apply prefix_nil|]. rewrite at_off_nil. exact EC.
  - assert (NOW : exists p, prefix p (d ++ concat r) /\ fs i = Some (at_off c off p)) by (exists []; split; [apply prefix_nil|rewrite at_off_nil; exact EC]).
    assert (WR : forall q, sys fs (SWrite i off q) i = Some (at_off c off q)) by (intros q; cbn [sys]; rewrite fs_same, (content_some fs i c EC), padded_le by exact O; reflexivity).
    destruct (fails calls) as [n|].
    + inversion H; subst; [exact NOW| |].
      * exists p. split; [|apply WR]. eapply prefix_trans; [eassumption|]. eapply prefix_trans; [apply prefix_firstn|apply prefix_first].
      * inversion H4; subst. exists (firstn (Nat.min n (length d - 1)) d). split; [|apply WR]. eapply prefix_trans; [apply prefix_firstn|apply prefix_first].
    + inversion H; subst; [exact NOW| |].
      * exists p. split; [|apply WR]. eapply prefix_trans; [eassumption|apply prefix_first].
      * destruct (IH _ _ _ _ _ (WR d) (at_off_length c off d O) H4) as (p & P & E). exists (d ++ p). split; [apply prefix_app; exact P|]. rewrite E, at_off_app by exact O. reflexivity.
Qed.
(* when all is done the file holds what the writer of ModelWriters.v leaves in it *)
Lemma pieces_run pieces : forall fs off calls c, fs i = Some c -> (off <= length c)%nat ->
  sys_all fs (piece_ops fails i off calls pieces) i = Some (o_content (s_file (fst (sink_write_all fails (mkSink (mkOs c off) true calls) pieces)))).
Proof.
  induction pieces as [|d r IH]; intros fs off calls c EC O; cbn [piece_ops sink_write_all]; [exact EC|]. unfold sink_write. cbn [s_open s_calls s_file].
  assert (WR : forall q, sys fs (SWrite i off q) i = Some (at_off c off q)) by (intros q; cbn [sys]; rewrite fs_same, (content_some fs i c EC), padded_le by exact O; reflexivity).
  destruct (fails calls) as [n|].
  - unfold sys_all. cbn [fold_left fst s_file]. apply WR.
  - change (sys_all fs (SWrite i off d :: piece_ops fails i (off + length d) (S calls) r)) with (sys_all (sys fs (SWrite i off d)) (piece_ops fails i (off + length d) (S calls) r)).
    rewrite (IH _ _ _ _ (WR d) (at_off_length c off d O)). reflexivity.
Qed.
End Pieces.
(* every beginning of the data is there at some moment, if nothing fails *)
Lemma pieces_reach fails i : (forall k, fails k = None) -> forall pieces p fs off calls c, fs i = Some c -> (off <= length c)%nat -> prefix p (concat pieces) ->
  exists fs', crashed fs (piece_ops fails i off calls pieces) fs' /\ fs' i = Some (at_off c off p).
Proof.
  intros NF. induction pieces as [|d r IH]; intros p fs off calls c EC O [rest E]; cbn [piece_ops concat] in *.
  - symmetry in E. apply app_eq_nil in E as [-> ->]. exists fs. split; [constructor|]. rewrite at_off_nil. exact EC.
  - rewrite NF. assert (WR : forall q, sys fs (SWrite i off q) i = Some (at_off c off q)) by (intros q; cbn [sys]; rewrite fs_same, (content_some fs i c EC), padded_le by exact O; reflexivity).
    destruct (Nat.le_gt_cases (length p) (length d)) as [L|L].
    + exists (sys fs (SWrite i off p)). split; [|apply WR]. apply crash_writing. exists (skipn (length p) d).
      assert (F : firstn (length p) (d ++ concat r) = p) by (rewrite E, firstn_app, Nat.sub_diag, firstn_O, app_nil_r, firstn_all; reflexivity).
      rewrite firstn_app, (proj2 (Nat.sub_0_le _ _) L), firstn_O, app_nil_r in F. rewrite <- F at 1. symmetry. apply firstn_skipn.
    + assert (F : firstn (length d) p = d).
      { assert (F : firstn (length d) (p ++ rest) = d) by (rewrite <- E, firstn_app, Nat.sub_diag, firstn_O, app_nil_r, firstn_all; reflexivity).
        rewrite firstn_app, (proj2 (Nat.sub_0_le (length d) (length p)) ltac:(lia)), firstn_O, app_nil_r in F. exact F. }
      assert (EP : p = d ++ skipn (length d) p) by (rewrite <- F at 1; symmetry; apply firstn_skipn).
      destruct (IH (skipn (length d) p) _ (off + length d)%nat (S calls) _ (WR d) (at_off_length c off d O)) as (fs' & H & E').
      { exists rest. rewrite EP, <- app_assoc in E. apply app_inv_head in E. exact E. }
      exists fs'. split; [apply crash_later; exact H|]. rewrite E', at_off_app, <- EP by exact O. reflexivity.
Qed.
