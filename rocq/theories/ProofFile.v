(* The file writer: the text determines the bitmap; failures leave a prefix. *)
From Coq Require Import Lia.
From Verif Require Import ModelBase ModelUtf8 ModelMatrix ModelFile.
From Verif Require Import SpecIso SpecReader SpecText SpecMatrix ProofBase ProofMatrix ProofViews.

Fixpoint pair_rows (bm : list (list bool)) : list (list (bool * bool)) :=
  match bm with
  | [] => []
  | [r] => [map (fun u => (u, false)) r]
  | r1 :: r2 :: t => combine r1 r2 :: pair_rows t
  end.

Definition rune_of (p : bool * bool) : Z :=
  match p with (true, true) => upDownRune | (true, false) => upRune | (false, true) => downRune | (false, false) => spaceRune end.

Lemma two_ind {A} (P : list A -> Prop) : P [] -> (forall a, P [a]) -> (forall a b l, P l -> P (a :: b :: l)) -> forall l, P l.
Proof.
  intros H0 H1 H2. fix IH 1. intros [|a [|b l]]; [exact H0|apply H1|apply H2, IH].
Qed.

Lemma pair_rows_back w : forall bm, Forall (fun r => length r = w) bm ->
  firstn (length bm) (flat_map (fun l => [map fst l; map snd l]) (pair_rows bm)) = bm.
Proof.
  induction bm as [|r|r1 r2 bm IH] using two_ind; intros HF; [reflexivity| |].
  - cbn. rewrite map_map. cbn [fst]. rewrite map_id. reflexivity.
  - inversion HF as [|? ? H1 HF']; subst. inversion HF' as [|? ? H2 HF'']; subst.
    cbn [pair_rows flat_map app length firstn]. rewrite IH by auto. f_equal; [|f_equal].
    + clear - H2. revert r2 H2. induction r1 as [|x r1 IH]; intros [|y r2] E; cbn in *; try lia; auto. f_equal. apply IH. lia.
    + clear - H2. revert r2 H2. induction r1 as [|x r1 IH]; intros [|y r2] E; cbn in *; try lia; auto. f_equal. apply IH. lia.
Qed.

Lemma pair_rows_length bm : length (pair_rows bm) = Nat.div2 (S (length bm)).
Proof. induction bm as [|r|r1 r2 bm IH] using two_ind; [reflexivity|reflexivity|]. cbn [pair_rows length]. rewrite IH. reflexivity. Qed.

Lemma pair_rows_width w bm : Forall (fun r => length r = w) bm -> Forall (fun l => length l = w) (pair_rows bm).
Proof.
  induction bm as [|r|r1 r2 bm IH] using two_ind; intros HF; [constructor| |].
  - inversion HF; subst. constructor; [apply map_length|constructor].
  - inversion HF as [|? ? H1 HF']; subst. inversion HF' as [|? ? H2 HF'']; subst. cbn [pair_rows]. constructor; [|apply IH; auto].
    rewrite combine_length. lia.
Qed.

(* a pair as the code reads it *)
Definition pair_at (bm : list (list bool)) (i x : nat) : bool * bool :=
  (nth x (nth (2 * i) bm []) false, nth x (nth (2 * i + 1) bm []) false).

Lemma nth_combine r1 r2 x : length r1 = length r2 -> nth x (combine r1 r2) (false, false) = (nth x r1 false, nth x r2 false).
Proof. intros E. apply combine_nth; auto. Qed.

Lemma pair_rows_nth w bm : Forall (fun r => length r = w) bm -> forall i x, (i < length (pair_rows bm))%nat -> (x < w)%nat ->
  nth x (nth i (pair_rows bm) []) (false, false) = pair_at bm i x.
Proof.
  induction bm as [|r|r1 r2 bm IH] using two_ind; intros HF i x Hi Hx; [cbn in Hi; lia| |].
  - cbn in Hi. assert (i = 0)%nat by lia. subst i. inversion HF; subst. unfold pair_at. cbn [pair_rows nth Nat.mul Nat.add].
    change (false, false) with ((fun u : bool => (u, false)) false). rewrite map_nth. destruct x; reflexivity.
  - inversion HF as [|? ? H1 HF']; subst. inversion HF' as [|? ? H2 HF'']; subst. destruct i as [|i].
    + cbn [pair_rows nth]. rewrite nth_combine by lia. reflexivity.
    + cbn [pair_rows nth]. cbn [pair_rows length] in Hi. rewrite IH by (auto; lia). unfold pair_at.
      replace (2 * S i)%nat with (S (S (2 * i))) by lia. reflexivity.
Qed.

Lemma collect_map {A B} (f : A -> option B) (g : A -> B) l : (forall a, In a l -> f a = Some (g a)) -> collect (map f l) = Some (map g l).
Proof.
  induction l as [|a l IH]; intros HF; [reflexivity|]. cbn [map collect]. rewrite (HF a (or_introl eq_refl)), IH; auto. intros b Hb. apply HF. right; auto.
Qed.

Lemma bm_get_nth w bm y x : Forall (fun r => length r = w) bm -> (y < length bm)%nat -> (x < w)%nat ->
  bm_get bm (Z.of_nat y) (Z.of_nat x) = Some (nth x (nth y bm []) false).
Proof.
  intros HF Hy Hx. unfold bm_get. rewrite zget_nth by lia. rewrite Nat2Z.id.
  destruct (nth_error bm y) as [r|] eqn:E; [|apply nth_error_None in E; lia].
  assert (HR : length r = w) by (rewrite Forall_forall in HF; apply HF; eapply nth_error_In; eauto).
  rewrite (nth_error_nth _ _ _ E), zget_nth, Nat2Z.id by lia.
  destruct (nth_error r x) as [b|] eqn:E2; [|apply nth_error_None in E2; lia]. rewrite (nth_error_nth _ _ _ E2). reflexivity.
Qed.

Lemma selectRune_ok w bm : Forall (fun r => length r = w) bm -> forall i x, (2 * i < length bm)%nat -> (x < w)%nat ->
  selectRune bm (Z.of_nat i) (Z.of_nat x) = Some (rune_of (pair_at bm i x)).
Proof.
  intros HF i x Hi Hx. unfold selectRune. replace (Z.of_nat i * 2) with (Z.of_nat (2 * i)) by lia.
  rewrite (bm_get_nth w) by auto. cbv zeta. unfold pair_at. set (u := nth x (nth (2 * i) bm []) false).
  replace (Z.of_nat (2 * i) + 1) with (Z.of_nat (2 * i + 1)) by lia. unfold zlen.
  destruct (Z.ltb_spec (Z.of_nat (2 * i + 1)) (Z.of_nat (length bm))) as [LT|GE].
  - rewrite (bm_get_nth w) by (auto; lia). destruct (nth x (nth (2 * i + 1) bm []) false), u; reflexivity.
  - rewrite (nth_overflow bm) by lia. destruct u; destruct x; reflexivity.
Qed.

Lemma seq_upto n : upto (Z.of_nat n) = map Z.of_nat (seq 0 n).
Proof. unfold upto. rewrite Nat2Z.id. reflexivity. Qed.

Lemma list_by_nth {A} (d : A) l n : length l = n -> l = map (fun i => nth i l d) (seq 0 n).
Proof.
  intros <-. induction l as [|a l IH]; [reflexivity|]. cbn [length seq map nth]. f_equal. rewrite <- seq_shift, map_map. exact IH.
Qed.

Lemma output_ok w bm : Forall (fun r => length r = w) bm -> output bm = Some (map (map rune_of) (pair_rows bm)).
Proof.
  intros HF. unfold output. rewrite zseq_upto.
  assert (EN : Z.quot (zlen bm) 2 + Z.rem (zlen bm) 2 = Z.of_nat (length (pair_rows bm))).
  { rewrite pair_rows_length. unfold zlen. rewrite Z.quot_div_nonneg, Z.rem_mod_nonneg by lia.
    rewrite Nat.div2_div. rewrite Nat2Z.inj_div. change (Z.of_nat 2) with 2.
    pose proof (Z.div_mod (Z.of_nat (length bm)) 2 ltac:(lia)). pose proof (Z.mod_pos_bound (Z.of_nat (length bm)) 2 ltac:(lia)).
    pose proof (Z.div_mod (Z.of_nat (S (length bm))) 2 ltac:(lia)). pose proof (Z.mod_pos_bound (Z.of_nat (S (length bm))) 2 ltac:(lia)). lia. }
  rewrite EN, seq_upto.
  assert (LIM : forall i, (i < length (pair_rows bm))%nat -> (2 * i < length bm)%nat).
  { intros i Hi. rewrite pair_rows_length, Nat.div2_div in Hi. pose proof (Nat.div_mod (S (length bm)) 2 ltac:(lia)). pose proof (Nat.mod_upper_bound (S (length bm)) 2 ltac:(lia)). lia. }
  rewrite map_map.
  rewrite (collect_map _ (fun i => map rune_of (nth i (pair_rows bm) []))).
  - f_equal. rewrite <- (map_map (fun i => nth i (pair_rows bm) []) (map rune_of)). f_equal. symmetry. apply list_by_nth. reflexivity.
  - intros i Hi. apply in_seq in Hi. specialize (LIM i ltac:(lia)).
    destruct bm as [|r0 bm']; [cbn in LIM; lia|]. change (zget (r0 :: bm') 0) with (Some r0).
    assert (HR : length r0 = w) by (inversion HF; auto). unfold zlen. rewrite HR, zseq_upto, seq_upto, map_map.
    rewrite (collect_map _ (fun x => rune_of (pair_at (r0 :: bm') i x))).
    + f_equal. assert (LN : length (nth i (pair_rows (r0 :: bm')) []) = w).
      { pose proof (pair_rows_width w _ HF) as PW. rewrite Forall_forall in PW. apply PW, nth_In. lia. }
      rewrite (list_by_nth (false, false) _ _ LN) at 1. rewrite map_map. apply map_ext_in. intros x Hx. apply in_seq in Hx.
      rewrite (pair_rows_nth w) by (auto; lia). reflexivity.
    + intros x Hx. apply in_seq in Hx. apply (selectRune_ok w); auto; lia.
Qed.

(* ---- reading the text back ---- *)
Lemma read_char p line rest : read_lines (go_string_of_rune (rune_of p) ++ rest) line = read_lines rest (line ++ [p]).
Proof. destruct p as [[] []]; reflexivity. Qed.
Lemma read_newline line rest : read_lines (10 :: rest) line = match read_lines rest [] with Some ls => Some (line :: ls) | None => None end.
Proof. reflexivity. Qed.

Lemma read_line l : forall line rest, read_lines (concat (map go_string_of_rune (map rune_of l)) ++ rest) line = read_lines rest (line ++ l).
Proof.
  induction l as [|p l IH]; intros line rest; [rewrite app_nil_r; reflexivity|].
  cbn [map concat]. rewrite <- app_assoc, read_char, IH, <- app_assoc. reflexivity.
Qed.

Lemma read_back ls : read_lines (concat (chunks_of (map (map rune_of) ls))) [] = Some ls.
Proof.
  induction ls as [|l ls IH]; [reflexivity|]. cbn [map chunks_of flat_map]. rewrite concat_app.
  fold (chunks_of (map (map rune_of) ls)). rewrite concat_app. cbn [concat]. rewrite app_nil_r, <- app_assoc, read_line. cbn [app].
  rewrite read_newline, IH. reflexivity.
Qed.

(* ---- the calls ---- *)
Lemma write_string_nonempty r : go_string_of_rune r <> [].
Proof. unfold go_string_of_rune. repeat match goal with |- context [if ?c then _ else _] => destruct c end; discriminate. Qed.

Lemma write_all_ok fails : forall chunks f f' ok, Forall (fun c => c <> []) chunks -> write_all fails f chunks = (f', ok) ->
  (ok = true <-> forall k, (k < length chunks)%nat -> fails (f_calls f + k)%nat = None) /\
  (ok = true -> f_content f' = f_content f ++ concat chunks) /\
  (ok = false -> exists p s, s <> [] /\ concat chunks = p ++ s /\ f_content f' = f_content f ++ p).
Proof.
  induction chunks as [|c chunks IH]; intros f f' ok HF E; cbn [write_all] in E.
  - injection E as <- <-. split; [split; [intros _ k Hk; cbn in Hk; lia|auto]|]. split; [intros _; rewrite app_nil_r; auto|discriminate].
  - inversion HF as [|? ? HC HF']; subst. unfold write_string in E. destruct (fails (f_calls f)) as [n|] eqn:EF.
    + injection E as <- <-. split; [|split; [discriminate|]].
      * split; [discriminate|]. intros G. specialize (G 0%nat ltac:(cbn; lia)). rewrite Nat.add_0_r in G. congruence.
      * intros _. exists (firstn (Nat.min n (length c - 1)) c), (skipn (Nat.min n (length c - 1)) c ++ concat chunks).
        split; [|split; [|reflexivity]].
        -- intros X. apply app_eq_nil in X as [X _]. apply (f_equal (@length Z)) in X. rewrite skipn_length in X. change (length (@nil Z)) with 0%nat in X. assert (length c <> 0)%nat by (destruct c; [congruence|discriminate]). lia.
        -- cbn [concat]. rewrite app_assoc, firstn_skipn. reflexivity.
    + destruct (IH _ _ _ HF' E) as (I1 & I2 & I3). cbn [f_calls f_content] in *. split; [|split].
      * rewrite I1. split.
        -- intros G [|k] Hk; [rewrite Nat.add_0_r; auto|]. rewrite Nat.add_succ_r. apply (G k). cbn in Hk. lia.
        -- intros G k Hk. specialize (G (S k) ltac:(cbn; lia)). rewrite Nat.add_succ_r in G. exact G.
      * intros X. rewrite (I2 X), <- app_assoc. reflexivity.
      * intros X. destruct (I3 X) as (p & s & S1 & S2 & S3). exists (c ++ p), s. split; auto. split; [cbn [concat]; rewrite S2, app_assoc; auto|].
        rewrite S3, <- app_assoc. reflexivity.
Qed.

Lemma chunks_nonempty ls : Forall (fun c => c <> []) (chunks_of ls).
Proof.
  apply Forall_forall. intros c Hc. unfold chunks_of in Hc. apply in_flat_map in Hc as (l & _ & Hc).
  apply in_app_or in Hc as [Hc|[<-|[]]]; [|discriminate]. apply in_map_iff in Hc as (r & <- & _). apply write_string_nonempty.
Qed.

Lemma square_bitmap_nat n m : square n m -> Forall (fun r => length r = Z.to_nat n) (m_bitmap m) /\ length (m_bitmap m) = Z.to_nat n.
Proof.
  intros HS. destruct (bitmap_shape n m HS) as [A B]. split; [|unfold zlen in A; lia].
  eapply Forall_impl; [|exact B]. intros r Hr. unfold zlen in Hr. cbn in Hr. lia.
Qed.

Theorem file_writer n m fails f f' r : square n m -> file_write fails (Some f) m = (f', r) ->
  exists text lines, read_half_blocks text (Z.to_nat n) = Some (m_bitmap m) /\
    read_lines text [] = Some lines /\ zlen lines = (n + 1) / 2 /\ Forall (fun l => zlen l = n) lines /\
    exists content calls, f' = Some (mkFile content calls) /\
      ((r = FileOk /\ content = f_content f ++ text) \/
       (r = FileError /\ exists p s, s <> [] /\ text = p ++ s /\ content = f_content f ++ p)) /\
      (r = FileOk <-> forall k, Z.of_nat k < (n + 1) / 2 * (n + 1) -> fails (f_calls f + k)%nat = None).
Proof.
  intros HS. destruct (square_bitmap_nat n m HS) as [HF HL]. pose proof HS as ((HW & _) & EW & _).
  unfold file_write. rewrite (output_ok (Z.to_nat n)) by auto.
  destruct (write_all fails f _) as [f1 ok] eqn:E. intros [= <- <-].
  set (ls := pair_rows (m_bitmap m)) in *. destruct (write_all_ok _ _ _ _ _ (chunks_nonempty _) E) as (I1 & I2 & I3).
  exists (concat (chunks_of (map (map rune_of) ls))), ls.
  split; [unfold read_half_blocks; rewrite read_back, <- HL; unfold ls; rewrite (pair_rows_back (Z.to_nat n)) by auto; reflexivity|].
  split; [apply read_back|].
  split. { unfold ls, zlen. rewrite pair_rows_length, HL, Nat.div2_div, Nat2Z.inj_div. f_equal. lia. }
  split. { pose proof (pair_rows_width _ _ HF) as PW. eapply Forall_impl; [|exact PW]. intros l Hl. cbn in Hl. unfold zlen. lia. }
  destruct f1 as [content calls]. exists content, calls. split; [reflexivity|]. cbn [f_content] in *. split.
  - destruct ok; [left; auto|right; auto].
  - assert (LC : Z.of_nat (length (chunks_of (map (map rune_of) ls))) = (n + 1) / 2 * (n + 1)).
    { unfold chunks_of. rewrite (ProofViews.length_flat_map_const _ _ (Z.to_nat n + 1)).
      - rewrite map_length, Nat2Z.inj_mul. f_equal; [|lia]. unfold ls. rewrite pair_rows_length, HL, Nat.div2_div, Nat2Z.inj_div. f_equal. lia.
      - intros l Hl. apply in_map_iff in Hl as (l' & <- & Hl). rewrite app_length, !map_length. cbn [length]. f_equal.
        pose proof (pair_rows_width _ _ HF) as PW. rewrite Forall_forall in PW. auto. }
    rewrite <- LC. transitivity (ok = true); [destruct ok; split; intros; congruence|]. rewrite I1. split; intros G k Hk; apply G; lia.
Qed.
