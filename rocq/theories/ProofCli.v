From Coq Require Import Lia.
From Verif Require Import ModelBase ModelMatrix ModelStandard ModelCli SpecCli.

Lemma value_mono s : Forall digit s -> forall n, 0 <= n -> n <= fold_left (fun v c => 10 * v + (c - 48)) s n.
Proof.
  unfold digit. induction 1 as [|c s H1 H2 IH]; intros n Hn; cbn [fold_left]; [lia|].
  specialize (IH (10 * n + (c - 48)) ltac:(lia)). lia.
Qed.

Lemma parse_digits_spec s : forall n v, 0 <= n <= 255 ->
  parse_digits s n = Some v <-> (Forall digit s /\ fold_left (fun v c => 10 * v + (c - 48)) s n = v /\ v <= 255).
Proof.
  induction s as [|c s IH]; intros n v Hn; cbn [parse_digits fold_left].
  - split; [intros [= <-]; repeat split; auto; lia | intros (_ & -> & _); reflexivity].
  - destruct ((48 <=? c) && (c <=? 57)) eqn:E.
    + apply andb_prop in E. destruct E as [E1 E2]. apply Z.leb_le in E1, E2.
      cbv zeta. replace (n * 10 + (c - 48)) with (10 * n + (c - 48)) by lia.
      destruct (255 <? 10 * n + (c - 48)) eqn:F.
      * apply Z.ltb_lt in F. split; [congruence|]. intros (A & B & D). inversion A; subst.
        pose proof (value_mono s H2 (10 * n + (c - 48)) ltac:(lia)). lia.
      * apply Z.ltb_ge in F. rewrite IH by lia. split; intros (A & B & D); repeat split; auto.
        -- constructor; auto. unfold digit. lia.
        -- inversion A; auto.
    + split; [congruence|]. intros (A & _ & _). inversion A; subst. unfold digit in *.
      apply andb_false_iff in E. destruct E as [E|E]; apply Z.leb_gt in E; lia.
Qed.

Lemma ParseUint8_spec s v : ParseUint8 s = Some v <-> (numeral s v /\ v <= 255).
Proof.
  unfold ParseUint8, numeral, decimal. destruct s as [|c s].
  - split; [congruence|]. intros ((A & _) & _). congruence.
  - rewrite parse_digits_spec by lia. intuition congruence.
Qed.

Fixpoint join (l : list (list Z)) : list Z :=
  match l with [] => [] | [a] => a | a :: r => a ++ comma :: join r end.

Lemma split_comma_nonempty s : split_comma s <> [].
Proof. destruct s as [|c s]; cbn; [congruence|]. destruct (c =? comma); [congruence|]. destruct (split_comma s); congruence. Qed.

Lemma join_split s : join (split_comma s) = s.
Proof.
  induction s as [|c s IH]; cbn [split_comma]; [reflexivity|].
  pose proof (split_comma_nonempty s). destruct (Z.eqb_spec c comma) as [->|Hc].
  - destruct (split_comma s) as [|p ps] eqn:E; [congruence|]. cbn [join app]. cbn [join] in IH. rewrite IH. reflexivity.
  - destruct (split_comma s) as [|p ps]; [congruence|]. destruct ps as [|q ps]; cbn [join app] in *; rewrite IH; reflexivity.
Qed.

Lemma split_app a r : ~ In comma a -> split_comma (a ++ comma :: r) = a :: split_comma r.
Proof.
  induction a as [|c a IH]; intros Hn; cbn [split_comma app]; [reflexivity|].
  destruct (Z.eqb_spec c comma) as [->|Hc]; [exfalso; apply Hn; left; reflexivity|].
  rewrite IH; [reflexivity|]. intros K. apply Hn. right. exact K.
Qed.
Lemma split_last a : ~ In comma a -> split_comma a = [a].
Proof.
  induction a as [|c a IH]; intros Hn; cbn [split_comma]; [reflexivity|].
  destruct (Z.eqb_spec c comma) as [->|Hc]; [exfalso; apply Hn; left; reflexivity|].
  rewrite IH; [reflexivity|]. intros K. apply Hn. right. exact K.
Qed.

Lemma numeral_no_comma s v : numeral s v -> ~ In comma s.
Proof. intros (_ & F & _) K. rewrite Forall_forall in F. apply F in K. unfold digit, comma in *. lia. Qed.

Lemma parse_spec f mode foo : parseGenerateContextFrom f = Some (mode, foo) ->
  exists t r b l, four_borders (f_borders f) t r b l /\ mode = f_terminal f /\
    foo = mkFOO (f_output f) (trim_dot (Ext (f_output f))) (f_block f mod 256) (t, r, b, l) (f_circle f) (f_transparent f) (f_halftone f).
Proof.
  unfold parseGenerateContextFrom. pose proof (join_split (f_borders f)) as J.
  destruct (split_comma (f_borders f)) as [|a [|b [|c [|d [|]]]]]; try congruence.
  destruct (ParseUint8 a) as [t|] eqn:Ea; [|congruence]. destruct (ParseUint8 b) as [r|] eqn:Eb; [|congruence].
  destruct (ParseUint8 c) as [bo|] eqn:Ec; [|congruence]. destruct (ParseUint8 d) as [l|] eqn:Ed; [|congruence].
  apply ParseUint8_spec in Ea, Eb, Ec, Ed. intros [= <- <-]. exists t, r, bo, l. split; [|auto].
  exists a, b, c, d. cbn [join] in J. unfold comma in J. rewrite <- J. intuition.
Qed.

Lemma parse_complete f t r b l : four_borders (f_borders f) t r b l ->
  parseGenerateContextFrom f =
    Some (f_terminal f, mkFOO (f_output f) (trim_dot (Ext (f_output f))) (f_block f mod 256) (t, r, b, l) (f_circle f) (f_transparent f) (f_halftone f)).
Proof.
  intros (a & b' & c & d & E & Ha & Hb & Hc & Hd & H1 & H2 & H3 & H4). unfold parseGenerateContextFrom. rewrite E.
  change 44 with comma. rewrite !split_app, split_last by (eapply numeral_no_comma; eauto).
  rewrite (proj2 (ParseUint8_spec a t)), (proj2 (ParseUint8_spec b' r)), (proj2 (ParseUint8_spec c b)), (proj2 (ParseUint8_spec d l)) by auto.
  reflexivity.
Qed.

(* the extension *)
Lemma eq_bytes_spec a : forall b, eq_bytes a b = true <-> a = b.
Proof.
  induction a as [|x a IH]; intros [|y b]; cbn [eq_bytes]; try (split; [reflexivity || congruence | reflexivity || congruence]).
  rewrite andb_true_iff, Z.eqb_eq, IH. split; [intros [-> ->]; reflexivity | intros [= -> ->]; auto].
Qed.

Lemma ext_rev_spec r : forall acc e, ext_rev r acc = e -> e <> [] ->
  exists p q, r = p ++ dot :: q /\ e = dot :: rev p ++ acc /\ ~ In dot p /\ ~ In slash p.
Proof.
  induction r as [|c r IH]; intros acc e; cbn [ext_rev]; [congruence|].
  destruct (Z.eqb_spec c slash) as [->|Hs]; [congruence|].
  destruct (Z.eqb_spec c dot) as [->|Hd].
  - intros <- _. exists [], r. cbn. intuition.
  - intros E N. destruct (IH _ _ E N) as (p & q & E1 & E2 & E3 & E4). exists (c :: p), q.
    subst r. cbn [rev app]. rewrite <- app_assoc. cbn. intuition.
Qed.
Lemma ext_rev_dot p : forall q acc, ~ In dot p -> ~ In slash p -> ext_rev (p ++ dot :: q) acc = dot :: rev p ++ acc.
Proof.
  induction p as [|c p IH]; intros q acc Hd Hs; cbn [app ext_rev].
  - reflexivity.
  - destruct (Z.eqb_spec c slash) as [->|]; [exfalso; apply Hs; left; reflexivity|].
    destruct (Z.eqb_spec c dot) as [->|]; [exfalso; apply Hd; left; reflexivity|].
    rewrite IH by (intros K; (apply Hd + apply Hs); right; exact K). cbn [rev]. rewrite <- app_assoc. reflexivity.
Qed.

Lemma ext_png s : trim_dot (Ext s) = png <-> dot_png s.
Proof.
  unfold Ext, dot_png. split.
  - intros H. destruct (ext_rev (rev s) []) as [|x e] eqn:E; [discriminate H|].
    destruct (ext_rev_spec _ _ _ E ltac:(congruence)) as (p & q & E1 & E2 & _ & _).
    injection E2 as -> E2. rewrite app_nil_r in E2. cbn [trim_dot] in H. rewrite Z.eqb_refl in H. rewrite E2 in H.
    exists (rev q). rewrite <- (rev_involutive s), E1, rev_app_distr. cbn [rev]. rewrite <- app_assoc. rewrite H. reflexivity.
  - intros (p & ->). rewrite rev_app_distr.
    change (rev [46; 112; 110; 103] ++ rev p) with (rev png ++ dot :: rev p).
    rewrite ext_rev_dot; [reflexivity | unfold png, dot; cbn; lia | unfold png, slash; cbn; lia].
Qed.

Definition cli_result load f t r b l : options :=
  mkOptions color_WHITE (f_transparent f) color_BLACK None None 5 false (f_block f mod 256)
    (Some (if f_circle f then ShapeCircle else ShapeRectangle))
    (if eq_bytes (trim_dot (Ext (f_output f))) png then PngEncoder else JpegEncoder) (t, r, b, l)
    (match f_halftone f with [] => None | file => load file end).

Lemma cli_options_spec scan load f t r b l : four_borders (f_borders f) t r b l ->
  cli_options scan load f = Some (cli_result load f t r b l).
Proof.
  intros H. unfold cli_options. rewrite (parse_complete _ _ _ _ _ H).
  unfold applyOptions, NewWithWriter, cli_result. cbn [foo_borders foo_blockSize foo_suffix foo_circle foo_transparent foo_halftone].
  destruct (eq_bytes (trim_dot (Ext (f_output f))) png), (f_circle f), (f_transparent f), (f_halftone f) as [|x file];
    try (destruct (load (x :: file))); reflexivity.
Qed.
