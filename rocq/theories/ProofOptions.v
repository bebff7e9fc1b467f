(* C69: options of the standard writer. *)
From Coq Require Import Lia.
From Verif Require Import ModelBase ModelMatrix ModelStandard SpecReader SpecStandard SpecOptions ProofStandard.

Section Last.
Context {A : Type} (sets : image_option -> A -> Prop) (default : A).
Lemma last_nil : last_set sets [] default default.
Proof. right. split; [intros opt w []|reflexivity]. Qed.
Lemma last_new opts opt v : sets opt v -> last_set sets (opts ++ [opt]) default v.
Proof. intros S. left. exists opts, opt, []. split; [reflexivity|]. split; [exact S|intros later w []]. Qed.
Lemma last_old opts opt v : (forall w, ~ sets opt w) -> last_set sets opts default v -> last_set sets (opts ++ [opt]) default v.
Proof.
  intros N [(b & p & a & -> & S & F)|[F ->]].
  - left. exists b, p, (a ++ [opt]). split; [rewrite <- app_assoc; reflexivity|]. split; [exact S|].
    intros later w I. apply in_app_or in I as [I|[<-|[]]]; [apply (F _ _ I)|apply N].
  - right. split; [|reflexivity]. intros p w I. apply in_app_or in I as [I|[<-|[]]]; [apply (F _ _ I)|apply N].
Qed.
(* only one value fits *)
Lemma last_unique opts v w : (forall opt v w, sets opt v -> sets opt w -> v = w) -> last_set sets opts default v -> last_set sets opts default w -> v = w.
Proof.
  intros U [(b & p & a & E & S & F)|[F ->]] [(b' & p' & a' & E' & S' & F')|[F' ->]]; try reflexivity.
  - assert (K : forall b a b' a', b ++ p :: a = b' ++ p' :: a' -> (forall l u, In l a -> ~ sets l u) -> (forall l u, In l a' -> ~ sets l u) -> p = p').
    { clear - S S'. induction b as [|x b IH]; intros a [|y b'] a' E F F'; cbn [app] in E.
      - congruence.
      - injection E as _ E. exfalso. apply (F p' w); [rewrite E; apply in_elt|exact S'].
      - injection E as _ E. exfalso. apply (F' p v); [rewrite <- E; apply in_elt|exact S].
      - injection E as _ E. apply (IH _ _ _ E F F'). }
    assert (p = p') by (apply (K b a b' a'); [congruence|exact F|exact F']). subst p'. apply (U p); assumption.
  - exfalso. apply (F' p v); [rewrite E; apply in_elt|exact S].
  - exfalso. apply (F p' w); [rewrite E'; apply in_elt|exact S'].
Qed.
Lemma last_none opts v : (forall opt w, In opt opts -> ~ sets opt w) -> last_set sets opts default v -> v = default.
Proof. intros N [(b & p & a & -> & S & _)|[_ E]]; [exfalso; apply (N p v); [apply in_elt|exact S]|exact E]. Qed.
End Last.

Lemma hex_parse scan s c : hex_colour s c -> parseFromHex scan s = Some c.
Proof.
  intros H. destruct (hex_options scan defaultOptions) as (A & B & _). destruct H as [H|H].
  - destruct H as (r1 & r2 & g1 & g2 & b1 & b2 & c1 & c2 & c3 & c4 & c5 & c6 & -> & H1 & H2 & H3 & H4 & H5 & H6 & ->).
    destruct (A _ _ _ _ _ _ _ _ _ _ _ _ H1 H2 H3 H4 H5 H6) as [E _]. cbn [apply_option] in E.
    destruct (parseFromHex scan _) as [c|]; [|discriminate E]. apply (f_equal (option_map o_qrColor)) in E. cbn [option_map o_qrColor set_qrColor] in E. exact E.
  - destruct H as (r & g & b & c1 & c2 & c3 & -> & H1 & H2 & H3 & ->).
    destruct (B _ _ _ _ _ _ H1 H2 H3) as [E _]. cbn [apply_option] in E.
    destruct (parseFromHex scan _) as [c|]; [|discriminate E]. apply (f_equal (option_map o_qrColor)) in E. cbn [option_map o_qrColor set_qrColor] in E. exact E.
Qed.
Lemma kept_parse g c : kept g c <-> c = parseFromColor g.
Proof. destruct g; cbn; tauto. Qed.
Lemma foreground_unique opt v w : sets_foreground opt v -> sets_foreground opt w -> v = w.
Proof.
  intros S1 S2. destruct S1 as [g c K|s c K]; inversion S2; subst.
  - apply kept_parse in K. match goal with H : kept _ _ |- _ => apply kept_parse in H end. congruence.
  - apply (hex_parse (fun _ => None)) in K. match goal with H : hex_colour _ _ |- _ => apply (hex_parse (fun _ => None)) in H end. congruence.
Qed.
Lemma background_unique opt v w : sets_background opt v -> sets_background opt w -> v = w.
Proof.
  intros S1 S2. destruct S1 as [g c K|s c K]; inversion S2; subst.
  - apply kept_parse in K. match goal with H : kept _ _ |- _ => apply kept_parse in H end. congruence.
  - apply (hex_parse (fun _ => None)) in K. match goal with H : hex_colour _ _ |- _ => apply (hex_parse (fun _ => None)) in H end. congruence.
Qed.
Lemma block_unique opt v w : sets_block opt v -> sets_block opt w -> v = w.
Proof. intros S1 S2; destruct S1; inversion S2; subst; try lia; reflexivity. Qed.
Lemma borders_unique opt v w : sets_borders opt v -> sets_borders opt w -> v = w.
Proof. intros S1 S2; destruct S1; inversion S2; subst; cbn [length] in *; try lia; try reflexivity. Qed.

(* what holds of the options of a writer made with opts *)
Definition as_told (opts : list image_option) (o : options) : Prop :=
  last_set sets_foreground opts (mkRGBA 0 0 0 255) (o_qrColor o) /\
  last_set sets_background opts (mkRGBA 255 255 255 255) (o_bgColor o) /\
  (o_bgTransparent o = true <-> In WithBgTransparent opts) /\
  last_set sets_block opts 20 (qrBlockWidth o) /\
  last_set sets_borders opts (40, 40, 40, 40) (o_borders o) /\
  last_set sets_shape opts ShapeRectangle (getShape o) /\
  last_set sets_encoder opts JpegEncoder (o_encoder o) /\
  last_set sets_gradient opts None (o_gradient o) /\
  last_set sets_logo opts None (o_logo o) /\
  last_set sets_multiplier opts 5 (o_multiplier o) /\
  (o_safeZone o = true <-> In WithLogoSafeZone opts) /\
  last_set sets_halftone opts None (o_halftone o).

Lemma as_told_default : as_told [] defaultOptions.
Proof. unfold as_told. repeat (split; [first [apply last_nil | (cbn; split; [discriminate|intros []])]|]). apply last_nil. Qed.

Ltac told_kept :=
  lazymatch goal with
  | |- last_set _ _ _ _ => apply last_old; [let w := fresh in let S := fresh in intros w S; inversion S; fail|assumption]
  | |- _ <-> _ => rewrite in_app_iff; cbn [In o_bgTransparent o_safeZone set_bgTransparent set_safeZone]; intuition congruence
  end.
Ltac told := first [told_kept | apply last_new; constructor; solve [assumption | apply kept_parse; reflexivity | lia | cbn; lia] | apply last_new; solve [constructor] ].
Tactic Notation "allof" := (eexists; split; [reflexivity|]; unfold as_told; do 11 (split; [told|]); told).

Lemma as_told_step scan opts o opt : accepted opt -> as_told opts o -> exists o', apply_option scan o opt = Some o' /\ as_told (opts ++ [opt]) o'.
Proof.
  intros AC (F1 & F2 & F3 & F4 & F5 & F6 & F7 & F8 & F9 & F10 & F11 & F12).
  assert (SAME : (forall w, ~ sets_foreground opt w) -> (forall w, ~ sets_background opt w) -> opt <> WithBgTransparent -> (forall w, ~ sets_block opt w) ->
    (forall w, ~ sets_borders opt w) -> (forall w, ~ sets_shape opt w) -> (forall w, ~ sets_encoder opt w) -> (forall w, ~ sets_gradient opt w) ->
    (forall w, ~ sets_logo opt w) -> (forall w, ~ sets_multiplier opt w) -> opt <> WithLogoSafeZone -> (forall w, ~ sets_halftone opt w) -> as_told (opts ++ [opt]) o).
  { intros. unfold as_told. repeat (split; [first [apply last_old; assumption | (rewrite in_app_iff; cbn [In]; intuition congruence)]|]). apply last_old; assumption. }
  destruct opt as [|[c|]|[|z s]|[c|]|s|[g|]|[i|]|k| |[s|]|f|[e|]|ws|i|n| |]; cbn [apply_option accepted] in *;
  try (eexists; split; [reflexivity|]; apply SAME; try discriminate; intros w S; inversion S; fail).
  all: try allof.
  - eexists. split; [reflexivity|]. apply SAME; try discriminate; intros w S; inversion S. subst.
    match goal with H : hex_colour _ _ |- _ => destruct H as [H|H]; repeat destruct H as [? H]; discriminate end.
  - destruct AC as [AC|[c AC]]; [discriminate AC|]. rewrite (hex_parse scan _ _ AC). allof.
  - destruct AC as [c AC]. rewrite (hex_parse scan _ _ AC). allof.
  - eexists; split; [reflexivity|]; unfold as_told. do 3 (split; [told|]). split.
    { apply last_new. unfold qrBlockWidth. cbn [o_qrWidth set_qrWidth]. destruct (Z.leb_spec k 0), (Z.ltb_spec 255 k); cbn [orb]; try lia.
      - assert (k = 0) as -> by lia. constructor.
      - constructor. lia. }
    do 7 (split; [told|]). told.
  - destruct AC as [-> | ->]; cbn [Z.eqb Pos.eqb]; allof.
  - eexists; split; [reflexivity|]; unfold as_told. do 4 (split; [told|]). split.
    { apply last_new. cbn [o_borders set_borders]. destruct ws as [|a [|b [|c [|d r]]]]; cbn [border_widths]; constructor; cbn; lia. }
    do 6 (split; [told|]). told.
Qed.

Lemma as_told_all scan opts : Forall accepted opts -> exists o, NewWithWriter scan opts = Some o /\ as_told opts o.
Proof.
  unfold NewWithWriter. induction opts as [|opt opts IH] using rev_ind; intros FA.
  - exists defaultOptions. split; [reflexivity|apply as_told_default].
  - apply Forall_app in FA as [FA FB]. destruct (IH FA) as (o & E & T). rewrite fold_left_app, E. cbn [fold_left].
    inversion FB. apply as_told_step; assumption.
Qed.
