(* Lemmas for C89. *)
From Coq Require Import Lia.
From Verif Require Import ModelBase ModelMatrix ModelStandard ModelPaint.
From Verif Require Import SpecReader SpecMatrix SpecStandard ProofBase ProofStandard.

(* the bytes a goroutine can load in the course of these accesses: a channel it has itself stored is 0, another one has its first
   value or 0, and 0 only if somebody stores *)
Fixpoint plausible (bg : rgba) (tr : bool) (stored : channel -> bool) (prog : list access) (bytes : list Z) : Prop :=
  match prog with
  | [] => bytes = []
  | Store c :: p => plausible bg tr (fun d => match c, d with ChR, ChR | ChG, ChG | ChB, ChB | ChA, ChA => true | _, _ => stored d end) p bytes
  | Load c :: p => match bytes with
                   | [] => False
                   | b :: bs => ((stored c = false /\ b = chan c bg) \/ (tr = true /\ b = 0)) /\ plausible bg tr stored p bs
                   end
  end.
Definition eqc (c d : channel) : bool := match c, d with ChR, ChR | ChG, ChG | ChB, ChB | ChA, ChA => true | _, _ => false end.
Definition has_stored (done : list access) (st : channel -> bool) (c : channel) : bool :=
  st c || existsb (fun a => match a with Store d => eqc d c | Load _ => false end) done.

Lemma plausible_ext bg tr prog : forall s1 s2 bytes, (forall c, s1 c = s2 c) -> plausible bg tr s1 prog bytes -> plausible bg tr s2 prog bytes.
Proof.
  induction prog as [|[c|c] p IH]; intros s1 s2 bytes E; cbn [plausible]; auto.
  - apply IH. intros d. destruct c, d; auto.
  - destruct bytes as [|b bs]; auto. rewrite <- (E c). intros [A P]. split; [exact A|]. revert P. apply IH. exact E.
Qed.
Lemma plausible_load bg tr done : forall st bytes c b, plausible bg tr st done bytes ->
  (has_stored done st c = false /\ b = chan c bg) \/ (tr = true /\ b = 0) -> plausible bg tr st (done ++ [Load c]) (bytes ++ [b]).
Proof.
  induction done as [|[d|d] p IH]; intros st bytes c b P HB; cbn [plausible app] in *.
  - subst bytes. cbn [app]. split; [|reflexivity]. unfold has_stored in HB. cbn [existsb] in HB. rewrite Bool.orb_false_r in HB. exact HB.
  - apply IH; auto. destruct HB as [[A B]|B]; [left|right; exact B]. split; [|exact B]. unfold has_stored in *. cbn [existsb] in A. destruct (st c) eqn:E; [discriminate A|].
    destruct d, c; cbn [eqc orb] in A; try discriminate A; cbv beta iota; try rewrite E; exact A.
  - destruct bytes as [|x bs]; [destruct P|]. destruct P as [P1 P2]. cbn [app]. split; [exact P1|]. apply IH; auto.
Qed.
Lemma plausible_store bg tr done : forall st bytes c, plausible bg tr st done bytes -> plausible bg tr st (done ++ [Store c]) bytes.
Proof.
  induction done as [|[d|d] p IH]; intros st bytes c P; cbn [plausible app] in *; auto. destruct bytes as [|x bs]; auto. destruct P; split; auto.
Qed.
Lemma plausible_app bg tr p : forall st q bytes, plausible bg tr st (p ++ q) bytes ->
  exists b1 b2, bytes = b1 ++ b2 /\ plausible bg tr st p b1 /\ plausible bg tr (has_stored p st) q b2.
Proof.
  induction p as [|[c|c] p IH]; intros st q bytes P; cbn [app plausible] in P.
  - exists [], bytes. split; [reflexivity|]. split; [reflexivity|]. eapply plausible_ext; [|exact P]. intros c. unfold has_stored. cbn. rewrite Bool.orb_false_r. reflexivity.
  - apply IH in P as (b1 & b2 & E & P1 & P2). exists b1, b2. split; [exact E|]. split; [exact P1|]. eapply plausible_ext; [|exact P2].
    intros d. unfold has_stored. cbn [existsb]. destruct c, d; cbn [eqc orb]; try reflexivity; rewrite ?Bool.orb_true_r; reflexivity.
  - destruct bytes as [|x bs]; [destruct P|]. destruct P as [P0 P]. apply IH in P as (b1 & b2 & E & P1 & P2). exists (x :: b1), b2. subst bs. split; [reflexivity|]. split; [split; assumption|].
    eapply plausible_ext; [|exact P2]. intros d. unfold has_stored. reflexivity.
Qed.

(* ---- every schedule ---- *)
Definition studio_inv (o : options) (ms : list Matrix) (s : studio) : Prop :=
  length (st_painters s) = length ms /\
  (forall c, chan c (st_bg s) = chan c (o_bgColor o) \/ (o_bgTransparent o = true /\ chan c (st_bg s) = 0)) /\
  forall i m p, nth_error ms i = Some m -> nth_error (st_painters s) i = Some p ->
    exists done, paint_accesses m o = done ++ pt_left p /\ plausible (o_bgColor o) (o_bgTransparent o) (fun _ => false) done (pt_bytes p) /\
      forall c, has_stored done (fun _ => false) c = true -> chan c (st_bg s) = 0.

Lemma module_accesses_stores tr safe x y v c : In (Store c) (module_accesses tr safe x y v) -> tr = true.
Proof.
  unfold module_accesses. destruct (safe x y && qrbool v); [intros []|]. destruct (qrbool v); [intros []|]. unfold light_accesses. destruct tr; [reflexivity|].
  cbn. intros I. repeat (destruct I as [I|I]; [discriminate I|]). destruct I.
Qed.
Lemma accesses_flat m o : paint_accesses m o = background_accesses (o_bgTransparent o) ++
  flat_map (fun '(x, y) => module_accesses (o_bgTransparent o) (safe_of m o) x y (rawget m x y)) (iter_coords IterDirection_ROW (mwidth m) (mheight m)).
Proof.
  unfold paint_accesses, m_iter. f_equal.
  assert (G : forall l acc, fold_left (fun s '(x, y) => s ++ module_accesses (o_bgTransparent o) (safe_of m o) x y (rawget m x y)) l acc =
     acc ++ flat_map (fun '(x, y) => module_accesses (o_bgTransparent o) (safe_of m o) x y (rawget m x y)) l).
  { induction l as [|[x y] l IH]; intros acc; cbn [fold_left flat_map]; [rewrite app_nil_r; reflexivity|]. rewrite IH, <- app_assoc. reflexivity. }
  rewrite G. reflexivity.
Qed.
Lemma accesses_stores m o c : In (Store c) (paint_accesses m o) -> o_bgTransparent o = true.
Proof.
  rewrite accesses_flat. intros I. apply in_app_or in I as [I|I].
  - unfold background_accesses in I. destruct (o_bgTransparent o); [reflexivity|]. cbn in I. repeat (destruct I as [I|I]; [discriminate I|]). destruct I.
  - apply in_flat_map in I as ([x y] & _ & I). eapply module_accesses_stores. exact I.
Qed.
Lemma chan_zero c d k : chan d (zero c k) = if eqc c d then 0 else chan d k.
Proof. destruct c, d; reflexivity. Qed.
Lemma nth_upd {A} (l : list A) i j a : nth_error (upd_nat l i a) j = if Nat.eqb i j then match nth_error l j with Some _ => Some a | None => None end else nth_error l j.
Proof. revert i j. induction l as [|x l IH]; intros [|i] [|j]; cbn [upd_nat nth_error Nat.eqb]; try reflexivity; [destruct (Nat.eqb i j); reflexivity|apply IH]. Qed.
Lemma len_upd {A} (l : list A) i (a : A) : length (upd_nat l i a) = length l.
Proof. revert i. induction l as [|x l IH]; intros [|i]; cbn [upd_nat length]; auto. Qed.
Lemma has_stored_snoc done a st c : has_stored (done ++ [a]) st c = has_stored done st c || match a with Store d => eqc d c | Load _ => false end.
Proof. unfold has_stored. rewrite existsb_app. cbn [existsb]. rewrite Bool.orb_false_r, Bool.orb_assoc. reflexivity. Qed.

Lemma inv_start o ms : studio_inv o ms (paint_start o ms).
Proof.
  unfold paint_start. split; [apply map_length|]. split; [intros c; left; reflexivity|]. intros i m p E1 E2. cbn [st_painters st_bg] in *.
  rewrite nth_error_map, E1 in E2. assert (p = mkPainter (paint_accesses m o) []) by (cbn [option_map] in E2; congruence). subst p. exists []. cbn [pt_left pt_bytes]. split; [reflexivity|]. split; [reflexivity|]. intros c X. cbn in X. discriminate X.
Qed.
Lemma inv_step o ms s i : studio_inv o ms s -> studio_inv o ms (paint_step s i).
Proof.
  intros (HL & HB & HP). unfold paint_step. destruct (nth_error (st_painters s) i) as [[[|[c|c] r] bs]|] eqn:E; [split; auto| | |split; auto].
  - assert (TI : exists m, nth_error ms i = Some m).
    { destruct (nth_error ms i) eqn:X; [eauto|]. apply nth_error_None in X. assert (Y : nth_error (st_painters s) i <> None) by congruence. apply nth_error_Some in Y. lia. }
    destruct TI as (mi & EM). destruct (HP i mi _ EM E) as (done & D1 & D2 & D3). cbn [pt_left pt_bytes] in *.
    assert (TR : o_bgTransparent o = true) by (apply (accesses_stores mi o c); rewrite D1; apply in_or_app; right; left; reflexivity).
    split; [cbn [st_painters]; rewrite len_upd; exact HL|]. split.
    { intros d. cbn [st_bg]. rewrite chan_zero. destruct (eqc c d); [right; auto|apply HB]. }
    intros j m p E1 E2. cbn [st_painters st_bg] in *. rewrite nth_upd in E2. destruct (Nat.eqb_spec i j) as [<-|NE].
    + rewrite E in E2. assert (p = mkPainter r bs) by congruence. subst p. assert (m = mi) by congruence. subst m. exists (done ++ [Store c]). cbn [pt_left pt_bytes].
      split; [rewrite <- app_assoc; exact D1|]. split; [apply plausible_store; exact D2|]. intros d X. rewrite has_stored_snoc in X. rewrite chan_zero.
      destruct (eqc c d); [reflexivity|]. apply D3. rewrite Bool.orb_false_r in X. exact X.
    + destruct (HP j m p E1 E2) as (dn & A1 & A2 & A3). exists dn. split; [exact A1|]. split; [exact A2|]. intros d X. rewrite chan_zero. destruct (eqc c d); [reflexivity|]. apply A3. exact X.
  - split; [cbn [st_painters]; rewrite len_upd; exact HL|]. split; [exact HB|].
    intros j m p E1 E2. cbn [st_painters st_bg] in *. rewrite nth_upd in E2. destruct (Nat.eqb_spec i j) as [<-|NE]; [|exact (HP j m p E1 E2)].
    rewrite E in E2. assert (p = mkPainter r (bs ++ [chan c (st_bg s)])) by congruence. subst p.
    destruct (HP i m _ E1 E) as (done & D1 & D2 & D3). cbn [pt_left pt_bytes] in *. exists (done ++ [Load c]).
    split; [rewrite <- app_assoc; exact D1|]. split.
    + apply plausible_load; [exact D2|]. destruct (has_stored done (fun _ => false) c) eqn:HS.
      * destruct (HB c) as [X|[X Y]]; [|right; auto]. right. pose proof (D3 c HS) as Z0. split; [|exact Z0].
        unfold has_stored in HS. cbn [orb] in HS. apply existsb_exists in HS as (a & IA & XA). destruct a as [d|]; [|discriminate XA].
        apply (accesses_stores m o d). rewrite D1. apply in_or_app. left. exact IA.
      * destruct (HB c) as [X|[X Y]]; [left; auto|right; auto].
    + intros d X. rewrite has_stored_snoc, Bool.orb_false_r in X. apply D3. exact X.
Qed.
Lemma inv_run o ms sched : forall s, studio_inv o ms s -> studio_inv o ms (paint_run s sched).
Proof. unfold paint_run. induction sched as [|i l IH]; intros s HI; [exact HI|]. cbn [fold_left]. apply IH. apply inv_step. exact HI. Qed.

(* ---- what the bytes make of the picture ---- *)
Lemma copy_plausible bg tr st q bytes : plausible bg tr st (copy_colour ++ q) bytes -> exists r g b a rest, bytes = r :: g :: b :: a :: rest /\
  (forall c x, In (c, x) [(ChR, r); (ChG, g); (ChB, b); (ChA, a)] -> (st c = false /\ x = chan c bg) \/ (tr = true /\ x = 0)) /\ plausible bg tr st q rest.
Proof.
  cbn [copy_colour app plausible]. destruct bytes as [|r [|g [|b [|a rest]]]]; try tauto. intros (P1 & P2 & P3 & P4 & P5). exists r, g, b, a, rest. split; [reflexivity|]. split; [|exact P5].
  intros c x I. cbn in I. destruct I as [I|[I|[I|[I|[]]]]]; (assert (EC := f_equal fst I); assert (EX := f_equal snd I); cbn in EC, EX; subst c x); assumption.
Qed.

(* the colour of the background and of the modules in a plausible run *)
Definition loaded_bg (o : options) (c : rgba) : Prop :=
  if o_bgTransparent o
  then c_a c = 0 /\ (c_r c = c_r (o_bgColor o) \/ c_r c = 0) /\ (c_g c = c_g (o_bgColor o) \/ c_g c = 0) /\ (c_b c = c_b (o_bgColor o) \/ c_b c = 0)
  else c = o_bgColor o.
Lemma background_bytes o q bytes : plausible (o_bgColor o) (o_bgTransparent o) (fun _ => false) (background_accesses (o_bgTransparent o) ++ q) bytes ->
  exists c rest st, next_colour bytes = (c, rest) /\ loaded_bg o c /\ plausible (o_bgColor o) (o_bgTransparent o) st q rest.
Proof.
  unfold background_accesses, loaded_bg. destruct (o_bgTransparent o) eqn:T.
  - rewrite <- app_assoc. cbn [app]. intros P. cbn [plausible] in P. apply copy_plausible in P as (r & g & b & a & rest & -> & F & P).
    exists (mkRGBA r g b a), rest. eexists. split; [reflexivity|]. split; [|exact P]. cbn [c_r c_g c_b c_a].
    pose proof (F ChA a ltac:(cbn; tauto)) as FA. pose proof (F ChR r ltac:(cbn; tauto)) as FR. pose proof (F ChG g ltac:(cbn; tauto)) as FG. pose proof (F ChB b ltac:(cbn; tauto)) as FB. cbn [chan] in *.
    split; [destruct FA as [[X _]|[_ X]]; [discriminate X|exact X]|]. split; [tauto|]. split; tauto.
  - cbn [app]. intros P. apply copy_plausible in P as (r & g & b & a & rest & -> & F & P). exists (mkRGBA r g b a), rest. eexists. split; [reflexivity|]. split; [|exact P].
    pose proof (F ChA a ltac:(cbn; tauto)) as FA. pose proof (F ChR r ltac:(cbn; tauto)) as FR. pose proof (F ChG g ltac:(cbn; tauto)) as FG. pose proof (F ChB b ltac:(cbn; tauto)) as FB. cbn [chan] in *.
    destruct FA as [[_ ->]|[X _]]; [|discriminate X]. destruct FR as [[_ ->]|[X _]]; [|discriminate X]. destruct FG as [[_ ->]|[X _]]; [|discriminate X]. destruct FB as [[_ ->]|[X _]]; [|discriminate X].
    destruct (o_bgColor o); reflexivity.
Qed.
Lemma light_bytes o st q bytes : plausible (o_bgColor o) (o_bgTransparent o) st (light_accesses (o_bgTransparent o) ++ q) bytes ->
  exists rest st', next_colour bytes = (light o, rest) /\ plausible (o_bgColor o) (o_bgTransparent o) st' q rest.
Proof.
  unfold light_accesses, light. destruct (o_bgTransparent o) eqn:T.
  - rewrite <- app_assoc. cbn [app]. intros P. cbn [plausible] in P. apply copy_plausible in P as (r & g & b & a & rest & -> & F & P). exists rest. eexists. split; [|exact P].
    pose proof (F ChA a ltac:(cbn; tauto)) as FA. pose proof (F ChR r ltac:(cbn; tauto)) as FR. pose proof (F ChG g ltac:(cbn; tauto)) as FG. pose proof (F ChB b ltac:(cbn; tauto)) as FB. cbn [chan] in *.
    destruct FA as [[X _]|[_ ->]]; [discriminate X|]. destruct FR as [[X _]|[_ ->]]; [discriminate X|]. destruct FG as [[X _]|[_ ->]]; [discriminate X|]. destruct FB as [[X _]|[_ ->]]; [discriminate X|]. reflexivity.
  - cbn [app]. intros P. apply copy_plausible in P as (r & g & b & a & rest & -> & F & P). exists rest. eexists. split; [|exact P].
    pose proof (F ChA a ltac:(cbn; tauto)) as FA. pose proof (F ChR r ltac:(cbn; tauto)) as FR. pose proof (F ChG g ltac:(cbn; tauto)) as FG. pose proof (F ChB b ltac:(cbn; tauto)) as FB. cbn [chan] in *.
    destruct FA as [[_ ->]|[X _]]; [|discriminate X]. destruct FR as [[_ ->]|[X _]]; [|discriminate X]. destruct FG as [[_ ->]|[X _]]; [|discriminate X]. destruct FB as [[_ ->]|[X _]]; [|discriminate X].
    destruct (o_bgColor o); reflexivity.
Qed.

(* the calls are those of the sequential drawing *)
Lemma modules_bytes o o2 halftone t safe bw lf tp (m : Matrix) : o_bgTransparent o2 = o_bgTransparent o -> o_qrColor o2 = o_qrColor o ->
  forall l calls o1 bytes st, same_but_bg o2 o1 -> light o1 = light o ->
  plausible (o_bgColor o) (o_bgTransparent o) st (flat_map (fun '(x, y) => module_accesses (o_bgTransparent o) safe x y (rawget m x y)) l) bytes ->
  fst (fold_left (fun s '(x, y) => paint_one o halftone t safe bw lf tp s x y (rawget m x y)) l (calls, bytes)) =
  fst (fold_left (fun s '(x, y) => draw_module halftone t safe bw lf tp s x y (rawget m x y)) l (calls, o1)).
Proof.
  intros ET EC. induction l as [|[x y] l IH]; intros calls o1 bytes st HS HL P; [reflexivity|]. cbn [fold_left flat_map] in *.
  destruct (same_fields _ _ HS) as (F1 & F2 & _).
  unfold paint_one at 2, draw_module at 2. unfold module_accesses in P at 1.
  destruct (safe x y && qrbool (rawget m x y)) eqn:S1; [cbn [app] in P; exact (IH calls o1 bytes st HS HL P)|].
  unfold translateToRGBA. destruct (qrbool (rawget m x y)) eqn:QB.
  - cbn [app] in P. rewrite F1, F2, ET, EC. apply (IH _ o1 bytes st HS HL P).
  - apply light_bytes in P as (rest & st' & E & P). rewrite E. cbv zeta.
    assert (LB : o_bgColor (if o_bgTransparent o1 then set_bgColor (mkRGBA 0 0 0 0) o1 else o1) = light o) by (rewrite <- HL; unfold light; destruct (o_bgTransparent o1); reflexivity).
    rewrite LB. assert (TB : o_bgTransparent (if o_bgTransparent o1 then set_bgColor (mkRGBA 0 0 0 0) o1 else o1) = o_bgTransparent o) by (destruct (o_bgTransparent o1) eqn:X; cbn; congruence).
    assert (HL' : light (if o_bgTransparent o1 then set_bgColor (mkRGBA 0 0 0 0) o1 else o1) = light o).
    { rewrite <- HL. unfold light. destruct (o_bgTransparent o1) eqn:X; cbn [o_bgTransparent set_bgColor]; rewrite ?X; reflexivity. }
    rewrite TB. apply (IH _ _ rest st'); [|exact HL'|exact P].
    eapply same_trans; [exact HS|]. destruct (o_bgTransparent o1); [eexists; reflexivity|apply same_refl].
Qed.

Lemma loaded_light o c : loaded_bg o c -> light (set_bgColor c o) = light o.
Proof. unfold loaded_bg, light. cbn [o_bgTransparent set_bgColor o_bgColor]. destruct (o_bgTransparent o); [reflexivity|]. auto. Qed.

Lemma plan_bytes scale m o bytes : plausible (o_bgColor o) (o_bgTransparent o) (fun _ => false) (paint_accesses m o) bytes ->
  exists c, loaded_bg o c /\
    match paint_plan scale m o bytes, draw_plan scale m (set_bgColor c o) with
    | Some p, Some q => p_w p = p_w q /\ p_h p = p_h q /\ p_bg p = p_bg q /\ p_logo p = p_logo q /\ p_calls p = p_calls q /\ same_but_bg o (p_options q)
    | None, None => True
    | _, _ => False
    end.
Proof.
  intros P. rewrite accesses_flat in P. apply background_bytes in P as (c & rest & st & EN & LB & P). exists c. split; [exact LB|].
  unfold paint_plan, draw_plan. unfold safe_of in P. destruct (o_borders o) as [[[top rt] bt] lf] eqn:EB.
  change (o_borders (set_bgColor c o)) with (o_borders o). rewrite EB. change (qrBlockWidth (set_bgColor c o)) with (qrBlockWidth o).
  set (w := mwidth m * qrBlockWidth o + lf + rt) in *. set (h := mheight m * qrBlockWidth o + top + bt) in *. rewrite EN.
  destruct (background_spec (set_bgColor c o)) as (o1 & EBG & S1 & TB). rewrite EBG. pose proof S1 as [[A1 _] N1].
  destruct (same_fields _ _ A1) as (F1 & F2 & F3 & F4 & F5 & F6 & F7 & F8 & F9 & F10). cbn [o_bgTransparent o_qrColor o_gradient o_logo o_multiplier o_safeZone o_qrWidth o_shape o_borders o_halftone set_bgColor] in *.
  assert (LI : logo_info o1 w h = logo_info o w h) by (unfold logo_info; rewrite F4, F5; reflexivity). rewrite LI.
  destruct (logo_info o w h) as [[lv lw] lh]. rewrite F6, F10.
  set (safe := fun x y : Z => (lv && o_safeZone o) && blockOverlapsLogo x y (qrBlockWidth o) lf top w h lw lh) in *.
  destruct (if lv && o_safeZone o then _ else Some (m_bitmap m)) as [t|]; [|exact I].
  unfold m_iter. set (ht := match o_halftone o with Some i => Some (scale i (mwidth m * 3)) | None => None end).
  pose proof (modules_bytes o o1 ht t safe (qrBlockWidth o) lf top m F1 F2 (iter_coords IterDirection_ROW (mwidth m) (mheight m)) [] o1 rest st (same_refl o1)) as G.
  assert (CB : c = o_bgColor o1).
  { unfold loaded_bg in LB. destruct (o_bgTransparent o) eqn:T.
    - rewrite (TB eq_refl). destruct LB as [E _]. destruct c; cbn in *; congruence.
    - rewrite (N1 eq_refl). reflexivity. }
  assert (LL : light o1 = light o) by (rewrite (stable_light _ _ S1); apply loaded_light; exact LB).
  specialize (G LL P).
  assert (SO : forall l s, same_but_bg o1 (snd s) -> same_but_bg o1 (snd (fold_left (fun s '(x, y) => draw_module ht t safe (qrBlockWidth o) lf top s x y (rawget m x y)) l s))).
  { induction l as [|[x y] l IH]; intros s HS; [exact HS|]. cbn [fold_left]. apply IH. destruct s as [cl oo]. unfold draw_module. destruct (safe x y && qrbool (rawget m x y)); [exact HS|].
    unfold translateToRGBA. destruct (qrbool (rawget m x y)); [exact HS|]. cbn [snd] in *. eapply same_trans; [exact HS|]. destruct (o_bgTransparent oo); [eexists; reflexivity|apply same_refl]. }
  specialize (SO (iter_coords IterDirection_ROW (mwidth m) (mheight m)) ([], o1) (same_refl o1)).
  destruct (fold_left _ _ ([], rest)) as [calls1 bs1]. destruct (fold_left _ _ ([], o1)) as [calls2 o2]. cbn [fst snd] in *. subst calls2.
  destruct (same_fields _ _ SO) as (_ & _ & _ & G4 & _). rewrite G4, F4. cbn [p_w p_h p_bg p_logo p_calls p_options].
  split; [reflexivity|]. split; [reflexivity|]. split; [exact CB|]. split; [reflexivity|]. split; [reflexivity|].
  eapply same_trans; [|exact SO]. eapply same_trans; [|exact A1]. eexists. reflexivity.
Qed.

Lemma painted_bytes others scale m o bytes : plausible (o_bgColor o) (o_bgTransparent o) (fun _ => false) (paint_accesses m o) bytes ->
  exists c, loaded_bg o c /\ painted others scale m o bytes = match draw others scale m (set_bgColor c o) with Some (w, h, cv, _) => Some (w, h, cv) | None => None end.
Proof.
  intros P. destruct (plan_bytes scale m o bytes P) as (c & LB & G). exists c. split; [exact LB|]. unfold painted, draw, draw_with. change (getShape (set_bgColor c o)) with (getShape o).
  destruct (paint_plan scale m o bytes) as [p|], (draw_plan scale m (set_bgColor c o)) as [q|]; try contradiction G; [|reflexivity].
  destruct G as (-> & -> & -> & -> & -> & HS). destruct (same_fields _ _ HS) as (_ & -> & -> & _). reflexivity.
Qed.
