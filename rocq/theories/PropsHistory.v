(* C63: using a writer more than once. *)
From Coq Require Import Lia.
From Verif Require Import ModelBase ModelMatrix ModelSave ModelFile ModelCompressed ModelStandard ModelWriters.
From Verif Require Import SpecMatrix SpecText SpecImage SpecStandard SpecMedium SpecHistory.
From Verif Require Import ProofBase ProofCompressed ProofStandard ProofMedium.
From Verif Require PropsFile PropsCompressed PropsStandard.

Lemma run_app {E S} (w : Writer E S) h1 : forall s h2, run w s (h1 ++ h2) =
  let '(s1, e1) := run w s h1 in let '(s2, e2) := run w s1 h2 in (s2, e1 ++ e2).
Proof.
  induction h1 as [|st h1 IH]; intros s h2; cbn [run app].
  - destruct (run w s h2); reflexivity.
  - destruct (do_step w s st) as [s1 e]. rewrite IH. destruct (run w s1 h1) as [s2 es]. destruct (run w s2 h2). reflexivity.
Qed.

(* what every call of a later history does to a closed file, given what one call does *)
Lemma run_closed {E S} (w : Writer E S) (inv : S -> Prop) (same : S -> S -> Prop) (ok : step -> Prop) (good : step -> call_end E -> Prop) :
  (forall s, same s s) -> (forall a b c, same a b -> same b c -> same a c) ->
  (forall s st s' r, inv s -> ok st -> do_step w s st = (s', r) -> inv s' /\ same s s' /\ good st r) ->
  forall h s s' rs, inv s -> Forall ok h -> run w s h = (s', rs) -> inv s' /\ same s s' /\ Forall2 good h rs.
Proof.
  intros R T ONE. induction h as [|st h IH]; intros s s' rs I O E0; cbn [run] in E0.
  - injection E0 as <- <-. auto.
  - destruct (do_step w s st) as [s1 e] eqn:E1. destruct (run w s1 h) as [s2 es] eqn:E2. injection E0 as <- <-. inversion O as [|? ? O1 O2]; subst.
    destruct (ONE _ _ _ _ I O1 E1) as (I1 & S1 & G). destruct (IH _ _ _ I1 O2 E2) as (I2 & S2 & GS).
    split; [exact I2|]. split; [exact (T _ _ _ S1 S2)|]. constructor; assumption.
Qed.

Lemma closed_write_all fails s pieces : s_open s = false -> pieces <> [] -> sink_write_all fails s pieces = (s, Some ErrClosed).
Proof. intros C N. destruct pieces as [|p r]; [contradiction|]. cbn [sink_write_all]. unfold sink_write. rewrite C. reflexivity. Qed.
Lemma close_closed s : s_open (fst (sink_close s)) = false.
Proof. unfold sink_close. destruct (s_open s) eqn:C; [reflexivity|exact C]. Qed.

(* what a user sees of the calls of a history *)
Definition square_step (st : step) : Prop := match step_matrix st with Some m => exists n, 0 < n /\ square n m | None => True end.
(* Close succeeds; Save and Write return an error *)
Definition refused {E} (st : step) (r : call_end E) : Prop :=
  match st with DoClose => r = Returned None | _ => exists e, r = Returned (Some e) end.
(* as above, but Close reports that the file is closed *)
Definition refused_all (st : step) (r : call_end werror) : Prop :=
  match st with DoClose => r = Returned (Some ErrClosed) | _ => exists e, r = Returned (Some e) end.

(* standard: after the first Save or Close the file never changes again: each further Save or Write returns an error and each
   Close returns nil.  The image encoders make at least one Write call. *)
Theorem C63_standard :
  forall encode fails others scale, (forall e i, encode e i <> []) ->
  let w := standard_writer encode fails others scale in
  forall s0 h1 last s1 rs1 h2 s2 rs2, closing last -> Forall square_step h2 ->
  run w s0 (h1 ++ [last]) = (s1, rs1) -> run w s1 h2 = (s2, rs2) ->
  s_file (fst s2) = s_file (fst s1) /\ s_open (fst s2) = false /\ Forall2 refused h2 rs2.
Proof.
  intros encode fails others scale NE w s0 h1 last s1 rs1 h2 s2 rs2 CL SQ R1 R2.
  assert (C1 : s_open (fst s1) = false).
  { rewrite run_app in R1. destruct (run w s0 h1) as [sa ra]. cbn [run] in R1. destruct (do_step w sa last) as [sb rb] eqn:E. injection R1 as <- _.
    destruct last as [m|m|]; [|destruct CL|]; cbn [do_step] in E.
    - unfold Save in E. destruct (wr_write w sa m) as [[sk ok] r]. unfold w in E. cbn [wr_close standard_writer] in E.
      pose proof (close_closed sk) as CC. destruct (sink_close sk) as [sk' e]. cbn [fst] in CC. destruct e as [[]|]; injection E as <- _; exact CC.
    - destruct sa as [sk ok]. unfold w in E. cbn [wr_close standard_writer] in E.
      pose proof (close_closed sk) as CC. destruct (sink_close sk) as [sk' e]. injection E as <- _; exact CC. }
  pose proof (run_closed w (fun s => s_open (fst s) = false) (fun a b => s_file (fst b) = s_file (fst a)) square_step refused) as RC.
  cbv beta in RC. destruct (RC ltac:(reflexivity) ltac:(congruence)) with (h := h2) (s := s1) (s' := s2) (rs := rs2) as (A & B & D); try assumption; [|auto].
  clear - NE. intros [sk o] st s' r I O E. cbn [fst] in I.
  assert (WR : forall m, square_step (DoWrite m) -> exists o' e, wr_write w (sk, o) m = ((sk, o'), Returned (Some e))).
  { intros m (n & N & SQ). destruct (PropsStandard.C36_size_general others scale n m o SQ) as (cv & o' & ED & _).
    unfold w, standard_writer. cbn [wr_write]. rewrite ED. destruct (encoder_refuses _ _ _); [eauto|]. rewrite closed_write_all by auto. eauto. }
  assert (CLO : forall o', wr_close w (sk, o') = ((sk, o'), Returned None)).
  { intros o'. unfold w, standard_writer. cbn [wr_close]. unfold sink_close. rewrite I. reflexivity. }
  destruct st as [m|m|]; cbn [do_step] in E.
  - destruct (WR m O) as (o' & e & EW). unfold Save in E. rewrite EW, CLO in E. injection E as <- <-. cbn. eauto.
  - destruct (WR m O) as (o' & e & EW). rewrite EW in E. injection E as <- <-. cbn. eauto.
  - rewrite CLO in E. injection E as <- <-. cbn. auto.
Qed.

(* compressed: the same, but Close reports that the file is closed *)
Theorem C63_compressed :
  forall png_pieces fails padding block, (forall i, png_pieces i <> []) -> 0 <= padding -> 1 <= block ->
  let w := compressed_writer png_pieces fails padding block in
  forall s0 h1 last s1 rs1 h2 s2 rs2, closing last -> Forall square_step h2 ->
  run w s0 (h1 ++ [last]) = (s1, rs1) -> run w s1 h2 = (s2, rs2) ->
  s_file s2 = s_file s1 /\ s_open s2 = false /\ Forall2 refused_all h2 rs2.
Proof.
  intros png_pieces fails padding block NE HP HB w s0 h1 last s1 rs1 h2 s2 rs2 CL SQ R1 R2.
  assert (C1 : s_open s1 = false).
  { rewrite run_app in R1. destruct (run w s0 h1) as [sa ra]. cbn [run] in R1. destruct (do_step w sa last) as [sb rb] eqn:E. injection R1 as <- _.
    destruct last as [m|m|]; [|destruct CL|]; cbn [do_step] in E.
    - unfold Save in E. destruct (wr_write w sa m) as [sk r]. unfold w in E. cbn [wr_close compressed_writer] in E.
      pose proof (close_closed sk) as CC. destruct (sink_close sk) as [sk' e]. cbn [fst] in CC. destruct e as [[]|]; injection E as <- _; exact CC.
    - unfold w in E. cbn [wr_close compressed_writer] in E.
      pose proof (close_closed sa) as CC. destruct (sink_close sa) as [sk' e]. injection E as <- _; exact CC. }
  pose proof (run_closed w (fun s => s_open s = false) (fun a b => s_file b = s_file a) square_step refused_all) as RC.
  cbv beta in RC. destruct (RC ltac:(reflexivity) ltac:(congruence)) with (h := h2) (s := s1) (s' := s2) (rs := rs2) as (A & B & D); try assumption; [|auto].
  clear - NE HP HB. intros sk st s' r I O E.
  assert (WR : forall m, square_step (DoWrite m) -> exists e, wr_write w sk m = (sk, Returned (Some e))).
  { intros m (n & N & SQ). destruct (PropsCompressed.C34_pixel_exact _ _ padding block SQ HP HB) as (i & ED & _).
    unfold w, compressed_writer. cbn [wr_write]. rewrite ED. destruct (encoder_refuses _ _ _); [eauto|]. rewrite closed_write_all by auto. eauto. }
  assert (CLO : wr_close w sk = (sk, Returned (Some ErrClosed))).
  { unfold w, compressed_writer. cbn [wr_close]. unfold sink_close. rewrite I. reflexivity. }
  destruct st as [m|m|]; cbn [do_step] in E.
  - destruct (WR m O) as (e & EW). unfold Save in E. rewrite EW, CLO in E. injection E as <- <-. cbn. eauto.
  - destruct (WR m O) as (e & EW). rewrite EW in E. injection E as <- <-. cbn. eauto.
  - rewrite CLO in E. injection E as <- <-. cbn. auto.
Qed.

(* Write does not close: each successful Write of a standard writer puts its picture behind the ones before it *)
Theorem C63_writes_append :
  forall encode fails others scale old o h s' o' rs, Forall (fun st => exists m, st = DoWrite m) h ->
  run (standard_writer encode fails others scale) (standard_new old, o) h = ((s', o'), rs) -> Forall (fun r => r = Returned None) rs ->
  exists pictures, o_content (s_file s') = concat pictures /\ s_open s' = true /\
    Forall2 (fun st p => exists m o1 w h cv o2, st = DoWrite m /\ draw others scale m o1 = Some (w, h, cv, o2) /\ p = concat (encode (o_encoder o2) (w, h, cv))) h pictures.
Proof.
  intros encode fails others scale old o h s' o' rs W R OK.
  assert (G : forall h s o s' o' rs, Forall (fun st => exists m, st = DoWrite m) h -> run (standard_writer encode fails others scale) (s, o) h = ((s', o'), rs) -> Forall (fun r => r = Returned None) rs ->
    exists pieces, s_file s' = os_write_all (s_file s) (concat pieces) /\ s_open s' = s_open s /\
      Forall2 (fun st p => exists m o1 w h cv o2, st = DoWrite m /\ draw others scale m o1 = Some (w, h, cv, o2) /\ p = encode (o_encoder o2) (w, h, cv)) h pieces).
  { clear. induction h as [|st h IH]; intros s o s' o' rs W R OK; cbn [run] in R.
    - injection R as <- <- <-. exists []. split; [reflexivity|]. auto.
    - inversion W as [|? ? [m ->] W2]; subst. cbn [do_step] in R. destruct (wr_write _ (s, o) m) as [[s1 o1] e] eqn:EW.
      destruct (run _ (s1, o1) h) as [[s2 o2] es] eqn:E2. injection R as <- <- <-. inversion OK as [|? ? -> OK2]; subst.
      destruct (IH _ _ _ _ _ W2 E2 OK2) as (ps & F & O & P). unfold standard_writer in EW. cbn [wr_write] in EW.
      destruct (draw others scale m o) as [[[[w hh] cv] od]|] eqn:ED; [|discriminate EW]. destruct (encoder_refuses (o_encoder od) w hh); [discriminate EW|].
      destruct (sink_write_all fails s _) as [s3 e3] eqn:EA. injection EW as <- <- ->. apply sink_all_none in EA as (A & B & _).
      exists (encode (o_encoder od) (w, hh, cv) :: ps). split; [|split; [congruence|]].
      + rewrite F, A. cbn [concat]. unfold os_write_all. rewrite fold_left_app. reflexivity.
      + constructor; [|exact P]. exists m, o, w, hh, cv, od. auto. }
  destruct (G _ _ _ _ _ _ W R OK) as (ps & F & O & P). exists (map (@concat Z) ps). split; [|split; [exact O|]].
  - rewrite F. cbn [standard_new s_file]. rewrite PropsCompressed.C35_standard_truncates. clear. induction ps as [|p ps IH]; cbn [concat map]; [reflexivity|]. rewrite concat_app, IH. reflexivity.
  - clear -P. induction P as [|st p h ps (m & o1 & w & hh & cv & o2 & A & B & D) P IH]; cbn [map]; constructor; [|exact IH].
    exists m, o1, w, hh, cv, o2. subst p. auto.
Qed.

(* so a second Write does not replace the first picture: what is in the file after two successful Writes is not what the second alone would have put there *)
Theorem C63_second_write_replaces_refuted :
  ~ (forall encode fails others scale old o m1 m2 s1 s2 rs1 rs2, (forall e i, encode e i <> []) ->
     run (standard_writer encode fails others scale) (standard_new old, o) [DoWrite m1; DoWrite m2] = (s1, rs1) ->
     run (standard_writer encode fails others scale) (standard_new old, o) [DoWrite m2] = (s2, rs2) ->
     rs1 = [Returned None; Returned None] -> rs2 = [Returned None] -> o_content (s_file (fst s1)) = o_content (s_file (fst s2))).
Proof.
  intros A. set (m := newMatrix 21 21). assert (SQ : square 21 m) by (apply ProofViews.square_new; lia).
  set (encode := fun (_ : encoder) (_ : Z * Z * canvas) => [[137; 80]]). set (w := standard_writer encode (fun _ => None) (fun _ cv _ => cv) (fun _ _ _ _ => 0)).
  assert (ONE : forall s o, s_open s = true -> o_encoder o = CustomEncoder 0 -> exists o', o_encoder o' = CustomEncoder 0 /\
    wr_write w (s, o) m = ((mkSink (os_write (s_file s) [137; 80]) true (S (s_calls s)), o'), Returned None)).
  { intros s o O EN. destruct (PropsStandard.C36_size_general (fun _ cv _ => cv) (fun _ _ _ _ => 0) 21 m o SQ) as (cv & o' & ED & _). exists o'.
    pose proof (draw_encoder _ _ _ _ _ _ _ _ _ SQ ED) as EE. rewrite EN in EE. split; [exact EE|].
    unfold w, standard_writer. cbn [wr_write]. rewrite ED, EE. cbn [encoder_refuses sink_write_all encode]. unfold sink_write. rewrite O. reflexivity. }
  set (o := set_encoder (CustomEncoder 0) defaultOptions). destruct (ONE (standard_new None) o eq_refl eq_refl) as (o1 & E1 & W1).
  destruct (ONE (mkSink (os_write (s_file (standard_new None)) [137; 80]) true 1) o1 eq_refl E1) as (o2 & E2 & W2).
  specialize (A encode (fun _ => None) (fun _ cv _ => cv) (fun _ _ _ _ => 0) None o m m). fold w in A. cbn [run do_step] in A. rewrite W1 in A.
  cbn [standard_new s_calls s_file] in A, W2. rewrite W2 in A. specialize (A _ _ _ _ ltac:(discriminate) eq_refl eq_refl eq_refl eq_refl). vm_compute in A. discriminate A.
Qed.

(* file: the file is not closed by Close: each Save and Write appends, a text from which its symbol can be read if it returns nil, otherwise
   a proper prefix of such a text *)
Theorem C63_file :
  forall fails f h s' rs, Forall square_step h -> run (fileWriter fails) (Some f) h = (s', rs) ->
  exists parts calls, s' = Some (mkFile (f_content f ++ concat parts) calls) /\
    Forall2 (fun st rp => match step_matrix st with
                          | None => rp = (Returned None, [])
                          | Some m => exists n text, square n m /\ read_half_blocks text (Z.to_nat n) = Some (m_bitmap m) /\
                              (rp = (Returned None, text) \/ exists p s, s <> [] /\ text = p ++ s /\ rp = (Returned (Some ErrWrite), p))
                          end) h (combine rs parts) /\ length rs = length parts.
Proof.
  intros fails. intros f h. revert f. induction h as [|st h IH]; intros f s' rs SQ R; cbn [run] in R.
  - injection R as <- <-. exists [], (f_calls f). cbn [concat]. rewrite app_nil_r. destruct f. split; [reflexivity|]. split; [constructor|reflexivity].
  - inversion SQ as [|? ? Q1 Q2]; subst. destruct (do_step (fileWriter fails) (Some f) st) as [s1 e] eqn:E1. destruct (run (fileWriter fails) s1 h) as [s2 es] eqn:E2. injection R as <- <-.
    assert (ST : exists part calls, s1 = Some (mkFile (f_content f ++ part) calls) /\
      match step_matrix st with
      | None => (e, part) = (Returned None, [])
      | Some m => exists n text, square n m /\ read_half_blocks text (Z.to_nat n) = Some (m_bitmap m) /\
          ((e, part) = (Returned None, text) \/ exists p s, s <> [] /\ text = p ++ s /\ (e, part) = (Returned (Some ErrWrite), p))
      end).
    { assert (WR : forall m s e, square_step (DoWrite m) -> wr_write (fileWriter fails) (Some f) m = (s, e) ->
        exists part calls, s = Some (mkFile (f_content f ++ part) calls) /\ exists n text, square n m /\ read_half_blocks text (Z.to_nat n) = Some (m_bitmap m) /\
          ((e, part) = (Returned None, text) \/ exists p s, s <> [] /\ text = p ++ s /\ (e, part) = (Returned (Some ErrWrite), p))).
      { clear. intros m s e (n & N & SQ) E. unfold fileWriter in E. cbn [wr_write] in E. destruct (file_write fails (Some f) m) as [f' r] eqn:EF. injection E as <- <-.
        destruct (PropsFile.C33_text_determines_symbol _ _ _ _ _ _ SQ EF) as (t & lines & RD & _ & _ & _ & content & calls & -> & CASES & _).
        destruct CASES as [[-> ->]|[-> (p & s & NS & TE & ->)]]; [exists t|exists p]; exists calls; (split; [reflexivity|]); exists n, t; (split; [exact SQ|]); (split; [exact RD|]); [left; reflexivity|].
        right. exists p, s. auto. }
      destruct st as [m|m|]; cbn [do_step step_matrix] in *.
      - unfold Save in E1. destruct (wr_write (fileWriter fails) (Some f) m) as [s3 e3] eqn:EW. cbn [fileWriter wr_close] in E1. injection E1 as <- <-. exact (WR _ _ _ Q1 EW).
      - exact (WR _ _ _ Q1 E1).
      - cbn [fileWriter wr_close] in E1. injection E1 as <- <-. exists [], (f_calls f). rewrite app_nil_r. destruct f. auto. }
    destruct ST as (part & calls & -> & G). destruct (IH _ _ _ Q2 E2) as (parts & calls' & -> & GS & LEN). cbn [f_content].
    exists (part :: parts), calls'. cbn [concat combine length]. rewrite app_assoc. split; [reflexivity|]. split; [constructor; assumption|congruence].
Qed.

(* the hypotheses can be met: Save, Save again, Write, Close *)
Example C63_example : let m := newMatrix 21 21 in
  Forall square_step [DoSave m; DoWrite m; DoClose] /\ closing (DoSave m) /\
  snd (run (compressed_writer (fun _ => [[1]; [2]]) (fun _ => None) 1 2) (compressed_new None) [DoSave m; DoSave m; DoWrite m; DoClose]) =
    [Returned None; Returned (Some ErrClosed); Returned (Some ErrClosed); Returned (Some ErrClosed)] /\
  snd (run (fileWriter (fun _ => None)) (Some (mkFile [] 0)) [DoSave m; DoClose; DoWrite m]) = [Returned None; Returned None; Returned None].
Proof.
  cbv zeta. assert (S : square_step (DoWrite (newMatrix 21 21))) by (exists 21; split; [lia|apply ProofViews.square_new; lia]).
  split; [repeat constructor; exact S|]. split; [exact I|]. split; vm_compute; reflexivity.
Qed.

Print Assumptions C63_standard.
Print Assumptions C63_compressed.
Print Assumptions C63_writes_append.
Print Assumptions C63_second_write_replaces_refuted.
Print Assumptions C63_file.
