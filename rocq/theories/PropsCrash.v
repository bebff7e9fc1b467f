(* C82: the process ends (is killed, say) while a picture is being written. *)
From Coq Require Import Lia.
From Verif Require Import ModelBase ModelMatrix ModelQRCode ModelSave ModelFile ModelCompressed ModelStandard ModelTerminal ModelWriters ModelCli ModelFs ModelCrash.
From Verif Require Import SpecReader SpecSegment SpecAPI SpecMatrix SpecStandard SpecText SpecMedium SpecFs SpecCrash.
From Verif Require Import ProofBase ProofMatrix ProofFile ProofCompressed ProofStandard ProofMedium ProofCrash Samples.
From Verif Require Import SpecCli ProofCli.
From Verif Require PropsSaved PropsSymbol PropsCli.

Section Crash.
Context (resolve : path -> Z) (may_read may_create : path -> bool) (decode_png decode_jpeg : list Z -> option image).
Context (scan : list Z -> option rgba) (encode : encoder -> Z * Z * canvas -> list (list Z))
        (others : shape -> canvas -> call -> canvas) (scale : image -> Z -> Z -> Z -> Z).
Notation sops := (standard_ops resolve may_read may_create decode_png decode_jpeg scan encode).
Notation snew := (standard_New resolve may_read may_create decode_png decode_jpeg scan).

(* ---- the list of system calls is what the other models say ---- *)
Lemma standard_ops_on fails fs filename opts m : Forall (on_file (resolve filename)) (sops fails others scale fs filename opts m).
Proof.
  unfold standard_ops. destruct (may_create filename); [|constructor]. cbv zeta. apply Forall_app. split; [repeat constructor|].
  destruct (apply_file_options _ _ _ _ _ _ _) as [o|]; [|constructor]. apply Forall_app. split; [|repeat constructor].
  destruct (draw others scale m o) as [[[[w h] cv] o']|]; [|constructor]. destruct (encoder_refuses _ _ _); [constructor|apply piece_ops_on].
Qed.
Lemma opened fs i j : sys_all fs [SCreate i; STrunc i] j = fs_set fs i [] j.
Proof. unfold sys_all. cbn [fold_left sys]. unfold fs_set. destruct (j =? i); reflexivity. Qed.

Lemma save_standard fails m s o s' o' ev res : Save (Some m) (standard_writer encode fails others scale) (s, o) = ((s', o'), ev, res) ->
  s_file s' = match draw others scale m o with
              | Some (w, h, cv, o') => if encoder_refuses (o_encoder o') w h then s_file s else s_file (fst (sink_write_all fails s (encode (o_encoder o') (w, h, cv))))
              | None => s_file s end.
Proof.
  unfold Save, standard_writer. cbn [wr_write wr_close]. destruct (draw others scale m o) as [[[[w h] cv] o1]|].
  - destruct (encoder_refuses _ _ _).
    + unfold sink_close. destruct (s_open s); intros [= <- _ _ _]; reflexivity.
    + destruct (sink_write_all fails s _) as [s1 e]. cbn [fst]. unfold sink_close. destruct (s_open s1); intros [= <- _ _ _]; reflexivity.
  - unfold sink_close. destruct (s_open s); intros [= <- _ _ _]; reflexivity.
Qed.

(* standard.New and Save, however they end: all the system calls together do what C49, C50 and C65 are about *)
Theorem C82_trace_standard :
  forall fails fs filename opts m fs1 r, snew fs filename opts = (fs1, r) ->
  forall fs2,
  match r with
  | Created s o => exists s' o' ev res, Save (Some m) (standard_writer encode fails others scale) (s, o) = ((s', o'), ev, res) /\ fs2 = fs_set fs1 (resolve filename) (o_content (s_file s'))
  | _ => fs2 = fs1
  end -> forall j, sys_all fs (sops fails others scale fs filename opts m) j = fs2 j.
Proof.
  intros fails fs filename opts m fs1 r HN fs2 HR j. unfold standard_New in HN. unfold standard_ops. cbv zeta. destruct (may_create filename); [|injection HN as <- <-; subst fs2; reflexivity].
  set (i := resolve filename) in *. set (fs0 := fs_set fs i []) in *. rewrite sys_all_app.
  assert (ON : forall j, sys_all fs [SCreate i; STrunc i] j = fs0 j) by (intros k; apply opened).
  set (fsa := sys_all fs [SCreate i; STrunc i]) in *.
  destruct (apply_file_options resolve may_read decode_png decode_jpeg scan fs0 opts) as [o|]; injection HN as <- <-.
  - destruct HR as (s' & o' & ev & res & HS & ->). rewrite (save_standard _ _ _ _ _ _ _ _ HS). rewrite sys_all_app. unfold sys_all at 1. cbn [fold_left sys].
    assert (E0 : fsa i = Some []) by (rewrite ON; apply fs_same).
    destruct (Z.eq_dec j i) as [->|N].
    + rewrite fs_same. destruct (draw others scale m o) as [[[[w h] cv] o1]|]; [|exact E0]. destruct (encoder_refuses _ _ _); [exact E0|].
      rewrite (pieces_run fails i (encode (o_encoder o1) (w, h, cv)) fsa 0 0 [] E0 (Nat.le_0_l _)). reflexivity.
    + rewrite fs_other by exact N. rewrite <- ON. apply (sys_all_on i); [|exact N].
      destruct (draw others scale m o) as [[[[w h] cv] o1]|]; [|constructor]. destruct (encoder_refuses _ _ _); [constructor|apply piece_ops_on].
  - subst fs2. rewrite <- ON. reflexivity.
Qed.

(* ---- at every moment ---- *)
(* whatever fails and wherever the process ends: no other file is changed *)
Theorem C82_only_this_file :
  forall fails fs filename opts m fs', crashed fs (sops fails others scale fs filename opts m) fs' -> only_changes resolve filename fs fs'.
Proof. intros fails fs filename opts m fs' H j N. eapply crashed_on; [exact H|apply standard_ops_on|exact N]. Qed.

(* and the file is as it was, or holds the beginning of what a run without failures would have left in it: never old and new mixed *)
Theorem C82_old_or_beginning :
  forall fs filename opts m fs1 s o, snew fs filename opts = (fs1, Created s o) ->
  forall s' o' ev, Save (Some m) (standard_writer encode (fun _ => None) others scale) (s, o) = ((s', o'), ev, Returned None) ->
  forall fails fs', crashed fs (sops fails others scale fs filename opts m) fs' ->
  fs' (resolve filename) = fs (resolve filename) \/ exists p, fs' (resolve filename) = Some p /\ prefix p (o_content (s_file s')).
Proof.
  intros fs filename opts m fs1 s o HN s' o' ev HS fails fs' H. pose proof (save_standard _ _ _ _ _ _ _ _ HS) as EF.
  unfold standard_New in HN. unfold standard_ops in H. cbv zeta in H. destruct (may_create filename); [|discriminate HN]. set (i := resolve filename) in *.
  destruct (apply_file_options resolve may_read decode_png decode_jpeg scan (fs_set fs i []) opts) as [o0|]; [|discriminate HN]. injection HN as _ <- <-.
  apply crashed_app in H as [H|H].
  - inversion H; subst; [left; reflexivity|]. inversion H4; subst.
    + cbn [sys]. unfold fs_content. destruct (fs i) as [c|] eqn:E; [left; rewrite fs_same; congruence|]. right. exists []. rewrite fs_same. split; [reflexivity|apply prefix_nil].
    + inversion H5; subst. right. exists []. cbn [sys]. rewrite fs_same. split; [reflexivity|apply prefix_nil].
  - right. assert (E0 : sys_all fs [SCreate i; STrunc i] i = Some []) by (rewrite opened; apply fs_same). apply crashed_app in H as [H|H].
    + destruct (draw others scale m o0) as [[[[w h] cv] o1]|]; [|inversion H; subst; exists []; split; [exact E0|apply prefix_nil]].
      destruct (encoder_refuses (o_encoder o1) w h); [inversion H; subst; exists []; split; [exact E0|apply prefix_nil]|].
      destruct (pieces_crash fails i _ _ _ _ _ _ E0 (Nat.le_0_l _) H) as (p & P & E). exists p. rewrite E, at_off_start, skipn_nil, app_nil_r. split; [reflexivity|].
      rewrite EF. destruct (sink_all (fun _ => None) (fun _ => eq_refl) (encode (o_encoder o1) (w, h, cv)) (mkOs [] 0) 0) as (calls & SA).
      change (standard_new (fs i)) with (mkSink (mkOs [] 0) true 0). rewrite SA. cbn [fst s_file]. rewrite os_write_all_content by (cbn; lia).
      cbn [o_pos o_content firstn app]. rewrite skipn_nil, app_nil_r. exact P.
    + assert (E1 : exists p, prefix p (o_content (s_file s')) /\ sys_all (sys_all fs [SCreate i; STrunc i])
          match draw others scale m o0 with Some (w, h, cv, o1) => if encoder_refuses (o_encoder o1) w h then [] else piece_ops fails i 0 0 (encode (o_encoder o1) (w, h, cv)) | None => [] end i = Some p).
      { destruct (draw others scale m o0) as [[[[w h] cv] o1]|]; [|exists []; split; [apply prefix_nil|exact E0]].
        destruct (encoder_refuses (o_encoder o1) w h); [exists []; split; [apply prefix_nil|exact E0]|].
        destruct (pieces_crash fails i _ _ _ _ _ _ E0 (Nat.le_0_l _) (crashed_end (piece_ops fails i 0 0 (encode (o_encoder o1) (w, h, cv))) _)) as (p & P & E). exists p.
        rewrite at_off_start, skipn_nil, app_nil_r in E. split; [|exact E].
        rewrite EF. destruct (sink_all (fun _ => None) (fun _ => eq_refl) (encode (o_encoder o1) (w, h, cv)) (mkOs [] 0) 0) as (calls & SA).
        change (standard_new (fs i)) with (mkSink (mkOs [] 0) true 0). rewrite SA. cbn [fst s_file]. rewrite os_write_all_content by (cbn; lia).
        cbn [o_pos o_content firstn app]. rewrite skipn_nil, app_nil_r. exact P. }
      destruct E1 as (p & P & E). exists p. split; [|exact P]. inversion H; subst; [exact E|]. inversion H4; subst. exact E.
Qed.

(* Every beginning is there at some moment: the old picture is gone before the new one is there, and saving is not all or nothing *)
Theorem C82_every_beginning :
  forall fs filename opts m fs1 s o, snew fs filename opts = (fs1, Created s o) ->
  forall fails s' o' ev, (forall k, fails k = None) -> Save (Some m) (standard_writer encode fails others scale) (s, o) = ((s', o'), ev, Returned None) ->
  forall p, prefix p (o_content (s_file s')) ->
  exists fs', crashed fs (sops fails others scale fs filename opts m) fs' /\ fs' (resolve filename) = Some p.
Proof.
  intros fs filename opts m fs1 s o HN fails s' o' ev NF HS p P. pose proof (save_standard _ _ _ _ _ _ _ _ HS) as EF.
  unfold standard_New in HN. unfold standard_ops. cbv zeta. destruct (may_create filename); [|discriminate HN]. set (i := resolve filename) in *.
  destruct (apply_file_options resolve may_read decode_png decode_jpeg scan (fs_set fs i []) opts) as [o0|]; [|discriminate HN]. injection HN as _ <- <-.
  assert (E0 : sys_all fs [SCreate i; STrunc i] i = Some []) by (rewrite opened; apply fs_same).
  set (ops := match draw others scale m o0 with Some (w, h, cv, o1) => if encoder_refuses (o_encoder o1) w h then [] else piece_ops fails i 0 0 (encode (o_encoder o1) (w, h, cv)) | None => [] end).
  assert (K : exists fs', crashed (sys_all fs [SCreate i; STrunc i]) ops fs' /\ fs' i = Some p).
  { rewrite EF in P. unfold ops. change (standard_new (fs i)) with (mkSink (mkOs [] 0) true 0) in P.
    assert (K0 : prefix p [] -> exists fs', crashed (sys_all fs [SCreate i; STrunc i]) [] fs' /\ fs' i = Some p).
    { intros [rest E]. symmetry in E. apply app_eq_nil in E as [-> _]. exists (sys_all fs [SCreate i; STrunc i]). split; [constructor|exact E0]. }
    destruct (draw others scale m o0) as [[[[w h] cv] o1]|]; [|apply K0; exact P]. destruct (encoder_refuses (o_encoder o1) w h); [apply K0; exact P|].
    destruct (sink_all fails NF (encode (o_encoder o1) (w, h, cv)) (mkOs [] 0) 0) as (calls & SA). rewrite SA in P. cbn [fst s_file] in P.
    rewrite os_write_all_content in P by (cbn; lia). cbn [o_pos o_content firstn app] in P. rewrite skipn_nil, app_nil_r in P.
    destruct (pieces_reach fails i NF _ p _ 0 0 [] E0 (Nat.le_0_l _) P) as (fs' & H & E). exists fs'. split; [exact H|]. rewrite E, at_off_start, skipn_nil, app_nil_r. reflexivity. }
  destruct K as (fs' & H & E). exists fs'. split; [|exact E].
  apply crash_later, crash_later. change (sys (sys fs (SCreate i)) (STrunc i)) with (sys_all fs [SCreate i; STrunc i]). clearbody ops. revert H. generalize (sys_all fs [SCreate i; STrunc i]) as g.
  revert E. clear. intros E g H. induction H; [constructor|cbn [app]; constructor; assumption|cbn [app]; apply crash_later; auto].
Qed.
(* so a file that held a picture can hold nothing *)
Theorem C82_old_picture_lost_refuted :
  forall fs filename opts m fs1 s o, snew fs filename opts = (fs1, Created s o) ->
  forall fails s' o' ev, (forall k, fails k = None) -> Save (Some m) (standard_writer encode fails others scale) (s, o) = ((s', o'), ev, Returned None) ->
  exists fs', crashed fs (sops fails others scale fs filename opts m) fs' /\ fs' (resolve filename) = Some [].
Proof. intros. eapply C82_every_beginning; eauto using prefix_nil. Qed.

(* ---- what can be decoded afterwards is right ---- *)
Theorem C82_decodable_is_right :
  forall sjis, shift_jis_contract sjis ->
  forall text eopts sched q, NewWith sjis text eopts sched = Ok q -> ~ misdetected sjis eopts (text_bytes text) ->
  forall decode fs filename opts fs1 s o, snew fs filename opts = (fs1, Created s o) ->
  lossless (o_encoder o) encode decode -> notices_missing_end (o_encoder o) encode decode ->
  encodable (o_encoder o) (img_w o (q_dimension q)) (img_h o (q_dimension q)) ->
  getShape o = ShapeRectangle -> o_logo o = None -> o_halftone o = None -> o_gradient o = None -> painter_colors o ->
  (o_bgTransparent o = false -> o_bgColor o <> o_qrColor o) -> 0 <= b_left o -> 0 <= b_right o -> 0 <= b_top o -> 0 <= b_bottom o ->
  forall fails fs' c w h cv, crashed fs (sops fails others scale fs filename opts (qMat q)) fs' ->
  fs' (resolve filename) = Some c -> decode c = Some (w, h, cv) ->
  fs (resolve filename) = Some c \/
  (w = img_w o (q_dimension q) /\ h = img_h o (q_dimension q) /\ reads_back sjis text (scan_canvas cv o (q_dimension q))).
Proof.
  intros sjis C text eopts sched q HN NM decode fs filename opts fs1 s o HS DEC END ENC ES EL EH EG PC DIFF B1 B2 B3 B4 fails fs' c w h cv H EC ED.
  assert (SN : exists old, s = standard_new old).
  { unfold standard_New in HS. destruct (may_create filename); [|discriminate HS]. destruct (apply_file_options _ _ _ _ _ _ _); [|discriminate HS]. injection HS as _ <- _. eexists. reflexivity. }
  destruct SN as [old ->].
  destruct (PropsSaved.C49_standard sjis C text eopts sched q HN NM encode decode (fun _ => None) others scale o old DEC ENC (fun _ => eq_refl) ES EL EH EG PC DIFF B1 B2 B3 B4)
    as (s' & o' & cv0 & SV & _ & DC & RB).
  destruct (C82_old_or_beginning fs filename opts (qMat q) fs1 _ o HS s' o' _ SV fails fs' H) as [E|(p & E & P)]; [left; congruence|].
  right. rewrite EC in E. injection E as <-. destruct P as [rest EP].
  assert (EW : exists pic, o_content (s_file s') = concat (encode (o_encoder o) pic)).
  { pose proof (save_standard _ _ _ _ _ _ _ _ SV) as EF. rewrite EF.
    destruct (symbol_reads_back sjis C text eopts sched q HN NM) as (SQ & _).
    destruct (draw others scale (qMat q) o) as [[[[w1 h1] cv1] o1]|] eqn:DR.
    - rewrite <- (draw_encoder _ _ _ _ _ _ _ _ _ SQ DR). destruct (encoder_refuses (o_encoder o1) w1 h1) eqn:ER.
      + exfalso. revert SV. unfold Save, standard_writer. cbn [wr_write wr_close]. rewrite DR, ER. unfold sink_close. cbn. intros SV. discriminate SV.
      + destruct (sink_all (fun _ => None) (fun _ => eq_refl) (encode (o_encoder o1) (w1, h1, cv1)) (mkOs [] 0) 0) as (calls & SA).
        exists (w1, h1, cv1). change (standard_new old) with (mkSink (mkOs [] 0) true 0). rewrite SA. cbn [fst s_file]. rewrite os_write_all_content by (cbn; lia).
        cbn [o_pos o_content firstn app]. rewrite skipn_nil, app_nil_r. reflexivity.
    - exfalso. revert SV. unfold Save, standard_writer. cbn [wr_write wr_close]. rewrite DR. unfold sink_close. cbn. intros SV. discriminate SV. }
  destruct EW as [pic EW]. destruct rest as [|x rest].
  - rewrite app_nil_r in EP. rewrite <- EP, DC in ED. injection ED as <- <- <-. auto.
  - exfalso. pose proof (END pic c (x :: rest) ltac:(congruence) ltac:(discriminate)) as F. congruence.
Qed.

(* ---- the compressed writer does not empty the file: old and new are mixed ---- *)
Notation cops := (compressed_ops resolve may_create).
Lemma save_compressed fails png_pieces padding block m s s' ev res : Save (Some m) (compressed_writer png_pieces fails padding block) s = (s', ev, res) ->
  s_file s' = match compressed_draw padding block m with
              | Some im => if encoder_refuses PngEncoder (p_size im) (p_size im) then s_file s else s_file (fst (sink_write_all fails s (png_pieces im)))
              | None => s_file s end.
Proof.
  unfold Save, compressed_writer. cbn [wr_write wr_close]. destruct (compressed_draw padding block m) as [im|].
  - destruct (encoder_refuses _ _ _).
    + unfold sink_close. destruct (s_open s); intros [= <- _ _]; reflexivity.
    + destruct (sink_write_all fails s _) as [s1 e]. cbn [fst]. unfold sink_close. destruct (s_open s1); intros [= <- _ _]; reflexivity.
  - unfold sink_close. destruct (s_open s); intros [= <- _ _]; reflexivity.
Qed.
Theorem C82_compressed_mix :
  forall png_pieces padding block m s' ev, Save (Some m) (compressed_writer png_pieces (fun _ => None) padding block) (compressed_new None) = (s', ev, Returned None) ->
  forall fails fs filename fs', crashed fs (cops fails png_pieces padding block filename m) fs' ->
  only_changes resolve filename fs fs' /\
  (fs' (resolve filename) = fs (resolve filename) \/
   exists p, prefix p (o_content (s_file s')) /\ fs' (resolve filename) = Some (p ++ skipn (length p) (fs_content fs (resolve filename)))).
Proof.
  intros png_pieces padding block m s' ev HS fails fs filename fs' H. pose proof (save_compressed _ _ _ _ _ _ _ _ _ HS) as EF. unfold compressed_ops in H. set (i := resolve filename) in *. cbv zeta in H.
  destruct (may_create filename); [|inversion H; subst; split; [intros j _; reflexivity|left; reflexivity]].
  set (ops := match compressed_draw padding block m with Some im => if encoder_refuses PngEncoder (p_size im) (p_size im) then [] else piece_ops fails i 0 0 (png_pieces im) | None => [] end) in H.
  assert (ON : Forall (on_file i) ([SCreate i] ++ ops ++ [SClose i])).
  { apply Forall_app. split; [repeat constructor|]. apply Forall_app. split; [|repeat constructor]. unfold ops.
    destruct (compressed_draw padding block m); [|constructor]. destruct (encoder_refuses _ _ _); [constructor|apply piece_ops_on]. }
  split; [intros j N; eapply crashed_on; [exact H|exact ON|exact N]|]. cbn [app] in H. inversion H; subst; [left; reflexivity|]. clear H. rename H4 into H. right.
  set (c := fs_content fs i). assert (E0 : sys fs (SCreate i) i = Some c) by (cbn [sys]; apply fs_same).
  assert (K : forall g, crashed (sys fs (SCreate i)) ops g -> exists p, prefix p (o_content (s_file s')) /\ g i = Some (p ++ skipn (length p) c)).
  { intros g G. rewrite EF. unfold ops in G. destruct (compressed_draw padding block m) as [im|]; [|inversion G; subst; exists []; split; [apply prefix_nil|exact E0]].
    destruct (encoder_refuses _ _ _); [inversion G; subst; exists []; split; [apply prefix_nil|exact E0]|].
    destruct (pieces_crash fails i _ _ _ _ _ _ E0 (Nat.le_0_l _) G) as (p & P & E). exists p. split; [|exact E].
    destruct (sink_all (fun _ => None) (fun _ => eq_refl) (png_pieces im) (mkOs [] 0) 0) as (calls & SA).
    change (compressed_new None) with (mkSink (mkOs [] 0) true 0). rewrite SA. cbn [fst s_file]. rewrite os_write_all_content by (cbn; lia).
    cbn [o_pos o_content firstn app]. rewrite skipn_nil, app_nil_r. exact P. }
  apply crashed_app in H as [H|H]; [apply K; exact H|]. destruct (K _ (crashed_end ops _)) as (p & P & E). exists p. split; [exact P|].
  inversion H; subst; [exact E|]. inversion H4; subst. exact E.
Qed.
End Crash.

(* the list of calls of the compressed writer is what C35 and C50 are about *)
Theorem C82_trace_compressed :
  forall resolve may_create png_pieces fails padding block fs filename m, may_create filename = true ->
  forall s' ev res, Save (Some m) (compressed_writer png_pieces fails padding block) (compressed_new (fs (resolve filename))) = (s', ev, res) ->
  forall j, sys_all fs (compressed_ops resolve may_create fails png_pieces padding block filename m) j = fs_set fs (resolve filename) (o_content (s_file s')) j.
Proof.
  intros resolve mc png_pieces fails padding block fs filename m MC s' ev res HS j. rewrite (save_compressed _ _ _ _ _ _ _ _ _ HS). unfold compressed_ops. rewrite MC. cbv zeta. set (i := resolve filename) in *.
  set (ops := match compressed_draw padding block m with Some im => if encoder_refuses PngEncoder (p_size im) (p_size im) then [] else piece_ops fails i 0 0 (png_pieces im) | None => [] end).
  assert (ON : Forall (on_file i) ops) by (unfold ops; destruct (compressed_draw padding block m); [|constructor]; destruct (encoder_refuses _ _ _); [constructor|apply piece_ops_on]).
  rewrite !sys_all_app. unfold sys_all at 1. cbn [fold_left sys]. change (sys_all fs [SCreate i]) with (sys fs (SCreate i)). set (fsa := sys fs (SCreate i)).
  assert (E0 : fsa i = Some (fs_content fs i)) by (unfold fsa; cbn [sys]; apply fs_same).
  destruct (Z.eq_dec j i) as [->|N].
  - rewrite fs_same. unfold ops. unfold compressed_new, compressed_open. change (match fs i with Some c => c | None => [] end) with (fs_content fs i).
    destruct (compressed_draw padding block m) as [im|]; [|exact E0]. destruct (encoder_refuses _ _ _); [exact E0|]. rewrite (pieces_run fails i _ _ _ _ _ E0 (Nat.le_0_l _)). reflexivity.
  - rewrite (sys_all_on i ops ON) by exact N. unfold fsa. cbn [sys]. rewrite !fs_other by exact N. reflexivity.
Qed.
(* old and new are mixed: after a crash the file is neither what it was nor the beginning of the new picture *)
Theorem C82_compressed_refuted :
  ~ (forall png_pieces padding block m s' ev, Save (Some m) (compressed_writer png_pieces (fun _ => None) padding block) (compressed_new None) = (s', ev, Returned None) ->
     forall resolve may_create fs filename fs', crashed fs (compressed_ops resolve may_create (fun _ => None) png_pieces padding block filename m) fs' ->
     fs' (resolve filename) = fs (resolve filename) \/ exists p, fs' (resolve filename) = Some p /\ prefix p (o_content (s_file s'))).
Proof.
  intros G. specialize (G (fun _ => [[1; 2]]) 0 1 (newMatrix 1 1)). destruct (Save _ _ _) as [[s' ev] res] eqn:ES in G.
  assert (EV : res = Returned None /\ o_content (s_file s') = [1; 2]) by (vm_compute in ES; injection ES as <- _ <-; split; reflexivity). destruct EV as [-> EV].
  specialize (G s' ev eq_refl (fun _ => 0) (fun _ => true) (fun _ => Some [7; 8; 9]) []).
  destruct (G (sys (sys (fun _ => Some [7; 8; 9]) (SCreate 0)) (SWrite 0 0 [1]))) as [E|(p & E & [r P])].
  - apply crash_later. apply crash_writing. exists [2]. reflexivity.
  - vm_compute in E. discriminate E.
  - rewrite EV in P. vm_compute in E. injection E as <-. discriminate P.
Qed.

(* ---- writer/file ---- *)
Lemma read_lines_prefix n : forall p rest line l ls, (length p <= n)%nat -> read_lines p line = Some l -> read_lines (p ++ rest) line = Some ls -> exists k, l = firstn k ls.
Proof.
  induction n as [|n IH]; intros p rest line l ls LN E1 E2; (destruct p as [|b p]; [cbn [read_lines] in E1; destruct line; [injection E1 as <-; exists 0%nat; reflexivity|discriminate E1]|]); [cbn in LN; lia|].
  cbn [read_lines app] in E1, E2. cbn [length] in LN. destruct (b =? 0x0A).
  - destruct (read_lines p []) as [l'|] eqn:F1; [|discriminate E1]. destruct (read_lines (p ++ rest) []) as [ls'|] eqn:F2; [|discriminate E2].
    destruct (IH p rest [] l' ls' ltac:(lia) F1 F2) as [k K]. exists (S k). injection E1 as <-. injection E2 as <-. cbn [firstn]. rewrite K. reflexivity.
  - destruct (b =? 0x20); [eapply (IH p rest); eauto; lia|]. destruct p as [|b1 [|b2 p]]; [discriminate E1|discriminate E1|]. cbn [app] in E2. cbn [length] in LN.
    destruct ((b =? 0xE2) && (b1 =? 0x96) && (b2 =? 0x88)); [eapply (IH p rest); eauto; lia|].
    destruct ((b =? 0xE2) && (b1 =? 0x96) && (b2 =? 0x80)); [eapply (IH p rest); eauto; lia|].
    destruct ((b =? 0xE2) && (b1 =? 0x96) && (b2 =? 0x84)); [eapply (IH p rest); eauto; lia|discriminate E1].
Qed.
Lemma file_pieces fails i chunks : forall fs f, fs i = Some (f_content f) -> sys_all fs (piece_ops fails i (length (f_content f)) (f_calls f) chunks) i = Some (f_content (fst (write_all fails f chunks))).
Proof.
  induction chunks as [|c r IH]; intros fs f E; cbn [piece_ops write_all]; [exact E|]. unfold write_string.
  assert (WR : forall q, sys fs (SWrite i (length (f_content f)) q) i = Some (f_content f ++ q)) by (intros q; cbn [sys]; rewrite fs_same, (content_some fs i _ E), padded_le, at_off_write, at_off_end by lia; reflexivity).
  destruct (fails (f_calls f)) as [n|].
  - unfold sys_all. cbn [fold_left fst f_content]. apply WR.
  - change (sys_all fs (?a :: ?b)) with (sys_all (sys fs a) b). specialize (IH (sys fs (SWrite i (length (f_content f)) c)) (mkFile (f_content f ++ c) (S (f_calls f))) (WR c)).
    cbn [f_content f_calls] in IH. rewrite app_length in IH. exact IH.
Qed.
Theorem C82_trace_file :
  forall fails fs i f m f' r, fs i = Some (f_content f) -> file_write fails (Some f) m = (Some f', r) ->
  forall j, sys_all fs (file_ops fails i f m) j = fs_set fs i (f_content f') j.
Proof.
  intros fails fs i f m f' r E HW j. unfold file_write in HW. unfold file_ops. destruct (Z.eq_dec j i) as [->|N].
  - rewrite fs_same. destruct (output (m_bitmap m)) as [lines|]; [|injection HW as <- _; exact E]. rewrite file_pieces by exact E.
    destruct (write_all fails f (chunks_of lines)) as [f1 ok]. injection HW as <- _. reflexivity.
  - rewrite fs_other by exact N. apply (sys_all_on i); [|exact N]. destruct (output (m_bitmap m)); [apply piece_ops_on|constructor].
Qed.
(* the file holds what it held and the beginning of the text from which the symbol can be read; what can be read of it by lines (two rows
   of modules each) is right *)
Theorem C82_text_file :
  forall n m fails fs i f fs', square n m -> fs i = Some (f_content f) -> crashed fs (file_ops fails i f m) fs' ->
  (forall j, j <> i -> fs' j = fs j) /\
  exists text all p, read_half_blocks text (Z.to_nat n) = Some (m_bitmap m) /\ read_lines text [] = Some all /\ prefix p text /\ fs' i = Some (f_content f ++ p) /\
    forall p0 lines, prefix p0 p -> read_lines p0 [] = Some lines -> exists k, lines = firstn k all.
Proof.
  intros n m fails fs i f fs' SQ E H. unfold file_ops in H. destruct (file_write (fun _ => None) (Some f) m) as [f0 r0] eqn:EW.
  destruct (file_writer n m _ f f0 r0 SQ EW) as (text & all & RH & RL & _ & _ & content & calls & EF & K & OKI).
  assert (OK : r0 = FileOk) by (apply OKI; reflexivity). destruct K as [[_ EC]|[F _]]; [|congruence]. subst f0.
  unfold file_write in EW. destruct (output (m_bitmap m)) as [ls|] eqn:EO; [|congruence].
  destruct (write_all (fun _ => None) f (chunks_of ls)) as [f1 ok] eqn:EA. assert (EC1 : f_content f1 = content) by (injection EW as EW1 _; rewrite EW1; reflexivity). destruct ok; [|injection EW as _ EW2; congruence].
  destruct (write_all_ok _ _ _ _ _ (chunks_nonempty _) EA) as (_ & I2 & _). specialize (I2 eq_refl). rewrite EC1, EC in I2. apply app_inv_head in I2.
  split; [intros j N; eapply crashed_on; [exact H|apply piece_ops_on|exact N]|].
  destruct (pieces_crash fails i _ _ _ _ _ _ E (le_n _) H) as (p & P & EP). exists text, all, p. rewrite at_off_end in EP. rewrite <- I2 in P.
  split; [exact RH|]. split; [exact RL|]. split; [exact P|]. split; [exact EP|]. intros p0 lines P0 R0. destruct (prefix_trans _ _ _ P0 P) as [rest ER]. rewrite ER in RL.
  apply (read_lines_prefix (length p0) p0 rest [] lines all (le_n _) R0 RL).
Qed.

(* ---- the command line program ---- *)
Section Cli.
Context (resolve : path -> Z) (may_read may_create : path -> bool) (decode_png decode_jpeg : list Z -> option image).
Context (sjis : Z -> option (list Z)) (scan : list Z -> option rgba) (encode : encoder -> Z * Z * canvas -> list (list Z))
        (others : shape -> canvas -> call -> canvas) (scale : image -> Z -> Z -> Z -> Z) (term_ok flush_ok : bool) (events : list ModelTerminal.event).
Notation run fails := (cli_action resolve may_read may_create decode_png decode_jpeg sjis scan encode fails others scale term_ok flush_ok events).
Notation ops fails := (cli_ops resolve may_read may_create decode_png decode_jpeg scan encode fails others scale sjis).

Lemma parsed f mode foo : parseGenerateContextFrom f = Some (mode, foo) -> mode = f_terminal f /\ foo_output foo = f_output f.
Proof.
  intros EP. destruct (PropsCli.C51_borders_iff f) as [B1 _]. destruct (proj1 B1) as (t & r & b & l & HB); [congruence|].
  pose proof (parse_complete f t r b l HB) as PC. rewrite EP in PC. injection PC as -> ->. split; reflexivity.
Qed.

(* however the program ends, its system calls together do what C66 is about *)
Theorem C82_trace_cli :
  forall fails f text sched w w' e, run fails f text sched w = (w', e) -> forall j, sys_all (w_fs w) (ops fails f text sched (w_fs w)) j = w_fs w' j.
Proof.
  intros fails f text sched w w' e HR j. unfold cli_action in HR. unfold cli_ops. destruct (parseGenerateContextFrom f) as [[mode foo]|]; [|injection HR as <- _; reflexivity].
  destruct (New sjis (GoString text) sched) as [q|er|p|]; [|injection HR as <- _; reflexivity..].
  destruct mode; [destruct term_ok; [destruct (Save _ _ _) as [[[t' open] ev] res]|]; injection HR as <- _; reflexivity|].
  destruct (standard_New _ _ _ _ _ _ _ _ _) as [fs1 c] eqn:EN.
  apply (C82_trace_standard resolve may_read may_create decode_png decode_jpeg scan encode others scale fails _ _ _ (qMat q) _ _ EN (w_fs w')).
  destruct c as [s o| |]; [|injection HR as <- _; reflexivity..]. destruct (Save _ _ _) as [[[s' o'] ev] res] eqn:ES. injection HR as <- _. exists s', o', ev, res. split; [reflexivity|]. reflexivity.
Qed.
(* killed at any moment: no other file is changed, and the output file is as it was, or holds the beginning of what it should hold; before
   the symbol is made, and if it cannot be made, nothing at all is changed *)
Theorem C82_cli :
  forall f text sched w w', run (fun _ => None) f text sched w = (w', Exited None) ->
  forall final, w_fs w' (resolve (f_output f)) = Some final -> f_terminal f = false ->
  forall fails fs', crashed (w_fs w) (ops fails f text sched (w_fs w)) fs' ->
  only_changes resolve (f_output f) (w_fs w) fs' /\
  (fs' (resolve (f_output f)) = w_fs w (resolve (f_output f)) \/ exists p, fs' (resolve (f_output f)) = Some p /\ prefix p final).
Proof.
  intros f text sched w w' HR final EF HT fails fs' H. unfold cli_action in HR. unfold cli_ops in H. destruct (parseGenerateContextFrom f) as [[mode foo]|] eqn:EP; [|discriminate HR].
  destruct (parsed f mode foo EP) as [-> EO]. rewrite HT in HR, H. destruct (New sjis (GoString text) sched) as [q|er|p|]; [|discriminate HR..].
  destruct (standard_New _ _ _ _ _ _ _ _ _) as [fs1 c] eqn:EN in HR. destruct c as [s o| |]; [|discriminate HR..].
  destruct (Save _ _ _) as [[[s' o'] ev] res] eqn:ES in HR. injection HR as <- RES. cbn [w_fs] in EF. rewrite EO in *. rewrite fs_same in EF. injection EF as <-.
  assert (RR : res = Returned None) by (unfold of_save in RES; destruct res as [[x|]|]; [discriminate RES|reflexivity|discriminate RES]). subst res.
  split; [eapply C82_only_this_file; exact H|]. eapply C82_old_or_beginning; eassumption.
Qed.
Theorem C82_cli_no_symbol :
  forall fails f text sched fs fs', (forall q, New sjis (GoString text) sched <> Ok q) \/ f_terminal f = true -> crashed fs (ops fails f text sched fs) fs' -> fs' = fs.
Proof.
  intros fails f text sched fs fs' HN H. unfold cli_ops in H. destruct (parseGenerateContextFrom f) as [[mode foo]|] eqn:EP; [|inversion H; reflexivity].
  destruct (parsed f mode foo EP) as [-> _]. destruct (New sjis (GoString text) sched) as [q|er|p|]; [|inversion H; reflexivity..].
  destruct HN as [HN|HT]; [destruct (HN q); reflexivity|]. rewrite HT in H. inversion H; reflexivity.
Qed.
End Cli.

(* ---- concrete cases ---- *)
(* two writes of three bytes in all over an older file *)
Definition old_files : fsys := fun j => if j =? 0 then Some [7; 8; 9; 9] else Some [5].
Example C82_example :
  let sops := standard_ops (fun _ => 0) (fun _ => true) (fun _ => true) (fun _ => None) (fun _ => None) (fun _ => None) (fun _ _ => [[1; 2]; [3]]) (fun _ => None) (fun _ => rectangle_draw) (fun _ _ _ _ => 0) old_files [] [] (newMatrix 1 1) in
  sops = [SCreate 0; STrunc 0; SWrite 0 0 [1; 2]; SWrite 0 2 [3]; SClose 0] /\
  crashed old_files sops (sys_all old_files [SCreate 0; STrunc 0; SWrite 0 0 [1]]) /\
  sys_all old_files [SCreate 0; STrunc 0; SWrite 0 0 [1]] 0 = Some [1] /\ sys_all old_files sops 0 = Some [1; 2; 3] /\ sys_all old_files sops 1 = Some [5].
Proof.
  cbv zeta. assert (E : standard_ops (fun _ => 0) (fun _ => true) (fun _ => true) (fun _ => None) (fun _ => None) (fun _ => None) (fun _ _ => [[1; 2]; [3]]) (fun _ => None) (fun _ => rectangle_draw) (fun _ _ _ _ => 0) old_files [] [] (newMatrix 1 1)
    = [SCreate 0; STrunc 0; SWrite 0 0 [1; 2]; SWrite 0 2 [3]; SClose 0]) by (vm_compute; reflexivity).
  rewrite E. split; [reflexivity|]. split; [|repeat split; vm_compute; reflexivity].
  apply crash_later, crash_later. apply crash_writing. exists [2]. reflexivity.
Qed.
(* a decoder that notices a missing end: the length comes first *)
Definition counted_encode (e : encoder) (i : Z * Z * canvas) : list (list Z) := let c := concat (PropsSaved.toy_encode e i) in [[zlen c]; c].
Definition counted_decode (l : list Z) : option (Z * Z * canvas) := match l with n :: c => if zlen c =? n then PropsSaved.toy_decode c else None | [] => None end.
Example C82_codec : (forall e, lossless e counted_encode counted_decode) /\ (forall e, notices_missing_end e counted_encode counted_decode).
Proof.
  split.
  - intros e w h cv EN. unfold counted_encode. cbn [concat app]. rewrite app_nil_r. unfold counted_decode. rewrite Z.eqb_refl. unfold PropsSaved.toy_encode. cbn [concat app]. rewrite app_nil_r.
    eexists. split; [reflexivity|]. intros px py X Y. cbn beta. symmetry. apply PropsSaved.toy_pixel; assumption.
  - intros e pic p rest E N. unfold counted_encode in E. cbn [concat app] in E. rewrite app_nil_r in E. unfold counted_decode. destruct p as [|n c]; [reflexivity|].
    cbn [app] in E. injection E as <- E. rewrite E. destruct (Z.eqb_spec (zlen c) (zlen (c ++ rest))) as [F|]; [|reflexivity].
    exfalso. unfold zlen in F. rewrite app_length in F. destruct rest; [contradiction|cbn in F; lia].
Qed.

Print Assumptions C82_trace_standard.
Print Assumptions C82_only_this_file.
Print Assumptions C82_old_or_beginning.
Print Assumptions C82_every_beginning.
Print Assumptions C82_old_picture_lost_refuted.
Print Assumptions C82_decodable_is_right.
Print Assumptions C82_compressed_mix.
Print Assumptions C82_trace_compressed.
Print Assumptions C82_compressed_refuted.
Print Assumptions C82_trace_file.
Print Assumptions C82_text_file.
Print Assumptions C82_trace_cli.
Print Assumptions C82_cli.
Print Assumptions C82_cli_no_symbol.
