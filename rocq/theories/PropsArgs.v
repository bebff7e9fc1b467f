(* C94: the arguments of the command line program. *)
From Coq Require Import Lia Init.Byte.
From Verif Require Import ModelBase ModelQRCode ModelMatrix ModelQRCode ModelStandard ModelCli ModelWriters ModelFs ModelTerminal ModelExamples ModelArgs.
From Verif Require Import SpecIso SpecReader SpecAPI SpecMedium SpecFs SpecCli SpecArgs.
From Verif Require Import ProofBase.
From Verif Require PropsFs ProofExamples.
Open Scope Z_scope.

Definition id_of (s : setting) : flag_id :=
  match s with STerminal _ => Terminal | SOutput _ => Output | SBlock _ => Block | SBorders _ => Borders | SCircle _ => Circle | STransparent _ => Transparent | SHalftone _ => Halftone end.
Definition short_of (h : habit) (i : flag_id) : bool := match i with Output => short_output h | Block => short_block h | Borders => short_borders h | _ => false end.

Lemma undash_dash1 d c n : (d = [45] \/ d = [45; 45]) -> c <> 45 -> undash (d ++ c :: n) = Some (c :: n).
Proof.
  intros D N. assert (E : (c =? minus) = false) by (apply Z.eqb_neq; exact N).
  destruct D as [-> | ->]; cbn [app undash]; change (45 =? minus) with true; cbv iota; [rewrite E|]; reflexivity.
Qed.
Lemma split_some n v : ~ In 61 n -> split_equals (n ++ 61 :: v) = (n, Some v).
Proof.
  induction n as [|c n IH]; intros N; [reflexivity|]. cbn [app split_equals]. destruct (Z.eqb_spec c equals_sign) as [E|E]; [destruct N; left; exact E|].
  rewrite IH by (intros I; apply N; right; exact I). reflexivity.
Qed.
Lemma split_none n : ~ In 61 n -> split_equals n = (n, None).
Proof.
  induction n as [|c n IH]; intros N; [reflexivity|]. cbn [split_equals]. destruct (Z.eqb_spec c equals_sign) as [E|E]; [destruct N; left; exact E|].
  rewrite IH by (intros I; apply N; right; exact I). reflexivity.
Qed.
Lemma bool_word_parse b v : bool_word b v -> ParseBool v = Some b.
Proof. unfold bool_word. destruct b; cbn [map In]; intros I; repeat (destruct I as [<-|I]; [vm_compute; reflexivity|]); destruct I. Qed.
Lemma name_facts h s : exists c n, flag_name h s = c :: n /\ c <> 45 /\ c <> 61 /\ ~ In 61 (c :: n) /\ lookup (c :: n) = Some (id_of s, short_of h (id_of s)).
Proof.
  destruct h as [[] [] []], s; eexists _, _; (split; [vm_compute; reflexivity|]); (split; [lia|]); (split; [lia|]); (split; [cbn [In]; lia|vm_compute; reflexivity]).
Qed.

Section Args.
Context (parse_uint : path -> option Z).
Notation parse := (ModelArgs.parse parse_uint).
Notation interpret := (ModelArgs.interpret parse_uint).

Definition after (h : habit) (p : parsed) (s : setting) : parsed :=
  mkParsed (apply_setting (p_flags p) s) (p_help p) (p_version p) (p_used p ++ [(id_of s, short_of h (id_of s))]).
Lemma assign_value h s v p : value_word parse_uint s v -> assign parse_uint (id_of s) (short_of h (id_of s)) v p = Some (after h p s).
Proof.
  destruct p as [[t o k b c tr ha] he ve u]. intros V. destruct s; cbn [id_of value_word assign] in *; unfold after; cbn [apply_setting p_flags p_help p_version p_used id_of];
    try (rewrite (bool_word_parse _ _ V)); try rewrite V; reflexivity.
Qed.
Lemma parse_setting h s ws rest p : written parse_uint h s ws -> parse (ws ++ rest) p = parse rest (after h p s).
Proof.
  intros (d & D & W). destruct (name_facts h s) as (c & n & EN & C1 & C2 & NI & LK). rewrite EN in W.
  assert (B1 : (c =? minus) = false) by (apply Z.eqb_neq; exact C1). assert (B2 : (c =? equals_sign) = false) by (apply Z.eqb_neq; exact C2).
  destruct W as [(w & v & -> & EW & V)|[(SW & w & v & -> & EW & V)|(SW & w & -> & EW)]]; cbn [app ModelArgs.parse]; rewrite EW.
  - change ((c :: n) ++ 61 :: v) with (c :: n ++ 61 :: v). rewrite (undash_dash1 d c _ D C1), B1, B2. cbn [orb]. cbv iota.
    change (c :: n ++ 61 :: v) with ((c :: n) ++ 61 :: v). rewrite (split_some _ _ NI), LK, (assign_value h s v p V). reflexivity.
  - rewrite (undash_dash1 d c _ D C1), B1, B2. cbn [orb]. cbv iota. rewrite (split_none _ NI), LK.
    assert (BF : bool_flag (id_of s) = false) by (destruct s; try discriminate SW; reflexivity). rewrite BF, (assign_value h s _ p V). reflexivity.
  - rewrite (undash_dash1 d c _ D C1), B1, B2. cbn [orb]. cbv iota. rewrite (split_none _ NI), LK.
    assert (BF : bool_flag (id_of s) = true) by (destruct s; try discriminate SW; reflexivity). rewrite BF.
    rewrite (assign_value h s (name "true") p); [reflexivity|]. destruct s; try discriminate SW; injection SW as ->; unfold value_word, bool_word; cbn; tauto.
Qed.
Lemma parse_settings h ss : forall wss rest p, Forall2 (written parse_uint h) ss wss -> parse (concat wss ++ rest) p = parse rest (fold_left (after h) ss p).
Proof.
  induction ss as [|s ss IH]; intros wss rest p F; inversion F as [|? ws ? wss' W F']; subst; [reflexivity|].
  cbn [concat fold_left]. rewrite <- app_assoc, (parse_setting h s _ _ _ W). apply IH. exact F'.
Qed.
Lemma after_flags h ss : forall p, p_flags (fold_left (after h) ss p) = fold_left apply_setting ss (p_flags p).
Proof. induction ss as [|s ss IH]; intros p; [reflexivity|]. cbn [fold_left]. rewrite IH. reflexivity. Qed.
Lemma after_rest h ss : forall p, Forall (fun '(i, s) => s = short_of h i) (p_used p) ->
  p_help (fold_left (after h) ss p) = p_help p /\ p_version (fold_left (after h) ss p) = p_version p /\ Forall (fun '(i, s) => s = short_of h i) (p_used (fold_left (after h) ss p)).
Proof.
  induction ss as [|s ss IH]; intros p F; [auto|]. cbn [fold_left]. destruct (IH (after h p s)) as (A & B & D); [|auto].
  unfold after. cbn [p_used]. apply Forall_app. split; [exact F|]. constructor; [reflexivity|constructor].
Qed.
Lemma one_form h used : Forall (fun '(i, s) => s = short_of h i) used -> both_forms used = false.
Proof.
  intros F. apply not_true_iff_false. intros E. apply existsb_exists in E as ([i s] & I & E). apply andb_true_iff in E as [E1 E]. apply existsb_exists in E as ([j t] & J & E).
  apply andb_true_iff in E as [E E2]. rewrite Forall_forall in F. pose proof (F _ I) as FI. pose proof (F _ J) as FJ. cbv beta iota in FI, FJ. subst s t.
  apply negb_true_iff in E1. assert (i = j) by (destruct i, j; try discriminate E; reflexivity). subst j. congruence.
Qed.
Lemma parse_text tail t p : text_words tail t -> exists more, parse tail p = Some (p, t :: more).
Proof.
  intros (more & [(-> & N)|(w & -> & E)]); exists more; cbn [ModelArgs.parse].
  - destruct (undash (map byteZ t)) as [u|] eqn:U; [|reflexivity]. exfalso. apply N. unfold undash in U.
    destruct (map byteZ t) as [|a [|b r]]; try discriminate U. destruct (Z.eqb_spec a minus) as [->|]; [|discriminate U]. exists b, r. reflexivity.
  - rewrite E. reflexivity.
Qed.

Lemma eq_bytes_true a : forall b, eq_bytes a b = true -> a = b.
Proof. induction a as [|x a IH]; intros [|y b] E; try discriminate E; [reflexivity|]. cbn in E. apply andb_true_iff in E as [E1 E2]. apply Z.eqb_eq in E1. rewrite (IH _ E2), E1. reflexivity. Qed.

(* every way of writing flags is understood: the last setting of a flag counts, all others have their documented defaults *)
Theorem C94_flags : forall h ss wss tail text, Forall2 (written parse_uint h) ss wss -> text_words tail text ->
  map byteZ text <> name "help" -> map byteZ text <> name "h" ->
  interpret (concat wss ++ tail) = Action (fold_left apply_setting ss documented_defaults) text.
Proof.
  intros h ss wss tail text F T N1 N2. unfold ModelArgs.interpret. rewrite (parse_settings h ss wss tail start F).
  destruct (parse_text tail text (fold_left (after h) ss start) T) as (more & ->).
  destruct (after_rest h ss start (Forall_nil _)) as (A & B & D). rewrite (one_form h _ D), A, B, after_flags. cbn [start p_help p_version p_flags].
  destruct (eq_bytes (map byteZ text) (name "help")) eqn:E1; [destruct N1; apply eq_bytes_true; exact E1|].
  destruct (eq_bytes (map byteZ text) (name "h")) eqn:E2; [destruct N2; apply eq_bytes_true; exact E2|]. reflexivity.
Qed.
End Args.

(* ---- texts that cannot be given ---- *)
(* the texts help and h, however they are given, show the help instead *)
Theorem C94_help_is_shown : forall parse_uint h ss wss tail text, Forall2 (written parse_uint h) ss wss -> text_words tail text ->
  map byteZ text = name "help" \/ map byteZ text = name "h" -> ModelArgs.interpret parse_uint (concat wss ++ tail) = ShowsHelp.
Proof.
  intros pu h ss wss tail text F T N. unfold ModelArgs.interpret. rewrite (parse_settings pu h ss wss tail start F).
  destruct (parse_text pu tail text (fold_left (after h) ss start) T) as (more & ->).
  destruct (after_rest h ss start (Forall_nil _)) as (A & B & D). rewrite (one_form h _ D), A, B. cbn [start p_help p_version].
  destruct N as [-> | ->]; reflexivity.
Qed.
(* after any settings, a flag that the program does not have is an error *)
Definition documented_names : list path :=
  map name ["terminal"; "output"; "o"; "block"; "s"; "borders"; "b"; "circle"; "transparent"; "halftone"; "help"; "h"; "version"; "v"]%string.
Theorem C94_unknown_flag : forall parse_uint h ss wss word d c n v tail, Forall2 (written parse_uint h) ss wss ->
  (d = [45] \/ d = [45; 45]) -> c <> 45 -> c <> 61 -> ~ In 61 n -> ~ In (c :: n) documented_names -> map byteZ word = d ++ (c :: n) ++ v -> v = [] \/ (exists r, v = 61 :: r) ->
  ModelArgs.interpret parse_uint (concat wss ++ word :: tail) = UsageError.
Proof.
  intros pu h ss wss word d c n v tail F D C1 C2 NI ND EW EV. unfold ModelArgs.interpret. rewrite (parse_settings pu h ss wss (word :: tail) start F).
  assert (LK : lookup (c :: n) = None).
  { unfold lookup. destruct (find (fun e => eq_bytes (fst e) (c :: n)) flag_table) as [[nm r]|] eqn:E; [|reflexivity]. exfalso. apply ND. apply find_some in E as [I E]. cbn [fst] in E. apply eq_bytes_true in E. subst nm.
    change documented_names with (map fst flag_table). apply in_map_iff. eexists. split; [|exact I]. reflexivity. }
  assert (B1 : (c =? minus) = false) by (apply Z.eqb_neq; exact C1). assert (B2 : (c =? equals_sign) = false) by (apply Z.eqb_neq; exact C2).
  assert (NI' : ~ In 61 (c :: n)) by (intros [X|X]; [congruence|exact (NI X)]).
  cbn [ModelArgs.parse]. rewrite EW. change ((c :: n) ++ v) with (c :: n ++ v). rewrite (undash_dash1 d c _ D C1), B1, B2. cbn [orb]. cbv iota.
  assert (SP : exists v', split_equals (c :: n ++ v) = (c :: n, v')).
  { destruct EV as [-> |[r ->]].
    - rewrite app_nil_r, (split_none _ NI'). eauto.
    - change (c :: n ++ 61 :: r) with ((c :: n) ++ 61 :: r). rewrite (split_some _ _ NI'). eauto. }
  destruct SP as [v' ->]. rewrite LK. reflexivity.
Qed.
Theorem C94_help_is_no_text_refuted :
  ~ (forall parse_uint h ss wss tail text, Forall2 (written parse_uint h) ss wss -> text_words tail text ->
     exists f, ModelArgs.interpret parse_uint (concat wss ++ tail) = Action f text).
Proof.
  intros A. destruct (A (fun _ => None) (mkHabit false false false) [] [] [go_string "help"] (go_string "help") (Forall2_nil _)) as (f & E).
  - exists []. left. split; [reflexivity|]. intros (c & r & E). discriminate E.
  - vm_compute in E. discriminate E.
Qed.
(* a text that begins with a minus, and is longer, is never encoded when it is given without -- *)
Theorem C94_minus_needs_dashes : forall parse_uint c r text f, map byteZ text = 45 :: c :: r -> ModelArgs.interpret parse_uint [text] <> Action f text.
Proof.
  intros pu c r text f E A. assert (NE : text <> []) by (intros ->; discriminate E). unfold ModelArgs.interpret in A.
  assert (REST : forall p rest, ModelArgs.parse pu [text] start = Some (p, rest) -> rest = []).
  { intros p rest. cbn [ModelArgs.parse]. rewrite E. cbn [undash]. change (45 =? minus) with true. cbv iota.
    destruct (if c =? minus then r else c :: r) as [|a word]; [intros [= _ <-]; reflexivity|].
    destruct ((a =? minus) || (a =? equals_sign)); [discriminate|]. destruct (split_equals (a :: word)) as [n v]. destruct (lookup n) as [[i s]|]; [|discriminate].
    destruct v as [v|]; [|destruct (bool_flag i); [|discriminate]]; destruct (assign _ _ _ _ _); try discriminate; intros [= _ <-]; reflexivity. }
  destruct (ModelArgs.parse pu [text] start) as [[p rest]|]; [|discriminate A]. rewrite (REST _ _ eq_refl) in A.
  destruct (both_forms _); [discriminate A|]. destruct (p_help p); [discriminate A|]. destruct (p_version p); [discriminate A|]. injection A as _ A. congruence.
Qed.
(* both names of a flag at once are an error *)
Theorem C94_two_forms : forall parse_uint a b text, ~ (exists c r, map byteZ text = 45 :: c :: r) ->
  ModelArgs.interpret parse_uint [go_string "-o"; a; go_string "--output"; b; text] = UsageError.
Proof.
  intros pu a b text N. unfold ModelArgs.interpret.
  rewrite (parse_setting pu (mkHabit true false false) (SOutput (map byteZ a)) [go_string "-o"; a] [go_string "--output"; b; text])
    by (exists [45]; split; [left; reflexivity|right; left; split; [reflexivity|exists (go_string "-o"), a; repeat split]]).
  rewrite (parse_setting pu (mkHabit false false false) (SOutput (map byteZ b)) [go_string "--output"; b] [text])
    by (exists [45; 45]; split; [right; reflexivity|right; left; split; [reflexivity|exists (go_string "--output"), b; repeat split]]).
  destruct (parse_text pu [text] text (after (mkHabit false false false) (after (mkHabit true false false) start (SOutput (map byteZ a))) (SOutput (map byteZ b)))) as (more & ->).
  { exists []. left. split; [reflexivity|exact N]. }
  reflexivity.
Qed.

(* ---- the whole program ---- *)
Section Program.
Context (sjis : Z -> option (list Z)) (C : shift_jis_contract sjis) (parse_uint : path -> option Z) (TWENTY : parse_uint (name "20") = Some 20).
Context (resolve : path -> Z) (may_read may_create : path -> bool) (decode_png decode_jpeg : list Z -> option image) (scan : list Z -> option rgba)
        (encode : encoder -> Z * Z * canvas -> list (list Z)) (decode : list Z -> option (Z * Z * canvas)) (fails : nat -> option nat)
        (others : shape -> canvas -> call -> canvas) (edge : call -> Z -> Z -> rgba -> rgba) (scale : image -> Z -> Z -> Z -> Z).
Context (NF : forall k, fails k = None) (CIRCLE : others ShapeCircle = circle_draw edge).
Notation main term_ok flush_ok events sched := (program parse_uint (fun f text => cli_action resolve may_read may_create decode_png decode_jpeg sjis scan encode fails others scale term_ok flush_ok events f text sched)).

(* with flags and a text the program is its action (see C66 for what that does) *)
Theorem C94_action : forall h ss wss tail text term_ok flush_ok events sched w, Forall2 (written parse_uint h) ss wss -> text_words tail text ->
  map byteZ text <> name "help" -> map byteZ text <> name "h" ->
  main term_ok flush_ok events sched (concat wss ++ tail) w =
  let '(w', e) := cli_action resolve may_read may_create decode_png decode_jpeg sjis scan encode fails others scale term_ok flush_ok events
                    (fold_left apply_setting ss documented_defaults) text sched w in (w', Some e).
Proof. intros h ss wss tail text tok fok ev sched w F T N1 N2. unfold program. rewrite (C94_flags parse_uint h ss wss tail text F T N1 N2). reflexivity. Qed.

(* ---- the examples of cmd/qrcode/README.md ---- *)
Definition hello_world := go_string "Hello, World!".
Lemma hello_symbol sched : fair sched -> exists q, New sjis (GoString hello_world) sched = Ok q /\ q_dimension q = 25 /\ ~ misdetected sjis [] (text_bytes (GoString hello_world)).
Proof.
  intros FS. destruct (ProofExamples.fixed_text sjis C hello_world [] sched SpecIso.Q 2) as (q & HN & D);
    [exact FS|reflexivity|left; reflexivity|reflexivity|reflexivity|lia|reflexivity|right; reflexivity|].
  exists q. split; [exact HN|]. split; [exact D|]. apply (proj2 (ProofExamples.small_byte sjis (text_bytes (GoString hello_world)) eq_refl)).
Qed.
Ltac numerals := repeat split; try (intros X; discriminate X); try (repeat constructor; unfold digit; lia); try (vm_compute; reflexivity); try lia.

(* qrcode "Hello, World!" *)
Theorem C94_readme_file : forall term_ok flush_ok events sched w, fair sched -> may_create (name "qrcode.jpg") = true -> lossy 127 JpegEncoder encode decode ->
  exists w' content cv, main term_ok flush_ok events sched [hello_world] w = (w', Some (Exited None)) /\
    only_changes resolve (name "qrcode.jpg") (w_fs w) (w_fs w') /\ w_fs w' (resolve (name "qrcode.jpg")) = Some content /\
    decode content = Some (125, 125, cv) /\ reads_back sjis (GoString hello_world) (scan_pixels darker_than_grey 2 0 0 5 25 cv).
Proof.
  intros tok fok ev sched w FS MC J. destruct (hello_symbol sched FS) as (q & HN & D & NM).
  destruct (PropsFs.C66_jpeg sjis C resolve may_read may_create decode_png decode_jpeg scan encode decode fails others edge scale tok fok ev documented_defaults hello_world sched w q 0 0 0 0
    HN NM) as (w' & content & cv & E & O & K & DE & RB).
  - exists [48], [48], [48], [48]. numerals.
  - reflexivity.
  - left. reflexivity.
  - intros (p & E). apply (f_equal (@rev Z)) in E. rewrite rev_app_distr in E. vm_compute in E. discriminate E.
  - exact MC.
  - exact CIRCLE.
  - intros X. discriminate X.
  - exact J.
  - exact NF.
  - cbv zeta in *. rewrite D in *. exists w', content, cv. split; [|split; [exact O|split; [exact K|split; [exact DE|exact RB]]]].
    unfold program. change (ModelArgs.interpret parse_uint [hello_world]) with (Action documented_defaults hello_world). cbv iota beta. rewrite E. reflexivity.
Qed.

(* qrcode -o qrcode.png -s 20 -b 20,20,20,20 -m "Hello, World!": there is no flag -m, so the documented command makes no file *)
Theorem C94_readme_second_refuted : forall term_ok flush_ok events sched w,
  main term_ok flush_ok events sched (map go_string ["-o"; "qrcode.png"; "-s"; "20"; "-b"; "20,20,20,20"; "-m"; "Hello, World!"]%string) w = (w, None) /\
  ModelArgs.interpret parse_uint (map go_string ["-o"; "qrcode.png"; "-s"; "20"; "-b"; "20,20,20,20"; "-m"; "Hello, World!"]%string) = UsageError.
Proof.
  intros tok fok ev sched w.
  assert (E : ModelArgs.interpret parse_uint (map go_string ["-o"; "qrcode.png"; "-s"; "20"; "-b"; "20,20,20,20"; "-m"; "Hello, World!"]%string) = UsageError).
  { unfold ModelArgs.interpret.
    change (map go_string ["-o"; "qrcode.png"; "-s"; "20"; "-b"; "20,20,20,20"; "-m"; "Hello, World!"]%string)
      with (concat [[go_string "-o"; go_string "qrcode.png"]; [go_string "-s"; go_string "20"]; [go_string "-b"; go_string "20,20,20,20"]] ++ [go_string "-m"; hello_world]).
    rewrite (parse_settings parse_uint (mkHabit true true true) [SOutput (name "qrcode.png"); SBlock 20; SBorders (name "20,20,20,20")]); [reflexivity|].
    repeat constructor; exists [45]; (split; [left; reflexivity|right; left; split; [reflexivity|]]).
    - exists (go_string "-o"), (go_string "qrcode.png"). repeat split.
    - exists (go_string "-s"), (go_string "20"). split; [reflexivity|]. split; [reflexivity|exact TWENTY].
    - exists (go_string "-b"), (go_string "20,20,20,20"). repeat split. }
  split; [unfold program; rewrite E; reflexivity|exact E].
Qed.

(* ... without -m it does *)
Definition readme_flags : flags := mkFlags false (name "qrcode.png") 20 (name "20,20,20,20") false false [].
Theorem C94_readme_second_corrected : forall term_ok flush_ok events sched w, fair sched -> may_create (name "qrcode.png") = true -> lossless PngEncoder encode decode ->
  exists w' content cv, main term_ok flush_ok events sched (map go_string ["-o"; "qrcode.png"; "-s"; "20"; "-b"; "20,20,20,20"; "Hello, World!"]%string) w = (w', Some (Exited None)) /\
    only_changes resolve (name "qrcode.png") (w_fs w) (w_fs w') /\ w_fs w' (resolve (name "qrcode.png")) = Some content /\
    decode content = Some (540, 540, cv) /\ reads_back sjis (GoString hello_world) (scan_pixels exactly_black 10 20 20 20 25 cv).
Proof.
  intros tok fok ev sched w FS MC J. destruct (hello_symbol sched FS) as (q & HN & D & NM).
  destruct (PropsFs.C66_png sjis C resolve may_read may_create decode_png decode_jpeg scan encode decode fails others edge scale tok fok ev readme_flags hello_world sched w q 20 20 20 20
    HN NM) as (w' & content & cv & E & O & K & DE & RB).
  - exists [50; 48], [50; 48], [50; 48], [50; 48]. numerals.
  - reflexivity.
  - left. reflexivity.
  - exists (name "qrcode"). reflexivity.
  - exact MC.
  - exact CIRCLE.
  - intros X. discriminate X.
  - exact J.
  - exact NF.
  - cbv zeta in *. rewrite D in *. exists w', content, cv. split; [|split; [exact O|split; [exact K|split; [exact DE|exact RB]]]].
    change (map go_string ["-o"; "qrcode.png"; "-s"; "20"; "-b"; "20,20,20,20"; "Hello, World!"]%string)
      with (concat [[go_string "-o"; go_string "qrcode.png"]; [go_string "-s"; go_string "20"]; [go_string "-b"; go_string "20,20,20,20"]] ++ [hello_world]).
    rewrite (C94_action (mkHabit true true true) [SOutput (name "qrcode.png"); SBlock 20; SBorders (name "20,20,20,20")] _ [hello_world] hello_world).
    + change (fold_left apply_setting _ documented_defaults) with readme_flags. rewrite E. reflexivity.
    + repeat constructor; exists [45]; (split; [left; reflexivity|right; left; split; [reflexivity|]]).
      * exists (go_string "-o"), (go_string "qrcode.png"). repeat split.
      * exists (go_string "-s"), (go_string "20"). split; [reflexivity|]. split; [reflexivity|exact TWENTY].
      * exists (go_string "-b"), (go_string "20,20,20,20"). repeat split.
    + exists []. left. split; [reflexivity|]. intros (c & r & X). discriminate X.
    + intros X. discriminate X.
    + intros X. discriminate X.
Qed.

(* qrcode --terminal "Hello, World!", in a terminal of 54 columns and 27 lines or more *)
Theorem C94_readme_terminal : forall events sched w, fair sched -> 54 <= t_width (w_term w) -> 27 <= t_height (w_term w) -> In EventKey events ->
  exists w', main true true events sched [go_string "--terminal"; hello_world] w = (w', Some (Exited None)) /\
    w_fs w' = w_fs w /\ reads_back sjis (GoString hello_world) (scan_terminal (w_term w') 25).
Proof.
  intros ev sched w FS TW TH K. destruct (hello_symbol sched FS) as (q & HN & D & NM).
  destruct (PropsFs.C66_terminal sjis C resolve may_read may_create decode_png decode_jpeg scan encode fails others scale ev (mkFlags true (name "qrcode.jpg") 5 (name "0,0,0,0") false false [])
    hello_world sched w q 0 0 0 0 HN NM) as (w' & E & F & _ & RB).
  - exists [48], [48], [48], [48]. numerals.
  - reflexivity.
  - lia.
  - lia.
  - exact K.
  - exists w'. rewrite D in RB. split; [|split; [exact F|exact RB]]. unfold program.
    change (ModelArgs.interpret parse_uint [go_string "--terminal"; hello_world]) with (Action (mkFlags true (name "qrcode.jpg") 5 (name "0,0,0,0") false false []) hello_world).
    cbv iota beta. rewrite E. reflexivity.
Qed.
End Program.

(* a case: qrcode -s=20 --circle --borders 1,2,3,4 --circle=false -- -5 *)
Theorem C94_example : forall parse_uint, parse_uint (name "20") = Some 20 ->
  ModelArgs.interpret parse_uint (map go_string ["-s=20"; "--circle"; "--borders"; "1,2,3,4"; "--circle=false"; "--"; "-5"]%string) =
  Action (mkFlags false (name "qrcode.jpg") 20 (name "1,2,3,4") false false []) (go_string "-5").
Proof.
  intros pu T.
  change (map go_string ["-s=20"; "--circle"; "--borders"; "1,2,3,4"; "--circle=false"; "--"; "-5"]%string)
    with (concat [[go_string "-s=20"]; [go_string "--circle"]; [go_string "--borders"; go_string "1,2,3,4"]; [go_string "--circle=false"]] ++ [go_string "--"; go_string "-5"]).
  rewrite (C94_flags pu (mkHabit false true false) [SBlock 20; SCircle true; SBorders (name "1,2,3,4"); SCircle false] _ _ (go_string "-5")); [reflexivity| | |discriminate|discriminate].
  - repeat constructor.
    + exists [45]. split; [left; reflexivity|]. left. exists (go_string "-s=20"), (name "20"). repeat split. exact T.
    + exists [45; 45]. split; [right; reflexivity|]. right. right. split; [reflexivity|]. exists (go_string "--circle"). split; reflexivity.
    + exists [45; 45]. split; [right; reflexivity|]. right. left. split; [reflexivity|]. exists (go_string "--borders"), (go_string "1,2,3,4"). repeat split.
    + exists [45; 45]. split; [right; reflexivity|]. left. exists (go_string "--circle=false"), (name "false"). repeat split. cbn. tauto.
  - exists []. right. exists (go_string "--"). split; reflexivity.
Qed.

Print Assumptions C94_example.
Print Assumptions C94_flags.
Print Assumptions C94_help_is_shown.
Print Assumptions C94_unknown_flag.
Print Assumptions C94_help_is_no_text_refuted.
Print Assumptions C94_minus_needs_dashes.
Print Assumptions C94_two_forms.
Print Assumptions C94_action.
Print Assumptions C94_readme_file.
Print Assumptions C94_readme_second_refuted.
Print Assumptions C94_readme_second_corrected.
Print Assumptions C94_readme_terminal.
