(* C85: pictures saved at the same time. *)
From Coq Require Import Lia.
From Verif Require Import ModelBase ModelMatrix ModelQRCode ModelSave ModelFile ModelCompressed ModelStandard ModelTerminal ModelWriters ModelCli ModelFs ModelCrash.
From Verif Require Import SpecReader SpecSegment SpecAPI SpecMatrix SpecStandard SpecText SpecMedium SpecFs SpecCrash SpecMany.
From Verif Require Import ProofBase ProofMatrix ProofFile ProofCompressed ProofStandard ProofMedium ProofCrash Samples.
From Verif Require PropsCrash.

(* ---- different files ---- *)
Definition file_of (op : sysop) : Z := match op with SCreate j | STrunc j | SWrite j _ _ | SClose j => j end.
Definition only (i : Z) (ops : list sysop) : list sysop := filter (fun op => file_of op =? i) ops.
Lemma only_all i ops : Forall (on_file i) ops -> only i ops = ops.
Proof. induction 1 as [|op ops O F IH]; [reflexivity|]. unfold only in *. cbn [filter]. assert (E : file_of op = i) by (destruct op; exact O). rewrite E, Z.eqb_refl, IH. reflexivity. Qed.
Lemma only_none i j ops : i <> j -> Forall (on_file j) ops -> only i ops = [].
Proof.
  intros N. induction 1 as [|op ops O F IH]; [reflexivity|]. unfold only in *. cbn [filter]. assert (E : file_of op = j) by (destruct op; exact O). rewrite E. destruct (Z.eqb_spec j i); [congruence|exact IH].
Qed.
Lemma only_interleaved i ls tr : interleaved ls tr -> forall k l, nth_error ls k = Some l -> only i l = l -> (forall j l', j <> k -> nth_error ls j = Some l' -> only i l' = []) -> only i tr = l.
Proof.
  induction 1 as [ls F|bf op l0 af tr H IH]; intros k l E OL ON.
  - rewrite Forall_forall in F. rewrite (F l (nth_error_In _ _ E)). reflexivity.
  - assert (NB : forall x, nth_error (bf ++ x :: af) (length bf) = Some x) by (intros x; rewrite nth_error_app2, Nat.sub_diag by lia; reflexivity).
    assert (NO : forall x y j, j <> length bf -> nth_error (bf ++ x :: af) j = nth_error (bf ++ y :: af) j).
    { intros x y j N. destruct (Nat.lt_ge_cases j (length bf)) as [L|L]; [rewrite !nth_error_app1 by exact L; reflexivity|]. rewrite !nth_error_app2 by exact L. destruct (j - length bf)%nat eqn:ED; [lia|reflexivity]. }
    unfold only at 1. cbn [filter]. destruct (Nat.eq_dec k (length bf)) as [->|NK].
    + rewrite NB in E. injection E as <-. unfold only in OL. cbn [filter] in OL. destruct (file_of op =? i) eqn:EF.
      * injection OL as OL. f_equal. apply (IH (length bf) l0 (NB l0) OL). intros j l' N E'. apply (ON j l' N). rewrite (NO _ l0 j N). exact E'.
      * exfalso. assert (L : (length (filter (fun op => (file_of op =? i)%Z) l0) <= length l0)%nat) by (clear; induction l0 as [|x l0 IHl]; cbn [filter]; [lia|]; destruct (file_of x =? i)%Z; cbn [length]; lia). rewrite OL in L. cbn [length] in L. lia.
    + pose proof (ON (length bf) (op :: l0) ltac:(congruence) (NB _)) as OP. unfold only in OP. cbn [filter] in OP. destruct (file_of op =? i); [discriminate OP|].
      apply (IH k l); [rewrite (NO _ (op :: l0) k NK); exact E|exact OL|]. intros j l' N E'. destruct (Nat.eq_dec j (length bf)) as [->|NJ]; [rewrite NB in E'; injection E' as <-; exact OP|].
      apply (ON j l' N). rewrite (NO _ l0 j NJ). exact E'.
Qed.
Lemma sys_local i op fs1 fs2 : (fs1 i : option (list Z)) = fs2 i -> sys fs1 op i = (if file_of op =? i then sys fs2 op i else fs2 i).
Proof.
  intros E. destruct op as [k|k|k off data|k]; cbn [sys file_of]; [| | |destruct (k =? i); exact E];
    unfold fs_set, fs_content; rewrite (Z.eqb_sym i k); destruct (Z.eqb_spec k i) as [->|N]; try exact E; try rewrite E; reflexivity.
Qed.
Lemma crashed_local i ops fs fs' : crashed fs ops fs' -> forall fs2, fs i = fs2 i -> exists fs2', crashed fs2 (only i ops) fs2' /\ fs' i = fs2' i.
Proof.
  induction 1 as [fs ops|fs j off data p ops P|fs op ops fs' H IH]; intros fs2 E.
  - exists fs2. split; [constructor|exact E].
  - unfold only. cbn [filter]. pose proof (sys_local i (SWrite j off p) fs fs2 E) as L. cbn [file_of] in *. destruct (j =? i).
    + eexists. split; [apply crash_writing; exact P|exact L].
    + exists fs2. split; [constructor|exact L].
  - unfold only. cbn [filter]. pose proof (sys_local i op fs fs2 E) as L. destruct (file_of op =? i).
    + destruct (IH _ L) as (fs2' & C & E2). exists fs2'. split; [apply crash_later; exact C|exact E2].
    + destruct (IH _ L) as (fs2' & C & E2). exists fs2'. split; [exact C|exact E2].
Qed.
Lemma run_local i ops : forall fs fs2, fs i = fs2 i -> sys_all fs ops i = sys_all fs2 (only i ops) i.
Proof.
  induction ops as [|op ops IH]; intros fs fs2 E; [exact E|]. unfold sys_all, only in *. cbn [fold_left filter]. pose proof (sys_local i op fs fs2 E) as L. destruct (file_of op =? i); apply IH; exact L.
Qed.

(* work on different files, interleaved in any way and ended at any moment: each file is as if only its own work had been done up to some
   moment; when all is done, as if it had been done alone *)
Theorem C85_different_files :
  forall ls files tr, Forall2 (fun l i => Forall (on_file i) l) ls files -> NoDup files -> interleaved ls tr ->
  forall k l i, nth_error ls k = Some l -> nth_error files k = Some i ->
  (forall fs, sys_all fs tr i = sys_all fs l i) /\
  (forall fs fs', crashed fs tr fs' -> exists fs1, crashed fs l fs1 /\ fs' i = fs1 i) /\
  (forall fs fs' j, ~ In j files -> crashed fs tr fs' -> fs' j = fs j).
Proof.
  intros ls files tr F ND IL k l i EL EI.
  assert (FK : forall k l i, nth_error ls k = Some l -> nth_error files k = Some i -> Forall (on_file i) l).
  { clear - F. induction F as [|l i ls files O F IH]; intros [|k] l' i' E1 E2; try discriminate E1; [injection E1 as <-; injection E2 as <-; exact O|exact (IH k l' i' E1 E2)]. }
  assert (LN : length ls = length files) by (clear - F; induction F; cbn; auto).
  assert (OT : only i tr = l).
  { apply (only_interleaved i ls tr IL k l EL (only_all i l (FK k l i EL EI))). intros j l' N EJ. destruct (nth_error files j) as [i'|] eqn:EF; [|exfalso; apply nth_error_None in EF; assert (j < length ls)%nat by (apply nth_error_Some; congruence); lia].
    apply (only_none i i'); [|exact (FK j l' i' EJ EF)]. intros ->. apply N. apply (NoDup_nth_error files); [exact ND|apply nth_error_Some; congruence|congruence]. }
  split; [|split].
  - intros fs. rewrite (run_local i tr fs fs eq_refl), OT. reflexivity.
  - intros fs fs' C. destruct (crashed_local i tr fs fs' C fs eq_refl) as (fs1 & C1 & E1). rewrite OT in C1. exists fs1. auto.
  - intros fs fs' j NI C.
    assert (OJ : only j tr = []).
    { clear - IL FK LN NI F. assert (A : forall l, In l ls -> only j l = []).
      { intros l I. apply In_nth_error in I as [k E]. destruct (nth_error files k) as [i|] eqn:EF; [|exfalso; apply nth_error_None in EF; assert (k < length ls)%nat by (apply nth_error_Some; congruence); lia].
        apply (only_none j i); [|exact (FK k l i E EF)]. intros ->. apply NI. exact (nth_error_In _ _ EF). }
      clear - IL A. induction IL as [|bf op l0 af tr H IH]; [reflexivity|]. pose proof (A (op :: l0) ltac:(apply in_or_app; right; left; reflexivity)) as E.
      unfold only in *. cbn [filter] in *. destruct (file_of op =? j); [discriminate E|]. apply IH. intros l I. apply in_app_or in I as [I|[<-|I]]; [apply A, in_or_app; left; exact I|exact E|apply A, in_or_app; right; right; exact I]. }
    destruct (crashed_local j tr fs fs' C fs eq_refl) as (fs1 & C1 & E1). rewrite OJ in C1. inversion C1; subst. exact E1.
Qed.

(* ---- the same file ---- *)
(* what a Save through the standard writer does to the file of index i, nothing failing: b is the picture's encoding, in some pieces *)
Definition saves (i : Z) (b : list Z) (l : list sysop) : Prop :=
  exists pieces, concat pieces = b /\ l = [SCreate i; STrunc i] ++ piece_ops (fun _ => None) i 0 0 pieces ++ [SClose i].

(* where a writer is: before its truncation, or at an offset, or done *)
Inductive stage (i : Z) (b : list Z) : list sysop -> option nat -> Prop :=
| before_create pieces : concat pieces = skipn 0 b -> stage i b ([SCreate i; STrunc i] ++ piece_ops (fun _ => None) i 0 0 pieces ++ [SClose i]) None
| before_trunc pieces : concat pieces = skipn 0 b -> stage i b (STrunc i :: piece_ops (fun _ => None) i 0 0 pieces ++ [SClose i]) None
| writing off calls pieces : concat pieces = skipn off b -> (off <= length b)%nat -> stage i b (piece_ops (fun _ => None) i off calls pieces ++ [SClose i]) (Some off)
| closed : stage i b [] (Some (length b)).

Lemma nth_at_off c off d p : (off <= length c)%nat -> nth_error (at_off c off d) p = if (p <? off)%nat then nth_error c p else if (p <? off + length d)%nat then nth_error d (p - off) else nth_error c p.
Proof.
  intros O. unfold at_off. assert (LF : length (firstn off c) = off) by (rewrite firstn_length; lia).
  destruct (Nat.ltb_spec p off) as [L|L].
  - rewrite nth_error_app1 by lia. rewrite <- (firstn_skipn off c) at 2. rewrite nth_error_app1 by lia. reflexivity.
  - rewrite nth_error_app2, LF by lia. destruct (Nat.ltb_spec p (off + length d)) as [L2|L2]; [apply nth_error_app1; lia|]. rewrite nth_error_app2 by lia.
    rewrite <- (firstn_skipn (off + length d) c) at 2. destruct (Nat.le_gt_cases (off + length d) (length c)) as [G|G].
    + rewrite (nth_error_app2 (firstn _ _)) by (rewrite firstn_length; lia). rewrite firstn_length, Nat.min_l by lia. f_equal. lia.
    + rewrite skipn_all2 by lia. rewrite app_nil_r, (proj2 (nth_error_None [] _)) by (cbn; lia). symmetry. apply nth_error_None. rewrite firstn_length. lia.
Qed.
Definition good (b c : list Z) (off : nat) : Prop := (off <= length c <= length b)%nat /\ forall p, (p < off)%nat -> nth_error c p = nth_error b p.
Lemma write_good b c off at_ d rest : good b c off -> skipn at_ b = d ++ rest -> (at_ <= length b)%nat ->
  good b (at_off (padded c at_) at_ d) off /\ (at_ = off -> good b (at_off (padded c at_) at_ d) (off + length d)).
Proof.
  intros [[L1 L2] G] E A. assert (LP : length (padded c at_) = Nat.max (length c) at_) by (unfold padded; rewrite app_length, repeat_length; lia).
  assert (LD : (at_ + length d <= length b)%nat) by (pose proof (f_equal (@length Z) E) as F; rewrite skipn_length, app_length in F; lia).
  assert (O : (at_ <= length (padded c at_))%nat) by lia.
  assert (LL : (length (at_off (padded c at_) at_ d) = Nat.max (length (padded c at_)) (at_ + length d))%nat) by (unfold at_off; rewrite !app_length, firstn_length, skipn_length; lia).
  assert (ND : forall p, (at_ <= p < at_ + length d)%nat -> nth_error d (p - at_) = nth_error b p).
  { intros p P. rewrite <- (firstn_skipn at_ b), nth_error_app2 by (rewrite firstn_length; lia). rewrite firstn_length, Nat.min_l, E by lia. rewrite nth_error_app1 by lia. reflexivity. }
  assert (NP : forall p, (p < length c)%nat -> nth_error (padded c at_) p = nth_error c p) by (intros p P; unfold padded; apply nth_error_app1; exact P).
  assert (K : forall p, (p < off \/ at_ <= p < at_ + length d)%nat -> nth_error (at_off (padded c at_) at_ d) p = nth_error b p).
  { intros p P. rewrite nth_at_off by exact O. destruct (Nat.ltb_spec p at_) as [X|X]; [rewrite NP by lia; apply G; lia|].
    destruct (Nat.ltb_spec p (at_ + length d)) as [Y|Y]; [apply ND; lia|rewrite NP by lia; apply G; lia]. }
  split; [|intros ->]; (split; [rewrite LL; lia|]); intros p P; apply K; lia.
Qed.
Lemma nth_error_same (A : Type) (a : list A) : forall b, (forall p, nth_error a p = nth_error b p) -> a = b.
Proof.
  induction a as [|x a IH]; intros [|y b] E; [reflexivity|specialize (E 0%nat); discriminate E|specialize (E 0%nat); discriminate E|].
  pose proof (E 0%nat) as E0. injection E0 as ->. f_equal. apply IH. intros p. exact (E (S p)).
Qed.
Lemma good_all b c : good b c (length b) -> c = b.
Proof.
  intros [[L1 L2] G]. apply nth_error_same. intros p. destruct (Nat.lt_ge_cases p (length b)) as [P|P]; [apply G; exact P|].
  rewrite !(proj2 (nth_error_None _ _)) by lia. reflexivity.
Qed.

Definition inv (i : Z) (b : list Z) (ls : list (list sysop)) (fs : fsys) : Prop :=
  exists sts, Forall2 (stage i b) ls sts /\
  (Forall (fun st => st = None) sts \/ exists k off c, nth_error sts k = Some (Some off) /\ fs i = Some c /\ good b c off).

Lemma nth_split (A : Type) (bf af : list A) x j : nth_error (bf ++ x :: af) j = if (j =? length bf)%nat then Some x else nth_error (bf ++ af) (if (j <? length bf)%nat then j else (j - 1)%nat).
Proof.
  destruct (Nat.eqb_spec j (length bf)) as [->|N]; [rewrite nth_error_app2, Nat.sub_diag by lia; reflexivity|].
  destruct (Nat.ltb_spec j (length bf)) as [L|L]; [rewrite !nth_error_app1 by exact L; reflexivity|]. rewrite !nth_error_app2 by lia.
  destruct (j - length bf)%nat as [|d] eqn:ED; [lia|]. cbn [nth_error]. f_equal. lia.
Qed.
Lemma inv_step i b bf op l af fs : inv i b (bf ++ (op :: l) :: af) fs -> inv i b (bf ++ l :: af) (sys fs op).
Proof.
  intros (sts & F & D). apply Forall2_app_inv_l in F as (s1 & s2 & F1 & F2 & ->). inversion F2 as [|x st y saf ST F3]; subst. clear F2.
  (* a truncation makes this writer the one that counts; a step of another writer leaves it; its own step moves it on *)
  assert (KEEP : forall st', stage i b l st' -> st' = None -> st = None -> (forall k off c, nth_error (s1 ++ st :: saf) k = Some (Some off) -> fs i = Some c -> good b c off -> exists c', sys fs op i = Some c' /\ good b c' off) ->
    inv i b (bf ++ l :: af) (sys fs op)).
  { intros st' S1 -> -> K. exists (s1 ++ None :: saf). split; [apply Forall2_app; [exact F1|constructor; assumption]|].
    destruct D as [D|(k & off & c & EK & EC & G)]; [left; exact D|]. right. destruct (K k off c EK EC G) as (c' & EC' & G'). exists k, off, c'. auto. }
  assert (MOVE : forall off off', st = Some off -> stage i b l (Some off') ->
    (forall off0 c, fs i = Some c -> good b c off0 -> exists c', sys fs op i = Some c' /\ good b c' off0 /\ (off0 = off -> good b c' off')) -> inv i b (bf ++ l :: af) (sys fs op)).
  { intros off off' -> S1 K. exists (s1 ++ Some off' :: saf). split; [apply Forall2_app; [exact F1|constructor; assumption]|].
    destruct D as [D|(k & off0 & c & EK & EC & G)]; [apply Forall_app in D as [_ D]; apply Forall_inv in D; discriminate D|].
    right. destruct (K off0 c EC G) as (c' & EC' & G1 & G2). rewrite nth_split in EK. destruct (k =? length s1)%nat eqn:EQ.
    - exists k, off', c'. rewrite nth_split, EQ. injection EK as ->. auto.
    - exists k, off0, c'. rewrite nth_split, EQ. auto. }
  inversion ST as [pieces EB EL ES|pieces EB EL ES|off calls pieces EB OL EL ES|]; subst.
  - (* SCreate *) apply (KEEP None); [apply before_trunc; exact EB|reflexivity|reflexivity|]. intros k off c _ EC G. exists c. cbn [sys]. rewrite fs_same. unfold fs_content. rewrite EC. auto.
  - (* STrunc *) exists (s1 ++ Some 0%nat :: saf). split; [apply Forall2_app; [exact F1|constructor; [apply writing; [exact EB|lia]|exact F3]]|].
    right. exists (length s1), 0%nat, []. rewrite nth_split, Nat.eqb_refl. cbn [sys]. rewrite fs_same. repeat apply conj; try reflexivity; cbn [length]; try lia. 
  - destruct pieces as [|d r]; cbn [piece_ops app] in EL.
    + injection EL as <- <-. apply (MOVE off (length b)); [reflexivity|constructor|]. intros off0 c EC G. exists c. cbn [sys]. split; [exact EC|]. split; [exact G|]. intros ->.
      cbn [concat] in EB. assert (off = length b) by (pose proof (f_equal (@length Z) EB) as X; rewrite skipn_length in X; cbn in X; lia). subst off. exact G.
    + injection EL as <- <-. cbn [concat] in EB. assert (LD : (off + length d <= length b)%nat) by (pose proof (f_equal (@length Z) EB) as X; rewrite skipn_length, app_length in X; lia).
      apply (MOVE off (off + length d)%nat); [reflexivity|apply writing; [|exact LD]|].
      * rewrite <- skipn_add, <- EB, skipn_app, skipn_all2, Nat.sub_diag by lia. reflexivity.
      * intros off0 c EC G. destruct (write_good b c off0 off d (concat r) G (eq_sym EB) OL) as [W1 W2]. eexists. cbn [sys]. rewrite fs_same, (content_some fs i c EC). rewrite at_off_write.
        split; [reflexivity|]. split; [exact W1|]. intros ->. apply W2. reflexivity.
Qed.
Lemma same_file_run i b ls tr : interleaved ls tr -> forall fs, inv i b ls fs -> ls <> [] -> sys_all fs tr i = Some b.
Proof.
  induction 1 as [ls F|bf op l af tr H IH]; intros fs I NE.
  - destruct I as (sts & F2 & D). destruct ls as [|l ls]; [contradiction|]. assert (A : Forall (fun st => st = Some (length b)) sts).
    { clear - F F2. induction F2 as [|x st xs sts S F2 IH]; [constructor|]. apply Forall_inv in F as E. apply Forall_inv_tail in F. constructor; [|apply IH; exact F]. subst x.
      inversion S as [| |off calls pieces EB OL EL|]; subst; [|reflexivity]. destruct pieces; discriminate EL. }
    inversion F2 as [|? st0 ? sts0 S0 F0]; subst. destruct D as [D|(k & off & c & EK & EC & G)].
    + apply Forall_inv in D. apply Forall_inv in A. congruence.
    + rewrite Forall_forall in A. pose proof (A _ (nth_error_In _ _ EK)) as E. injection E as ->. cbn. rewrite EC. f_equal. apply good_all. exact G.
  - unfold sys_all. cbn [fold_left]. apply (IH (sys fs op)); [apply inv_step; exact I|]. destruct bf; discriminate.
Qed.

Theorem C85_same_file :
  forall i b ls tr, ls <> [] -> Forall (saves i b) ls -> interleaved ls tr -> forall fs, sys_all fs tr i = Some b.
Proof.
  intros i b ls tr NE F IL fs. apply (same_file_run i b ls tr IL); [|exact NE]. exists (repeat None (length ls)). split; [|left].
  - clear - F. induction F as [|l ls (pieces & E & ->) F IH]; [constructor|]. cbn [length repeat]. constructor; [apply before_create; exact E|exact IH].
  - clear. induction ls; cbn; constructor; auto.
Qed.

(* ---- standard.New and Save, called at the same time ---- *)
Section Jobs.
Context (resolve : path -> Z) (may_read may_create : path -> bool) (decode_png decode_jpeg : list Z -> option image).
Context (scan : list Z -> option rgba) (encode : encoder -> Z * Z * canvas -> list (list Z))
        (others : shape -> canvas -> call -> canvas) (scale : image -> Z -> Z -> Z -> Z).
Notation sops := (standard_ops resolve may_read may_create decode_png decode_jpeg scan encode).
Notation snew := (standard_New resolve may_read may_create decode_png decode_jpeg scan).

(* a goroutine, or a program of its own: a file name, options that do not read files, a symbol, and which of its writes fail *)
Record job := mkJob { j_file : path; j_options : list image_option; j_symbol : Matrix; j_fails : nat -> option nat }.
Definition job_ops (fs : fsys) (j : job) : list sysop := sops (j_fails j) others scale fs (j_file j) (map Plain (j_options j)) (j_symbol j).

Lemma plain_options opts : forall fs1 fs2, apply_file_options resolve may_read decode_png decode_jpeg scan fs1 (map Plain opts) = apply_file_options resolve may_read decode_png decode_jpeg scan fs2 (map Plain opts).
Proof.
  intros fs1 fs2. unfold apply_file_options. generalize (Some defaultOptions). induction opts as [|p opts IH]; intros o; [reflexivity|]. cbn [map fold_left].
  destruct o as [o|]; cbn [apply_file_option]; apply IH.
Qed.
(* so what it does to the files does not depend on them *)
Lemma job_ops_same j fs1 fs2 : job_ops fs1 j = job_ops fs2 j.
Proof. unfold job_ops, standard_ops. destruct (may_create (j_file j)); [|reflexivity]. cbv zeta. rewrite (plain_options _ (fs_set fs1 (resolve (j_file j)) []) (fs_set fs2 (resolve (j_file j)) [])). reflexivity. Qed.

(* each saves to a file of its own: when all are done, every file holds what its Save would have left in it had it been alone; files of
   nobody have not changed *)
Theorem C85_own_files :
  forall jobs fs0 tr, NoDup (map (fun j => resolve (j_file j)) jobs) -> interleaved (map (job_ops fs0) jobs) tr ->
  forall fs,
  (forall j fs1 s o s' o' ev res, In j jobs -> snew fs (j_file j) (map Plain (j_options j)) = (fs1, Created s o) ->
     Save (Some (j_symbol j)) (standard_writer encode (j_fails j) others scale) (s, o) = ((s', o'), ev, res) ->
     sys_all fs tr (resolve (j_file j)) = Some (o_content (s_file s'))) /\
  (forall i, (forall j, In j jobs -> i <> resolve (j_file j)) -> sys_all fs tr i = fs i).
Proof.
  intros jobs fs0 tr ND IL fs.
  assert (F : Forall2 (fun l i => Forall (on_file i) l) (map (job_ops fs0) jobs) (map (fun j => resolve (j_file j)) jobs)).
  { clear. induction jobs as [|j jobs IH]; cbn [map]; constructor; [apply PropsCrash.standard_ops_on|exact IH]. }
  split.
  - intros j fs1 s o s' o' ev res I HN HS. apply In_nth_error in I as [k EK].
    destruct (C85_different_files _ _ tr F ND IL k (job_ops fs0 j) (resolve (j_file j)) (map_nth_error _ _ _ EK) (map_nth_error _ _ _ EK)) as (D & _ & _).
    rewrite D, (job_ops_same j fs0 fs). unfold job_ops.
    rewrite (PropsCrash.C82_trace_standard resolve may_read may_create decode_png decode_jpeg scan encode others scale (j_fails j) fs (j_file j) (map Plain (j_options j)) (j_symbol j) fs1 (Created s o) HN _
      (ex_intro _ s' (ex_intro _ o' (ex_intro _ ev (ex_intro _ res (conj HS eq_refl)))))). apply fs_same.
  - intros i NI. destruct jobs as [|j jobs].
    + cbn [map] in IL. inversion IL as [|bf op l af tr' H E1 E2]; subst; [reflexivity|]. destruct bf; discriminate E1.
    + destruct (C85_different_files _ _ tr F ND IL 0%nat (job_ops fs0 j) (resolve (j_file j)) eq_refl eq_refl) as (_ & _ & U). apply (U fs _ i); [|apply crashed_end].
      rewrite in_map_iff. intros (j' & E & I). exact (NI j' I (eq_sym E)).
Qed.
(* and if all end before they are done, every file is as some end of its own Save alone could have left it (see C82) *)
Theorem C85_own_files_crash :
  forall jobs fs0 tr, NoDup (map (fun j => resolve (j_file j)) jobs) -> interleaved (map (job_ops fs0) jobs) tr ->
  forall fs fs', crashed fs tr fs' -> forall j, In j jobs ->
  exists fs1, crashed fs (sops (j_fails j) others scale fs (j_file j) (map Plain (j_options j)) (j_symbol j)) fs1 /\ fs' (resolve (j_file j)) = fs1 (resolve (j_file j)).
Proof.
  intros jobs fs0 tr ND IL fs fs' C j I.
  assert (F : Forall2 (fun l i => Forall (on_file i) l) (map (job_ops fs0) jobs) (map (fun j => resolve (j_file j)) jobs)).
  { clear. induction jobs as [|j jobs IH]; cbn [map]; constructor; [apply PropsCrash.standard_ops_on|exact IH]. }
  apply In_nth_error in I as [k EK].
  destruct (C85_different_files _ _ tr F ND IL k (job_ops fs0 j) (resolve (j_file j)) (map_nth_error _ _ _ EK) (map_nth_error _ _ _ EK)) as (_ & D & _).
  destruct (D fs fs' C) as (fs1 & C1 & E1). exists fs1. split; [|exact E1]. rewrite (job_ops_same j fs0 fs) in C1. exact C1.
Qed.

(* any number of them save the same picture to the same file, nothing fails: the file holds the picture, however they interleave *)
Theorem C85_same_picture :
  forall fs filename opts m fs1 s o s' o' ev, snew fs filename (map Plain opts) = (fs1, Created s o) ->
  Save (Some m) (standard_writer encode (fun _ => None) others scale) (s, o) = ((s', o'), ev, Returned None) ->
  forall n tr, (0 < n)%nat -> interleaved (repeat (job_ops fs (mkJob filename opts m (fun _ => None))) n) tr ->
  forall fs0, sys_all fs0 tr (resolve filename) = Some (o_content (s_file s')).
Proof.
  intros fs filename opts m fs1 s o s' o' ev HN HS n tr N IL fs0. pose proof (PropsCrash.save_standard encode others scale _ _ _ _ _ _ _ _ HS) as EF.
  apply (C85_same_file (resolve filename) (o_content (s_file s')) (repeat (job_ops fs (mkJob filename opts m (fun _ => None))) n) tr); [destruct n; [lia|discriminate]| |exact IL].
  assert (J : saves (resolve filename) (o_content (s_file s')) (job_ops fs (mkJob filename opts m (fun _ => None)))); [|clear - J; induction n; cbn [repeat]; constructor; assumption].
  unfold job_ops, standard_ops. cbn [j_file j_options j_symbol j_fails]. unfold standard_New in HN. destruct (may_create filename); [|discriminate HN]. cbv zeta.
  destruct (apply_file_options resolve may_read decode_png decode_jpeg scan (fs_set fs (resolve filename) []) (map Plain opts)) as [o0|]; [|discriminate HN]. injection HN as _ <- <-.
  unfold Save, standard_writer in HS. cbn [wr_write wr_close] in HS. destruct (draw others scale m o0) as [[[[w h] cv] o1]|]; [|unfold sink_close in HS; cbn in HS; discriminate HS].
  destruct (encoder_refuses (o_encoder o1) w h); [unfold sink_close in HS; cbn in HS; discriminate HS|].
  exists (encode (o_encoder o1) (w, h, cv)). split; [|reflexivity]. rewrite EF.
  destruct (sink_all (fun _ => None) (fun _ => eq_refl) (encode (o_encoder o1) (w, h, cv)) (mkOs [] 0) 0) as (calls & SA).
  change (standard_new (fs (resolve filename))) with (mkSink (mkOs [] 0) true 0). rewrite SA. cbn [fst s_file]. rewrite os_write_all_content by (cbn; lia).
  cbn [o_pos o_content firstn app]. rewrite skipn_nil, app_nil_r. reflexivity.
Qed.
End Jobs.

(* two different pictures saved to one file at the same time: both Saves succeed, and the file can hold neither *)
Definition toy_bytes (e : encoder) (p : Z * Z * canvas) : list (list Z) := let '(w, _, _) := p in [repeat w (Z.to_nat w)].
Theorem C85_different_pictures_refuted :
  ~ (forall resolve may_read may_create decode_png decode_jpeg scan encode others scale fs filename m opts1 opts2 b1 b2 tr,
     let alone opts b := exists fs1 s o s' o' ev, standard_New resolve may_read may_create decode_png decode_jpeg scan fs filename (map Plain opts) = (fs1, Created s o) /\
       Save (Some m) (standard_writer encode (fun _ => None) others scale) (s, o) = ((s', o'), ev, Returned None) /\ o_content (s_file s') = b in
     let ops opts := job_ops resolve may_read may_create decode_png decode_jpeg scan encode others scale fs (mkJob filename opts m (fun _ => None)) in
     alone opts1 b1 -> alone opts2 b2 -> interleaved [ops opts1; ops opts2] tr ->
     sys_all fs tr (resolve filename) = Some b1 \/ sys_all fs tr (resolve filename) = Some b2).
Proof.
  intros G.
  specialize (G (fun _ => 0) (fun _ => true) (fun _ => true) (fun _ => None) (fun _ => None) (fun _ => None) toy_bytes (fun _ cv _ => cv) (fun _ _ _ _ => 0) (fun _ => None) []
    (newMatrix 1 1) [WithQRWidth 1; WithBorderWidth [0]] [WithQRWidth 2; WithBorderWidth [0]] [1] [2; 2]
    [SCreate 0; STrunc 0; SCreate 0; STrunc 0; SWrite 0 0 [2; 2]; SWrite 0 0 [1]; SClose 0; SClose 0]). cbv zeta in G.
  destruct G as [E|E]; [| | |vm_compute in E; discriminate E..].
  - do 6 eexists. split; [reflexivity|]. split; [vm_compute; reflexivity|reflexivity].
  - do 6 eexists. split; [reflexivity|]. split; [vm_compute; reflexivity|reflexivity].
  - match goal with |- interleaved [?a; ?b] _ => replace a with [SCreate 0; STrunc 0; SWrite 0 0 [1]; SClose 0] by (vm_compute; reflexivity); replace b with [SCreate 0; STrunc 0; SWrite 0 0 [2; 2]; SClose 0] by (vm_compute; reflexivity) end.
    apply (one_more []), (one_more []), (one_more [_]), (one_more [_]), (one_more [_]), (one_more []), (one_more []), (one_more [_]). apply all_done. repeat constructor.
Qed.

(* the premises of C85_same_picture and C85_own_files hold of real runs *)
Example C85_ex_same :
  exists fs1 s o s' o' ev, standard_New (fun _ => 0) (fun _ => true) (fun _ => true) (fun _ => None) (fun _ => None) (fun _ => None) (fun _ => None) [] (map Plain [WithQRWidth 2; WithBorderWidth [0]]) = (fs1, Created s o) /\
  Save (Some (newMatrix 1 1)) (standard_writer toy_bytes (fun _ => None) (fun _ cv _ => cv) (fun _ _ _ _ => 0)) (s, o) = ((s', o'), ev, Returned None) /\ o_content (s_file s') = [2; 2].
Proof. do 6 eexists. split; [reflexivity|]. split; [vm_compute; reflexivity|reflexivity]. Qed.
Example C85_ex_interleaved : interleaved [[SCreate 0; STrunc 0]; [SCreate 1; STrunc 1]] [SCreate 1; SCreate 0; STrunc 0; STrunc 1].
Proof. apply (one_more [_]), (one_more []), (one_more []), (one_more [_]). apply all_done. repeat constructor. Qed.
Print Assumptions C85_different_files.
Print Assumptions C85_own_files.
Print Assumptions C85_own_files_crash.
Print Assumptions C85_same_file.
Print Assumptions C85_same_picture.
Print Assumptions C85_different_pictures_refuted.
