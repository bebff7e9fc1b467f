From Coq Require Import Lia.
From Verif Require Import ModelBase ModelMatrix ModelQRCode SpecIso SpecReader SpecSegment SpecRecovery SpecRS SpecAPI SpecMedium SpecLogo SpecHidden.
From Verif Require Import ProofBase ProofMatrix ProofLayout ProofMode ProofSegment ProofAPI ProofNew ProofRecovery ProofSearch ProofBuild.

Definition middle_b (n z x : Z) : bool := (2 * n - z <? 5 * (x + 1)) && (5 * x <? 3 * n + z).
Lemma middle_b_iff n z x : middle_b n z x = true <-> middle n z x.
Proof. unfold middle_b, middle. rewrite andb_true_iff, !Z.ltb_lt. reflexivity. Qed.

(* two lists that agree where there is no flag *)
Inductive off {A} : list bool -> list A -> list A -> Prop :=
| off_nil : off [] [] []
| off_cons f fl a la b lb : (f = false -> a = b) -> off fl la lb -> off (f :: fl) (a :: la) (b :: lb).

Lemma off_map {A B} (flag : A -> bool) (g h : A -> B) l : (forall p, In p l -> flag p = false -> g p = h p) -> off (map flag l) (map g l) (map h l).
Proof. induction l as [|p l IH]; intros E; cbn [map]; constructor; [apply E; left; reflexivity|]. apply IH. intros q I. apply E. right. exact I. Qed.
Lemma off_firstn {A} n fl (a b : list A) : off fl a b -> off (firstn n fl) (firstn n a) (firstn n b).
Proof. intros O. revert n. induction O; intros [|n]; cbn [firstn]; constructor; auto. Qed.
Lemma off_skipn {A} n fl (a b : list A) : off fl a b -> off (skipn n fl) (skipn n a) (skipn n b).
Proof. intros O. revert n. induction O; intros [|n]; cbn [skipn]; try constructor; auto. Qed.
Lemma off_equal {A} fl (a b : list A) : off fl a b -> existsb (fun x => x) fl = false -> a = b.
Proof. induction 1; cbn [existsb]; intros E; [reflexivity|]. apply orb_false_iff in E. destruct E. f_equal; auto. Qed.

Fixpoint any8 (n : nat) (fl : list bool) : list bool :=
  match n with O => [] | S k => existsb (fun b => b) (firstn 8 fl) :: any8 k (skipn 8 fl) end.
Lemma off_bytes n fl a b : off fl a b -> off (any8 n fl) (read_bytes n a) (read_bytes n b).
Proof.
  revert fl a b. induction n as [|n IH]; intros fl a b O; [constructor|]. unfold any8, read_bytes. fold any8. fold read_bytes.
  constructor; [|apply IH, off_skipn, O]. intros E. f_equal. eapply off_equal; [apply off_firstn, O|exact E].
Qed.

(* the blocks of the flagged code words *)
Definition hit (order : list (Z * Z)) (flags : list bool) : list Z := map (fun p => fst (fst p)) (filter snd (combine order flags)).
Definition hits (b : Z) (h : list Z) : nat := length (filter (fun c => c =? b) h).

Lemma pick_off b order : forall fl w w', off fl w w' ->
  length (pick_block b order w) = length (pick_block b order w') /\
  (distance (pick_block b order w) (pick_block b order w') <= hits b (hit order fl))%nat.
Proof.
  unfold hits, hit, pick_block. induction order as [|p order IH]; intros fl w w' O; [cbn; lia|].
  destruct O as [|f fl x w y w' E O]; [cbn; lia|]. destruct (IH _ _ _ O) as [I1 I2].
  cbn [combine filter fst snd]. destruct f.
  - cbn [map filter fst]. destruct (fst p =? b); cbn [map length snd distance]; [|split; assumption].
    split; [congruence|]. destruct (x =? y); lia.
  - rewrite (E eq_refl). destruct (fst p =? b); cbn [map length snd distance]; [|split; assumption].
    split; [congruence|]. rewrite Z.eqb_refl. exact I2.
Qed.
Lemma distance_app a b c d : length a = length b -> distance (a ++ c) (b ++ d) = (distance a b + distance c d)%nat.
Proof.
  revert b. induction a as [|x a IH]; intros [|y b] E; try discriminate E; [reflexivity|]. cbn [app distance].
  injection E as E. rewrite (IH _ E). destruct (x =? y); reflexivity.
Qed.
Lemma hits_app b h h' : hits b (h ++ h') = (hits b h + hits b h')%nat.
Proof. unfold hits. rewrite filter_app, app_length. reflexivity. Qed.

Definition check (v : Z) (l : level) (flags : list bool) : bool :=
  let dlens := block_data_lengths v l in
  let elens := map (fun _ => ecc_per_block v l) dlens in
  let nd := Z.to_nat (fold_right Z.add 0 dlens) in
  let h := hit (interleave_order dlens) (firstn nd flags) ++ hit (interleave_order elens) (skipn nd flags) in
  forallb (fun b => 2 * Z.of_nat (hits b h) <=? ecc_per_block v l) (upto (num_blocks v l)).

Lemma forall2_map {A B} (R : B -> B -> Prop) (f g : A -> B) l : (forall x, In x l -> R (f x) (g x)) -> Forall2 R (map f l) (map g l).
Proof. induction l as [|x l IH]; intros E; cbn [map]; constructor; [apply E; left; reflexivity|apply IH; intros y I; apply E; right; exact I]. Qed.

Lemma check_blocks v l flags w w' : check v l flags = true -> off flags w w' ->
  Forall2 (fun r o => length r = length o /\ (2 * distance r o <= Z.to_nat (ecc_per_block v l))%nat)
    (map (fun p => fst p ++ snd p) (read_blocks v l w)) (map (fun p => fst p ++ snd p) (read_blocks v l w')).
Proof.
  intros CK O. unfold read_blocks. rewrite !map_map. cbn [fst snd]. apply forall2_map. intros b I.
  unfold check in CK. rewrite forallb_forall in CK. specialize (CK b I). apply Z.leb_le in CK.
  set (nd := Z.to_nat (fold_right Z.add 0 (block_data_lengths v l))) in *.
  destruct (pick_off b (interleave_order (block_data_lengths v l)) _ _ _ (off_firstn nd _ _ _ O)) as [A1 A2].
  destruct (pick_off b (interleave_order (map (fun _ => ecc_per_block v l) (block_data_lengths v l))) _ _ _ (off_skipn nd _ _ _ O)) as [B1 B2].
  split; [rewrite !app_length; congruence|]. rewrite distance_app by exact A1. rewrite hits_app in CK. lia.
Qed.

(* fewer flags *)
Definition fewer (fl' fl : list bool) : Prop := Forall2 (fun a b : bool => a = true -> b = true) fl' fl.
Lemma fewer_firstn n a b : fewer a b -> fewer (firstn n a) (firstn n b).
Proof. intros F. revert n. induction F; intros [|n]; cbn [firstn]; constructor; auto. apply IHF. Qed.
Lemma fewer_skipn n a b : fewer a b -> fewer (skipn n a) (skipn n b).
Proof. intros F. revert n. induction F; intros [|n]; cbn [skipn]; try constructor; auto. Qed.
Lemma fewer_any n : forall a b, fewer a b -> fewer (any8 n a) (any8 n b).
Proof.
  induction n as [|n IH]; intros a b F; [constructor|]. unfold any8. fold any8. constructor; [|apply IH, fewer_skipn, F].
  pose proof (fewer_firstn 8 _ _ F) as F8. induction F8 as [|x y l l' E _ IH8]; [discriminate|]. cbn [existsb]. rewrite !orb_true_iff. intros [X|X]; auto.
Qed.
Lemma fewer_map {A} (f g : A -> bool) l : (forall x, f x = true -> g x = true) -> fewer (map f l) (map g l).
Proof. intros I. induction l; cbn [map]; constructor; auto. Qed.
Lemma fewer_hits b order : forall a c, fewer a c -> (hits b (hit order a) <= hits b (hit order c))%nat.
Proof.
  unfold hits, hit. induction order as [|p order IH]; intros a c F; [cbn; lia|]. destruct F as [|x y a c E F]; [cbn; lia|]. specialize (IH _ _ F).
  cbn [combine filter snd]. destruct x; [rewrite (E eq_refl)|destruct y]; cbn [map filter fst]; destruct (fst p =? b); cbn [length]; lia.
Qed.
Lemma check_fewer v l a b : fewer a b -> check v l b = true -> check v l a = true.
Proof.
  intros F. unfold check. cbv zeta. rewrite !forallb_forall. intros A x I. specialize (A x I). rewrite Z.leb_le, hits_app in *.
  match goal with |- context [hits x (hit ?o (firstn ?n a))] => pose proof (fewer_hits x o _ _ (fewer_firstn n _ _ F)) end.
  match goal with |- context [hits x (hit ?o (skipn ?n a))] => pose proof (fewer_hits x o _ _ (fewer_skipn n _ _ F)) end. lia.
Qed.

(* one m-th of n modules in the middle, and an m-th of z modules more on either side (m = 5: the middle of C62) *)
Definition mid_b (n z m x : Z) : bool := ((m - 1) * n - 2 * z <? 2 * m * (x + 1)) && (2 * m * x <? (m + 1) * n + 2 * z).
Definition low_end (n z m : Z) : Z := ((m - 1) * n - 2 * z) / (2 * m).
Definition high_end (n z m : Z) : Z := ((m + 1) * n + 2 * z - 1) / (2 * m).
Lemma mid_interval n z m x : 0 < m -> mid_b n z m x = true <-> low_end n z m <= x <= high_end n z m.
Proof.
  intros M. unfold mid_b, low_end, high_end. rewrite andb_true_iff, !Z.ltb_lt.
  set (a := (m - 1) * n - 2 * z). set (b := (m + 1) * n + 2 * z).
  pose proof (Z.div_mod a (2 * m) ltac:(lia)). pose proof (Z.mod_pos_bound a (2 * m) ltac:(lia)).
  pose proof (Z.div_mod (b - 1) (2 * m) ltac:(lia)). pose proof (Z.mod_pos_bound (b - 1) (2 * m) ltac:(lia)). split; intros [A B]; split; nia.
Qed.
Lemma mid_middle n z x : mid_b n z 5 x = middle_b n z x.
Proof. apply eq_true_iff_eq. unfold mid_b, middle_b. rewrite !andb_true_iff, !Z.ltb_lt. lia. Qed.
Lemma mid_more n z z' m m' x : 0 <= n -> 0 < m <= m' -> 0 <= z <= z' -> 2 * z <= n -> mid_b n z m' x = true -> mid_b n z' m x = true.
Proof.
  intros N M Z1 Z2. unfold mid_b. rewrite !andb_true_iff, !Z.ltb_lt. intros [A B]. split.
  - assert (E : m' * ((m - 1) * n - 2 * z') <= m * ((m' - 1) * n - 2 * z)) by nia. nia.
  - assert (E : m * ((m' + 1) * n + 2 * z) <= m' * ((m + 1) * n + 2 * z')) by nia. nia.
Qed.

Definition mid_in (v z m : Z) (path : list (Z * Z)) : list bool := let n := side v in map (fun '(x, y) => mid_b n z m x && mid_b n z m y) path.
Definition mid_words (v z m : Z) (path : list (Z * Z)) : list bool := any8 (Z.to_nat (total_codewords v)) (mid_in v z m path).
Definition hidden_in (v z : Z) (path : list (Z * Z)) : list bool :=
  let n := side v in map (fun '(x, y) => middle_b n z x && middle_b n z y) path.
Definition hidden_words (v z : Z) (path : list (Z * Z)) : list bool := any8 (Z.to_nat (total_codewords v)) (hidden_in v z path).
Lemma hidden_mid v z path : hidden_words v z path = mid_words v z 5 path.
Proof. unfold hidden_words, mid_words, hidden_in, mid_in. cbv zeta. f_equal. apply map_ext. intros [x y]. rewrite !mid_middle. reflexivity. Qed.
(* the same, computed faster *)
Definition fast_words (v z m : Z) (path : list (Z * Z)) : list bool :=
  let n := side v in let l := low_end n z m in let h := high_end n z m in
  any8 (Z.to_nat (total_codewords v))
    (map (fun p => if l <=? fst p then if fst p <=? h then if l <=? snd p then snd p <=? h else false else false else false) path).
Lemma fast_words_eq v z m path : 0 < m -> fast_words v z m path = mid_words v z m path.
Proof.
  intros M. unfold fast_words, mid_words, mid_in. cbv zeta. f_equal. apply map_ext. intros [x y]. cbn [fst snd]. apply eq_true_iff_eq.
  rewrite andb_true_iff, !mid_interval by exact M. rewrite <- (Z.leb_le _ x), <- (Z.leb_le x), <- (Z.leb_le _ y), <- (Z.leb_le y).
  destruct (_ <=? x); [destruct (x <=? _); [destruct (_ <=? y)|]|]; intuition congruence.
Qed.
Lemma words_more v z z' m m' path : 1 <= v -> 0 < m <= m' -> 0 <= z <= z' -> z <= 2 -> fewer (mid_words v z m' path) (mid_words v z' m path).
Proof.
  intros V M Z1 Z2. apply fewer_any. unfold mid_in. cbv zeta. apply fewer_map. intros [x y]. rewrite !andb_true_iff.
  intros [A B]; split; (eapply mid_more; [| | | |eassumption]; unfold side; lia).
Qed.

(* the data path again, computed faster: away from the finder patterns only timing and alignment patterns are looked for, and of those
   only the ones near the column *)
Definition near (centres : list (Z * Z)) (x : Z) : list (Z * Z) := filter (fun c => Z.abs (x - fst c) <=? 2) centres.
Definition data_at (centres : list (Z * Z)) (v x y : Z) : list (Z * Z) := if is_data (region_of_with centres v x y) then [(x, y)] else [].
Definition inner (v x : Z) : bool := (9 <=? x) && (x <=? side v - 12).
Definition data_here (ix iy : bool) (centres : list (Z * Z)) (v x y : Z) : list (Z * Z) :=
  if (if ix then true else iy) then
    if (if ix then y =? 6 else x =? 6) then [] else match centres with [] => [(x, y)] | _ => if nearest x y centres 2 then [] else [(x, y)] end
  else data_at centres v x y.
Definition row_list (v : Z) : list (Z * bool) := map (fun y => (y, inner v y)) (upto (side v)).
Definition fast_strip (rows : list (Z * bool)) (centres : list (Z * Z)) (v c : Z) : list (Z * Z) :=
  let n0 := near centres c in let c1 := c - 1 in let n1 := near centres c1 in let i0 := inner v c in let i1 := inner v c1 in
  flat_map (fun r => data_here i0 (snd r) n0 v c (fst r) ++ data_here i1 (snd r) n1 v c1 (fst r)) rows.
Fixpoint fast_zigzag (rows back : list (Z * bool)) (centres : list (Z * Z)) (v : Z) (cs : list Z) : list (Z * Z) :=
  match cs with [] => [] | c :: rest => fast_strip rows centres v c ++ fast_zigzag back rows centres v rest end.
Definition fast_path (v : Z) : list (Z * Z) :=
  let centres := align_centres v in let down := row_list v in let up := rev down in fast_zigzag up down centres v (strips v).
Lemma find_filter {A} (p q : A -> bool) l : (forall a, p a = true -> q a = true) -> find p (filter q l) = find p l.
Proof.
  intros PQ. induction l as [|a l IH]; [reflexivity|]. cbn [filter find]. destruct (q a) eqn:EQ; cbn [find]; rewrite IH; [reflexivity|].
  destruct (p a) eqn:EP; [|reflexivity]. rewrite (PQ a EP) in EQ. discriminate EQ.
Qed.
Lemma near_region centres v x y : region_of_with (near centres x) v x y = region_of_with centres v x y.
Proof.
  unfold region_of_with, nearest. unfold near. rewrite find_filter; [reflexivity|]. intros [cx cy] E. apply Z.leb_le in E. apply Z.leb_le. unfold dist in E. cbn [fst]. lia.
Qed.
Lemma inner_data centres v x y : data_here (inner v x) (inner v y) centres v x y = data_at centres v x y.
Proof.
  unfold data_here. destruct (if inner v x then true else inner v y) eqn:E; [|reflexivity].
  assert (IN : (9 <= x <= side v - 12) \/ (9 <= y <= side v - 12)).
  { unfold inner in E. destruct ((9 <=? x) && (x <=? side v - 12)) eqn:EX; [left; rewrite andb_true_iff, !Z.leb_le in EX; lia|right; rewrite andb_true_iff, !Z.leb_le in E; lia]. }
  assert (F : nearest x y (finder_centres v) 4 = None).
  { unfold nearest, finder_centres. cbn [find]. unfold dist. rewrite !(proj2 (Z.leb_gt _ 4)) by lia. reflexivity. }
  assert (D : (x =? 8) && (y =? side v - 8) = false) by (apply andb_false_iff; rewrite !Z.eqb_neq; lia).
  assert (FA : in_format_area v x y = false).
  { apply not_true_iff_false. unfold in_format_area. cbv zeta. rewrite orb_true_iff, !andb_true_iff, !orb_true_iff, !Z.eqb_eq, !Z.leb_le. lia. }
  assert (VA : in_version_area v x y = false).
  { apply not_true_iff_false. unfold in_version_area. cbv zeta. rewrite andb_true_iff, orb_true_iff, !andb_true_iff, !Z.leb_le. lia. }
  assert (T : (if inner v x then y =? 6 else x =? 6) = ((x =? 6) || (y =? 6))).
  { apply eq_true_iff_eq. unfold inner. destruct ((9 <=? x) && (x <=? side v - 12)) eqn:EX; rewrite orb_true_iff, !Z.eqb_eq.
    - rewrite andb_true_iff, !Z.leb_le in EX. lia.
    - apply not_true_iff_false in EX. rewrite andb_true_iff, !Z.leb_le in EX. lia. }
  rewrite T. unfold data_at, region_of_with. rewrite F, D, FA, VA. destruct ((x =? 6) || (y =? 6)).
  - destruct (nearest x y centres 2); reflexivity.
  - destruct centres as [|c cs]; [reflexivity|]. destruct (nearest x y (c :: cs) 2); reflexivity.
Qed.
Lemma strip_eq centres v c rows : fast_strip (map (fun y => (y, inner v y)) rows) centres v c =
  filter (fun '(x, y) => is_data (region_of_with centres v x y)) (flat_map (fun y => [(c, y); (c - 1, y)]) rows).
Proof.
  unfold fast_strip. cbv zeta. induction rows as [|y ys IH]; [reflexivity|]. cbn [map flat_map app filter fst snd]. rewrite IH, !inner_data. unfold data_at. rewrite !near_region.
  destruct (is_data (region_of_with centres v c y)), (is_data (region_of_with centres v (c - 1) y)); reflexivity.
Qed.
Lemma fast_path_eq v : fast_path v = data_path v.
Proof.
  unfold fast_path, data_path, row_list. cbv zeta. set (centres := align_centres v). rewrite <- map_rev.
  assert (G : forall cs (up : bool), fast_zigzag (map (fun y => (y, inner v y)) (if up then rev (upto (side v)) else upto (side v)))
      (map (fun y => (y, inner v y)) (if up then upto (side v) else rev (upto (side v)))) centres v cs =
    filter (fun '(x, y) => is_data (region_of_with centres v x y)) (zigzag v cs up)).
  { induction cs as [|c cs IH]; intros up; [reflexivity|]. cbn [fast_zigzag zigzag]. rewrite filter_app, <- IH. f_equal.
    - rewrite strip_eq. reflexivity.
    - destruct up; reflexivity. }
  exact (G (strips v) true).
Qed.

(* which logos leave the symbol readable: at Highest a third of the width (but for versions 1 to 3 and 13), at Quart and Highest a fourth
   from version 3 on, at Medium a fifth (but for versions 2 and 4), at Low a seventh from version 3 on; and the rest *)
Definition check_version (v : Z) : bool :=
  let path := fast_path v in
  let f4 := fast_words v 2 4 path in let f5 := fast_words v 2 5 path in let f7 := fast_words v 2 7 path in
  (if (v <=? 3) || (v =? 13) then true else check v H (fast_words v 2 3 path)) &&
  (if v <=? 2 then check v Q f5 && check v H f5 && check v L (fast_words v 2 10 path) else check v Q f4 && check v H f4 && check v L f7) &&
  (if (v =? 2) || (v =? 4) then check v M (fast_words v 0 5 path) && check v M (fast_words v 2 6 path) else check v M f5).
Definition versions_1_40 : list Z := map (fun v => v + 1) (upto 40).
Lemma check_all_true : forallb check_version versions_1_40 = true.
Proof. vm_cast_no_check (eq_refl true). Qed.
Lemma check_mid v l z m : valid_version v -> 0 <= z <= 2 -> small_enough l v z m -> check v l (mid_words v z m (data_path v)) = true.
Proof.
  intros VV Z2 SE. assert (I : In v versions_1_40).
  { unfold versions_1_40. apply in_map_iff. exists (v - 1). split; [lia|]. apply in_upto. unfold valid_version in VV. lia. }
  pose proof (proj1 (forallb_forall check_version versions_1_40) check_all_true v I) as CK. clear I.
  revert CK. unfold check_version. rewrite fast_path_eq. cbv zeta. rewrite !fast_words_eq by lia. rewrite !andb_true_iff. intros [[C3 C4] C5].
  assert (W : forall z' m', z <= z' -> 0 < m' <= m -> check v l (mid_words v z' m' (data_path v)) = true -> check v l (mid_words v z m (data_path v)) = true).
  { intros z' m' LZ LM. apply check_fewer, words_more; [unfold valid_version in VV; lia|lia|lia|lia]. }
  destruct l; cbn [small_enough] in SE.
  - destruct (Z.leb_spec v 2); rewrite !andb_true_iff in C4.
    + apply (W 2 10); [lia|lia|tauto].
    + apply (W 2 7); [lia|lia|tauto].
  - destruct ((v =? 2) || (v =? 4)) eqn:E.
    + rewrite orb_true_iff, !Z.eqb_eq in E. rewrite andb_true_iff in C5. destruct (Z_le_gt_dec 6 m) as [L6|L6].
      * apply (W 2 6); [lia|lia|tauto].
      * apply (W 0 5); [lia|lia|tauto].
    + apply (W 2 5); [lia|lia|exact C5].
  - destruct (Z.leb_spec v 2); rewrite !andb_true_iff in C4.
    + apply (W 2 5); [lia|lia|tauto].
    + apply (W 2 4); [lia|lia|tauto].
  - destruct (Z_le_gt_dec 5 m) as [L5|L5]; [|destruct (Z_le_gt_dec 4 m) as [L4|L4]].
    + destruct (Z.leb_spec v 2); rewrite !andb_true_iff in C4; [apply (W 2 5)|apply (W 2 4)]; first [lia|tauto].
    + destruct (Z.leb_spec v 2); [lia|]. rewrite !andb_true_iff in C4. apply (W 2 4); first [lia|tauto].
    + destruct ((v <=? 3) || (v =? 13)) eqn:E; [rewrite orb_true_iff, Z.leb_le, Z.eqb_eq in E; lia|]. apply (W 2 3); first [lia|exact C3].
Qed.
Lemma check_spec v : valid_version v ->
  check v M (hidden_words v 0 (data_path v)) = true /\ check v Q (hidden_words v 2 (data_path v)) = true /\ check v H (hidden_words v 2 (data_path v)) = true.
Proof. intros VV. rewrite !hidden_mid. repeat split; apply check_mid; try assumption; try lia; cbn; lia. Qed.

Lemma hidden_more v z z' path : z <= z' -> forall w w' : list bool, off (hidden_in v z path) w w' -> off (hidden_in v z' path) w w'.
Proof.
  intros LE. unfold hidden_in. induction path as [|[x y] path IH]; intros w w' O; cbn [map] in *; inversion O as [|f fl a la b lb E1 E2]; subst; constructor; auto.
  intros E. apply E1. apply not_true_iff_false. intros F. apply not_true_iff_false in E. apply E.
  apply andb_true_iff in F. destruct F as [F1 F2]. apply middle_b_iff in F1, F2. apply andb_true_iff. rewrite !middle_b_iff. unfold middle in *. lia.
Qed.

Lemma stream_off v k z bm bm' : valid_version v -> agree_outside (side v) z bm bm' ->
  off (hidden_in v z (data_path v)) (read_stream bm v k) (read_stream bm' v k).
Proof.
  intros VV AG. unfold hidden_in, read_stream. apply off_map. intros [x y] I F. destruct (in_data_path_range v x y VV I) as [X Y].
  rewrite (AG x y X Y); [reflexivity|]. intros [A B]. apply not_true_iff_false in F. apply F. apply andb_true_iff. rewrite !middle_b_iff. auto.
Qed.

Lemma middle_blocks v l k z bm bm' : valid_version v -> may_lose l z -> agree_outside (side v) z bm bm' ->
  Forall2 (fun r o => length r = length o /\ (2 * distance r o <= Z.to_nat (ecc_per_block v l))%nat) (symbol_blocks bm v l k) (symbol_blocks bm' v l k).
Proof.
  intros VV ML AG. pose proof (stream_off v k z bm bm' VV AG) as O.
  destruct (check_spec v VV) as (CM & CQ & CH).
  unfold symbol_blocks, symbol_words. destruct l; cbn in ML.
  - destruct ML.
  - subst z. eapply check_blocks; [exact CM|]. apply off_bytes, O.
  - eapply check_blocks; [exact CQ|]. apply off_bytes, (hidden_more v z 2); [lia|exact O].
  - eapply check_blocks; [exact CH|]. apply off_bytes, (hidden_more v z 2); [lia|exact O].
Qed.

Lemma format_eight v z bm bm' : valid_version v -> 0 <= z <= 2 -> agree_outside (side v) z bm bm' ->
  (hamming (format_bits_1 bm) (format_bits_1 bm') <= 3)%nat.
Proof.
  intros VV HZ AG. assert (N : 21 <= side v) by (unfold side; unfold valid_version in VV; lia).
  assert (E : forall x y, 0 <= x <= 8 -> 0 <= y <= 8 -> x < 8 \/ y < 8 -> module_at bm x y = module_at bm' x y).
  { intros x y X Y D. apply AG; [lia|lia|]. unfold middle. lia. }
  unfold format_bits_1, format_positions_1. cbn [map].
  rewrite (E 0 8), (E 1 8), (E 2 8), (E 3 8), (E 4 8), (E 5 8), (E 7 8), (E 8 7), (E 8 5), (E 8 4), (E 8 3), (E 8 2), (E 8 1), (E 8 0) by lia.
  cbn [hamming]. rewrite !eqb_reflx. destruct (Bool.eqb _ _); lia.
Qed.

Lemma size_version n bm : valid_version ((n - 17) / 4) -> side ((n - 17) / 4) = n -> Z.of_nat (length bm) = n -> Forall (fun row => Z.of_nat (length row) = n) bm ->
  read_version bm = Some ((n - 17) / 4).
Proof.
  intros VV SD LB FR. unfold read_version. rewrite LB, SD, Z.eqb_refl. unfold valid_version in VV.
  rewrite (proj2 (Z.leb_le 1 _)) by lia. rewrite (proj2 (Z.leb_le _ 40)) by lia. cbn [andb].
  rewrite (proj2 (forallb_forall _ _)); [reflexivity|]. intros row I. apply Z.eqb_eq. rewrite Forall_forall in FR. apply FR, I.
Qed.

Lemma middle_recovered sjis : shift_jis_contract sjis ->
  forall text opts sched q l z, NewWith sjis text opts sched = Ok q -> ~ misdetected sjis opts (text_bytes text) ->
  eff_level opts = level_code l -> may_lose l z ->
  forall bm, Z.of_nat (length bm) = q_dimension q -> Forall (fun row => Z.of_nat (length row) = q_dimension q) bm ->
  agree_outside (q_dimension q) z (m_bitmap (qMat q)) bm -> recovers_text sjis text bm.
Proof.
  intros C t opts sched q l z HN NM HL ML bm LB FR AG. destruct (newwith_made sjis C t opts sched q HN) as (md & pl & l' & v & b & w & k & c & s & HM).
  assert (EL : l' = l).
  { pose proof (md_level _ _ _ _ _ _ _ _ _ _ _ _ _ HM) as E. rewrite HL in E. destruct l, l'; cbn in E; congruence. }
  subst l'.
  destruct (choice_text _ _ _ _ _ (md_choice _ _ _ _ _ _ _ _ _ _ _ _ _ HM)) as [[HT HP]|(_ & E1 & E2 & _)].
  2:{ exfalso. apply NM. split; auto. apply mixed_iff; auto. }
  destruct (blocks_made _ _ _ _ _ _ _ _ _ _ _ _ _ HM) as (RV & HK & _).
  destruct (md_cand _ _ _ _ _ _ _ _ _ _ _ _ _ HM k HK) as [SY _]. rewrite <- (md_mat _ _ _ _ _ _ _ _ _ _ _ _ _ HM) in SY.
  assert (VV : valid_version v) by apply HM.
  assert (QD : q_dimension q = side v) by (unfold q_dimension; destruct SY as [A B D _ _ _ _ _ _]; exact B).
  assert (VS : (q_dimension q - 17) / 4 = v) by (rewrite QD; unfold side; replace (4 * v + 17 - 17) with (v * 4) by lia; apply Z.div_mul; lia).
  assert (RB : read_version bm = Some v) by (rewrite <- VS; apply size_version; auto; rewrite VS; auto).
  rewrite QD in AG. assert (AG' : agree_outside (side v) z bm (m_bitmap (qMat q))) by (intros x y X Y Z; symmetry; apply AG; auto).
  assert (Z02 : 0 <= z <= 2) by (destruct l; cbn in ML; lia).
  pose proof (recovery_made sjis C _ _ _ _ _ _ _ _ _ _ _ _ HM HT HP bm RB (format_eight v z _ _ VV Z02 AG') (middle_blocks v l k z _ _ VV ML AG')) as R.
  split.
  - exists (expected sjis md (text_bytes t)). apply R. reflexivity.
  - exists md. intros seg HS. apply R in HS. subst seg. apply carries_expected; auto.
Qed.
