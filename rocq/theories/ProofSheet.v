(* Proofs for C79. *)
From Coq Require Import Lia.
From Verif Require Import ModelBase ModelMatrix ModelQRCode.
From Verif Require Import SpecIso SpecReader SpecSegment SpecAPI SpecMatrix SpecMedium SpecLocate SpecOrient SpecSheet.
From Verif Require Import ProofBase ProofMatrix ProofEval ProofMedium ProofOrient ProofLocate.
From Verif Require PropsSymbol PropsOrient.

(* what is used of the finder patterns *)
Record ringed (n : Z) (f : Z -> Z -> bool) : Prop := mkRinged {
  rg_n : 21 <= n;
  rg_a : f 0 0 = true; rg_b : f (n - 1) 0 = true; rg_c : f 0 (n - 1) = true;
  rg_left : xorb (f 0 1) (f 1 1) = true; rg_right : xorb (f (n - 1) 1) (f (n - 2) 1) = true;
  rg_top : xorb (f 1 0) (f 1 1) = true; rg_bottom : xorb (f 1 (n - 1)) (f 1 (n - 2)) = true }.

Definition shows (s : sheet) (n : Z) (f : Z -> Z -> bool) : Prop :=
  exists left top b g, squares (sh_dark s) (sh_w s) (sh_h s) left top b n (act n g f).

Lemma squares_ext dark w h left top b n f f' : 0 <= n -> (forall x y, 0 <= x < n -> 0 <= y < n -> f x y = f' x y) ->
  squares dark w h left top b n f -> squares dark w h left top b n f'.
Proof.
  intros N E [A B D]. constructor; [exact A| |exact D]. intros px py X Y. rewrite B by auto. apply E; (split; [apply Z.div_pos; lia|apply Z.div_lt_upper_bound; lia]).
Qed.

Lemma edges n f g : ringed n f ->
  (exists y, 0 <= y < n /\ act n g f 0 y = true) /\ (exists y, 0 <= y < n /\ act n g f (n - 1) y = true) /\
  (exists x, 0 <= x < n /\ act n g f x 0 = true) /\ (exists x, 0 <= x < n /\ act n g f x (n - 1) = true).
Proof.
  intros [N A B D _ _ _ _].
  assert (Z1 : n - 1 - (n - 1) = 0) by lia. assert (Z0 : n - 1 - 0 = n - 1) by lia.
  destruct g as [[] [] []]; unfold act, flip; cbn [s_swap s_fx s_fy]; rewrite ?Z1, ?Z0; repeat split;
    first [exists 0; split; [lia|rewrite ?Z1, ?Z0; assumption] | exists (n - 1); split; [lia|rewrite ?Z1, ?Z0; assumption]].
Qed.
Lemma first_ring n f g : ringed n f -> exists y, 0 <= y < n /\ xorb (act n g f 0 y) (act n g f 1 y) = true.
Proof.
  intros [N _ _ _ A B D E].
  assert (Z1 : n - 1 - (n - 2) = 1) by lia. assert (Z0 : n - 1 - 0 = n - 1) by lia. assert (Z2 : n - 1 - 1 = n - 2) by lia.
  destruct g as [[] [] []]; unfold act, flip; cbn [s_swap s_fx s_fy]; rewrite ?Z0, ?Z2;
    first [exists 1; split; [lia|rewrite ?Z1, ?Z2; assumption] | exists (n - 2); split; [lia|rewrite ?Z1, ?Z2; assumption]].
Qed.

(* ---- what is done to a sheet keeps the squares ---- *)
Lemma div_flip b n p : 1 <= b -> 0 <= p < n * b -> (n * b - 1 - p) / b = n - 1 - p / b.
Proof.
  intros B P. pose proof (Z.div_mod p b ltac:(lia)) as E. pose proof (Z.mod_pos_bound p b ltac:(lia)) as M.
  symmetry. apply Z.div_unique with (b - 1 - p mod b); lia.
Qed.
Lemma enlarge_squares dark w h left top b n f k w' h' dark' : 1 <= k -> w' = k * w -> h' = k * h ->
  (forall x y, 0 <= x < w' -> 0 <= y < h' -> dark' x y = dark (x / k) (y / k)) ->
  squares dark w h left top b n f -> 0 <= n -> squares dark' w' h' (k * left) (k * top) (k * b) n f.
Proof.
  intros K -> -> E [(L & T & B & W & HH) I O] N.
  assert (BD : forall p c, k * c <= p <-> c <= p / k) by (intros p c; split; intros X; [apply Z.div_le_lower_bound; lia|pose proof (Z.mul_div_le p k ltac:(lia)); nia]).
  assert (BU : forall p c, p < k * c <-> p / k < c) by (intros p c; specialize (BD p c); lia).
  assert (EL : k * left + n * (k * b) = k * (left + n * b)) by lia. assert (ET : k * top + n * (k * b) = k * (top + n * b)) by lia.
  assert (DD : forall p c, (p - k * c) / (k * b) = (p / k - c) / b).
  { intros p c. rewrite <- Z.div_div by lia. f_equal. replace (p - k * c) with (p + (- c) * k) by lia. rewrite Z.div_add by lia. lia. }
  constructor.
  - rewrite EL, ET. nia.
  - rewrite EL, ET. intros px py [X0 X1] [Y0 Y1]. rewrite BD in X0, Y0. rewrite BU in X1, Y1.
    rewrite E; [rewrite I by lia; rewrite !DD; reflexivity| |]; (split; [|apply BU; lia]); rewrite <- (Z.mul_0_r k); apply BD; lia.
  - rewrite EL, ET. intros px py X Y NI. rewrite E by auto. apply O.
    + split; [apply Z.div_pos; lia|apply BU; lia].
    + split; [apply Z.div_pos; lia|apply BU; lia].
    + rewrite !BD, !BU in NI. exact NI.
Qed.
Lemma turn_squares dark w h left top b n f w' h' dark' : w' = h -> h' = w ->
  (forall x y, 0 <= x < w' -> 0 <= y < h' -> dark' x y = dark y (h - 1 - x)) ->
  squares dark w h left top b n f -> 0 <= n -> squares dark' w' h' (h - top - n * b) left b n (fun x y => f y (n - 1 - x)).
Proof.
  intros -> -> E [(L & T & B & W & HH) I O] N. assert (NB : 0 <= n * b) by nia. constructor.
  - lia.
  - intros px py X Y. rewrite E by lia. rewrite I by lia. f_equal. rewrite <- div_flip by lia. f_equal. lia.
  - intros px py X Y NI. rewrite E by lia. apply O; lia.
Qed.
Lemma mirror_squares dark w h left top b n f w' h' dark' : w' = w -> h' = h ->
  (forall x y, 0 <= x < w' -> 0 <= y < h' -> dark' x y = dark (w - 1 - x) y) ->
  squares dark w h left top b n f -> 0 <= n -> squares dark' w' h' (w - left - n * b) top b n (fun x y => f (n - 1 - x) y).
Proof.
  intros -> -> E [(L & T & B & W & HH) I O] N. assert (NB : 0 <= n * b) by nia. constructor.
  - lia.
  - intros px py X Y. rewrite E by lia. rewrite I by lia. f_equal. rewrite <- div_flip by lia. f_equal. lia.
  - intros px py X Y NI. rewrite E by lia. apply O; lia.
Qed.

Section Symbol.
Context (n : Z) (f : Z -> Z -> bool) (RG : ringed n f).
Local Lemma N21 : 21 <= n. Proof. apply RG. Qed.

Lemma paste_squares dark w h left top b g dx dy w' h' dark' :
  (forall x y, 0 <= x < w -> 0 <= y < h -> dark x y = true -> (0 <= x + dx < w' /\ 0 <= y + dy < h') /\ dark' (x + dx) (y + dy) = true) ->
  (forall x y, 0 <= x < w' -> 0 <= y < h' -> dark' x y = true -> (0 <= x - dx < w /\ 0 <= y - dy < h) /\ dark (x - dx) (y - dy) = true) ->
  squares dark w h left top b n (act n g f) -> squares dark' w' h' (left + dx) (top + dy) b n (act n g f).
Proof.
  intros F B SQ. pose proof N21 as N. pose proof (sq_size _ _ _ _ _ _ _ _ SQ) as (L & T & HB & W & HH). assert (NB : 21 * b <= n * b) by nia.
  destruct (edges n f g RG) as ((y1 & Y1 & D1) & (y2 & Y2 & D2) & (x3 & X3 & D3) & (x4 & X4 & D4)).
  assert (P1 : dark left (top + y1 * b) = true) by (rewrite <- D1; eapply sq_pixel; [exact SQ|nia..]).
  assert (P2 : dark (left + n * b - 1) (top + y2 * b) = true) by (rewrite <- D2; eapply sq_pixel; [exact SQ|nia..]).
  assert (P3 : dark (left + x3 * b) top = true) by (rewrite <- D3; eapply sq_pixel; [exact SQ|nia..]).
  assert (P4 : dark (left + x4 * b) (top + n * b - 1) = true) by (rewrite <- D4; eapply sq_pixel; [exact SQ|nia..]).
  apply F in P1 as [Q1 _]; [|nia..]. apply F in P2 as [Q2 _]; [|nia..]. apply F in P3 as [Q3 _]; [|nia..]. apply F in P4 as [Q4 _]; [|nia..].
  constructor.
  - lia.
  - intros px py X Y. replace (px - (left + dx)) with (px - dx - left) by lia. replace (py - (top + dy)) with (py - dy - top) by lia.
    rewrite <- (sq_in _ _ _ _ _ _ _ _ SQ (px - dx) (py - dy)) by lia.
    destruct (dark (px - dx) (py - dy)) eqn:E.
    + apply F in E as [_ E]; [|lia..]. replace (px - dx + dx) with px in E by lia. replace (py - dy + dy) with py in E by lia. exact E.
    + apply not_true_iff_false. intros E'. apply B in E' as [_ E']; [congruence|lia..].
  - intros px py X Y NI. apply not_true_iff_false. intros E'. apply B in E' as [[R1 R2] E']; [|lia..].
    rewrite (sq_out _ _ _ _ _ _ _ _ SQ) in E'; [discriminate|lia|lia|lia].
Qed.

Lemma altered_shows s s' : altered s s' -> shows s n f -> shows s' n f.
Proof.
  intros A (left & top & b & g & SQ). pose proof N21 as N. destruct A as [k K W HH E|dx dy F B|W HH E|W HH E]; unfold on in *.
  - exists (k * left), (k * top), (k * b), g. eapply enlarge_squares; [exact K|exact W|exact HH| |exact SQ|lia]. intros x y X Y. apply E. auto.
  - exists (left + dx), (top + dy), b, g. eapply paste_squares; [| |exact SQ]; [intros x y X Y D; apply F; auto|intros x y X Y D; apply B; auto].
  - exists (sh_h s - top - n * b), left, b, (match g with Sym false a b => Sym true a (negb b) | Sym true a b => Sym false (negb a) b end).
    eapply squares_ext; [lia| |eapply turn_squares; [exact W|exact HH| |exact SQ|lia]].
    + intros x y X Y. destruct g as [[] [] []]; unfold act, flip; cbn [s_swap s_fx s_fy negb]; f_equal; lia.
    + intros x y X Y. apply E. auto.
  - exists (sh_w s - left - n * b), top, b, (match g with Sym false a b => Sym false (negb a) b | Sym true a b => Sym true a (negb b) end).
    eapply squares_ext; [lia| |eapply mirror_squares; [exact W|exact HH| |exact SQ|lia]].
    + intros x y X Y. destruct g as [[] [] []]; unfold act, flip; cbn [s_swap s_fx s_fy negb]; f_equal; lia.
    + intros x y X Y. apply E. auto.
Qed.
Lemma handled_shows s s' : handled s s' -> shows s n f -> shows s' n f.
Proof. intros HD. induction HD as [|s s' s'' _ IH A]; [auto|]. intros SH. eapply altered_shows; eauto. Qed.

(* ---- the reader ---- *)
Lemma box_squares s left top b g : squares (sh_dark s) (sh_w s) (sh_h s) left top b n (act n g f) -> box s = Some (left, left + n * b - 1, top, top + n * b - 1).
Proof.
  intros SQ. pose proof N21 as N. pose proof (sq_size _ _ _ _ _ _ _ _ SQ) as (L & T & HB & W & HH). assert (NB : 21 * b <= n * b) by nia.
  destruct (edges n f g RG) as ((y1 & Y1 & D1) & (y2 & Y2 & D2) & (x3 & X3 & D3) & (x4 & X4 & D4)).
  assert (P1 : sh_dark s left (top + y1 * b) = true) by (rewrite <- D1; eapply sq_pixel; [exact SQ|nia..]).
  assert (P2 : sh_dark s (left + n * b - 1) (top + y2 * b) = true) by (rewrite <- D2; eapply sq_pixel; [exact SQ|nia..]).
  assert (P3 : sh_dark s (left + x3 * b) top = true) by (rewrite <- D3; eapply sq_pixel; [exact SQ|nia..]).
  assert (P4 : sh_dark s (left + x4 * b) (top + n * b - 1) = true) by (rewrite <- D4; eapply sq_pixel; [exact SQ|nia..]).
  assert (CO : forall x, 0 <= x < sh_w s -> ~ (left <= x < left + n * b) -> existsb (fun y => sh_dark s x y) (zseq 0 (sh_h s)) = false).
  { intros x X NI. apply not_true_iff_false. rewrite existsb_exists. intros (y & I & D). apply in_zseq in I. rewrite (sq_out _ _ _ _ _ _ _ _ SQ) in D by lia. discriminate. }
  assert (RO : forall y, 0 <= y < sh_h s -> ~ (top <= y < top + n * b) -> existsb (fun x => sh_dark s x y) (zseq 0 (sh_w s)) = false).
  { intros y Y NI. apply not_true_iff_false. rewrite existsb_exists. intros (x & I & D). apply in_zseq in I. rewrite (sq_out _ _ _ _ _ _ _ _ SQ) in D by lia. discriminate. }
  unfold box. rewrite (find_first _ left), (find_last _ (left + n * b - 1)), (find_first _ top), (find_last _ (top + n * b - 1)); [reflexivity|..].
  all: try (intros; apply CO; lia). all: try (intros; apply RO; lia). all: try lia.
  - apply existsb_exists. exists (left + x4 * b). split; [apply in_zseq; nia|exact P4].
  - apply existsb_exists. exists (left + x3 * b). split; [apply in_zseq; nia|exact P3].
  - apply existsb_exists. exists (top + y2 * b). split; [apply in_zseq; nia|exact P2].
  - apply existsb_exists. exists (top + y1 * b). split; [apply in_zseq; nia|exact P1].
Qed.
Lemma gcd_all l d : (forall x, In x l -> (d | x)) -> (d | fold_right Z.gcd 0 l).
Proof. induction l as [|a l IH]; intros A; [apply Z.divide_0_r|]. cbn [fold_right]. apply Z.gcd_greatest; [apply A; left; reflexivity|apply IH; intros; apply A; right; auto]. Qed.
Lemma gcd_in l x : In x l -> (fold_right Z.gcd 0 l | x).
Proof. induction l as [|a l IH]; intros []; cbn [fold_right]; [subst; apply Z.gcd_divide_l|]. eapply Z.divide_trans; [apply Z.gcd_divide_r|auto]. Qed.
Lemma gcd_nonneg l : 0 <= fold_right Z.gcd 0 l.
Proof. destruct l; [reflexivity|apply Z.gcd_nonneg]. Qed.
Lemma size_squares s left top b g : squares (sh_dark s) (sh_w s) (sh_h s) left top b n (act n g f) ->
  module_size s left (left + n * b - 1) top (top + n * b - 1) = b.
Proof.
  intros SQ. pose proof N21 as N. pose proof (sq_size _ _ _ _ _ _ _ _ SQ) as (L & T & HB & W & HH). assert (NB : 21 * b <= n * b) by nia.
  unfold module_size. apply Z.divide_antisym_nonneg; [apply gcd_nonneg|lia| |].
  - apply gcd_in. destruct (first_ring n f g RG) as (y & Y & X). apply in_flat_map. exists (top + y * b). split; [apply in_zseq; nia|].
    apply in_map_iff. exists (left + b). split; [lia|]. apply filter_In. split; [apply in_zseq; nia|]. rewrite <- X. f_equal; eapply sq_pixel; try exact SQ; nia.
  - apply gcd_all. intros z I. apply in_flat_map in I as (y & IY & I). apply in_map_iff in I as (x & <- & I). apply filter_In in I as [IX X]. apply in_zseq in IX, IY.
    rewrite !(sq_in _ _ _ _ _ _ _ _ SQ) in X by lia. apply Z.mod_divide; [lia|].
    pose proof (Z.div_mod (x - left) b ltac:(lia)) as E. pose proof (Z.mod_pos_bound (x - left) b ltac:(lia)) as M.
    destruct (Z.eq_dec ((x - left) mod b) 0) as [Z0|NZ]; [exact Z0|]. exfalso.
    replace ((x - 1 - left) / b) with ((x - left) / b) in X; [rewrite xorb_nilpotent in X; discriminate|]. apply Z.div_unique with ((x - left) mod b - 1); lia.
Qed.
Lemma upto_zseq m : upto m = zseq 0 m.
Proof.
  unfold upto, zseq. generalize (Z.to_nat m). intros k. enough (G : forall s, map Z.of_nat (seq s k) = zseq_nat (Z.of_nat s) k) by apply (G 0%nat).
  induction k as [|k IH]; intros s; [reflexivity|]. cbn [seq map zseq_nat]. f_equal. rewrite IH. f_equal. lia.
Qed.
Lemma sampled_grid m h : sampled m h = grid m h.
Proof. unfold sampled, grid. rewrite upto_zseq. reflexivity. Qed.
Lemma read_shows s : shows s n f -> exists ms, read_sheet s = read_any_way (moved ms (grid n f)).
Proof.
  intros (left & top & b & g & SQ). pose proof N21 as N. pose proof (sq_size _ _ _ _ _ _ _ _ SQ) as (L & T & HB & W & HH).
  destruct (act_moved n g f ltac:(lia)) as [ms EM]. exists ms. rewrite EM. unfold read_sheet. rewrite (box_squares _ _ _ _ _ SQ). cbv zeta. rewrite (size_squares _ _ _ _ _ SQ).
  replace (left + n * b - 1 + 1 - left) with (n * b) by lia. rewrite Z.div_mul by lia. f_equal. rewrite sampled_grid. apply grid_ext. intros x y X Y.
  pose proof (Z.div_pos (b - 1) 2 ltac:(lia) ltac:(lia)). pose proof (Z.div_lt_upper_bound (b - 1) 2 b ltac:(lia) ltac:(lia)). eapply sq_pixel; [exact SQ|lia..].
Qed.
End Symbol.

(* made symbols *)
Lemma made_ringed sjis : shift_jis_contract sjis -> forall text opts sched q, NewWith sjis text opts sched = Ok q ->
  ringed (q_dimension q) (module_at (m_bitmap (qMat q))).
Proof.
  intros C text opts sched q HN. destruct (made_square sjis C _ _ _ _ HN) as [SQ N21].
  destruct (PropsOrient.C74_only_one_way_looks_right sjis C text opts sched q HN) as [LR _]. unfold looks_right in LR. apply andb_true_iff in LR as [UP _].
  assert (SZ : size (m_bitmap (qMat q)) = q_dimension q).
  { destruct SQ as (Wf & EW & EH). unfold size. rewrite (bitmap_rows _ Wf). unfold rows_of. rewrite map_length, EH. unfold upto. rewrite map_length, seq_length. lia. }
  unfold upright in UP. rewrite SZ, !andb_true_iff, !finder_iff in UP. destruct UP as ((A & B) & D). set (f := module_at (m_bitmap (qMat q))) in *. set (n := q_dimension q) in *.
  assert (A' : forall x y, 0 <= x <= 6 -> 0 <= y <= 6 -> f x y = ring (x - 3) (y - 3)) by (intros; rewrite <- A by lia; f_equal; lia).
  assert (B' : forall x y, n - 7 <= x <= n - 1 -> 0 <= y <= 6 -> f x y = ring (x - (n - 4)) (y - 3)) by (intros; rewrite <- B by lia; f_equal; lia).
  assert (D' : forall x y, 0 <= x <= 6 -> n - 7 <= y <= n - 1 -> f x y = ring (x - 3) (y - (n - 4))) by (intros; rewrite <- D by lia; f_equal; lia).
  assert (E1 : n - 1 - (n - 4) = 3) by lia. assert (E2 : n - 2 - (n - 4) = 2) by lia.
  constructor; [exact N21|..].
  - rewrite A' by lia. reflexivity.
  - rewrite B', E1 by lia. reflexivity.
  - rewrite D', E1 by lia. reflexivity.
  - rewrite !A' by lia. reflexivity.
  - rewrite !B', E1, E2 by lia. reflexivity.
  - rewrite !A' by lia. reflexivity.
  - rewrite !D', E1, E2 by lia. reflexivity.
Qed.
Lemma made_grid sjis : shift_jis_contract sjis -> forall text opts sched q, NewWith sjis text opts sched = Ok q ->
  m_bitmap (qMat q) = grid (q_dimension q) (module_at (m_bitmap (qMat q))).
Proof.
  intros C text opts sched q HN. destruct (made_square sjis C _ _ _ _ HN) as [SQ N21]. symmetry. rewrite <- sampled_grid. apply sampled_bitmap; [exact SQ|]. reflexivity.
Qed.
Lemma handled_reads sjis : shift_jis_contract sjis -> forall text opts sched q, NewWith sjis text opts sched = Ok q -> ~ misdetected sjis opts (text_bytes text) ->
  forall left top b s s', squares (sh_dark s) (sh_w s) (sh_h s) left top b (q_dimension q) (module_at (m_bitmap (qMat q))) -> handled s s' -> sheet_shows sjis text s'.
Proof.
  intros C text opts sched q HN NM left top b s s' SQ HD. destruct (symbol_reads_back sjis C text opts sched q HN NM) as (_ & _ & md & seg & RS & CA).
  pose proof (made_ringed sjis C _ _ _ _ HN) as RG. exists md, seg. split; [|exact CA].
  destruct (read_shows _ _ RG s') as [ms E].
  - eapply handled_shows; [exact RG|exact HD|]. exists left, top, b, here. eapply squares_ext; [|intros; reflexivity|exact SQ]. destruct RG. lia.
  - rewrite E, <- (made_grid sjis C _ _ _ _ HN). rewrite (PropsOrient.C74_readable_in_any_orientation sjis C text opts sched q ms HN). exact RS.
Qed.
