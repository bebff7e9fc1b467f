(* Proofs for C74: turning and mirroring. *)
From Coq Require Import Lia.
From Verif Require Import ModelBase ModelMatrix ModelQRCode SpecOrient ProofBase ProofMatrix ProofEval.

Lemma map_upto_ext {A} n (f g : Z -> A) : (forall x, 0 <= x < n -> f x = g x) -> map f (upto n) = map g (upto n).
Proof. intros E. apply map_ext_in. intros x I. apply E. apply in_upto in I. lia. Qed.
Lemma grid_ext n f g : (forall x y, 0 <= x < n -> 0 <= y < n -> f x y = g x y) -> grid n f = grid n g.
Proof. intros E. unfold grid. apply map_upto_ext. intros y Y. apply map_upto_ext. intros x X. auto. Qed.
Lemma grid_size n f : 0 <= n -> size (grid n f) = n.
Proof. intros N. unfold size, grid. rewrite map_length. unfold upto. rewrite map_length, seq_length. lia. Qed.
Lemma grid_at n f x y : 0 <= x < n -> 0 <= y < n -> module_at (grid n f) x y = f x y.
Proof. intros X Y. unfold module_at, grid. rewrite nth_upto_map by auto. rewrite nth_upto_map by auto. reflexivity. Qed.
Lemma turned_grid n f : 0 <= n -> turned (grid n f) = grid n (fun x y => f y (n - 1 - x)).
Proof. intros N. unfold turned. rewrite (grid_size n f N). apply grid_ext. intros x y X Y. rewrite grid_at by lia. reflexivity. Qed.
Lemma mirrored_grid n f : 0 <= n -> mirrored (grid n f) = grid n (fun x y => f y x).
Proof. intros N. unfold mirrored. rewrite (grid_size n f N). apply grid_ext. intros x y X Y. rewrite grid_at by lia. reflexivity. Qed.

(* the symmetries of the square *)
Record sym := Sym { s_swap : bool; s_fx : bool; s_fy : bool }.
Definition flip (n : Z) (b : bool) (x : Z) : Z := if b then n - 1 - x else x.
Definition act (n : Z) (g : sym) (f : Z -> Z -> bool) (x y : Z) : bool :=
  let (a, b) := if s_swap g then (y, x) else (x, y) in f (flip n (s_fx g) a) (flip n (s_fy g) b).
Definition here : sym := Sym false false false.

Lemma turned_act n g f : 0 <= n -> exists g', turned (grid n (act n g f)) = grid n (act n g' f).
Proof.
  intros N. exists (match g with Sym false a b => Sym true a (negb b) | Sym true a b => Sym false (negb a) b end). rewrite turned_grid by auto. apply grid_ext. intros x y X Y.
  destruct g as [[] [] []]; unfold act, flip; cbn [s_swap s_fx s_fy negb]; f_equal; lia.
Qed.
Lemma mirrored_act n g f : 0 <= n -> exists g', mirrored (grid n (act n g f)) = grid n (act n g' f).
Proof.
  intros N. exists (match g with Sym s a b => Sym (negb s) a b end). rewrite mirrored_grid by auto. apply grid_ext. intros x y X Y.
  destruct g as [[] [] []]; unfold act, flip; cbn [s_swap s_fx s_fy negb]; f_equal; lia.
Qed.
Lemma moved_act n ms f : 0 <= n -> exists g, moved ms (grid n f) = grid n (act n g f).
Proof.
  intros N. induction ms as [|m ms [g E]]; [exists here; apply grid_ext; intros; reflexivity|]. cbn [moved fold_right]. fold (moved ms (grid n f)). rewrite E.
  destruct m; [apply turned_act|apply mirrored_act]; auto.
Qed.
Lemma act_moved n g f : 0 <= n -> exists ms, moved ms (grid n f) = grid n (act n g f).
Proof.
  intros N. exists (match g with
    | Sym false false false => [] | Sym false true true => [Turn; Turn] | Sym true false true => [Turn] | Sym true true false => [Turn; Turn; Turn]
    | Sym true false false => [Mirror] | Sym false true false => [Turn; Mirror] | Sym true true true => [Turn; Turn; Mirror] | Sym false false true => [Turn; Turn; Turn; Mirror] end).
  destruct g as [[] [] []]; cbn [moved fold_right move]; rewrite ?mirrored_grid, ?turned_grid by auto; rewrite ?turned_grid by auto; rewrite ?turned_grid by auto;
    apply grid_ext; intros x y X Y; unfold act, flip; cbn [s_swap s_fx s_fy]; f_equal; lia.
Qed.
Lemma ways_act n g f b : 0 <= n -> In b (ways (grid n (act n g f))) -> exists g', b = grid n (act n g' f).
Proof.
  intros N. set (P := fun b => exists g', b = grid n (act n g' f)).
  assert (P0 : P (grid n (act n g f))) by (exists g; reflexivity).
  assert (PT : forall b, P b -> P (turned b)) by (intros b0 [g0 ->]; apply turned_act; auto).
  assert (PM : forall b, P b -> P (mirrored b)) by (intros b0 [g0 ->]; apply mirrored_act; auto).
  change (In b (ways (grid n (act n g f))) -> P b). unfold ways. cbn [In]. intros I. repeat destruct I as [<-|I]; auto. contradiction.
Qed.
Lemma ways_back n g f : 0 <= n -> In (grid n f) (ways (grid n (act n g f))).
Proof.
  intros N. unfold ways. rewrite !mirrored_grid, !turned_grid by auto. cbn [In].
  destruct g as [[] [] []]; unfold act, flip; cbn [s_swap s_fx s_fy].
  all: first [left; apply grid_ext; intros x y X Y; f_equal; lia
    | right; left; apply grid_ext; intros x y X Y; f_equal; lia
    | right; right; left; apply grid_ext; intros x y X Y; f_equal; lia
    | do 3 right; left; apply grid_ext; intros x y X Y; f_equal; lia
    | do 4 right; left; apply grid_ext; intros x y X Y; f_equal; lia
    | do 5 right; left; apply grid_ext; intros x y X Y; f_equal; lia
    | do 6 right; left; apply grid_ext; intros x y X Y; f_equal; lia
    | do 7 right; left; apply grid_ext; intros x y X Y; f_equal; lia].
Qed.

(* finder patterns *)
Definition ring (dx dy : Z) : bool := negb (Z.max (Z.abs dx) (Z.abs dy) =? 2).
Lemma near_in d : -3 <= d <= 3 -> In d [-3; -2; -1; 0; 1; 2; 3].
Proof. intros D. assert (d = -3 \/ d = -2 \/ d = -1 \/ d = 0 \/ d = 1 \/ d = 2 \/ d = 3) as X by lia. cbn. intuition. Qed.
Lemma finder_iff bm cx cy : finder_at bm cx cy = true <-> forall dx dy, -3 <= dx <= 3 -> -3 <= dy <= 3 -> module_at bm (cx + dx) (cy + dy) = ring dx dy.
Proof.
  unfold finder_at. rewrite forallb_forall. split.
  - intros A dx dy DX DY. specialize (A dy (near_in dy DY)). rewrite forallb_forall in A. specialize (A dx (near_in dx DX)). apply eqb_prop in A. exact A.
  - intros A dy IY. rewrite forallb_forall. intros dx IX. apply eqb_true_iff. apply A; [clear IY|clear IX]; cbn in *; lia.
Qed.
Lemma ring_abs a b a' b' : Z.max (Z.abs a) (Z.abs b) = Z.max (Z.abs a') (Z.abs b') -> ring a b = ring a' b'.
Proof. unfold ring. intros ->. reflexivity. Qed.

(* a view other than the plain one and the mirror image has a finder pattern where the symbol has none *)
Lemma upright_view n g f : 21 <= n -> upright (grid n (act n g f)) = true ->
  g = here \/ g = Sym true false false \/ (forall dx dy, -3 <= dx <= 3 -> -3 <= dy <= 3 -> f (n - 4 + dx) (n - 4 + dy) = ring dx dy).
Proof.
  intros N. unfold upright. rewrite grid_size by lia. rewrite !andb_true_iff, !finder_iff. intros ((A & B) & D).
  assert (A' : forall dx dy, -3 <= dx <= 3 -> -3 <= dy <= 3 -> act n g f (3 + dx) (3 + dy) = ring dx dy) by (intros; rewrite <- A by auto; rewrite grid_at by lia; reflexivity).
  assert (B' : forall dx dy, -3 <= dx <= 3 -> -3 <= dy <= 3 -> act n g f (n - 4 + dx) (3 + dy) = ring dx dy) by (intros; rewrite <- B by auto; rewrite grid_at by lia; reflexivity).
  assert (D' : forall dx dy, -3 <= dx <= 3 -> -3 <= dy <= 3 -> act n g f (3 + dx) (n - 4 + dy) = ring dx dy) by (intros; rewrite <- D by auto; rewrite grid_at by lia; reflexivity).
  clear A B D. destruct g as [[] [] []]; auto; right; right; intros dx dy DX DY; unfold act, flip in *; cbn [s_swap s_fx s_fy] in *.
  - etransitivity; [|etransitivity; [apply (A' (- dy) (- dx)); lia|apply ring_abs; lia]]. f_equal; lia.
  - (* swapped, fx *) first [etransitivity; [|etransitivity; [apply (B' (dy) (- dx)); lia|apply ring_abs; lia]]; f_equal; lia | etransitivity; [|etransitivity; [apply (D' (dy) (- dx)); lia|apply ring_abs; lia]]; f_equal; lia].
  - first [etransitivity; [|etransitivity; [apply (B' (- dy) dx); lia|apply ring_abs; lia]]; f_equal; lia | etransitivity; [|etransitivity; [apply (D' (- dy) dx); lia|apply ring_abs; lia]]; f_equal; lia].
  - etransitivity; [|etransitivity; [apply (A' (- dx) (- dy)); lia|apply ring_abs; lia]]. f_equal; lia.
  - first [etransitivity; [|etransitivity; [apply (B' (- dx) dy); lia|apply ring_abs; lia]]; f_equal; lia | etransitivity; [|etransitivity; [apply (D' (- dx) dy); lia|apply ring_abs; lia]]; f_equal; lia].
  - first [etransitivity; [|etransitivity; [apply (B' dx (- dy)); lia|apply ring_abs; lia]]; f_equal; lia | etransitivity; [|etransitivity; [apply (D' dx (- dy)); lia|apply ring_abs; lia]]; f_equal; lia].
Qed.

(* the mirror image shows the format information backwards, which is never a format word *)
Lemma format_mirror : forallb (fun '(l, k) => forallb (fun '(l', k') => negb (format_word l' k' =? bits_value (rev (to_bits (format_word l k) 15)))) all_formats) all_formats = true.
Proof. vm_compute. reflexivity. Qed.
Lemma format_reversed n f : 21 <= n -> map (fun '(x, y) => module_at (grid n (act n (Sym true false false) f)) x y) format_positions_1 = rev (map (fun '(x, y) => f x y) format_positions_1).
Proof. intros N. unfold format_positions_1. cbn [map rev app]. rewrite !grid_at by lia. reflexivity. Qed.
Lemma format_valid n f l k : 21 <= n -> In (l, k) all_formats -> map (fun '(x, y) => f x y) format_positions_1 = to_bits (format_word l k) 15 ->
  read_format (grid n (act n (Sym true false false) f)) = None.
Proof.
  intros N I E. unfold read_format. rewrite format_reversed by auto. rewrite E. pose proof format_mirror as F. rewrite forallb_forall in F. specialize (F _ I). cbn beta iota in F. rewrite forallb_forall in F.
  destruct (find _ all_formats) as [[l' k']|] eqn:FI; [|reflexivity]. apply find_some in FI as [I' T]. specialize (F _ I'). cbn beta iota in F. rewrite T in F. discriminate.
Qed.
