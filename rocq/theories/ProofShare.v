(* Proofs for C75: a Writer in a crowd behaves as the same Writer alone, up to the addresses of its objects. *)
From Coq Require Import Lia.
From Verif Require Import ModelBase ModelMatrix ModelHeap ModelShare SpecSave SpecShare ProofBase ProofMatrix ProofHeap.

Definition ren (f : nat -> nat) (o : object) : object := match o with Columns cs => Columns (map f cs) | _ => o end.
Definition renH (f : nat -> nat) (m : HMatrix) : HMatrix := mkH (f (h_mat m)) (h_width m) (h_height m).
Definition closed_obj (n : nat) (o : object) : Prop := match o with Columns cs => Forall (fun a => a < n)%nat cs | _ => True end.

Section Sim.
Context (m0 : Matrix).
Let B := length (fst (h_alloc [] m0)).

Record sim (f : nat -> nat) (s : wstate) (G : heap) (d : hands) : Prop := {
  s_inv : inv [] m0 s;
  s_mats : hd_mats d = map (renH f) (w_mats s);
  s_slices : hd_slices d = map f (w_slices s);
  s_tables : hd_tables d = map f (w_tables s);
  s_cols : hd_cols d = w_cols s;
  s_heap : forall a o, nth_error (w_heap s) a = Some o -> nth_error G (f a) = Some (ren f o);
  s_inj : forall a b, (a < length (w_heap s))%nat -> (b < length (w_heap s))%nat -> f a = f b -> a = b;
  s_low : forall a, (a < B)%nat -> f a = a;
  s_high : forall a, (B <= a < length (w_heap s))%nat -> (B <= f a < length G)%nat;
  s_cm : Forall (fun m => h_mat m < length (w_heap s))%nat (w_mats s);
  s_cs : Forall (fun a => a < length (w_heap s))%nat (w_slices s);
  s_ct : Forall (fun a => a < length (w_heap s))%nat (w_tables s);
  s_closed : forall a o, nth_error (w_heap s) a = Some o -> closed_obj (length (w_heap s)) o;
  s_big : (B <= length G)%nat;
  s_tb : forall a, In a (w_tables s) -> (B <= a)%nat
}.

Lemma values_ren f s G d a : sim f s G d -> (a < length (w_heap s))%nat -> h_values G (f a) = h_values (w_heap s) a.
Proof.
  intros S LT. apply nth_error_Some in LT. unfold h_values. destruct (nth_error (w_heap s) a) as [o|] eqn:E; [|congruence].
  rewrite (s_heap _ _ _ _ S a o E). destruct o; reflexivity.
Qed.
Lemma read_ren f s G d m : sim f s G d -> (h_mat m < length (w_heap s))%nat -> h_read G (renH f m) = h_read (w_heap s) m.
Proof.
  intros S LT. apply nth_error_Some in LT. unfold h_read. cbn [renH h_mat h_width h_height]. destruct (nth_error (w_heap s) (h_mat m)) as [o|] eqn:E; [|congruence].
  rewrite (s_heap _ _ _ _ S _ o E). destruct o as [l|cs|t]; cbn [ren]; try reflexivity. rewrite map_map.
  assert (X : map (fun a => h_values G (f a)) cs = map (h_values (w_heap s)) cs); [|rewrite X; reflexivity].
  apply map_ext_in. intros a I. apply (values_ren f s G d); auto. pose proof (s_closed _ _ _ _ S _ _ E) as CL. cbn in CL. rewrite Forall_forall in CL. auto.
Qed.

Definition ext (f : nat -> nat) (n g a : nat) : nat := if Nat.ltb a n then f a else (a - n + g)%nat.
Lemma ext_old f n g a : (a < n)%nat -> ext f n g a = f a.
Proof. unfold ext. intros LT. apply Nat.ltb_lt in LT. rewrite LT. reflexivity. Qed.
Lemma ext_new f n g a : (n <= a)%nat -> ext f n g a = (a - n + g)%nat.
Proof. unfold ext. intros LE. apply Nat.ltb_ge in LE. rewrite LE. reflexivity. Qed.
Lemma ext_seq f n g k : map (ext f n g) (seq n k) = seq g k.
Proof.
  assert (Gn : forall k s, (n <= s)%nat -> map (ext f n g) (seq s k) = seq (s - n + g) k).
  { induction k0 as [|k0 IH]; intros s LE; [reflexivity|]. cbn [seq map]. rewrite ext_new by auto. f_equal. rewrite IH by lia. f_equal. lia. }
  rewrite Gn by lia. f_equal. lia.
Qed.
Lemma ren_ext f n g o : closed_obj n o -> ren (ext f n g) o = ren f o.
Proof. destruct o as [l|cs|t]; cbn; auto. intros F. f_equal. apply map_ext_in. intros a I. rewrite Forall_forall in F. apply ext_old. auto. Qed.

Lemma sim_grow f s G d tail : sim f s G d -> Forall (closed_obj (length (w_heap s) + length tail)) tail ->
  let f' := ext f (length (w_heap s)) (length G) in
  sim f' (mkW (w_heap s ++ tail) (w_mats s) (w_slices s) (w_tables s) (w_cols s)) (G ++ map (ren f') tail) d.
Proof.
  intros S CT f'. assert (OLD : forall a, (a < length (w_heap s))%nat -> f' a = f a) by (intros; apply ext_old; auto).
  assert (HB : (B <= length (w_heap s))%nat) by apply (in_len [] m0 s (s_inv _ _ _ _ S)). pose proof (s_big _ _ _ _ S) as BG.
  constructor; cbn [w_heap w_mats w_slices w_tables w_cols].
  - apply inv_grow, S.
  - rewrite (s_mats _ _ _ _ S). apply map_ext_in. intros m I. unfold renH. pose proof (s_cm _ _ _ _ S) as F. rewrite Forall_forall in F. rewrite OLD by auto. reflexivity.
  - rewrite (s_slices _ _ _ _ S). apply map_ext_in. intros a I. pose proof (s_cs _ _ _ _ S) as F. rewrite Forall_forall in F. rewrite OLD by auto. reflexivity.
  - rewrite (s_tables _ _ _ _ S). apply map_ext_in. intros a I. pose proof (s_ct _ _ _ _ S) as F. rewrite Forall_forall in F. rewrite OLD by auto. reflexivity.
  - apply S.
  - intros a o E. destruct (Nat.ltb_spec a (length (w_heap s))) as [LT|GE].
    + rewrite nth_error_app1 in E by auto. rewrite OLD by auto. pose proof (s_heap _ _ _ _ S a o E) as X.
      rewrite nth_error_app1 by (apply nth_error_Some; congruence). rewrite X. f_equal. symmetry. apply ren_ext. apply (s_closed _ _ _ _ S a o E).
    + rewrite nth_error_app2 in E by auto. unfold f'. rewrite ext_new by auto. rewrite nth_error_app2 by lia.
      replace (a - length (w_heap s) + length G - length G)%nat with (a - length (w_heap s))%nat by lia. rewrite nth_error_map, E. reflexivity.
  - intros a b LA LB E. rewrite app_length in LA, LB. unfold f', ext in E.
    assert (HI : forall x, (x < length (w_heap s))%nat -> (f x < length G)%nat).
    { intros x LX. destruct (Nat.ltb_spec x B) as [L1|G1]; [rewrite (s_low _ _ _ _ S) by auto; lia|]. apply (s_high _ _ _ _ S); lia. }
    destruct (Nat.ltb_spec a (length (w_heap s))) as [A1|A1], (Nat.ltb_spec b (length (w_heap s))) as [B1|B1].
    + apply (s_inj _ _ _ _ S); auto.
    + specialize (HI a A1). lia.
    + specialize (HI b B1). lia.
    + lia.
  - intros a LA. rewrite OLD by lia. apply (s_low _ _ _ _ S); auto.
  - intros a LA. rewrite !app_length in *. rewrite map_length. destruct (Nat.ltb_spec a (length (w_heap s))) as [LT|GE].
    + rewrite OLD by auto. pose proof (s_high _ _ _ _ S a ltac:(lia)). lia.
    + unfold f'. rewrite ext_new by auto. lia.
  - eapply Forall_impl; [|exact (s_cm _ _ _ _ S)]. intros m LM. cbn beta in *. rewrite app_length. lia.
  - eapply Forall_impl; [|exact (s_cs _ _ _ _ S)]. intros m LM. cbn beta in *. rewrite app_length. lia.
  - eapply Forall_impl; [|exact (s_ct _ _ _ _ S)]. intros m LM. cbn beta in *. rewrite app_length. lia.
  - intros a o E. rewrite app_length. destruct (Nat.ltb_spec a (length (w_heap s))) as [LT|GE].
    + rewrite nth_error_app1 in E by auto. pose proof (s_closed _ _ _ _ S a o E) as CL. destruct o as [l|cs|t]; cbn in *; auto. eapply Forall_impl; [|exact CL]. cbn beta. intros. lia.
    + rewrite nth_error_app2 in E by auto. apply nth_error_In in E. rewrite Forall_forall in CT. apply CT, E.
  - rewrite app_length. lia.
  - apply S.
Qed.

(* one step: related states stay related; only the Writer's own objects change *)
Definition frame (f : nat -> nat) (s : wstate) (G G' : heap) : Prop :=
  (length G <= length G')%nat /\ forall b, (b < length G)%nat -> (forall a, (B <= a < length (w_heap s))%nat -> f a <> b) -> nth_error G' b = nth_error G b.
Definition extends (f f' : nat -> nat) (s s' : wstate) (G G' : heap) : Prop :=
  (length (w_heap s) <= length (w_heap s'))%nat /\ (forall a, (a < length (w_heap s))%nat -> f' a = f a) /\ (forall a, (length (w_heap s) <= a < length (w_heap s'))%nat -> (length G <= f' a < length G')%nat) /\
  (forall b, (length G <= b < length G')%nat -> exists a, (length (w_heap s) <= a < length (w_heap s'))%nat /\ f' a = b).
Lemma extends_refl f s s' G G' : length (w_heap s') = length (w_heap s) -> length G' = length G -> extends f f s s' G G'.
Proof. intros E EG. split; [lia|]. split; [auto|]. split; [intros a A; lia|]. intros b A. lia. Qed.
Lemma sim_upd f s G d a o0 o : sim f s G d -> nth_error (w_heap s) a = Some o0 -> (a < length (w_heap s))%nat -> (forall cs, o0 <> Columns cs) -> (forall cs, o <> Columns cs) -> (B <= a)%nat ->
  inv [] m0 (mkW (upd_obj (w_heap s) a o) (w_mats s) (w_slices s) (w_tables s) (w_cols s)) ->
  sim f (mkW (upd_obj (w_heap s) a o) (w_mats s) (w_slices s) (w_tables s) (w_cols s)) (upd_obj G (f a) o) (hands_of (mkW (upd_obj G (f a) o) (map (renH f) (w_mats s)) (map f (w_slices s)) (map f (w_tables s)) (w_cols s))) /\
  frame f s G (upd_obj G (f a) o) /\ extends f f s (mkW (upd_obj (w_heap s) a o) (w_mats s) (w_slices s) (w_tables s) (w_cols s)) G (upd_obj G (f a) o).
Proof.
  intros S E VA N0 N1 BA INV. unfold upd_obj in *. split; [|split; [split|]].
  - constructor; cbn [w_heap w_mats w_slices w_tables w_cols hands_of hd_mats hd_slices hd_tables hd_cols]; rewrite ?upd_length; try apply S; try reflexivity; try exact INV.
    + intros b ob Eb. destruct (Nat.eq_dec a b) as [<-|NE].
      * rewrite (nth_error_upd_some _ _ _ _ E) in Eb. injection Eb as <-. rewrite (nth_error_upd_some _ _ _ (ren f o0)) by (apply (s_heap _ _ _ _ S), E). destruct o as [| cs|]; try reflexivity. exfalso. apply (N1 cs eq_refl).
      * rewrite nth_error_upd_other in Eb by auto. rewrite nth_error_upd_other; [apply (s_heap _ _ _ _ S), Eb|].
        intros X. apply NE. apply (s_inj _ _ _ _ S); auto. apply nth_error_Some. congruence.
    + intros b ob Eb. destruct (Nat.eq_dec a b) as [<-|NE].
      * rewrite (nth_error_upd_some _ _ _ _ E) in Eb. injection Eb as <-. destruct o as [| cs|]; cbn; auto. exfalso. apply (N1 cs eq_refl).
      * rewrite nth_error_upd_other in Eb by auto. apply (s_closed _ _ _ _ S b ob Eb).
  - rewrite upd_length. lia.
  - intros b LB NO. apply nth_error_upd_other. apply NO. lia.
  - apply extends_refl; cbn [w_heap]; apply upd_length.
Qed.
Lemma not_table s a t : inv [] m0 s -> nth_error (w_heap s) a = Some (Table t) -> (B <= a)%nat.
Proof.
  intros IN E. destruct (Nat.leb_spec B a) as [LE|LT]; [exact LE|exfalso]. rewrite (in_base [] m0 s IN a) in E by (cbn [length]; fold B; lia).
  unfold h_alloc in E. cbn [fst app] in E. destruct (Nat.ltb_spec a (length (map Values (mmat m0)))) as [L1|G1].
  - rewrite nth_error_app1 in E by auto. rewrite nth_error_map in E. destruct (nth_error (mmat m0) a); discriminate.
  - rewrite nth_error_app2 in E by auto. destruct (a - length (map Values (mmat m0)))%nat as [|z]; cbn in E; [discriminate|destruct z; discriminate].
Qed.
Lemma nothing f s G d : sim f s G d -> exists f', sim f' s G d /\ frame f s G G /\ extends f f' s s G G.
Proof. intros S. exists f. split; [exact S|]. split; [split; auto|]. apply extends_refl; reflexivity. Qed.
Lemma frame_app f s G tail : frame f s G (G ++ tail).
Proof. split; [rewrite app_length; lia|]. intros b LT _. apply nth_error_app1, LT. Qed.
Lemma extends_app f s G tail tail' s' : w_heap s' = w_heap s ++ tail -> length tail = length tail' -> extends f (ext f (length (w_heap s)) (length G)) s s' G (G ++ tail').
Proof.
  intros E EL. unfold extends. rewrite E, !app_length. split; [lia|]. split; [intros; apply ext_old; auto|]. split; [intros a A; rewrite ext_new by lia; lia|].
  intros b A. exists (b - length G + length (w_heap s))%nat. split; [lia|]. rewrite ext_new by lia. lia.
Qed.
Lemma hd_nth {A C} (g : A -> C) l i : nth_error (map g l) i = option_map g (nth_error l i).
Proof. apply nth_error_map. Qed.

Lemma step_sim f s G d op : sim f s G d -> (forall n k v, op = AssignValue n k v -> ~ In n (w_cols s)) ->
  exists f', sim f' (wstep s op) (w_heap (wstep (with_heap G d) op)) (hands_of (wstep (with_heap G d) op)) /\
    frame f s G (w_heap (wstep (with_heap G d) op)) /\ extends f f' s (wstep s op) G (w_heap (wstep (with_heap G d) op)).
Proof.
  intros S CA. pose proof (inv_step [] m0 s op (s_inv _ _ _ _ S) CA) as INV'.
  assert (EH : hands_of (with_heap G d) = d) by (destruct d; reflexivity).
  assert (STAY : exists f', sim f' s G (hands_of (with_heap G d)) /\ frame f s G G /\ extends f f' s s G G) by (rewrite EH; apply nothing, S).
  destruct op as [i|i cur|i cur|i|i di|n k v|n y x b]; cbn [wstep] in *; cbn [with_heap w_heap w_mats w_slices w_tables w_cols] in *;
    rewrite ?(s_mats _ _ _ _ S), ?(s_slices _ _ _ _ S), ?(s_tables _ _ _ _ S), ?(s_cols _ _ _ _ S), ?hd_nth.
  - (* Copy *)
    destruct (nth_error (w_mats s) i) as [m|] eqn:Ei; cbn [option_map]; [|exact STAY].
    assert (VM : (h_mat m < length (w_heap s))%nat) by (pose proof (s_cm _ _ _ _ S) as F; rewrite Forall_forall in F; apply F; eapply nth_error_In; eauto).
    rewrite (read_ren f s G d m S VM). destruct (h_read (w_heap s) m) as [c|]; [|exact STAY].
    unfold h_alloc in *. set (cp := m_copy c) in *. cbn [w_heap hands_of w_mats w_slices w_tables w_cols].
    set (tail := map Values (mmat cp) ++ [Columns (seq (length (w_heap s)) (length (mmat cp)))]) in *.
    set (f' := ext f (length (w_heap s)) (length G)).
    assert (TL : length tail = (length (mmat cp) + 1)%nat) by (unfold tail; rewrite app_length, map_length; reflexivity).
    assert (TE : map (ren f') tail = map Values (mmat cp) ++ [Columns (seq (length G) (length (mmat cp)))]).
    { unfold tail. rewrite map_app, map_map. cbn [map ren]. f_equal. unfold f'. rewrite ext_seq. reflexivity. }
    assert (GR := sim_grow f s G d tail S). cbv zeta in GR. fold f' in GR. rewrite TE in GR.
    assert (CT : Forall (closed_obj (length (w_heap s) + length tail)) tail).
    { rewrite TL. unfold tail. apply Forall_app. split; [apply Forall_forall; intros o I; apply in_map_iff in I as (l & <- & _); cbn; auto|].
      constructor; [|constructor]. cbn. apply Forall_forall. intros a I. apply in_seq in I. lia. }
    specialize (GR CT). exists f'. split; [|split; [apply frame_app|eapply extends_app; [reflexivity|rewrite TL, app_length, map_length; reflexivity]]].
    constructor; cbn [w_heap w_mats w_slices w_tables w_cols hd_mats hd_slices hd_tables hd_cols]; try apply GR; try exact INV'; try (match goal with |- hd_cols _ = _ => reflexivity | |- w_cols _ = w_cols _ => reflexivity end).
    + rewrite map_app. pose proof (s_mats _ _ _ _ GR) as X. cbn [w_mats] in X. rewrite <- X, (s_mats _ _ _ _ S). f_equal. cbn [map]. unfold renH. cbn [h_mat h_width h_height].
      assert (XN : f' (length (w_heap s) + length (mmat cp))%nat = (length G + length (mmat cp))%nat) by (unfold f'; rewrite ext_new by lia; lia). rewrite XN. reflexivity.
    + pose proof (s_slices _ _ _ _ GR) as X. cbn [w_slices] in X. rewrite <- X. symmetry. apply S.
    + pose proof (s_tables _ _ _ _ GR) as X. cbn [w_tables] in X. rewrite <- X. symmetry. apply S.
    + apply Forall_app. split; [apply GR|]. constructor; [|constructor]. cbn [h_mat]. rewrite app_length, TL. lia.
  - (* Row *)
    destruct (nth_error (w_mats s) i) as [m|] eqn:Ei; cbn [option_map]; [|exact STAY].
    assert (VM : (h_mat m < length (w_heap s))%nat) by (pose proof (s_cm _ _ _ _ S) as F; rewrite Forall_forall in F; apply F; eapply nth_error_In; eauto).
    rewrite (read_ren f s G d m S VM). destruct (h_read (w_heap s) m) as [c|]; [|exact STAY]. destruct (m_row c cur) as [l|]; [|exact STAY].
    cbn [w_heap hands_of w_mats w_slices w_tables w_cols]. set (f' := ext f (length (w_heap s)) (length G)).
    assert (GR := sim_grow f s G d [Values l] S ltac:(repeat constructor)). cbv zeta in GR. fold f' in GR. cbn [map ren] in GR.
    exists f'. split; [|split; [apply frame_app|eapply extends_app; reflexivity]].
    constructor; cbn [w_heap w_mats w_slices w_tables w_cols hd_mats hd_slices hd_tables hd_cols]; try apply GR; try exact INV'; try (match goal with |- hd_cols _ = _ => reflexivity | |- w_cols _ = w_cols _ => reflexivity end).
    + pose proof (s_mats _ _ _ _ GR) as X. cbn [w_mats] in X. rewrite <- X. symmetry. apply S.
    + rewrite map_app. pose proof (s_slices _ _ _ _ GR) as X. cbn [w_slices] in X. rewrite <- X, (s_slices _ _ _ _ S). f_equal. cbn [map]. assert (XN : f' (length (w_heap s)) = length G) by (unfold f'; rewrite ext_new by lia; lia). rewrite XN. reflexivity.
    + pose proof (s_tables _ _ _ _ GR) as X. cbn [w_tables] in X. rewrite <- X. symmetry. apply S.
    + apply Forall_app. split; [apply GR|]. constructor; [|constructor]. rewrite app_length. cbn [length]. lia.
  - (* Col *)
    destruct (nth_error (w_mats s) i) as [m|] eqn:Ei; cbn [option_map]; [|exact STAY]. cbn [renH h_width].
    destruct ((h_width m <=? cur) || (cur <? 0)); [exact STAY|].
    assert (VM : (h_mat m < length (w_heap s))%nat) by (pose proof (s_cm _ _ _ _ S) as F; rewrite Forall_forall in F; apply F; eapply nth_error_In; eauto).
    unfold h_column in *. cbn [renH h_mat] in *. pose proof VM as VM'. apply nth_error_Some in VM'. destruct (nth_error (w_heap s) (h_mat m)) as [o|] eqn:E; [|congruence].
    rewrite (s_heap _ _ _ _ S _ o E). destruct o as [l|cs|t]; cbn [ren] in *; [exact STAY| |exact STAY].
    assert (ZG : zget (map f cs) cur = option_map f (zget cs cur)) by (unfold zget; destruct (cur <? 0); [reflexivity|apply nth_error_map]).
    rewrite ZG. destruct (zget cs cur) as [a|] eqn:EZ; cbn [option_map]; [|exact STAY].
    cbn [w_heap hands_of w_mats w_slices w_tables w_cols]. exists f. split; [|split; [split; auto|apply extends_refl; reflexivity]].
    constructor; cbn [w_heap w_mats w_slices w_tables w_cols hd_mats hd_slices hd_tables hd_cols hands_of]; try apply S; try exact INV'; try reflexivity.
    + rewrite map_app. reflexivity.
    + rewrite map_length. reflexivity.
    + apply Forall_app. split; [apply S|]. constructor; [|constructor]. pose proof (s_closed _ _ _ _ S _ _ E) as CL. cbn in CL. rewrite Forall_forall in CL. apply CL. eapply zget_In; eauto.
  - (* Bitmap *)
    destruct (nth_error (w_mats s) i) as [m|] eqn:Ei; cbn [option_map]; [|exact STAY].
    assert (VM : (h_mat m < length (w_heap s))%nat) by (pose proof (s_cm _ _ _ _ S) as F; rewrite Forall_forall in F; apply F; eapply nth_error_In; eauto).
    rewrite (read_ren f s G d m S VM). destruct (h_read (w_heap s) m) as [c|]; [|exact STAY].
    cbn [w_heap hands_of w_mats w_slices w_tables w_cols]. set (f' := ext f (length (w_heap s)) (length G)).
    assert (GR := sim_grow f s G d [Table (m_bitmap c)] S ltac:(repeat constructor)). cbv zeta in GR. fold f' in GR. cbn [map ren] in GR.
    exists f'. split; [|split; [apply frame_app|eapply extends_app; reflexivity]].
    constructor; cbn [w_heap w_mats w_slices w_tables w_cols hd_mats hd_slices hd_tables hd_cols]; try apply GR; try exact INV'; try (match goal with |- hd_cols _ = _ => reflexivity | |- w_cols _ = w_cols _ => reflexivity end).
    + pose proof (s_mats _ _ _ _ GR) as X. cbn [w_mats] in X. rewrite <- X. symmetry. apply S.
    + pose proof (s_slices _ _ _ _ GR) as X. cbn [w_slices] in X. rewrite <- X. symmetry. apply S.
    + rewrite map_app. pose proof (s_tables _ _ _ _ GR) as X. cbn [w_tables] in X. rewrite <- X, (s_tables _ _ _ _ S). f_equal. cbn [map]. assert (XN : f' (length (w_heap s)) = length G) by (unfold f'; rewrite ext_new by lia; lia). rewrite XN. reflexivity.
    + apply Forall_app. split; [apply GR|]. constructor; [|constructor]. rewrite app_length. cbn [length]. lia.
    + intros a I. apply in_app_or in I as [I|[<-|[]]]; [apply S, I|]. apply (in_len [] m0 s (s_inv _ _ _ _ S)).
  - exact STAY.
  - (* AssignValue *)
    destruct (nth_error (w_slices s) n) as [a|] eqn:En; cbn [option_map]; [|exact STAY].
    assert (VA : (a < length (w_heap s))%nat) by (pose proof (s_cs _ _ _ _ S) as F; rewrite Forall_forall in F; apply F; eapply nth_error_In; eauto).
    rewrite (values_ren f s G d a S VA). destruct (h_values (w_heap s) a) as [l|] eqn:Ev; [|exact STAY].
    destruct ((0 <=? k) && (k <? zlen l)); [|exact STAY].
    assert (EO : nth_error (w_heap s) a = Some (Values l)).
    { unfold h_values in Ev. destruct (nth_error (w_heap s) a) as [[l'| |]|]; try discriminate. congruence. }
    pose proof (in_slices [] m0 s (s_inv _ _ _ _ S) n a En (CA n k v eq_refl)) as FA. unfold fresh in FA. fold B in FA.
    exists f. apply sim_upd with (o0 := Values l) (d := d); auto; intros cs; discriminate.
  - destruct (nth_error (w_tables s) n) as [a|] eqn:En; cbn [option_map]; [|exact STAY].
    assert (VA : (a < length (w_heap s))%nat) by (pose proof (s_ct _ _ _ _ S) as F; rewrite Forall_forall in F; apply F; eapply nth_error_In; eauto).
    pose proof VA as VA'. apply nth_error_Some in VA'. destruct (nth_error (w_heap s) a) as [o|] eqn:EO; [|congruence].
    rewrite (s_heap _ _ _ _ S _ o EO). destruct o as [l|cs|t]; cbn [ren] in *; [exact STAY|exact STAY|].
    destruct (zget t y) as [row|]; [|exact STAY].
    exists f. apply sim_upd with (o0 := Table t) (d := d); auto; [intros cs; discriminate|intros cs; discriminate|]. apply (not_table s a t (s_inv _ _ _ _ S) EO).
Qed.

Lemma accesses_sim f s G d op b w f' : sim f s G d -> (forall n k v, op = AssignValue n k v -> ~ In n (w_cols s)) ->
  extends f f' s (wstep s op) G (w_heap (wstep (with_heap G d) op)) -> In (b, w) (accesses (with_heap G d) op) ->
  exists a, (a < length (w_heap (wstep s op)))%nat /\ f' a = b /\ (w = true -> (B <= a)%nat).
Proof.
  intros S CA (X1 & X2 & X3 & X4). assert (HB : (B <= length (w_heap s))%nat) by apply (in_len [] m0 s (s_inv _ _ _ _ S)).
  assert (OLD : forall a, (a < length (w_heap s))%nat -> (a < length (w_heap (wstep s op)))%nat /\ f' a = f a) by (intros a LT; split; [lia|auto]).
  assert (RD : forall i m, nth_error (w_mats s) i = Some m -> In (b, w) (matrix_reads G (renH f m)) -> exists a, (a < length (w_heap (wstep s op)))%nat /\ f' a = b /\ (w = true -> (B <= a)%nat)).
  { intros i m Ei I. assert (VM : (h_mat m < length (w_heap s))%nat) by (pose proof (s_cm _ _ _ _ S) as F; rewrite Forall_forall in F; apply F; eapply nth_error_In; eauto).
    unfold matrix_reads in I. cbn [renH h_mat] in I. destruct I as [[= <- <-]|I]; [exists (h_mat m); destruct (OLD _ VM); repeat split; auto; discriminate|].
    pose proof VM as VM'. apply nth_error_Some in VM'. destruct (nth_error (w_heap s) (h_mat m)) as [o|] eqn:E; [|congruence].
    rewrite (s_heap _ _ _ _ S _ o E) in I. destruct o as [l|cs|t]; cbn [ren] in I; try contradiction. rewrite map_map in I. apply in_map_iff in I as (a & [= <- <-] & IA).
    pose proof (s_closed _ _ _ _ S _ _ E) as CL. cbn in CL. rewrite Forall_forall in CL. exists a. destruct (OLD a (CL a IA)). repeat split; auto. discriminate. }
  assert (AL : In (b, w) (allocated (with_heap G d) op) -> exists a, (a < length (w_heap (wstep s op)))%nat /\ f' a = b /\ (w = true -> (B <= a)%nat)).
  { intros I. unfold allocated in I. apply in_map_iff in I as (c & [= -> <-] & IC). apply in_seq in IC. change (w_heap (with_heap G d)) with G in IC.
    destruct (X4 b ltac:(lia)) as (a & RA & EA). exists a. repeat split; auto; intros; lia. }
  destruct op as [i|i cur|i cur|i|i di|n k v|n y x bb]; cbn [accesses]; change (w_mats (with_heap G d)) with (hd_mats d); change (w_slices (with_heap G d)) with (hd_slices d); change (w_tables (with_heap G d)) with (hd_tables d); change (w_heap (with_heap G d)) with G;
    rewrite ?(s_mats _ _ _ _ S), ?(s_slices _ _ _ _ S), ?(s_tables _ _ _ _ S), ?nth_error_map.
  1,2,4,5: destruct (nth_error (w_mats s) i) as [m|] eqn:Ei; cbn [option_map]; intros I; try contradiction; apply in_app_or in I as [I|I]; [eapply RD; eauto|apply AL, I].
  - destruct (nth_error (w_mats s) i) as [m|] eqn:Ei; cbn [option_map]; intros I; try contradiction. destruct I as [[= <- <-]|[]].
    assert (VM : (h_mat m < length (w_heap s))%nat) by (pose proof (s_cm _ _ _ _ S) as F; rewrite Forall_forall in F; apply F; eapply nth_error_In; eauto).
    exists (h_mat m). destruct (OLD _ VM). repeat split; auto. discriminate.
  - destruct (nth_error (w_slices s) n) as [a|] eqn:En; cbn [option_map]; intros I; try contradiction. destruct I as [[= <- <-]|[]].
    assert (VA : (a < length (w_heap s))%nat) by (pose proof (s_cs _ _ _ _ S) as F; rewrite Forall_forall in F; apply F; eapply nth_error_In; eauto).
    exists a. destruct (OLD _ VA). repeat split; auto. intros _. apply (in_slices [] m0 s (s_inv _ _ _ _ S) n a En (CA n k v eq_refl)).
  - destruct (nth_error (w_tables s) n) as [a|] eqn:En; cbn [option_map]; intros I; try contradiction. destruct I as [[= <- <-]|[]].
    assert (VA : (a < length (w_heap s))%nat) by (pose proof (s_ct _ _ _ _ S) as F; rewrite Forall_forall in F; apply F; eapply nth_error_In; eauto).
    exists a. destruct (OLD _ VA). repeat split; auto. intros _. apply (s_tb _ _ _ _ S) . eapply nth_error_In; eauto.
Qed.

Lemma frame_other f g s t G G' d : sim g t G d -> frame f s G G' -> (forall a, (B <= a < length (w_heap s))%nat -> (B <= f a)%nat) ->
  (forall a b, (B <= a < length (w_heap s))%nat -> (B <= b < length (w_heap t))%nat -> f a <> g b) -> sim g t G' d.
Proof.
  intros S (LG & FR) HI DJ. constructor; try (apply (s_inv _ _ _ _ S) || apply (s_mats _ _ _ _ S) || apply (s_slices _ _ _ _ S) || apply (s_tables _ _ _ _ S) || apply (s_cols _ _ _ _ S) || apply (s_inj _ _ _ _ S) || apply (s_low _ _ _ _ S) || apply (s_cm _ _ _ _ S) || apply (s_cs _ _ _ _ S) || apply (s_ct _ _ _ _ S) || apply (s_closed _ _ _ _ S) || exact (s_tb _ _ _ _ S)).
  - intros a o E. pose proof (s_heap _ _ _ _ S a o E) as X. rewrite FR; [exact X|apply nth_error_Some; congruence|].
    intros x RX EX. destruct (Nat.ltb_spec a B) as [LT|GE].
    + rewrite (s_low _ _ _ _ S a LT) in EX. specialize (HI x RX). lia.
    + apply (DJ x a RX); auto. split; [lia|]. apply nth_error_Some. congruence.
  - intros a RA. pose proof (s_high _ _ _ _ S a RA). lia.
  - pose proof (s_big _ _ _ _ S). lia.
Qed.

Lemma sim_start : sim (fun a => a) (wstart [] m0) (w_heap (wstart [] m0)) (hands_of (wstart [] m0)).
Proof.
  assert (LB : length (w_heap (wstart [] m0)) = B) by reflexivity.
  constructor; rewrite ?LB; auto.
  - apply inv_start.
  - intros a o E. rewrite E. f_equal. destruct o as [| cs|]; cbn [ren]; auto. rewrite map_id. reflexivity.
  - constructor; [|constructor]. cbn [snd h_alloc h_mat]. unfold B. rewrite alloc_length. cbn [length]. lia.
  - constructor.
  - constructor.
  - intros a o E. unfold wstart, h_alloc in E. cbn [w_heap app] in E. destruct (Nat.ltb_spec a (length (map Values (mmat m0)))) as [L1|G1].
    + rewrite nth_error_app1 in E by auto. rewrite nth_error_map in E. destruct (nth_error (mmat m0) a); [|discriminate]. injection E as <-. cbn. auto.
    + rewrite nth_error_app2 in E by auto. destruct (a - length (map Values (mmat m0)))%nat as [|z]; cbn in E; [|destruct z; discriminate]. injection E as <-. cbn.
      apply Forall_forall. intros b I. apply in_seq in I. pose proof (alloc_length [] m0) as AL. fold B in AL. cbn [length] in AL. change (b < B)%nat. lia.
  - cbn [wstart w_tables h_alloc]. intros a [].
Qed.

Definition solo (i : nat) (sched : list (nat * wop)) : wstate := wrun (wstart [] m0) (ops_of i sched).
Lemma ops_of_app i s1 s2 : ops_of i (s1 ++ s2) = ops_of i s1 ++ ops_of i s2.
Proof. unfold ops_of. rewrite filter_app, map_app. reflexivity. Qed.
Lemma solo_same i sched op : solo i (sched ++ [(i, op)]) = wstep (solo i sched) op.
Proof. unfold solo. rewrite ops_of_app. unfold ops_of at 2. cbn [filter fst map snd]. rewrite Nat.eqb_refl. cbn [map snd]. unfold wrun. rewrite fold_left_app. reflexivity. Qed.
Lemma solo_other i j sched op : i <> j -> solo j (sched ++ [(i, op)]) = solo j sched.
Proof. intros NE. unfold solo. rewrite ops_of_app. unfold ops_of at 2. cbn [filter fst]. apply Nat.eqb_neq in NE. rewrite NE. cbn [map]. rewrite app_nil_r. reflexivity. Qed.
Lemma careful_prefix n s1 s2 : careful m0 n (s1 ++ s2) -> careful m0 n s1.
Proof.
  intros CA i LI (b & k & x & v & a & E & I). apply (CA i LI). exists b, k, x, v, (a ++ ops_of i s2). split; [|exact I]. rewrite ops_of_app, E, <- app_assoc. reflexivity.
Qed.

Record crowd (n : nat) (sched : list (nat * wop)) (phi : nat -> nat -> nat) : Prop := {
  c_len : length (sr_hands (share_run n m0 sched)) = n;
  c_sim : forall i d, nth_error (sr_hands (share_run n m0 sched)) i = Some d -> sim (phi i) (solo i sched) (sr_heap (share_run n m0 sched)) d;
  c_disj : forall i j a b, (i < n)%nat -> (j < n)%nat -> i <> j -> (B <= a < length (w_heap (solo i sched)))%nat -> (B <= b < length (w_heap (solo j sched)))%nat -> phi i a <> phi j b;
  c_log : forall i b w, In (i, (b, w)) (sr_log (share_run n m0 sched)) -> (i < n)%nat /\ exists a, (a < length (w_heap (solo i sched)))%nat /\ phi i a = b /\ (w = true -> (B <= a)%nat)
}.

Lemma crowd_start n : crowd n [] (fun _ a => a).
Proof.
  constructor; cbn [share_run fold_left share_start sr_hands sr_heap sr_log].
  - apply repeat_length.
  - intros i d E. apply nth_error_In, repeat_spec in E as ->. apply sim_start.
  - intros i j a b _ _ _ A. change (length (w_heap (solo i []))) with B in A. lia.
  - intros i b w [].
Qed.

Lemma crowd_run n sched : careful m0 n sched -> exists phi, crowd n sched phi.
Proof.
  induction sched as [|[i op] sched IH] using rev_ind; intros CA; [exists (fun _ a => a); apply crowd_start|].
  destruct (IH (careful_prefix _ _ _ CA)) as (phi & CR).
  destruct CR as [CL CS CD CLG]. 
  destruct (nth_error (sr_hands (share_run n m0 sched)) i) as [d|] eqn:Ed.
  - assert (LI : (i < n)%nat) by (rewrite <- CL; apply nth_error_Some; congruence).
    pose proof (CS i d Ed) as S. set (G := sr_heap (share_run n m0 sched)) in *.
    assert (CAO : forall k x v, op = AssignValue k x v -> ~ In k (w_cols (solo i sched))).
    { intros k x v -> I. apply (CA i LI). exists (ops_of i sched), k, x, v, []. split; [|exact I]. rewrite ops_of_app. f_equal. unfold ops_of. cbn [filter fst]. rewrite Nat.eqb_refl. reflexivity. }
    destruct (step_sim _ _ _ _ op S CAO) as (f' & S' & FR & EX).
    assert (HB : forall j, (j < n)%nat -> (B <= length (w_heap (solo j sched)))%nat).
    { intros j LJ. destruct (nth_error (sr_hands (share_run n m0 sched)) j) as [dj|] eqn:Ej; [|apply nth_error_None in Ej; lia]. apply (in_len [] m0 _ (s_inv _ _ _ _ (CS j dj Ej))). }
    assert (HI : forall j a, (j < n)%nat -> (B <= a < length (w_heap (solo j sched)))%nat -> (B <= phi j a < length G)%nat).
    { intros j a LJ RA. destruct (nth_error (sr_hands (share_run n m0 sched)) j) as [dj|] eqn:Ej; [|apply nth_error_None in Ej; lia]. apply (s_high _ _ _ _ (CS j dj Ej)), RA. }
    pose proof EX as (X1 & X2 & X3 & X4).
    assert (DJ : forall j a b, (j < n)%nat -> j <> i -> (B <= a < length (w_heap (wstep (solo i sched) op)))%nat -> (B <= b < length (w_heap (solo j sched)))%nat -> f' a <> phi j b).
    { intros j a b LJ NE RA RB EQ. destruct (Nat.ltb_spec a (length (w_heap (solo i sched)))) as [LT|GE].
      - rewrite X2 in EQ by auto. apply (CD i j a b); auto. lia.
      - pose proof (X3 a ltac:(lia)). pose proof (HI j b LJ RB). lia. }
    exists (fun j => if Nat.eqb j i then f' else phi j).
    assert (ER : share_run n m0 (sched ++ [(i, op)]) = mkShare (w_heap (wstep (with_heap G d) op)) (upd_nat (sr_hands (share_run n m0 sched)) i (hands_of (wstep (with_heap G d) op))) (sr_log (share_run n m0 sched) ++ map (fun a => (i, a)) (accesses (with_heap G d) op))).
    { unfold share_run at 1. rewrite fold_left_app. cbn [fold_left]. fold (share_run n m0 sched). unfold share_step. rewrite Ed. reflexivity. }
    constructor; rewrite ?ER; cbn [sr_hands sr_heap sr_log].
    + rewrite upd_length. exact CL.
    + intros j dj Ej. destruct (Nat.eqb_spec j i) as [->|NE].
      * rewrite (nth_error_upd_some _ _ _ _ Ed) in Ej. injection Ej as <-. rewrite solo_same. exact S'.
      * rewrite nth_error_upd_other in Ej by auto. rewrite solo_other by auto. assert (LJ : (j < n)%nat) by (rewrite <- CL; apply nth_error_Some; congruence).
        apply (frame_other (phi i) (phi j) (solo i sched) (solo j sched) G _ dj (CS j dj Ej) FR); [intros a RA; apply (HI i a LI RA)|].
        intros a b RA RB. apply (CD i j a b); auto.
    + intros j k a b LJ LK NE RA RB. destruct (Nat.eqb_spec j i) as [->|NJ]; destruct (Nat.eqb_spec k i) as [->|NK]; [congruence| | |].
      * rewrite solo_same in RA. rewrite solo_other in RB by auto. apply (DJ k a b); auto.
      * rewrite solo_same in RB. rewrite solo_other in RA by auto. apply not_eq_sym. apply (DJ j b a); auto.
      * rewrite solo_other in RA by auto. rewrite solo_other in RB by auto. apply (CD j k a b); auto.
    + intros j b w I. apply in_app_or in I as [I|I].
      * destruct (CLG j b w I) as (LJ & a & LA & EA & WA). split; [exact LJ|]. destruct (Nat.eqb_spec j i) as [->|NE].
        -- rewrite solo_same. exists a. split; [lia|]. rewrite X2 by auto. auto.
        -- rewrite solo_other by auto. eauto.
      * apply in_map_iff in I as (c & [= <- ->] & IC). split; [exact LI|]. rewrite Nat.eqb_refl, solo_same.
        destruct (accesses_sim _ _ _ _ op b w f' S CAO EX IC) as (a & LA & EA & WA). eauto.
  - exists phi. assert (GE : (n <= i)%nat) by (apply nth_error_None in Ed; lia).
    assert (ER : share_run n m0 (sched ++ [(i, op)]) = share_run n m0 sched).
    { unfold share_run at 1. rewrite fold_left_app. cbn [fold_left]. fold (share_run n m0 sched). unfold share_step. rewrite Ed. reflexivity. }
    assert (SO : forall j, (j < n)%nat -> solo j (sched ++ [(i, op)]) = solo j sched) by (intros j LJ; apply solo_other; lia).
    constructor; rewrite ?ER.
    + exact CL.
    + intros j dj Ej. rewrite SO by (rewrite <- CL; apply nth_error_Some; congruence). apply CS, Ej.
    + intros j k a b LJ LK NE RA RB. rewrite SO in RA, RB by auto. apply (CD j k a b); auto.
    + intros j b w I. destruct (CLG j b w I) as (LJ & R). rewrite SO by auto. auto.
Qed.

Lemma crowd_no_race n sched phi : crowd n sched phi -> ~ race (sr_log (share_run n m0 sched)).
Proof.
  intros [CL CS CD CLG] (i & j & b & w & I1 & I2 & NE). destruct (CLG _ _ _ I1) as (LI & x & LX & EX & WX). destruct (CLG _ _ _ I2) as (LJ & y & LY & EY & _).
  specialize (WX eq_refl). destruct (nth_error (sr_hands (share_run n m0 sched)) i) as [di|] eqn:Ei; [|apply nth_error_None in Ei; lia].
  destruct (nth_error (sr_hands (share_run n m0 sched)) j) as [dj|] eqn:Ej; [|apply nth_error_None in Ej; lia].
  destruct (Nat.ltb_spec y B) as [LT|GE].
  - rewrite (s_low _ _ _ _ (CS j dj Ej) y LT) in EY. pose proof (s_high _ _ _ _ (CS i di Ei) x ltac:(lia)). lia.
  - apply (CD i j x y); auto; congruence.
Qed.

Lemma sim_sees f s G d : sim f s G d -> sees (with_heap G d) = sees s.
Proof.
  intros S. unfold sees. cbn [with_heap w_heap w_mats w_slices w_tables]. rewrite (s_mats _ _ _ _ S), (s_slices _ _ _ _ S), (s_tables _ _ _ _ S), !map_map. f_equal; [f_equal|].
  - apply map_ext_in. intros m I. apply (read_ren f s G d m S). pose proof (s_cm _ _ _ _ S) as F. rewrite Forall_forall in F. auto.
  - apply map_ext_in. intros a I. apply (values_ren f s G d a S). pose proof (s_cs _ _ _ _ S) as F. rewrite Forall_forall in F. auto.
  - apply map_ext_in. intros a I. assert (VA : (a < length (w_heap s))%nat) by (pose proof (s_ct _ _ _ _ S) as F; rewrite Forall_forall in F; auto).
    apply nth_error_Some in VA. destruct (nth_error (w_heap s) a) as [o|] eqn:E; [|congruence]. rewrite (s_heap _ _ _ _ S a o E). destruct o; reflexivity.
Qed.
End Sim.
