(* C81: the custom shape of the documentation (smaller circles). *)
From Coq Require Import Lia.
From Verif Require Import ModelBase ModelMatrix ModelQRCode ModelSave ModelCompressed ModelStandard ModelWriters ModelFloat ModelExample.
From Verif Require Import SpecReader SpecSegment SpecAPI SpecMatrix SpecStandard SpecMedium SpecShape SpecFloat64 Samples.
From Verif Require Import ProofStandard ProofMedium ProofShape ProofExample.
From Verif Require PropsNew PropsShape.
From Coq Require Import QArith Lqa.
Open Scope Z_scope.

(* However many modules have been drawn, the shape's percentage is what it was made with, and every module was drawn with it (finder
   modules with the full radius): one writer can use the shape as often as it likes. *)
Theorem C81_percentage_kept :
  forall edge percent calls cv, fold_left (smaller_call edge) calls (percent, cv) = (percent, fold_left (smaller_shape edge percent) calls cv).
Proof. intros. apply calls_pure. Qed.

(* The discs stay in their modules and cover the pixel in the middle, if they have a radius of at least two pixels (one suffices when the
   width is odd) *)
Theorem C81_smaller_circles :
  forall edge percent bw, (0 <= percent <= 1)%Q -> 3 <= bw <= 255 ->
  (2 <= inject_Z (bw / 2) * percent)%Q \/ ((1 <= inject_Z (bw / 2) * percent)%Q /\ bw mod 2 = 1) ->
  proper_shape (smaller_shape edge percent) bw (bw / 2).
Proof. intros edge percent bw [P0 P1] HB BIG. apply smaller_proper; try assumption. lia. Qed.

(* ... so that a symbol drawn with them and saved without loss reads back *)
Theorem C81_reads_back :
  forall sjis, shift_jis_contract sjis ->
  forall text opts sched q, NewWith sjis text opts sched = Ok q -> ~ misdetected sjis opts (text_bytes text) ->
  forall encode decode fails others scale o old id edge percent, lossless (o_encoder o) encode decode ->
  encodable (o_encoder o) (img_w o (q_dimension q)) (img_h o (q_dimension q)) -> (forall k, fails k = None) ->
  getShape o = ShapeCustom id -> others (ShapeCustom id) = smaller_shape edge percent -> (0 <= percent <= 1)%Q ->
  let bw := qrBlockWidth o in
  3 <= bw -> (2 <= inject_Z (bw / 2) * percent)%Q \/ ((1 <= inject_Z (bw / 2) * percent)%Q /\ bw mod 2 = 1) ->
  o_logo o = None -> o_halftone o = None -> o_gradient o = None -> painter_colors o -> (o_bgTransparent o = false -> o_bgColor o <> o_qrColor o) ->
  0 <= b_left o -> 0 <= b_right o -> 0 <= b_top o -> 0 <= b_bottom o ->
  exists s' o' cv,
    Save (Some (qMat q)) (standard_writer encode fails others scale) (standard_new old, o) = ((s', o'), [EvWrite (qMat q); EvClose], Returned None) /\
    s_open s' = false /\ decode (o_content (s_file s')) = Some (img_w o (q_dimension q), img_h o (q_dimension q), cv) /\
    reads_back sjis text (scan_at (bw / 2) cv o (q_dimension q)).
Proof.
  intros sjis C text opts sched q HN NM encode decode fails others scale o old id edge percent DEC ENC NF GS OT P bw B3 BIG EL EH EG PC DIFF B1 B2 B4 B5.
  apply (PropsShape.C56_saved_symbol_reads_back sjis C text opts sched q HN NM encode decode fails others scale o old (bw / 2)); try assumption.
  - unfold chosen_shape. rewrite GS, OT. apply C81_smaller_circles; try assumption. pose proof (block_width_range o). fold bw in H. lia.
  - pose proof (Z.div_mod bw 2 ltac:(lia)). pose proof (Z.mod_pos_bound bw 2 ltac:(lia)). fold bw. lia.
Qed.
Print Assumptions C81_percentage_kept.
Print Assumptions C81_smaller_circles.
Print Assumptions C81_reads_back.

(* the documentation's newShape(0.7), as a float64, with the default width of 20 pixels: discs of radius 7; and options that use it *)
Definition seven_tenths : Q := 3152519739159347 # 4503599627370496.
Example C81_documented : float64 seven_tenths /\ (0 <= seven_tenths <= 1)%Q /\ (2 <= inject_Z (20 / 2) * seven_tenths)%Q /\
  (forall k, k_w k = 20 -> k_h k = 20 -> smaller_radius seven_tenths k = 7) /\
  exists o, NewWithWriter (fun _ => None) [WithCustomShape (Some (ShapeCustom 1))] = Some o /\ getShape o = ShapeCustom 1 /\ qrBlockWidth o = 20 /\
    o_logo o = None /\ o_halftone o = None /\ o_gradient o = None /\ painter_colors o /\ o_bgColor o <> o_qrColor o /\
    0 <= b_left o /\ 0 <= b_right o /\ 0 <= b_top o /\ 0 <= b_bottom o.
Proof.
  split; [exists 3152519739159347, (-52); split; [lia|]; split; [lia|]; reflexivity|]. split; [split; unfold Qle; cbn; lia|]. split; [unfold Qle; cbn; lia|].
  split. { intros k EW EH. unfold smaller_radius. rewrite (square_radius k 20 ltac:(lia) EW EH). vm_compute. reflexivity. }
  eexists. split; [reflexivity|]. repeat split; try reflexivity; try discriminate; cbn; try lia.
Qed.

(* With blocks of three pixels 0.7 leaves no radius at all: only the finder patterns are drawn *)
Theorem C81_small_blocks_refuted :
  ~ (forall edge percent bw, (0 < percent <= 1)%Q -> 3 <= bw <= 255 -> exists d, 0 <= d < bw /\ proper_shape (smaller_shape edge percent) bw d).
Proof.
  intros A. destruct (A (fun _ _ _ _ c => c) seven_tenths 3) as (d & HD & P); [split; unfold Qlt, Qle; cbn; lia|lia|].
  destruct (P (fun _ _ => mkRGBA 255 255 255 255) (mkCall false 0 0 0 0 3 3 (mkRGBA 0 0 0 255) 0) eq_refl eq_refl eq_refl eq_refl) as [_ E].
  unfold smaller_shape, smaller_Draw in E. cbn [k_finder k_color] in E.
  assert (R : smaller_radius seven_tenths (mkCall false 0 0 0 0 3 3 (mkRGBA 0 0 0 255) 0) = 0) by (vm_compute; reflexivity).
  unfold disc_fill in E. rewrite R in E. cbn [Z.eqb orb] in E. vm_compute in E. discriminate E.
Qed.
Theorem C81_small_blocks_draw_nothing :
  forall edge cv k, k_finder k = false -> 0 <= k_w k <= 3 -> k_h k = k_w k -> smaller_shape edge seven_tenths cv k = cv.
Proof.
  intros edge cv k F B EH. unfold smaller_shape, smaller_Draw. rewrite F.
  assert (R : smaller_radius seven_tenths k = 0).
  { unfold smaller_radius. rewrite (square_radius k (k_w k) ltac:(lia) eq_refl EH).
    assert (k_w k = 0 \/ k_w k = 1 \/ k_w k = 2 \/ k_w k = 3) as [->|[->|[->| ->]]] by lia; vm_compute; reflexivity. }
  rewrite R. reflexivity.
Qed.
Print Assumptions C81_small_blocks_refuted.
Print Assumptions C81_small_blocks_draw_nothing.

(* Two goroutines may not share the shape.  If no two drawings overlap in time, each drawing uses the right percentage and the field is
   restored ... *)
Definition ops_of (finder : bool) : list shape_op := if finder then finder_ops else data_ops.
Definition percentage_of (percent : Q) (finder : bool) : Q := if finder then 1%Q else percent.
(* the goroutines draw the modules in the lists a and b (true: a finder module), each drawing without the other one in between *)
Inductive in_turn : list bool -> list bool -> list bool -> Prop :=
| turn_end : in_turn [] [] []
| turn_first f a b sched : in_turn a b sched -> in_turn (f :: a) b (repeat true (length (ops_of f)) ++ sched)
| turn_second f a b sched : in_turn a b sched -> in_turn a (f :: b) (repeat false (length (ops_of f)) ++ sched).
Lemma in_turn_run percent a b sched : in_turn a b sched -> forall x y ux uy,
  exists x' y', fold_left users_step sched (percent, mkUser (flat_map ops_of a) x ux, mkUser (flat_map ops_of b) y uy) =
    (percent, mkUser [] x' (rev (map (percentage_of percent) a) ++ ux), mkUser [] y' (rev (map (percentage_of percent) b) ++ uy)).
Proof.
  induction 1 as [|f a b sched _ IH|f a b sched _ IH]; intros x y ux uy.
  - exists x, y. reflexivity.
  - destruct f; cbn [ops_of finder_ops data_ops length repeat app flat_map fold_left users_step user_step u_todo u_backup u_used map rev].
    + destruct (IH percent y (1%Q :: ux) uy) as (x' & y' & E). exists x', y'. rewrite <- app_assoc. exact E.
    + destruct (IH x y (percent :: ux) uy) as (x' & y' & E). exists x', y'. rewrite <- app_assoc. exact E.
  - destruct f; cbn [ops_of finder_ops data_ops length repeat app flat_map fold_left users_step user_step u_todo u_backup u_used map rev].
    + destruct (IH x percent ux (1%Q :: uy)) as (x' & y' & E). exists x', y'. rewrite <- app_assoc. exact E.
    + destruct (IH x y ux (percent :: uy)) as (x' & y' & E). exists x', y'. rewrite <- app_assoc. exact E.
Qed.
Theorem C81_one_after_the_other :
  forall percent a b sched, in_turn a b sched -> exists x y,
    users_run percent (flat_map ops_of a) (flat_map ops_of b) sched =
      (percent, mkUser [] x (rev (map (percentage_of percent) a)), mkUser [] y (rev (map (percentage_of percent) b))).
Proof.
  intros percent a b sched T. destruct (in_turn_run percent a b sched T 0%Q 0%Q [] []) as (x & y & E). exists x, y. rewrite !app_nil_r in E. exact E.
Qed.
Example C81_turns : in_turn [true; false] [true] [true; true; true; true; false; false; false; false; true].
Proof. apply (turn_first true), (turn_second true), (turn_first false), turn_end. Qed.
(* ... but when they interleave, a data module may be drawn with the full radius, and two finder modules may leave the shape changed for
   good: afterwards every module is drawn with the full radius *)
Theorem C81_shared_shape_refuted :
  ~ (forall percent a b sched, (a = finder_ops \/ a = data_ops) -> (b = finder_ops \/ b = data_ops) ->
     let '(field, u, v) := users_run percent a b sched in
     u_todo u = [] -> u_todo v = [] -> field = percent /\ (b = data_ops -> u_used v = [percent])).
Proof.
  intros A. specialize (A seven_tenths finder_ops finder_ops [true; true; false; true; true; false; false; false] (or_introl eq_refl) (or_introl eq_refl)).
  vm_compute in A. destruct (A eq_refl eq_refl) as [E _]. discriminate E.
Qed.
Theorem C81_shared_data_module : forall percent,
  users_run percent finder_ops data_ops [true; true; false; true; true] = (percent, mkUser [] percent [1%Q], mkUser [] 0 [1%Q]).
Proof. reflexivity. Qed.
Print Assumptions C81_shared_shape_refuted.
Print Assumptions C81_one_after_the_other.
Print Assumptions C81_shared_data_module.
