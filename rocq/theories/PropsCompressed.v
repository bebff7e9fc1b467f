(* Theorems about the compressed writer: properties C34, C35. *)
From Coq Require Import Lia.
From Verif Require Import ModelBase ModelMatrix ModelCompressed.
From Verif Require Import SpecReader SpecMatrix SpecImage ProofViews ProofCompressed.

(* palette index 1 is the foreground, 0 the background; every pixel of the image is covered by one of the last two clauses *)
Theorem C34_pixel_exact :
  forall n m padding block, square n m -> 0 <= padding -> 1 <= block ->
  exists i, compressed_draw padding block m = Some i /\
    p_min i = 0 /\ p_size i = n * block + 2 * padding /\ zlen (p_pix i) = p_size i * p_size i /\
    (forall x y dx dy, 0 <= x < n -> 0 <= y < n -> 0 <= dx < block -> 0 <= dy < block ->
       pix i (padding + x * block + dx) (padding + y * block + dy) = Some (if module_at (m_bitmap m) x y then 1 else 0)) /\
    (forall px py, 0 <= px < p_size i -> 0 <= py < p_size i ->
       ~ (padding <= px < padding + n * block /\ padding <= py < padding + n * block) -> pix i px py = Some 0).
Proof. exact compressed_pixels. Qed.

(* outside those hypotheses: a negative padding that leaves a non-negative width panics *)
Theorem C34_negative_padding_panics :
  forall n m padding block, square n m -> 1 <= n -> padding < 0 -> 1 <= block -> 0 <= n * block + 2 * padding ->
  module_at (m_bitmap m) 0 0 = true -> compressed_draw padding block m = None.
Proof. exact compressed_negative. Qed.

Example C34_example :
  let m := m_set (newMatrix 2 2) 1 0 QRValue_DATA_V1 in
  square 2 m /\ compressed_draw 1 2 m = Some (mkImg 0 6 [0;0;0;0;0;0; 0;0;0;1;1;0; 0;0;0;1;1;0; 0;0;0;0;0;0; 0;0;0;0;0;0; 0;0;0;0;0;0]).
Proof. cbv zeta. split; [apply square_set, square_new; lia|]. vm_compute. reflexivity. Qed.

Example C34_negative_example :
  let m := m_set (newMatrix 2 2) 0 0 QRValue_DATA_V1 in
  square 2 m /\ module_at (m_bitmap m) 0 0 = true /\ compressed_draw (-1) 2 m = None.
Proof. cbv zeta. split; [apply square_set, square_new; lia|]. vm_compute. auto. Qed.

(* C35: old = what was at that path before New (None: nothing); pieces = the encoder's Write calls.
   What ends up in the file is the image followed by what the old file had beyond it ... *)
Theorem C35_file_content_partial :
  forall old pieces,
  let before := match old with Some c => c | None => [] end in
  let data := concat pieces in
  o_content (os_write_all (compressed_open old) pieces) = data ++ skipn (length data) before.
Proof. intros old pieces. cbv zeta. rewrite os_write_all_content; [reflexivity|]. cbn. apply Nat.le_0_l. Qed.

(* ... so it is exactly the image iff the old file was not longer *)
Theorem C35_exact_iff :
  forall old pieces,
  o_content (os_write_all (compressed_open old) pieces) = concat pieces <->
  (match old with Some c => length c | None => 0 end <= length (concat pieces))%nat.
Proof.
  intros old pieces. rewrite C35_file_content_partial. set (b := match old with Some c => c | None => [] end).
  replace (match old with Some c => length c | None => 0%nat end) with (length b) by (unfold b; destruct old; reflexivity).
  split.
  - intros E. rewrite <- (app_nil_r (concat pieces)) in E at 3. apply app_inv_head in E.
    pose proof (skipn_length (length (concat pieces)) b) as EL. rewrite E in EL. cbn in EL. lia.
  - intros HL. rewrite skipn_all2 by auto. apply app_nil_r.
Qed.

(* the property as stated fails: a longer file keeps its tail *)
Theorem C35_stale_tail_refuted :
  ~ (forall old pieces, o_content (os_write_all (compressed_open old) pieces) = concat pieces).
Proof. intros HA. pose proof (HA (Some [1; 2; 3]) [[9]]) as E. vm_compute in E. discriminate E. Qed.

(* the standard writer's New truncates *)
Theorem C35_standard_truncates :
  forall old pieces, o_content (os_write_all (standard_open old) pieces) = concat pieces.
Proof. intros old pieces. rewrite os_write_all_content; cbn; [rewrite skipn_nil; apply app_nil_r|apply Nat.le_0_l]. Qed.

Print Assumptions C34_pixel_exact.
Print Assumptions C34_negative_padding_panics.
Print Assumptions C35_file_content_partial.
Print Assumptions C35_exact_iff.
Print Assumptions C35_stale_tail_refuted.
Print Assumptions C35_standard_truncates.
