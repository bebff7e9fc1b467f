(* Vocabulary for C91: which modules of a symbol may be hidden. *)
From Verif Require Import ModelBase ModelStandard SpecIso SpecReader SpecStandard SpecMedium SpecShape.

(* the eight modules that hold the i-th code word of a symbol of version v *)
Definition word_modules (v : Z) (i : nat) : list (Z * Z) := firstn 8 (skipn (8 * i) (data_path v)).
(* the block to which the i-th code word belongs: data code words first, then error-correction code words, each interleaved *)
Definition word_block (v : Z) (l : level) (i : nat) : Z :=
  let data := block_data_lengths v l in
  nth i (map fst (interleave_order data ++ interleave_order (map (fun _ => ecc_per_block v l) data))) (-1).
(* the code words of block b of which at least one module is hidden *)
Definition lost_words (v : Z) (l : level) (hid : Z -> Z -> bool) (b : Z) : list nat :=
  filter (fun i => existsb (fun p => hid (fst p) (snd p)) (word_modules v i) && (word_block v l i =? b)) (seq 0 (Z.to_nat (total_codewords v))).
(* error correction makes up for the hidden modules: no block loses more than half as many code words as it has error-correction code
   words, and the first copy of the format word no more than three modules *)
Definition correctable (v : Z) (l : level) (hid : Z -> Z -> bool) : Prop :=
  (forall b, 0 <= b < num_blocks v l -> 2 * Z.of_nat (length (lost_words v l hid b)) <= ecc_per_block v l) /\
  (length (filter (fun p => hid (fst p) (snd p)) format_positions_1) <= 3)%nat.

(* what the writer's logo may change of module (x, y) of n x n modules, sampled at offset (d, d): the sampled pixel is one of the logo's,
   or the safe zone takes the module, or the one on the other side of the diagonal *)
Definition logo_hides (o : options) (n d x y : Z) : Prop :=
  let w := img_w o n in let h := img_h o n in
  (exists i, o_logo o = Some i /\ logo_fits o w h i /\ logo_covers w h i (sample_x o d x) (sample_y o d y)) \/
  in_safe_zone o w h x y \/ in_safe_zone o w h y x.

(* The multipliers m (WithLogoSizeMultiplier: no logo is drawn that is wider or higher than an m-th of the picture) that leave a symbol
   readable, by level and version, with borders of z modules: at Low a tenth, at the other levels a fifth, and some more *)
Definition small_enough (l : level) (v z m : Z) : Prop :=
  match l with
  | L => 10 <= m \/ (7 <= m /\ 3 <= v)
  | M => 6 <= m \/ (5 <= m /\ (z = 0 \/ v <> 2 /\ v <> 4))
  | Q => 5 <= m \/ (4 <= m /\ 3 <= v)
  | H => 5 <= m \/ (4 <= m /\ 3 <= v) \/ (3 <= m /\ 4 <= v /\ v <> 13)
  end.

(* borders that are the same on opposite sides and at most z modules wide *)
Definition even_borders (o : options) (z : Z) : Prop :=
  b_left o = b_right o /\ b_top o = b_bottom o /\ 0 <= b_left o <= z * qrBlockWidth o /\ 0 <= b_top o <= z * qrBlockWidth o.
