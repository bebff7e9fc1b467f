(* Independent specification of a QR code reader (ISO/IEC 18004), on a bitmap bm, bm[y][x] = true for a
   dark module.  It knows nothing of the model. *)
From Verif Require Export SpecIso.

Definition bitmap := list (list bool).
Definition module_at (bm : bitmap) (x y : Z) : bool := nth (Z.to_nat x) (nth (Z.to_nat y) bm []) false.

Definition bits_value (bs : list bool) : Z := fold_left (fun a (b : bool) => 2 * a + (if b then 1 else 0)) bs 0.

(* ---- version from the size *)
Definition read_version (bm : bitmap) : option Z :=
  let n := Z.of_nat (length bm) in
  let v := (n - 17) / 4 in
  if (side v =? n) && (1 <=? v) && (v <=? 40) && forallb (fun row => Z.of_nat (length row) =? n) bm
  then Some v else None.

(* ---- format information: the (level, mask) whose code word is found around the top-left finder *)
Definition all_formats : list (level * Z) := list_prod [L; M; Q; H] (upto 8).
Definition read_format (bm : bitmap) : option (level * Z) :=
  let w := bits_value (map (fun '(x, y) => module_at bm x y) format_positions_1) in
  find (fun '(l, k) => format_word l k =? w) all_formats.

(* ---- unmasked data modules in zig-zag order *)
Definition read_stream (bm : bitmap) (v mask : Z) : list bool :=
  map (fun '(x, y) => xorb (module_at bm x y) (mask_condition mask y x)) (data_path v).

(* ---- the first n bytes of a bit stream *)
Fixpoint read_bytes (n : nat) (bs : list bool) : list Z :=
  match n with
  | O => []
  | S k => bits_value (firstn 8 bs) :: read_bytes k (skipn 8 bs)
  end.

(* ---- de-interleaving *)
Definition pick_block (b : Z) (order : list (Z * Z)) (words : list Z) : list Z :=
  map snd (filter (fun p => fst (fst p) =? b) (combine order words)).

Definition read_blocks (v : Z) (l : level) (words : list Z) : list (list Z * list Z) :=
  let dlens := block_data_lengths v l in
  let elens := map (fun _ => ecc_per_block v l) dlens in
  let nd := Z.to_nat (fold_right Z.add 0 dlens) in
  map (fun b => (pick_block b (interleave_order dlens) (firstn nd words),
                 pick_block b (interleave_order elens) (skipn nd words)))
      (upto (num_blocks v l)).

(* ---- segment parsing *)
Inductive segment :=
| NumericSeg (text : list Z)       (* bytes of the text *)
| AlphanumericSeg (text : list Z)
| ByteSeg (text : list Z)
| KanjiSeg (codes : list Z).       (* Shift-JIS double-byte codes *)

Definition take (n : Z) (bs : list bool) : option (Z * list bool) :=
  if Z.of_nat (length bs) <? n then None
  else Some (bits_value (firstn (Z.to_nat n) bs), skipn (Z.to_nat n) bs).

Definition to_bits (x n : Z) : list bool := map (fun k => Z.testbit x (n - 1 - k)) (upto n).

(* character count width, Table 3 *)
Definition count_width (indicator v : Z) : option Z :=
  let pick a b c := Some (if v <=? 9 then a else if v <=? 26 then b else c) in
  match indicator with
  | 1 => pick 10 12 14
  | 2 => pick 9 11 13
  | 4 => pick 8 16 16
  | 8 => pick 8 10 12
  | _ => None
  end.

Definition digit_char (d : Z) : Z := 48 + d.

Fixpoint read_numeric (n : nat) (bs : list bool) {struct n} : option (list Z * list bool) :=
  match n with
  | O => Some ([], bs)
  | 1%nat => match take 4 bs with
             | Some (x, rest) => if x <? 10 then Some ([digit_char x], rest) else None
             | None => None
             end
  | 2%nat => match take 7 bs with
             | Some (x, rest) => if x <? 100 then Some ([digit_char (x / 10); digit_char (x mod 10)], rest) else None
             | None => None
             end
  | S (S (S k)) =>
    match take 10 bs with
    | Some (x, rest) =>
      if x <? 1000 then
        match read_numeric k rest with
        | Some (t, rest') =>
          Some (digit_char (x / 100) :: digit_char (x / 10 mod 10) :: digit_char (x mod 10) :: t, rest')
        | None => None
        end
      else None
    | None => None
    end
  end.

(* Table 5: the 45 alphanumeric characters in order of their values *)
Definition alphanumeric_table : list Z :=
  [48;49;50;51;52;53;54;55;56;57;                                  (* 0-9 *)
   65;66;67;68;69;70;71;72;73;74;75;76;77;78;79;80;81;82;83;84;85;86;87;88;89;90;   (* A-Z *)
   32;36;37;42;43;45;46;47;58].                                    (* space $ % * + - . / : *)
Definition alnum_char (x : Z) : option Z := nth_error alphanumeric_table (Z.to_nat x).

Fixpoint read_alphanumeric (n : nat) (bs : list bool) {struct n} : option (list Z * list bool) :=
  match n with
  | O => Some ([], bs)
  | 1%nat => match take 6 bs with
             | Some (x, rest) => match alnum_char x with Some c => Some ([c], rest) | None => None end
             | None => None
             end
  | S (S k) =>
    match take 11 bs with
    | Some (x, rest) =>
      match alnum_char (x / 45), alnum_char (x mod 45), read_alphanumeric k rest with
      | Some c1, Some c2, Some (t, rest') => Some (c1 :: c2 :: t, rest')
      | _, _, _ => None
      end
    | None => None
    end
  end.

Fixpoint read_byte_payload (n : nat) (bs : list bool) : option (list Z * list bool) :=
  match n with
  | O => Some ([], bs)
  | S k =>
    match take 8 bs with
    | Some (x, rest) =>
      match read_byte_payload k rest with
      | Some (t, rest') => Some (x :: t, rest')
      | None => None
      end
    | None => None
    end
  end.

(* 13-bit value to Shift-JIS code *)
Definition kanji_code (x : Z) : Z :=
  let c := x / 0xC0 * 256 + x mod 0xC0 in
  if c + 0x8140 <=? 0x9FFC then c + 0x8140 else c + 0xC140.

Fixpoint read_kanji (n : nat) (bs : list bool) : option (list Z * list bool) :=
  match n with
  | O => Some ([], bs)
  | S k =>
    match take 13 bs with
    | Some (x, rest) =>
      match read_kanji k rest with
      | Some (t, rest') => Some (kanji_code x :: t, rest')
      | None => None
      end
    | None => None
    end
  end.

(* after the segment: the terminator 0000, or fewer than four bits, all zero *)
Definition at_end (bs : list bool) : bool := forallb negb (firstn 4 bs).

Definition read_segment (v : Z) (bs : list bool) : option segment :=
  match take 4 bs with
  | None => None
  | Some (ind, bs) =>
    match count_width ind v with
    | None => None
    | Some w =>
      match take w bs with
      | None => None
      | Some (n, bs) =>
        let n := Z.to_nat n in
        let fin (c : list Z -> segment) (r : option (list Z * list bool)) :=
          match r with
          | Some (t, rest) => if at_end rest then Some (c t) else None
          | None => None
          end in
        match ind with
        | 1 => fin NumericSeg (read_numeric n bs)
        | 2 => fin AlphanumericSeg (read_alphanumeric n bs)
        | 4 => fin ByteSeg (read_byte_payload n bs)
        | _ => fin KanjiSeg (read_kanji n bs)
        end
      end
    end
  end.

(* ---- the reader *)
Definition read_symbol (bm : bitmap) : option segment :=
  match read_version bm with
  | None => None
  | Some v =>
    match read_format bm with
    | None => None
    | Some (l, mask) =>
      let words := read_bytes (Z.to_nat (total_codewords v)) (read_stream bm v mask) in
      let data := flat_map fst (read_blocks v l words) in
      read_segment v (flat_map (fun w => to_bits w 8) data)
    end
  end.
