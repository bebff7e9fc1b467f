(* Known answers: the specifications of ISO/IEC 18004 in SpecIso.v, SpecReader.v, SpecRS.v and SpecSegment.v against the tables and
   worked examples printed in the standard (Annexes C, D, E, G/I, Tables 1, 7, 9 and clause 7.4).  These are tests of the
   specifications, so that a slip in one of them, which every theorem would inherit, does not go unnoticed. *)
From Verif Require Import SpecIso SpecReader SpecRS SpecSegment SpecPenalty.

(* Annex C, Table C.1: the 32 format information words, for the data 00000 ... 11111 *)
Definition level_of_bits (b : Z) : level := match b with 0 => M | 1 => L | 2 => H | _ => Q end.
Example known_format : map (fun d => format_word (level_of_bits (d / 8)) (d mod 8)) (upto 32) =
  [0x5412; 0x5125; 0x5E7C; 0x5B4B; 0x45F9; 0x40CE; 0x4F97; 0x4AA0; 0x77C4; 0x72F3; 0x7DAA; 0x789D; 0x662F; 0x6318; 0x6C41; 0x6976;
   0x1689; 0x13BE; 0x1CE7; 0x19D0; 0x0762; 0x0255; 0x0D0C; 0x083B; 0x355F; 0x3068; 0x3F31; 0x3A06; 0x24B4; 0x2183; 0x2EDA; 0x2BED].
Proof. vm_compute. reflexivity. Qed.

(* Annex D, Table D.1: versions 7 to 40 *)
Example known_version : map (fun k => version_word (k + 7)) (upto 34) =
  [0x07C94; 0x085BC; 0x09A99; 0x0A4D3; 0x0BBF6; 0x0C762; 0x0D847; 0x0E60D; 0x0F928; 0x10B78; 0x1145D; 0x12A17; 0x13532; 0x149A6; 0x15683; 0x168C9; 0x177EC;
   0x18EC4; 0x191E1; 0x1AFAB; 0x1B08E; 0x1CC1A; 0x1D33F; 0x1ED75; 0x1F250; 0x209D5; 0x216F0; 0x228BA; 0x2379F; 0x24B0B; 0x2542E; 0x26A64; 0x27541; 0x28C69].
Proof. vm_compute. reflexivity. Qed.

(* Annex E, Table E.1: centres of the alignment patterns *)
Example known_alignment : map (fun k => align_coords (k + 1)) (upto 40) =
  [[]; [6;18]; [6;22]; [6;26]; [6;30]; [6;34]; [6;22;38]; [6;24;42]; [6;26;46]; [6;28;50]; [6;30;54]; [6;32;58]; [6;34;62];
   [6;26;46;66]; [6;26;48;70]; [6;26;50;74]; [6;30;54;78]; [6;30;56;82]; [6;30;58;86]; [6;34;62;90];
   [6;28;50;72;94]; [6;26;50;74;98]; [6;30;54;78;102]; [6;28;54;80;106]; [6;32;58;84;110]; [6;30;58;86;114]; [6;34;62;90;118];
   [6;26;50;74;98;122]; [6;30;54;78;102;126]; [6;26;52;78;104;130]; [6;30;56;82;108;134]; [6;34;60;86;112;138]; [6;30;58;86;114;142]; [6;34;62;90;118;146];
   [6;30;54;78;102;126;150]; [6;24;50;76;102;128;154]; [6;28;54;80;106;132;158]; [6;32;58;84;110;136;162]; [6;26;54;82;110;138;166]; [6;30;58;86;114;142;170]].
Proof. vm_compute. reflexivity. Qed.

(* Table 1: code words and remainder bits of the 40 versions *)
Example known_codewords : map (fun k => total_codewords (k + 1)) (upto 40) =
  [26;44;70;100;134;172;196;242;292;346;404;466;532;581;655;733;815;901;991;1085;1156;1258;1364;1474;1588;1706;1828;1921;2051;2185;2323;2465;2611;2761;2876;3034;3196;3362;3532;3706].
Proof. vm_compute. reflexivity. Qed.
Example known_remainder : map (fun k => remainder_bits (k + 1)) (upto 40) =
  [0;7;7;7;7;7;0;0;0;0;0;0;0;3;3;3;3;3;3;3;4;4;4;4;4;4;4;3;3;3;3;3;3;3;0;0;0;0;0;0].
Proof. vm_compute. reflexivity. Qed.

(* Table 9: blocks of some versions, as (number of data code words) per block; 5-Q: 2 of 15 and 2 of 16, 18 error-correction code words each *)
Example known_blocks_5Q : block_data_lengths 5 Q = [15; 15; 16; 16] /\ ecc_per_block 5 Q = 18.
Proof. vm_compute. split; reflexivity. Qed.
Example known_blocks_10M : block_data_lengths 10 M = [43; 43; 43; 43; 44] /\ ecc_per_block 10 M = 26.
Proof. vm_compute. split; reflexivity. Qed.
Example known_blocks_40H : block_data_lengths 40 H = repeat 15 20 ++ repeat 16 61 /\ ecc_per_block 40 H = 30.
Proof. vm_compute. split; reflexivity. Qed.
Example known_data_codewords : map (data_codewords 40) [L; M; Q; H] = [2956; 2334; 1666; 1276] /\ map (data_codewords 1) [L; M; Q; H] = [19; 16; 13; 9].
Proof. vm_compute. split; reflexivity. Qed.

(* Table 7: capacities.  The largest number of characters whose segment fits *)
Definition fits (v : Z) (l : level) (md : mode) (n : Z) : bool := 4 + width_of v md + payload_length md n <=? 8 * data_codewords v l.
Definition is_capacity (v : Z) (l : level) (md : mode) (n : Z) : bool := fits v l md n && negb (fits v l md (n + 1)).
Example known_capacity :
  forallb (fun '(v, l, ns) => forallb (fun '(md, n) => is_capacity v l md n) (combine [Numeric; Alphanumeric; Byte; Kanji] ns))
    [(1, L, [41; 25; 17; 10]); (1, M, [34; 20; 14; 8]); (1, Q, [27; 16; 11; 7]); (1, H, [17; 10; 7; 4]);
     (2, L, [77; 47; 32; 20]); (2, M, [63; 38; 26; 16]); (2, Q, [48; 29; 20; 12]); (2, H, [34; 20; 14; 8]);
     (7, L, [370; 224; 154; 95]); (7, M, [293; 178; 122; 75]); (7, Q, [207; 125; 86; 53]); (7, H, [154; 93; 64; 39]);
     (10, L, [652; 395; 271; 167]); (10, M, [513; 311; 213; 131]); (10, Q, [364; 221; 151; 93]); (10, H, [288; 174; 119; 74]);
     (27, L, [3517; 2132; 1465; 902]); (27, M, [2701; 1637; 1125; 692]); (27, Q, [1933; 1172; 805; 496]); (27, H, [1501; 910; 625; 385]);
     (40, L, [7089; 4296; 2953; 1817]); (40, M, [5596; 3391; 2331; 1435]); (40, Q, [3993; 2420; 1663; 1024]); (40, H, [3057; 1852; 1273; 784])] = true.
Proof. vm_compute. reflexivity. Qed.

(* The worked example of the encoding annex: 01234567 in version 1-M.  Its 16 data code words and 10 error-correction code words *)
Definition example_data : list Z := [0x10; 0x20; 0x0C; 0x56; 0x61; 0x80; 0xEC; 0x11; 0xEC; 0x11; 0xEC; 0x11; 0xEC; 0x11; 0xEC; 0x11].
Definition example_ecc : list Z := [0xA5; 0x24; 0xD4; 0xC1; 0xED; 0x36; 0xC7; 0x87; 0x2C; 0x55].
Example known_codeword : is_codeword 10 (example_data ++ example_ecc).
Proof.
  split; [repeat constructor; discriminate|]. intros i Hi. do 10 (destruct i as [|i]; [vm_compute; reflexivity|]). exfalso. do 10 apply le_S_n in Hi. inversion Hi.
Qed.
Example known_segment : read_segment 1 (flat_map (fun w => to_bits w 8) example_data) = Some (NumericSeg [48; 49; 50; 51; 52; 53; 54; 55]).
Proof. vm_compute. reflexivity. Qed.

(* clause 7.4.4: AC-42 in alphanumeric mode *)
Definition bits_of (l : list Z) : list bool := map (fun b => b =? 1) l.
Example known_alphanumeric :
  read_segment 1 (bits_of [0;0;1;0; 0;0;0;0;0;0;1;0;1; 0;0;1;1;1;0;0;1;1;1;0; 1;1;1;0;0;1;1;1;0;0;1; 0;0;0;0;1;0] ++ repeat false 4) = Some (AlphanumericSeg [65; 67; 45; 52; 50]).
Proof. vm_compute. reflexivity. Qed.
(* clause 7.4.6: the two Shift-JIS characters 935F and E4AA *)
Example known_kanji :
  read_segment 1 (bits_of [1;0;0;0; 0;0;0;0;0;0;1;0; 0;1;1;0;1;1;0;0;1;1;1;1;1; 1;1;0;1;0;1;0;1;0;1;0;1;0] ++ repeat false 4) = Some (KanjiSeg [0x935F; 0xE4AA]).
Proof. vm_compute. reflexivity. Qed.

(* the field: alpha^8 = 0x1D, alpha^25 = 3, alpha^255 = 1 *)
Example known_field : map alpha_pow [7; 8; 25; 255]%nat = [128; 0x1D; 3; 1].
Proof. vm_compute. reflexivity. Qed.

(* version 1: the dark module and the first modules of the data path, from the lower right corner upwards; there are 208 in all *)
Example known_path : firstn 6 (data_path 1) = [(20, 20); (19, 20); (20, 19); (19, 19); (20, 18); (19, 18)] /\ length (data_path 1) = 208%nat.
Proof. vm_compute. split; reflexivity. Qed.

(* rule 1: five in a row 3 points, each further module one more *)
Example known_runs : run_penalty (repeat true 5) = 3 /\ run_penalty (repeat true 7 ++ repeat false 4) = 5.
Proof. vm_compute. split; reflexivity. Qed.
