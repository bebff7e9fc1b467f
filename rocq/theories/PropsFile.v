(* Theorems about the file writer: property C33. *)
From Coq Require Import Lia.
From Verif Require Import ModelBase ModelMatrix ModelFile.
From Verif Require Import SpecMatrix SpecText ProofViews ProofFile.

(* fails: which of the WriteString calls fail, and after how many bytes.  text: ceil(n/2) lines of n characters, from which
   the bitmap can be read back; it is written completely, or a proper prefix of it is and the error is returned *)
Theorem C33_text_determines_symbol :
  forall n m fails f f' r, square n m -> file_write fails (Some f) m = (f', r) ->
  exists text lines, read_half_blocks text (Z.to_nat n) = Some (m_bitmap m) /\
    read_lines text [] = Some lines /\ zlen lines = (n + 1) / 2 /\ Forall (fun l => zlen l = n) lines /\
    exists content calls, f' = Some (mkFile content calls) /\
      ((r = FileOk /\ content = f_content f ++ text) \/
       (r = FileError /\ exists p s, s <> [] /\ text = p ++ s /\ content = f_content f ++ p)) /\
      (r = FileOk <-> forall k, Z.of_nat k < (n + 1) / 2 * (n + 1) -> fails (f_calls f + k)%nat = None).
Proof. exact file_writer. Qed.

Theorem C33_nil_file : forall fails m, file_write fails None m = (None, FileNil).
Proof. reflexivity. Qed.

(* a 3 x 3 matrix with one dark module: complete, and failing at the sixth call *)
Example C33_example :
  let m := m_set (newMatrix 3 3) 1 2 QRValue_DATA_V1 in
  square 3 m /\
  file_write (fun _ => None) (Some (mkFile [7] 0)) m =
    (Some (mkFile [7; 32; 32; 32; 10; 32; 0xE2; 0x96; 0x80; 32; 10] 8), FileOk) /\
  file_write (fun k => if Nat.eqb k 5 then Some 2%nat else None) (Some (mkFile [] 0)) m =
    (Some (mkFile [32; 32; 32; 10; 32; 0xE2; 0x96] 6), FileError).
Proof. cbv zeta. split; [apply square_set, square_new; lia|]. split; vm_compute; reflexivity. Qed.

Print Assumptions C33_text_determines_symbol.
Print Assumptions C33_nil_file.
