(* Model of /repo/matrix.go:61-75, 147-180 and /repo/qrcode.go:104-116 on a heap: which calls share memory with
   the QRCode and which return fresh memory.  A Writer is any sequence of calls of the exported Matrix methods and of
   assignments to elements of the slices they returned; it decides nothing the sequence does not already record, since
   the calls are deterministic. *)
From Verif Require Import ModelBase ModelMatrix.

(* heap objects: backing arrays of []qrvalue, [][]qrvalue (elements are slices covering a whole array), [][]bool
   (the rows of a Bitmap are never shared, so a table is one object) *)
Inductive object :=
| Values (l : list Z)
| Columns (l : list nat)
| Table (t : list (list bool)).
Definition heap := list object.

(* matrix.go:35-39: the struct; m.mat is a reference *)
Record HMatrix := mkH { h_mat : nat; h_width : Z; h_height : Z }.

(* m.mat[w] *)
Definition h_column (h : heap) (m : HMatrix) (w : Z) : option nat :=
  match nth_error h (h_mat m) with Some (Columns cs) => zget cs w | _ => None end.
Definition h_values (h : heap) (a : nat) : option (list Z) :=
  match nth_error h a with Some (Values l) => Some l | _ => None end.

(* matrix.go:17-48: a matrix with given contents, as newMatrix and set leave it: one array per column, all distinct *)
Definition h_alloc (h : heap) (m : Matrix) : heap * HMatrix :=
  (h ++ map Values (mmat m) ++ [Columns (seq (length h) (length (mmat m)))],
   mkH (length h + length (mmat m)) (mwidth m) (mheight m)).

Fixpoint all_some {A} (l : list (option A)) : option (list A) :=
  match l with
  | [] => Some []
  | Some a :: r => match all_some r with Some r' => Some (a :: r') | None => None end
  | None :: _ => None
  end.

(* the contents of a matrix, as any of its methods sees them *)
Definition h_read (h : heap) (m : HMatrix) : option Matrix :=
  match nth_error h (h_mat m) with
  | Some (Columns cs) =>
    match all_some (map (h_values h) cs) with
    | Some cols => Some (mkMatrix cols (h_width m) (h_height m))
    | None => None
    end
  | _ => None
  end.

(* what a Writer holds: the heap, matrices (the first is the argument of Write), slices of values, tables *)
Record wstate := mkW { w_heap : heap; w_mats : list HMatrix; w_slices : list nat; w_tables : list nat; w_cols : list nat }.
(* w_cols: indices into w_slices of those slices that Col returned for the first matrix (ghost, only used in statements) *)

Inductive wop :=
| CallCopy (i : nat)                       (* mats[i].Copy() *)
| CallRow (i : nat) (cur : Z)              (* mats[i].Row(cur) *)
| CallCol (i : nat) (cur : Z)              (* mats[i].Col(cur) *)
| CallBitmap (i : nat)                     (* mats[i].Bitmap() *)
| CallIterate (i : nat) (dir : iterDirection)  (* mats[i].Iterate(dir, fn); fn's own effects are further operations *)
| AssignValue (s : nat) (k : Z) (v : Z)    (* slices[s][k] = v *)
| AssignBit (t : nat) (y x : Z) (b : bool) (* tables[t][y][x] = b *)
.

Definition upd_obj (h : heap) (a : nat) (o : object) : heap := upd_nat h a o.

(* one operation; a call on a missing handle or an index out of range (Go: compile error or panic) changes nothing *)
Definition wstep (s : wstate) (op : wop) : wstate :=
  let h := w_heap s in
  match op with
  | CallCopy i =>       (* matrix.go:61-75 *)
    match nth_error (w_mats s) i with
    | Some m => match h_read h m with
                | Some c => let '(h', m') := h_alloc h (m_copy c) in mkW h' (w_mats s ++ [m']) (w_slices s) (w_tables s) (w_cols s)
                | None => s
                end
    | None => s
    end
  | CallRow i cur =>    (* matrix.go:147-157: a new array *)
    match nth_error (w_mats s) i with
    | Some m => match h_read h m with
                | Some c => match m_row c cur with
                            | Some l => mkW (h ++ [Values l]) (w_mats s) (w_slices s ++ [length h]) (w_tables s) (w_cols s)
                            | None => s
                            end
                | None => s
                end
    | None => s
    end
  | CallCol i cur =>    (* matrix.go:160-166: m.mat[cur] itself *)
    match nth_error (w_mats s) i with
    | Some m => if (h_width m <=? cur) || (cur <? 0) then s
                else match h_column h m cur with
                     | Some a => mkW h (w_mats s) (w_slices s ++ [a]) (w_tables s)
                                     (if Nat.eqb i 0 then w_cols s ++ [length (w_slices s)] else w_cols s)
                     | None => s
                     end
    | None => s
    end
  | CallBitmap i =>     (* matrix.go:169-180: a new table *)
    match nth_error (w_mats s) i with
    | Some m => match h_read h m with
                | Some c => mkW (h ++ [Table (m_bitmap c)]) (w_mats s) (w_slices s) (w_tables s ++ [length h]) (w_cols s)
                | None => s
                end
    | None => s
    end
  | CallIterate _ _ => s
  | AssignValue n k v =>
    match nth_error (w_slices s) n with
    | Some a => match h_values h a with
                | Some l => if (0 <=? k) && (k <? zlen l) then mkW (upd_obj h a (Values (zupd l k v))) (w_mats s) (w_slices s) (w_tables s) (w_cols s) else s
                | None => s
                end
    | None => s
    end
  | AssignBit n y x b =>
    match nth_error (w_tables s) n with
    | Some a => match nth_error h a with
                | Some (Table t) => match zget t y with
                                    | Some row => mkW (upd_obj h a (Table (zupd t y (zupd row x b)))) (w_mats s) (w_slices s) (w_tables s) (w_cols s)
                                    | None => s
                                    end
                | _ => s
                end
    | None => s
    end
  end.

Definition wrun (s : wstate) (ops : list wop) : wstate := fold_left wstep ops s.

(* qrcode.go:115 w.Write( *q.mat): the struct is copied, the columns are shared.  The state in which the Writer starts,
   in a program whose heap already contains h *)
Definition wstart (h : heap) (m : Matrix) : wstate :=
  let '(h', hm) := h_alloc h m in mkW h' [hm] [] [] [].

(* what a second Save hands over: the struct q.mat is unchanged (the Writer only had a copy), its columns are read again *)
Definition second_save (h : heap) (m : Matrix) (ops : list wop) : option Matrix :=
  h_read (w_heap (wrun (wstart h m) ops)) (snd (h_alloc h m)).
