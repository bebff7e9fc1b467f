(* Model of /repo/kmp_variant.go, generic in the element type as in the code ([v comparable]). *)
From Verif Require Import ModelBase.

Section Kmp.
  Context {A : Type} (eqb : A -> A -> bool).

  Definition eq_at (l1 : list A) (i : Z) (l2 : list A) (j : Z) : bool :=
    match zget l1 i, zget l2 j with Some a, Some b => eqb a b | _, _ => false end.

  (* kmp_variant.go:48-56: the loop of kmpGetNext; None = out of fuel or index panic *)
  Fixpoint getNext_loop (fuel : nat) (pattern : list A) (fail : list Z) (j k : Z) : option (list Z) :=
    match fuel with
    | O => None
    | S f =>
      if j <? zlen pattern - 1 then
        if (k =? -1) || eq_at pattern j pattern k
        then getNext_loop f pattern (zupd fail (j + 1) (k + 1)) (j + 1) (k + 1)
        else match zget fail k with
             | Some k' => getNext_loop f pattern fail j k'
             | None => None
             end
      else Some fail
    end.

  (* kmp_variant.go:41-59 kmpGetNext; an empty pattern makes fail[0] panic: None.
     Fuel: every step either advances j or shortens k+1 <= j+1, so 2*len+1 iterations suffice. *)
  Definition kmpGetNext (pattern : list A) : option (list Z) :=
    match pattern with
    | [] => None
    | _ => getNext_loop (2 * length pattern + 1) pattern
             (zupd (repeat 0 (length pattern)) 0 (-1)) 0 (-1)
    end.

  (* kmp_variant.go:15-39: inner loop and the goto; one unit of fuel per inner iteration or restart *)
  Fixpoint kmp_loop (fuel : nat) (src pattern : list A) (next : list Z) (i j count : Z) : option Z :=
    match fuel with
    | O => None
    | S f =>
      if (i <? zlen src) && (j <? zlen pattern) then
        if (j =? -1) || eq_at src i pattern j
        then kmp_loop f src pattern next (i + 1) (j + 1) count
        else match zget next j with
             | Some j' => kmp_loop f src pattern next i j' count
             | None => None
             end
      else if j =? zlen pattern then
        let count' := if 0 <=? i - j then count + 1 else count in
        kmp_loop f src pattern next (i - (zlen pattern - 1)) 0 count'
      else Some count
    end.

  (* kmp_variant.go:6-39 kmp.  Fuel: between two matches at most 2*len(src)+1 steps, at most len(src)+1 matches. *)
  Definition kmp (src pattern : list A) (next : list Z) : option Z :=
    kmp_loop ((2 * length src + 3) * (length src + 2)) src pattern next 0 0 0.

  (* kmp_variant.go:6-9: the whole function, including the computation of next when it is nil *)
  Definition kmp_call (src pattern : list A) (next : option (list Z)) : option Z :=
    match next with
    | Some n => kmp src pattern n
    | None => match kmpGetNext pattern with Some n => kmp src pattern n | None => None end
    end.
End Kmp.
