(* UTF-8 (RFC 3629), independent of the model: scalar values and their encoding. *)
From Coq Require Import ZArith List Bool.
Import ListNotations.
Open Scope Z_scope.

(* Unicode scalar values: all code points but the surrogates *)
Definition scalar (r : Z) : Prop := 0 <= r < 0xD800 \/ 0xE000 <= r < 0x110000.
(* continuation byte number i of r, 0 the last one *)
Definition cont (r i : Z) : Z := 0x80 + Z.land (Z.shiftr r (6 * i)) 0x3F.
Definition utf8_char (r : Z) : list Z :=
  if r <? 0x80 then [r]
  else if r <? 0x800 then [0xC0 + Z.shiftr r 6; cont r 0]
  else if r <? 0x10000 then [0xE0 + Z.shiftr r 12; cont r 1; cont r 0]
  else [0xF0 + Z.shiftr r 18; cont r 2; cont r 1; cont r 0].
Definition utf8 (rs : list Z) : list Z := flat_map utf8_char rs.
