(* What QRValue.Type() says of the modules of a symbol, by their place (coordinates as in SpecIso.v). *)
From Verif Require Import ModelMatrix SpecIso.

(* the modules of alignment patterns have no type of their own: on the timing lines they are timing modules, elsewhere data modules *)
Definition type_of_region (r : region) (x y : Z) : Z :=
  match r with
  | Finder _ => QRType_FINDER
  | Separator => QRType_SPLITTER
  | Timing _ => QRType_TIMING
  | Alignment _ => if (x =? 6) || (y =? 6) then QRType_TIMING else QRType_DATA
  | DarkModule => QRType_DARK
  | FormatArea => QRType_FORMAT
  | VersionArea => QRType_VERSION
  | DataArea => QRType_DATA
  end.

(* in plain words: the three squares of seven by seven modules in the corners *)
Definition in_finder_square (v x y : Z) : Prop :=
  (0 <= x <= 6 /\ 0 <= y <= 6) \/ (side v - 7 <= x < side v /\ 0 <= y <= 6) \/ (0 <= x <= 6 /\ side v - 7 <= y < side v).
