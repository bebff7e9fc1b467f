(* Model of what /repo/cmd/qrcode makes of its arguments: app.go:27-47 newApp, 169-217 prepareFlags and main.go:7-13, with the documented
   behaviour of the packages it uses, which are not in /repo: urfave/cli v2.3.0 (two names of a flag, the help and version flags, the
   command help) on top of Go's flag package (Parse).  What is shown or printed is not modelled.
   Simplified: the numeral of --block is read by a parameter (strconv.ParseUint with base 0). *)
From Coq Require Import Init.Byte.
From Verif Require Import ModelBase ModelMatrix ModelQRCode ModelStandard ModelCli ModelWriters ModelFs ModelTerminal ModelExamples.
Open Scope Z_scope.

Definition minus : Z := 45.
Definition equals_sign : Z := 61.
(* a flag and, for flags with two names, whether this is the short one *)
Inductive flag_id := Terminal | Output | Block | Borders | Circle | Transparent | Halftone | Help | Version.
Definition bool_flag (i : flag_id) : bool := match i with Output | Block | Borders | Halftone => false | _ => true end.

(* app.go:169-217 prepareFlags; cli.HelpFlag and cli.VersionFlag *)
Definition flag_table : list (path * (flag_id * bool)) :=
  [(name "terminal", (Terminal, false)); (name "output", (Output, false)); (name "o", (Output, true)); (name "block", (Block, false)); (name "s", (Block, true));
   (name "borders", (Borders, false)); (name "b", (Borders, true)); (name "circle", (Circle, false)); (name "transparent", (Transparent, false)); (name "halftone", (Halftone, false));
   (name "help", (Help, false)); (name "h", (Help, true)); (name "version", (Version, false)); (name "v", (Version, true))].
Definition lookup (n : path) : option (flag_id * bool) := match find (fun e => eq_bytes (fst e) n) flag_table with Some (_, r) => Some r | None => None end.

(* strconv.ParseBool *)
Definition ParseBool (s : path) : option bool :=
  if existsb (eq_bytes s) (map name ["1"; "t"; "T"; "TRUE"; "true"; "True"]%string) then Some true
  else if existsb (eq_bytes s) (map name ["0"; "f"; "F"; "FALSE"; "false"; "False"]%string) then Some false
  else None.

(* the flags read so far; which names were used *)
Record parsed := mkParsed { p_flags : flags; p_help : bool; p_version : bool; p_used : list (flag_id * bool) }.
Definition default_flags : flags := mkFlags false (name "qrcode.jpg") 5 (name "0,0,0,0") false false [].
Definition start : parsed := mkParsed default_flags false false [].

Definition set_terminal b f := mkFlags b (f_output f) (f_block f) (f_borders f) (f_circle f) (f_transparent f) (f_halftone f).
Definition set_output v f := mkFlags (f_terminal f) v (f_block f) (f_borders f) (f_circle f) (f_transparent f) (f_halftone f).
Definition set_block v f := mkFlags (f_terminal f) (f_output f) v (f_borders f) (f_circle f) (f_transparent f) (f_halftone f).
Definition set_bordersf v f := mkFlags (f_terminal f) (f_output f) (f_block f) v (f_circle f) (f_transparent f) (f_halftone f).
Definition set_circle b f := mkFlags (f_terminal f) (f_output f) (f_block f) (f_borders f) b (f_transparent f) (f_halftone f).
Definition set_transparent b f := mkFlags (f_terminal f) (f_output f) (f_block f) (f_borders f) (f_circle f) b (f_halftone f).
Definition set_halftonef v f := mkFlags (f_terminal f) (f_output f) (f_block f) (f_borders f) (f_circle f) (f_transparent f) v.

Section Args.
Context (parse_uint : path -> option Z).

(* flag.FlagSet.Set; None: the value is refused *)
Definition assign (i : flag_id) (short : bool) (v : path) (p : parsed) : option parsed :=
  let ok f h w := Some (mkParsed f h w (p_used p ++ [(i, short)])) in
  let f := p_flags p in
  match i with
  | Output => ok (set_output v f) (p_help p) (p_version p)
  | Borders => ok (set_bordersf v f) (p_help p) (p_version p)
  | Halftone => ok (set_halftonef v f) (p_help p) (p_version p)
  | Block => match parse_uint v with Some n => ok (set_block n f) (p_help p) (p_version p) | None => None end
  | Terminal => match ParseBool v with Some b => ok (set_terminal b f) (p_help p) (p_version p) | None => None end
  | Circle => match ParseBool v with Some b => ok (set_circle b f) (p_help p) (p_version p) | None => None end
  | Transparent => match ParseBool v with Some b => ok (set_transparent b f) (p_help p) (p_version p) | None => None end
  | Help => match ParseBool v with Some b => ok f b (p_version p) | None => None end
  | Version => match ParseBool v with Some b => ok f (p_help p) b | None => None end
  end.

(* a word that begins with a minus and is not just that: without one or two of them *)
Definition undash (s : path) : option path :=
  match s with a :: b :: r => if a =? minus then Some (if b =? minus then r else b :: r) else None | _ => None end.
(* up to the first equals sign that is not the first character, and after it *)
Fixpoint split_equals (s : path) : path * option path :=
  match s with
  | [] => ([], None)
  | c :: r => if c =? equals_sign then ([], Some r) else let '(n, v) := split_equals r in (c :: n, v)
  end.

(* flag.FlagSet.Parse; None: an error.  The words after the flags are the arguments *)
Fixpoint parse (args : list (list byte)) (p : parsed) : option (parsed * list (list byte)) :=
  match args with
  | [] => Some (p, [])
  | s :: rest =>
    match undash (map byteZ s) with
    | None => Some (p, args)
    | Some [] => Some (p, rest)                                                   (* -- *)
    | Some (c :: word) =>
      if (c =? minus) || (c =? equals_sign) then None else
      let '(n, v) := split_equals (c :: word) in
      match lookup n with
      | None => None                                                              (* flag provided but not defined *)
      | Some (i, short) =>
        match v with
        | Some v => match assign i short v p with Some p => parse rest p | None => None end
        | None =>
          if bool_flag i then match assign i short (name "true") p with Some p => parse rest p | None => None end
          else match rest with
               | [] => None                                                       (* flag needs an argument *)
               | v :: rest => match assign i short (map byteZ v) p with Some p => parse rest p | None => None end
               end
        end
      end
    end
  end.

(* cli's normalizeFlags: both names of one flag.  The names of the flags with two names *)
Definition same_flag (i j : flag_id) : bool :=
  match i, j with Output, Output | Block, Block | Borders, Borders | Help, Help | Version, Version => true | _, _ => false end.
Definition both_forms (used : list (flag_id * bool)) : bool :=
  existsb (fun '(i, s) => negb s && existsb (fun '(j, t) => same_flag i j && t) used) used.

(* what the program does: an error about its usage, its help, its version, or the action *)
Inductive line := UsageError | ShowsHelp | ShowsVersion | Action (f : flags) (text : list byte).
Definition interpret (args : list (list byte)) : line :=
  match parse args start with
  | None => UsageError
  | Some (p, rest) =>
    if both_forms (p_used p) then UsageError else
    if p_help p then ShowsHelp else
    if p_version p then ShowsVersion else
    match rest with
    | [] => Action (p_flags p) []                                                 (* c.Args().First() of no arguments *)
    | t :: _ => if eq_bytes (map byteZ t) (name "help") || eq_bytes (map byteZ t) (name "h") then ShowsHelp else Action (p_flags p) t
    end
  end.
End Args.

(* main.go:7-13; without the action nothing changes *)
Definition program (parse_uint : path -> option Z) (action : flags -> list byte -> world -> world * cli_end) (args : list (list byte)) (w : world) : world * option cli_end :=
  match interpret parse_uint args with
  | Action f text => let '(w', e) := action f text w in (w', Some e)
  | _ => (w, None)
  end.
