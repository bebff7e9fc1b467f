(* Model of debug mode: /repo/debug.go, and the calls of debugDraw in the mask search (/repo/qrcode.go:671-704).
   debugLogf is not modelled: it only writes log lines (and asks debugEnabled, see [masking_debug]). *)
From Verif Require Import ModelBase ModelBinary ModelMatrix ModelVersion ModelEncoder ModelMask ModelEval ModelLayout ModelQRCode.
From Verif Require Import ModelCompressed ModelStandard ModelWriters ModelCli ModelFs.

(* debug.go:14-18: _debug and whether _debugOnce has run *)
Record switch := mkSwitch { sw_debug : bool; sw_once : bool }.
Definition switch0 : switch := mkSwitch false false.
(* debug.go:23-26: "1", "true", "TRUE", "enabled", "ENABLED" *)
Definition env_on (env : list Z) : bool :=
  existsb (eq_bytes env) [[49]; [116; 114; 117; 101]; [84; 82; 85; 69]; [101; 110; 97; 98; 108; 101; 100]; [69; 78; 65; 66; 76; 69; 68]].
(* debug.go:20-30 debugEnabled; env: the value of QRCODE_DEBUG at this moment, empty if it is not set *)
Definition debugEnabled (env : list Z) (sw : switch) : switch * bool :=
  let sw' := if sw_once sw then sw else mkSwitch (if env_on env then true else sw_debug sw) true in (sw', sw_debug sw').
(* debug.go:34-36 *)
Definition SetDebugMode (sw : switch) : switch := mkSwitch true (sw_once sw).

(* debug.go:63-98 debugDrawTo up to jpeg.Encode: an image.Gray16 of 16-bit grey levels (new images are black) *)
Definition grey := (Z * Z * (Z -> Z -> Z))%type.
Definition grey_rectangle (x1 y1 x2 y2 w h c : Z) (p : Z -> Z -> Z) : Z -> Z -> Z :=
  fun x y => if (x1 <=? x) && (x <? x2) && (y1 <=? y) && (y <? y2) && (0 <=? x) && (x <? w) && (0 <=? y) && (y <? h) then c else p x y.
Definition debug_picture (m : Matrix) : grey :=
  let padding := 10 in let blockWidth := 10 in
  let width := mwidth m * blockWidth + 2 * padding in let height := width in
  (width, height,
   m_iter IterDirection_COLUMN m
     (fun p x y v => grey_rectangle (x * blockWidth + padding) (y * blockWidth + padding) ((x + 1) * blockWidth + padding) ((y + 1) * blockWidth + padding)
                       width height (if qrbool v then 0 else 0xffff) p)
     (grey_rectangle 0 0 width height width height 0xff12 (fun _ _ => 0))).

(* the four pictures goroutine i draws, in this order: draft/mats_<i>.jpeg, draft/mask_<i>.jpeg, draft/mats_mask_<i>.jpeg,
   draft/qrcode_mask_<i>.jpeg (qrcode.go:673, 674, 679, 700) *)
Definition draft_prefix (j : nat) : list Z :=
  [100; 114; 97; 102; 116; 47] ++
  match j with 0%nat => [109; 97; 116; 115; 95] | 1%nat => [109; 97; 115; 107; 95] | 2%nat => [109; 97; 116; 115; 95; 109; 97; 115; 107; 95]
  | _ => [113; 114; 99; 111; 100; 101; 95; 109; 97; 115; 107; 95] end.
Definition draft (j i : nat) : path := draft_prefix j ++ [48 + Z.of_nat i] ++ [46; 106; 112; 101; 103].

Section Debug.
Context (resolve : path -> Z) (may_create : path -> bool).
(* image/jpeg.Encode: what it writes; fails: which Write calls on a file fail *)
Context (jpeg : grey -> list (list Z)) (fails : path -> nat -> option nat) (env : list Z).

(* debug.go:45-59 debugDraw with debug mode on; the error is ignored by all callers.  Simplification: one step. *)
Definition draw_file (fs : fsys) (name : path) (m : Matrix) : fsys :=
  if may_create name then
    let '(w, h, p) := debug_picture m in
    if encoder_refuses JpegEncoder w h then fs_set fs (resolve name) []
    else let '(s, _) := sink_write_all (fails name) (standard_new None) (jpeg (w, h, p)) in fs_set fs (resolve name) (o_content (s_file s))
  else fs.
Definition debugDraw (sw : switch) (fs : fsys) (name : path) (m : Matrix) : switch * fsys :=
  let '(sw', on) := debugEnabled env sw in (sw', if on then draw_file fs name m else fs).

(* the mask search with its drawings; d_drawn: how many of its four debugDraw calls a goroutine has made *)
Record dstate := mkD { d_core : gstate; d_drawn : list nat; d_sw : switch; d_fs : fsys }.
(* SwitchOn: some other goroutine of the program calls SetDebugMode *)
Inductive dactor := Actor (a : actor) | SwitchOn.

(* the next statement of goroutine i, if it is a debugDraw: before the xor, after it, and after the send *)
Definition draw_next (masks : list Matrix) (d : dstate) (i : nat) : option (path * Matrix) :=
  match nth_error (gPcs (d_core d)) i, nth_error (d_drawn d) i, nth_error (gMats (d_core d)) i, nth_error masks i with
  | Some GXor, Some 0%nat, Some m, _ => Some (draft 0 i, m)          (* qrcode.go:673 *)
  | Some GXor, Some 1%nat, _, Some k => Some (draft 1 i, k)          (* qrcode.go:674 *)
  | Some GFormat, Some 2%nat, Some m, _ => Some (draft 2 i, m)       (* qrcode.go:679 *)
  | Some GDone, Some 3%nat, Some m, _ => Some (draft 3 i, m)         (* qrcode.go:700 *)
  | _, _, _, _ => None
  end.
Definition dstep (v : version) (masks : list Matrix) (d : dstate) (a : dactor) : dstate :=
  match a with
  | SwitchOn => mkD (d_core d) (d_drawn d) (SetDebugMode (d_sw d)) (d_fs d)
  | Actor Main => mkD (mainstep (d_core d)) (d_drawn d) (d_sw d) (d_fs d)
  | Actor (Goroutine i) =>
    if Nat.ltb i (gSpawned (d_core d)) then
      match draw_next masks d i with
      | Some (name, m) =>
        let '(sw, fs) := debugDraw (d_sw d) (d_fs d) name m in
        mkD (d_core d) (upd_nat (d_drawn d) i (S (nth i (d_drawn d) 0%nat))) sw fs
      | None => mkD (gstep v masks (d_core d) i) (d_drawn d) (d_sw d) (d_fs d)
      end
    else d
  end.

(* qrcode.go:642-717 masking; the log calls before it have asked debugEnabled *)
Definition masking_debug (v : version) (data : binary) (mat : Matrix) (sw : switch) (fs : fsys) (sched : list dactor) : fsys * outcome Matrix :=
  match mask_start v data mat with
  | Ok (masks, s) =>
    let d := fold_left (dstep v masks) sched (mkD s (repeat 0%nat 8) (fst (debugEnabled env sw)) fs) in (d_fs d, mask_end (d_core d))
  | Err e => (fs, Err e)
  | Panic p => (fs, Panic p)
  | Pending => (fs, Pending)
  end.

(* qrcode.go:21-28, 70-88 NewWith; nothing but the mask search draws *)
Definition NewWith_debug (sjis : Z -> option (list Z)) (text : GoText) (opts : list EncodeOption) (sw : switch) (fs : fsys) (sched : list dactor)
    : fsys * outcome QRCode :=
  match (let* raw := toBytes text in init sjis (apply_options opts) raw) with
  | Ok st =>
    let '(fs', r) := masking_debug (iV st) (iData st) (iMat st) sw fs sched in
    (fs', let* mat := r in Ok (mkQR (iV st) (iMode st) (iData st) mat))
  | Err e => (fs, Err e)
  | Panic p => (fs, Panic p)
  | Pending => (fs, Pending)
  end.
End Debug.
