(* Model of /repo/cmd/wasm/types.go and main.go: the JavaScript function generateQRCode. *)
From Coq Require Import Init.Byte.
From Coq Require Export String.
From Verif Require Import ModelBase ModelQRCode ModelMatrix ModelStandard ModelSave.
Open Scope Z_scope.
Open Scope list_scope.

(* JavaScript values as syscall/js sees them.  Simplifications: a number is represented by its integer part (Value.Int
   truncates); symbols and bigints are left out; reading a property of an object has no side effect. *)
Inductive jsval :=
| JUndefined | JNull | JBool (b : bool) | JNumber (z : Z) | JString (s : list byte)
| JObject (fields : string -> jsval) | JFunction (fields : string -> jsval).

Definition str (s : string) : list byte := list_byte_of_string s.

(* syscall/js Value.Get on an object, Value.Int, Value.Bool, Value.String (which does not panic on other types) *)
Definition js_Int (v : jsval) : option Z := match v with JNumber z => Some z | _ => None end.
Definition js_Bool (v : jsval) : option bool := match v with JBool b => Some b | _ => None end.
(* number_text: how the number is printed in "<number: ...>" *)
Definition js_String (number_text : Z -> list byte) (v : jsval) : list byte :=
  match v with
  | JString s => s
  | JUndefined => str "<undefined>"
  | JNull => str "<null>"
  | JBool true => str "<boolean: true>"
  | JBool false => str "<boolean: false>"
  | JNumber z => str "<number: " ++ number_text z ++ str ">"
  | JObject _ => str "<object>"
  | JFunction _ => str "<function>"
  end.

(* types.go:15-37 genOption *)
Record genOption := mkGenOption {
  g_version : Z; g_mode : Z; g_ecLevel : list byte;
  g_bgColor : list byte; g_bgTransparent : bool; g_qrColor : list byte; g_qrWidth : Z; g_circleShape : bool;
  g_imageEncoder : list byte; g_margin : Z }.
Definition zeroOption : genOption := mkGenOption 0 0 [] [] false [] 0 false [] 0.

(* types.go:39-63 optionFromJSValue.  None: panic; Some None: the nil pointer.  uint8(x) is x mod 256 *)
Definition optionFromJSValue (number_text : Z -> list byte) (v : jsval) : option (option genOption) :=
  match v with
  | JObject get =>
    match js_Int (get "encodeVersion"%string), js_Int (get "encodeMode"%string) with
    | Some version, Some mode =>
      match js_Bool (get "outputBgTransparent"%string) with
      | Some transparent =>
        match js_Int (get "outputQrWidth"%string) with
        | Some width =>
          match js_Bool (get "outputCircleShape"%string), js_Int (get "outputMargin"%string) with
          | Some circle, Some margin =>
            let text k := js_String number_text (get k) in
            Some (Some (mkGenOption version (mode mod 256) (text "encodeECLevel"%string) (text "outputBgColor"%string) transparent
                          (text "outputQrColor"%string) (width mod 256) circle (text "outputImageEncoder"%string) margin))
          | _, _ => None
          end
        | None => None
        end
      | None => None
      end
    | _, _ => None
    end
  | _ => Some None
  end.

Fixpoint eq_str (a b : list byte) : bool :=
  match a, b with [], [] => true | x :: a, y :: b => Byte.eqb x y && eq_str a b | _, _ => false end.

(* types.go:74-108 encodeOptions *)
Definition encodeOptions (o : option genOption) : list EncodeOption :=
  match o with
  | None => []
  | Some o =>
    (if g_version o =? 0 then [] else [WithVersion (g_version o)])
    ++ (if g_mode o =? 8 then [WithEncodingMode 8] else if g_mode o =? 4 then [WithEncodingMode 4]
        else if g_mode o =? 32 then [WithEncodingMode 32] else if g_mode o =? 16 then [WithEncodingMode 16] else [])
    ++ (if eq_str (g_ecLevel o) (str "L") then [WithErrorCorrectionLevel 1]
        else if eq_str (g_ecLevel o) (str "M") then [WithErrorCorrectionLevel 2]
        else if eq_str (g_ecLevel o) (str "Q") then [WithErrorCorrectionLevel 3]
        else if eq_str (g_ecLevel o) (str "H") then [WithErrorCorrectionLevel 4] else [])
  end.

(* types.go:110-147 outputOptions *)
Definition outputOptions (o : option genOption) : list image_option :=
  match o with
  | None => []
  | Some o =>
    (if eq_str (g_bgColor o) [] then [] else [WithBgColorRGBHex (map byteZ (g_bgColor o))])
    ++ (if g_bgTransparent o then [WithBgTransparent] else [])
    ++ (if eq_str (g_qrColor o) [] then [] else [WithFgColorRGBHex (map byteZ (g_qrColor o))])
    ++ (if g_qrWidth o =? 0 then [] else [WithQRWidth (g_qrWidth o)])
    ++ (if g_circleShape o then [WithCircleShape] else [])
    ++ (if eq_str (g_imageEncoder o) (str "jpg") || eq_str (g_imageEncoder o) (str "jpeg") then [WithBuiltinImageEncoder 0]
        else [WithBuiltinImageEncoder 1])
    ++ (if g_margin o =? 0 then [] else [WithBorderWidth [g_margin o]])
  end.

(* encoding/base64 StdEncoding.EncodeToString (RFC 4648, section 4) on bytes *)
Definition b64_digit (n : Z) : Z :=
  if n <? 26 then 65 + n else if n <? 52 then 97 + (n - 26) else if n <? 62 then 48 + (n - 52) else if n =? 62 then 43 else 47.
Fixpoint base64 (l : list Z) : list Z :=
  match l with
  | [] => []
  | [a] => [b64_digit (a / 4); b64_digit (a mod 4 * 16); 61; 61]
  | [a; b] => [b64_digit (a / 4); b64_digit (a mod 4 * 16 + b / 16); b64_digit (b mod 16 * 4); 61]
  | a :: b :: c :: r => b64_digit (a / 4) :: b64_digit (a mod 4 * 16 + b / 16) :: b64_digit (b mod 16 * 4 + c / 64) :: b64_digit (c mod 64) :: base64 r
  end.

(* types.go:149-172 genResult; the error message is represented by its cause *)
Inductive generror := NoArgs | QRError (e : go_error) | SaveFailed.
Record genResult := mkResult { r_success : bool; r_error : option generror; r_image : list Z }.

(* the buffer: writes never fail (the image encoder can refuse the picture) and Close does nothing, main.go:71-72, types.go:174-178.  See ModelWriters.standard_writer *)
Definition buffer_writer (encode : encoder -> Z * Z * canvas -> list (list Z)) (others : shape -> canvas -> call -> canvas)
    (scale : image -> Z -> Z -> Z -> Z) : Writer unit (list Z * options) :=
  mkWriter (fun '(buf, o) m =>
              match draw others scale m o with
              | None => ((buf, o), Panicked)
              | Some (w, h, cv, o') =>
                if encoder_refuses (o_encoder o') w h then ((buf, o'), Returned (Some tt))
                else ((buf ++ concat (encode (o_encoder o') (w, h, cv)), o'), Returned None)
              end)
           (fun s => (s, Returned None)).

(* how a call from JavaScript ends.  Crash: a Go panic (the deferred function does not recover) *)
Inductive js_outcome := Result (r : genResult) | Crash | Running.

(* main.go:36-85 genqrcode *)
Definition genqrcode sjis scan number_text encode others scale (args : list jsval) (sched : list actor) : js_outcome :=
  match args with
  | [] => Result (mkResult false (Some NoArgs) [])
  | content :: rest =>
    match (match rest with [] => Some (Some zeroOption) | opt :: _ => optionFromJSValue number_text opt end) with
    | None => Crash
    | Some opt =>
      match NewWith sjis (GoString (js_String number_text content)) (encodeOptions opt) sched with
      | Err e => Result (mkResult false (Some (QRError e)) [])
      | Panic _ => Crash
      | Pending => Running
      | Ok q =>
        match NewWithWriter scan (outputOptions opt) with
        | None => Crash
        | Some o =>
          match Save (Some (qMat q)) (buffer_writer encode others scale) ([], o) with
          | ((buf, _), _, Returned None) => Result (mkResult true None (base64 buf))
          | (_, _, Returned (Some _)) => Result (mkResult false (Some SaveFailed) [])
          | (_, _, Panicked) => Crash
          end
        end
      end
    end
  end.
