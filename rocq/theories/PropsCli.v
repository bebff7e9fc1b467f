(* C51: the command line.  [load file] is what decoding the halftone file yields (None: unreadable, ignored with a message). *)
From Coq Require Import Lia.
From Verif Require Import ModelBase ModelMatrix ModelStandard ModelCli SpecCli ProofCli.

(* The command line is accepted exactly when --borders is four numerals of at most 255; otherwise the program panics.
   Then: borders and shape, transparency, encoder and halftone as asked for, everything else the default. *)
Theorem C51_options_partial : forall scan load f t r b l, four_borders (f_borders f) t r b l ->
  exists o, cli_options scan load f = Some o /\
    o_borders o = (t, r, b, l) /\
    (1 <= f_block f <= 255 -> qrBlockWidth o = f_block f) /\
    (dot_png (f_output f) -> o_encoder o = PngEncoder) /\ (~ dot_png (f_output f) -> o_encoder o = JpegEncoder) /\
    getShape o = (if f_circle f then ShapeCircle else ShapeRectangle) /\
    o_bgTransparent o = f_transparent f /\
    (f_halftone f = [] -> o_halftone o = None) /\ (f_halftone f <> [] -> o_halftone o = load (f_halftone f)) /\
    o_bgColor o = mkRGBA 255 255 255 255 /\ o_qrColor o = mkRGBA 0 0 0 255 /\ o_logo o = None /\ o_gradient o = None.
Proof.
  intros scan load f t r b l Hb. exists (cli_result load f t r b l). split; [apply cli_options_spec; exact Hb|].
  unfold cli_result. cbn [o_borders o_qrWidth o_encoder o_shape o_bgTransparent o_halftone o_bgColor o_qrColor o_logo o_gradient].
  repeat split.
  - intros Hr. unfold qrBlockWidth. cbn [o_qrWidth]. rewrite Z.mod_small by lia.
    destruct (f_block f <=? 0) eqn:E1; [apply Z.leb_le in E1; lia|]. destruct (255 <? f_block f) eqn:E2; [apply Z.ltb_lt in E2; lia|]. reflexivity.
  - intros Hp. rewrite (proj2 (eq_bytes_spec _ _)); [reflexivity|]. apply ext_png. exact Hp.
  - intros Hp. destruct (eq_bytes _ _) eqn:E; [|reflexivity]. exfalso. apply Hp, ext_png, eq_bytes_spec, E.
  - intros ->. reflexivity.
  - intros Hn. destruct (f_halftone f); [congruence|reflexivity].
Qed.
Print Assumptions C51_options_partial.

Theorem C51_borders_iff : forall f,
  (parseGenerateContextFrom f <> None <-> exists t r b l, four_borders (f_borders f) t r b l) /\
  (forall mode foo, parseGenerateContextFrom f = Some (mode, foo) -> mode = f_terminal f).
Proof.
  intros f. split; [split|].
  - intros Hn. destruct (parseGenerateContextFrom f) as [[mode foo]|] eqn:E; [|congruence].
    destruct (parse_spec _ _ _ E) as (t & r & b & l & Hb & _). eauto 6.
  - intros (t & r & b & l & Hb). rewrite (parse_complete _ _ _ _ _ Hb). congruence.
  - intros mode foo E. destruct (parse_spec _ _ _ E) as (t & r & b & l & _ & Hm & _). exact Hm.
Qed.
Print Assumptions C51_borders_iff.

(* What happens to any --block value: the low byte counts, and 0 means 20 *)
Theorem C51_block_general : forall scan load f o, 0 <= f_block f -> cli_options scan load f = Some o ->
  qrBlockWidth o = (if f_block f mod 256 =? 0 then 20 else f_block f mod 256).
Proof.
  intros scan load f o H0 E. unfold cli_options in E.
  destruct (parseGenerateContextFrom f) as [[mode foo]|] eqn:P; [|congruence].
  destruct (parse_spec _ _ _ P) as (t & r & b & l & Hb & _).
  pose proof (cli_options_spec scan load f t r b l Hb) as K. unfold cli_options in K. rewrite P in K. rewrite E in K. injection K as ->.
  unfold qrBlockWidth, cli_result. cbn [o_qrWidth]. pose proof (Z.mod_pos_bound (f_block f) 256 ltac:(lia)).
  destruct (Z.eqb_spec (f_block f mod 256) 0) as [->|Hn]; [reflexivity|].
  destruct (f_block f mod 256 <=? 0) eqn:E1; [apply Z.leb_le in E1; lia|].
  destruct (255 <? f_block f mod 256) eqn:E2; [apply Z.ltb_lt in E2; lia|]. reflexivity.
Qed.
Print Assumptions C51_block_general.

Definition sample_flags (block : Z) : flags :=   (* -o a.png -s <block> -b 1,2,3,255 --circle *)
  mkFlags false [97; 46; 112; 110; 103] block [49; 44; 50; 44; 51; 44; 50; 53; 53] true false [].

(* --block=256 draws blocks of 20 pixels and --block=261 blocks of 5 *)
Theorem C51_block_size_refuted : ~ (forall scan load f o, 1 <= f_block f -> cli_options scan load f = Some o -> qrBlockWidth o = f_block f).
Proof.
  intros K. specialize (K (fun _ => None) (fun _ => None) (sample_flags 261) _ ltac:(cbn; lia) eq_refl).
  vm_compute in K. congruence.
Qed.
Print Assumptions C51_block_size_refuted.

(* an upper-case extension is written as JPEG *)
Example C51_upper_case : exists o, cli_options (fun _ => None) (fun _ => None)
    (mkFlags false [97; 46; 80; 78; 71] 5 [48; 44; 48; 44; 48; 44; 48] false false []) = Some o /\ o_encoder o = JpegEncoder.
Proof. eexists. split; reflexivity. Qed.

Example C51_nonvacuous : four_borders (f_borders (sample_flags 7)) 1 2 3 255 /\ dot_png (f_output (sample_flags 7)).
Proof.
  split; [|exists [97]; reflexivity].
  exists [49], [50], [51], [50; 53; 53]. repeat split; try reflexivity; try congruence; try lia;
    repeat (constructor; [unfold digit; lia|]); constructor.
Qed.
Example C51_rejects : parseGenerateContextFrom (mkFlags false [] 5 [49; 44; 50; 44; 51; 44; 50; 53; 54] false false []) = None
  /\ parseGenerateContextFrom (mkFlags false [] 5 [49; 44; 50; 44; 51] false false []) = None.
Proof. split; reflexivity. Qed.
