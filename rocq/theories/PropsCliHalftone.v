(* C66 with --halftone: any format, squares or circles. *)
From Coq Require Import Lia.
From Verif Require Import ModelBase ModelMatrix ModelQRCode ModelSave ModelCompressed ModelStandard ModelTerminal ModelWriters ModelCli ModelFs.
From Verif Require Import SpecIso SpecReader SpecSegment SpecAPI SpecMatrix SpecStandard SpecMedium SpecShape SpecCli SpecFs SpecLocate SpecLogo SpecCombine Samples.
From Verif Require Import ProofBase ProofAPI ProofSymbol ProofNew ProofMedium ProofStandard ProofShape ProofCli ProofCompressed ProofHalftone.
From Verif Require Import PropsFs PropsCombine.
From Verif Require PropsCli PropsLossy.
Open Scope Z_scope.

(* Block widths at which the modules can be read under the picture: see C57 (squares), C72 (circles).  The image may be changed by up to
   127 in each channel by coding and decoding; PNG does not change it at all. *)
Theorem C66_halftone :
  forall sjis, shift_jis_contract sjis ->
  forall resolve may_read may_create decode_png decode_jpeg scan encode decode fails others edge scale term_ok flush_ok events f text sched w q t r b l i,
  New sjis (GoString text) sched = Ok q -> ~ misdetected sjis [] (text_bytes (GoString text)) ->
  four_borders (f_borders f) t r b l -> f_terminal f = false -> may_create (f_output f) = true ->
  f_halftone f <> [] -> resolve (f_halftone f) <> resolve (f_output f) -> imgkit_Read resolve may_read decode_png decode_jpeg (w_fs w) (f_halftone f) = Some i ->
  others ShapeCircle = circle_draw edge -> (f_circle f = true -> halftone_circle_width (cli_block f)) -> (f_circle f = false -> halftone_width (cli_block f)) ->
  (dot_png (f_output f) -> lossy 127 PngEncoder encode decode) -> (~ dot_png (f_output f) -> lossy 127 JpegEncoder encode decode) -> (forall k, fails k = None) ->
  exists w' content cv, let n := q_dimension q in let bw := cli_block f in
    cli_action resolve may_read may_create decode_png decode_jpeg sjis scan encode fails others scale term_ok flush_ok events f text sched w = (w', Exited None) /\
    only_changes resolve (f_output f) (w_fs w) (w_fs w') /\ w_fs w' (resolve (f_output f)) = Some content /\
    decode content = Some (n * bw + l + r, n * bw + t + b, cv) /\ reads_back sjis (GoString text) (scan_pixels darker_than_grey ((bw - 1) / 2) l t bw n cv).
Proof.
  intros sjis C resolve mr mc dp dj scan encode decode fails others edge scale tok fok events f text sched w q t r b l i HN NM HB HT MC NH NR HI EC W1 W2 D1 D2 NF.
  pose proof (dimension_bound sjis C _ _ _ _ HN) as DB.
  set (load := imgkit_Read resolve mr dp dj (fs_set (w_fs w) (resolve (f_output f)) [])).
  destruct (cli_opts_facts load f t r b l HB) as (BW & BR & ET & ER & EB & EL & T1 & T2 & T3 & T4 & PC & CB & CQ). set (o := cli_result load f t r b l) in *.
  assert (KE : keeps (within 127) (o_encoder o) encode decode).
  { unfold o, cli_result. cbn [o_encoder]. destruct (eq_bytes _ _) eqn:E; [apply D1, ext_png, eq_bytes_spec, E|].
    apply D2. intros F. apply ext_png, eq_bytes_spec in F. rewrite F in E. discriminate E. }
  assert (EW : img_w o (q_dimension q) = q_dimension q * cli_block f + l + r) by (unfold img_w; rewrite BW, EL, ER; reflexivity).
  assert (EHt : img_h o (q_dimension q) = q_dimension q * cli_block f + t + b) by (unfold img_h; rewrite BW, ET, EB; reflexivity).
  assert (ST : readable_style others o ((qrBlockWidth o - 1) / 2)).
  { destruct (f_circle f) eqn:FC.
    - apply (C72_halftone_circles edge); [unfold getShape, o, cli_result; cbn [o_shape]; rewrite FC; reflexivity|exact EC|rewrite BW; auto].
    - apply C72_halftone_squares; [unfold getShape, o, cli_result; cbn [o_shape]; rewrite FC; reflexivity|rewrite BW; auto]. }
  assert (DC : dark_colors o (img_w o (q_dimension q)) (img_h o (q_dimension q)) [o_qrColor o]) by (left; split; reflexivity).
  destruct (C72_no_logo sjis C (GoString text) [] sched q HN NM (within 127) encode decode fails others scale o (w_fs w (resolve (f_output f))) ((qrBlockWidth o - 1) / 2) looks_dark)
    as (s' & o' & cv & A1 & A2 & A3 & A4); try assumption; try lia.
  - destruct (o_encoder o); rewrite EW, EHt; cbn [encodable]; nia.
  - intros F. contradiction F. reflexivity.
  - intros px py _ _. eapply ink_opaque; eauto.
  - apply (C72_jpeg_tells_apart 127 o _ _ [o_qrColor o]); try assumption; [rewrite EW; nia|rewrite EHt; nia| |].
    + intros c [<-|[]]. rewrite CQ. reflexivity.
    + rewrite CB. vm_compute. discriminate.
  - reflexivity.
  - destruct (cli_file_run resolve mr mc dp dj sjis scan encode fails others scale tok fok events f text sched w q t r b l HB HT MC HN _ _ _ _ A1) as (w' & R & FC & OC & _).
    exists w', (o_content (s_file s')), cv. split; [exact R|]. split; [exact OC|]. split; [exact FC|]. rewrite EW, EHt in A3. split; [exact A3|].
    rewrite BW in A4. unfold o in A4. rewrite (cli_sampled load f t r b l _ cv ((cli_block f - 1) / 2) looks_dark HB) in A4. exact A4.
Qed.
Print Assumptions C66_halftone.
