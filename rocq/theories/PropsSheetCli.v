(* C79 for the command line program: the picture it leaves in the file can be read from the picture alone, however it is handled. *)
From Coq Require Import Lia.
From Verif Require Import ModelBase ModelMatrix ModelQRCode ModelSave ModelCompressed ModelStandard ModelTerminal ModelWriters ModelCli ModelFs.
From Verif Require Import SpecIso SpecReader SpecSegment SpecAPI SpecStandard SpecMedium SpecShape SpecLocate SpecCli SpecFs SpecOrient SpecSheet Samples.
From Verif Require Import ProofBase ProofAPI ProofSymbol ProofNew ProofMedium ProofStandard ProofShape ProofLocate ProofCli ProofCompressed PropsLocate ProofSheet PropsFs.
From Verif Require PropsNew PropsSymbol PropsSaved PropsShape PropsLossy PropsCli.
Open Scope Z_scope.

(* qrcode --output=x.png [--block=..] [--borders=..] [--transparent] text *)
Theorem C79_command_line_png :
  forall sjis, shift_jis_contract sjis ->
  forall resolve may_read may_create decode_png decode_jpeg scan encode decode fails others scale term_ok flush_ok events f text sched w q t r b l,
  New sjis (GoString text) sched = Ok q -> ~ misdetected sjis [] (text_bytes (GoString text)) ->
  four_borders (f_borders f) t r b l -> f_terminal f = false -> f_circle f = false -> no_halftone resolve may_read decode_png decode_jpeg f w ->
  dot_png (f_output f) -> may_create (f_output f) = true -> keeps png_same PngEncoder encode decode -> (forall k, fails k = None) ->
  exists w' content wd ht cv,
    cli_action resolve may_read may_create decode_png decode_jpeg sjis scan encode fails others scale term_ok flush_ok events f text sched w = (w', Exited None) /\
    w_fs w' (resolve (f_output f)) = Some content /\ decode content = Some (wd, ht, cv) /\
    forall s, handled (Sheet wd ht (fun px py => visibly_dark (cv px py))) s -> sheet_shows sjis (GoString text) s.
Proof.
  intros sjis C resolve mr mc dp dj scan encode decode fails others scale tok fok events f text sched w q t r b l HN NM HB HT HC HH HP MC DEC NF.
  pose proof (dimension_bound sjis C _ _ _ _ HN) as DB.
  set (load := imgkit_Read resolve mr dp dj (fs_set (w_fs w) (resolve (f_output f)) [])).
  destruct (cli_opts_facts load f t r b l HB) as (BW & BR & ET & ER & EB & EL & T1 & T2 & T3 & T4 & PC & CB & CQ). set (o := cli_result load f t r b l) in *.
  assert (EE : o_encoder o = PngEncoder).
  { unfold o, cli_result. cbn [o_encoder]. rewrite (proj2 (eq_bytes_spec _ _)); [reflexivity|]. apply ext_png, HP. }
  assert (EW : img_w o (q_dimension q) = q_dimension q * cli_block f + l + r) by (unfold img_w; rewrite BW, EL, ER; reflexivity).
  assert (EHt : img_h o (q_dimension q) = q_dimension q * cli_block f + t + b) by (unfold img_h; rewrite BW, ET, EB; reflexivity).
  destruct (standard_png sjis C (GoString text) [] sched q HN encode decode fails others scale o (w_fs w (resolve (f_output f)))) as (s' & o' & cv & A1 & A2 & A3); try assumption; try lia.
  - rewrite EE. exact DEC.
  - rewrite EE, EW, EHt. cbn [SpecMedium.encodable]. nia.
  - unfold getShape, o, cli_result. cbn [o_shape]. rewrite HC. reflexivity.
  - reflexivity.
  - unfold o, cli_result. cbn [o_halftone]. destruct HH as [HH|HH]; [rewrite HH; reflexivity|]. destruct (f_halftone f); [reflexivity|exact HH].
  - reflexivity.
  - rewrite CQ. reflexivity.
  - rewrite CB. reflexivity.
  - destruct (cli_file_run resolve mr mc dp dj sjis scan encode fails others scale tok fok events f text sched w q t r b l HB HT MC HN _ _ _ _ A1) as (w' & R & FC & OC & _).
    exists w', (o_content (s_file s')), (img_w o (q_dimension q)), (img_h o (q_dimension q)), cv. split; [exact R|]. split; [exact FC|]. split; [exact A2|].
    intros s HD. eapply handled_reads; [exact C|exact HN|exact NM| |exact HD]. exact A3.
Qed.
(* any other extension: JPEG *)
Theorem C79_command_line_jpeg :
  forall sjis, shift_jis_contract sjis ->
  forall resolve may_read may_create decode_png decode_jpeg scan encode decode fails others scale term_ok flush_ok events f text sched w q t r b l,
  New sjis (GoString text) sched = Ok q -> ~ misdetected sjis [] (text_bytes (GoString text)) ->
  four_borders (f_borders f) t r b l -> f_terminal f = false -> f_circle f = false -> f_transparent f = false -> no_halftone resolve may_read decode_png decode_jpeg f w ->
  ~ dot_png (f_output f) -> may_create (f_output f) = true -> lossy 127 JpegEncoder encode decode -> (forall k, fails k = None) ->
  exists w' content wd ht cv,
    cli_action resolve may_read may_create decode_png decode_jpeg sjis scan encode fails others scale term_ok flush_ok events f text sched w = (w', Exited None) /\
    w_fs w' (resolve (f_output f)) = Some content /\ decode content = Some (wd, ht, cv) /\
    forall s, handled (Sheet wd ht (fun px py => looks_dark (cv px py))) s -> sheet_shows sjis (GoString text) s.
Proof.
  intros sjis C resolve mr mc dp dj scan encode decode fails others scale tok fok events f text sched w q t r b l HN NM HB HT HC HX HH HP MC DEC NF.
  pose proof (dimension_bound sjis C _ _ _ _ HN) as DB.
  set (load := imgkit_Read resolve mr dp dj (fs_set (w_fs w) (resolve (f_output f)) [])).
  destruct (cli_opts_facts load f t r b l HB) as (BW & BR & ET & ER & EB & EL & T1 & T2 & T3 & T4 & PC & CB & CQ). set (o := cli_result load f t r b l) in *.
  assert (EE : o_encoder o = JpegEncoder).
  { unfold o, cli_result. cbn [o_encoder]. destruct (eq_bytes _ _) eqn:E; [|reflexivity]. exfalso. apply HP, ext_png, eq_bytes_spec, E. }
  assert (EW : img_w o (q_dimension q) = q_dimension q * cli_block f + l + r) by (unfold img_w; rewrite BW, EL, ER; reflexivity).
  assert (EHt : img_h o (q_dimension q) = q_dimension q * cli_block f + t + b) by (unfold img_h; rewrite BW, ET, EB; reflexivity).
  destruct (standard_lossy sjis C (GoString text) [] sched q HN 127 encode decode fails others scale o (w_fs w (resolve (f_output f)))) as (s' & o' & cv & A1 & A2 & A3); try assumption; try lia.
  - rewrite EE. exact DEC.
  - rewrite EE, EW, EHt. cbn [SpecMedium.encodable]. nia.
  - unfold getShape, o, cli_result. cbn [o_shape]. rewrite HC. reflexivity.
  - reflexivity.
  - unfold o, cli_result. cbn [o_halftone]. destruct HH as [HH|HH]; [rewrite HH; reflexivity|]. destruct (f_halftone f); [reflexivity|exact HH].
  - reflexivity.
  - rewrite CQ. reflexivity.
  - rewrite CB. cbn. lia.
  - destruct (cli_file_run resolve mr mc dp dj sjis scan encode fails others scale tok fok events f text sched w q t r b l HB HT MC HN _ _ _ _ A1) as (w' & R & FC & OC & _).
    exists w', (o_content (s_file s')), (img_w o (q_dimension q)), (img_h o (q_dimension q)), cv. split; [exact R|]. split; [exact FC|]. split; [exact A2|].
    intros s HD. eapply handled_reads; [exact C|exact HN|exact NM| |exact HD]. exact A3.
Qed.
Print Assumptions C79_command_line_png.
Print Assumptions C79_command_line_jpeg.

(* "a.png", 7 pixels per module, borders 1, 2, 3 and 255: the hypotheses can be met *)
Definition plain_flags (name : list Z) : flags := mkFlags false name 7 [49; 44; 50; 44; 51; 44; 50; 53; 53] false false [].
Example C79_command_line_nonvacuous : forall resolve may_read decode_png decode_jpeg w,
  four_borders (f_borders (plain_flags [97; 46; 112; 110; 103])) 1 2 3 255 /\
  f_terminal (plain_flags []) = false /\ f_circle (plain_flags []) = false /\ f_transparent (plain_flags []) = false /\
  no_halftone resolve may_read decode_png decode_jpeg (plain_flags []) w /\
  dot_png (f_output (plain_flags [97; 46; 112; 110; 103])) /\ ~ dot_png (f_output (plain_flags [97; 46; 106; 112; 103])) /\
  exists q, New sample_sjis hello fair_schedule = Ok q /\ ~ misdetected sample_sjis [] (text_bytes hello).
Proof.
  intros. split; [exact (proj1 PropsCli.C51_nonvacuous)|]. do 3 (split; [reflexivity|]). split; [left; reflexivity|].
  split; [apply ext_png; reflexivity|]. split; [intros F; apply ext_png in F; discriminate F|].
  destruct (PropsNew.hello_ok []) as [q HQ]; [left; reflexivity|reflexivity|left; reflexivity|].
  exists q. split; [exact HQ|]. intros [_ X]. apply (hello_not_mixed X).
Qed.
