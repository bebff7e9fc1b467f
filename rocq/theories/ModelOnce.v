(* The debug switch used by several goroutines: /repo/debug.go:14-36.  Every call of New asks debugEnabled many times, in several goroutines;
   SetDebugMode assigns the same variable.  sync.Once is taken by its contract: one caller runs the function, the others wait until it has
   returned, and its return happens before theirs (the Go memory model). *)
From Verif Require Import ModelBase ModelDebug.

Inductive dcall := Asks | Sets.                              (* debugEnabled(), SetDebugMode() *)
Inductive dpoint := AtCall | InOnce | LeavingOnce | AfterOnce.
Record goroutine := mkG { g_pc : dpoint; g_left : list dcall; g_saw : list bool }.   (* the calls still to make, the answers so far *)
Inductive once := NotYet | RunBy (g : nat) | Over.
(* what happens, and in which goroutine *)
Inductive dev := ReadsEnv (on : bool) | WritesDebug | ReadsDebug (b : bool) | OnceOver | DoReturns.
Record ostate := mkOst { os_debug : bool; os_once : once; os_gors : list goroutine; os_trace : list (nat * dev) }.

Definition set_g (s : ostate) (g : nat) (x : goroutine) : list goroutine := upd_nat (os_gors s) g x.
(* goroutine g takes a step; env: the value of QRCODE_DEBUG at this moment *)
Definition ostep (s : ostate) (ge : nat * list Z) : ostate :=
  let '(g, env) := ge in
  match nth_error (os_gors s) g with
  | None => s
  | Some (mkG pc left_ saw) =>
    match pc, left_ with
    | AtCall, [] => s
    | AtCall, Sets :: r => mkOst true (os_once s) (set_g s g (mkG AtCall r saw)) (os_trace s ++ [(g, WritesDebug)])                  (* debug.go:35 *)
    | AtCall, Asks :: _ =>                                                                                                          (* :22 *)
      match os_once s with
      | NotYet => mkOst (os_debug s) (RunBy g) (set_g s g (mkG InOnce left_ saw)) (os_trace s)
      | RunBy _ => s
      | Over => mkOst (os_debug s) Over (set_g s g (mkG AfterOnce left_ saw)) (os_trace s ++ [(g, DoReturns)])
      end
    | InOnce, _ =>                                                                                                                  (* :23-26 *)
      mkOst (if env_on env then true else os_debug s) (os_once s) (set_g s g (mkG LeavingOnce left_ saw))
            (os_trace s ++ (g, ReadsEnv (env_on env)) :: (if env_on env then [(g, WritesDebug)] else []))
    | LeavingOnce, _ => mkOst (os_debug s) Over (set_g s g (mkG AfterOnce left_ saw)) (os_trace s ++ [(g, OnceOver); (g, DoReturns)]) (* :27 *)
    | AfterOnce, _ => mkOst (os_debug s) (os_once s) (set_g s g (mkG AtCall (tl left_) (saw ++ [os_debug s]))) (os_trace s ++ [(g, ReadsDebug (os_debug s))]) (* :29 *)
    end
  end.
(* goroutines that make these calls; debug: whether SetDebugMode was called before they were started *)
Definition ostart (debug : bool) (calls : list (list dcall)) : ostate := mkOst debug NotYet (map (fun c => mkG AtCall c []) calls) [].
Definition orun (s : ostate) (sched : list (nat * list Z)) : ostate := fold_left ostep sched s.
