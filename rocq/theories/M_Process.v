(** Model of /repo/pylesa/mp/process.py (class OutputProcess) and of the two-process run of
    main.py as transition systems.  Worker and main process interleave freely; every step
    is labelled with an event.

    Simplifications: the queue is a reliable first-in first-out channel; a job either
    finishes or raises an Exception (exit code 1), the choice being a function of the job;
    logging is left out; a submitted job is a list and so never equals the sentinel. *)
From Verif Require Import Base.

Section Process.
Variable J : Type.                       (* arguments of one job *)
Variable fails : J -> bool.              (* func( *job ) raises *)

(** Entries of the job queue, mp/process.py:33-36 and 56-62 *)
Inductive msg := Job (j : J) | Sentinel.
(** process.py:31-39: waiting in get(), running func, or ended with an exit code *)
Inductive worker := Waiting | Busy (j : J) | Exited (code : Z).
(** Where the caller is inside stop, mp/process.py:59-82 *)
Inductive phase := Ready | Joining (block : bool) | Closing.
(** mp/process.py:19-23: [current] is self._process; [others] are workers dropped by a second start(), which
    keep reading the same queue. *)
Record config := { queue : list msg; current : option worker; others : list worker; caller : phase }.

(** The observable steps of mp/process.py:26-86 *)
Inductive event :=
| EStart | ESubmit (j : J)
| EStop (block : bool) | ECancel (block : bool)   (* sentinel put on the queue *)
| EStopIdle                                         (* stop or cancel without a process *)
| ETimeout                                          (* join over and exitcode read while alive *)
| EStopped (r : res unit)                           (* stop or cancel returns or raises *)
| ERun (j : J) | EDone (j : J) | EFail (j : J) | EEnd.

(** mp/process.py:19-23 *)
Definition fresh : config := {| queue := []; current := None; others := []; caller := Ready |}.
(** mp/process.py:88-95 *)
Definition alive (w : worker) : bool := match w with Exited _ => false | _ => true end.

(** process.py:31-39 *)
Inductive work : worker -> list msg -> event -> worker -> list msg -> Prop :=
| work_get j q : work Waiting (Job j :: q) (ERun j) (Busy j) q
| work_sentinel q : work Waiting (Sentinel :: q) EEnd (Exited 0) q
| work_done j q : fails j = false -> work (Busy j) q (EDone j) Waiting q
| work_fail j q : fails j = true -> work (Busy j) q (EFail j) (Exited 1) q.

(** mp/process.py:26-39: Steps that do not need the caller. *)
Inductive background : config -> event -> config -> Prop :=
| bg_current q w o p e w' q' : work w q e w' q' ->
    background {| queue := q; current := Some w; others := o; caller := p |} e
               {| queue := q'; current := Some w'; others := o; caller := p |}
| bg_other q c o1 w o2 p e w' q' : work w q e w' q' ->
    background {| queue := q; current := c; others := (o1 ++ w :: o2)%list; caller := p |} e
               {| queue := q'; current := c; others := (o1 ++ w' :: o2)%list; caller := p |}.

(** Inside stop(), process.py:59-82.  close() of a running process raises ValueError, which
    replaces the SystemError and leaves self._process in place. *)
Inductive finishing : config -> event -> config -> Prop :=
| fin_none q o b :
    finishing {| queue := q; current := None; others := o; caller := Joining b |} (EStopped (Ok tt))
              {| queue := q; current := None; others := o; caller := Ready |}
| fin_exited q o b code :
    finishing {| queue := q; current := Some (Exited code); others := o; caller := Joining b |}
              (EStopped (if (code =? 0)%Z then Ok tt else Err SystemError))
              {| queue := q; current := None; others := o; caller := Ready |}
(* block=False sets timeout=None: only block=True can time out *)
| fin_timeout q o w : alive w = true ->
    finishing {| queue := q; current := Some w; others := o; caller := Joining true |} ETimeout
              {| queue := q; current := Some w; others := o; caller := Closing |}
| fin_close_alive q o w : alive w = true ->
    finishing {| queue := q; current := Some w; others := o; caller := Closing |} (EStopped (Err ValueError))
              {| queue := q; current := Some w; others := o; caller := Ready |}
| fin_close_exited q o code :
    finishing {| queue := q; current := Some (Exited code); others := o; caller := Closing |} (EStopped (Err SystemError))
              {| queue := q; current := None; others := o; caller := Ready |}.

(** mp/process.py:41-86: Calls of the caller. *)
Inductive call : config -> event -> config -> Prop :=
(* process.py:41-54; Queue.empty() only asks whether the queue is empty *)
| call_start q o :
    call {| queue := q; current := None; others := o; caller := Ready |} EStart
         {| queue := q; current := Some Waiting; others := o; caller := Ready |}
| call_start_again q w o :
    call {| queue := q; current := Some w; others := o; caller := Ready |} EStart
         {| queue := q; current := Some Waiting; others := w :: o; caller := Ready |}
(* process.py:56-57 *)
| call_submit q c o j :
    call {| queue := q; current := c; others := o; caller := Ready |} (ESubmit j)
         {| queue := (q ++ [Job j])%list; current := c; others := o; caller := Ready |}
(* process.py:59-64 and 84-86: cancel is empty(), which does nothing, then stop *)
| call_stop q w o b e : e = EStop b \/ e = ECancel b ->
    call {| queue := q; current := Some w; others := o; caller := Ready |} e
         {| queue := (q ++ [Sentinel])%list; current := Some w; others := o; caller := Joining b |}
| call_stop_idle q o b :
    call {| queue := q; current := None; others := o; caller := Ready |} EStopIdle
         {| queue := q; current := None; others := o; caller := Joining b |}.

(** mp/process.py:26-86 *)
Inductive step : config -> event -> config -> Prop :=
| step_background c e c' : background c e c' -> step c e c'
| step_finishing c e c' : finishing c e c' -> step c e c'
| step_call c e c' : call c e c' -> step c e c'.
(** Runs of mp/process.py:26-86 *)
Inductive steps : config -> list event -> config -> Prop :=
| steps_nil c : steps c [] c
| steps_cons c e c' tr c'' : step c e c' -> steps c' tr c'' -> steps c (e :: tr) c''.

(** ** main.py:102-140, multi-core branch, over the combinations [cs]. *)
Variable solve : J -> res unit.          (* run_solver *)
Variable kpis : res unit.                (* outputs.run_KPIs *)
Variable plot_error : J -> exn.          (* what run_plots raises when it fails *)
(** Where main is, main.py:118-140 *)
Inductive program :=
| PStart (cs : list J) | PLoop (cs : list J) | PSubmit (c : J) (cs : list J)
| PCancel (e : exn) | PCancelling (e : exn)
| PFinal (pending : option exn) | PStopping (pending : option exn)
| PKpi | PEnd (outcome : option exn).
(** The observable steps of main.py:118-140 *)
Inductive mevent := Proc (e : event) | Solved (c : J) | SolveFailed (c : J) | Kpis | Tau.
(** main.py:118-140 *)
Inductive mstep : program * config -> mevent -> program * config -> Prop :=
| m_background p c e c' : background c e c' -> mstep (p, c) (Proc e) (p, c')
(* a join timing out inside stop() *)
| m_timeout p c c' : finishing c ETimeout c' -> mstep (p, c) (Proc ETimeout) (p, c')
| m_start cs c c' : call c EStart c' -> mstep (PStart cs, c) (Proc EStart) (PLoop cs, c')
| m_solved x cs c : solve x = Ok tt -> mstep (PLoop (x :: cs), c) (Solved x) (PSubmit x cs, c)
| m_solve_failed x cs c e : solve x = Err e -> mstep (PLoop (x :: cs), c) (SolveFailed x) (PCancel e, c)
| m_submit x cs c c' : call c (ESubmit x) c' -> mstep (PSubmit x cs, c) (Proc (ESubmit x)) (PLoop cs, c')
| m_loop_end c : mstep (PLoop [], c) Tau (PFinal None, c)
(* except Exception: p.cancel(); raise e *)
| m_cancel e ev c c' : ev = ECancel true \/ ev = EStopIdle -> call c ev c' -> mstep (PCancel e, c) (Proc ev) (PCancelling e, c')
| m_cancelled e c c' : finishing c (EStopped (Ok tt)) c' -> mstep (PCancelling e, c) (Proc (EStopped (Ok tt))) (PFinal (Some e), c')
| m_cancel_raised e e' c c' : finishing c (EStopped (Err e')) c' -> mstep (PCancelling e, c) (Proc (EStopped (Err e'))) (PFinal (Some e'), c')
(* finally: p.stop() *)
| m_final pd ev c c' : ev = EStop true \/ ev = EStopIdle -> call c ev c' -> mstep (PFinal pd, c) (Proc ev) (PStopping pd, c')
| m_stopped pd c c' : finishing c (EStopped (Ok tt)) c' ->
    mstep (PStopping pd, c) (Proc (EStopped (Ok tt))) (match pd with None => PKpi | Some e => PEnd (Some e) end, c')
| m_stop_raised pd e c c' : finishing c (EStopped (Err e)) c' ->
    mstep (PStopping pd, c) (Proc (EStopped (Err e))) (PEnd (Some e), c')
| m_kpis c : mstep (PKpi, c) Kpis (PEnd (match kpis with Ok _ => None | Err e => Some e end), c).
(** Runs of main.py:118-140 *)
Inductive msteps : program * config -> list mevent -> program * config -> Prop :=
| msteps_nil s : msteps s [] s
| msteps_cons s e s' tr s'' : mstep s e s' -> msteps s' tr s'' -> msteps s (e :: tr) s''.

(** ** main.py:102-110, single-core branch: events and outcome. *)
Fixpoint single_core (cs : list J) : list mevent * res unit :=
  match cs with
  | [] => ([], Ok tt)
  | c :: cs' =>
      match solve c with
      | Err e => ([SolveFailed c], Err e)
      | Ok _ => if fails c then ([Solved c; Proc (ERun c); Proc (EFail c)], Err (plot_error c))
                else let '(tr, r) := single_core cs' in (Solved c :: Proc (ERun c) :: Proc (EDone c) :: tr, r)
      end
  end.
(** main.py:102-110 and 140 *)
Definition single_core_run (cs : list J) : list mevent * res unit :=
  let '(tr, r) := single_core cs in
  match r with Ok _ => ((tr ++ [Kpis])%list, kpis) | Err e => (tr, Err e) end.
End Process.
