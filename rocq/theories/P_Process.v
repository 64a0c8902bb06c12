(** Theorems about the output process (C36, C37, C38, C56) and the order of events in a
    run (C50). *)
From Verif Require Import Base BaseL M_Process S_Process L_Process.
Local Open Scope nat_scope. Local Open Scope list_scope.

Section Examples.
(* Jobs are numbers; job 1 raises. *)
Definition job1_fails (n : nat) : bool := Nat.eqb n 1.
Notation run := (steps nat job1_fails).
Notation "'Start'" := (EStart nat). Notation "'Submit' n" := (ESubmit nat n) (at level 9).
Notation "'Stop'" := (EStop nat true). Notation "'Cancel'" := (ECancel nat true).
Notation "'Run' n" := (ERun nat n) (at level 9). Notation "'Done' n" := (EDone nat n) (at level 9).
Notation "'Fail' n" := (EFail nat n) (at level 9). Notation "'End_'" := (EEnd nat).
Ltac go := repeat (eapply steps_cons; [first
  [ apply step_call; first [apply call_start|apply call_submit|apply call_stop; auto; fail|apply call_stop_idle|apply call_start_again]
  | apply step_background; apply bg_current; first [apply work_get|apply work_sentinel|apply work_done; reflexivity|apply work_fail; reflexivity]
  | apply step_finishing; first [apply (fin_exited nat _ _ _ 0)|apply (fin_exited nat _ _ _ 1)|apply fin_timeout; reflexivity|apply fin_close_alive; reflexivity|apply fin_close_exited|apply fin_none]]|]); apply steps_nil.

Definition two_jobs := [Submit 2; Run 2; Submit 3; Stop; Done 2; Run 3; Done 3; End_].
Example two_jobs_run : run (fresh nat) (Start :: two_jobs ++ [EStopped nat (Ok tt)]) (fresh nat).
Proof. cbn. go. Qed.
Definition crash := [Submit 1; Submit 2; Run 1; Fail 1; Stop].
Definition after_crash : config nat := {| queue := [Job nat 2; Sentinel nat]; current := None; others := []; caller := Ready |}.
Example crash_run : run (fresh nat) (Start :: crash ++ [EStopped nat (Err SystemError)]) after_crash.
Proof. cbn. go. Qed.
Definition next_session := [Submit 3; Run 2; Done 2; End_; Stop].
Example next_session_run : run after_crash (Start :: next_session ++ [EStopped nat (Ok tt)])
  {| queue := [Job nat 3; Sentinel nat]; current := None; others := []; caller := Ready |}.
Proof. cbn. unfold after_crash. go. Qed.
Example cancel_run : run (fresh nat) [Start; Submit 2; Submit 3; Cancel; Run 2; Done 2; Run 3; Done 3; End_; EStopped nat (Ok tt)] (fresh nat).
Proof. go. Qed.
Example slow_run : run (fresh nat) [Start; Submit 2; Submit 3; Run 2; Stop; ETimeout nat; EStopped nat (Err ValueError)]
  {| queue := [Job nat 3; Sentinel nat]; current := Some (Busy nat 2); others := []; caller := Ready |}.
Proof. go. Qed.
Example slow_restart : run {| queue := [Job nat 3; Sentinel nat]; current := Some (Busy nat 2); others := []; caller := Ready |} [Start]
  {| queue := [Job nat 3; Sentinel nat]; current := Some (Waiting nat); others := [Busy nat 2]; caller := Ready |}.
Proof. go. Qed.
Example nonblocking_run : run (fresh nat) (Start :: [Submit 2; EStop nat false; Run 2; Done 2; End_])
  {| queue := []; current := Some (Exited nat 0); others := []; caller := Joining false |}.
Proof. go. Qed.
Lemma two_jobs_within : within_session two_jobs.
Proof. split; [|intro r]; intro X; repeat (destruct X as [X|X]; [discriminate|]); destruct X. Qed.
Lemma crash_within : within_session crash.
Proof. split; [|intro r]; intro X; repeat (destruct X as [X|X]; [discriminate|]); destruct X. Qed.
Lemma next_within : within_session next_session.
Proof. split; [|intro r]; intro X; repeat (destruct X as [X|X]; [discriminate|]); destruct X. Qed.
End Examples.

(** C36: whatever the history, the jobs started so far are the first of the jobs submitted,
    each once and in order. *)
Theorem C36_first_in_first_out (J : Type) (fails : J -> bool) (tr : list (event J)) (c : config J) :
  steps J fails (fresh J) tr c -> prefix_of (started tr) (submitted tr).
Proof. exact (started_prefix J fails tr c). Qed.
Print Assumptions C36_first_in_first_out.
(** C36: when stop (or cancel) returns normally, every job of the session has been executed
    to the end, once, in order; the queue is empty and the process gone ... *)
Theorem C36_normal_stop_means_all_done (J : Type) (fails : J -> bool) (tr : list (event J)) (c : config J) :
  steps J fails (fresh J) (EStart J :: tr ++ [EStopped J (Ok tt)]) c -> within_session tr ->
  started tr = submitted tr /\ completed tr = submitted tr /\ failed tr = [] /\
  queue J c = [] /\ current J c = None.
Proof. intros H W. destruct (session_success J fails tr c H W) as (A & B & C & ->). auto. Qed.
Print Assumptions C36_normal_stop_means_all_done.
(** ... and nothing is executed until the next start. *)
Theorem C36_nothing_after_stop (J : Type) (fails : J -> bool) (tr tr' : list (event J)) (c c' : config J) :
  steps J fails (fresh J) (EStart J :: tr ++ [EStopped J (Ok tt)]) c -> within_session tr ->
  steps J fails c tr' c' -> ~ In (EStart J) tr' -> started tr' = [].
Proof.
  intros H W H2 N. destruct (session_success J fails tr c H W) as (_ & _ & _ & ->).
  apply (idle_steps J fails tr' (fresh J) c' eq_refl eq_refl N H2).
Qed.
Print Assumptions C36_nothing_after_stop.
Example C36_example : started two_jobs = [2; 3]%nat /\ completed two_jobs = [2; 3]%nat /\ submitted two_jobs = [2; 3]%nat.
Proof. repeat split. Qed.

(** C37: after a job has raised, nothing further is executed and stop raises SystemError,
    whatever the interleaving. *)
Theorem C37_failure_reported (J : Type) (fails : J -> bool) (tr : list (event J)) (j : J) (c : config J) :
  steps J fails (fresh J) (EStart J :: tr) c -> within_session tr -> In (EFail J j) tr ->
  started tr = completed tr ++ [j] /\
  (forall r c', step J fails c (EStopped J r) c' -> r = Err SystemError /\ current J c' = None).
Proof.
  intros H W I. destruct (failing_job J fails tr j c H W I) as (A & _ & _ & B). split; [exact A|].
  intros r c' St. destruct (B r c' St) as (X & Y & _). auto.
Qed.
Print Assumptions C37_failure_reported.
(** C37: as long as no join times out, stop returns normally exactly when no submitted job
    raises, and raises SystemError otherwise. *)
Theorem C37_stop_tells_the_truth (J : Type) (fails : J -> bool) (tr : list (event J)) (r : res unit) (c : config J) :
  steps J fails (fresh J) (EStart J :: tr ++ [EStopped J r]) c -> within_session tr -> ~ In (ETimeout J) tr ->
  (r = Ok tt <-> Forall (fun j => fails j = false) (submitted tr)) /\ (r = Ok tt \/ r = Err SystemError).
Proof. exact (stop_result J fails tr r c). Qed.
Print Assumptions C37_stop_tells_the_truth.
(** C37, worker given time: while stop waits, the worker can always take a step or stop can
    return, and the worker takes at most two steps for each queued message and one more. *)
Theorem C37_worker_finishes (J : Type) (fails : J -> bool) (tr : list (event J)) (c : config J) (b : bool) :
  steps J fails (fresh J) (EStart J :: tr) c -> within_session tr -> caller J c = Joining b ->
  ((exists e c', background J fails c e c') \/ (exists r c', step J fails c (EStopped J r) c')) /\
  (forall tr' c', backgrounds J fails c tr' c' -> (length tr' <= 2 * length (queue J c) + 1)%nat).
Proof.
  intros H W P. split; [exact (waiting_progress J fails tr c b H W P)|]. intros tr' c' B.
  apply backgrounds_bound in B. destruct (session_from_fresh J fails tr c H W) as (Ho & w & Hw & _).
  unfold load in B. rewrite Ho, Hw in B. destruct w; cbn [busy fold_right] in B; lia.
Qed.
Print Assumptions C37_worker_finishes.
Example C37_example : In (EFail nat 1%nat) crash /\ started crash = [1]%nat /\ completed crash = [] /\ submitted crash = [1; 2]%nat.
Proof. repeat split. cbn. auto 6. Qed.

(** C38 is false: after a crash the jobs left over and the stop mark stay in the queue; the
    next session runs an old job ... *)
Theorem C38_starts_clean_refuted : exists (fails : nat -> bool) tr c tr2 c2,
  steps nat fails (fresh nat) tr c /\ current nat c = None /\ steps nat fails c (EStart nat :: tr2) c2 /\
  ~ prefix_of (started tr2) (submitted tr2).
Proof.
  eexists job1_fails, _, after_crash, _, _. split; [exact crash_run|]. split; [reflexivity|]. split; [exact next_session_run|].
  intros [l X]. cbn in X. discriminate.
Qed.
Print Assumptions C38_starts_clean_refuted.
(** ... and then ends on the old stop mark: stop returns normally although the only new job
    was never executed. *)
Theorem C38_job_lost_silently : exists (fails : nat -> bool) tr c tr2 c2 j,
  steps nat fails (fresh nat) tr c /\ current nat c = None /\ steps nat fails c (EStart nat :: tr2 ++ [EStopped nat (Ok tt)]) c2 /\
  within_session tr2 /\ In j (submitted tr2) /\ ~ In j (started tr2).
Proof.
  eexists job1_fails, _, after_crash, next_session, _, 3%nat. split; [exact crash_run|]. split; [reflexivity|]. split; [exact next_session_run|].
  split; [exact next_within|]. split; [cbn; auto|]. cbn. intros [X|[]]. discriminate.
Qed.
Print Assumptions C38_job_lost_silently.
(** cancel discards nothing: jobs not yet started are executed before it returns.  It does
    exactly what stop does. *)
Theorem C38_cancel_discards_refuted : exists (fails : nat -> bool) tr c tr2 c2,
  steps nat fails (fresh nat) (EStart nat :: tr ++ [ECancel nat true]) c /\ steps nat fails c tr2 c2 /\ within_session tr2 /\ started tr2 <> [].
Proof.
  pose proof cancel_run as H.
  change ([EStart nat; ESubmit nat 2; ESubmit nat 3; ECancel nat true; ERun nat 2; EDone nat 2; ERun nat 3; EDone nat 3; EEnd nat; EStopped nat (Ok tt)]%nat)
    with ((EStart nat :: [ESubmit nat 2; ESubmit nat 3] ++ [ECancel nat true]) ++ [ERun nat 2; EDone nat 2; ERun nat 3; EDone nat 3; EEnd nat] ++ [EStopped nat (Ok tt)])%nat in H.
  apply steps_split in H as (c1 & H1 & H2). apply steps_split in H2 as (c2 & H2 & _).
  exists job1_fails, [ESubmit nat 2; ESubmit nat 3]%nat, c1, [ERun nat 2; EDone nat 2; ERun nat 3; EDone nat 3; EEnd nat]%nat, c2. repeat split; auto; cbn; try discriminate.
  - intuition discriminate.
  - intros r X. intuition discriminate.
Qed.
Print Assumptions C38_cancel_discards_refuted.
Theorem C38_cancel_is_stop (J : Type) (fails : J -> bool) (c : config J) (tr : list (event J)) (c' : config J) :
  steps J fails c tr c' -> steps J fails c (map (fun e => match e with ECancel _ b => EStop J b | e => e end) tr) c'.
Proof. exact (cancel_is_stop J fails c tr c'). Qed.
Print Assumptions C38_cancel_is_stop.
(** Missing from C38: histories in which a stop raised, a start came while a process was
    held, or a job was submitted without one.  In all others a session starts with an empty
    queue and executes only its own jobs, in order. *)
Theorem C38_starts_clean_partial (J : Type) (fails : J -> bool) (tr tr2 : list (event J)) (c c2 : config J) :
  tidy_steps J fails (fresh J) tr c -> current J c = None -> steps J fails c (EStart J :: tr2) c2 ->
  queue J c = [] /\ prefix_of (started tr2) (submitted tr2).
Proof. exact (restart_clean J fails tr c tr2 c2). Qed.
Print Assumptions C38_starts_clean_partial.
Example C38_example : exists c, tidy_steps nat job1_fails (fresh nat) (EStart nat :: two_jobs ++ [EStopped nat (Ok tt)]) c /\ current nat c = None.
Proof.
  exists (fresh nat). split; [|reflexivity]. cbn.
  repeat (eapply tidy_cons; [first
  [ apply step_call; first [apply call_start|apply call_submit|apply call_stop; auto; fail]
  | apply step_background; apply bg_current; first [apply work_get|apply work_sentinel|apply work_done; reflexivity]
  | apply step_finishing; apply (fin_exited nat _ _ _ 0)]|cbn; first [exact I|reflexivity|discriminate]|]). apply tidy_nil.
Qed.

(** C56 is false: with block set, stop gives up after the time-out with ValueError, the
    worker still running and jobs outstanding; a later start then adds a second worker. *)
Theorem C56_blocking_stop_waits_refuted : exists (fails : nat -> bool) tr c c2,
  steps nat fails (fresh nat) (EStart nat :: tr ++ [EStop nat true; ETimeout nat; EStopped nat (Err ValueError)]) c /\
  started tr <> submitted tr /\ (forall j, fails j = true -> ~ In j (submitted tr)) /\
  current nat c = Some (Busy nat 2%nat) /\
  step nat fails c (EStart nat) c2 /\ others nat c2 = [Busy nat 2%nat] /\ current nat c2 = Some (Waiting nat).
Proof.
  eexists job1_fails, [ESubmit nat 2; ESubmit nat 3; ERun nat 2]%nat, _, _. split; [exact slow_run|]. split; [discriminate|].
  split; [intros j Hj X; cbn in X; destruct X as [<-|[<-|[]]]; discriminate|]. split; [reflexivity|].
  split; [apply (steps_one nat job1_fails), slow_restart|]. split; reflexivity.
Qed.
Print Assumptions C56_blocking_stop_waits_refuted.
(** Without block, stop returns only once the worker has ended, however long that takes. *)
Theorem C56_nonblocking_stop_waits (J : Type) (fails : J -> bool) (tr : list (event J)) (c : config J) (r : res unit) (c' : config J) (e : event J) :
  steps J fails (fresh J) (EStart J :: tr) c -> within_session tr -> e = EStop J false \/ e = ECancel J false -> In e tr ->
  step J fails c (EStopped J r) c' ->
  exists code, current J c = Some (Exited J code) /\ r = (if (code =? 0)%Z then Ok tt else Err SystemError) /\
    (code = 0%Z -> completed tr = submitted tr).
Proof. exact (nonblocking J fails tr c r c' e). Qed.
Print Assumptions C56_nonblocking_stop_waits.
Example C56_example : exists tr c, steps nat job1_fails (fresh nat) (EStart nat :: tr) c /\ In (EStop nat false) tr /\ current nat c = Some (Exited nat 0).
Proof. eexists _, _. split; [exact nonblocking_run|]. split; [cbn; auto|reflexivity]. Qed.

(** C50: at every moment of a two-process run, the combinations whose plots have been
    started are the first of those solved, and those are the first of all combinations. *)
Theorem C50_plots_after_solution (J : Type) (fails : J -> bool) (solve : J -> res unit) (kpis : res unit) (cs : list J) tr s :
  msteps J fails solve kpis (PStart J cs, fresh J) tr s ->
  prefix_of (started (proc_events tr)) (solved tr) /\ prefix_of (solved tr) cs.
Proof. exact (plots_after_solution J fails solve kpis cs tr s). Qed.
Print Assumptions C50_plots_after_solution.
(** C50: KPIs are computed, and a run succeeds, only after every combination has been solved
    and plotted without failure and the output process has ended. *)
Theorem C50_kpis_last (J : Type) (fails : J -> bool) (solve : J -> res unit) (kpis : res unit) (cs : list J) tr p c :
  msteps J fails solve kpis (PStart J cs, fresh J) tr (p, c) -> In (Kpis J) tr \/ p = PKpi J \/ p = PEnd J None ->
  solved tr = cs /\ started (proc_events tr) = cs /\ completed (proc_events tr) = cs /\ failed (proc_events tr) = [] /\ current J c = None.
Proof. intros H K. destruct (kpis_last J fails solve kpis cs tr p c H K) as (A & _ & B & C & D & ->). auto. Qed.
Print Assumptions C50_kpis_last.
(** C50: after a solver error the run raises and no KPIs are computed ... *)
Theorem C50_solver_error_raised (J : Type) (fails : J -> bool) (solve : J -> res unit) (kpis : res unit) (cs : list J) tr x e o c :
  msteps J fails solve kpis (PStart J cs, fresh J) tr (PEnd J o, c) -> In (SolveFailed J x) tr -> solve x = Err e ->
  ~ In (Kpis J) tr /\ exists e', o = Some e' /\ (e' = e \/ e' = SystemError \/ e' = ValueError).
Proof. intros H I E. destruct (solver_error_outcome J fails solve kpis cs tr x e o c H I E) as (A & e' & B & C & _). split; [exact A|]. exists e'. auto. Qed.
Print Assumptions C50_solver_error_raised.
(** ... but the user may see the output process's error instead of the solver's. *)
Theorem C50_solver_error_propagated_refuted : exists (fails : nat -> bool) (solve : nat -> res unit) cs tr x o c,
  msteps nat fails solve (Ok tt) (PStart nat cs, fresh nat) tr (PEnd nat o, c) /\ In (SolveFailed nat x) tr /\
  solve x = Err KeyError /\ o = Some SystemError.
Proof.
  exists job1_fails, (fun n => if Nat.eqb n 4 then Err KeyError else Ok tt), [1; 4]%nat,
    [Proc nat (EStart nat); Solved nat 1; Proc nat (ESubmit nat 1); Proc nat (ERun nat 1); SolveFailed nat 4; Proc nat (EFail nat 1);
     Proc nat (ECancel nat true); Proc nat (EStopped nat (Err SystemError)); Proc nat (EStopIdle nat); Proc nat (EStopped nat (Ok tt))]%nat, 4%nat, (Some SystemError).
  eexists. split; [|split; [cbn; auto 8|split; reflexivity]].
  eapply msteps_cons; [apply m_start, call_start|].
  eapply msteps_cons; [apply m_solved; reflexivity|].
  eapply msteps_cons; [apply m_submit, call_submit|]. cbn [app].
  eapply msteps_cons; [apply m_background, bg_current, work_get|].
  eapply msteps_cons; [apply m_solve_failed; reflexivity|].
  eapply msteps_cons; [apply m_background, bg_current, work_fail; reflexivity|].
  eapply msteps_cons; [apply m_cancel; [left; reflexivity|apply call_stop; right; reflexivity]|].
  eapply msteps_cons; [apply m_cancel_raised; apply (fin_exited nat _ _ _ 1)|].
  eapply msteps_cons; [apply m_final; [right; reflexivity|apply (call_stop_idle nat _ _ true)]|].
  eapply msteps_cons; [exact (m_stopped nat job1_fails _ _ (Some SystemError) _ _ (fin_none nat _ _ _))|]. apply msteps_nil.
Qed.
Print Assumptions C50_solver_error_propagated_refuted.
(** Missing from C50's last clause: runs in which a plot failed or a join timed out. *)
Theorem C50_solver_error_propagated_partial (J : Type) (fails : J -> bool) (solve : J -> res unit) (kpis : res unit) (cs : list J) tr x e o c :
  msteps J fails solve kpis (PStart J cs, fresh J) tr (PEnd J o, c) -> In (SolveFailed J x) tr -> solve x = Err e ->
  failed (proc_events tr) = [] -> ~ In (ETimeout J) (proc_events tr) -> o = Some e.
Proof.
  intros H I E F T. destruct (solver_error_outcome J fails solve kpis cs tr x e o c H I E) as (_ & e' & -> & _ & S1).
  rewrite (S1 (conj F T)). reflexivity.
Qed.
Print Assumptions C50_solver_error_propagated_partial.
(** C50, single core: KPIs are computed exactly when every combination is solved and
    plotted, after all of them ... *)
Theorem C50_single_core_kpis_last (J : Type) (fails : J -> bool) (solve : J -> res unit) (kpis : res unit) (plot_error : J -> exn) (cs : list J) :
  (In (Kpis J) (fst (single_core_run J fails solve kpis plot_error cs)) <-> Forall (fun c => solve c = Ok tt /\ fails c = false) cs) /\
  (Forall (fun c => solve c = Ok tt /\ fails c = false) cs ->
   single_core_run J fails solve kpis plot_error cs =
     (flat_map (fun c => [Solved J c; Proc J (ERun J c); Proc J (EDone J c)]) cs ++ [Kpis J], kpis)).
Proof.
  split; [exact (single_kpis J fails solve kpis plot_error cs)|]. intro G. rewrite (single_all_good J fails solve kpis plot_error cs G). reflexivity.
Qed.
Print Assumptions C50_single_core_kpis_last.
(** ... and the first solver or plotting error ends the run and is what the user sees. *)
Theorem C50_single_core_error_propagated (J : Type) (fails : J -> bool) (solve : J -> res unit) (kpis : res unit) (plot_error : J -> exn) (pre : list J) x post :
  Forall (fun c => solve c = Ok tt /\ fails c = false) pre ->
  (forall e, solve x = Err e -> snd (single_core_run J fails solve kpis plot_error (pre ++ x :: post)) = Err e) /\
  (solve x = Ok tt -> fails x = true -> snd (single_core_run J fails solve kpis plot_error (pre ++ x :: post)) = Err (plot_error x)).
Proof.
  intro G. split.
  - intros e E. rewrite (single_solver_error J fails solve kpis plot_error pre x post e G E). reflexivity.
  - intros E F. rewrite (single_plot_error J fails solve kpis plot_error pre x post G E F). reflexivity.
Qed.
Print Assumptions C50_single_core_error_propagated.
Example C50_example : exists tr c, msteps nat job1_fails (fun _ => Ok tt) (Ok tt) (PStart nat [2]%nat, fresh nat) tr (PEnd nat None, c) /\ In (Kpis nat) tr.
Proof.
  eexists _, _. split.
  - eapply msteps_cons; [apply m_start, call_start|].
    eapply msteps_cons; [apply m_solved; reflexivity|].
    eapply msteps_cons; [apply m_submit, call_submit|]. cbn [app].
    eapply msteps_cons; [apply m_loop_end|].
    eapply msteps_cons; [apply m_final; [left; reflexivity|apply call_stop; left; reflexivity]|]. cbn [app].
    eapply msteps_cons; [apply m_background, bg_current, work_get|].
    eapply msteps_cons; [apply m_background, bg_current, work_done; reflexivity|].
    eapply msteps_cons; [apply m_background, bg_current, work_sentinel|].
    eapply msteps_cons; [exact (m_stopped nat job1_fails _ _ None _ _ (fin_exited nat _ _ _ 0))|].
    eapply msteps_cons; [exact (m_kpis nat job1_fails _ (Ok tt) _)|]. apply msteps_nil.
  - cbn. auto 12.
Qed.
