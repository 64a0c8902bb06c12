(** Specification vocabulary for the output process: what an event list says was submitted,
    started, completed or failed, in order. *)
From Verif Require Import Base M_Process.
Section Projections.
Context {J : Type}.
Fixpoint submitted (tr : list (event J)) : list J :=
  match tr with [] => [] | ESubmit _ j :: tr => j :: submitted tr | _ :: tr => submitted tr end.
Fixpoint started (tr : list (event J)) : list J :=
  match tr with [] => [] | ERun _ j :: tr => j :: started tr | _ :: tr => started tr end.
Fixpoint completed (tr : list (event J)) : list J :=
  match tr with [] => [] | EDone _ j :: tr => j :: completed tr | _ :: tr => completed tr end.
Fixpoint failed (tr : list (event J)) : list J :=
  match tr with [] => [] | EFail _ j :: tr => j :: failed tr | _ :: tr => failed tr end.
(** No start and no return of stop or cancel. *)
Definition within_session (tr : list (event J)) : Prop :=
  ~ In (EStart J) tr /\ forall r, ~ In (EStopped J r) tr.
Definition prefix_of {A} (a b : list A) : Prop := exists l, b = (a ++ l)%list.

Fixpoint proc_events (tr : list (mevent J)) : list (event J) :=
  match tr with [] => [] | Proc _ e :: tr => e :: proc_events tr | _ :: tr => proc_events tr end.
Fixpoint solved (tr : list (mevent J)) : list J :=
  match tr with [] => [] | Solved _ c :: tr => c :: solved tr | _ :: tr => solved tr end.
End Projections.

(** Steps the worker takes on its own. *)
Section Histories.
Variables (J : Type) (fails : J -> bool).
Inductive backgrounds : config J -> list (event J) -> config J -> Prop :=
| backgrounds_nil c : backgrounds c [] c
| backgrounds_cons c e c' tr c'' : background J fails c e c' -> backgrounds c' tr c'' -> backgrounds c (e :: tr) c''.
(** An orderly history: start only without a process, submit only with one, and every stop
    or cancel returned normally. *)
Definition tidy_event (c : config J) (e : event J) : Prop :=
  match e with
  | EStart _ => current J c = None
  | ESubmit _ _ => current J c <> None
  | EStopped _ r => r = Ok tt
  | _ => True
  end.
Inductive tidy_steps : config J -> list (event J) -> config J -> Prop :=
| tidy_nil c : tidy_steps c [] c
| tidy_cons c e c' tr c'' : step J fails c e c' -> tidy_event c e -> tidy_steps c' tr c'' -> tidy_steps c (e :: tr) c''.
(** No plot failed and no join timed out. *)
Definition smooth (tr : list (mevent J)) : Prop := failed (proc_events tr) = [] /\ ~ In (ETimeout J) (proc_events tr).
(** Steps the worker can still take. *)
Definition busy (w : worker J) : nat := match w with Busy _ _ => 1 | _ => 0 end.
Definition load (c : config J) : nat := 2 * length (queue J c) + match current J c with Some w => busy w | None => 0 end + fold_right (fun w n => busy w + n)%nat 0%nat (others J c).
End Histories.
