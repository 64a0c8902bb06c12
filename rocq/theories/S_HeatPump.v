(** Specification vocabulary for heat pump and back-up heater. *)
From Verif Require Import Base M_HeatPump.

(** An hour in which the heat pump can run. *)
Definition perf_ok (p : perf) : Prop := 0 < cop p /\ 0 <= duty p.

(** A year of data. *)
Definition full_year {A} (l : list A) : Prop := Z.of_nat (length l) = 8760%Z.
