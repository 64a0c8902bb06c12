(** Specification vocabulary: the published indicators of two runs that differ in the size of the battery only. *)
From Coq Require Import String.
From Verif Require Import Base M_Battery S_Battery M_HeatPump M_FixedOrder S_FixedOrder S_Sizing M_Kpi S_Kpi.

(** The value of a run in the column with this heading *)
Definition entry (price : Z -> Q) (K : run) (heading : string) : res num :=
  match find (fun p => String.eqb (fst p) heading) (indicators price K) with Some p => snd p | None => Err KeyError end.
(** No larger; what is not a number stands beside what is not a number *)
Definition num_le (x y : num) : Prop :=
  match x, y with Fin a, Fin b => a <= b | NotFinite, NotFinite => True | _, _ => False end.
(** Runs of a plant and of the same plant with a bigger battery, read with the same folder name, tariff and incentive *)
Definition beside (P P' : plant) (year : list hour_in) (first n : Z) (K K' : run) : Prop :=
  bigger_battery P P' /\ plant_ok P /\ 0 <= b_initial_state (p_battery P) <= 1 /\ Forall (hour_ok P) year /\ battery_last_orders P /\
  run_of P year first n K /\ run_of P' year first n K' /\ k_name K = k_name K' /\ k_grid K = k_grid K' /\ k_rhi K = k_rhi K'.
