(** Specification vocabulary: the two controllers side by side. *)
From Verif Require Import Base M_Battery S_Battery M_HeatPump S_HeatPump M_Tools M_FixedOrder S_FixedOrder S_HeatPumpSize M_Mpc S_Mpc S_MpcOptimal.

(** A plant without stores: the battery holds and takes nothing, the hot-water store gives and takes nothing. *)
Definition without_stores (P : plant) : Prop :=
  b_capacity (p_battery P) == 0 /\ b_charge_max (p_battery P) == 0 /\ no_store P.
(** An order that serves both demands and sells what is left *)
Definition serves_all (P : plant) (I : hour_in) : Prop :=
  contains P I Import_to_demand /\ contains P I AUX_to_demand /\ contains P I RES_to_export.
(** The heat pump can reach its minimum output, and the fixed-order controller did not have to correct for it. *)
Definition undisturbed (P : plant) (I : hour_in) (t : Z) (n : nodes) (soc : Q) : Prop :=
  quiet P I t n soc /\ minimum_heat P I <= duty (i_perf I).
(** Every record of a predictive run after the made-up first one comes from a best plan. *)
Definition best_run (dyn : list (Q * Q * Q * Q * Q * Q) -> Prop) (X : mpc) (opt : optimiser) (year : list hour_in) (max_cap : list Q) (first : Z) (rs : list record) : Prop :=
  forall i rc, nth_error rs (S i) = Some rc -> exists pv,
    best_record dyn X opt year max_cap (first + Z.of_nat i) first (horizon_end X (first + Z.of_nat i)) pv rc.
(** The money of a run after its first hour *)
Definition earned (rs : list record) : Q := qsum (map (fun rc => rf rc GRID_cashflow) (tl rs)).
