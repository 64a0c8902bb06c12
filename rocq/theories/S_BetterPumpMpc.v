(** Specification vocabulary: the problem of the predictive controller with a heat pump that needs less electricity. *)
From Verif Require Import Base M_Battery M_HeatPump M_Tools M_FixedOrder M_Mpc S_Mpc S_MpcOptimal.

(** The same hour with at least the coefficient of performance *)
Definition needs_less (p p' : phour) : Prop :=
  q_price p = q_price p' /\ q_RES p = q_RES p' /\ q_elec p = q_elec p' /\ q_heat p = q_heat p' /\ q_cop p <= q_cop p' /\ q_duty p = q_duty p' /\ q_HP_min p = q_HP_min p'.
(** The same problem with such hours *)
Definition pumped_better (b b' : problem) : Prop :=
  b_start b = b_start b' /\ Forall2 needs_less (b_hours b) (b_hours b') /\ b_max_cap b = b_max_cap b' /\ b_battery b = b_battery b' /\
  b_electric b = true /\ b_electric b' = true /\ b_aux_cost b = None /\ b_aux_cost b' = None /\ b_aux_cap b = b_aux_cap b' /\ b_export_cost b = b_export_cost b'.
(** No hour of the plan lets the battery drive the heat pump. *)
Definition battery_apart (vs : list point) : Prop := forall k v, nth_error vs (S k) = Some v -> v_ESd_hp v == 0.
(** Two hours for the predictive controller that differ only in how much electricity the heat pump needs *)
Definition better_pumped_hour (I I' : hour_in) : Prop :=
  i_wind I = i_wind I' /\ i_PV I = i_PV I' /\ i_elec_demand I = i_elec_demand I' /\ i_heat_demand I = i_heat_demand I' /\ i_import_price I = i_import_price I' /\
  i_source_temp I = i_source_temp I' /\ i_flow_temp I = i_flow_temp I' /\ cop (i_perf I) <= cop (i_perf I') /\ duty (i_perf I) = duty (i_perf I').
