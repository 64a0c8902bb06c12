(** Specification vocabulary: the same plant in an easier hour or year. *)
From Verif Require Import Base M_Battery S_Battery M_HeatPump M_Tools M_FixedOrder S_FixedOrder.

(** The same plant; only the annual peak of the heat demand, which follows from the demand, may differ *)
Definition same_plant (P P' : plant) : Prop :=
  p_battery P = p_battery P' /\ p_hp_capacity P = p_hp_capacity P' /\ p_min_runtime P = p_min_runtime P' /\
  p_min_output P = p_min_output P' /\ p_aux P = p_aux P' /\ p_tank P = p_tank P' /\ p_export_price P = p_export_price P' /\
  p_setpoint P = p_setpoint P' /\ p_order_above P = p_order_above P' /\ p_order_below P = p_order_below P'.
(** The second hour has at least the generation and at most the demands of the first; prices, temperatures and the performance of the heat pump are the same. *)
Definition easier_hour (I I' : hour_in) : Prop :=
  i_wind I + i_PV I <= i_wind I' + i_PV I' /\ i_elec_demand I' <= i_elec_demand I /\ i_heat_demand I' <= i_heat_demand I /\
  i_source_temp I = i_source_temp I' /\ i_flow_temp I = i_flow_temp I' /\ i_import_price I = i_import_price I' /\ i_perf I = i_perf I'.
(** The same with a heat pump that may need less electricity for its heat: any temperatures, the same greatest output, and no lower coefficient of performance. *)
Definition eased_hour (I I' : hour_in) : Prop :=
  i_wind I + i_PV I <= i_wind I' + i_PV I' /\ i_elec_demand I' <= i_elec_demand I /\ i_heat_demand I' <= i_heat_demand I /\
  i_import_price I = i_import_price I' /\ duty (i_perf I) = duty (i_perf I') /\ cop (i_perf I) <= cop (i_perf I').
(** The battery serves the demand before it is filled from the grid, and drives the heat pump only when the grid has done so before. *)
Definition simple_battery (ps : list process) : Prop :=
  never_after ps ES_to_demand Import_to_ES /\
  forall l1 l2, ps = l1 ++ ES_to_HP_to_demand :: l2 -> In HP_import_to_demand l1.
Definition simple_battery_orders (P : plant) : Prop :=
  forall I ps, processes_of P I ps -> order_ok ps /\ simple_battery ps.
(** No more is bought, in total and for each purpose, and no less is sold. *)
Definition buys_less (rc rc' : record) : Prop :=
  rf rc' GRID_total_import <= rf rc GRID_total_import /\
  rf rc' GRID_import_for_elec_demand <= rf rc GRID_import_for_elec_demand /\
  rf rc' GRID_import_for_heat_pump_total <= rf rc GRID_import_for_heat_pump_total /\
  rf rc' GRID_import_for_ES <= rf rc GRID_import_for_ES /\
  rf rc GRID_total_export <= rf rc' GRID_total_export.
(** The money of the grid *)
Definition costs_less (rc rc' : record) : Prop :=
  rf rc' GRID_import_costs <= rf rc GRID_import_costs /\ rf rc GRID_export_income <= rf rc' GRID_export_income /\
  rf rc GRID_cashflow <= rf rc' GRID_cashflow.
(** Heat of the back-up that does not come from renewable electricity *)
Definition bought_back_up (rc : record) : Q := rf rc AUX_demand - rf rc AUX_RES_to_demand - rf rc AUX_RES_to_TS.
