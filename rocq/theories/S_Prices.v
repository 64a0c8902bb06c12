(** Specification vocabulary: two runs that differ in prices only. *)
From Verif Require Import Base M_Battery M_HeatPump M_Tools M_FixedOrder.

(** The entries of a record that are money or prices *)
Definition money (k : field) : bool :=
  match k with
  | GRID_import_price | GRID_export_price | GRID_import_costs | GRID_export_income | GRID_cashflow | AUX_cost => true
  | _ => false
  end.
(** The same plant but for the export price, the setpoint and the price of the back-up fuel *)
Definition same_machines (P P' : plant) : Prop :=
  p_battery P = p_battery P' /\ p_hp_capacity P = p_hp_capacity P' /\ p_min_runtime P = p_min_runtime P' /\ p_min_output P = p_min_output P' /\
  p_tank P = p_tank P' /\ p_order_above P = p_order_above P' /\ p_order_below P = p_order_below P' /\ p_max_heat P = p_max_heat P' /\
  a_fuel (p_aux P) = a_fuel (p_aux P') /\ a_efficiency (p_aux P) = a_efficiency (p_aux P') /\ a_energy_density (p_aux P) = a_energy_density (p_aux P') /\
  (a_cost (p_aux P) = None <-> a_cost (p_aux P') = None).
(** The same hour but for the price of electricity, which is on the same side of the setpoint *)
Definition same_weather (P P' : plant) (I I' : hour_in) : Prop :=
  i_wind I = i_wind I' /\ i_PV I = i_PV I' /\ i_elec_demand I = i_elec_demand I' /\ i_heat_demand I = i_heat_demand I' /\
  i_source_temp I = i_source_temp I' /\ i_flow_temp I = i_flow_temp I' /\ i_perf I = i_perf I' /\
  (p_setpoint P < i_import_price I <-> p_setpoint P' < i_import_price I').
(** The same energies and temperatures *)
Definition same_energy (rc rc' : record) : Prop := (forall k, money k = false -> rf rc k = rf rc' k) /\ r_nodes rc = r_nodes rc'.
