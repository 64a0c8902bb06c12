(** Specification vocabulary: two plants that differ in the size of the battery only. *)
From Verif Require Import Base M_Battery S_Battery M_HeatPump M_Tools M_FixedOrder S_FixedOrder.

(** The same plant with a battery of at least the same capacity *)
Definition bigger_battery (P P' : plant) : Prop :=
  b_capacity (p_battery P) <= b_capacity (p_battery P') /\
  b_initial_state (p_battery P) = b_initial_state (p_battery P') /\ b_charge_max (p_battery P) = b_charge_max (p_battery P') /\
  b_discharge_max (p_battery P) = b_discharge_max (p_battery P') /\ b_charge_eff (p_battery P) = b_charge_eff (p_battery P') /\
  b_discharge_eff (p_battery P) = b_discharge_eff (p_battery P') /\ b_self_discharge (p_battery P) = b_self_discharge (p_battery P') /\
  p_hp_capacity P = p_hp_capacity P' /\ p_min_runtime P = p_min_runtime P' /\ p_min_output P = p_min_output P' /\ p_aux P = p_aux P' /\
  p_tank P = p_tank P' /\ p_export_price P = p_export_price P' /\ p_setpoint P = p_setpoint P' /\
  p_order_above P = p_order_above P' /\ p_order_below P = p_order_below P' /\ p_max_heat P = p_max_heat P'.
(** The entries of a record that a battery may change: its own, the electricity of the demand, export, import and their money *)
Definition battery_entry (k : field) : bool :=
  match k with
  | ED_ES | ED_import | RES_ES | RES_export | ES_charging_total | ES_discharging_total | ES_discharging_to_demand | ES_charging_from_RES | ES_final_soc
  | GRID_total_import | GRID_total_export | GRID_import_for_elec_demand | GRID_import_below_setpoint
  | GRID_import_costs | GRID_export_income | GRID_cashflow => true
  | _ => false
  end.
(** The battery is filled only from renewable electricity left over by the heat side, used only for the electrical demand, and discharged before it is charged. *)
Definition battery_last (ps : list process) : Prop :=
  ~ In ES_to_HP_to_demand ps /\ ~ In Import_to_ES ps /\
  forall p, In p [ES_to_demand; HP_RES_to_demand; EAUX_RES_to_demand; HP_RES_to_TS; EAUX_RES_to_TS] -> never_after ps p RES_to_ES.
Definition battery_last_orders (P : plant) : Prop :=
  forall I ps, processes_of P I ps -> order_ok ps /\ battery_last ps.
(** The second record takes no more from the grid, gives no more to it, delivers at least as much from the battery, and agrees on everything else. *)
Definition eased (rc rc' : record) : Prop :=
  (forall k, battery_entry k = false -> rf rc k = rf rc' k) /\ r_nodes rc = r_nodes rc' /\
  rf rc' GRID_total_import <= rf rc GRID_total_import /\ rf rc' ED_import <= rf rc ED_import /\
  rf rc' GRID_total_export <= rf rc GRID_total_export /\ rf rc' RES_export <= rf rc RES_export /\
  rf rc ED_ES <= rf rc' ED_ES /\ rf rc RES_ES <= rf rc' RES_ES /\
  rf rc ES_final_soc <= rf rc' ES_final_soc.
