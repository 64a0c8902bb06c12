(** Specification vocabulary: the effect of a bigger battery that also drives the heat pump. *)
From Verif Require Import Base M_Battery S_Battery M_HeatPump M_Tools M_FixedOrder S_FixedOrder.

(** The battery is not filled from the grid, it is discharged before it is charged, and it drives the heat pump only after the heat pump and the back-up have had their share of the surplus. *)
Definition surplus_before_battery (ps : list process) : Prop :=
  ~ In Import_to_ES ps /\
  (forall p, In p [ES_to_demand; ES_to_HP_to_demand; HP_RES_to_demand; EAUX_RES_to_demand] -> never_after ps p RES_to_ES) /\
  (forall p, In p [HP_RES_to_demand; EAUX_RES_to_demand] -> never_after ps p ES_to_HP_to_demand) /\
  (In ES_to_HP_to_demand ps -> In HP_RES_to_demand ps).
Definition surplus_before_battery_orders (P : plant) : Prop :=
  forall I ps, processes_of P I ps -> order_ok ps /\ surplus_before_battery ps.
(** The second record buys no more, in total, for the demand and for the heat pump, sells no more, takes at least as much from the battery for the demand and for the heat pump, and ends with at least as much in it. *)
Definition served (rc rc' : record) : Prop :=
  rf rc' GRID_total_import <= rf rc GRID_total_import /\
  rf rc' GRID_import_for_elec_demand <= rf rc GRID_import_for_elec_demand /\
  rf rc' GRID_import_for_heat_pump_total <= rf rc GRID_import_for_heat_pump_total /\
  rf rc' GRID_total_export <= rf rc GRID_total_export /\
  rf rc ED_ES <= rf rc' ED_ES /\ rf rc ES_discharging_to_HP <= rf rc' ES_discharging_to_HP /\
  rf rc ES_final_soc <= rf rc' ES_final_soc.
