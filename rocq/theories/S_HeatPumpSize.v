(** Specification vocabulary: two plants that differ in the size of the heat pump only. *)
From Verif Require Import Base M_Battery S_Battery M_HeatPump M_Tools M_FixedOrder S_FixedOrder.

(** The same plant with a heat pump of at least the same size *)
Definition bigger_heat_pump (P P' : plant) : Prop :=
  p_hp_capacity P <= p_hp_capacity P' /\ p_battery P = p_battery P' /\ p_min_runtime P = p_min_runtime P' /\
  p_min_output P = p_min_output P' /\ p_aux P = p_aux P' /\ p_tank P = p_tank P' /\ p_export_price P = p_export_price P' /\
  p_setpoint P = p_setpoint P' /\ p_order_above P = p_order_above P' /\ p_order_below P = p_order_below P' /\ p_max_heat P = p_max_heat P'.
(** The same hour, in which the bigger one can deliver at least as much heat at the same coefficient of performance, which does not matter if the smaller one delivers nothing *)
Definition bigger_duty (I I' : hour_in) : Prop :=
  i_wind I = i_wind I' /\ i_PV I = i_PV I' /\ i_elec_demand I = i_elec_demand I' /\ i_heat_demand I = i_heat_demand I' /\
  i_source_temp I = i_source_temp I' /\ i_flow_temp I = i_flow_temp I' /\ i_import_price I = i_import_price I' /\
  (duty (i_perf I) == 0 \/ cop (i_perf I) == cop (i_perf I')) /\ duty (i_perf I) <= duty (i_perf I').
(** The hot-water store cannot take or give any heat. *)
Definition no_store (P : plant) : Prop :=
  forall s n src flow t m, t_max (p_tank P) s n src flow t = Ok m -> m == 0.
(** Surplus electricity goes to heat before the heat pump runs on bought electricity and before the battery is filled; the heat pump does not run from the battery. *)
Definition surplus_first (ps : list process) : Prop :=
  ~ In ES_to_HP_to_demand ps /\
  forall p, In p [HP_RES_to_demand; EAUX_RES_to_demand] -> never_after ps p HP_import_to_demand /\ never_after ps p RES_to_ES.
Definition surplus_first_orders (P : plant) : Prop :=
  forall I ps, processes_of P I ps -> order_ok ps /\ surplus_first ps.
(** The heat pump of the second record delivers at least as much, the back-up no more, and it uses no more fuel. *)
Definition relieved (rc rc' : record) : Prop :=
  rf rc HP_heat_total_output <= rf rc' HP_heat_total_output /\
  rf rc' AUX_demand <= rf rc AUX_demand /\ rf rc' AUX_usage <= rf rc AUX_usage.
(** What the heat of an hour takes apart from renewable electricity: electricity bought for the heat pump and heat from the back-up *)
Definition bought_for_heat (rc : record) : Q :=
  rf rc GRID_import_for_heat_pump_total + (rf rc AUX_demand - rf rc AUX_RES_to_demand).
