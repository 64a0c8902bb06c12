(** Specification vocabulary: two plants that differ in the quality of the battery. *)
From Verif Require Import Base M_Battery S_Battery M_HeatPump M_Tools M_FixedOrder S_FixedOrder S_Sizing.

(** Two plants that agree on everything but the battery *)
Definition other_battery (P P' : plant) : Prop :=
  p_hp_capacity P = p_hp_capacity P' /\ p_min_runtime P = p_min_runtime P' /\ p_min_output P = p_min_output P' /\ p_aux P = p_aux P' /\
  p_tank P = p_tank P' /\ p_export_price P = p_export_price P' /\ p_setpoint P = p_setpoint P' /\
  p_order_above P = p_order_above P' /\ p_order_below P = p_order_below P' /\ p_max_heat P = p_max_heat P'.
(** A battery that is nowhere worse: no smaller, no emptier at the start, no slower, no less efficient, no more leaky *)
Definition better_battery (b b' : battery) : Prop :=
  b_capacity b <= b_capacity b' /\ b_initial_state b <= b_initial_state b' /\ b_charge_max b <= b_charge_max b' /\ b_discharge_max b <= b_discharge_max b' /\
  b_charge_eff b <= b_charge_eff b' /\ b_discharge_eff b <= b_discharge_eff b' /\ b_self_discharge b' <= b_self_discharge b.
(** The second record takes no more from the grid, delivers at least as much from the battery, ends with at least the same charge, and agrees on everything
    the battery has no part in. *)
Definition relieved (rc rc' : record) : Prop :=
  (forall k, battery_entry k = false -> rf rc k = rf rc' k) /\ r_nodes rc = r_nodes rc' /\
  rf rc' GRID_total_import <= rf rc GRID_total_import /\ rf rc' ED_import <= rf rc ED_import /\
  rf rc ED_ES <= rf rc' ED_ES /\ rf rc ES_final_soc <= rf rc' ES_final_soc.
(** The same plant with another battery, and the same battery with one figure changed *)
Definition with_battery (P : plant) (b : battery) : plant :=
  {| p_battery := b; p_hp_capacity := p_hp_capacity P; p_min_runtime := p_min_runtime P; p_min_output := p_min_output P; p_aux := p_aux P; p_tank := p_tank P;
     p_export_price := p_export_price P; p_setpoint := p_setpoint P; p_order_above := p_order_above P; p_order_below := p_order_below P; p_max_heat := p_max_heat P |}.
Definition charging_limit (b : battery) (x : Q) : battery :=
  {| b_capacity := b_capacity b; b_initial_state := b_initial_state b; b_charge_max := x; b_discharge_max := b_discharge_max b; b_charge_eff := b_charge_eff b; b_discharge_eff := b_discharge_eff b; b_self_discharge := b_self_discharge b |}.
Definition discharging_limit (b : battery) (x : Q) : battery :=
  {| b_capacity := b_capacity b; b_initial_state := b_initial_state b; b_charge_max := b_charge_max b; b_discharge_max := x; b_charge_eff := b_charge_eff b; b_discharge_eff := b_discharge_eff b; b_self_discharge := b_self_discharge b |}.
Definition charging_efficiency (b : battery) (x : Q) : battery :=
  {| b_capacity := b_capacity b; b_initial_state := b_initial_state b; b_charge_max := b_charge_max b; b_discharge_max := b_discharge_max b; b_charge_eff := x; b_discharge_eff := b_discharge_eff b; b_self_discharge := b_self_discharge b |}.
Definition discharging_efficiency (b : battery) (x : Q) : battery :=
  {| b_capacity := b_capacity b; b_initial_state := b_initial_state b; b_charge_max := b_charge_max b; b_discharge_max := b_discharge_max b; b_charge_eff := b_charge_eff b; b_discharge_eff := x; b_self_discharge := b_self_discharge b |}.
Definition leak (b : battery) (x : Q) : battery :=
  {| b_capacity := b_capacity b; b_initial_state := b_initial_state b; b_charge_max := b_charge_max b; b_discharge_max := b_discharge_max b; b_charge_eff := b_charge_eff b; b_discharge_eff := b_discharge_eff b; b_self_discharge := x |}.
(** What the plant buys in a run *)
Definition bought (l : list record) : Q := qsum (map (fun rc => rf rc GRID_total_import) l).
(** The first plant buys less than the second, although the second only has a better battery: three hours of a year *)
Definition buys_less (P P' : plant) : Prop :=
  plant_ok P /\ plant_ok P' /\ 0 <= b_initial_state (p_battery P) <= 1 /\ better_battery (p_battery P) (p_battery P') /\
  (forall I ps, processes_of P I ps -> order_ok ps) /\
  exists year l l', Forall (hour_ok P) year /\ run_timesteps P year 0 3 = Ok l /\ run_timesteps P' year 0 3 = Ok l' /\ bought l < bought l'.
