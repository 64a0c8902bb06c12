(** Specification vocabulary for the fixed-order controller. *)
From Verif Require Import Base M_Battery S_Battery M_HeatPump S_HeatPump M_Tools M_FixedOrder.

(** The high-tariff order is used when the price exceeds the setpoint. *)
Definition high_tariff (P : plant) (I : hour_in) : Prop := p_setpoint P < i_import_price I.

(** The processes an hour runs through, in order. *)
Definition processes_of (P : plant) (I : hour_in) (ps : list process) : Prop :=
  (high_tariff P I /\ mapM above_key (p_order_above P) = Ok ps) \/
  (~ high_tariff P I /\ mapM below_key (p_order_below P) = Ok ps).

(** [p] never comes after [q] in [ps]. *)
Definition never_after (ps : list process) (p q : process) : Prop :=
  forall l1 l2, ps = l1 ++ p :: l2 -> ~ In q l1.

(** An order in which no process can be driven negative by an earlier one. *)
Definition order_ok (ps : list process) : Prop :=
  NoDup ps /\
  never_after ps RES_to_ES Import_to_ES /\
  (forall p, In p [HP_RES_to_demand; HP_import_to_demand; ES_to_HP_to_demand; HP_RES_to_TS; EAUX_RES_to_TS] ->
             never_after ps p HP_import_to_TS) /\
  never_after ps EAUX_RES_to_demand AUX_to_demand.

(** Physically meaningful plant, hour and charge level. *)
Definition plant_ok (P : plant) : Prop :=
  battery_ok (p_battery P) /\ 0 <= p_min_runtime P /\ 0 <= p_min_output P /\
  0 < a_efficiency (p_aux P) /\
  (forall c, a_cost (p_aux P) = Some c -> 0 <= c) /\
  (forall d, a_energy_density (p_aux P) = Some d -> 0 <= d).

Definition hour_ok (P : plant) (I : hour_in) : Prop :=
  0 <= i_wind I /\ 0 <= i_PV I /\ 0 <= i_elec_demand I /\
  0 <= i_heat_demand I /\ i_heat_demand I <= p_max_heat P /\
  0 < cop (i_perf I) /\ 0 <= duty (i_perf I) /\
  (p_hp_capacity P == 0 -> duty (i_perf I) == 0) /\
  (* the tank reports non-negative capabilities at the temperatures of the hour;
     for the tank of hot_water_tank.py this is C26 *)
  (forall s n t m, t_max (p_tank P) s n (i_source_temp I) (i_flow_temp I) t = Ok m -> 0 <= m).

(** The record before the minimum-output correction, and "the correction does not
    intervene". *)
Definition uncorrected (P : plant) (I : hour_in) (t : Z) (n : nodes) (soc : Q) : res (checks * record) :=
  if qlt (p_setpoint P) (i_import_price I)
  then above_uncorrected P I t n soc else below_uncorrected P I t n soc.

Definition threshold (P : plant) (I : hour_in) : Q :=
  if qlt (p_setpoint P) (i_import_price I) then 1 # 10 else 0.

(** Minimum heat output of an hour implied by minimum_output (percent of duty) and
    minimum_runtime (minutes). *)
Definition minimum_heat (P : plant) (I : hour_in) : Q :=
  (p_min_output P / 100) * (p_min_runtime P / 60) * duty (i_perf I).

Definition quiet (P : plant) (I : hour_in) (t : Z) (n : nodes) (soc : Q) : Prop :=
  forall c rc, uncorrected P I t n soc = Ok (c, rc) ->
    minimum_heat P I <= rf rc HP_heat_total_output \/ rf rc HP_heat_total_output <= threshold P I.

(** Energy flows of a record (kWh), all fields but prices, costs, temperatures,
    the signed balance grid.match and the cash flow. *)
Definition flow_fields : list field :=
  [ ED_RES; ED_ES; ED_import; ED_elec_demand;
    HD_HP; HD_HP_RES; HD_HP_import; HD_HP_ES; HD_TS; HD_aux; HD_heat_demand;
    RES_generation_total; RES_wind; RES_PV; RES_elec_demand; RES_HP; RES_ES; RES_export; RES_aux;
    RES_HP_to_heat_demand; RES_HP_to_TS;
    HP_heat_total_output; HP_heat_to_heat_demand; HP_heat_to_TS; HP_heat_from_RES_to_demand;
    HP_heat_from_RES_to_TS; HP_heat_from_import_to_demand; HP_heat_from_import_to_TS;
    HP_heat_from_ES_to_demand; HP_elec_total_usage; HP_elec_RES_usage; HP_elec_import_usage;
    HP_elec_from_RES_to_demand; HP_elec_from_RES_to_TS; HP_elec_from_import_to_demand;
    HP_elec_from_import_to_TS; HP_elec_from_ES_to_demand; HP_duty;
    TS_charging_total; TS_discharging_total; TS_HP_to_TS; TS_HP_from_RES_to_TS;
    TS_HP_from_import_to_TS; TS_aux_to_TS; TS_aux_from_RES_to_TS; TS_aux_from_import_to_TS;
    AUX_demand; AUX_usage; AUX_mass; AUX_RES_to_demand; AUX_RES_to_TS;
    ES_charging_total; ES_discharging_total; ES_discharging_to_demand; ES_discharging_to_HP;
    ES_discharging_to_aux; ES_charging_from_RES; ES_charging_from_import; ES_final_soc;
    GRID_total_import; GRID_total_export; GRID_import_for_elec_demand; GRID_import_for_heat_pump_total;
    GRID_import_for_heat_pump_to_heat_demand; GRID_import_for_heat_pump_to_TS; GRID_import_for_ES;
    GRID_import_below_setpoint; GRID_surplus; GRID_deficit ].

(** An hour with physically meaningful data and an order in which no process can be
    driven negative by an earlier one. *)
Definition good_hour (P : plant) (I : hour_in) (soc : Q) : Prop :=
  plant_ok P /\ hour_ok P I /\ level_ok (p_battery P) soc /\
  (forall ps, processes_of P I ps -> order_ok ps).

(** The order of the hour contains the process [p]. *)
Definition contains (P : plant) (I : hour_in) (p : process) : Prop :=
  forall ps, processes_of P I ps -> In p ps.
Definition lacks (P : plant) (I : hour_in) (p : process) : Prop :=
  forall ps, processes_of P I ps -> ~ In p ps.
Definition duplicate_free (P : plant) (I : hour_in) : Prop :=
  forall ps, processes_of P I ps -> NoDup ps.

(** The heat pump was not switched off by the correction. *)
Definition not_switched_off (P : plant) (I : hour_in) (t : Z) (n : nodes) (soc : Q) (rc : record) : Prop :=
  quiet P I t n soc \/ 0 < rf rc HP_heat_total_output.

(** Storage state (tank temperatures, battery charge) in which hour [i] of a run starts. *)
Definition state_before (P : plant) (rs : list record) (i : nat) : nodes * Q :=
  match i with
  | O => (t_init (p_tank P), init_state (p_battery P))
  | S j => match nth_error rs j with
           | Some rc => (r_nodes rc, rf rc ES_final_soc)
           | None => (t_init (p_tank P), init_state (p_battery P))
           end
  end.

(** The same plant under other orders. *)
Definition with_orders (P : plant) (above below : list Z) : plant :=
  {| p_battery := p_battery P; p_hp_capacity := p_hp_capacity P; p_min_runtime := p_min_runtime P;
     p_min_output := p_min_output P; p_aux := p_aux P; p_tank := p_tank P;
     p_export_price := p_export_price P; p_setpoint := p_setpoint P;
     p_order_above := above; p_order_below := below; p_max_heat := p_max_heat P |}.

(** A tank whose operations never raise.  A tank of capacity 0 is not operated. *)
Definition tank_total (T : tank_ops) : Prop :=
  (forall s n so fl t, exists m, t_max T s n so fl t = Ok m) /\
  (~ t_capacity T == 0 -> forall s n so fl o d t, exists n', t_new T s n so fl o d t = Ok n').

(** A plant that cannot raise: valid order numbers, complete back-up data. *)
Definition plant_total (P : plant) : Prop :=
  tank_total (p_tank P) /\ ~ a_efficiency (p_aux P) == 0 /\
  (a_fuel (p_aux P) <> ELECTRIC -> a_cost (p_aux P) <> None /\ a_energy_density (p_aux P) <> None) /\
  (exists ps, mapM above_key (p_order_above P) = Ok ps) /\
  (exists ps, mapM below_key (p_order_below P) = Ok ps).

(** The battery-driven output is only counted against the duty if nothing else runs
    on the heat pump after it. *)
Definition hp_last (ps : list process) : Prop :=
  forall p, In p [HP_RES_to_demand; HP_RES_to_TS; HP_import_to_demand; HP_import_to_TS] ->
    never_after ps p ES_to_HP_to_demand.

