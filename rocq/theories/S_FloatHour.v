(** Specification vocabulary for the hour in floating point. *)
From Coq Require Import ZArith Reals QArith.
From Flocq Require Import Core.
From Verif Require Import Base M_Battery M_HeatPump M_FixedOrder M_Float M_FloatHour S_Float.
Local Open Scope R_scope.

(** The same plant and the same hour, once with exact numbers and once with floats *)
Definition same_plant (P : plant) (F : fplant) : Prop :=
  same_battery (p_battery P) (fp_battery F) /\ same_number (p_hp_capacity P) (fp_hp_capacity F) /\
  (fp_electric F = true <-> a_fuel (p_aux P) = ELECTRIC) /\ same_number (p_max_heat P) (fp_max_heat F).
Definition same_hour (I : hour_in) (H : fhour) : Prop :=
  same_number (i_wind I) (fi_wind H) /\ same_number (i_PV I) (fi_PV H) /\ same_number (i_elec_demand I) (fi_elec_demand H) /\
  same_number (i_heat_demand I) (fi_heat_demand H) /\ same_number (cop (i_perf I)) (fi_cop H) /\ same_number (duty (i_perf I)) (fi_duty H).
(** The store answers both runs with the same two numbers. *)
Definition same_store (P : plant) (I : hour_in) (t : Z) (nodes_temp : nodes) (H : fhour) : Prop :=
  exists c d, t_max (p_tank P) Charging nodes_temp (i_source_temp I) (i_flow_temp I) t = Ok c /\ same_number c (fi_charge H) /\
              t_max (p_tank P) Discharging nodes_temp (i_source_temp I) (i_flow_temp I) t = Ok d /\ same_number d (fi_discharge H).

(** The size of the hour: [N] bounds the electrical quantities in kWh and, times the coefficient of
    performance, the thermal ones; [k] bounds the coefficient of performance and its inverse.
    A heat pump with a coefficient of performance between 1/5 and 5 in a plant with flows of up to 1000 kWh
    has k = 5 and N = 5000. *)
Record in_scale (k N : R) (F : fplant) (H : fhour) (soc : double) : Prop := {
  sc_k : 1 <= k <= 1024;
  sc_N : 1 <= N <= bpow radix2 800;
  sc_cop : / k <= val (fi_cop H) <= k;
  sc_elec : Rabs (val (fi_wind H)) + Rabs (val (fi_PV H)) + Rabs (val (fi_elec_demand H)) <= N;
  sc_soc : 0 <= val soc <= val (fb_capacity (fp_battery F));
  sc_capacity : val (fb_capacity (fp_battery F)) <= N;
  sc_charge_max : 0 <= val (fb_charge_max (fp_battery F)) <= N;
  sc_charge_eff : 0 <= val (fb_charge_eff (fp_battery F)) <= 1;
  sc_self : 0 <= val (fb_self_discharge (fp_battery F)) <= 1;
  sc_heat : Rabs (val (fi_heat_demand H)) <= val (fi_cop H) * N;
  sc_duty : Rabs (val (fi_duty H)) <= val (fi_cop H) * N;
  sc_max_heat : Rabs (val (fp_max_heat F)) <= val (fi_cop H) * N;
  sc_charge : Rabs (val (fi_charge H)) <= val (fi_cop H) * N;
  sc_discharge : Rabs (val (fi_discharge H)) <= val (fi_cop H) * N }.

(** By how much a process can enlarge quantities and errors *)
Definition weight (k : R) (p : process) : R :=
  match p with
  | RES_to_demand => 1
  | EAUX_RES_to_demand | EAUX_RES_to_TS => 2 * k
  | Import_to_ES => 4
  | _ => 2
  end.
Fixpoint growth (k : R) (ps : list process) : R :=
  match ps with [] => 1 | p :: ps => weight k p * growth k ps end.
(** The bound on what rounding can do to a flow of the hour, in kWh of electricity *)
Definition drift (k N : R) (ps : list process) : R := u53 * (3 + 4 * INR (length ps)) * growth k ps * N.

(** The result fields that the processes write *)
Definition flow (f : field) : bool :=
  match f with
  | ED_ES | ES_discharging_to_demand | ED_import | GRID_import_for_elec_demand
  | HD_HP_RES | RES_HP_to_heat_demand | HP_heat_from_RES_to_demand | HP_elec_from_RES_to_demand
  | AUX_RES_to_demand
  | HD_HP_import | GRID_import_for_heat_pump_to_heat_demand | HP_heat_from_import_to_demand | HP_elec_from_import_to_demand
  | HD_TS | TS_discharging_total
  | HD_HP_ES | ES_discharging_to_HP | HP_heat_from_ES_to_demand | HP_elec_from_ES_to_demand
  | HD_aux
  | RES_HP_to_TS | HP_heat_from_RES_to_TS | HP_elec_from_RES_to_TS | TS_HP_from_RES_to_TS
  | AUX_RES_to_TS | TS_aux_to_TS
  | GRID_import_for_heat_pump_to_TS | HP_heat_from_import_to_TS | HP_elec_from_import_to_TS | TS_HP_from_import_to_TS
  | RES_ES | ES_charging_from_RES | GRID_import_for_ES | ES_charging_from_import
  | RES_export | GRID_total_export => true
  | _ => false
  end.
(** The loop of the hour in floats, with the order that the price of the hour selects *)
Definition float_run (P : plant) (I : hour_in) (F : fplant) (H : fhour) (soc : double) : res (fchecks * ffields) :=
  if qlt (p_setpoint P) (i_import_price I) then frun_hour F H above_key (p_order_above P) soc
  else frun_hour F H below_key (p_order_below P) soc.
