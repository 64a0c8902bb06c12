(** Specification vocabulary: two runs that differ in the charge of the battery at the start only. *)
From Coq Require Import Qabs.
From Verif Require Import Base M_Battery S_Battery M_HeatPump M_Tools M_FixedOrder S_FixedOrder S_Sizing.

(** How far two numbers are apart *)
Definition apart (x y : Q) : Q := Qabs (x - y).
(** The same plant with another charge of the battery at the start of a run *)
Definition other_start (P P' : plant) : Prop :=
  b_capacity (p_battery P) = b_capacity (p_battery P') /\ b_charge_max (p_battery P) = b_charge_max (p_battery P') /\
  b_discharge_max (p_battery P) = b_discharge_max (p_battery P') /\ b_charge_eff (p_battery P) = b_charge_eff (p_battery P') /\
  b_discharge_eff (p_battery P) = b_discharge_eff (p_battery P') /\ b_self_discharge (p_battery P) = b_self_discharge (p_battery P') /\
  p_hp_capacity P = p_hp_capacity P' /\ p_min_runtime P = p_min_runtime P' /\ p_min_output P = p_min_output P' /\ p_aux P = p_aux P' /\
  p_tank P = p_tank P' /\ p_export_price P = p_export_price P' /\ p_setpoint P = p_setpoint P' /\
  p_order_above P = p_order_above P' /\ p_order_below P = p_order_below P' /\ p_max_heat P = p_max_heat P'.
(** Two records of the same hour that agree on everything the battery has no part in, whose purchases and sales differ by at most [d], and whose
    levels at the end do too *)
Definition close_by (d : Q) (rc rc' : record) : Prop :=
  (forall k, battery_entry k = false -> rf rc k = rf rc' k) /\ r_nodes rc = r_nodes rc' /\
  apart (rf rc GRID_total_import) (rf rc' GRID_total_import) <= d /\ apart (rf rc GRID_total_export) (rf rc' GRID_total_export) <= d /\
  apart (rf rc ED_ES) (rf rc' ED_ES) <= d /\ apart (rf rc RES_ES) (rf rc' RES_ES) <= d /\
  apart (rf rc ES_final_soc) (rf rc' ES_final_soc) <= d.
(** The battery can give up all it holds within an hour. *)
Definition fast_battery (b : battery) : Prop := b_capacity b * b_discharge_eff b <= b_discharge_max b.
(** Two runs, hour by hour: the records of an hour are as close as the levels at its start, and so are the levels at its end. *)
Inductive fading : Q -> list record -> list record -> Prop :=
  | fading_end d : fading d [] []
  | fading_hour d rc rc' l l' : close_by d rc rc' -> fading (apart (rf rc ES_final_soc) (rf rc' ES_final_soc)) l l' -> fading d (rc :: l) (rc' :: l').
