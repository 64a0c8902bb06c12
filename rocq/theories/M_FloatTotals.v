(** What follows the loop of an hour of /repo/pylesa/controllers/fixed_order.py, in binary64 floating point: the
    totals, the accounts, the minimum output rule and the fields that are filled in at the end.  Together with
    [M_FloatHour] this is the whole hour but for the node temperatures of the store.  [M_FixedOrder] is the
    same code with exact numbers.

    Modelled: controllers/fixed_order.py:138-150, 200-436, 476-724, heat/auxiliary.py:52-61.  Not modelled here:
    the calls of new_nodes_temp, whose result goes into final_nodes_temp and nowhere else in the hour.
    Simplification: every number is a float, as in [M_FloatHour]. *)
From Coq Require Import ZArith Reals.
From Flocq Require Import Core IEEE754.BinarySingleNaN.
From Verif Require Import Base M_HeatPump M_FixedOrder M_Float M_FloatHour.

(** The further attributes that are read after the loop, controllers/fixed_order.py:27-57: the price of the hour,
    the price of exports, the back-up (heat/auxiliary.py:17-50), the minimum output and runtime of the heat
    pump, and whether the capacity of the store is 0 *)
Record faccounts := {
  fa_import_price : double; fa_export_price : double;
  fa_efficiency : double; fa_cost : option double; fa_density : option double;
  fa_min_output : double; fa_min_runtime : double;
  fa_no_tank : bool }.
(** The literals 0.1, 60, 100.0 and 1000 of controllers/fixed_order.py:321, 338, 339, 343 *)
Definition ftenth : double := fdiv (fofZ 1) (fofZ 10).

Section FLOAT_TOTALS.
Variable F : fplant.
Variable H : fhour.
Variable A : faccounts.

(** controllers/fixed_order.py:205-228 = 478-505 *)
Definition fhp_totals (r : ffields) : ffields :=
  let r := fupd r HD_HP (fadd (fadd (r HD_HP_RES) (r HD_HP_import)) (r HD_HP_ES)) in
  let r := fupd r HP_heat_to_heat_demand
    (fadd (fadd (r HP_heat_from_RES_to_demand) (r HP_heat_from_import_to_demand)) (r HP_heat_from_ES_to_demand)) in
  let r := fupd r HP_heat_to_TS (fadd (r HP_heat_from_RES_to_TS) (r HP_heat_from_import_to_TS)) in
  let r := fupd r HP_heat_total_output (fadd (r HP_heat_to_heat_demand) (r HP_heat_to_TS)) in
  let r := fupd r HP_elec_RES_usage (fadd (r HP_elec_from_RES_to_demand) (r HP_elec_from_RES_to_TS)) in
  let r := fupd r HP_elec_import_usage (fadd (r HP_elec_from_import_to_demand) (r HP_elec_from_import_to_TS)) in
  fupd r HP_elec_total_usage (fadd (r HP_elec_RES_usage) (r HP_elec_import_usage)).
(** controllers/fixed_order.py:231-236 = 528-533 *)
Definition fts_totals (r : ffields) : ffields :=
  let r := fupd r TS_HP_to_TS (fadd (r TS_HP_from_RES_to_TS) (r TS_HP_from_import_to_TS)) in
  fupd r TS_charging_total (fadd (r TS_HP_to_TS) (r TS_aux_to_TS)).
(** controllers/fixed_order.py:239-242 = 508-511 *)
Definition faux_demand (r : ffields) : ffields :=
  fupd r AUX_demand (fadd (fadd (r AUX_RES_to_demand) (r AUX_RES_to_TS)) (r HD_aux)).
(** heat/auxiliary.py:52-61; a division by 0 is a ZeroDivisionError *)
Definition ffuel_usage (demand : double) : res double :=
  if feq (fa_efficiency A) f0 then Err ZeroDivisionError else Ok (fdiv demand (fa_efficiency A)).
(** controllers/fixed_order.py:246-259 = 512-525 *)
Definition faux_accounts (r : ffields) : res ffields :=
  usage <- ffuel_usage (r AUX_demand) ;;
  let r := fupd r AUX_usage usage in
  do (aux_price, density) <~
    (if fp_electric F then Ok (r GRID_import_price, f0)
     else match fa_cost A, fa_density A with Some c, Some d => Ok (c, d) | _, _ => Err TypeError end) ;;
  let r := fupd r AUX_cost (fmul aux_price (fsub (fsub (r AUX_demand) (r AUX_RES_to_demand)) (r AUX_RES_to_TS))) in
  Ok (fupd r AUX_mass (fmul density (r AUX_usage))).
(** controllers/fixed_order.py:287-299 = 560-573 *)
Definition fes_totals (soc : double) (r : ffields) : res ffields :=
  let r := fupd r ES_charging_total (fadd (r ES_charging_from_RES) (r ES_charging_from_import)) in
  let r := fupd r ES_discharging_total (fadd (r ES_discharging_to_demand) (r ES_discharging_to_HP)) in
  final_soc <- fnew_soc (fp_battery F) (fsub (r ES_charging_total) (r ES_discharging_total)) soc ;;
  Ok (fupd r ES_final_soc final_soc).
(** controllers/fixed_order.py:302-330 = 576-604 *)
Definition fgrid_totals (r : ffields) : ffields :=
  let r := fupd r GRID_import_for_heat_pump_total
    (fadd (r GRID_import_for_heat_pump_to_heat_demand) (r GRID_import_for_heat_pump_to_TS)) in
  let base := fadd (fadd (r GRID_import_for_elec_demand) (r GRID_import_for_heat_pump_total)) (r GRID_import_for_ES) in
  let r := fupd r GRID_total_import
    (if fp_electric F then fsub (fsub (fadd base (r AUX_demand)) (r AUX_RES_to_demand)) (r AUX_RES_to_TS) else base) in
  let r := fupd r GRID_import_costs (fdiv (fmul (r GRID_total_import) (r GRID_import_price)) (fofZ 1000)) in
  let r := fupd r GRID_export_income (fdiv (fmul (r GRID_total_export) (fa_export_price A)) (fofZ 1000)) in
  fupd r GRID_cashflow (fsub (r GRID_export_income) (r GRID_import_costs)).
(** What controllers/fixed_order.py:174-177 = 446-450 put into the results besides the grid balance.  Simplification:
    it is written here after the loop, which neither reads nor writes these fields. *)
Definition fgiven (above : bool) (r : ffields) : ffields :=
  let r := fupd r GRID_import_price (fa_import_price A) in
  let r := fupd r HP_cop (fi_cop H) in
  let r := fupd r HP_duty (fi_duty H) in
  if above then r else fupd r GRID_export_price (fa_export_price A).
(** controllers/fixed_order.py:200-330 above and 476-608 below the setpoint *)
Definition ffinish (above : bool) (soc : double) (r : ffields) : res ffields :=
  let r := fhp_totals (fgiven above r) in
  if above then
    let r := faux_demand (fts_totals r) in
    let r := fupd r HD_aux (fadd (r HD_aux) (r AUX_RES_to_demand)) in
    r <- faux_accounts r ;;
    r <- fes_totals soc r ;;
    Ok (fgrid_totals r)
  else
    r <- faux_accounts (faux_demand r) ;;
    r <- fes_totals soc (fts_totals r) ;;
    let r := fgrid_totals r in
    Ok (fupd r GRID_import_below_setpoint (r GRID_total_import)).

(** controllers/fixed_order.py:337-339 = 615-617 *)
Definition fmin_out : double :=
  fmul (fdiv (fdiv (fmul (fa_min_output A) (fa_min_runtime A)) (fofZ 60)) (fofZ 100)) (fi_duty H).
(** controllers/fixed_order.py:343 and 620: does the minimum output rule change the results? *)
Definition facts (above : bool) (r : ffields) : bool :=
  flt (r HP_heat_total_output) fmin_out && flt (if above then ftenth else f0) (r HP_heat_total_output).
(** controllers/fixed_order.py:357-385 = 634-662 *)
Definition fzero_fields (ks : list field) (r : ffields) : ffields := fold_left (fun r k => fupd r k f0) ks r.
(** controllers/fixed_order.py:386-403 *)
Definition fswitch_off_above (r : ffields) : ffields :=
  let r := fzero_fields hp_zeroed r in
  fupd r AUX_demand (fsub (fi_heat_demand H) (r TS_discharging_total)).
(** controllers/fixed_order.py:663-690; with a store the heat demand is first replaced by what the store gives (678) *)
Definition fswitch_off_below (r : ffields) : ffields :=
  let r := fupd (fzero_fields hp_zeroed r) TS_charging_total f0 in
  let r := fupd r TS_discharging_total (fmin (fi_discharge H) (fi_heat_demand H)) in
  let heat_demand := if fa_no_tank A then fi_heat_demand H else r TS_discharging_total in
  fupd r AUX_demand (fsub heat_demand (r TS_discharging_total)).
(** controllers/fixed_order.py:405-417 = 693-705 *)
Definition ftopped_up (inc : double) (r : ffields) : ffields :=
  let r := fupd r HP_heat_from_import_to_TS (fadd (r HP_heat_from_import_to_TS) inc) in
  let r := fupd r HP_heat_to_TS (fadd (r HP_heat_to_TS) inc) in
  let r := fupd r HP_heat_total_output (fadd (r HP_heat_total_output) inc) in
  let r := fupd r HP_elec_total_usage (fadd (r HP_elec_total_usage) (fdiv inc (r HP_cop))) in
  let r := fupd r HP_elec_import_usage (fadd (r HP_elec_import_usage) (fdiv inc (r HP_cop))) in
  let r := fupd r HP_elec_from_import_to_TS (fadd (r HP_elec_from_import_to_TS) (fdiv inc (r HP_cop))) in
  let r := fupd r TS_HP_to_TS (fadd (r TS_HP_to_TS) inc) in
  fupd r TS_HP_from_import_to_TS (fadd (r TS_HP_from_import_to_TS) inc).
(** controllers/fixed_order.py:337-434 above and 615-722 below the setpoint *)
Definition fcorrect (above : bool) (c : fchecks) (r : ffields) : ffields :=
  if facts above r then
    let inc := fsub fmin_out (r HP_heat_total_output) in
    let tank_charge_left := fsub (fadd (fi_charge H) (f_ts_discharge c)) (f_ts_charge c) in
    if flt tank_charge_left inc then (if above then fswitch_off_above r else fswitch_off_below r)
    else ftopped_up inc r
  else r.
(** controllers/fixed_order.py:138-150 *)
Definition fcomplete (r : ffields) : ffields :=
  let r := fupd r RES_elec_demand (fRES_used H) in
  let r := fupd r ED_RES (fRES_used H) in
  let r := fupd r RES_generation_total (fgeneration H) in
  let r := fupd r RES_wind (fi_wind H) in
  let r := fupd r RES_PV (fi_PV H) in
  let r := fupd r RES_HP (r HP_elec_RES_usage) in
  let r := fupd r RES_aux (fadd (r AUX_RES_to_demand) (r AUX_RES_to_TS)) in
  let r := fupd r ED_elec_demand (fi_elec_demand H) in
  fupd r HD_heat_demand (fi_heat_demand H).
(** The hour from the battery level, controllers/fixed_order.py:125-150; [above] is the comparison of the price with the setpoint,
    lines 125-136 *)
Definition fhour_step (above : bool) (key : Z -> res process) (order : list Z) (soc : double) : res ffields :=
  do (c, r) <~ frun_hour F H key order soc ;;
  r <- ffinish above soc r ;;
  Ok (fcomplete (fcorrect above c r)).
End FLOAT_TOTALS.
