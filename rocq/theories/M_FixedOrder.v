(** Model of /repo/pylesa/controllers/fixed_order.py *)
From Verif Require Import Base M_Battery M_HeatPump M_Tools.

(** ** Result fields, fixed_order.py:923-1026 (the two fields RES.HP_to_heat_demand
    and RES.HP_to_TS are added on the fly at 755 and 798).  The nested dictionaries
    are one total map; every entry starts at 0.0.  TS.final_nodes_temp, the only
    field that is not a number, is kept apart in [record]. *)
Inductive field : Set :=
  | ED_RES | ED_ES | ED_import | ED_elec_demand | HD_HP | HD_HP_RES | HD_HP_import | HD_HP_ES
  | HD_TS | HD_aux | HD_heat_demand | RES_generation_total | RES_wind | RES_PV | RES_elec_demand
  | RES_HP | RES_ES | RES_export | RES_aux | RES_HP_to_heat_demand | RES_HP_to_TS
  | HP_heat_total_output | HP_heat_to_heat_demand | HP_heat_to_TS | HP_heat_from_RES_to_demand
  | HP_heat_from_RES_to_TS | HP_heat_from_import_to_demand | HP_heat_from_import_to_TS
  | HP_heat_from_ES_to_demand | HP_elec_total_usage | HP_elec_RES_usage | HP_elec_import_usage
  | HP_elec_from_RES_to_demand | HP_elec_from_RES_to_TS | HP_elec_from_import_to_demand
  | HP_elec_from_import_to_TS | HP_elec_from_ES_to_demand | HP_cop | HP_duty | TS_charging_total
  | TS_discharging_total | TS_HP_to_TS | TS_HP_from_RES_to_TS | TS_HP_from_import_to_TS
  | TS_aux_to_TS | TS_aux_from_RES_to_TS | TS_aux_from_import_to_TS | AUX_demand | AUX_usage
  | AUX_mass | AUX_cost | AUX_RES_to_demand | AUX_RES_to_TS | ES_charging_total
  | ES_discharging_total | ES_discharging_to_demand | ES_discharging_to_HP | ES_discharging_to_aux
  | ES_charging_from_RES | ES_charging_from_import | ES_final_soc | GRID_total_import
  | GRID_total_export | GRID_import_for_elec_demand | GRID_import_for_heat_pump_total
  | GRID_import_for_heat_pump_to_heat_demand | GRID_import_for_heat_pump_to_TS
  | GRID_import_for_ES | GRID_import_below_setpoint | GRID_import_price | GRID_export_price
  | GRID_import_costs | GRID_export_income | GRID_cashflow | GRID_surplus | GRID_deficit
  | GRID_match.

(** A number for each key of the result dictionaries of controllers/fixed_order.py:923-1026 *)
Definition field_id (f : field) : positive :=
  match f with
  | ED_RES => 1
  | ED_ES => 2
  | ED_import => 3
  | ED_elec_demand => 4
  | HD_HP => 5
  | HD_HP_RES => 6
  | HD_HP_import => 7
  | HD_HP_ES => 8
  | HD_TS => 9
  | HD_aux => 10
  | HD_heat_demand => 11
  | RES_generation_total => 12
  | RES_wind => 13
  | RES_PV => 14
  | RES_elec_demand => 15
  | RES_HP => 16
  | RES_ES => 17
  | RES_export => 18
  | RES_aux => 19
  | RES_HP_to_heat_demand => 20
  | RES_HP_to_TS => 21
  | HP_heat_total_output => 22
  | HP_heat_to_heat_demand => 23
  | HP_heat_to_TS => 24
  | HP_heat_from_RES_to_demand => 25
  | HP_heat_from_RES_to_TS => 26
  | HP_heat_from_import_to_demand => 27
  | HP_heat_from_import_to_TS => 28
  | HP_heat_from_ES_to_demand => 29
  | HP_elec_total_usage => 30
  | HP_elec_RES_usage => 31
  | HP_elec_import_usage => 32
  | HP_elec_from_RES_to_demand => 33
  | HP_elec_from_RES_to_TS => 34
  | HP_elec_from_import_to_demand => 35
  | HP_elec_from_import_to_TS => 36
  | HP_elec_from_ES_to_demand => 37
  | HP_cop => 38
  | HP_duty => 39
  | TS_charging_total => 40
  | TS_discharging_total => 41
  | TS_HP_to_TS => 42
  | TS_HP_from_RES_to_TS => 43
  | TS_HP_from_import_to_TS => 44
  | TS_aux_to_TS => 45
  | TS_aux_from_RES_to_TS => 46
  | TS_aux_from_import_to_TS => 47
  | AUX_demand => 48
  | AUX_usage => 49
  | AUX_mass => 50
  | AUX_cost => 51
  | AUX_RES_to_demand => 52
  | AUX_RES_to_TS => 53
  | ES_charging_total => 54
  | ES_discharging_total => 55
  | ES_discharging_to_demand => 56
  | ES_discharging_to_HP => 57
  | ES_discharging_to_aux => 58
  | ES_charging_from_RES => 59
  | ES_charging_from_import => 60
  | ES_final_soc => 61
  | GRID_total_import => 62
  | GRID_total_export => 63
  | GRID_import_for_elec_demand => 64
  | GRID_import_for_heat_pump_total => 65
  | GRID_import_for_heat_pump_to_heat_demand => 66
  | GRID_import_for_heat_pump_to_TS => 67
  | GRID_import_for_ES => 68
  | GRID_import_below_setpoint => 69
  | GRID_import_price => 70
  | GRID_export_price => 71
  | GRID_import_costs => 72
  | GRID_export_income => 73
  | GRID_cashflow => 74
  | GRID_surplus => 75
  | GRID_deficit => 76
  | GRID_match => 77
  end%positive.
(** Equality of keys, controllers/fixed_order.py:923-1026 *)
Definition field_eqb (a b : field) : bool := Pos.eqb (field_id a) (field_id b).

(** The numeric entries of one record, controllers/fixed_order.py:923-1026 *)
Definition fields := field -> Q.
(** controllers/fixed_order.py:166-722, every assignment to a record: d[k] = v *)
Definition upd (r : fields) (k : field) (v : Q) : fields :=
  fun k' => if field_eqb k k' then v else r k'.
(** fixed_order.py:923-1026 *)
Definition set_of_results : fields := fun _ => 0.

(** ** Processes, fixed_order.py:889-921 *)
Inductive process : Set :=
| RES_to_demand | ES_to_demand | Import_to_demand | HP_RES_to_demand | EAUX_RES_to_demand
| TS_to_demand | ES_to_HP_to_demand | HP_import_to_demand | AUX_to_demand
| HP_RES_to_TS | EAUX_RES_to_TS | HP_import_to_TS | RES_to_ES | Import_to_ES | RES_to_export.

(** fixed_order.py:891-903 *)
Definition above_key (n : Z) : res process :=
  match n with
  | 1 => Ok RES_to_demand | 2 => Ok ES_to_demand | 3 => Ok Import_to_demand
  | 4 => Ok HP_RES_to_demand | 5 => Ok EAUX_RES_to_demand | 6 => Ok TS_to_demand
  | 7 => Ok ES_to_HP_to_demand | 8 => Ok HP_import_to_demand | 9 => Ok AUX_to_demand
  | 10 => Ok HP_RES_to_TS | 11 => Ok EAUX_RES_to_TS | 12 => Ok RES_to_ES
  | 13 => Ok RES_to_export
  | _ => Err KeyError
  end%Z.
(** fixed_order.py:905-919 *)
Definition below_key (n : Z) : res process :=
  match n with
  | 1 => Ok RES_to_demand | 2 => Ok Import_to_demand | 3 => Ok ES_to_demand
  | 4 => Ok HP_RES_to_demand | 5 => Ok EAUX_RES_to_demand | 6 => Ok HP_import_to_demand
  | 7 => Ok TS_to_demand | 8 => Ok ES_to_HP_to_demand | 9 => Ok AUX_to_demand
  | 10 => Ok HP_RES_to_TS | 11 => Ok EAUX_RES_to_TS | 12 => Ok HP_import_to_TS
  | 13 => Ok RES_to_ES | 14 => Ok Import_to_ES | 15 => Ok RES_to_export
  | _ => Err KeyError
  end%Z.

(** ** The plant *)
(** The argument [state] of storage/hot_water_tank.py:602 and 822 *)
Inductive tank_state := Charging | Discharging | Standby.
(** [nodes_temp], controllers/fixed_order.py:166-722 *)
Definition nodes := list Q.

(** The tank as seen by the controller.  [t_max state nodes source flow timestep] is
    max_energy_in_out, [t_new state nodes source flow thermal_output heat_demand
    timestep] is the last element of new_nodes_temp, [t_init] is
    init_temps(return_temp).  The return temperature and the source temperature
    difference are constants of a run and live inside the operations.
    The tank of hot_water_tank.py is an instance (see [M_Tank]); the theorems of this
    file hold for every tank. *)
Record tank_ops := {
  t_capacity : Q;
  t_init : nodes;
  t_max : tank_state -> nodes -> Q -> Q -> Z -> res Q;
  t_new : tank_state -> nodes -> Q -> Q -> Q -> Q -> Z -> res nodes }.

(** The components the controller holds, controllers/fixed_order.py:27-57 *)
Record plant := {
  p_battery : battery;
  p_hp_capacity : Q;
  p_min_runtime : Q;
  p_min_output : Q;
  p_aux : aux;
  p_tank : tank_ops;
  p_export_price : Q;
  p_setpoint : Q;
  p_order_above : list Z;
  p_order_below : list Z;
  p_max_heat : Q  (* np.amax(self.heat_demand.values), the annual peak *) }.

(** controllers/fixed_order.py:59-164: Inputs of one hour. *)
Record hour_in := {
  i_wind : Q; i_PV : Q; i_elec_demand : Q; i_heat_demand : Q;
  i_source_temp : Q; i_flow_temp : Q; i_import_price : Q; i_perf : perf }.

(** [checks], fixed_order.py:183-191 *)
Record checks := mkChecks {
  elec_unmet : Q; heat_unmet : Q; RES_left : Q; hp_usage : Q;
  ts_discharge : Q; ts_charge : Q; c_soc : Q; aux_left : Q }.

Section Hour.
Variable P : plant.
Variable I : hour_in.
Variable timestep : Z.
Variable nodes_temp : nodes.

Let perf_ := i_perf I.
Let hp_elec (h : Q) : Q := elec_usage (p_hp_capacity P) h perf_.
Let max_energy (s : tank_state) : res Q :=
  t_max (p_tank P) s nodes_temp (i_source_temp I) (i_flow_temp I) timestep.
(** [fuel == Fuel.ELECTRIC], controllers/fixed_order.py:166-722 *)
Definition is_electric : bool := fuel_eqb (a_fuel (p_aux P)) ELECTRIC.

(** ** The processes, fixed_order.py:1028-1251.  The result is the pair (h, e); the
    processes returning one number r return (r, r). *)
Definition amount (p : process) (c : checks) : res (Q * Q) :=
  let one r := (r, r) in
  let he h := (h, hp_elec h) in
  match p with
  | RES_to_demand => Ok (0, 0)  (* 742-834 has no branch for it *)
  (* 1028-1035 *)
  | ES_to_demand => Ok (one (pmin (elec_unmet c) (c_soc c)))
  (* 1037-1043 *)
  | Import_to_demand => Ok (one (elec_unmet c))
  (* 1045-1062 *)
  | HP_RES_to_demand =>
      let spare := duty perf_ - hp_usage c in
      let hpr := thermal_output (p_hp_capacity P) (RES_left c) perf_ (heat_unmet c) in
      Ok (he (pmin (fst hpr) spare))
  (* 1064-1075 *)
  | EAUX_RES_to_demand =>
      if is_electric then Ok (one (pmin (pmin (aux_left c) (RES_left c)) (heat_unmet c)))
      else Ok (0, 0)
  (* 1077-1102; heat_pump_output is None at every call *)
  | HP_import_to_demand =>
      let spare := duty perf_ - hp_usage c in
      let h := pmin (heat_unmet c) spare in
      let h := if qeq (p_hp_capacity P) 0 then 0 else h in
      Ok (he h)
  (* 1104-1119 *)
  | TS_to_demand =>
      m <- max_energy Discharging ;;
      let max_dis := m - ts_discharge c + ts_charge c in
      Ok (one (pmin (heat_unmet c) max_dis))
  (* 1121-1141 *)
  | ES_to_HP_to_demand =>
      let max_hp_ES := thermal_output (p_hp_capacity P) (c_soc c) perf_ (heat_unmet c) in
      let spare := duty perf_ - hp_usage c in
      Ok (he (pmin (fst max_hp_ES) spare))
  (* 1143-1147 *)
  | AUX_to_demand => Ok (one (heat_unmet c))
  (* 1149-1174 *)
  | HP_RES_to_TS =>
      let hp_cap_left := duty perf_ - hp_usage c in
      let hp_max_RES := RES_left c * cop perf_ in
      let hp_left := pmin hp_cap_left hp_max_RES in
      m <- max_energy Charging ;;
      let tank_charge_left := m + ts_discharge c - ts_charge c in
      Ok (he (pmin hp_left tank_charge_left))
  (* 1176-1193 *)
  | EAUX_RES_to_TS =>
      if is_electric then
        m <- max_energy Charging ;;
        let tank_charge_left := m + ts_discharge c - ts_charge c in
        Ok (one (pmin (pmin (aux_left c) (RES_left c)) tank_charge_left))
      else Ok (0, 0)
  (* 1195-1222 *)
  | HP_import_to_TS =>
      let spare := duty perf_ - hp_usage c in
      m <- max_energy Charging ;;
      let tank_charge_left := m + ts_discharge c - ts_charge c in
      let h := round2 (pmin spare tank_charge_left) in
      let h := if qeq (p_hp_capacity P) 0 then 0 else h in
      Ok (he h)
  (* 1224-1232 *)
  | RES_to_ES => Ok (one (max_charging (p_battery P) (RES_left c) (c_soc c)))
  (* 1234-1242 *)
  | Import_to_ES => Ok (one (charge_to_capacity (p_battery P) (c_soc c)))
  (* 1244-1251 *)
  | RES_to_export => Ok (one (RES_left c))
  end.

(** fixed_order.py:740-834, what a process writes into the results. *)
Definition write (p : process) (he : Q * Q) (r : fields) : fields :=
  let h := fst he in let e := snd he in
  match p with
  | RES_to_demand => r
  | ES_to_demand => upd (upd r ED_ES h) ES_discharging_to_demand h
  | Import_to_demand => upd (upd r ED_import h) GRID_import_for_elec_demand h
  | HP_RES_to_demand =>
      upd (upd (upd (upd r HD_HP_RES h) RES_HP_to_heat_demand e)
             HP_heat_from_RES_to_demand h) HP_elec_from_RES_to_demand e
  | EAUX_RES_to_demand => upd r AUX_RES_to_demand h
  | HP_import_to_demand =>
      upd (upd (upd (upd r HD_HP_import h) GRID_import_for_heat_pump_to_heat_demand e)
             HP_heat_from_import_to_demand h) HP_elec_from_import_to_demand e
  | TS_to_demand => upd (upd r HD_TS h) TS_discharging_total h
  | ES_to_HP_to_demand =>
      upd (upd (upd (upd r HD_HP_ES h) ES_discharging_to_HP e)
             HP_heat_from_ES_to_demand h) HP_elec_from_ES_to_demand e
  | AUX_to_demand => upd r HD_aux h
  | HP_RES_to_TS =>
      upd (upd (upd (upd r RES_HP_to_TS e) HP_heat_from_RES_to_TS h)
             HP_elec_from_RES_to_TS e) TS_HP_from_RES_to_TS h
  | EAUX_RES_to_TS => upd (upd r AUX_RES_to_TS h) TS_aux_to_TS h
  | HP_import_to_TS =>
      upd (upd (upd (upd r GRID_import_for_heat_pump_to_TS e) HP_heat_from_import_to_TS h)
             HP_elec_from_import_to_TS e) TS_HP_from_import_to_TS h
  | RES_to_ES => upd (upd r RES_ES h) ES_charging_from_RES h
  | Import_to_ES => upd (upd r GRID_import_for_ES h) ES_charging_from_import h
  | RES_to_export => upd (upd r RES_export h) GRID_total_export h
  end.

(** fixed_order.py:836-851, the process lists *)
Definition in_elec_unmet p := match p with ES_to_demand | Import_to_demand => true | _ => false end.
(** The processes tested together at controllers/fixed_order.py:726-887 (heat demand) *)
Definition in_heat_unmet p := match p with
  | HP_RES_to_demand | TS_to_demand | HP_import_to_demand | ES_to_HP_to_demand
  | AUX_to_demand | EAUX_RES_to_demand => true | _ => false end.
(** The processes tested together at controllers/fixed_order.py:726-887 (renewable electricity) *)
Definition in_RES_left p := match p with
  | HP_RES_to_demand | HP_RES_to_TS | RES_to_ES | RES_to_export
  | EAUX_RES_to_demand | EAUX_RES_to_TS => true | _ => false end.
(** The processes tested together at controllers/fixed_order.py:726-887 (heat pump) *)
Definition in_hp_usage p := match p with
  | HP_RES_to_demand | HP_RES_to_TS | HP_import_to_demand | HP_import_to_TS => true | _ => false end.
(** The process tested at controllers/fixed_order.py:726-887 (store discharging) *)
Definition in_ts_discharge p := match p with TS_to_demand => true | _ => false end.
(** The processes tested together at controllers/fixed_order.py:726-887 (store charging) *)
Definition in_ts_charge p := match p with
  | HP_RES_to_TS | HP_import_to_TS | EAUX_RES_to_TS => true | _ => false end.
(** The processes tested together at controllers/fixed_order.py:726-887 (back-up) *)
Definition in_aux p := match p with
  | EAUX_RES_to_demand | AUX_to_demand | EAUX_RES_to_TS => true | _ => false end.

(** fixed_order.py:853-887 *)
Definition update (p : process) (he : Q * Q) (c : checks) : checks :=
  let h := fst he in let e := snd he in
  {| elec_unmet := if in_elec_unmet p then elec_unmet c - h else elec_unmet c;
     heat_unmet := if in_heat_unmet p then heat_unmet c - h else heat_unmet c;
     RES_left := if in_RES_left p then RES_left c - e else RES_left c;
     hp_usage := if in_hp_usage p then hp_usage c + h else hp_usage c;
     ts_discharge := if in_ts_discharge p then ts_discharge c + h else ts_discharge c;
     ts_charge := if in_ts_charge p then ts_charge c + h else ts_charge c;
     c_soc := match p with
              | ES_to_demand => c_soc c + - h
              | ES_to_HP_to_demand => c_soc c + - e
              | RES_to_ES | Import_to_ES => c_soc c + h
              | _ => c_soc c
              end;
     aux_left := if in_aux p then aux_left c - h else aux_left c |}.

(** fixed_order.py:726-887 *)
Definition run_process (cr : checks * fields) (p : process) : res (checks * fields) :=
  let (c, r) := cr in
  he <- amount p c ;;
  Ok (update p he c, write p he r).

(** fixed_order.py:193-200 and 468-475: the loop over the order; the key lookup of a
    number happens when its turn comes. *)
Definition run_number (key : Z -> res process) (cr : checks * fields) (n : Z) : res (checks * fields) :=
  p <- key n ;; run_process cr p.
(** The loops over the order strings, controllers/fixed_order.py:192-199 = 465-472 *)
Definition run_order (key : Z -> res process) (order : list Z) (cr : checks * fields)
  : res (checks * fields) := foldM (run_number key) order cr.

Variable soc : Q.
Let bal := surplus_deficit_hour (i_wind I + i_PV I) (i_elec_demand I).

(** fixed_order.py:183-191 = 458-466 *)
Definition init_checks : checks :=
  {| elec_unmet := bal_deficit bal; heat_unmet := i_heat_demand I; RES_left := bal_surplus bal;
     hp_usage := 0; ts_discharge := 0; ts_charge := 0; c_soc := soc; aux_left := p_max_heat P |}.

(** fixed_order.py:172-177 *)
Definition init_above : fields :=
  let r := set_of_results in
  let r := upd r GRID_surplus (bal_surplus bal) in
  let r := upd r GRID_deficit (bal_deficit bal) in
  let r := upd r GRID_match (bal_surplus bal - bal_deficit bal) in
  let r := upd r GRID_import_price (i_import_price I) in
  let r := upd r HP_cop (cop perf_) in
  upd r HP_duty (duty perf_).
(** fixed_order.py:444-450 *)
Definition init_below : fields := upd init_above GRID_export_price (p_export_price P).

(** fixed_order.py:205-228 = 478-505: heat pump totals *)
Definition hp_totals (r : fields) : fields :=
  let r := upd r HD_HP (r HD_HP_RES + r HD_HP_import + r HD_HP_ES) in
  let r := upd r HP_heat_to_heat_demand
    (r HP_heat_from_RES_to_demand + r HP_heat_from_import_to_demand + r HP_heat_from_ES_to_demand) in
  let r := upd r HP_heat_to_TS (r HP_heat_from_RES_to_TS + r HP_heat_from_import_to_TS) in
  let r := upd r HP_heat_total_output (r HP_heat_to_heat_demand + r HP_heat_to_TS) in
  let r := upd r HP_elec_RES_usage (r HP_elec_from_RES_to_demand + r HP_elec_from_RES_to_TS) in
  let r := upd r HP_elec_import_usage
    (r HP_elec_from_import_to_demand + r HP_elec_from_import_to_TS) in
  upd r HP_elec_total_usage (r HP_elec_RES_usage + r HP_elec_import_usage).

(** fixed_order.py:231-236 = 528-533: tank totals *)
Definition ts_totals (r : fields) : fields :=
  let r := upd r TS_HP_to_TS (r TS_HP_from_RES_to_TS + r TS_HP_from_import_to_TS) in
  upd r TS_charging_total (r TS_HP_to_TS + r TS_aux_to_TS).

(** fixed_order.py:239-242 = 508-511 *)
Definition aux_demand (r : fields) : fields :=
  upd r AUX_demand (r AUX_RES_to_demand + r AUX_RES_to_TS + r HD_aux).

(** fixed_order.py:246-259 = 512-525: usage, cost and mass of the back-up.
    Price and energy density of a fuel are present for every fuel but electricity
    (make_aux); their absence would be a TypeError. *)
Definition aux_accounts (r : fields) : res fields :=
  usage <- fuel_usage (a_efficiency (p_aux P)) (r AUX_demand) ;;
  let r := upd r AUX_usage usage in
  do (aux_price, density) <~
    (if is_electric then Ok (r GRID_import_price, 0)
     else match a_cost (p_aux P), a_energy_density (p_aux P) with
          | Some c, Some d => Ok (c, d)
          | _, _ => Err TypeError
          end) ;;
  let r := upd r AUX_cost (aux_price * (r AUX_demand - r AUX_RES_to_demand - r AUX_RES_to_TS)) in
  Ok (upd r AUX_mass (density * r AUX_usage)).

(** fixed_order.py:267-273 etc.: state of the tank from the net charging. *)
Definition state_of (ts_match : Q) : tank_state :=
  if qlt 0 ts_match then Charging else if qlt ts_match 0 then Discharging else Standby.

Let new_nodes (s : tank_state) (thermal_output heat_demand : Q) : res nodes :=
  t_new (p_tank P) s nodes_temp (i_source_temp I) (i_flow_temp I) thermal_output heat_demand timestep.

(** fixed_order.py:261-284 (ts_match exact) and 535-557 (ts_match rounded to 0.1) *)
Definition tank_step (ts_match : Q) (r : fields) : res nodes :=
  if qeq (t_capacity (p_tank P)) 0 then Ok nodes_temp
  else new_nodes (state_of ts_match) (r HP_heat_total_output + r AUX_demand) (i_heat_demand I).

(** fixed_order.py:287-299 = 560-573: battery totals and new charge level *)
Definition es_totals (r : fields) : fields :=
  let r := upd r ES_charging_total (r ES_charging_from_RES + r ES_charging_from_import) in
  let r := upd r ES_discharging_total (r ES_discharging_to_demand + r ES_discharging_to_HP) in
  upd r ES_final_soc (new_soc (p_battery P) (r ES_charging_total - r ES_discharging_total) soc).

(** fixed_order.py:302-330 = 576-604: grid totals and cash flow *)
Definition grid_totals (r : fields) : fields :=
  let r := upd r GRID_import_for_heat_pump_total
    (r GRID_import_for_heat_pump_to_heat_demand + r GRID_import_for_heat_pump_to_TS) in
  let base := r GRID_import_for_elec_demand + r GRID_import_for_heat_pump_total + r GRID_import_for_ES in
  let r := upd r GRID_total_import
    (if is_electric then base + r AUX_demand - r AUX_RES_to_demand - r AUX_RES_to_TS else base) in
  let r := upd r GRID_import_costs (r GRID_total_import * r GRID_import_price / 1000) in
  let r := upd r GRID_export_income (r GRID_total_export * p_export_price P / 1000) in
  upd r GRID_cashflow (r GRID_export_income - r GRID_import_costs).

(** fixed_order.py:337-339 = 615-617 *)
Definition min_out : Q := p_min_output P * p_min_runtime P / 60 / 100 * duty perf_.

(** fixed_order.py:357-385 = 634-662: all heat pump quantities set to zero *)
Definition hp_zeroed : list field :=
  [ HP_heat_total_output; HP_heat_to_heat_demand; HP_heat_to_TS; HP_heat_from_RES_to_demand;
    HP_heat_from_RES_to_TS; HP_heat_from_import_to_demand; HP_heat_from_import_to_TS;
    HP_heat_from_ES_to_demand; HP_elec_total_usage; HP_elec_RES_usage; HP_elec_import_usage;
    HP_elec_from_RES_to_demand; HP_elec_from_RES_to_TS; HP_elec_from_import_to_demand;
    HP_elec_from_import_to_TS; HP_elec_from_ES_to_demand;
    HD_HP; HD_HP_RES; HD_HP_import; HD_HP_ES;
    RES_HP_to_heat_demand; RES_HP_to_TS;
    TS_HP_to_TS; TS_HP_from_RES_to_TS; TS_HP_from_import_to_TS ].
(** controllers/fixed_order.py:354-382 = 631-659: setting a list of entries to 0 *)
Definition zero_fields (ks : list field) (r : fields) : fields :=
  fold_left (fun r k => upd r k 0) ks r.

(** fixed_order.py:407-419 = 693-705: the increase is booked as grid-driven charging *)
Definition hp_topped_up (inc : Q) (r : fields) : fields :=
  let r := upd r HP_heat_from_import_to_TS (r HP_heat_from_import_to_TS + inc) in
  let r := upd r HP_heat_to_TS (r HP_heat_to_TS + inc) in
  let r := upd r HP_heat_total_output (r HP_heat_total_output + inc) in
  let r := upd r HP_elec_total_usage (r HP_elec_total_usage + inc / r HP_cop) in
  let r := upd r HP_elec_import_usage (r HP_elec_import_usage + inc / r HP_cop) in
  let r := upd r HP_elec_from_import_to_TS (r HP_elec_from_import_to_TS + inc / r HP_cop) in
  let r := upd r TS_HP_to_TS (r TS_HP_to_TS + inc) in
  upd r TS_HP_from_import_to_TS (r TS_HP_from_import_to_TS + inc).

(** One element of [results], controllers/fixed_order.py:923-1026: numbers and [final_nodes_temp] *)
Record record := { rf : fields; r_nodes : nodes }.

(** fixed_order.py:420-434 = 707-722.  With a zero-capacity tank final_nodes_temp in
    the results keeps its value. *)
Definition top_up (inc ts_match : Q) (rc : record) : res record :=
  let r := hp_topped_up inc (rf rc) in
  if qeq (t_capacity (p_tank P)) 0 then Ok {| rf := r; r_nodes := r_nodes rc |}
  else
    n <- new_nodes (state_of (ts_match + inc)) (r HP_heat_total_output) (i_heat_demand I) ;;
    Ok {| rf := r; r_nodes := n |}.

(** fixed_order.py:356-403: heat pump switched off, above the setpoint *)
Definition switch_off_above (rc : record) : res record :=
  let r := zero_fields hp_zeroed (rf rc) in
  n <- (if qeq (t_capacity (p_tank P)) 0 then Ok (r_nodes rc)
        else new_nodes Discharging 0 (i_heat_demand I)) ;;
  Ok {| rf := upd r AUX_demand (i_heat_demand I - r TS_discharging_total); r_nodes := n |}.

(** fixed_order.py:633-690: heat pump switched off, below the setpoint.  Line 677
    overwrites the local heat_demand used again at 687-690. *)
Definition switch_off_below (rc : record) : res record :=
  let r := zero_fields hp_zeroed (rf rc) in
  let r := upd r TS_charging_total 0 in
  m <- max_energy Discharging ;;
  let r := upd r TS_discharging_total (pmin m (i_heat_demand I)) in
  do (n, heat_demand) <~
    (if qeq (t_capacity (p_tank P)) 0 then Ok (r_nodes rc, i_heat_demand I)
     else
       let heat_demand := r TS_discharging_total in
       n <- new_nodes Discharging 0 heat_demand ;;
       Ok (n, heat_demand)) ;;
  Ok {| rf := upd r AUX_demand (heat_demand - r TS_discharging_total); r_nodes := n |}.

(** fixed_order.py:340-356 and 618-633: [threshold] is 0.1 above and 0 below. *)
Definition correct (threshold : Q) (off : record -> res record) (ts_match : Q) (c : checks) (rc : record)
  : res record :=
  let usage := rf rc HP_heat_total_output in
  if qlt usage min_out && qlt threshold usage then
    let inc := min_out - usage in
    m <- max_energy Charging ;;
    let tank_charge_left := m + ts_discharge c - ts_charge c in
    if qlt tank_charge_left inc then off rc else top_up inc ts_match rc
  else Ok rc.

(** fixed_order.py:166-332, up to the minimum-output correction *)
Definition above_uncorrected : res (checks * record) :=
  do (c, r) <~ run_order above_key (p_order_above P) (init_checks, init_above) ;;
  let r := hp_totals r in
  let r := ts_totals r in
  let r := aux_demand r in
  let r := upd r HD_aux (r HD_aux + r AUX_RES_to_demand) in  (* 243-245 *)
  r <- aux_accounts r ;;
  n <- tank_step (ts_charge c - ts_discharge c) r ;;
  let r := es_totals r in
  let r := grid_totals r in
  Ok (c, {| rf := r; r_nodes := n |}).

(** fixed_order.py:166-436 *)
Definition above_setpoint : res record :=
  do (c, rc) <~ above_uncorrected ;;
  correct (1 # 10) switch_off_above (ts_charge c - ts_discharge c) c rc.

(** fixed_order.py:438-608, up to the minimum-output correction *)
Definition below_uncorrected : res (checks * record) :=
  do (c, r) <~ run_order below_key (p_order_below P) (init_checks, init_below) ;;
  let r := hp_totals r in
  let r := aux_demand r in
  r <- aux_accounts r ;;
  let r := ts_totals r in
  n <- tank_step (round1 (ts_charge c - ts_discharge c)) r ;;
  let r := es_totals r in
  let r := grid_totals r in
  let r := upd r GRID_import_below_setpoint (r GRID_total_import) in
  Ok (c, {| rf := r; r_nodes := n |}).

(** fixed_order.py:438-724 *)
Definition below_setpoint : res record :=
  do (c, rc) <~ below_uncorrected ;;
  correct 0 switch_off_below (round1 (ts_charge c - ts_discharge c)) c rc.

(** fixed_order.py:138-150 *)
Definition complete (rc : record) : record :=
  let r := rf rc in
  let r := upd r RES_elec_demand (bal_RES_used bal) in
  let r := upd r ED_RES (bal_RES_used bal) in
  let r := upd r RES_generation_total (i_wind I + i_PV I) in
  let r := upd r RES_wind (i_wind I) in
  let r := upd r RES_PV (i_PV I) in
  let r := upd r RES_HP (r HP_elec_RES_usage) in
  let r := upd r RES_aux (r AUX_RES_to_demand + r AUX_RES_to_TS) in
  let r := upd r ED_elec_demand (i_elec_demand I) in
  let r := upd r HD_heat_demand (i_heat_demand I) in
  {| rf := r; r_nodes := r_nodes rc |}.

(** fixed_order.py:125-150, one pass of the loop body *)
Definition hour_step : res record :=
  rc <- (if qlt (p_setpoint P) (i_import_price I) then above_setpoint else below_setpoint) ;;
  Ok (complete rc).
End Hour.

(** controllers/fixed_order.py:59-164: [series[timestep]] on a pandas series with index 0, 1, 2, ...: negative and
    missing labels raise KeyError. *)
Definition label {A} (l : list A) (t : Z) : res A :=
  if (t <? 0)%Z then Err KeyError
  else match nth_error l (Z.to_nat t) with Some x => Ok x | None => Err KeyError end.

(** fixed_order.py:102-157, the loop; state is (node temperatures, charge level). *)
Fixpoint run_loop (P : plant) (year : list hour_in) (ts : list Z) (st : nodes * Q) : res (list record) :=
  match ts with
  | [] => Ok []
  | t :: ts' =>
      I <- label year t ;;
      rc <- hour_step P I t (fst st) (snd st) ;;
      rest <- run_loop P year ts' (r_nodes rc, rf rc ES_final_soc) ;;
      Ok (rc :: rest)
  end.

(** fixed_order.py:59-164.  The returned list is what is pickled at 159-163; an
    exception means nothing is written.  Simplification: the yearly series are given
    row by row, and p_max_heat is a field of the plant. *)
Definition run_timesteps (P : plant) (year : list hour_in) (first_hour timesteps : Z) : res (list record) :=
  _ <- surplus_deficit_year (map (fun i => i_wind i + i_PV i) year) (map i_elec_demand year) ;;
  let final_hour := (first_hour + timesteps)%Z in
  if (8760 <? final_hour)%Z then Err ValueError
  else run_loop P year (zrange first_hour final_hour)
         (t_init (p_tank P), init_state (p_battery P)).
