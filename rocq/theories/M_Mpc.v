(** Model of /repo/pylesa/controllers/mpc.py.

    The optimiser (GEKKO, an external program) is a parameter: a function from the
    problem handed to it to either the values of the variables at every time point
    or an exception.  Nothing is assumed about it here.

    Simplifications: the yearly series are given row by row ([hour_in], as in
    [M_FixedOrder]), so a missing row is a KeyError wherever it is read; a division by
    a zero COP is Coq's x / 0 = 0 (numpy: inf), the theorems assume positive COPs; the
    comparison of the heat pump object with 0 (183) is never true and is left out. *)
From Verif Require Import Base M_Battery M_HeatPump M_Tools M_FixedOrder.

(** The variables of the optimisation at one time point, mpc.py:152-256 (HPt is the
    intermediate of line 202). *)
Record point := {
  v_RES_ed : Q; v_export : Q; v_imp_ed : Q;
  v_HPtrd : Q; v_HPtrs : Q; v_HPtid : Q; v_HPtis : Q; v_HPtesd : Q;
  v_HP_status : Q; v_HPt_var : Q;
  v_TSc : Q; v_TSd : Q; v_soc : Q;
  v_ESc : Q; v_ESc_res : Q; v_ESc_imp : Q;
  v_ESd : Q; v_ESd_hp : Q; v_ESd_aux : Q; v_ESd_ed : Q; v_soc_ES : Q;
  v_aux_rd : Q; v_aux_rs : Q; v_aux_d : Q; v_aux_s : Q; v_aux : Q }.
(** mpc.py:202 *)
Definition v_HPt (v : point) : Q := v_HP_status v * v_HPt_var v.

(** The parameters of one time point, mpc.py:149-195 (max_cap is separate). *)
Record phour := {
  q_price : Q; q_RES : Q; q_elec : Q; q_heat : Q; q_cop : Q; q_duty : Q; q_HP_min : Q }.

(** controllers/mpc.py:140-320: What is handed to the optimiser.  [b_start] are the values given to m.Var, i.e. the
    state at the first time point; equations 264-311 are those of [S_Mpc]. *)
Record problem := {
  b_start : point;
  b_hours : list phour;
  b_max_cap : list Q;
  b_battery : battery;
  b_electric : bool;
  b_aux_cost : option Q;   (* None: the hourly import price, 258-262 *)
  b_aux_cap : Q;
  b_export_cost : Q }.

(** [m.solve], controllers/mpc.py:322-342: GEKKO is a parameter *)
Definition optimiser := problem -> res (list point).

(** prev_result / next_results, mpc.py:528-542: the values of the variables and the
    final node temperatures.  The entries HPt, HPtesd, state and import_cost are never
    read. *)
Record prev := { pr_point : point; pr_nodes : nodes }.

(** controllers/mpc.py:22-51: Plant, prediction horizon, and [rt] * number_nodes (85-87). *)
Record mpc := { m_plant : plant; m_horizon : Z; m_return_nodes : nodes }.

(** controllers/mpc.py:72-91: arr[i] = x on a numpy array *)
Fixpoint set_nth {A} (i : nat) (x : A) (l : list A) {struct l} : res (list A) :=
  match l, i with
  | [], _ => Err IndexError
  | _ :: l', O => Ok (x :: l')
  | y :: l', S i' => r <- set_nth i' x l' ;; Ok (y :: r)
  end.

Section Mpc.
Variable X : mpc.
Let P := m_plant X.
Let T := p_tank P.
Let electric : bool := is_electric P.

(** ** mpc.py:53-117, of which only max_capacity depends on the period. *)
Definition pre_final_hour (first_hour timesteps : Z) : Z :=
  let total := (timesteps + m_horizon X)%Z in
  let final_hour := (first_hour + total)%Z in
  if (8759 - m_horizon X <=? final_hour)%Z then 8759%Z else final_hour.

(** controllers/mpc.py:83-91, one turn of the loop *)
Definition max_cap_step (year : list hour_in) (first_hour : Z) (arr : list Q) (timestep : Z) : res (list Q) :=
  I <- label year timestep ;;
  c <- t_max T Charging (m_return_nodes X) (i_source_temp I) (i_flow_temp I) timestep ;;
  set_nth (Z.to_nat (timestep - first_hour)) c arr.

(** controllers/mpc.py:53-117 *)
Definition pre_calculation (year : list hour_in) (first_hour timesteps : Z) : res (list Q) :=
  let total := (timesteps + m_horizon X)%Z in
  if (total <? 0)%Z then Err ValueError
  else
    arr <- foldM (max_cap_step year first_hour)
             (zrange first_hour (pre_final_hour first_hour timesteps)) (repeat 0 (Z.to_nat total)) ;;
    _ <- surplus_deficit_year (map (fun i => i_wind i + i_PV i) year) (map i_elec_demand year) ;;
    Ok arr.

(** ** mpc.py:119-320, the problem *)
Definition phour_of (I : hour_in) : phour :=
  let pf := i_perf I in
  {| q_price := i_import_price I; q_RES := i_wind I + i_PV I; q_elec := i_elec_demand I;
     q_heat := i_heat_demand I; q_cop := cop pf; q_duty := duty pf;
     q_HP_min := duty pf * p_min_output P * p_min_runtime P / 60 / 100 |}.

(** controllers/mpc.py:155-256: note that HPtesd starts from prev_result['HPtis'] (177). *)
Definition start_point (v : point) (init_soc : Q) : point :=
  {| v_RES_ed := v_RES_ed v; v_export := v_export v; v_imp_ed := v_imp_ed v;
     v_HPtrd := v_HPtrd v; v_HPtrs := v_HPtrs v; v_HPtid := v_HPtid v; v_HPtis := v_HPtis v;
     v_HPtesd := v_HPtis v; v_HP_status := v_HP_status v; v_HPt_var := v_HPt_var v;
     v_TSc := v_TSc v; v_TSd := v_TSd v; v_soc := init_soc;
     v_ESc := v_ESc v; v_ESc_res := v_ESc_res v; v_ESc_imp := v_ESc_imp v;
     v_ESd := v_ESd v; v_ESd_hp := v_ESd_hp v; v_ESd_aux := v_ESd_aux v; v_ESd_ed := v_ESd_ed v;
     v_soc_ES := v_soc_ES v;
     v_aux_rd := v_aux_rd v; v_aux_rs := v_aux_rs v; v_aux_d := v_aux_d v; v_aux_s := v_aux_s v;
     v_aux := v_aux v |}.

(** controllers/mpc.py:140-320.  numpy's linspace raises ValueError for a negative number of points. *)
Definition make_problem (year : list hour_in) (max_capacity : list Q) (hour first_hour final_hour : Z) (pv : prev)
  : res problem :=
  let number_timesteps := (final_hour - hour)%Z in
  if (number_timesteps <? 0)%Z then Err ValueError
  else
    rows <- mapM (label year) (zrange hour final_hour) ;;
    I <- label year hour ;;
    init_soc <- t_max T Discharging (pr_nodes pv) (i_source_temp I) (i_flow_temp I) hour ;;
    Ok {| b_start := start_point (pr_point pv) init_soc;
          b_hours := map phour_of rows;
          b_max_cap := pslice (Z.to_nat (hour - first_hour)) (Z.to_nat (final_hour - first_hour)) max_capacity;
          b_battery := p_battery P; b_electric := electric;
          b_aux_cost := if electric then None else a_cost (p_aux P);
          b_aux_cap := p_max_heat P; b_export_cost := p_export_price P |}.

(** ** mpc.py:346-372, tank charging, discharging and state from the answer; the
    temperatures are those of hour 1 of the year, whatever the hour. *)
Definition net_tank (year : list hour_in) (n : nodes) (v : point) : res (Q * Q * tank_state) :=
  let TSc_ := round2 (v_TSc v - v_TSd v) in
  let TSd_ := round2 (v_TSd v - v_TSc v) in
  if qlt TSd_ TSc_ then
    I1 <- label year 1 ;;
    max_c <- t_max T Charging n (i_source_temp I1) (i_flow_temp I1) 1 ;;
    let c := pmin max_c TSc_ in
    Ok (c, 0, if qeq c 0 then Standby else Charging)
  else if qlt TSc_ TSd_ then
    I1 <- label year 1 ;;
    max_d <- t_max T Discharging n (i_source_temp I1) (i_flow_temp I1) 1 ;;
    let d := pmin max_d TSd_ in
    Ok (0, d, if qeq d 0 then Standby else Discharging)
  else Ok (v_TSc v, v_TSd v, Standby).

(** controllers/mpc.py:378-386: with a tank and another fuel than electricity final_nodes_temp is never
    assigned. *)
Definition final_nodes (year : list hour_in) (hour : Z) (n : nodes) (cds : Q * Q * tank_state) : res (option nodes) :=
  let '(c, d, s) := cds in
  if qeq (t_capacity T) 0 then Ok (Some n)
  else if electric then
    I1 <- label year 1 ;;
    n' <- t_new T s n (i_source_temp I1) (i_flow_temp I1) c d (hour + 1)%Z ;;
    Ok (Some n')
  else Ok None.

(** ** mpc.py:390-526, the record.  [I] is the row of hour + 1, [p] the parameters of
    time point 1 ([hd[h]], [IC[h]]), [c] and [d] the tank charging and discharging,
    [el] whether the back-up is electric. *)
Definition flows (el : bool) (I : hour_in) (p : phour) (v : point) (c d : Q) : fields :=
  let r := set_of_results in
  let eff := b_discharge_eff (p_battery P) in
  (* 395-399 *)
  let r := upd r ED_elec_demand (i_elec_demand I) in
  let r := upd r ED_RES (v_RES_ed v) in
  let r := upd r ED_import (v_imp_ed v) in
  let r := upd r ED_ES (v_ESd_ed v * eff) in
  (* 402-411 *)
  let r := upd r RES_generation_total (i_wind I + i_PV I) in
  let r := upd r RES_wind (i_wind I) in
  let r := upd r RES_PV (i_PV I) in
  let r := upd r RES_elec_demand (v_RES_ed v) in
  let r := upd r RES_HP ((v_HPtrd v + v_HPtrs v) / cop (i_perf I)) in
  let r := if el then upd r RES_aux (v_aux_rd v + v_aux_rs v) else r in
  let r := upd r RES_export (v_export v) in
  (* 414-436 *)
  let r := upd r HP_cop (cop (i_perf I)) in
  let r := upd r HP_duty (duty (i_perf I)) in
  let r := upd r HP_heat_total_output (v_HPt v) in
  let r := upd r HP_heat_from_ES_to_demand (v_HPtesd v) in
  let r := upd r HP_heat_to_heat_demand (pmin (r HP_heat_total_output) (q_heat p)) in
  let r := upd r HP_heat_to_TS (r HP_heat_total_output - r HP_heat_to_heat_demand) in
  let r := upd r HP_elec_total_usage (r HP_heat_total_output / r HP_cop) in
  let r := upd r HP_elec_RES_usage (r RES_HP) in
  let r := upd r HP_elec_from_ES_to_demand (r HP_heat_from_ES_to_demand / r HP_cop) in
  let r := upd r HP_elec_import_usage
    (r HP_elec_total_usage - r HP_elec_RES_usage - r HP_elec_from_ES_to_demand) in
  (* 439-442 *)
  let r := upd r HD_TS d in
  let r := upd r HD_heat_demand (i_heat_demand I) in
  let r := upd r HD_HP (r HP_heat_to_heat_demand) in
  let r := upd r HD_aux (v_aux v) in
  (* 445-455 *)
  let r := upd r TS_charging_total c in
  let r := upd r TS_discharging_total d in
  let r := upd r TS_HP_to_TS (r HP_heat_to_TS) in
  let r := upd r TS_HP_from_RES_to_TS (r HP_heat_from_RES_to_TS) in
  let r := upd r TS_HP_from_import_to_TS (r HP_heat_from_import_to_TS) in
  let r := upd r TS_aux_to_TS (r TS_charging_total - r TS_HP_to_TS) in
  (* 459-475 *)
  let r := upd r ES_charging_from_RES (v_ESc_res v) in
  let r := upd r ES_charging_from_import (v_ESc_imp v) in
  let r := upd r ES_charging_total (r ES_charging_from_RES + r ES_charging_from_import) in
  let r := upd r ES_discharging_to_demand (v_ESd_ed v * eff) in
  let r := upd r ES_discharging_to_HP (v_ESd_hp v) in
  let r := upd r ES_discharging_to_aux (v_ESd_aux v) in
  let r := upd r ES_discharging_total
    (r ES_discharging_to_demand + r ES_discharging_to_HP + r ES_discharging_to_aux) in
  let r := upd r ES_final_soc (v_soc_ES v) in
  (* 478 *)
  upd r AUX_demand (v_aux v).

(** controllers/mpc.py:479-488: the import price is read from the results before it is set at 511.  A fuel
    without price or density is a TypeError. *)
Definition mpc_aux_accounts (r : fields) : res fields :=
  usage <- fuel_usage (a_efficiency (p_aux P)) (r AUX_demand) ;;
  let r := upd r AUX_usage usage in
  do (aux_price, density) <~
    (if electric then Ok (r GRID_import_price / 1000, 0)
     else match a_cost (p_aux P), a_energy_density (p_aux P) with
          | Some c, Some d => Ok (c / 1000, d)
          | _, _ => Err TypeError
          end) ;;
  let r := upd r AUX_cost (aux_price * r AUX_demand) in
  Ok (upd r AUX_mass (density * r AUX_usage)).

(** controllers/mpc.py:491-526 *)
Definition mpc_grid_accounts (I : hour_in) (p : phour) (r : fields) : fields :=
  let bal := surplus_deficit_hour (i_wind I + i_PV I) (i_elec_demand I) in
  let r := upd r GRID_import_for_elec_demand (r ED_import) in
  let r := upd r GRID_import_for_heat_pump_total (r HP_elec_import_usage) in
  let r := upd r GRID_import_for_ES (r ES_charging_from_import) in
  let r := upd r GRID_total_export (r RES_export) in
  let base := r GRID_import_for_elec_demand + r GRID_import_for_heat_pump_total + r GRID_import_for_ES in
  let r := upd r GRID_total_import (if electric then base + r AUX_demand - r RES_aux else base) in
  let r := upd r GRID_import_price (q_price p) in
  let r := upd r GRID_import_costs (r GRID_total_import * r GRID_import_price / 1000) in
  let r := upd r GRID_export_income (r GRID_total_export * p_export_price P / 1000) in
  let r := upd r GRID_cashflow (r GRID_export_income - r GRID_import_costs) in
  let r := upd r GRID_surplus (bal_surplus bal) in
  let r := upd r GRID_deficit (bal_deficit bal) in
  upd r GRID_match (bal_match bal).

(** controllers/mpc.py:528-542: the charging and discharging assigned at 354-366 are what is handed on. *)
Definition with_tank (v : point) (c d : Q) : point :=
  {| v_RES_ed := v_RES_ed v; v_export := v_export v; v_imp_ed := v_imp_ed v;
     v_HPtrd := v_HPtrd v; v_HPtrs := v_HPtrs v; v_HPtid := v_HPtid v; v_HPtis := v_HPtis v;
     v_HPtesd := v_HPtesd v; v_HP_status := v_HP_status v; v_HPt_var := v_HPt_var v;
     v_TSc := c; v_TSd := d; v_soc := v_soc v;
     v_ESc := v_ESc v; v_ESc_res := v_ESc_res v; v_ESc_imp := v_ESc_imp v;
     v_ESd := v_ESd v; v_ESd_hp := v_ESd_hp v; v_ESd_aux := v_ESd_aux v; v_ESd_ed := v_ESd_ed v;
     v_soc_ES := v_soc_ES v;
     v_aux_rd := v_aux_rd v; v_aux_rs := v_aux_rs v; v_aux_d := v_aux_d v; v_aux_s := v_aux_s v;
     v_aux := v_aux v |}.

(** ** mpc.py:344-544, everything after the optimiser *)
Definition post_process (year : list hour_in) (hour : Z) (pv : prev) (b : problem) (answer : list point)
  : res (record * prev) :=
  v <- pidx answer 1 ;;
  cds <- net_tank year (pr_nodes pv) v ;;
  fn <- final_nodes year hour (pr_nodes pv) cds ;;
  let '(c, d, s) := cds in
  I <- label year (hour + 1)%Z ;;
  p <- pidx (b_hours b) 1 ;;
  let r := flows electric I p v c d in
  n <- (match fn with Some n => Ok n | None => Err UnboundLocalError end) ;;
  r <- mpc_aux_accounts r ;;
  Ok ({| rf := mpc_grid_accounts I p r; r_nodes := n |}, {| pr_point := with_tank v c d; pr_nodes := n |}).

(** mpc.py:119-544 *)
Definition solve (opt : optimiser) (year : list hour_in) (max_capacity : list Q)
  (hour first_hour final_hour : Z) (pv : prev) : res (record * prev) :=
  b <- make_problem year max_capacity hour first_hour final_hour pv ;;
  answer <- opt b ;;
  post_process year hour pv b answer.

(** ** mpc.py:595-610 = 647-662: the state before the first hour *)
Definition initial_point : point :=
  {| v_RES_ed := 0; v_export := p_export_price P; v_imp_ed := 0;
     v_HPtrd := 0; v_HPtrs := 0; v_HPtid := 0; v_HPtis := 0; v_HPtesd := 0;
     v_HP_status := 0; v_HPt_var := 0; v_TSc := 0; v_TSd := 0; v_soc := 0;
     v_ESc := 0; v_ESc_res := 0; v_ESc_imp := 0;
     v_ESd := 0; v_ESd_hp := 0; v_ESd_aux := 0; v_ESd_ed := 0; v_soc_ES := init_state (p_battery P);
     v_aux_rd := 0; v_aux_rs := 0; v_aux_d := 0; v_aux_s := 0; v_aux := 0 |}.
(** controllers/mpc.py:586-610, the state before the first hour *)
Definition initial_prev : prev := {| pr_point := initial_point; pr_nodes := t_init T |}.

(** mpc.py:570-584 and 611-620: the record made up from the first hour *)
Definition made_up_record (I : hour_in) : record :=
  let duty_ := duty (i_perf I) in
  let hd := i_heat_demand I in
  let HPt := if qle hd duty_ then hd else duty_ in
  let aux_ := if qle hd duty_ then 0 else hd - duty_ in
  let r := set_of_results in
  let r := upd r ES_final_soc (init_state (p_battery P)) in
  let r := upd r HP_heat_total_output HPt in
  let r := upd r AUX_demand aux_ in
  let r := upd r GRID_import_price (i_import_price I) in
  let r := upd r HD_heat_demand hd in
  let r := upd r HP_cop (cop (i_perf I)) in
  let r := upd r HP_duty duty_ in
  {| rf := r; r_nodes := t_init T |}.

(** mpc.py:563-565 *)
Definition horizon_end (hour : Z) : Z :=
  let e := (hour + m_horizon X)%Z in
  if (8759 <? e)%Z then 8759%Z else e.

(** mpc.py:563-667, one pass of the loop *)
Definition hour_pass (opt : optimiser) (year : list hour_in) (max_capacity : list Q) (first_hour : Z)
  (acc : list record * list prev) (hour : Z) : res (list record * list prev) :=
  let (results, nexts) := acc in
  let fh := horizon_end hour in
  let run pv := solve opt year max_capacity hour first_hour fh pv in
  if (hour =? first_hour)%Z || (hour =? 8758)%Z then
    I <- label year first_hour ;;
    let results := results ++ [made_up_record I] in
    let nexts := nexts ++ [initial_prev] in
    if (hour =? first_hour)%Z then
      do (r, n) <~ run initial_prev ;;
      Ok (results ++ [r], nexts ++ [n])
    else Ok (results, nexts)
  else
    match (pv <- pidx nexts (Z.to_nat (hour - first_hour)) ;; run pv) with
    | Ok (r, n) => Ok (results ++ [r], nexts ++ [n])
    | Err _ => do (r, n) <~ run initial_prev ;; Ok (results ++ [r], nexts ++ [n])
    end.

(** mpc.py:546-675; the list is what is pickled at 670-673. *)
Definition moving_horizon (opt : optimiser) (year : list hour_in) (max_capacity : list Q)
  (first_hour timesteps : Z) : res (list record) :=
  let final_hour := (first_hour + timesteps)%Z in
  if (8760 <? final_hour)%Z then Err ValueError
  else
    do (results, nexts) <~ foldM (hour_pass opt year max_capacity first_hour)
      (zrange first_hour (final_hour - 1)) ([], []) ;;
    Ok results.

(** main.py:26-32 *)
Definition mpc_run (opt : optimiser) (year : list hour_in) (first_hour timesteps : Z) : res (list record) :=
  max_capacity <- pre_calculation year first_hour timesteps ;;
  moving_horizon opt year max_capacity first_hour timesteps.
End Mpc.
