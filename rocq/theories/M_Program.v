(** Model of a whole run of the program (main.py:40-140) without its files: from the workbook over
    the sweep and the controllers to the pickled results, the figures and the tables.

    Simplifications: cells are taken to hold the kind of value that is needed, as in [M_Init].  A
    missing value of the wind models is refused (TypeError); Python goes on and writes nan.  The hours
    are put together before the first one is simulated; Python looks every value up when its hour comes,
    but at that point all series are known to have 8760 entries.  What the output process of a
    two-process run does is the same as on a single core (C36); its timing is not repeated here. *)
From Coq Require Import String.
From Verif Require Import Base M_Battery M_HeatPump M_Tools M_FixedOrder M_Regression M_Excel M_Init.
From Verif Require M_Tank M_Grid M_Renewables M_Mpc M_Sweep M_Kpi M_Plots.
Local Open Scope list_scope.

Section PROGRAM.
Variable L : libraries.
(** pvlib's ModelChain, power/renewables.py:306-335 *)
Variable run_pv : M_Renewables.pvlib_model (lib_module L) (lib_inverter L).
(** The real-valued COP of heat/models/lorentz.py:85-116 *)
Variable lorentz_cop : lorentz_spec -> Q -> Q -> Q -> Q -> Q.
(** gekko, controllers/mpc.py:322-344 *)
Variable optimise : M_Mpc.optimiser.

(** ** What both controllers hold, controllers/fixed_order.py:27-57 and controllers/mpc.py:22-51 *)
Record held := {
  q_parts : system L;
  q_source : list Q; q_flow : list Q; q_elec : list Q; q_heat : list Q;
  q_return : Q; q_delta : Q;
  q_import : list Q; q_export : Q }.
(** controllers/fixed_order.py:32-52 = controllers/mpc.py:27-51; io/inputs.py:145-157.  [import_cost_series]
    returns None for a tariff [init] does not accept; None cannot be indexed. *)
Definition hold (k : container) : res held :=
  o <- init (lib_width L) (lib_pi L) (lib_cp L) (lib_fit L) (lib_wind L) (lib_module L) (lib_inverter L)
         (lib_cec L) (lib_sandia L) (lib_inverters L) k ;;
  source <- numbers (c_demand k) "temp_source" ;; flow <- numbers (c_demand k) "temp_flow" ;;
  elec <- numbers (c_demand k) "electrical demand" ;; heat <- numbers (c_demand k) "heat demand" ;;
  ret <- number (c_temp_return k) ;; delta <- number (c_source_delta_t k) ;;
  prices <- M_Grid.import_cost_series (o_grid o) ;;
  prices <- match prices with Some l => Ok l | None => Err TypeError end ;;
  export <- number (g_export (c_grid k)) ;;
  Ok {| q_parts := o; q_source := source; q_flow := flow; q_elec := elec; q_heat := heat;
        q_return := ret; q_delta := delta; q_import := prices; q_export := export |}.

(** ** The series of the year, controllers/fixed_order.py:69-88 and 109-112, controllers/mpc.py:59-69 *)
(** controllers/fixed_order.py:109-150: the values used in hour [t] *)
Definition row (h : held) (wind PV : list Q) (hp : list perf) (t : nat) : res hour_in :=
  w <- pidx wind t ;; p <- pidx PV t ;; e <- pidx (q_elec h) t ;; d <- pidx (q_heat h) t ;;
  s <- pidx (q_source h) t ;; f <- pidx (q_flow h) t ;; c <- pidx (q_import h) t ;; x <- pidx hp t ;;
  Ok {| i_wind := w; i_PV := p; i_elec_demand := e; i_heat_demand := d; i_source_temp := s;
        i_flow_temp := f; i_import_price := c; i_perf := x |}.
(** controllers/fixed_order.py:69-88, controllers/mpc.py:59-69 and 93-101 *)
Definition year_of (h : held) : res (list hour_in) :=
  let o := q_parts h in
  g <- M_Renewables.renewable_generation (lib_wind L) run_pv (o_user o) (o_database o) (o_PV o) ;;
  total <- mapM some_number (M_Renewables.g_total g) ;;
  wind <- mapM some_number (M_Renewables.g_wind g) ;;
  _ <- surplus_deficit_year total (q_elec h) ;;
  hp <- performance lorentz_cop (o_heat_pump o) ;;
  mapM (row h wind (M_Renewables.g_PV g) hp) (seq 0 ANNUAL_HOURS).

(** controllers/fixed_order.py:27-57: [np.amax(self.heat_demand.values)] is taken at 189, 462 and
    controllers/mpc.py:244.  The predictive controller has no setpoint and no orders. *)
Definition plant_of (h : held) (setpoint : Q) (above below : list Z) : plant :=
  let o := q_parts h in
  {| p_battery := o_battery o; p_hp_capacity := h_capacity (o_heat_pump o);
     p_min_runtime := h_minimum_runtime (o_heat_pump o); p_min_output := h_minimum_output (o_heat_pump o);
     p_aux := o_aux o; p_tank := M_Tank.tank_instance (o_tank o) (q_return h) (q_delta h);
     p_export_price := q_export h; p_setpoint := setpoint; p_order_above := above; p_order_below := below;
     p_max_heat := pmax_list (hd 0 (q_heat h)) (tl (q_heat h)) |}.

(** ** One combination *)
(** controllers/fixed_order.py:27-164 *)
Definition fixed_order (k : container) (first_hour timesteps : Z) : res (list record) :=
  h <- hold k ;;
  setpoint <- number (k_setpoint (c_controller k)) ;;
  year <- year_of h ;;
  run_timesteps (plant_of h setpoint (k_above (c_controller k)) (k_below (c_controller k))) year first_hour timesteps.
(** controllers/mpc.py:22-117 and 546-675 *)
Definition predictive (k : container) (first_hour timesteps : Z) : res (list record) :=
  h <- hold k ;;
  horizon <- whole (k_horizon (c_controller k)) ;;
  year <- year_of h ;;
  let P := plant_of h 0 [] [] in
  M_Mpc.mpc_run {| M_Mpc.m_plant := P; M_Mpc.m_horizon := horizon; M_Mpc.m_return_nodes := t_init (p_tank P) |}
    optimise year first_hour timesteps.
(** main.py:18-38 *)
Definition run_solver (controller : string) (k : container) (first_hour timesteps : Z) : res (list record) :=
  if String.eqb controller "Fixed order control" then fixed_order k first_hour timesteps
  else if String.eqb controller "Model predictive control" then predictive k first_hour timesteps
  else Err ValueError.

(** ** The sweep *)
(** parametric_analysis.py:25-44 = io/outputs.py:1604-1622 *)
Definition sweep_of (p : parametric) : res M_Sweep.sweep :=
  a <- whole (hp_min p) ;; b <- whole (hp_max p) ;; c <- whole (hp_step p) ;;
  d <- whole (ts_min p) ;; e <- whole (ts_max p) ;; f <- whole (ts_step p) ;;
  Ok {| M_Sweep.hp_min := a; M_Sweep.hp_max := b; M_Sweep.hp_step := c;
        M_Sweep.ts_min := d; M_Sweep.ts_max := e; M_Sweep.ts_step := f |}.
(** A finished combination: its sizes, its stored inputs and outputs.pkl, main.py:98-104 *)
Record done := { d_sizes : Z * Z; d_inputs : container; d_records : list record;
                 d_figures : list (string * list M_Plots.figure) }.
(** main.py:99-104: the solver and the figures of one combination *)
Definition one_job (controller : string) (first_hour timesteps : Z) (c : (Z * Z) * container) : res done :=
  rs <- run_solver controller (snd c) first_hour timesteps ;;
  fs <- M_Plots.run_plots rs timesteps first_hour ;;
  Ok {| d_sizes := fst c; d_inputs := snd c; d_records := rs; d_figures := fs |}.

(** ** The indicators *)
(** io/inputs.py:159-175 *)
Definition rhi_of (h : heat_pump_inputs) : res M_Kpi.rhi :=
  ty <- name (RHI_type h) ;; ta <- name (RHI_tariff h) ;;
  f <- number (RHI_fixed h) ;; a <- number (RHI_tier1 h) ;; b <- number (RHI_tier2 h) ;;
  Ok {| M_Kpi.rhi_type := ty; M_Kpi.rhi_tariff := ta; M_Kpi.rhi_fixed := f; M_Kpi.rhi_tier_1 := a; M_Kpi.rhi_tier_2 := b |}.
(** io/outputs.py:682-694.  The Grid object (io/outputs.py:938-976 and the same three times more) is built from
    the same inputs with the same arguments as by [init]. *)
Definition calcs (d : done) : res M_Kpi.run :=
  let k := d_inputs d in
  n <- whole (k_timesteps (c_controller k)) ;; s <- whole (k_first_hour (c_controller k)) ;;
  g <- grid_of (lib_wind L) k ;; r <- rhi_of (c_heat_pump k) ;;
  Ok {| M_Kpi.k_name := M_Sweep.folder_name (d_sizes d); M_Kpi.k_timesteps := n; M_Kpi.k_first_hour := s;
        M_Kpi.k_results := d_records d; M_Kpi.k_fuel := x_fuel (c_aux k); M_Kpi.k_grid := g; M_Kpi.k_rhi := r |}.
(** io/outputs.py:1629-1637: the pickle of a name.  The files of a name are overwritten by a later combination of
    the same name. *)
Definition load (ds : list done) (nm : M_Sweep.chars) : res M_Kpi.run :=
  match find (fun d => if list_eq_dec Ascii.ascii_dec (M_Sweep.folder_name (d_sizes d)) nm then true else false) (rev ds) with
  | Some d => calcs d
  | None => Err FileNotFoundError
  end.

(** ** main.py:75-140 *)
Variable store_price : Z -> Q.
(** What a run leaves behind: the combinations and what was written by run_KPIs *)
Record outcome := { r_done : list done; r_kpis : list M_Plots.kpi_output; r_end : res unit }.
(** main.py:75-87 and 92-96: the combinations with their inputs; [folder_name[0]] of an empty sweep *)
Definition prepare (wb : workbook) : res (M_Sweep.sweep * list ((Z * Z) * container) * (string * Z * Z)) :=
  k <- read_inputs wb ;;
  p <- sweep_of (c_parametric k) ;;
  cs <- M_Sweep.combos p ;;
  ks <- mapM (fun c => k' <- combination (fst c) (snd c) k ;; Ok (c, k')) cs ;;
  first <- pidx ks 0 ;;
  let q := c_controller (snd first) in
  controller <- name (k_controller q) ;; n <- whole (k_timesteps q) ;; s <- whole (k_first_hour q) ;;
  Ok (p, ks, (controller, s, n)).
(** main.py:75-140 *)
Definition program (wb : workbook) : res outcome :=
  x <- prepare wb ;;
  let '(p, ks, (controller, s, n)) := x in
  ds <- mapM (one_job controller s n) ks ;;
  let '(out, e) := M_Plots.run_KPIs store_price (load ds) p in
  Ok {| r_done := ds; r_kpis := out; r_end := e |}.
End PROGRAM.
Arguments q_parts {L}.
Arguments q_source {L}.
Arguments q_flow {L}.
Arguments q_elec {L}.
Arguments q_heat {L}.
Arguments q_return {L}.
Arguments q_delta {L}.
Arguments q_import {L}.
Arguments q_export {L}.
