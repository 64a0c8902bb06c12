(** Model of the figures: run_plots, run_KPIs, class Plot and the surfaces of class ThreeDPlots
    in /repo/pylesa/io/outputs.py.  A figure is what matplotlib is given to draw; colours,
    fonts, layout and the pixels of the file are not modelled, nor is the folder of the period,
    which is emptied and created again before anything is drawn (129-136). *)
From Coq Require Import String.
From Verif Require Import Base M_HeatPump M_Tools M_FixedOrder M_Sweep M_Kpi.
Open Scope string_scope.
Local Open Scope list_scope.

(** io/outputs.py:167-678: One subplot.  [pn_y] holds one list of ordinates per curve, band or set of bars, in the
    order of the legend; [pn_ticks] are the names under the bars and [pn_total] the number
    printed in the title. *)
Inductive shape := Lines | Stacked | Bars.
(** io/outputs.py:167-678, one subplot *)
Record panel := {
  pn_shape : shape; pn_title : string; pn_xlabel : string; pn_ylabel : string;
  pn_legend : list string; pn_ticks : list string; pn_total : option Q;
  pn_x : list Z; pn_y : list (list Q) }.
(** One file written by io/outputs.py:167-678 *)
Record figure := { fg_file : string; fg_panels : list panel }.

(** io/outputs.py:167-610: pyplot.plot and pyplot.stackplot: abscissae and ordinates must have the same length *)
Definition draw (s : shape) (title xlabel ylabel : string) (legend : list string)
    (x : list Z) (ys : list (list Q)) : res panel :=
  ys <- mapM (fun y => if Nat.eqb (length x) (length y) then Ok y else Err ValueError) ys ;;
  Ok {| pn_shape := s; pn_title := title; pn_xlabel := xlabel; pn_ylabel := ylabel; pn_legend := legend;
        pn_ticks := []; pn_total := None; pn_x := x; pn_y := ys |}.
(** io/outputs.py:428-489: pyplot.plot with a list of rows: one curve per column.  Rows of different lengths do not
    form an array; no rows give one empty curve. *)
Definition columns (rows : list nodes) : res (list (list Q)) :=
  match rows with
  | [] => Ok [[]]
  | row :: _ =>
      if forallb (fun r => Nat.eqb (length r) (length row)) rows
      then Ok (map (fun k => map (fun r => nth k r 0) rows) (seq 0 (length row)))
      else Err ValueError
  end.
(** io/outputs.py:428-489 *)
Definition draw_nodes (title xlabel ylabel : string) (legend : list string) (x : list Z) (rows : list nodes) : res panel :=
  ys <- columns rows ;; draw Lines title xlabel ylabel legend x ys.

(** The label of the time axis, io/outputs.py:167-610 *)
Definition hour_axis : string := "Hour of the year".
(** str(x + 1) for x in range(n), outputs.py:478-480 *)
Definition node_names (n : nat) : list string :=
  map (fun x => string_of_list_ascii (str_int (Z.of_nat x + 1))) (seq 0 n).

Section Plot.
(** outputs.py:112-127: the pickled records, total_timesteps and first_hour of the inputs,
    and the name of the period *)
Variable results : list record.
Variable timesteps first_hour : Z.
Variable period : string.

(** io/outputs.py:167-678: [results[i][...] for i in range(timesteps)] *)
Definition collect {A} (f : record -> A) : res (list A) :=
  mapM (fun i => r <- pidx results i ;; Ok (f r)) (seq 0 (Z.to_nat timesteps)).
(** io/outputs.py:167-678, one numeric entry of every record *)
Definition series (k : field) : res (list Q) := collect (fun r => rf r k).

(** outputs.py:138-165, first hour and number of hours drawn *)
Definition period_timesteps : res (Z * Z) :=
  if (timesteps =? 8760)%Z then
    if String.eqb period "Summer" then Ok (4380, 168)%Z
    else if String.eqb period "Winter" then Ok (24, 168)%Z
    else if String.eqb period "Year" then Ok (0, 8760)%Z
    else if String.eqb period "User" then Ok (first_hour, timesteps)
    else Err ValueError
  else Ok (0%Z, timesteps).

(** io/outputs.py:138-610: l[first_hour:final_hour] for first_hour >= 0 *)
Definition cut {A} (w : Z * Z) (l : list A) : list A := zslice (fst w) (fst w + snd w) l.
(** io/outputs.py:138-610: range(first_hour, final_hour) *)
Definition hours (w : Z * Z) : list Z := zrange (fst w) (fst w + snd w).

(** outputs.py:167-228 *)
Definition operation : res figure :=
  HPt <- series HP_heat_total_output ;; hd <- series HD_heat_demand ;; aux <- series AUX_demand ;;
  final_nodes_temp <- collect r_nodes ;;
  IC <- series GRID_import_price ;; surplus <- series GRID_surplus ;; export <- series GRID_total_export ;;
  w <- period_timesteps ;;
  let time := zrange 0 (snd w) in
  p1 <- draw Lines "Operation graphs" "" "Energy (kWh)" ["HPt"; "aux"; "HD"] time [cut w HPt; cut w aux; cut w hd] ;;
  p2 <- draw_nodes "" "" "Node temperature (degC)" [] time (cut w final_nodes_temp) ;;
  p3 <- draw Lines "" "" "Import cost (Pounds per MWh)" [] time [cut w IC] ;;
  p4 <- draw Lines "" hour_axis "Energy (kWh)" ["surplus"; "export"] time [cut w surplus; cut w export] ;;
  Ok {| fg_file := "operation.png"; fg_panels := [p1; p2; p3; p4] |}.

(** outputs.py:230-309 *)
Definition elec_demand_and_RES : res figure :=
  RES <- series ED_RES ;; ES <- series ED_ES ;; imp <- series ED_import ;; dem <- series ED_elec_demand ;;
  generation_total <- series RES_generation_total ;; wind <- series RES_wind ;; PV <- series RES_PV ;;
  elec_demand <- series RES_elec_demand ;; HP <- series RES_HP ;; aux <- series RES_aux ;; export <- series RES_export ;;
  w <- period_timesteps ;;
  let time := hours w in
  p1 <- draw Stacked "Electrical demand" "" "Energy (kWh)" ["RES"; "Import"; "ES"] time [cut w RES; cut w imp; cut w ES] ;;
  p2 <- draw Stacked "Renewable power generation" "" "Energy (kWh)" ["Wind"; "PV"] time [cut w wind; cut w PV] ;;
  p3 <- draw Stacked "Renewable power usage" hour_axis "Energy (kWh)" ["Elec demand"; "HP"; "Aux"; "Export"] time
          [cut w elec_demand; cut w HP; cut w aux; cut w export] ;;
  Ok {| fg_file := "electricity_demand_and_generation.png"; fg_panels := [p1; p2; p3] |}.

(** outputs.py:311-426, two figures *)
Definition HP_and_heat_demand : res (list figure) :=
  HP <- series HD_HP ;; TS <- series HD_TS ;;
  aux <- collect (fun r => rf r HD_heat_demand - rf r HD_HP - rf r HD_TS) ;;
  hd <- series HD_heat_demand ;;
  heat_to_heat_demand <- series HP_heat_to_heat_demand ;; heat_to_TS <- series HP_heat_to_TS ;;
  heat_total_output <- series HP_heat_total_output ;; elec_total_usage <- series HP_elec_total_usage ;;
  elec_RES_usage <- series HP_elec_RES_usage ;; elec_ES_usage <- series HP_elec_from_ES_to_demand ;;
  elec_import_usage <- series HP_elec_import_usage ;;
  cop <- series HP_cop ;; duty <- series HP_duty ;;
  w <- period_timesteps ;;
  let time := hours w in
  p1 <- draw Stacked "Heat demand" "" "Energy (kWh)" ["HP"; "TS"; "Aux"] time [cut w HP; cut w TS; cut w aux] ;;
  p2 <- draw Stacked "Heat pump thermal output" "" "Energy (kWh)" ["Heat demand"; "TS"] time
          [cut w heat_to_heat_demand; cut w heat_to_TS] ;;
  p3 <- draw Stacked "Heat pump electrical usage" hour_axis "Energy (kWh)" ["RES usage"; "Import"; "ES"] time
          [cut w elec_RES_usage; cut w elec_import_usage; cut w elec_ES_usage] ;;
  q1 <- draw Lines "Heat pump performance" "" "COP" [] time [cut w cop] ;;
  q2 <- draw Lines "" hour_axis "Duty (kW)" [] time [cut w duty] ;;
  Ok [ {| fg_file := "heat_demand_and_heat_pump.png"; fg_panels := [p1; p2; p3] |};
       {| fg_file := "heatpump_cop_and_duty.png"; fg_panels := [q1; q2] |} ].

(** outputs.py:428-489 *)
Definition TS : res figure :=
  charging_total <- series TS_charging_total ;; discharging_total <- series TS_discharging_total ;;
  final_nodes_temp <- collect r_nodes ;;
  w <- period_timesteps ;;
  let time := hours w in
  p1 <- draw Lines "Thermal storage" "" "Energy (kWh)" ["Charging"] time [cut w charging_total] ;;
  p2 <- draw Lines "" "" "Energy (kWh)" ["Discharging"] time [cut w discharging_total] ;;
  p3 <- draw_nodes "" hour_axis "Temperature degC" [] time (cut w final_nodes_temp) ;;
  nodes_temp <- pidx final_nodes_temp (Z.to_nat (fst w)) ;;
  let leg := node_names (length nodes_temp) in
  Ok {| fg_file := "thermal_storage.png";
        fg_panels := [p1; p2; {| pn_shape := pn_shape p3; pn_title := pn_title p3; pn_xlabel := pn_xlabel p3;
                                 pn_ylabel := pn_ylabel p3; pn_legend := leg; pn_ticks := pn_ticks p3;
                                 pn_total := pn_total p3; pn_x := pn_x p3; pn_y := pn_y p3 |}] |}.

(** outputs.py:491-558 *)
Definition ES : res figure :=
  ES_to_demand <- collect (fun r => - (1) * rf r ES_discharging_to_demand) ;;
  ES_to_HP_to_demand <- collect (fun r => - (1) * rf r ES_discharging_to_HP) ;;
  RES_to_ES <- series ES_charging_from_RES ;; import_for_ES <- series ES_charging_from_import ;;
  soc <- series ES_final_soc ;;
  IC <- series GRID_import_price ;; surplus <- series GRID_surplus ;; export <- series GRID_total_export ;;
  w <- period_timesteps ;;
  let time := hours w in
  p1 <- draw Lines "Electrical Storage" "" "ES c/d" ["ES_to_demand"; "ES_to_HP_to_demand"; "RES_to_ES"; "import_for_ES"]
          time [cut w ES_to_demand; cut w ES_to_HP_to_demand; cut w RES_to_ES; cut w import_for_ES] ;;
  p2 <- draw Lines "" "" "SOC" ["SOC"] time [cut w soc] ;;
  p3 <- draw Lines "" "" "Import cost" [] time [cut w IC] ;;
  p4 <- draw Lines "" hour_axis "Surplus, and export" ["surplus"; "export"] time [cut w surplus; cut w export] ;;
  Ok {| fg_file := "electrical_storage.png"; fg_panels := [p1; p2; p3; p4] |}.

(** outputs.py:560-610 *)
Definition grid_figure : res figure :=
  total_export <- series GRID_total_export ;; total_import <- series GRID_total_import ;;
  import_price <- series GRID_import_price ;; cashflow <- series GRID_cashflow ;;
  w <- period_timesteps ;;
  let time := hours w in
  p1 <- draw Lines "Grid interaction" "" "Energy (kWh)" ["Import"; "Export"] time [cut w total_import; cut w total_export] ;;
  p2 <- draw Lines "" "" "import price (Pounds/MWh)" [] time [cut w import_price] ;;
  p3 <- draw Lines "" hour_axis "Cashflow (Pounds/MWh)" [] time [cut w cashflow] ;;
  Ok {| fg_file := "grid.png"; fg_panels := [p1; p2; p3] |}.

(** tools.py:42-53, the names of the months *)
Definition months : list string :=
  ["jan"; "feb"; "mar"; "apr"; "may"; "jun"; "jul"; "aug"; "sep"; "oct"; "nov"; "dec"].
(** io/outputs.py:612-678, one bar chart *)
Definition bars (title : string) (l : list Q) : panel :=
  {| pn_shape := Bars; pn_title := title; pn_xlabel := ""; pn_ylabel := "Energy (kWh)"; pn_legend := [];
     pn_ticks := months; pn_total := Some (round2 (qsum l / 1000)); pn_x := zrange 0 12; pn_y := [sum_monthly l] |}.
(** outputs.py:612-677; np.zeros rejects a negative length *)
Definition RES_bar : res figure :=
  _ <- (if (timesteps <? 0)%Z then Err ValueError else Ok tt) ;;
  RES <- series RES_generation_total ;; wind <- series RES_wind ;; PV <- series RES_PV ;;
  Ok {| fg_file := "RES_bar_charts.png";
        fg_panels := [bars "Total Wind Production (MWh)" wind; bars "Total PV Production (MWh)" PV;
                      bars "Total RES Production (MWh)" RES] |}.

(** the calls on one Plot object, outputs.py:68-75 = 80-86 *)
Definition all_plots (with_bars : bool) : res (list figure) :=
  f1 <- operation ;; f2 <- elec_demand_and_RES ;; f3 <- HP_and_heat_demand ;; f4 <- TS ;; f5 <- ES ;;
  f6 <- grid_figure ;;
  f7 <- (if with_bars then f <- RES_bar ;; Ok [f] else Ok []) ;;
  Ok ([f1; f2] ++ f3 ++ [f4; f5; f6] ++ f7).
End Plot.

(** outputs.py:58-88: the folders with their figures *)
Definition run_plots (results : list record) (timesteps first_hour : Z) : res (list (string * list figure)) :=
  if (timesteps =? 8760)%Z then
    mapM (fun period =>
            fs <- all_plots results timesteps first_hour period (String.eqb period "Year") ;; Ok (period, fs))
         ["Year"; "Winter"; "Summer"]
  else fs <- all_plots results timesteps first_hour "User" true ;; Ok [("User", fs)].

(** ** The surfaces over the two sizes *)
(** One file written by io/outputs.py:1655-1945 *)
Record surface := {
  sf_file : string; sf_xlabel : string; sf_ylabel : string; sf_zlabel : string; sf_points : list (Q * Q * num) }.

(** io/outputs.py:1655-1945: Axes3D.plot_trisurf needs a triangulation of the points (x, y): matplotlib raises ValueError
    for fewer than three different points, Qhull RuntimeError if they lie on one line.
    Simplification: any z is drawn, and Qhull decides exactly. *)
Definition same_point (p q : Q * Q) : bool := qeq (fst p) (fst q) && qeq (snd p) (snd q).
(** Three points on one line, io/outputs.py:1655-1945 *)
Definition on_line (p q s : Q * Q) : bool :=
  qeq ((fst q - fst p) * (snd s - snd p)) ((snd q - snd p) * (fst s - fst p)).
(** The triangulation made by plot_trisurf, io/outputs.py:1655-1945 *)
Definition triangulation (ps : list (Q * Q)) : res unit :=
  match ps with
  | [] => Err ValueError
  | p :: ps =>
      match filter (fun s => negb (same_point p s)) ps with
      | [] => Err ValueError
      | q :: ps =>
          match filter (fun s => negb (same_point q s)) ps with
          | [] => Err ValueError
          | ps => if forallb (on_line p q) ps then Err RuntimeError else Ok tt
          end
      end
  end.

Section Surfaces.
Variable store_price : Z -> Q.
(** as for the tables: [load name] is Calcs(root, name, results) *)
Variable load : chars -> res run.
Variable cs : list (Z * Z).

(** io/outputs.py:1655-1945, label of an axis *)
Definition hp_axis : string := "Heat pump sizes (kW)".
(** io/outputs.py:1655-1945, label of an axis *)
Definition ts_axis : string := "Thermal storage capacity ($m^3$)".
(** outputs.py:1640-1653 *)
Definition heat_pump_sizes_x : list Q := map (fun c => inject_Z (fst c)) cs.
(** io/outputs.py:1648-1653 *)
Definition thermal_store_sizes_y : list Q := map (fun c => inject_Z (snd c) / 1000) cs.
(** The loops over the subnames of io/outputs.py:1655-1945 *)
Definition indicator (f : run -> res num) : res (list num) :=
  mapM (fun c => K <- load (folder_name c) ;; f K) cs.
(** The drawing common to io/outputs.py:1655-1945 *)
Definition trisurf (file xlabel ylabel zlabel : string) (x y : list Q) (z : list num) : res surface :=
  _ <- triangulation (combine x y) ;;
  Ok {| sf_file := file; sf_xlabel := xlabel; sf_ylabel := ylabel; sf_zlabel := zlabel;
        sf_points := combine (combine x y) z |}.
(** the pound sign of the z labels is written GBP here *)
(** outputs.py:1655-1691 *)
Definition plot_opex : res surface :=
  z <- indicator (fun K => fin (operating_cost K)) ;;
  trisurf "operating_cost.png" ts_axis hp_axis "Operational cost (kGBP)" thermal_store_sizes_y heat_pump_sizes_x z.
(** outputs.py:1693-1726 *)
Definition plot_RES : res surface :=
  z <- indicator (fun K => fin (RES_self_consumption K)) ;;
  trisurf "RES_self_consumption.png" hp_axis ts_axis "RES self-consumption (%)" heat_pump_sizes_x thermal_store_sizes_y z.
(** outputs.py:1728-1762 *)
Definition plot_heat_from_RES : res surface :=
  z <- indicator heat_met_RES ;;
  trisurf "heat_from_RES.png" hp_axis ts_axis "Heat demand from RES (%)" heat_pump_sizes_x thermal_store_sizes_y z.
(** outputs.py:1764-1798 *)
Definition plot_HP_size_ratio : res surface :=
  z <- indicator HP_size_ratio ;;
  trisurf "HP_size_ratio.png" ts_axis hp_axis "HP size ratio" thermal_store_sizes_y heat_pump_sizes_x z.
(** outputs.py:1800-1835 *)
Definition plot_HP_utilisation : res surface :=
  z <- indicator HP_utilisation ;;
  trisurf "HP_utilisation.png" ts_axis hp_axis "HP utilisation (%)" thermal_store_sizes_y heat_pump_sizes_x z.
(** outputs.py:1837-1871 *)
Definition plot_capital_cost : res surface :=
  z <- indicator (fun K => fin (capital_cost store_price K)) ;;
  trisurf "capital_cost.png" ts_axis hp_axis "Capital cost (kGBP)" thermal_store_sizes_y heat_pump_sizes_x z.
(** outputs.py:1873-1908 *)
Definition plot_COH : res surface :=
  z <- indicator cost_of_heat ;;
  trisurf "cost_of_heat.png" ts_axis hp_axis "Cost of heat (GBP/kWh)" thermal_store_sizes_y heat_pump_sizes_x z.
(** outputs.py:1910-1945 *)
Definition plot_LCOH : res surface :=
  z <- indicator (levelised_cost_of_heat store_price) ;;
  trisurf "levelised_cost_of_heat.png" ts_axis hp_axis "Levelised cost of heat (GBP/kWh)" thermal_store_sizes_y heat_pump_sizes_x z.
End Surfaces.

(** outputs.py:90-107.  The jobs run one after the other; what was written before the first
    exception stays on disk. *)
Inductive kpi_output := KpiTables (tables : list (list (list (option num)))) | KpiSurface (s : surface).
(** The loop of io/outputs.py:106-108 *)
Fixpoint run_jobs (jobs : list (res kpi_output)) : list kpi_output * res unit :=
  match jobs with
  | [] => ([], Ok tt)
  | Err e :: _ => ([], Err e)
  | Ok o :: jobs => let '(os, r) := run_jobs jobs in (o :: os, r)
  end.
(** io/outputs.py:90-108 *)
Definition run_KPIs (store_price : Z -> Q) (load : chars -> res run) (p : sweep) : list kpi_output * res unit :=
  match combos p with
  | Err e => ([], Err e)
  | Ok cs =>
      let surf (x : res surface) : res kpi_output := s <- x ;; Ok (KpiSurface s) in
      run_jobs
        [ t <- KPIs_to_csv store_price load p ;; Ok (KpiTables t);
          surf (plot_opex load cs); surf (plot_RES load cs); surf (plot_heat_from_RES load cs);
          surf (plot_HP_size_ratio load cs); surf (plot_HP_utilisation load cs);
          surf (plot_capital_cost store_price load cs); surf (plot_LCOH store_price load cs);
          surf (plot_COH load cs) ]
  end.
