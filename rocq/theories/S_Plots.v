(** Specification vocabulary for the figures. *)
From Coq Require Import String.
From Verif Require Import Base M_FixedOrder M_Sweep M_Kpi M_Plots.
Open Scope string_scope.
Local Open Scope list_scope.

(** Curve [c] of subplot [p] passes through (x, y), or band [c] has thickness y at x. *)
Definition point (fig : figure) (p c : nat) (x : Z) (y : Q) : Prop :=
  exists P ys i, nth_error (fg_panels fig) p = Some P /\ nth_error (pn_y P) c = Some ys /\
    nth_error (pn_x P) i = Some x /\ nth_error ys i = Some y.
(** Its name in the legend, None if the subplot has no legend. *)
Definition named (fig : figure) (p c : nat) (name : option string) : Prop :=
  exists P, nth_error (fg_panels fig) p = Some P /\
    match name with Some s => nth_error (pn_legend P) c = Some s | None => pn_legend P = [] end.
(** The lowest subplot carries the label of the time axis. *)
Definition time_axis (fig : figure) (label : string) : Prop :=
  exists P, nth_error (rev (fg_panels fig)) 0 = Some P /\ pn_xlabel P = label.

(** What a reader takes every curve to be, from the file, the subplot and the legend. *)
Inductive shows : string -> nat -> nat -> option string -> (record -> Q) -> Prop :=
| Sh_op1 : shows "operation.png" 0 0 (Some "HPt") (fun r => rf r HP_heat_total_output)
| Sh_op2 : shows "operation.png" 0 1 (Some "aux") (fun r => rf r AUX_demand)
| Sh_op3 : shows "operation.png" 0 2 (Some "HD") (fun r => rf r HD_heat_demand)
| Sh_op4 : shows "operation.png" 2 0 None (fun r => rf r GRID_import_price)
| Sh_op5 : shows "operation.png" 3 0 (Some "surplus") (fun r => rf r GRID_surplus)
| Sh_op6 : shows "operation.png" 3 1 (Some "export") (fun r => rf r GRID_total_export)
| Sh_el1 : shows "electricity_demand_and_generation.png" 0 0 (Some "RES") (fun r => rf r ED_RES)
| Sh_el2 : shows "electricity_demand_and_generation.png" 0 1 (Some "Import") (fun r => rf r ED_import)
| Sh_el3 : shows "electricity_demand_and_generation.png" 0 2 (Some "ES") (fun r => rf r ED_ES)
| Sh_el4 : shows "electricity_demand_and_generation.png" 1 0 (Some "Wind") (fun r => rf r RES_wind)
| Sh_el5 : shows "electricity_demand_and_generation.png" 1 1 (Some "PV") (fun r => rf r RES_PV)
| Sh_el6 : shows "electricity_demand_and_generation.png" 2 0 (Some "Elec demand") (fun r => rf r RES_elec_demand)
| Sh_el7 : shows "electricity_demand_and_generation.png" 2 1 (Some "HP") (fun r => rf r RES_HP)
| Sh_el8 : shows "electricity_demand_and_generation.png" 2 2 (Some "Aux") (fun r => rf r RES_aux)
| Sh_el9 : shows "electricity_demand_and_generation.png" 2 3 (Some "Export") (fun r => rf r RES_export)
| Sh_he1 : shows "heat_demand_and_heat_pump.png" 0 0 (Some "HP") (fun r => rf r HD_HP)
| Sh_he2 : shows "heat_demand_and_heat_pump.png" 0 1 (Some "TS") (fun r => rf r HD_TS)
| Sh_he3 : shows "heat_demand_and_heat_pump.png" 0 2 (Some "Aux") (fun r => rf r HD_heat_demand - rf r HD_HP - rf r HD_TS)
| Sh_he4 : shows "heat_demand_and_heat_pump.png" 1 0 (Some "Heat demand") (fun r => rf r HP_heat_to_heat_demand)
| Sh_he5 : shows "heat_demand_and_heat_pump.png" 1 1 (Some "TS") (fun r => rf r HP_heat_to_TS)
| Sh_he6 : shows "heat_demand_and_heat_pump.png" 2 0 (Some "RES usage") (fun r => rf r HP_elec_RES_usage)
| Sh_he7 : shows "heat_demand_and_heat_pump.png" 2 1 (Some "Import") (fun r => rf r HP_elec_import_usage)
| Sh_he8 : shows "heat_demand_and_heat_pump.png" 2 2 (Some "ES") (fun r => rf r HP_elec_from_ES_to_demand)
| Sh_hp1 : shows "heatpump_cop_and_duty.png" 0 0 None (fun r => rf r HP_cop)
| Sh_hp2 : shows "heatpump_cop_and_duty.png" 1 0 None (fun r => rf r HP_duty)
| Sh_ts1 : shows "thermal_storage.png" 0 0 (Some "Charging") (fun r => rf r TS_charging_total)
| Sh_ts2 : shows "thermal_storage.png" 1 0 (Some "Discharging") (fun r => rf r TS_discharging_total)
| Sh_es1 : shows "electrical_storage.png" 0 0 (Some "ES_to_demand") (fun r => - (1) * rf r ES_discharging_to_demand)
| Sh_es2 : shows "electrical_storage.png" 0 1 (Some "ES_to_HP_to_demand") (fun r => - (1) * rf r ES_discharging_to_HP)
| Sh_es3 : shows "electrical_storage.png" 0 2 (Some "RES_to_ES") (fun r => rf r ES_charging_from_RES)
| Sh_es4 : shows "electrical_storage.png" 0 3 (Some "import_for_ES") (fun r => rf r ES_charging_from_import)
| Sh_es5 : shows "electrical_storage.png" 1 0 (Some "SOC") (fun r => rf r ES_final_soc)
| Sh_es6 : shows "electrical_storage.png" 2 0 None (fun r => rf r GRID_import_price)
| Sh_es7 : shows "electrical_storage.png" 3 0 (Some "surplus") (fun r => rf r GRID_surplus)
| Sh_es8 : shows "electrical_storage.png" 3 1 (Some "export") (fun r => rf r GRID_total_export)
| Sh_gr1 : shows "grid.png" 0 0 (Some "Import") (fun r => rf r GRID_total_import)
| Sh_gr2 : shows "grid.png" 0 1 (Some "Export") (fun r => rf r GRID_total_export)
| Sh_gr3 : shows "grid.png" 1 0 None (fun r => rf r GRID_import_price)
| Sh_gr4 : shows "grid.png" 2 0 None (fun r => rf r GRID_cashflow).
(** The subplots with one curve per node of the tank. *)
Inductive shows_nodes : string -> nat -> Prop :=
| Sn_op : shows_nodes "operation.png" 1
| Sn_ts : shows_nodes "thermal_storage.png" 2.

(** Title and vertical label of every subplot, from top to bottom. *)
Definition captions (file : string) : list (string * string) :=
  let energy := "Energy (kWh)" in
  if String.eqb file "operation.png" then [("Operation graphs", energy); ("", "Node temperature (degC)"); ("", "Import cost (Pounds per MWh)"); ("", energy)]
  else if String.eqb file "electricity_demand_and_generation.png" then
    [("Electrical demand", energy); ("Renewable power generation", energy); ("Renewable power usage", energy)]
  else if String.eqb file "heat_demand_and_heat_pump.png" then
    [("Heat demand", energy); ("Heat pump thermal output", energy); ("Heat pump electrical usage", energy)]
  else if String.eqb file "heatpump_cop_and_duty.png" then [("Heat pump performance", "COP"); ("", "Duty (kW)")]
  else if String.eqb file "thermal_storage.png" then [("Thermal storage", energy); ("", energy); ("", "Temperature degC")]
  else if String.eqb file "electrical_storage.png" then [("Electrical Storage", "ES c/d"); ("", "SOC"); ("", "Import cost"); ("", "Surplus, and export")]
  else if String.eqb file "grid.png" then [("Grid interaction", energy); ("", "import price (Pounds/MWh)"); ("", "Cashflow (Pounds/MWh)")]
  else [].

(** The abscissae [lo, hi) of a figure of a run of [n] hours, and how many records further on
    than its abscissa the record of a point is. *)
Inductive drawn (n : Z) : string -> string -> Z -> Z -> Z -> Prop :=
| Dr_user file : n <> 8760%Z -> drawn n "User" file 0 n 0
| Dr_year file : n = 8760%Z -> drawn n "Year" file 0 8760 0
| Dr_winter file : n = 8760%Z -> file <> "operation.png" -> drawn n "Winter" file 24 192 0
| Dr_summer file : n = 8760%Z -> file <> "operation.png" -> drawn n "Summer" file 4380 4548 0
| Dr_op_winter : n = 8760%Z -> drawn n "Winter" "operation.png" 0 168 24
| Dr_op_summer : n = 8760%Z -> drawn n "Summer" "operation.png" 0 168 4380.

(** The record of hour [x] of the year in the results of a run that starts at hour [start]. *)
Definition of_hour (rs : list record) (start x : Z) (rc : record) : Prop :=
  (start <= x)%Z /\ nth_error rs (Z.to_nat (x - start)) = Some rc.

(** All tank states have the same number of nodes. *)
Definition same_nodes (rs : list record) : Prop :=
  exists k, Forall (fun rc => length (r_nodes rc) = k) rs.

(** [y] is the height of the stack at [x] in subplot [p], which has the given title. *)
Definition stack (fig : figure) (p : nat) (title : string) (x : Z) (y : Q) : Prop :=
  exists P i bands, nth_error (fg_panels fig) p = Some P /\ pn_shape P = Stacked /\ pn_title P = title /\
    nth_error (pn_x P) i = Some x /\
    Forall2 (fun ys b => nth_error ys i = Some b) (pn_y P) bands /\ y = qsum bands.
(** The stacks and the bands they are made of. *)
Inductive stacked : string -> nat -> string -> list (record -> Q) -> Prop :=
| St_demand : stacked "electricity_demand_and_generation.png" 0 "Electrical demand"
    [fun r => rf r ED_RES; fun r => rf r ED_import; fun r => rf r ED_ES]
| St_generation : stacked "electricity_demand_and_generation.png" 1 "Renewable power generation"
    [fun r => rf r RES_wind; fun r => rf r RES_PV]
| St_usage : stacked "electricity_demand_and_generation.png" 2 "Renewable power usage"
    [fun r => rf r RES_elec_demand; fun r => rf r RES_HP; fun r => rf r RES_aux; fun r => rf r RES_export]
| St_heat : stacked "heat_demand_and_heat_pump.png" 0 "Heat demand"
    [fun r => rf r HD_HP; fun r => rf r HD_TS; fun r => rf r HD_heat_demand - rf r HD_HP - rf r HD_TS]
| St_output : stacked "heat_demand_and_heat_pump.png" 1 "Heat pump thermal output"
    [fun r => rf r HP_heat_to_heat_demand; fun r => rf r HP_heat_to_TS]
| St_use : stacked "heat_demand_and_heat_pump.png" 2 "Heat pump electrical usage"
    [fun r => rf r HP_elec_RES_usage; fun r => rf r HP_elec_import_usage; fun r => rf r HP_elec_from_ES_to_demand].

(** The files of one folder. *)
Definition figure_files : list string :=
  ["operation.png"; "electricity_demand_and_generation.png"; "heat_demand_and_heat_pump.png";
   "heatpump_cop_and_duty.png"; "thermal_storage.png"; "electrical_storage.png"; "grid.png"].
Definition bar_file : string := "RES_bar_charts.png".

(** The bar charts: title, quantity and the names under the bars. *)
Inductive bar_shows : nat -> string -> (record -> Q) -> Prop :=
| Bs_wind : bar_shows 0 "Total Wind Production (MWh)" (fun r => rf r RES_wind)
| Bs_pv : bar_shows 1 "Total PV Production (MWh)" (fun r => rf r RES_PV)
| Bs_res : bar_shows 2 "Total RES Production (MWh)" (fun r => rf r RES_generation_total).
Definition month_names : list string :=
  ["jan"; "feb"; "mar"; "apr"; "may"; "jun"; "jul"; "aug"; "sep"; "oct"; "nov"; "dec"].
(** The folders of a run of [n] hours. *)
Definition folders (n : Z) : list string := if (n =? 8760)%Z then ["Year"; "Winter"; "Summer"] else ["User"].
Definition has_bars (folder : string) : bool := String.eqb folder "Year" || String.eqb folder "User".

(** Three points of the plane that are not on one line. *)
Definition triangle (a b c : Q * Q) : Prop :=
  ~ (fst b - fst a) * (snd c - snd a) == (snd b - snd a) * (fst c - fst a).
(** The surface has height [z] above heat pump size [h] in kW and tank size [t] in cubic metres,
    whichever axis is which. *)
Inductive plotted (s : surface) (h t : Q) (z : num) : Prop :=
| Pl_hp : sf_xlabel s = "Heat pump sizes (kW)" -> sf_ylabel s = "Thermal storage capacity ($m^3$)" ->
    In ((h, t), z) (sf_points s) -> plotted s h t z
| Pl_ts : sf_xlabel s = "Thermal storage capacity ($m^3$)" -> sf_ylabel s = "Heat pump sizes (kW)" ->
    In ((t, h), z) (sf_points s) -> plotted s h t z.
(** The files of the surfaces with the label of the vertical axis and the indicator it names. *)
Inductive surface_shows (store_price : Z -> Q) : string -> string -> (run -> res num) -> Prop :=
| Ss_opex : surface_shows store_price "operating_cost.png" "Operational cost (kGBP)" (fun K => fin (operating_cost K))
| Ss_res : surface_shows store_price "RES_self_consumption.png" "RES self-consumption (%)"
    (fun K => fin (RES_self_consumption K))
| Ss_heat : surface_shows store_price "heat_from_RES.png" "Heat demand from RES (%)" heat_met_RES
| Ss_ratio : surface_shows store_price "HP_size_ratio.png" "HP size ratio" HP_size_ratio
| Ss_util : surface_shows store_price "HP_utilisation.png" "HP utilisation (%)" HP_utilisation
| Ss_capital : surface_shows store_price "capital_cost.png" "Capital cost (kGBP)" (fun K => fin (capital_cost store_price K))
| Ss_lcoh : surface_shows store_price "levelised_cost_of_heat.png" "Levelised cost of heat (GBP/kWh)"
    (levelised_cost_of_heat store_price)
| Ss_coh : surface_shows store_price "cost_of_heat.png" "Cost of heat (GBP/kWh)" cost_of_heat.
Definition surface_files : list string :=
  ["operating_cost.png"; "RES_self_consumption.png"; "heat_from_RES.png"; "HP_size_ratio.png"; "HP_utilisation.png";
   "capital_cost.png"; "levelised_cost_of_heat.png"; "cost_of_heat.png"].
(** Where a combination of sizes is in the plane. *)
Definition size_point (c : Z * Z) : Q * Q := (inject_Z (fst c), inject_Z (snd c) / 1000).
(** The sweep varies both sizes. *)
Definition two_by_two (cs : list (Z * Z)) : Prop :=
  (exists c c', In c cs /\ In c' cs /\ fst c <> fst c') /\ (exists c c', In c cs /\ In c' cs /\ snd c <> snd c').
