(** Model of class Calcs and of ThreeDPlots.KPIs_to_csv in /repo/pylesa/io/outputs.py. *)
From Coq Require Import String.
From Verif Require Import Base M_HeatPump M_FixedOrder M_Grid M_Sweep.
Open Scope string_scope.

(** io/outputs.py:680-1584: A numpy float: division by zero gives inf or nan with a warning, no exception. *)
Inductive num := Fin (q : Q) | NotFinite.
(** Division, io/outputs.py:767-1540 *)
Definition ndiv (a b : Q) : num := if qeq b 0 then NotFinite else Fin (a / b).
(** Arithmetic with a numpy float, io/outputs.py:872-1540 *)
Definition nmap (f : Q -> Q) (x : num) : num := match x with Fin q => Fin (f q) | NotFinite => NotFinite end.

(** inputs.py:159-175 *)
Record rhi := { rhi_type : string; rhi_tariff : string; rhi_fixed : Q; rhi_tier_1 : Q; rhi_tier_2 : Q }.
(** outputs.py:682-694: what one Calcs object reads.  [k_results] is the pickled list of
    hourly records, [k_grid] the Grid object built from the inputs.  first_hour is kept
    although no method uses it. *)
Record run := {
  k_name : chars; k_timesteps : Z; k_first_hour : Z;
  k_results : list record; k_fuel : fuel; k_grid : grid; k_rhi : rhi }.

Section Calcs.
(** ts_size |-> 7479.1 * (ts_size / 1000.0) ** (-0.501), outputs.py:1389-1395; a real power,
    kept abstract *)
Variable store_price : Z -> Q.
Variable K : run.
Let is_electric : bool := fuel_eqb (k_fuel K) ELECTRIC.
Let steps : Q := inject_Z (k_timesteps K).

(** io/outputs.py:697-868: np.zeros(timesteps) filled from results[i] for i in range(timesteps) *)
Definition zeros : res nat :=
  if (k_timesteps K <? 0)%Z then Err ValueError else Ok (Z.to_nat (k_timesteps K)).
(** The loops of io/outputs.py:697-868 *)
Definition array (f : fields -> Q) : res (list Q) :=
  n <- zeros ;; mapM (fun i => r <- pidx (k_results K) i ;; Ok (f (rf r))) (seq 0 n).
(** io/outputs.py:697-868: np.sum, np.amax (ValueError on an empty array) *)
Definition sum_of (f : fields -> Q) : res Q := l <- array f ;; Ok (qsum l).
(** [np.amax], io/outputs.py:697-723 *)
Definition max_of (f : fields -> Q) : res Q :=
  l <- array f ;; match l with [] => Err ValueError | x :: l' => Ok (pmax_list x l') end.

(** outputs.py:698-868 *)
Definition max_heat_pump_output : res Q := max_of (fun r => r HP_heat_total_output).
(** io/outputs.py:711-723 *)
Definition max_heat_demand : res Q := max_of (fun r => r HD_heat_demand).
(** io/outputs.py:725-737 *)
Definition sum_aux_output : res Q := sum_of (fun r => r AUX_demand).
(** io/outputs.py:739-751 *)
Definition sum_hp_output : res Q := sum_of (fun r => r HP_heat_total_output).
(** io/outputs.py:753-765 *)
Definition sum_hp_usage : res Q := sum_of (fun r => r HP_elec_total_usage).
(** io/outputs.py:772-784 *)
Definition sum_hd : res Q := sum_of (fun r => r HD_heat_demand).
(** io/outputs.py:786-798 *)
Definition sum_ed : res Q := sum_of (fun r => r ED_elec_demand).
(** io/outputs.py:800-812 *)
Definition sum_ed_import : res Q := sum_of (fun r => r GRID_import_for_elec_demand).
(** io/outputs.py:814-826 *)
Definition sum_ed_RES : res Q := sum_of (fun r => r RES_elec_demand).
(** io/outputs.py:828-840 *)
Definition sum_import : res Q := sum_of (fun r => r GRID_total_import).
(** io/outputs.py:842-854 *)
Definition sum_export : res Q := sum_of (fun r => r GRID_total_export).
(** io/outputs.py:856-868 *)
Definition sum_RES : res Q := sum_of (fun r => r RES_generation_total).
(** io/outputs.py:767-770 *)
Definition calc_scop : res num := a <- sum_hp_output ;; b <- sum_hp_usage ;; Ok (ndiv a b).

(** io/outputs.py:872-883 *)
Definition HP_size_ratio : res num :=
  a <- max_heat_pump_output ;; b <- max_heat_demand ;; Ok (nmap round2 (ndiv a b)).
(** io/outputs.py:885-892 *)
Definition HP_utilisation : res num :=
  a <- sum_hp_output ;; b <- sum_hd ;; Ok (nmap (fun x => round2 x * 100) (ndiv a b)).
(** io/outputs.py:894-904 *)
Definition RES_self_consumption : res Q :=
  g <- sum_RES ;; e <- sum_export ;;
  let ratio := if qlt 0 g then 1 - e / g else 0 in
  Ok (ratio * 100).
(** io/outputs.py:906-910 *)
Definition total_RES_self_consumption : res Q := g <- sum_RES ;; e <- sum_export ;; Ok (g - e).

(** The common shape of io/outputs.py:912-992, 994-1075, 1077-1159 and 1161-1242: the sum of a quantity
    over the hours with wind output at or above the higher band.  The wind output is read
    at position i. *)
Definition plain_tariffs : list string := ["Flat rates"; "Variable periods"; "Time of use - WM"].
(** The tariffs with a wind farm, io/outputs.py:912-992 *)
Definition ppa_tariffs : list string :=
  ["Time of use - PPA + FR"; "Time of use - PPA + WM"; "Time of use - PPA + VP"].
(** io/outputs.py:912-992, 994-1075, 1077-1159 and 1161-1242 *)
Definition windy_sum (f : fields -> Q) : res Q :=
  let G := k_grid K in
  if existsb (String.eqb (g_tariff G)) plain_tariffs then Ok 0
  else if negb (existsb (String.eqb (g_tariff G)) ppa_tariffs) then Err UnboundLocalError
  else
    w <- wind_farm_info G ;;
    n <- zeros ;;
    l <- mapM (fun i =>
           p <- label (w_power w) (Z.of_nat i) ;;
           if qle (w_higher w) p then r <- pidx (k_results K) i ;; Ok (f (rf r)) else Ok 0) (seq 0 n) ;;
    Ok (qsum l).
(** io/outputs.py:985, 1067-1069, 1149-1153, 1234-1236 *)
Definition grid_RES_used : res Q := windy_sum (fun r => r GRID_total_import).
(** io/outputs.py:994-1075 *)
Definition heat_grid_RES_used : res Q :=
  windy_sum (fun r => r AUX_demand - r RES_aux + r HP_elec_import_usage).
(** io/outputs.py:1077-1159 *)
Definition heat_from_grid_RES : res Q :=
  windy_sum (fun r => r AUX_demand - r RES_aux + r HP_elec_import_usage * r HP_cop).
(** io/outputs.py:1161-1242 *)
Definition HP_from_grid_RES : res Q := windy_sum (fun r => r HP_elec_import_usage * r HP_cop).
(** io/outputs.py:1244-1276 *)
Definition heat_from_local_RES : res Q :=
  a <- sum_of (fun r => r RES_aux) ;; b <- sum_of (fun r => r HP_elec_RES_usage * r HP_cop) ;; Ok (a + b).
(** io/outputs.py:1262-1276 *)
Definition HP_from_local_RES : res Q := sum_of (fun r => r HP_elec_RES_usage * r HP_cop).
(** io/outputs.py:1278-1294 *)
Definition HP_total_RES_used : res Q := a <- HP_from_local_RES ;; b <- HP_from_grid_RES ;; Ok (a + b).
(** io/outputs.py:1284-1286 *)
Definition total_RES_used : res Q := a <- grid_RES_used ;; b <- total_RES_self_consumption ;; Ok (a + b).
(** io/outputs.py:1288-1294 *)
Definition heat_total_RES_used : res Q :=
  a <- heat_grid_RES_used ;; b <- total_RES_self_consumption ;; c <- sum_ed_RES ;; Ok (a + b - c).
(** io/outputs.py:1296-1305 *)
Definition demand_met_RES : res num :=
  a <- sum_hp_usage ;; b <- sum_aux_output ;; c <- sum_ed ;;
  let demand := a + b + c in
  u <- total_RES_used ;;
  Ok (nmap (fun x => (1 - x) * 100) (ndiv (demand - u) demand)).
(** io/outputs.py:1307-1316 *)
Definition heat_met_RES : res num :=
  a <- sum_hp_output ;; b <- sum_aux_output ;;
  l <- heat_from_local_RES ;; g <- heat_from_grid_RES ;;
  Ok (nmap (fun x => x * 100) (ndiv (l + g) (a + b))).
(** io/outputs.py:1318-1326 *)
Definition HP_met_RES : res num :=
  a <- sum_hp_output ;; l <- HP_from_local_RES ;; g <- HP_from_grid_RES ;;
  Ok (nmap (fun x => x * 100) (ndiv (l + g) a)).
(** io/outputs.py:1328-1342; for zero timesteps sum_hd is numpy's 0.0 and the divisions give nan *)
Definition days_storage_content : res num :=
  let f := steps / 8760 in
  s <- sum_hd ;;
  capacity <- size_at (k_name K) 1 ;;
  let energy := inject_Z capacity * (418 # 100) * 20 / 3600 in
  if (k_timesteps K =? 0)%Z then Ok NotFinite
  else Ok (ndiv energy (s / (365 * f))).

(** io/outputs.py:1346-1379; the names year_income and years are unbound for an unknown kind *)
Record income := { year_income : Q; total_income : Q }.
(** io/outputs.py:1346-1379, the income of one year *)
Definition rhi_year (eligible : Q) (capacity : Z) : res Q :=
  let R := k_rhi K in
  if String.eqb (rhi_tariff R) "Fixed" then Ok (eligible * rhi_fixed R / 100)
  else if String.eqb (rhi_tariff R) "Tiered" then
    let tier_1_output := inject_Z capacity * 1314 in
    if qle eligible tier_1_output then Ok (eligible * rhi_tier_1 R / 100)
    else Ok ((tier_1_output * rhi_tier_1 R + (eligible - tier_1_output) * rhi_tier_2 R) / 100)
  else Err UnboundLocalError.
(** io/outputs.py:1346-1379, the number of years *)
Definition rhi_years : res Q :=
  if String.eqb (rhi_type (k_rhi K)) "Domestic" then Ok 7
  else if String.eqb (rhi_type (k_rhi K)) "Non-domestic" then Ok 20
  else Err UnboundLocalError.
(** io/outputs.py:1346-1379 *)
Definition RHI_income : res income :=
  a <- sum_hp_output ;; b <- sum_hp_usage ;;
  capacity <- size_at (k_name K) 0 ;;
  y <- rhi_year (a - b) capacity ;;
  n <- rhi_years ;;
  Ok {| year_income := y; total_income := y * n |}.

(** io/outputs.py:1381-1406, in thousand pounds *)
Definition ts_calc (ts_size : Z) : Q := if (ts_size <=? 0)%Z then 0 else store_price ts_size.
(** io/outputs.py:1381-1406 *)
Definition capital_cost : res Q :=
  hp_size <- size_at (k_name K) 0 ;;
  ts_size <- size_at (k_name K) 1 ;;
  let capex := inject_Z hp_size * 600 + inject_Z ts_size * ts_calc ts_size / 1000 in
  Ok (capex / 1000).
(** io/outputs.py:1408-1431, in thousand pounds *)
Definition operating_cost : res Q :=
  cf <- array (fun r => r GRID_cashflow) ;;
  aux_cost <- array (fun r => r AUX_cost / 1000) ;;
  let opex := if is_electric then qsum (map Qopp cf) else qsum (map Qopp cf) + qsum aux_cost in
  Ok (opex / 1000).
(** io/outputs.py:1438-1451 = 1470-1483 *)
Definition heat_cost (r : fields) : Q :=
  let imports := (r GRID_total_import - r GRID_import_for_elec_demand) * r GRID_import_price / 1000 in
  if is_electric then imports else imports + r AUX_cost / 1000.
(** io/outputs.py:1433-1463 *)
Definition cost_of_heat : res num :=
  l <- array heat_cost ;;
  aux_tot <- sum_aux_output ;; hp_tot <- sum_hp_output ;;
  R <- RHI_income ;;
  Ok (ndiv (qsum l - year_income R) (aux_tot + hp_tot)).
(** io/outputs.py:1465-1584: 8760 / self.timesteps, a Python division *)
Definition year_factor : res Q :=
  if (k_timesteps K =? 0)%Z then Err ZeroDivisionError else Ok (8760 / steps).
(** io/outputs.py:1465-1503 *)
Definition levelised_cost_of_heat : res num :=
  l <- array heat_cost ;;
  c <- capital_cost ;;
  let capex := c * 1000 in
  R <- RHI_income ;;
  hd <- sum_hd ;;
  f <- year_factor ;;
  Ok (ndiv ((capex + qsum l * f * 20) - total_income R) (hd * f * 20)).
(** io/outputs.py:1512-1522 = 1562-1572 *)
Definition energy_cost (r : fields) : Q :=
  if is_electric then - r GRID_cashflow / 1000 else - r GRID_cashflow / 1000 + r AUX_cost / 1000.
(** io/outputs.py:1505-1540 *)
Definition levelised_cost_of_energy : res num :=
  l <- array energy_cost ;;
  c <- capital_cost ;;
  let capex := c * 1000 in
  let energy_cost_tot := qsum l * 1000 in
  R <- RHI_income ;;
  heat_dem <- sum_hd ;; elec_dem <- sum_ed ;;
  f <- year_factor ;;
  Ok (ndiv ((capex + energy_cost_tot * f * 20) - total_income R) ((heat_dem + elec_dem) * f * 20)).
(** io/outputs.py:1542-1553 *)
Definition cost_elec : res Q := sum_of (fun r => - r GRID_cashflow / 1000).
(** io/outputs.py:1555-1584, in thousand pounds *)
Definition lifetime_cost : res Q :=
  l <- array energy_cost ;;
  c <- capital_cost ;;
  f <- year_factor ;;
  Ok (c + qsum l * f * 20).
End Calcs.

(** ** The tables, outputs.py:1587-1653 and 1947-2077 *)
Section Tables.
Variable store_price : Z -> Q.
(** [load name] is Calcs(root, name, results); the pickles it reads are inputs here *)
Variable load : chars -> res run.

(** A finite indicator, io/outputs.py:1978-2008 *)
Definition fin (x : res Q) : res num := q <- x ;; Ok (Fin q).
(** io/outputs.py:1978-2008: the indicators of one run in the order in which they are computed *)
Definition indicators (K : run) : list (string * res num) :=
  [ ("opex", fin (operating_cost K)); ("local_RES_used", fin (RES_self_consumption K));
    ("total_RES_self_consumption", fin (total_RES_self_consumption K));
    ("grid_RES_used", fin (grid_RES_used K)); ("total_RES_used", fin (total_RES_used K));
    ("HP_size_ratio", HP_size_ratio K); ("HP_utilisation", HP_utilisation K);
    ("capital_cost", fin (capital_cost store_price K)); ("cost_of_heat", cost_of_heat K);
    ("levelised_cost_of_heat", levelised_cost_of_heat store_price K);
    ("levelised_cost_of_energy", levelised_cost_of_energy store_price K);
    ("cost_elec", fin (cost_elec K)); ("lifetime_cost", fin (lifetime_cost store_price K));
    ("sum_hp_output", fin (sum_hp_output K)); ("sum_hp_usage", fin (sum_hp_usage K)); ("scop", calc_scop K);
    ("sum_aux_output", fin (sum_aux_output K)); ("sum_ed_import", fin (sum_ed_import K));
    ("sum_RES", fin (sum_RES K)); ("sum_import", fin (sum_import K)); ("sum_export", fin (sum_export K));
    ("demand_met_RES", demand_met_RES K); ("HP_met_RES", HP_met_RES K);
    ("days_storage_content", days_storage_content K); ("heat_met_RES", heat_met_RES K) ].
(** One row: the sizes of the combination (io/outputs.py:1640-1653, litres to cubic metres) and the
    indicators.  The three tables written share the rows and select columns. *)
Definition table_row (c : Z * Z) : res (list (string * num)) :=
  K <- load (folder_name c) ;;
  vs <- mapM (fun p => v <- snd p ;; Ok (fst p, v)) (indicators K) ;;
  Ok (("hp_sizes", Fin (inject_Z (fst c))) :: ("ts_sizes", Fin (inject_Z (snd c) / 1000)) :: vs)%list.
(** io/outputs.py:2008-2022 *)
Definition economic_columns : list string :=
  ["hp_sizes"; "ts_sizes"; "capital_cost"; "opex"; "cost_of_heat"; "cost_elec"; "lifetime_cost";
   "levelised_cost_of_heat"; "levelised_cost_of_energy"].
(** io/outputs.py:2031-2049 *)
Definition technical_columns : list string :=
  ["hp_sizes"; "ts_sizes"; "local_RES_used"; "total_RES_self_consumption"; "grid_RES_used"; "total_RES_used";
   "heat_met_RES"; "demand_met_RES"; "HP_met_RES"; "HP_size_ratio"; "HP_utilisation"; "days_storage_content"].
(** io/outputs.py:2058-2070 *)
Definition output_columns : list string :=
  ["hp_sizes"; "ts_sizes"; "sum_hp_output"; "sum_hp_usage"; "scop"; "sum_aux_output"; "sum_ed_import"; "sum_RES";
   "sum_import"; "sum_export"].
(** One entry of a data frame, io/outputs.py:2008-2077 *)
Definition cell_of (row : list (string * num)) (name : string) : option num :=
  option_map snd (find (fun p => String.eqb (fst p) name) row).
(** [pd.DataFrame], io/outputs.py:2008-2077 *)
Definition table (columns : list string) (rows : list (list (string * num))) : list (list (option num)) :=
  map (fun row => map (cell_of row) columns) rows.
(** io/outputs.py:1947-2077: all indicators are computed before the first file is written.  Simplification:
    the results of all combinations are loaded first in Python (1630-1637), here row by row. *)
Definition KPIs_to_csv (p : sweep) : res (list (list (list (option num)))) :=
  cs <- combos p ;;
  rows <- mapM table_row cs ;;
  Ok [table economic_columns rows; table technical_columns rows; table output_columns rows].
End Tables.
