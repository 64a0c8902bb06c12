(** Model of initialise_classes.py, of the methods of io/inputs.py it uses, and of the change
    of the stored inputs for one combination of the sweep (parametric_analysis.py:69-128): from
    the tables read from the workbook to the objects the controllers work with.

    Simplifications: a cell is taken to hold the kind of value that is needed, a number, a text
    or a whole number; a cell of the wrong kind is refused here (TypeError), Python carries it
    along and fails, or computes with nan, later.  Gaps are kept in the weather of PV and wind.
    The libraries of pvlib, its parameter sets, windpowerlib, sklearn, the table of specific
    heats and the cube root of the tank's width are parameters. *)
From Coq Require Import String Ascii.
From Verif Require Import Base M_Battery M_HeatPump M_Sweep M_Regression M_Excel.
From Verif Require M_Tank M_Grid M_Renewables.
Local Open Scope list_scope.

(** ** Kinds of cells *)
(** A cell used as a number, initialise_classes.py:32-214 *)
Definition number (v : value) : res Q := match v with Some (Number q) => Ok q | _ => Err TypeError end.
(** A cell used as text, initialise_classes.py:32-214 *)
Definition name (v : value) : res string := match v with Some (Text s) => Ok (string_of_list_ascii s) | _ => Err TypeError end.
(** A cell used as a whole number, initialise_classes.py:68-78 and 149 *)
Definition whole (v : value) : res Z :=
  q <- number v ;; let r := Qred q in if Pos.eqb (Qden r) 1 then Ok (Qnum r) else Err TypeError.
(** A number or nothing, io/inputs.py:116-132 *)
Definition gap (v : value) : res (option Q) :=
  match v with None => Ok None | Some (Number q) => Ok (Some q) | Some (Text _) => Err TypeError end.
(** A column of numbers, io/inputs.py:145-157 *)
Definition numbers (f : frame) (heading : string) : res (list Q) := l <- named_column f heading ;; mapM number l.
(** A column that may have gaps, io/inputs.py:103-132 *)
Definition gaps (f : frame) (heading : string) : res (list (option Q)) := l <- named_column f heading ;; mapM gap l.
(** [frame['name'][0]] used as a number, io/inputs.py:227-245 and 328-415 *)
Definition first_number (f : frame) (heading : string) : res Q := v <- first_of f heading ;; number v.

(** ** One combination of the sweep, parametric_analysis.py:69-128 *)
(** parametric_analysis.py:82 and 121: [df.loc[0, heading] = x].  Row 0 and the two columns concerned are always there. *)
Definition set_first (f : frame) (heading : string) (x : Q) : frame :=
  match find_label (Pos 0) (f_rows f), find_label (Named heading) (f_cols f) with
  | Ok i, Ok j => {| f_rows := f_rows f; f_cols := f_cols f;
                     f_at := fun r c => if Nat.eqb r i && Nat.eqb c j then Some (Number x) else f_at f r c |}
  | _, _ => f
  end.
(** parametric_analysis.py:93, 100, 107, 114: [df['duty'] = df['duty'] * ratio]; a missing ratio (nan) leaves nothing. *)
Definition times (ratio : option Q) (v : value) : value :=
  match v, ratio with Some (Number q), Some r => Some (Number (q * r)) | _, _ => None end.
(** parametric_analysis.py:93, 100, 107, 114: text cannot be multiplied by a float *)
Definition is_text (v : value) : bool := match v with Some (Text _) => true | _ => false end.
(** parametric_analysis.py:93, 100, 107, 114 *)
Definition scale_column (f : frame) (heading : string) (ratio : option Q) : res frame :=
  col <- named_column f heading ;;
  j <- find_label (Named heading) (f_cols f) ;;
  if existsb is_text col then Err TypeError
  else Ok {| f_rows := f_rows f; f_cols := f_cols f;
             f_at := fun r c => if Nat.eqb c j then times ratio (f_at f r c) else f_at f r c |}.
(** parametric_analysis.py:86-92 *)
Definition duty_ratio (size : Z) (capacity : value) : res (option Q) :=
  match capacity with
  | Some (Number q) => Ok (Some (if qeq q 0 then 0 else round2 (inject_Z size / q)))
  | None => Ok None
  | Some (Text _) => Err ValueError
  end.
(** parametric_analysis.py:75-123 *)
Definition combination (hp_size ts_size : Z) (k : container) : res container :=
  let h := c_heat_pump k in
  capacity <- first_of (hp_basics h) "capacity" ;;
  ratio <- duty_ratio hp_size capacity ;;
  r1 <- scale_column (hp_reg1 h) "duty" ratio ;; r2 <- scale_column (hp_reg2 h) "duty" ratio ;;
  r3 <- scale_column (hp_reg3 h) "duty" ratio ;; r4 <- scale_column (hp_reg4 h) "duty" ratio ;;
  Ok {| c_parametric := c_parametric k; c_controller := c_controller k; c_resources := c_resources k;
        c_hot_water := c_hot_water k; c_heating := c_heating k; c_temp_return := c_temp_return k;
        c_source_delta_t := c_source_delta_t k; c_demand := c_demand k;
        c_PV_location := c_PV_location k; c_PV_spec := c_PV_spec k; c_wind_database := c_wind_database k;
        c_wind_user := c_wind_user k; c_power_curve := c_power_curve k; c_wind_farm := c_wind_farm k;
        c_battery := c_battery k; c_grid := c_grid k; c_aux := c_aux k;
        c_tank := set_first (c_tank k) "capacity" (inject_Z ts_size);
        c_heat_pump := {| hp_basics := set_first (hp_basics h) "capacity" (inject_Z hp_size);
          RHI_type := RHI_type h; RHI_tariff := RHI_tariff h; RHI_fixed := RHI_fixed h; RHI_tier1 := RHI_tier1 h; RHI_tier2 := RHI_tier2 h;
          hp_simple := hp_simple h; hp_lorentz := hp_lorentz h;
          hp_temp1 := hp_temp1 h; hp_temp2 := hp_temp2 h; hp_temp3 := hp_temp3 h; hp_temp4 := hp_temp4 h;
          hp_reg1 := r1; hp_reg2 := r2; hp_reg3 := r3; hp_reg4 := r4 |} |}.

(** ** Weather, inputs.py:103-132 *)
Definition weather_rows (f : frame) (sun : bool) : res (list M_Renewables.wrow) :=
  dhi <- (if sun then gaps f "DHI" else Ok []) ;; ghi <- (if sun then gaps f "GHI" else Ok []) ;;
  dni <- (if sun then gaps f "DNI" else Ok []) ;;
  w10 <- gaps f "wind_speed_10" ;; w50 <- gaps f "wind_speed_50" ;; ro <- gaps f "roughness_length" ;;
  pr <- gaps f "pressure" ;; air <- gaps f "air_temperature" ;;
  Ok (map (fun t => {| M_Renewables.w_DHI := nth t dhi None; M_Renewables.w_GHI := nth t ghi None; M_Renewables.w_DNI := nth t dni None;
                       M_Renewables.w_wind_10 := nth t w10 None; M_Renewables.w_wind_50 := nth t w50 None;
                       M_Renewables.w_roughness := nth t ro None; M_Renewables.w_pressure := nth t pr None;
                       M_Renewables.w_air := nth t air None |}) (seq 0 (length w10))).

(** ** Turbines, inputs.py:64-97 and initialise_classes.py:31-52 *)
Definition first_listed (f : frame) (heading : string) : res value := list_first f (Named heading).
(** io/inputs.py:74-77 = 91-94 *)
Definition turbine_of (f : frame) : res (string * Q * Q * Q) :=
  n <- first_listed f "turbine_name" ;; h <- first_listed f "hub_height" ;;
  r <- first_listed f "rotor_diameter" ;; m <- first_listed f "multiplier" ;;
  n <- name n ;; h <- number h ;; r <- number r ;; m <- number m ;; Ok (n, h, r, m).
(** initialise_classes.py:32-42, io/inputs.py:64-82 *)
Definition user_turbine (k : container) (w : list M_Renewables.wrow) : res M_Renewables.wind_inputs :=
  pv <- numbers (c_power_curve k) "value" ;; ps <- numbers (c_power_curve k) "wind_speed" ;;
  t <- turbine_of (c_wind_user k) ;;
  p <- first_listed (c_wind_user k) "nominal_power" ;; p <- number p ;;
  let '(n, h, r, m) := t in
  Ok {| M_Renewables.wi_name := n; M_Renewables.wi_hub := h; M_Renewables.wi_rotor := r; M_Renewables.wi_multiplier := m;
        M_Renewables.wi_weather := w; M_Renewables.wi_nominal := Some p;
        M_Renewables.wi_curve := Some (combine pv ps); M_Renewables.wi_efficiency := None |}.
(** initialise_classes.py:44-51, io/inputs.py:84-97 *)
Definition database_turbine (k : container) (w : list M_Renewables.wrow) : res M_Renewables.wind_inputs :=
  t <- turbine_of (c_wind_database k) ;;
  let '(n, h, r, m) := t in
  Ok {| M_Renewables.wi_name := n; M_Renewables.wi_hub := h; M_Renewables.wi_rotor := r; M_Renewables.wi_multiplier := m;
        M_Renewables.wi_weather := w; M_Renewables.wi_nominal := None;
        M_Renewables.wi_curve := None; M_Renewables.wi_efficiency := None |}.

(** ** PV, inputs.py:35-62 and initialise_classes.py:54-67 *)
Definition pv_of (k : container) (w : list M_Renewables.wrow) : res M_Renewables.pv_inputs :=
  let s := c_PV_spec k in let l := c_PV_location k in
  md <- first_listed s "module" ;; iv <- first_listed s "inverter" ;; mu <- first_listed s "multiplier" ;;
  ti <- first_listed s "surface_tilt" ;; az <- first_listed s "surface_azimuth" ;; st <- first_listed s "surface_type" ;;
  ln <- first_listed l "name" ;; la <- first_listed l "latitude" ;; lo <- first_listed l "longitude" ;; al <- first_listed l "altitude" ;;
  md <- name md ;; iv <- name iv ;; mu <- number mu ;; ti <- number ti ;; az <- number az ;; st <- name st ;;
  ln <- name ln ;; la <- number la ;; lo <- number lo ;; al <- number al ;;
  Ok {| M_Renewables.pi_module_name := md; M_Renewables.pi_inverter_name := iv; M_Renewables.pi_multiplier := mu;
        M_Renewables.pi_tilt := ti; M_Renewables.pi_azimuth := az; M_Renewables.pi_surface_type := st;
        M_Renewables.pi_loc_name := ln; M_Renewables.pi_latitude := la; M_Renewables.pi_longitude := lo; M_Renewables.pi_altitude := al;
        M_Renewables.pi_weather := w |}.

(** ** Tank, inputs.py:328-361, initialise_classes.py:69-79, hot_water_tank.py:50-81 *)
Definition lower_ascii (c : ascii) : ascii :=
  let n := nat_of_ascii c in if (65 <=? n)%nat && (n <=? 90)%nat then ascii_of_nat (n + 32) else c.
(** [str.strip], storage/hot_water_tank.py:99-174 *)
Fixpoint lstrip (s : chars) : chars := match s with c :: r => if is_space c then lstrip r else s | [] => [] end.
(** storage/hot_water_tank.py:99-174: [str(x).lower().strip()], restricted to ASCII *)
Definition tidy (s : string) : string :=
  string_of_list_ascii (rev (lstrip (rev (lstrip (map lower_ascii (list_ascii_of_string s)))))).

Section INIT.
(** [2 * (capacity / (2.5 * pi)) ** (1/3)], the value of pi, the table of specific heats *)
Variables (tank_width : Q -> Q) (pi : Q) (specific_heats : Z -> option Q).

(** initialise_classes.py:68-78, io/inputs.py:328-361 *)
Definition tank_of (k : container) (air : list Q) : res M_Tank.tank :=
  let f := c_tank k in
  cap <- first_of f "capacity" ;; ins <- first_of f "insulation" ;; loc <- first_of f "location" ;; nn <- first_of f "number_nodes" ;;
  _ <- first_of f "height" ;; _ <- first_of f "width" ;; _ <- first_of f "insulation_thickness" ;;
  op <- first_of f "tank_opening" ;; opd <- first_of f "tank_opening_diameter" ;;
  un <- first_of f "uninsulated_connections" ;; und <- first_of f "uninsulated_connections_diameter" ;;
  co <- first_of f "insulated_connections" ;; cod <- first_of f "insulated_connections_diameter" ;;
  fi <- first_of f "insulation_factor" ;; fe <- first_of f "overall_factor" ;;
  cap <- number cap ;; ins <- name ins ;; loc <- name loc ;; nn <- whole nn ;;
  op <- number op ;; opd <- number opd ;; un <- number un ;; und <- number und ;; co <- number co ;; cod <- number cod ;;
  fi <- number fi ;; fe <- number fe ;;
  Ok {| M_Tank.k_capacity := cap; M_Tank.k_insulation := tidy ins; M_Tank.k_location := tidy loc; M_Tank.k_nodes := Z.to_nat nn;
        M_Tank.k_width := tank_width cap; M_Tank.k_pi := pi;
        M_Tank.k_openings := op; M_Tank.k_openings_d := opd; M_Tank.k_bare := un; M_Tank.k_bare_d := und;
        M_Tank.k_insulated := co; M_Tank.k_insulated_d := cod; M_Tank.k_Fi := fi; M_Tank.k_Fe := fe;
        M_Tank.k_air := air; M_Tank.k_cp := specific_heats |}.

(** ** Heat pump, inputs.py:145-326 and initialise_classes.py:81-121 *)
Variable ols : fitter.
(** io/inputs.py:227-245 *)
Definition lorentz_of (f : frame) : res lorentz_spec :=
  c <- first_of f "COP" ;; fl <- first_of f "flow_temp" ;; re <- first_of f "return_temp" ;;
  ai <- first_of f "ambient_temp_in" ;; ao <- first_of f "ambient_temp_out" ;; e <- first_of f "elec_capacity" ;;
  c <- number c ;; fl <- number fl ;; re <- number re ;; ai <- number ai ;; ao <- number ao ;; e <- number e ;;
  Ok {| l_cop := c; l_flow := fl; l_return := re; l_amb_in := ai; l_amb_out := ao; l_elec_capacity := e |}.
(** io/inputs.py:249-307 *)
Definition tables_of (h : heat_pump_inputs) : res (list (list test_row * option Q)) :=
  a <- regression_table (hp_temp1 h) (hp_reg1 h) ;; b <- regression_table (hp_temp2 h) (hp_reg2 h) ;;
  c <- regression_table (hp_temp3 h) (hp_reg3 h) ;; d <- regression_table (hp_temp4 h) (hp_reg4 h) ;;
  Ok [a; b; c; d].
(** initialise_classes.py:93, heat/heatpump.py:152-193 *)
Definition standard_of (h : heat_pump_inputs) : res std_oracle :=
  t <- tables_of h ;; r <- train_points ols (regression_data t) ;; Ok (standard_oracle r).
(** initialise_classes.py:80-121 *)
Definition heat_pump_of (k : container) (air water : list Q) : res heat_pump :=
  let h := c_heat_pump k in let b := hp_basics h in
  ty <- basics_type b ;; cap <- first_number b "capacity" ;; ap <- basics_approach b ;;
  dt <- first_number b "ambient_delta_t" ;; rt <- first_number b "minimum_runtime" ;;
  di <- basics_data_input b ;; mo <- first_number b "minimum_output" ;;
  source <- numbers (c_demand k) "temp_source" ;; ret <- number (c_temp_return k) ;;
  let make := make_heat_pump ty ap cap dt rt mo di (PdSeries source) (Scalar ret) air water in
  match ap with
  | SIMPLE => s <- number (hp_simple h) ;; make (Some s) None None
  | LORENTZ => l <- lorentz_of (hp_lorentz h) ;; make None (Some l) None
  | STANDARD => s <- standard_of h ;; make None None (Some s)
  | GENERIC => Err KeyError
  end.

(** ** Battery, inputs.py:395-415 and initialise_classes.py:123-131 *)
Definition battery_of (k : container) : res battery :=
  let f := c_battery k in
  a <- first_number f "capacity" ;; b <- first_number f "initial state" ;; c <- first_number f "charge max" ;;
  d <- first_number f "discharge max" ;; e <- first_number f "charge eff" ;; g <- first_number f "discharge eff" ;;
  s <- first_number f "self discharge" ;;
  Ok {| b_capacity := a; b_initial_state := b; b_charge_max := c; b_discharge_max := d;
        b_charge_eff := e; b_discharge_eff := g; b_self_discharge := s |}.

(** ** Back-up heater, inputs.py:134-143, initialise_classes.py:133-138, auxiliary.py:17-52 *)
Definition aux_of (k : container) : res aux :=
  let x := c_aux k in
  e <- number (x_efficiency x) ;;
  match x_fuel x with
  | ELECTRIC => make_aux ELECTRIC e []
  | f => match find (fun r => fuel_eqb (fst r) f) (rev (x_fuel_info x)) with
         | None => Err KeyError
         | Some (_, (density, cost)) => d <- number density ;; c <- number cost ;; make_aux f e [(f, (c, d))]
         end
  end.

(** ** Grid, inputs.py:363-393 and initialise_classes.py:140-223.  The power of the wind farm is
    computed when the prices are (grid.py:67-81); here with the object. *)
Variable run_wind : M_Renewables.wind_model.
(** power/grid.py:69-79, io/inputs.py:99-114 *)
Definition farm_of (k : container) : res M_Renewables.wind_inputs :=
  let f := c_wind_farm k in
  w <- weather_rows (wf_resources f) false ;;
  n <- name (wf_name f) ;; h <- number (wf_hub f) ;; r <- number (wf_rotor f) ;; m <- number (wf_number f) ;; e <- number (wf_efficiency f) ;;
  Ok {| M_Renewables.wi_name := n; M_Renewables.wi_hub := h; M_Renewables.wi_rotor := r; M_Renewables.wi_multiplier := m;
        M_Renewables.wi_weather := w; M_Renewables.wi_nominal := None; M_Renewables.wi_curve := None; M_Renewables.wi_efficiency := Some e |}.
(** A missing number in arithmetic, power/grid.py:81-95 *)
Definition some_number (x : option Q) : res Q := match x with Some q => Ok q | None => Err TypeError end.
(** power/grid.py:81 *)
Definition farm_power (k : container) : res (list Q) :=
  i <- farm_of k ;; c <- M_Renewables.wind_farm_power run_wind i ;; mapM some_number (M_Renewables.c_data c).

(** The column names of the sheet of variable periods, io/read_excel.py:301-416 *)
Definition weekdays : list string := ["Monday"; "Tuesday"; "Wednesday"; "Thursday"; "Friday"; "Saturday"; "Sunday"]%string.
(** [variable_periods], io/inputs.py:371 *)
Definition periods_of (f : frame) : res (list (string * list Q)) :=
  mapM (fun d => l <- numbers f d ;; Ok (d, l)) weekdays.
(** initialise_classes.py:159-214: The keyword arguments handed over with each tariff; [None] and absent ones are 0 or [] here *)
Definition flat_of (k : container) : res Q := number (M_Excel.g_flat_import (c_grid k)).
(** initialise_classes.py:149, 169, 207 *)
Definition variable_of (k : container) : res (list (string * list Q) * Z) :=
  p <- periods_of (M_Excel.g_periods (c_grid k)) ;; y <- whole (M_Excel.g_year (c_grid k)) ;; Ok (p, y).
(** initialise_classes.py:151-152, 177, 196 *)
Definition market_of (k : container) : res (list Q * Q * Q) :=
  l <- numbers (M_Excel.g_wholesale (c_grid k)) "wholesale_market" ;;
  p <- number (M_Excel.g_premium (c_grid k)) ;; m <- number (M_Excel.g_maximum (c_grid k)) ;; Ok (l, p, m).
(** initialise_classes.py:154-157 *)
Definition bands_of (k : container) : res (Q * Q * Q * Q * list Q) :=
  a <- number (M_Excel.g_lower_percent (c_grid k)) ;; b <- number (M_Excel.g_higher_percent (c_grid k)) ;;
  c <- number (M_Excel.g_lower_penalty (c_grid k)) ;; d <- number (M_Excel.g_higher_discount (c_grid k)) ;;
  w <- farm_power k ;; Ok (a, b, c, d, w).
(** initialise_classes.py:159-214, the constructor call *)
Definition make_grid (tariff : string) (flat : Q) (vp : list (string * list Q) * Z) (wm : list Q * Q * Q) (ppa : Q * Q * Q * Q * list Q) : M_Grid.grid :=
  let '(l, p, m) := wm in let '(a, b, c, d, w) := ppa in
  {| M_Grid.g_tariff := tariff; M_Grid.g_flat := flat; M_Grid.g_periods := fst vp; M_Grid.g_year := snd vp;
     M_Grid.g_market := l; M_Grid.g_premium := p; M_Grid.g_maximum := m;
     M_Grid.g_lower_percent := a; M_Grid.g_higher_percent := b; M_Grid.g_lower_penalty := c; M_Grid.g_higher_discount := d; M_Grid.g_wind := w |}.
(** initialise_classes.py:159-214: argument not given *)
Definition no_periods : list (string * list Q) * Z := ([], 0%Z).
(** initialise_classes.py:159-214: argument not given *)
Definition no_market : list Q * Q * Q := ([], 0, 0).
(** initialise_classes.py:159-214: argument not given *)
Definition no_bands : Q * Q * Q * Q * list Q := (0, 0, 0, 0, []).
(** initialise_classes.py:140-214 *)
Definition grid_of (k : container) : res M_Grid.grid :=
  t <- name (M_Excel.g_tariff (c_grid k)) ;;
  if String.eqb t "Flat rates" then f <- flat_of k ;; Ok (make_grid t f no_periods no_market no_bands)
  else if String.eqb t "Variable periods" then v <- variable_of k ;; Ok (make_grid t 0 v no_market no_bands)
  else if String.eqb t "Time of use - WM" then m <- market_of k ;; Ok (make_grid t 0 no_periods m no_bands)
  else if String.eqb t "Time of use - PPA + FR" then f <- flat_of k ;; b <- bands_of k ;; Ok (make_grid t f no_periods no_market b)
  else if String.eqb t "Time of use - PPA + WM" then m <- market_of k ;; b <- bands_of k ;; Ok (make_grid t 0 no_periods m b)
  else if String.eqb t "Time of use - PPA + VP" then v <- variable_of k ;; b <- bands_of k ;; Ok (make_grid t 0 v no_market b)
  else Err UnboundLocalError.

(** ** [init], initialise_classes.py:19-225 *)
Variables (module inverter : Type) (cec sandia : string -> option module) (inverters : string -> option inverter).
(** The dictionary returned, initialise_classes.py:216-223 *)
Record components := { o_user : M_Renewables.wind_inputs; o_database : M_Renewables.wind_inputs; o_PV : M_Renewables.pv module inverter;
  o_tank : M_Tank.tank; o_heat_pump : heat_pump; o_battery : battery; o_aux : aux; o_grid : M_Grid.grid }.
(** initialise_classes.py:19-225 *)
Definition init (k : container) : res components :=
  w <- weather_rows (c_resources k) true ;;
  air <- numbers (c_resources k) "air_temperature" ;; water <- numbers (c_resources k) "water_temperature" ;;
  u <- user_turbine k w ;; d <- database_turbine k w ;;
  i <- pv_of k w ;; p <- M_Renewables.new_pv cec sandia inverters i ;;
  t <- tank_of k air ;; h <- heat_pump_of k air water ;; b <- battery_of k ;; a <- aux_of k ;; g <- grid_of k ;;
  Ok {| o_user := u; o_database := d; o_PV := p; o_tank := t; o_heat_pump := h; o_battery := b; o_aux := a; o_grid := g |}.

End INIT.
Arguments o_user {module inverter}.
Arguments o_database {module inverter}.
Arguments o_PV {module inverter}.
Arguments o_tank {module inverter}.
Arguments o_heat_pump {module inverter}.
Arguments o_battery {module inverter}.
Arguments o_aux {module inverter}.
Arguments o_grid {module inverter}.

(** initialise_classes.py:19-225: The parameters, bundled: pvlib's modules and inverters and its libraries, windpowerlib, the
    fit of sklearn, and the constants of the tank *)
Record libraries := {
  lib_module : Type; lib_inverter : Type;
  lib_cec : string -> option lib_module; lib_sandia : string -> option lib_module; lib_inverters : string -> option lib_inverter;
  lib_wind : M_Renewables.wind_model; lib_fit : fitter;
  lib_width : Q -> Q; lib_pi : Q; lib_cp : Z -> option Q }.
(** initialise_classes.py:216-223 *)
Definition system (L : libraries) : Type := components (lib_module L) (lib_inverter L).

(** From the workbook to the objects of one combination: read_excel.py, parametric_analysis.py,
    initialise_classes.py *)
Definition set_up (L : libraries) (wb : workbook) (hp_size ts_size : Z) : res (system L) :=
  k <- read_inputs wb ;; k' <- combination hp_size ts_size k ;;
  init (lib_width L) (lib_pi L) (lib_cp L) (lib_fit L) (lib_wind L) (lib_module L) (lib_inverter L) (lib_cec L) (lib_sandia L) (lib_inverters L) k'.
