(** Model of io/read_excel.py (the methods of [XlsxInput]) and of the methods of
    io/inputs.py that hand the stored values on.

    Simplifications: a sheet is what [pd.read_excel] returns for it: a header and rows of
    cells, an empty cell (nan) is [None].  All the operations applied to a frame (dropping,
    renaming, transposing, renumbering, selecting rows) select and relabel rows and columns,
    so a frame is modelled as a labelled selection of rows and columns of its sheet.  Pickling
    stores the values unchanged. *)
From Coq Require Import String Ascii.
From Verif Require Import Base M_HeatPump M_Sweep M_Regression.

(** A cell of a sheet, io/read_excel.py:71 *)
Definition value := option cell.

(** ** Data frames *)
(** io/read_excel.py:81-628: Labels: ['Unnamed: k'] for a column without heading, a name, or a number *)
Inductive label := Unnamed (k : nat) | Named (s : string) | Pos (k : nat).
(** Equality of labels, io/read_excel.py:81-628 *)
Definition label_eqb (a b : label) : bool :=
  match a, b with
  | Unnamed i, Unnamed j => Nat.eqb i j
  | Named s, Named t => String.eqb s t
  | Pos i, Pos j => Nat.eqb i j
  | _, _ => false
  end.
(** Membership of labels, io/read_excel.py:81-628 *)
Definition lmem (l : label) (ls : list label) : bool := existsb (label_eqb l) ls.

(** A data frame, io/read_excel.py:81-628 *)
Record frame := { f_rows : list (label * nat); f_cols : list (label * nat); f_at : nat -> nat -> value }.

(** One sheet as read at io/read_excel.py:71 *)
Record sheet := { s_header : list label; s_cells : list (list value) }.
(** Numbered labels, io/read_excel.py:71 *)
Definition enumerate {A} (l : list A) : list (A * nat) := combine l (seq 0 (length l)).
(** The frame of a sheet, io/read_excel.py:71 *)
Definition frame_of (s : sheet) : frame :=
  {| f_rows := map (fun k => (Pos k, k)) (seq 0 (length (s_cells s)));
     f_cols := enumerate (s_header s);
     f_at := fun r c => nth c (nth r (s_cells s) []) None |}.

(** io/read_excel.py:81-628: [drop(index=...)], [drop(columns=...)]: KeyError for a label that is not there *)
Definition drop (ls : list label) (axis : list (label * nat)) : res (list (label * nat)) :=
  if forallb (fun l => lmem l (map fst axis)) ls
  then Ok (filter (fun e => negb (lmem (fst e) ls)) axis)
  else Err KeyError.
(** [df.drop(index)], io/read_excel.py:129-628 *)
Definition drop_rows (ls : list label) (f : frame) : res frame :=
  rows <- drop ls (f_rows f) ;; Ok {| f_rows := rows; f_cols := f_cols f; f_at := f_at f |}.
(** [df.drop(columns=...)], io/read_excel.py:129-628 *)
Definition drop_cols (ls : list label) (f : frame) : res frame :=
  cols <- drop ls (f_cols f) ;; Ok {| f_rows := f_rows f; f_cols := cols; f_at := f_at f |}.

(** io/read_excel.py:81-628: [rename(columns=...)]: labels that are not there are ignored *)
Definition renamed (m : list (label * string)) (l : label) : label :=
  match find (fun e => label_eqb (fst e) l) m with Some e => Named (snd e) | None => l end.
(** [df.rename(columns=...)], io/read_excel.py:129-628 *)
Definition rename (m : list (label * string)) (f : frame) : frame :=
  {| f_rows := f_rows f; f_cols := map (fun e => (renamed m (fst e), snd e)) (f_cols f); f_at := f_at f |}.

(** io/read_excel.py:81-628: [reset_index(drop=True)] *)
Definition reset_index (f : frame) : frame :=
  {| f_rows := combine (map Pos (seq 0 (length (f_rows f)))) (map snd (f_rows f)); f_cols := f_cols f; f_at := f_at f |}.

(** io/read_excel.py:81-628: [iloc[a:b]] *)
Definition iloc (a b : nat) (f : frame) : frame :=
  {| f_rows := firstn (b - a) (skipn a (f_rows f)); f_cols := f_cols f; f_at := f_at f |}.

(** io/read_excel.py:81-628: [transpose()] *)
Definition transpose (f : frame) : frame :=
  {| f_rows := f_cols f; f_cols := f_rows f; f_at := fun r c => f_at f c r |}.

(** io/read_excel.py:81-628: [dropna(axis='index', how='any')] *)
Definition filled (v : value) : bool := match v with Some _ => true | None => false end.
(** [df.dropna], io/read_excel.py:129-282 *)
Definition dropna (f : frame) : frame :=
  {| f_rows := filter (fun r => forallb (fun c => filled (f_at f (snd r) (snd c))) (f_cols f)) (f_rows f);
     f_cols := f_cols f; f_at := f_at f |}.

(** Looking up a label, io/read_excel.py:81-628 *)
Definition find_label (l : label) (axis : list (label * nat)) : res nat :=
  match find (fun e => label_eqb (fst e) l) axis with Some e => Ok (snd e) | None => Err KeyError end.
(** io/read_excel.py:81-628: [df[column]] *)
Definition column (f : frame) (c : label) : res (list value) :=
  j <- find_label c (f_cols f) ;; Ok (map (fun r => f_at f (snd r) j) (f_rows f)).
(** io/read_excel.py:81-628: [df[column][row]] *)
Definition at_label (f : frame) (c r : label) : res value :=
  j <- find_label c (f_cols f) ;; i <- find_label r (f_rows f) ;; Ok (f_at f i j).
(** io/read_excel.py:81-628: [df.to_dict('list')[column][0]] *)
Definition list_first (f : frame) (c : label) : res value :=
  l <- column f c ;; match l with [] => Err IndexError | v :: _ => Ok v end.

Notation U := Unnamed.
(** Labels of columns without heading, io/read_excel.py:81-628 *)
Definition Us (ks : list nat) : list label := map Unnamed ks.
(** Numbers of rows, io/read_excel.py:81-628 *)
Definition Ps (ks : list nat) : list label := map Pos ks.

(** ** The workbook *)
(** [self.excel_sheets], io/read_excel.py:71 *)
Definition workbook := string -> option sheet.
(** [self.excel_sheets[name]], io/read_excel.py:83 and the first line of every method *)
Definition get_sheet (wb : workbook) (name : string) : res frame :=
  match wb name with Some s => Ok (frame_of s) | None => Err KeyError end.

(** io/read_excel.py:100-127, 418-440 and io/inputs.py:177-218: Methods of [value]: only text has [.upper()] and [.split()] *)
Definition text_of (v : value) : res string :=
  match v with Some (Text s) => Ok (string_of_list_ascii s) | _ => Err AttributeError end.
(** An order string, io/read_excel.py:100-127 *)
Definition order_of (v : value) : res (list Z) :=
  match v with Some c => read_order c | None => Err AttributeError end.
(** io/read_excel.py:418-440 *)
Definition cell_fuel (v : value) : res fuel := s <- text_of v ;; read_fuel s.

(** io/read_excel.py:81-628: [df['Unnamed: c'][r]] *)
Definition at_ (f : frame) (c r : nat) : res value := at_label f (U c) (Pos r).

(** read_excel.py:81-98 *)
Record parametric := { hp_max : value; hp_min : value; hp_step : value; ts_max : value; ts_min : value; ts_step : value }.
(** io/read_excel.py:81-98 *)
Definition x_parametric (wb : workbook) : res parametric :=
  df <- get_sheet wb "Parametric" ;;
  a <- at_ df 3 4 ;; b <- at_ df 4 4 ;; c <- at_ df 5 4 ;;
  d <- at_ df 3 5 ;; e <- at_ df 4 5 ;; f <- at_ df 5 5 ;;
  Ok {| hp_max := a; hp_min := b; hp_step := c; ts_max := d; ts_min := e; ts_step := f |}.

(** io/read_excel.py:100-127 *)
Record controller := { k_controller : value; k_first_hour : value; k_timesteps : value; k_setpoint : value; k_horizon : value;
  k_below : list Z; k_above : list Z }.
(** io/read_excel.py:100-127 *)
Definition x_controller (wb : workbook) : res controller :=
  df <- get_sheet wb "Controller" ;;
  a <- at_ df 3 3 ;; b <- at_ df 6 3 ;; c <- at_ df 6 4 ;;
  d <- at_ df 3 5 ;; e <- at_ df 6 7 ;;
  f <- at_ df 3 7 ;; below <- order_of f ;;
  g <- at_ df 3 6 ;; above <- order_of g ;;
  Ok {| k_controller := a; k_first_hour := b; k_timesteps := c; k_setpoint := d; k_horizon := e; k_below := below; k_above := above |}.

(** io/read_excel.py:129-147 *)
Definition x_resources (wb : workbook) : res frame :=
  df <- get_sheet wb "Weather resources" ;;
  df <- drop_cols (Us [0; 1; 2; 13; 14]%nat) df ;;
  df <- drop_rows (Ps [0; 1; 2; 3]%nat) df ;;
  Ok (reset_index (rename [(U 3, "DHI"); (U 4, "GHI"); (U 5, "DNI"); (U 6, "wind_speed_10"); (U 7, "wind_speed_50");
    (U 8, "roughness_length"); (U 9, "pressure"); (U 10, "air_temperature"); (U 11, "air_density"); (U 12, "water_temperature")]%string df)).

(** io/read_excel.py:149-168 *)
Definition x_demands (wb : workbook) : res (value * frame) :=
  df <- get_sheet wb "Demand gen" ;;
  hot_water <- at_ df 3 15 ;;
  dem <- drop_cols (Us [0; 1; 2; 7]%nat) df ;;
  dem <- drop_rows (Ps [0; 1; 2; 3]%nat) dem ;;
  dem <- drop_rows (Ps (seq 14 22)) dem ;;
  Ok (hot_water, reset_index (rename [(U 3, "Type"); (U 4, "Age"); (U 5, "Bedrooms"); (U 6, "Number of type")]%string dem)).

(** io/read_excel.py:170-189 *)
Definition x_demand_input (wb : workbook) : res (value * value * frame) :=
  df <- get_sheet wb "Demand input" ;;
  temp_return <- at_ df 8 4 ;; source_delta_t <- at_ df 8 6 ;;
  df <- drop_cols (Us [0; 1; 2; 7; 8]%nat) df ;;
  df <- drop_rows (Ps [0; 1; 2; 3]%nat) df ;;
  Ok (temp_return, source_delta_t,
      reset_index (rename [(U 3, "heat demand"); (U 4, "electrical demand"); (U 5, "temp_flow"); (U 6, "temp_source")]%string df)).

(** io/read_excel.py:191-216 *)
Definition x_PV (wb : workbook) : res (frame * frame) :=
  df <- get_sheet wb "PV inputs" ;;
  loc <- drop_cols (Us [0; 1; 6; 7]%nat) df ;; loc <- drop_rows (Ps [13; 17; 18]%nat) loc ;;
  let loc := reset_index (rename [(U 2, "name"); (U 3, "latitude"); (U 4, "longitude"); (U 5, "altitude")]%string (dropna loc)) in
  spec <- drop_cols (Us [0; 1]%nat) df ;; spec <- drop_rows (Ps [17]%nat) spec ;;
  let spec := reset_index (rename [(U 2, "module"); (U 3, "inverter"); (U 4, "multiplier"); (U 5, "surface_tilt");
                                   (U 6, "surface_azimuth"); (U 7, "surface_type")]%string (dropna spec)) in
  Ok (loc, spec).

(** io/read_excel.py:218-255 *)
Definition x_wind (wb : workbook) : res (frame * frame * frame) :=
  df <- get_sheet wb "Wind inputs" ;;
  db <- drop_cols (Us [0; 1; 6]%nat) df ;; db <- drop_rows (Ps [12; 17; 18]%nat) db ;;
  let db := reset_index (rename [(U 2, "turbine_name"); (U 3, "hub_height"); (U 4, "rotor_diameter"); (U 5, "multiplier")]%string (dropna db)) in
  my <- drop_cols (Us [0; 1]%nat) df ;; my <- drop_rows (Ps [17]%nat) my ;;
  let my := reset_index (rename [(U 2, "turbine_name"); (U 3, "hub_height"); (U 4, "rotor_diameter"); (U 5, "multiplier");
                                 (U 6, "nominal_power")]%string (dropna my)) in
  pc <- drop_cols (Us [0; 1; 4; 5; 6]%nat) df ;; pc <- drop_rows (Ps [12; 13; 17; 18; 21]%nat) pc ;;
  let pc := reset_index (rename [(U 2, "value"); (U 3, "wind_speed")]%string (dropna pc)) in
  Ok (db, my, pc).

(** io/read_excel.py:257-282 *)
Record wind_farm := { wf_name : value; wf_hub : value; wf_rotor : value; wf_number : value; wf_efficiency : value; wf_resources : frame }.
(** io/read_excel.py:257-282 *)
Definition x_wind_farm (wb : workbook) : res wind_farm :=
  df <- get_sheet wb "Wind farm" ;;
  a <- at_ df 2 13 ;; b <- at_ df 3 13 ;; c <- at_ df 4 13 ;; d <- at_ df 5 13 ;; e <- at_ df 6 13 ;;
  df <- drop_cols (Us [0; 1]%nat) df ;; df <- drop_rows (Ps (seq 0 18)) df ;;
  Ok {| wf_name := a; wf_hub := b; wf_rotor := c; wf_number := d; wf_efficiency := e;
        wf_resources := reset_index (rename [(U 2, "wind_speed_10"); (U 3, "wind_speed_50"); (U 4, "roughness_length");
                                             (U 5, "pressure"); (U 6, "air_temperature")]%string df) |}.

(** io/read_excel.py:284-299 *)
Definition x_electrical_storage (wb : workbook) : res frame :=
  df <- get_sheet wb "Electrical storage" ;;
  df <- drop_cols (Us [0; 1]%nat) df ;; df <- drop_rows (Ps [3]%nat) df ;;
  Ok (reset_index (rename [(U 2, "capacity"); (U 3, "initial state"); (U 4, "charge max"); (U 5, "discharge max");
    (U 6, "charge eff"); (U 7, "discharge eff"); (U 8, "self discharge")]%string (dropna df))).

(** io/read_excel.py:301-416.  [grid_services_series] (316-338) is stored and never used; its row and column
    drops can raise, its content is omitted. *)
Record grid_inputs := { g_export : value; g_tariff : value; g_balancing : value; g_services : value;
  g_flat_import : value; g_flat_export : value; g_periods : frame; g_year : value;
  g_wholesale : frame; g_balancing_series : frame; g_ppa_output : frame;
  g_premium : value; g_maximum : value;
  g_lower_percent : value; g_higher_percent : value; g_lower_penalty : value; g_higher_discount : value }.
(** io/read_excel.py:301-416 *)
Definition x_grid (wb : workbook) : res grid_inputs :=
  df <- get_sheet wb "Grid" ;;
  export <- at_ df 3 7 ;; tariff <- at_ df 3 3 ;; balancing <- at_ df 7 3 ;; services <- at_ df 9 3 ;;
  df <- drop_cols (Us (0 :: 1 :: seq 14 9)%nat) df ;;
  gs <- drop_cols (Us [2; 3; 4; 6; 5; 10; 11; 12; 13]%nat) df ;; gs <- drop_rows (Ps [3; 5]%nat) gs ;;
  gs <- drop_rows (Ps (9 :: seq 13 27)%nat) gs ;;
  imp <- at_ df 2 7 ;; exp <- at_ df 3 7 ;;
  vp <- drop_cols (Us [2; 3; 4; 5; 6]%nat) (iloc 16 40 df) ;;
  let vp := reset_index (rename [(U 7, "Monday"); (U 8, "Tuesday"); (U 9, "Wednesday"); (U 10, "Thursday"); (U 11, "Friday");
                                 (U 12, "Saturday"); (U 13, "Sunday")]%string vp) in
  year <- at_ df 13 40 ;;
  wm <- drop_cols (Us (seq 3 11)) (iloc 10 (Z.to_nat 8770) df) ;;
  bm <- drop_cols (Us (2 :: seq 4 10)%nat) (iloc 10 (Z.to_nat 8770) df) ;;
  ppa <- drop_cols (Us (2 :: 3 :: seq 5 9)%nat) (iloc 10 (Z.to_nat 8770) df) ;;
  premium <- at_ df 6 7 ;; maximum <- at_ df 7 7 ;;
  lp <- at_ df 9 7 ;; hpc <- at_ df 10 7 ;; lpen <- at_ df 11 7 ;; hd <- at_ df 12 7 ;;
  Ok {| g_export := export; g_tariff := tariff; g_balancing := balancing; g_services := services;
        g_flat_import := imp; g_flat_export := exp; g_periods := vp; g_year := year;
        g_wholesale := reset_index (rename [(U 2, "wholesale_market")]%string wm);
        g_balancing_series := reset_index (rename [(U 3, "balancing_mechanism")]%string bm);
        g_ppa_output := reset_index (rename [(U 4, "ppa_output")]%string ppa);
        g_premium := premium; g_maximum := maximum;
        g_lower_percent := lp; g_higher_percent := hpc; g_lower_penalty := lpen; g_higher_discount := hd |}.

(** io/read_excel.py:418-440: three rows of fuel data, a later row overwrites an earlier one of the same fuel *)
Record aux_inputs := { x_fuel : fuel; x_efficiency : value; x_fuel_info : list (fuel * (value * value)) (* energy density, cost *) }.
(** io/read_excel.py:418-440 *)
Definition x_aux (wb : workbook) : res aux_inputs :=
  df <- get_sheet wb "Aux heat" ;;
  n <- at_ df 2 4 ;; fu <- cell_fuel n ;; e <- at_ df 3 4 ;;
  info <- mapM (fun r => n <- at_ df 2 r ;; f <- cell_fuel n ;; d <- at_ df 3 r ;; c <- at_ df 4 r ;; Ok (f, (d, c))) [7; 8; 9]%nat ;;
  Ok {| x_fuel := fu; x_efficiency := e; x_fuel_info := info |}.

(** io/read_excel.py:442-464 *)
Definition x_thermal_storage (wb : workbook) : res frame :=
  df <- get_sheet wb "Thermal storage" ;;
  let df := reset_index (transpose df) in
  df <- drop_rows (Ps (0 :: 1 :: 2 :: seq 4 10)%nat) df ;;
  df <- drop_cols (Ps [0; 1; 2; 7; 11; 18; 19]%nat) df ;;
  Ok (reset_index (rename [(Pos 3, "capacity"); (Pos 4, "insulation"); (Pos 5, "location"); (Pos 6, "number_nodes");
    (Pos 8, "height"); (Pos 9, "width"); (Pos 10, "insulation_thickness"); (Pos 12, "tank_opening"); (Pos 13, "tank_opening_diameter");
    (Pos 14, "uninsulated_connections"); (Pos 15, "uninsulated_connections_diameter"); (Pos 16, "insulated_connections");
    (Pos 17, "insulated_connections_diameter"); (Pos 20, "insulation_factor"); (Pos 21, "overall_factor")]%string df)).

(** io/read_excel.py:466-628 *)
Record heat_pump_inputs := { hp_basics : frame; RHI_type : value; RHI_tariff : value; RHI_fixed : value; RHI_tier1 : value; RHI_tier2 : value;
  hp_simple : value; hp_lorentz : frame;
  hp_temp1 : frame; hp_temp2 : frame; hp_temp3 : frame; hp_temp4 : frame;
  hp_reg1 : frame; hp_reg2 : frame; hp_reg3 : frame; hp_reg4 : frame }.
(** io/read_excel.py:470-562: The blocks that are turned on their side: rows [a:b], columns dropped, headings *)
Definition sideways (a b : nat) (gone : list nat) (names : list (label * string)) (df : frame) : res frame :=
  f <- drop_rows (Ps gone) (reset_index (transpose (iloc a b df))) ;;
  Ok (reset_index (rename names f)).
(** io/read_excel.py:518-540, with columns dropped after turning *)
Definition sideways2 (a b : nat) (gone : list nat) (dropped : list nat) (names : list (label * string)) (df : frame) : res frame :=
  f <- drop_rows (Ps gone) (reset_index (transpose (iloc a b df))) ;;
  f <- drop_cols (Ps dropped) f ;;
  Ok (reset_index (rename names f)).
(** io/read_excel.py:506-508, 521-523, 545-547 *)
Definition all_but_3 : list nat := [0; 1; 2; 4; 5; 6; 7; 8; 9; 10; 11; 12; 13; 14; 15; 16; 17; 18]%nat.
(** io/read_excel.py:533-535, 556-558 *)
Definition all_but_7 : list nat := [0; 1; 2; 3; 4; 5; 6; 8; 9; 10; 11; 12; 13; 14; 15; 16; 17; 18]%nat.
(** io/read_excel.py:573-576, 607-610 *)
Definition left_names : list (label * string) :=
  [(U 2, "ambient_temp"); (U 3, "COSP"); (U 4, "duty"); (U 5, "capacity_percentage")]%string.
(** io/read_excel.py:590-593, 623-626 *)
Definition right_names : list (label * string) :=
  [(U 6, "ambient_temp"); (U 7, "COSP"); (U 8, "duty"); (U 9, "capacity_percentage")]%string.
(** io/read_excel.py:565-572, 599-606 *)
Definition left_gone : list label := Us (0 :: 1 :: seq 6 13)%nat.
(** io/read_excel.py:582-589, 615-622 *)
Definition right_gone : list label := Us (0 :: 1 :: 2 :: 3 :: 4 :: 5 :: seq 10 9)%nat.
(** io/read_excel.py:466-628 *)
Definition x_heat_pump (wb : workbook) : res heat_pump_inputs :=
  df <- get_sheet wb "Heat pump" ;;
  basics <- sideways 1 8 [0; 1; 2; 4; 5; 6; 7; 8; 9; 10]%nat
    [(Pos 1, "heat_pump_type"); (Pos 2, "modelling_approach"); (Pos 3, "capacity"); (Pos 4, "ambient_delta_t");
     (Pos 5, "minimum_runtime"); (Pos 6, "minimum_output"); (Pos 7, "data_input")]%string df ;;
  r1 <- at_ df 13 3 ;; r2 <- at_ df 13 4 ;; r3 <- at_ df 13 5 ;; r4 <- at_ df 13 6 ;; r5 <- at_ df 13 7 ;;
  simple <- at_ (iloc 9 11 df) 3 10 ;;
  lorentz <- sideways 13 19 all_but_3
    [(Pos 13, "COP"); (Pos 14, "flow_temp"); (Pos 15, "return_temp"); (Pos 16, "ambient_temp_in"); (Pos 17, "ambient_temp_out");
     (Pos 18, "elec_capacity")]%string df ;;
  t1 <- sideways2 21 25 all_but_3 [23; 24]%nat [(Pos 21, "flow_temp"); (Pos 22, "return_temp")]%string df ;;
  t2 <- sideways2 21 25 all_but_7 [23; 24]%nat [(Pos 21, "flow_temp"); (Pos 22, "return_temp")]%string df ;;
  t3 <- sideways 34 36 all_but_3 [(Pos 34, "flow_temp"); (Pos 35, "return_temp")]%string df ;;
  t4 <- sideways 34 36 all_but_7 [(Pos 34, "flow_temp"); (Pos 35, "return_temp")]%string df ;;
  q1 <- drop_cols left_gone (iloc 23 33 df) ;; q1 <- drop_rows (Ps [23; 24]%nat) (rename left_names q1) ;;
  q2 <- drop_cols right_gone (iloc 23 33 df) ;; q2 <- drop_rows (Ps [23; 24]%nat) (rename right_names q2) ;;
  q3 <- drop_cols left_gone (iloc 39 46 df) ;;
  q4 <- drop_cols right_gone (iloc 39 46 df) ;;
  Ok {| hp_basics := basics; RHI_type := r1; RHI_tariff := r2; RHI_fixed := r3; RHI_tier1 := r4; RHI_tier2 := r5;
        hp_simple := simple; hp_lorentz := lorentz; hp_temp1 := t1; hp_temp2 := t2; hp_temp3 := t3; hp_temp4 := t4;
        hp_reg1 := reset_index q1; hp_reg2 := reset_index q2;
        hp_reg3 := reset_index (rename left_names q3); hp_reg4 := reset_index (rename right_names q4) |}.

(** [read_inputs], io/read_excel.py:17-48: the contents of inputs.pkl *)
Record container := { c_parametric : parametric; c_controller : controller; c_resources : frame;
  c_hot_water : value; c_heating : frame; c_temp_return : value; c_source_delta_t : value; c_demand : frame;
  c_PV_location : frame; c_PV_spec : frame; c_wind_database : frame; c_wind_user : frame; c_power_curve : frame;
  c_wind_farm : wind_farm; c_battery : frame; c_grid : grid_inputs; c_aux : aux_inputs; c_tank : frame; c_heat_pump : heat_pump_inputs }.
(** io/read_excel.py:17-48 *)
Definition read_inputs (wb : workbook) : res container :=
  p <- x_parametric wb ;; k <- x_controller wb ;; w <- x_resources wb ;; d <- x_demands wb ;; di <- x_demand_input wb ;;
  pv <- x_PV wb ;; wi <- x_wind wb ;; wf <- x_wind_farm wb ;; es <- x_electrical_storage wb ;; g <- x_grid wb ;; a <- x_aux wb ;;
  ts <- x_thermal_storage wb ;; hp <- x_heat_pump wb ;;
  Ok {| c_parametric := p; c_controller := k; c_resources := w; c_hot_water := fst d; c_heating := snd d;
        c_temp_return := fst (fst di); c_source_delta_t := snd (fst di); c_demand := snd di;
        c_PV_location := fst pv; c_PV_spec := snd pv;
        c_wind_database := fst (fst wi); c_wind_user := snd (fst wi); c_power_curve := snd wi;
        c_wind_farm := wf; c_battery := es; c_grid := g; c_aux := a; c_tank := ts; c_heat_pump := hp |}.

(** ** io/inputs.py *)
(** io/inputs.py:177-245 and 328-415: [frame['name'][0]] *)
Definition first_of (f : frame) (name : string) : res value := at_label f (Named name) (Pos 0).
(** io/inputs.py:145-157: [frame['name']] *)
Definition named_column (f : frame) (name : string) : res (list value) := column f (Named name).

(** The enumerations of [heatpump_basics], io/inputs.py:177-218: upper-cased text, checked *)
Definition enum_of {A} (members : list A) (v : A -> string) (f : frame) (name : string) : res A :=
  c <- first_of f name ;; s <- text_of c ;; read_enum members v s.
(** io/inputs.py:182-187 *)
Definition basics_type (f : frame) : res hp_kind := enum_of hp_kinds hp_kind_value f "heat_pump_type".
(** io/inputs.py:191-196 *)
Definition basics_approach (f : frame) : res model_name := enum_of model_names model_name_value f "modelling_approach".
(** io/inputs.py:201-206 *)
Definition basics_data_input (f : frame) : res data_input := enum_of data_inputs data_input_value f "data_input".

(** One of the four tables of [heatpump_standard_regression], io/inputs.py:249-262: its rows and the flow
    temperature.  The cells of these tables are taken to be numbers or empty.  A further column
    is never dropped: if it has gaps [dropna] leaves too few or no rows, and what is left has
    three inputs per row, which is refused when the COP is predicted from two.  Both are
    ValueErrors, raised later, when the model is trained or used; here they are raised at once. *)
Definition number_of (v : value) : option Q := match v with Some (Number q) => Some q | _ => None end.
(** io/inputs.py:249-262, 264-277, 279-292, 294-307 *)
Definition regression_table (t reg : frame) : res (list test_row * option Q) :=
  if negb (Nat.eqb (length (f_cols reg)) 4) then Err ValueError else
  flow <- first_of t "flow_temp" ;;
  a <- named_column reg "ambient_temp" ;; c <- named_column reg "COSP" ;;
  d <- named_column reg "duty" ;; pc <- named_column reg "capacity_percentage" ;;
  Ok (map (fun k => {| t_ambient := number_of (nth k a None); t_COSP := number_of (nth k c None);
                       t_duty := number_of (nth k d None); t_percent := number_of (nth k pc None) |}) (seq 0 (length a)), number_of flow).
