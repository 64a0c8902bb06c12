(** Model of power/renewables.py and of the two weather frames of environment/weather.py it
    uses.

    Simplifications: numbers are exact rationals; a missing value (nan) is [None].  pvlib and
    windpowerlib are parameters: what they compute is an arbitrary function of exactly the
    arguments the code hands over.  The constructors [Location], [PVSystem], [ModelChain],
    [WindTurbine] and [WindFarm] belong to these parameters.  The columns of the weather sheet
    come from one frame, so they have the same number of rows. *)
From Coq Require Import String Ascii.
From Verif Require Import Base.
Open Scope Q_scope.

(** ** Weather *)
(** A column of a frame, environment/weather.py:30-67 *)
Definition series := list (option Q).

(** One row of the weather sheet, io/inputs.py:116-132 *)
Record wrow := {
  w_DHI : option Q; w_GHI : option Q; w_DNI : option Q;
  w_wind_10 : option Q; w_wind_50 : option Q; w_roughness : option Q;
  w_pressure : option Q; w_air : option Q }.

(** Not nan, environment/weather.py:30-67 *)
Definition present (x : option Q) : bool := match x with Some _ => true | None => false end.

(** The length of [timeindex], tools.py:85-87 *)
Definition year_rows : nat := Z.to_nat 8760.

(** [Weather.PV], weather.py:30-44 as called by [PV.weather_data], renewables.py:194-208:
    three columns are renamed, columns with a missing value are dropped, and the index of a
    year is attached (ValueError unless there are 8760 rows). *)
Definition pv_columns (w : list wrow) : list (string * series) :=
  [("dhi", map w_DHI w); ("ghi", map w_GHI w); ("dni", map w_DNI w);
   ("wind_speed_10", map w_wind_10 w); ("air_temperature", map w_air w)]%string.
(** environment/weather.py:30-44, power/renewables.py:194-208 *)
Definition pv_weather (w : list wrow) : res (list (string * series)) :=
  if Nat.eqb (length w) year_rows
  then Ok (filter (fun c => forallb present (snd c)) (pv_columns w))
  else Err ValueError.

(** [Weather.wind_turbine], weather.py:46-67 as called by [Windturbine.weather_data],
    renewables.py:309-324: columns that are missing altogether are dropped. *)
Definition wind_columns (w : list wrow) : list ((string * Z) * series) :=
  [(("wind_speed"%string, 10%Z), map w_wind_10 w); (("temperature"%string, 10%Z), map w_air w);
   (("pressure"%string, 0%Z), map w_pressure w); (("roughness_length"%string, 10%Z), map w_roughness w);
   (("wind_speed"%string, 50%Z), map w_wind_50 w)].
(** environment/weather.py:46-67, power/renewables.py:309-324 *)
Definition wind_weather (w : list wrow) : res (list ((string * Z) * series)) :=
  if Nat.eqb (length w) year_rows
  then Ok (filter (fun c => existsb present (snd c)) (wind_columns w))
  else Err ValueError.

(** ** Names of modules, renewables.py:145-160 *)
Definition replace1 (c : ascii) (s : string) : string :=
  string_of_list_ascii (map (fun x => if Ascii.eqb x c then "_"%char else x) (list_ascii_of_string s)).
(** The double quote, power/renewables.py:145-160 *)
Definition quote : ascii := "034"%char.
(** power/renewables.py:145-160 *)
Definition clean_name (s : string) : string :=
  replace1 "," (replace1 quote (replace1 "/" (replace1 "+" (replace1 ":" (replace1 "]" (replace1 "["
    (replace1 ")" (replace1 "(" (replace1 "." (replace1 "-" (replace1 " " s))))))))))).

(** ** PV *)
Section PVLIB.
(** The parameter sets of the libraries shipped with pvlib *)
Variables (module inverter : Type).

(** The arguments of power/renewables.py:125-192 *)
Record pv_inputs := {
  pi_module_name : string; pi_inverter_name : string; pi_multiplier : Q;
  pi_tilt : Q; pi_azimuth : Q; pi_surface_type : string;
  pi_loc_name : string; pi_latitude : Q; pi_longitude : Q; pi_altitude : Q;
  pi_weather : list wrow }.

(** The attributes set at power/renewables.py:125-192 *)
Record pv := {
  pv_module : module; pv_inverter : inverter; pv_multiplier : Q;
  pv_tilt : Q; pv_azimuth : Q; pv_latitude : Q; pv_longitude : Q; pv_rows : list wrow }.

(** [retrieve_sam('CECMod')], ['SandiaMod'], ['cecinverter'] *)
Variables (cec sandia : string -> option module) (inverters : string -> option inverter).

(** [PV.__init__], renewables.py:125-192.  [surface_type], [loc_name] and [altitude] are
    stored and never read; [inverter1] is assigned a constant on line 176. *)
Definition new_pv (i : pv_inputs) : res pv :=
  let module1 := clean_name (pi_module_name i) in
  m <- match cec module1 with
       | Some m => Ok m
       | None => match sandia module1 with Some m => Ok m | None => Err KeyError end
       end ;;
  let inverter1 := "iPower__SHO_4_8__240V_"%string in
  v <- match inverters inverter1 with Some v => Ok v | None => Err KeyError end ;;
  Ok {| pv_module := m; pv_inverter := v; pv_multiplier := pi_multiplier i;
        pv_tilt := pi_tilt i; pv_azimuth := pi_azimuth i;
        pv_latitude := pi_latitude i; pv_longitude := pi_longitude i; pv_rows := pi_weather i |}.

(** power/renewables.py:210-251: [ModelChainPV(system, location).run_model(weather)] followed by [.results.ac]: latitude,
    longitude, tilt, azimuth, module, inverter, weather. *)
Definition pvlib_model := Q -> Q -> Q -> Q -> module -> inverter -> list (string * series) -> res series.
Variable run_model : pvlib_model.

(** The correction factors, power/renewables.py:253-264 *)
Definition correction : list Q :=
  [1042785944 # 1000000000; 1059859907 # 1000000000; 1037299072 # 1000000000;
   984286745 # 1000000000; 995849527 # 1000000000; 973795815 # 1000000000;
   1003315908 # 1000000000; 1014427134 # 1000000000; 1046833 # 1000000;
   1091837017 # 1000000000; 1039504694 # 1000000000; 95520793 # 100000000].

(** power/renewables.py:267-269: [l[i] = x] *)
Definition put {A} (l : list A) (i : nat) (x : A) : list A := firstn i l ++ x :: skipn (S i) l.

(** One round of the loop power/renewables.py:267-269 *)
Definition correct_hour (power : list Q) (hour : Z) : res (list Q) :=
  let month := Z.to_nat (hour / 730) in
  x <- pidx power (Z.to_nat hour) ;;
  c <- pidx correction month ;;
  Ok (put power (Z.to_nat hour) (x * c)).

(** [fillna(0)], power/renewables.py:210-273 *)
Definition fillna0 (x : option Q) : Q := match x with Some q => q | None => 0 end.

(** [PV.power_output], power/renewables.py:210-273 *)
Definition pv_power (P : pv) : res (list Q) :=
  if qeq (pv_multiplier P) 0 then Ok (repeat 0 year_rows)
  else
    weather <- pv_weather (pv_rows P) ;;
    ac <- run_model (pv_latitude P) (pv_longitude P) (pv_tilt P) (pv_azimuth P)
                    (pv_module P) (pv_inverter P) weather ;;
    let power := map (fun x => round2 (fillna0 x) * pv_multiplier P * (1 # 1000) * (85 # 100) * (85 # 100)) ac in
    let power := map (fun x => if qlt x 0 then 0 else x) power in
    foldM correct_hour (zrange 0 8760) power.
End PVLIB.
Arguments new_pv {module inverter}.
Arguments pv_power {module inverter}.
Arguments pv_module {module inverter}.
Arguments pv_inverter {module inverter}.
Arguments pv_multiplier {module inverter}.
Arguments pv_tilt {module inverter}.
Arguments pv_azimuth {module inverter}.
Arguments pv_latitude {module inverter}.
Arguments pv_longitude {module inverter}.
Arguments pv_rows {module inverter}.

(** ** Wind *)
(** The arguments of power/renewables.py:278-307 *)
Record wind_inputs := {
  wi_name : string; wi_hub : Q; wi_rotor : Q; wi_multiplier : Q; wi_weather : list wrow;
  wi_nominal : option Q; wi_curve : option (list (Q * Q)); wi_efficiency : option Q }.

(** What is handed to windpowerlib: a turbine with its own data, a turbine of the database,
    or a farm of turbines of the database (renewables.py:345-359, 394-423, 443-470). *)
Inductive machine :=
| UserTurbine (name : string) (nominal : option Q) (hub rotor : Q) (curve : option (list (Q * Q)))
| DatabaseTurbine (type : string) (hub rotor : Q)
| Farm (type : string) (hub rotor : Q) (number : Q) (efficiency : option Q).

(** power/renewables.py:326-481: A frame with one column *)
Record column := { c_name : string; c_data : series }.
(** power/renewables.py:37-86: [frame[name]] *)
Definition get_column (f : column) (name : string) : res series :=
  if String.eqb (c_name f) name then Ok (c_data f) else Err KeyError.

Section WINDPOWERLIB.
(** power/renewables.py:326-481: [ModelChain(turbine, ...).run_model(weather)] (or [TurbineClusterModelChain]) followed by
    [.power_output] *)
Definition wind_model := machine -> list ((string * Z) * series) -> res series.
Variable run_model : wind_model.

(** power/renewables.py:326-481: a year without generation *)
Definition no_wind (name : string) : column := {| c_name := name; c_data := repeat (Some 0) year_rows |}.

(** [Windturbine.user_power], power/renewables.py:326-369 *)
Definition user_power (i : wind_inputs) : res column :=
  if qeq (wi_multiplier i) 0 then Ok (no_wind "wind_user")
  else
    weather <- wind_weather (wi_weather i) ;;
    p <- run_model (UserTurbine (wi_name i) (wi_nominal i) (wi_hub i) (wi_rotor i) (wi_curve i)) weather ;;
    Ok {| c_name := "wind_user"; c_data := map (option_map (fun x => round2 (x * wi_multiplier i / 1000))) p |}.

(** [Windturbine.database_power], power/renewables.py:371-431 *)
Definition database_power (i : wind_inputs) : res column :=
  if qeq (wi_multiplier i) 0 then Ok (no_wind "wind_database")
  else
    weather <- wind_weather (wi_weather i) ;;
    p <- run_model (DatabaseTurbine (wi_name i) (wi_hub i) (wi_rotor i)) weather ;;
    Ok {| c_name := "wind_database";
          c_data := map (option_map (fun x => round2 (x * wi_multiplier i * (1 # 2) / 1000))) p |}.

(** [Windturbine.wind_farm_power], power/renewables.py:433-481 *)
Definition wind_farm_power (i : wind_inputs) : res column :=
  if qeq (wi_multiplier i) 0 then Ok (no_wind "wind_farm")
  else
    weather <- wind_weather (wi_weather i) ;;
    p <- run_model (Farm (wi_name i) (wi_hub i) (wi_rotor i) (wi_multiplier i) (wi_efficiency i)) weather ;;
    Ok {| c_name := "wind_farm"; c_data := map (option_map (fun x => round2 (x * (1 # 2) / 1000))) p |}.
End WINDPOWERLIB.

(** ** Helper functions, renewables.py:31-115.  [user], [database] and [pv_in] are what
    [Inputs(name, subname)] yields (or the exception it raises). *)
Definition wind_user_power (run : wind_model) (user : string -> string -> res wind_inputs) (name subname : string) : res series :=
  i <- user name subname ;; f <- user_power run i ;; get_column f "wind_database".
(** power/renewables.py:64-86 *)
Definition wind_database_power (run : wind_model) (database : string -> string -> res wind_inputs) (name subname : string) : res series :=
  i <- database name subname ;; f <- database_power run i ;; get_column f "wind_user".
(** power/renewables.py:88-116 *)
Definition PV_power {module inverter : Type} cec sandia inverters (run : pvlib_model module inverter)
  (pv_in : string -> string -> res pv_inputs) (name subname : string) : res (list Q) :=
  i <- pv_in name subname ;; P <- new_pv cec sandia inverters i ;; pv_power run P.
(** power/renewables.py:31-34: Call of a function with two required positional parameters. *)
Definition call2 {A B} (f : A -> A -> res B) (args : list A) : res B :=
  match args with [a; b] => f a b | _ => Err TypeError end.
(** [sum_renewable_generation], power/renewables.py:31-34 *)
Definition sum_renewable_generation {module inverter : Type} (run : wind_model) user database cec sandia inverters
  (run_pv : pvlib_model module inverter) (pv_in : string -> string -> res pv_inputs) : res series :=
  let add := fun a b => map (fun k => match nth k a None, nth k b None with Some x, Some y => Some (x + y) | _, _ => None end)
                            (seq 0 (Nat.max (length a) (length b))) in
  u <- call2 (wind_user_power run user) [] ;;
  d <- call2 (wind_database_power run database) [] ;;
  p <- call2 (PV_power cec sandia inverters run_pv pv_in) [] ;;
  Ok (add (add u d) (map Some p)).

(** ** Generation as the controllers use it: controllers/fixed_order.py:66-73 and the same
    lines of mpc.py.  Adding series aligns their labels 0 ... 8759; a label missing on one
    side or a missing value gives a missing value. *)
Definition add_opt (a b : option Q) : option Q :=
  match a, b with Some x, Some y => Some (x + y) | _, _ => None end.
(** Sum of two columns, controllers/fixed_order.py:70-79 *)
Definition add_series (a b : series) : series :=
  map (fun k => add_opt (nth k a None) (nth k b None)) (seq 0 (Nat.max (length a) (length b))).

(** The generation a controller uses, controllers/fixed_order.py:70-79 *)
Record generation := { g_wind : series; g_PV : list Q; g_total : series }.
(** controllers/fixed_order.py:70-79 = controllers/mpc.py:59-66 *)
Definition renewable_generation {module inverter : Type} (run_wind : wind_model)
  (run_pv : pvlib_model module inverter) (user database : wind_inputs) (P : pv module inverter) : res generation :=
  fu <- user_power run_wind user ;;
  wind_user <- get_column fu "wind_user" ;;
  fd <- database_power run_wind database ;;
  wind_data <- get_column fd "wind_database" ;;
  let wind := add_series wind_user wind_data in
  PV <- pv_power run_pv P ;;
  Ok {| g_wind := wind; g_PV := PV;
        g_total := add_series (add_series wind_user wind_data) (map Some PV) |}.
