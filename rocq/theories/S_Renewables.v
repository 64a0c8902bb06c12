(** Specification vocabulary for renewable generation. *)
From Coq Require Import String Ascii.
From Verif Require Import Base M_Renewables.
Open Scope Q_scope.

Definition hours_in_year : nat := Z.to_nat 8760.

(** The library answers with one value per hour of the weather it is given. *)
Definition pv_hourly {module inverter} (run : pvlib_model module inverter) : Prop :=
  forall lat lon tilt az m v f ac, run lat lon tilt az m v f = Ok ac -> length ac = hours_in_year.
Definition wind_hourly (run : wind_model) : Prop :=
  forall t f p, run t f = Ok p -> length p = hours_in_year.

(** [x] is the power (W) computed by pvlib for hour [h] of plant [P]; a missing value counts
    as no power. *)
Definition pvlib_watts {module inverter} (run : pvlib_model module inverter) (P : pv module inverter) (h : nat) (x : Q) : Prop :=
  exists weather ac a,
    pv_weather (pv_rows P) = Ok weather /\
    run (pv_latitude P) (pv_longitude P) (pv_tilt P) (pv_azimuth P) (pv_module P) (pv_inverter P) weather = Ok ac /\
    nth_error ac h = Some a /\ (a = Some x \/ (a = None /\ x = 0)).

(** Monthly correction of the irradiance data, as decimals in the source. *)
Definition monthly : list Q :=
  [1.042785944; 1.059859907; 1.037299072; 0.984286745; 0.995849527; 0.973795815;
   1.003315908; 1.014427134; 1.046833; 1.091837017; 1.039504694; 0.95520793].
Definition month_factor (m : Z) : Q := nth (Z.to_nat m) monthly 0.

(** Month (January is 0) of an hour of a year with 365 days. *)
Definition calendar_month (h : Z) : Z :=
  let d := (h / 24)%Z in
  if (d <? 31)%Z then 0 else if (d <? 59)%Z then 1 else if (d <? 90)%Z then 2 else if (d <? 120)%Z then 3
  else if (d <? 151)%Z then 4 else if (d <? 181)%Z then 5 else if (d <? 212)%Z then 6 else if (d <? 243)%Z then 7
  else if (d <? 273)%Z then 8 else if (d <? 304)%Z then 9 else if (d <? 334)%Z then 10 else 11.

(** Value of an hour of a list. *)
Definition hour_value (out : list Q) (h : nat) (v : Q) : Prop := exists x, nth_error out h = Some x /\ x == v.
Definition entry (s : series) (h : nat) (v : Q) : Prop := exists x, nth_error s h = Some (Some x) /\ x == v.

(** The same plant with another number of systems. *)
Definition systems {module inverter} (k : Q) (P : pv module inverter) : pv module inverter :=
  {| pv_module := pv_module P; pv_inverter := pv_inverter P; pv_multiplier := k; pv_tilt := pv_tilt P;
     pv_azimuth := pv_azimuth P; pv_latitude := pv_latitude P; pv_longitude := pv_longitude P; pv_rows := pv_rows P |}.
(** The same plant under other weather. *)
Definition under {module inverter} (w : list wrow) (P : pv module inverter) : pv module inverter :=
  {| pv_module := pv_module P; pv_inverter := pv_inverter P; pv_multiplier := pv_multiplier P; pv_tilt := pv_tilt P;
     pv_azimuth := pv_azimuth P; pv_latitude := pv_latitude P; pv_longitude := pv_longitude P; pv_rows := w |}.

(** Names under which pvlib looks for weather data (pvlib/modelchain.py: WEATHER_KEYS,
    TEMPERATURE_KEYS, POA_KEYS); other columns are not read. *)
Definition pvlib_names : list string :=
  ["ghi"; "dhi"; "dni"; "wind_speed"; "temp_air"; "precipitable_water";
   "module_temperature"; "cell_temperature"; "poa_global"; "poa_direct"; "poa_diffuse"; "albedo"]%string.
Definition pvlib_sees (f : list (string * series)) : list (string * series) :=
  filter (fun c => existsb (String.eqb (fst c)) pvlib_names) f.
Definition reads_known_names {module inverter} (run : pvlib_model module inverter) : Prop :=
  forall lat lon tilt az m v f g, pvlib_sees f = pvlib_sees g -> run lat lon tilt az m v f = run lat lon tilt az m v g.

(** The rows differ at most in air temperature and wind speed. *)
Definition same_irradiance (a b : list wrow) : Prop :=
  Forall2 (fun x y => w_DHI x = w_DHI y /\ w_GHI x = w_GHI y /\ w_DNI x = w_DNI y) a b.

(** The inputs with another inverter, surface, location name and altitude. *)
Definition renamed (inv surface loc : string) (alt : Q) (i : pv_inputs) : pv_inputs :=
  {| pi_module_name := pi_module_name i; pi_inverter_name := inv; pi_multiplier := pi_multiplier i;
     pi_tilt := pi_tilt i; pi_azimuth := pi_azimuth i; pi_surface_type := surface; pi_loc_name := loc;
     pi_latitude := pi_latitude i; pi_longitude := pi_longitude i; pi_altitude := alt; pi_weather := pi_weather i |}.

(** ** Names of products *)
(** Characters that do not occur in the names of the libraries. *)
Definition separators : list ascii :=
  [" "; "-"; "."; "("; ")"; "["; "]"; ":"; "+"; "/"; """"; ","]%char.
Definition same_but_separators (x y : ascii) : Prop :=
  (In x separators /\ y = "_"%char) \/ (~ In x separators /\ y = x).
Definition library_name (product key : string) : Prop :=
  Forall2 same_but_separators (list_ascii_of_string product) (list_ascii_of_string key).
(** A library that lists products under their library names. *)
Definition lists {module} (lib : string -> option module) (product : string) (m : module) : Prop :=
  exists key, library_name product key /\ lib key = Some m.

(** ** Wind *)
Definition is_near (tol x y : Q) : Prop := y - tol <= x <= y + tol.
(** Hour [h] of the column is within [tol] kW of [v]. *)
Definition entry_near (tol : Q) (s : series) (h : nat) (v : Q) : Prop :=
  exists x, nth_error s h = Some (Some x) /\ is_near tol x v.
(** Power (W) computed by windpowerlib for the machine in hour [h]. *)
Definition lib_watts (run : wind_model) (t : machine) (w : list wrow) (h : nat) (a : option Q) : Prop :=
  exists weather p, wind_weather w = Ok weather /\ run t weather = Ok p /\ nth_error p h = Some a.
Definition user_machine (i : wind_inputs) : machine :=
  UserTurbine (wi_name i) (wi_nominal i) (wi_hub i) (wi_rotor i) (wi_curve i).
Definition database_machine (i : wind_inputs) : machine := DatabaseTurbine (wi_name i) (wi_hub i) (wi_rotor i).
Definition farm_machine (i : wind_inputs) : machine :=
  Farm (wi_name i) (wi_hub i) (wi_rotor i) (wi_multiplier i) (wi_efficiency i).
(** The library never computes a negative power. *)
Definition nonneg_model (run : wind_model) : Prop :=
  forall t f p x, run t f = Ok p -> In (Some x) p -> 0 <= x.
(** ... nor a missing one. *)
Definition complete_model (run : wind_model) : Prop :=
  forall t f p, run t f = Ok p -> ~ In None p.
Definition turbines (k : Q) (i : wind_inputs) : wind_inputs :=
  {| wi_name := wi_name i; wi_hub := wi_hub i; wi_rotor := wi_rotor i; wi_multiplier := k; wi_weather := wi_weather i;
     wi_nominal := wi_nominal i; wi_curve := wi_curve i; wi_efficiency := wi_efficiency i |}.
