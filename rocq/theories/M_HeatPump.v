(** Model of /repo/pylesa/heat/heatpump.py, heat/enums.py, heat/auxiliary.py,
    heat/models/{performance,simple,generic_regression,lorentz}.py (the logarithms of
    the Lorentz model are in [M_Lorentz]), the enum validation of
    io/inputs.py:177-218 and the model selection of initialise_classes.py:80-121. *)
From Coq Require Import String Ascii.
From Verif Require Import Base.

(** ** Enumerations, heat/enums.py *)
(** enums.py:24-27 *)
Inductive hp_kind := ASHP | GSHP | WSHP.
(** enums.py:30-34 *)
Inductive model_name := SIMPLE | LORENTZ | GENERIC | STANDARD.
(** enums.py:37-39 *)
Inductive data_input := INTEGRATED | PEAK.
(** enums.py:42-46 *)
Inductive fuel := GAS | WOOD | KEROSENE | ELECTRIC.

(** heat/enums.py:24-27 *)
Definition hp_kind_value (k : hp_kind) : string :=
  match k with ASHP => "ASHP" | GSHP => "GSHP" | WSHP => "WSHP" end%string.
(** heat/enums.py:30-34 *)
Definition model_name_value (m : model_name) : string :=
  match m with SIMPLE => "SIMPLE" | LORENTZ => "LORENTZ"
             | GENERIC => "GENERIC REGRESSION" | STANDARD => "STANDARD TEST REGRESSION" end%string.
(** heat/enums.py:37-39 *)
Definition data_input_value (d : data_input) : string :=
  match d with INTEGRATED => "INTEGRATED PERFORMANCE" | PEAK => "PEAK PERFORMANCE" end%string.
(** heat/enums.py:42-46 *)
Definition fuel_value (f : fuel) : string :=
  match f with GAS => "GAS" | WOOD => "WOOD CHIPS" | KEROSENE => "KEROSENE" | ELECTRIC => "ELECTRIC" end%string.

(** heat/enums.py:24-27 *)
Definition hp_kinds := [ASHP; GSHP; WSHP].
(** heat/enums.py:30-34 *)
Definition model_names := [SIMPLE; LORENTZ; GENERIC; STANDARD].
(** heat/enums.py:37-39 *)
Definition data_inputs := [INTEGRATED; PEAK].
(** heat/enums.py:42-46 *)
Definition fuels := [GAS; WOOD; KEROSENE; ELECTRIC].

(** Equality of members, heat/enums.py:42-46 *)
Definition fuel_eqb (a b : fuel) : bool :=
  match a, b with
  | GAS, GAS | WOOD, WOOD | KEROSENE, KEROSENE | ELECTRIC, ELECTRIC => true
  | _, _ => false
  end.

(** enums.py:12-21, [from_value]: first member with that value, else KeyError. *)
Definition from_value {A} (members : list A) (value : A -> string) (s : string) : res A :=
  match find (fun m => String.eqb (value m) s) members with
  | Some m => Ok m
  | None => Err KeyError
  end.

(** io/inputs.py:182, 191, 201: [str.upper] restricted to ASCII. *)
Definition upper_ascii (c : ascii) : ascii :=
  let n := nat_of_ascii c in
  if (97 <=? n)%nat && (n <=? 122)%nat then ascii_of_nat (n - 32) else c.
(** [str.upper], io/inputs.py:182, 191, 201 *)
Fixpoint upper (s : string) : string :=
  match s with EmptyString => EmptyString | String c r => String (upper_ascii c) (upper r) end.

(** inputs.py:182-187, 191-196, 201-206: upper-case, membership test raising
    ValueError, then [from_value]. *)
Definition read_enum {A} (members : list A) (value : A -> string) (s : string) : res A :=
  let u := upper s in
  if existsb (fun m => String.eqb (value m) u) members
  then from_value members value u
  else Err ValueError.
(** read_excel.py:423, 431-439: fuels go straight through [from_value] (KeyError). *)
Definition read_fuel (s : string) : res fuel := from_value fuels fuel_value (upper s).

(** ** Back-up heater, heat/auxiliary.py *)
Record aux := {
  a_fuel : fuel;
  a_efficiency : Q;
  a_cost : option Q;           (* None for electric, auxiliary.py:44 *)
  a_energy_density : option Q  (* None for electric, auxiliary.py:45 *) }.

(** heat/auxiliary.py:17-52: A Python dict keyed by fuel; later rows of the workbook overwrite earlier ones,
    so lookup takes the last entry. *)
Definition fuel_table := list (fuel * (Q * Q)).  (* fuel, (cost, energy density) *)
(** [fuel_info[fuel]], heat/auxiliary.py:36-52 *)
Definition fuel_lookup (t : fuel_table) (f : fuel) : option (Q * Q) :=
  option_map snd (find (fun e => fuel_eqb (fst e) f) (rev t)).

(** auxiliary.py:17-52.  The type makes the "not in Fuel" test (37-40) pass. *)
Definition make_aux (f : fuel) (efficiency : Q) (info : fuel_table) : res aux :=
  match f with
  | ELECTRIC => Ok {| a_fuel := f; a_efficiency := efficiency; a_cost := None; a_energy_density := None |}
  | _ => match fuel_lookup info f with
         | None => Err KeyError
         | Some (c, d) => Ok {| a_fuel := f; a_efficiency := efficiency;
                                a_cost := Some c; a_energy_density := Some d |}
         end
  end.

(** auxiliary.py:54-63.  Division by a zero efficiency raises. *)
Definition fuel_usage (efficiency demand : Q) : res Q :=
  if qeq efficiency 0 then Err ZeroDivisionError else Ok (demand / efficiency).

(** ** Heat pump performance of one hour, heat/models/performance.py:10-13 *)
Record perf := { cop : Q; duty : Q }.

(** heatpump.py:297-313.  [capacity] is the attribute of the heat pump.
    Simplification: [cop] is a numpy float, so division by zero gives inf/nan in
    Python and 0 here; theorems assume [0 < cop]. *)
Definition elec_usage (capacity demand : Q) (p : perf) : Q :=
  if qeq capacity 0 then 0
  else pmin (demand / cop p) (duty p / cop p).

(** heatpump.py:315-339; result is (demand, elec).  [min(a, b, c)] of three. *)
Definition thermal_output (capacity elec_supply : Q) (p : perf) (heat_demand : Q) : Q * Q :=
  if qeq capacity 0 then (0, 0)
  else
    let max_thermal_output := elec_supply * cop p in
    let hp_demand := pmin (pmin max_thermal_output heat_demand) (duty p) in
    (hp_demand, hp_demand / cop p).

(** ** Yearly inputs *)
(** What a caller may pass for a temperature: a number, a numpy array or a pandas
    series (heatpump.py:39-41, 83-92). *)
Inductive ydata := Scalar (q : Q) | NpArray (l : list Q) | PdSeries (l : list Q).

(** constants.py:10 *)
Definition ANNUAL_HOURS : nat := Z.to_nat 8760.

(** heatpump.py:80-94 *)
Definition check_full_year (d : ydata) : res ydata :=
  let d' := match d with Scalar q => NpArray (repeat q ANNUAL_HOURS) | _ => d end in
  let n := match d' with Scalar _ => O | NpArray l => length l | PdSeries l => length l end in
  if Nat.eqb n ANNUAL_HOURS then Ok d' else Err ValueError.

(** heat/heatpump.py:220-295: [x.values]: a pandas series has it, a numpy array does not. *)
Definition dot_values (d : ydata) : res (list Q) :=
  match d with PdSeries l => Ok l | _ => Err AttributeError end.

(** Lorentz inputs, heatpump.py:167-174 *)
Record lorentz_spec := {
  l_cop : Q; l_flow : Q; l_return : Q; l_amb_in : Q; l_amb_out : Q; l_elec_capacity : Q }.

(** heat/models/standard_regression.py:102-130: The fitted regression (sklearn) is an oracle: predicted COP and duty for the
    two temperature arrays. *)
Record std_oracle := {
  std_cop : list Q -> list Q -> list Q;
  std_duty : list Q -> list Q -> list Q }.

(** The class chosen at heat/heatpump.py:152-193 *)
Inductive perf_model :=
| MSimple (c : Q)
| MLorentz (s : lorentz_spec)
| MGeneric
| MStandard (o : std_oracle).

(** heat/heatpump.py:30-77 *)
Record heat_pump := {
  h_type : hp_kind;
  h_capacity : Q;
  h_ambient_delta_t : Q;
  h_minimum_runtime : Q;
  h_minimum_output : Q;
  h_data_input : data_input;
  h_flow : ydata;
  h_return : ydata;
  h_air : list Q;
  h_water : list Q;
  h_model : perf_model }.

(** heatpump.py:151-193, model setter, and the constructors heat/models/simple.py:9-17, generic_regression.py:16-29 *)
Definition make_model (approach : model_name) (simple : option Q)
  (lor : option lorentz_spec) (std : option std_oracle) : res perf_model :=
  match approach with
  | SIMPLE => match simple with None => Err ValueError | Some c => Ok (MSimple c) end
  | LORENTZ => match lor with None => Err ValueError | Some s => Ok (MLorentz s) end
  | GENERIC => Ok MGeneric
  | STANDARD => match std with None => Err ValueError | Some o => Ok (MStandard o) end
  end.

(** heatpump.py:30-77, constructor, with the setters heatpump.py:97-149 (the types of the two enumerations make their membership tests, enums.py:9-10, pass).  The ambient data frame has the two columns
    air and water temperature of equal length; its row count is checked. *)
Definition make_heat_pump (ty : hp_kind) (approach : model_name)
  (capacity delta_t runtime output : Q) (di : data_input)
  (flow ret : ydata) (air water : list Q)
  (simple : option Q) (lor : option lorentz_spec) (std : option std_oracle) : res heat_pump :=
  flow' <- check_full_year flow ;;
  ret' <- check_full_year ret ;;
  _ <- check_full_year (PdSeries air) ;;
  m <- make_model approach simple lor std ;;
  Ok {| h_type := ty; h_capacity := capacity; h_ambient_delta_t := delta_t;
        h_minimum_runtime := runtime; h_minimum_output := output; h_data_input := di;
        h_flow := flow'; h_return := ret'; h_air := air; h_water := water; h_model := m |}.

(** initialise_classes.py:87-97 followed by the constructor call 107-121: GENERIC has
    no case and raises KeyError. *)
Definition init_heat_pump (ty : hp_kind) (approach : model_name)
  (capacity delta_t runtime output : Q) (di : data_input)
  (flow ret : ydata) (air water : list Q)
  (simple : Q) (lor : lorentz_spec) (std : std_oracle) : res heat_pump :=
  match approach with
  | SIMPLE => make_heat_pump ty approach capacity delta_t runtime output di flow ret air water (Some simple) None None
  | LORENTZ => make_heat_pump ty approach capacity delta_t runtime output di flow ret air water None (Some lor) None
  | STANDARD => make_heat_pump ty approach capacity delta_t runtime output di flow ret air water None None (Some std)
  | GENERIC => Err KeyError
  end.

(** heatpump.py:195-218 with environment/weather.py:69-76 (the two columns side by side) *)
Definition heat_resource (h : heat_pump) : list Q :=
  match h_type h with ASHP => h_air h | _ => h_water h end.

(** generic_regression.py:31-60, one hour: defrost factor 0.9 at or below 5 degrees. *)
Definition defrost (ambient : Q) : Q := if qle ambient 5 then 9 # 10 else 1.
(** heat/models/generic_regression.py:31-60, one hour *)
Definition generic_cop (ty : hp_kind) (flow ambient : Q) : Q :=
  let d := flow - ambient in
  match ty with
  | ASHP => ((681 # 100) - (121 # 1000) * d + (63 # 100000) * (d * d)) * defrost ambient
  | _ => ((877 # 100) - (15 # 100) * d + (734 # 1000000) * (d * d)) * defrost ambient
  end.

(** lorentz.py:118-129 *)
Definition lorentz_duty (s : lorentz_spec) (capacity : Q) : Q :=
  pmin (l_cop s * l_elec_capacity s) capacity.

(** Elementwise numpy formulas of four arrays, heat/models/lorentz.py and heat/models/generic_regression.py:31-75 *)
Fixpoint zip4 (f : Q -> Q -> Q -> Q -> Q) (a b c d : list Q) : list Q :=
  match a, b, c, d with
  | x :: a', y :: b', z :: c', w :: d' => f x y z w :: zip4 f a' b' c' d'
  | _, _, _, _ => []
  end.
(** Elementwise numpy formulas of two arrays, heat/models/generic_regression.py:31-75 and heat/models/performance.py:33-40 *)
Fixpoint zip2 {A B C} (f : A -> B -> C) (a : list A) (b : list B) : list C :=
  match a, b with
  | x :: a', y :: b' => f x y :: zip2 f a' b'
  | _, _ => []
  end.

(** performance.py:16-31: lengths must agree, else IndexError. *)
Definition perf_array (cops duties : list Q) : res (list perf) :=
  if Nat.eqb (length cops) (length duties)
  then Ok (zip2 (fun c d => {| cop := c; duty := d |}) cops duties)
  else Err IndexError.

Section Performance.
(** The real-valued Lorentz COP of one hour (see [M_Lorentz]) is a parameter. *)
Variable lorentz_cop : lorentz_spec -> Q -> Q -> Q -> Q -> Q.

(** heatpump.py:220-295 *)
Definition performance (h : heat_pump) : res (list perf) :=
  if qeq (h_capacity h) 0 then
    perf_array (repeat (1 # 2) ANNUAL_HOURS) (repeat 0 ANNUAL_HOURS)
  else
    let ambient := heat_resource h in
    match h_model h with
    | MSimple c => perf_array (repeat c ANNUAL_HOURS) (repeat (h_capacity h) ANNUAL_HOURS)
    | MLorentz s =>
        flow <- dot_values (h_flow h) ;;
        ret <- dot_values (h_return h) ;;
        perf_array (zip4 (lorentz_cop s) flow ret ambient
                      (map (fun t => t - h_ambient_delta_t h) ambient))
                   (repeat (lorentz_duty s (h_capacity h)) ANNUAL_HOURS)
    | MGeneric =>
        flow <- dot_values (h_flow h) ;;
        perf_array (zip2 (generic_cop (h_type h)) flow ambient)
                   (repeat (h_capacity h) ANNUAL_HOURS)
    | MStandard o =>
        flow <- dot_values (h_flow h) ;;
        let c := std_cop o ambient flow in
        match h_data_input h with
        | INTEGRATED => perf_array c (std_duty o ambient flow)
        | PEAK =>
            match h_type h with
            | ASHP => perf_array (zip2 (fun x t => x * defrost t) c ambient) (std_duty o ambient flow)
            | _ => Err ValueError
            end
        end
    end.
End Performance.
