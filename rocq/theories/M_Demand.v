(** Model of demand/heat_demand.py and demand/electricity_demand.py: the yearly demand
    profiles of a group of dwellings and their smoothing.

    Simplifications: numbers are exact rationals; plotting is omitted; the value written by
    [np.savetxt] is the array itself (the text rounds to four significant digits).  A
    quotient by zero makes numpy produce nan or an infinity: [NotFinite] ([num], [ndiv] of
    [M_Kpi]).  The tables shipped with the package are parameters. *)
From Coq Require Import String.
From Verif Require Import Base M_Kpi.
Open Scope Q_scope.

(** ** Smoothing *)

(** [np.convolve(values, np.repeat(1.0, window) / window, 'valid')], heat_demand.py:250-253 =
    electricity_demand.py:121-124.  numpy slides the shorter sequence along the longer one and
    refuses an empty one. *)
Definition movingaverage (values : list Q) (window : nat) : res (list Q) :=
  let n := length values in
  let w := inject_Z (Z.of_nat window) in
  if Nat.eqb n 0 then Err ValueError
  else if Nat.leb window n
  then Ok (map (fun k => qsum (firstn window (skipn k values)) / w) (seq 0 (n - window + 1)))
  else Ok (repeat (qsum values / w) (window - n + 1)).

(** demand/electricity_demand.py:119-138 and demand/heat_demand.py:248-271: [np.amax] *)
Definition amax (l : list Q) : res Q :=
  match l with [] => Err ValueError | x :: l' => Ok (pmax_list x l') end.

(** demand/heat_demand.py:248-271: [np.insert(a, 1, b)] *)
Definition insert_at_1 {A} (a b : list A) : list A := firstn 1 a ++ b ++ skipn 1 a.

(** demand/heat_demand.py:248-271: [ratio * inserting] *)
Definition scale (ratio : num) (x : Q) : num := nmap (fun r => r * x) ratio.

(** heat_demand.py:257-264 *)
Definition smooth_heat (y : list Q) : res (list num) :=
  yMA <- movingaverage y 4 ;;
  yMA_max <- amax yMA ;;
  y_max <- amax y ;;
  let ratio := ndiv y_max yMA_max in
  let inserting := map (scale ratio) (firstn 3 y) in
  Ok (insert_at_1 (map Fin yMA) inserting).

(** electricity_demand.py:128-135 *)
Definition smooth_elec (y : list Q) : res (list num) :=
  yMA <- movingaverage y 7 ;;
  yMA_max <- amax yMA ;;
  y_max <- amax y ;;
  let ratio := ndiv y_max yMA_max in
  let inserting := map (scale ratio) (firstn 6 yMA) in
  Ok (insert_at_1 (map Fin yMA) inserting).

(** ** Dwellings *)
(** demand/heat_demand.py:175-203 (heating.pkl): One row of the sheet: type, age, bedrooms, number of dwellings *)
Record dwelling := { d_type : string; d_age : string; d_bedrooms : Z; d_number : Q }.

(** heat_demand.py:46-60 *)
Definition house_types : list string :=
  ["detached"; "semi-detached"; "mid-terrace"; "detached-bungalow"; "semi-detached-bungalow";
   "ground-floor-flat"; "mid-floor-flat"; "top-floor-flat"]%string.
(** demand/heat_demand.py:19-38 *)
Definition house_ages : list string := ["pre-1983"; "1983-2002"; "2003-2007"; "post-2007"]%string.
(** Membership in a list, demand/heat_demand.py:19-38 and 41-109 *)
Definition smem (x : string) (l : list string) : bool := existsb (String.eqb x) l.

(** heat_demand.py:64 *)
Definition floor_area (bedrooms : Z) : res Q :=
  match bedrooms with
  | 1%Z => Ok 70 | 2%Z => Ok 90 | 3%Z => Ok 110 | 4%Z => Ok 130 | 5%Z => Ok 150
  | _ => Err KeyError
  end.

(** heat_demand.py:41-108, one cell [df[type1][age][bedrooms]] of the table *)
Definition floor_factor (type1 age : string) (bedrooms : Z) : res Q :=
  if smem type1 house_types && smem age house_ages then
    f <- floor_area bedrooms ;;
    Ok (round2 (f / (if String.eqb type1 "detached" then 130
                     else if String.eqb type1 "mid-terrace" then 70 else 90)))
  else Err KeyError.

(** ** Temperature of a day *)
(** heat_demand.py:161-172: [rolling(24).mean().round(0).iloc[23::24]], entry [day]; fewer
    hours leave the entry missing (KeyError on the label). *)
Definition average_day_temperature (air : list Q) (day : nat) : res Z :=
  if Nat.leb (24 * day + 24) (length air)
  then Ok (round_half_even (qsum (firstn 24 (skipn (24 * day) air)) / 24))
  else Err KeyError.

(** heat_demand.py:192-195 *)
Definition clamp_temp (temp : Z) : Z := if (14 <? temp)%Z then 14%Z else if (temp <? -3)%Z then (-3)%Z else temp.

(** heat_demand.py:144-147: the name of the sheet; [str] of a one or two digit number *)
Definition digit (n : Z) : string :=
  match n with 0%Z => "0" | 1%Z => "1" | 2%Z => "2" | 3%Z => "3" | 4%Z => "4"
             | 5%Z => "5" | 6%Z => "6" | 7%Z => "7" | 8%Z => "8" | _ => "9" end%string.
(** The number in a sheet name, demand/heat_demand.py:111-134 *)
Definition str2 (n : Z) : string :=
  if (n <? 10)%Z then digit n else (digit (n / 10) ++ digit (n mod 10))%string.
(** demand/heat_demand.py:111-134 *)
Definition sheet_name (temp : Z) : string :=
  if (temp <? 0)%Z then ("N" ++ str2 (-1 * temp))%string else str2 temp.

(** heat_demand.py:119-120 *)
Definition sheets : list string :=
  ["N3"; "N2"; "N1"; "0"; "1"; "2"; "3"; "4"; "5"; "6"; "7"; "8"; "9"; "10"; "11"; "12"; "13"; "14"]%string.

Section Profiles.
(** The pickled table of standard day profiles (heat_demand.py:141-142): sheet, type, age.
    A missing sheet or column raises KeyError. *)
Variable table : res (string -> string -> string -> res (list Q)).

(** heat_demand.py:137-149 *)
Definition standard_day_profile (type1 age : string) (temp : Z) : res (list Q) :=
  df <- table ;; df (sheet_name temp) type1 age.

(** heat_demand.py:152-158 *)
Definition scaled_day_profile (type1 age : string) (bedrooms : Z) (temp : Z) : res (list Q) :=
  stp <- standard_day_profile type1 age temp ;;
  scaling <- floor_factor type1 age bedrooms ;;
  Ok (map (fun x => x * scaling) stp).

(** heat_demand.py:198-200: a day has 24 entries, otherwise numpy cannot assign them.
    (A profile of length one would be broadcast; the shipped profiles have 24 rows.) *)
Definition dwelling_day (air : list Q) (d : dwelling) (day : nat) : res (list Q) :=
  t <- average_day_temperature air day ;;
  p <- scaled_day_profile (d_type d) (d_age d) (d_bedrooms d) (clamp_temp t) ;;
  if Nat.eqb (length p) 24 then Ok (map (fun x => x * d_number d) p) else Err ValueError.

(** heat_demand.py:184-202 *)
Definition dwelling_profile (air : list Q) (d : dwelling) : res (list Q) :=
  days <- mapM (dwelling_day air d) (seq 0 365) ;; Ok (concat days).
(** demand/heat_demand.py:175-203 *)
Definition profiles_from_inputs (air : list Q) (heating : list dwelling) : res (list (list Q)) :=
  mapM (dwelling_profile air) heating.

(** heat_demand.py:205-227, the value of every hour *)
Definition hot_water_hour (hot_water : Q) (heating : list dwelling) : Q :=
  let total_bedrooms := fold_left (fun acc d => acc + inject_Z (d_bedrooms d) * d_number d) heating 0 in
  let total_people := total_bedrooms * (3 # 2) in
  total_people * hot_water / 24.

(** heat_demand.py:230-245 *)
Definition aggregate (air : list Q) (hot_water : Q) (heating : list dwelling) : res (list Q) :=
  list_array <- profiles_from_inputs air heating ;;
  let hwd := repeat (hot_water_hour hot_water heating) (Z.to_nat 8760) in
  mapM (fun hour =>
    sum_demand <- foldM (fun acc prof => x <- pidx prof hour ;; Ok (acc + x)) list_array 0 ;;
    h <- pidx hwd hour ;;
    Ok (sum_demand + h)) (seq 0 (Z.to_nat 8760)).

(** heat_demand.py:248-270 *)
Definition predicted_heat_demand (air : list Q) (hot_water : Q) (heating : list dwelling) : res (list num) :=
  y <- aggregate air hot_water heating ;; smooth_heat y.
End Profiles.

(** ** Electricity *)
(** The seasons of demand/electricity_demand.py:31-64 *)
Inductive season := Wtr | Spr | Smr | Hsr | Aut.
(** The kinds of day of demand/electricity_demand.py:66-81 *)
Inductive daytype := Sat | Sun | Wd.

(** electricity_demand.py:31-63 *)
Definition time_of_year (hour : Z) : season :=
  if (0 <=? hour)%Z && (hour <? 2160)%Z then Wtr
  else if (2160 <=? hour)%Z && (hour <? 4008)%Z then Spr
  else if (4008 <=? hour)%Z && (hour <? 5688)%Z then Smr
  else if (5688 <=? hour)%Z && (hour <? 6744)%Z then Hsr
  else if (6744 <=? hour)%Z && (hour <? 8280)%Z then Aut
  else Wtr.

(** demand/electricity_demand.py:66-81: Days of the week as 0 = Monday ... 6 = Sunday.  pandas' calendar: the weekday of the
    first of January of a year of the Gregorian calendar (Gauss), from which
    [pd.date_range(..., periods=8760, freq='h')] counts hours. *)
Definition first_weekday (year : Z) : Z :=
  ((5 * ((year - 1) mod 4) + 4 * ((year - 1) mod 100) + 6 * ((year - 1) mod 400)) mod 7)%Z.

(** electricity_demand.py:66-80 *)
Definition day_of_week (year hour : Z) : res daytype :=
  if (0 <=? hour)%Z && (hour <? 8760)%Z then
    let day := ((first_weekday year + hour / 24) mod 7)%Z in
    Ok (if (day =? 5)%Z then Sat else if (day =? 6)%Z then Sun else Wd)
  else Err IndexError.

(** electricity_demand.py:26-27: half-hourly values to hourly means ([shift(-1)], every
    second row).  With 48 rows the last row used is the pair (46, 47). *)
Fixpoint hourly_means (p : list Q) : list Q :=
  match p with
  | a :: b :: p' => (a + b) / 2 :: hourly_means p'
  | _ => []
  end.

Section Electric.
(** The half-hourly columns of the shipped sheet (electricity_demand.py:20-25), 48 rows each. *)
Variable elexon : res (season -> daytype -> res (list Q)).

(** electricity_demand.py:83-95 *)
Definition year_time_series (year : Z) : res (list Q) :=
  df <- elexon ;;
  mapM (fun hour =>
    dow <- day_of_week year hour ;;
    col <- df (time_of_year hour) dow ;;
    match nth_error (hourly_means col) (Z.to_nat (hour mod 24)) with
    | Some x => Ok x | None => Err KeyError end) (zrange 0 8760).

(** electricity_demand.py:98-116; without any row the result is the number 0, which the
    convolution treats as a sequence of one value. *)
Definition profile_from_input (year : Z) (heating : list dwelling) : res (list Q) :=
  standard_profile <- year_time_series year ;;
  match heating with
  | [] => Ok [0]
  | _ => Ok (fold_left (fun agg d => map (fun p => fst p + snd p)
                          (combine agg (map (fun x => x * d_number d) standard_profile)))
               heating (repeat 0 (length standard_profile)))
  end.

(** electricity_demand.py:119-138 *)
Definition predicted_elec_demand (year : Z) (heating : list dwelling) : res (list num) :=
  y <- profile_from_input year heating ;; smooth_elec y.
End Electric.

(** ** The tables shipped with the package *)
(** Looked up by demand/heat_demand.py:111-134 and demand/electricity_demand.py:16-29: The files under /repo/pylesa/data, relative to the package. *)
Definition shipped : list string :=
  ["data/Open Notebook.onetoc2"; "data/PV_output.csv"; "data/__init__.py"; "data/demand/demand.xlsx";
   "data/demand/demand_profiles.pkl"; "data/demand/electricity_profiles.xlsx";
   "data/demand/predicted_elec_demand.csv"; "data/demand/predicted_heat_demand.csv";
   "data/oedb/power_coefficient_curves.csv"; "data/oedb/power_curves.csv"; "data/oedb/turbine_data.csv";
   "data/power_curves.csv"; "data/sam-library-cec-inverters-2018-3-18.csv";
   "data/sam-library-cec-modules-2017-6-5.csv"; "data/water_spec_heat.csv"; "data/water_spec_heat.pkl";
   "data/wind_turbine_data/power_coefficient_curves.csv"; "data/wind_turbine_data/power_curves.csv";
   "data/wind_turbine_data/turbine_data.csv"]%string.
(** demand/heat_demand.py:111-134, demand/electricity_demand.py:16-29: Reading a file of the package whose content would be [content]. *)
Definition resource {A} (files : list string) (path : string) (content : A) : res A :=
  if smem path files then Ok content else Err FileNotFoundError.
(** heat_demand.py:141; electricity_demand.py:20 *)
Definition heat_table_path : string := "data/demand.demand_profiles.pkl".
(** demand/electricity_demand.py:16-29 *)
Definition elec_table_path : string := "data/electricity_profiles.xlsx".
(** demand/heat_demand.py:248-271 with the tables found at demand/heat_demand.py:111-134 *)
Definition packaged_heat_demand (files : list string) (df : string -> string -> string -> res (list Q))
  (air : list Q) (hot_water : Q) (heating : list dwelling) : res (list num) :=
  predicted_heat_demand (resource files heat_table_path df) air hot_water heating.
(** demand/electricity_demand.py:119-138 with the table found at demand/electricity_demand.py:16-29 *)
Definition packaged_elec_demand (files : list string) (df : season -> daytype -> res (list Q))
  (year : Z) (heating : list dwelling) : res (list num) :=
  predicted_elec_demand (resource files elec_table_path df) year heating.
