(** Model of /repo/pylesa/power/grid.py and the tariff chain of
    initialise_classes.py:159-223. *)
From Coq Require Import String.
From Verif Require Import Base M_FixedOrder M_Tank.
Open Scope string_scope.

(** ** The calendar of the standard library (datetime), proleptic Gregorian.
    [ordinal y m d] is date.toordinal, [weekday] 0 is Monday.  Only the dates of
    January and 31 December are needed. *)
(** power/grid.py:151-154 *)
Definition days_before_year (year : Z) : Z :=
  let y := (year - 1)%Z in (y * 365 + y / 4 - y / 100 + y / 400)%Z.
(** Leap years, as used by datetime at power/grid.py:151-154 *)
Definition is_leap (year : Z) : bool :=
  ((year mod 4 =? 0) && (negb (year mod 100 =? 0) || (year mod 400 =? 0)))%Z.
(** [datetime.datetime(year, 1, day)], power/grid.py:151 *)
Definition ordinal_january (year day : Z) : Z := (days_before_year year + day)%Z.
(** [datetime.datetime(year, 12, 31)], power/grid.py:153 *)
Definition ordinal_31_december (year : Z) : Z :=
  (days_before_year year + (334 + (if is_leap year then 1 else 0)) + 31)%Z.
(** The weekday of a date, power/grid.py:152 and 154; 0 is Monday *)
Definition weekday_of_ordinal (o : Z) : Z := ((o + 6) mod 7)%Z.
(** power/grid.py:152 and 154: strftime("%A") in an English locale *)
Definition day_name (weekday : Z) : string :=
  match weekday with
  | 0%Z => "Monday" | 1%Z => "Tuesday" | 2%Z => "Wednesday" | 3%Z => "Thursday"
  | 4%Z => "Friday" | 5%Z => "Saturday" | _ => "Sunday"
  end.
(** power/grid.py:151: datetime.datetime(year, ...) rejects years outside 1..9999 *)
Definition check_year (year : Z) : res unit :=
  if ((1 <=? year) && (year <=? 9999))%Z then Ok tt else Err ValueError.

(** Attributes of Grid, grid.py:18-45.  [g_periods] is the DataFrame with one column
    of prices per weekday name; [g_wind] is the power column of wind_farm_power(), an
    input here (renewables.py is not modelled). *)
Record grid := {
  g_tariff : string;
  g_flat : Q;
  g_periods : list (string * list Q);
  g_year : Z;
  g_market : list Q;
  g_premium : Q; g_maximum : Q;
  g_lower_percent : Q; g_higher_percent : Q;
  g_lower_penalty : Q; g_higher_discount : Q;
  g_wind : list Q }.

Section Grid.
Variable G : grid.

(** grid.py:102-108 *)
Definition flat_rates_series : list Q := repeat (g_flat G) (Z.to_nat 8760).

(** grid.py:147-155: weekday names of 1-7 January and of 31 December *)
Definition day_list : list string :=
  map (fun d => day_name (weekday_of_ordinal (ordinal_january (g_year G) d))) (zrange 1 8).
(** power/grid.py:153-154 *)
Definition last_day : string := day_name (weekday_of_ordinal (ordinal_31_december (g_year G))).
(** power/grid.py:162 and 164: column[hour] *)
Definition column (name : string) : res (list Q) :=
  match find (fun p => String.eqb (fst p) name) (g_periods G) with
  | Some p => Ok (snd p)
  | None => Err KeyError
  end.
(** power/grid.py:162 and 164 *)
Definition period_price (slot : string * Z) : res Q :=
  col <- column (fst slot) ;; label col (snd slot).
(** grid.py:159-165: the order in which the prices are appended *)
Definition hours_of (name : string) : list (string * Z) := map (fun h => (name, h)) (zrange 0 24).
(** The days and hours of the loops at power/grid.py:159-164 *)
Definition slots : list (string * Z) :=
  (flat_map (fun _ => flat_map hours_of day_list) (seq 0 52) ++ hours_of last_day)%list.
(** grid.py:145-170 *)
Definition variable_periods_series : res (list Q) :=
  _ <- check_year (g_year G) ;; mapM period_price slots.

(** grid.py:207-226 *)
Definition tou_wm_price (day hour : Z) : res Q :=
  let current_hour := (hour + day * 24)%Z in
  w <- label (g_market G) current_hour ;;
  if ((hour =? 16) || (hour =? 17) || (hour =? 18))%Z
  then Ok (pmin ((22#10) * w + g_premium G) (g_maximum G))
  else Ok (pmin ((22#10) * w) (g_maximum G)).
(** power/grid.py:207-226 *)
Definition tou_wm_series : res (list Q) :=
  mapM (fun dh => tou_wm_price (fst dh) (snd dh))
       (flat_map (fun day => map (fun hour => (day, hour)) (zrange 0 24)) (zrange 0 365)).

(** grid.py:84-95: position of a percentage in the exceedance curve.  Exact
    arithmetic instead of np.around on binary floats. *)
Definition exceedance_rounded (len i : nat) : Q :=
  round2 (inject_Z (Z.of_nat (S i)) / inject_Z (Z.of_nat len)).
(** power/grid.py:84-88 and 92-93 *)
Definition band_array (len : nat) (percent : Q) : list nat :=
  filter (fun i => qeq (exceedance_rounded len i) percent) (seq 0 len).
(** power/grid.py:89-90 and 94-95: int(np.median(array)); the median of nothing is nan, which int() rejects *)
Definition int_median (a : list nat) : res nat :=
  let m := length a in
  match m with
  | O => Err ValueError
  | _ => if Nat.odd m then Ok (nth (m / 2) a 0%nat)
         else Ok ((nth (m / 2 - 1) a 0%nat + nth (m / 2) a 0%nat) / 2)%nat
  end.
(** power/grid.py:82-95, one of the two bands *)
Definition band (power : list Q) (percent : Q) : res Q :=
  i <- int_median (band_array (length power) percent) ;;
  Ok (nth i (sort_desc power) 0).

(** grid.py:67-100 *)
Record wind_info := { w_lower : Q; w_higher : Q; w_power : list Q }.
(** power/grid.py:67-100 *)
Definition wind_farm_info : res wind_info :=
  lo <- band (g_wind G) (g_lower_percent G) ;;
  hi <- band (g_wind G) (g_higher_percent G) ;;
  Ok {| w_lower := lo; w_higher := hi; w_power := g_wind G |}.

(** grid.py:121-128, 182-189, 238-245: the price of one hour *)
Definition ppa_price (w : wind_info) (tou : list Q) (t : Z) : res Q :=
  p <- label (w_power w) t ;;
  base <- pidx tou (Z.to_nat t) ;;
  if qle (w_higher w) p then Ok (base - g_higher_discount G)
  else if qle p (w_lower w) then Ok (base + g_lower_penalty G)
  else Ok base.
(** power/grid.py:119-128 = 181-190 = 238-247 *)
Definition ppa_series (w : wind_info) (tou : list Q) : res (list Q) :=
  mapM (ppa_price w tou) (zrange 0 8760).

(** grid.py:110-143 *)
Definition flat_rates_wind : res (list Q) :=
  let fr := flat_rates_series in
  w <- wind_farm_info ;; ppa_series w fr.
(** grid.py:172-205 *)
Definition variable_periods_wind : res (list Q) :=
  vp <- variable_periods_series ;;
  w <- wind_farm_info ;; ppa_series w vp.
(** grid.py:228-261 *)
Definition tou_wm_wind_ppa : res (list Q) :=
  w <- wind_farm_info ;;
  tou <- tou_wm_series ;;
  ppa_series w tou.

(** grid.py:47-65; [None] is Python's None *)
Definition import_cost_series : res (option (list Q)) :=
  let some (x : res (list Q)) := l <- x ;; Ok (Some l) in
  if String.eqb (g_tariff G) "Flat rates" then Ok (Some flat_rates_series)
  else if String.eqb (g_tariff G) "Variable periods" then some variable_periods_series
  else if String.eqb (g_tariff G) "Time of use - WM" then some tou_wm_series
  else if String.eqb (g_tariff G) "Time of use - PPA + WM" then some tou_wm_wind_ppa
  else if String.eqb (g_tariff G) "Time of use - PPA + FR" then some flat_rates_wind
  else if String.eqb (g_tariff G) "Time of use - PPA + VP" then some variable_periods_wind
  else Ok None.
End Grid.

(** initialise_classes.py:159-223: the object is built for the six known tariffs; for
    any other choice [myGrid] is unbound when the dictionary is built. *)
Definition tariffs : list string :=
  [ "Flat rates"; "Variable periods"; "Time of use - WM"; "Time of use - PPA + FR";
    "Time of use - PPA + WM"; "Time of use - PPA + VP" ].
(** power/grid.py:18-45 *)
Definition init_grid (G : grid) : res grid :=
  if existsb (String.eqb (g_tariff G)) tariffs then Ok G else Err UnboundLocalError.
