(** One hour of the fixed order controller of /repo/pylesa/controllers/fixed_order.py computed in binary64
    floating point: the renewable balance, the loop over the order string, the fields that its processes
    write.  [M_FixedOrder] is the same code with exact numbers.

    Modelled: controllers/fixed_order.py:1262-1307 for one hour, heat/heatpump.py:297-339, controllers/fixed_order.py:172-200,
    726-887 and 1028-1251.  The totals, the accounts and the minimum output rule that follow the loop are in
    [M_FloatTotals].  Not modelled: the store, whose two answers of max_energy_in_out are inputs of the hour.
    Simplification: every number is a float.  A Python int (the literals 0 and -1, a whole number from the
    workbook) gives the same sums, products and comparisons as the equal float up to 2^53. *)
From Coq Require Import ZArith Reals.
From Flocq Require Import Core IEEE754.BinarySingleNaN.
From Verif Require Import Base M_HeatPump M_FixedOrder M_Float.

(** The operator / of heat/heatpump.py:311-312 and 337; a numpy float divided by 0 is an infinity or NaN,
    and so it is here *)
Definition fdiv (x y : double) : double := Bdiv mode_NE x y.
(** The operator == of heat/heatpump.py:309 and 329 *)
Definition feq (x y : double) : bool := Beqb x y.
(** The sign change of controllers/fixed_order.py:879 and 881 *)
Definition fneg (x : double) : double := Bopp x.
(** An integer as a float, controllers/fixed_order.py:1214 *)
Definition fofZ (n : Z) : double := binary_normalize 53 1024 prec_gt prec_lt mode_NE n 0 false.
(** The number that a finite float stands for, controllers/fixed_order.py:1214 *)
Definition fvalue (x : double) : Q :=
  match x with
  | B754_finite s m e _ =>
      let k := if s then Zneg m else Zpos m in
      if (0 <=? e)%Z then inject_Z (k * 2 ^ e) else k # Z.to_pos (2 ^ (- e))
  | _ => 0
  end%Q.
(** [round(x, 2)], controllers/fixed_order.py:1214: the float closest to the two-digit decimal closest to the
    number (ties to even).  Floats from 2^46 on are further apart than 0.01 and stay; below, the number of
    hundredths is an exact float. *)
Definition fround2 (x : double) : double :=
  if fle (fofZ (2 ^ 46)) (Babs x) then x
  else fdiv (fofZ (round_half_even (fvalue x * 100))) (fofZ 100).

(** The parts of the plant that the processes read, controllers/fixed_order.py:27-57 *)
Record fplant := {
  fp_battery : fbattery;
  fp_hp_capacity : double;
  fp_electric : bool;      (* self.myAux.fuel == Fuel.ELECTRIC *)
  fp_max_heat : double }.
(** The inputs of one hour, controllers/fixed_order.py:59-164, with the two answers of the store *)
Record fhour := {
  fi_wind : double; fi_PV : double; fi_elec_demand : double; fi_heat_demand : double;
  fi_cop : double; fi_duty : double; fi_charge : double; fi_discharge : double }.
(** [checks], controllers/fixed_order.py:183-191 *)
Record fchecks := {
  f_elec_unmet : double; f_heat_unmet : double; f_RES_left : double; f_hp_usage : double;
  f_ts_discharge : double; f_ts_charge : double; f_soc : double; f_aux_left : double }.
(** The numeric entries of one record, controllers/fixed_order.py:923-1026 *)
Definition ffields := field -> double.
(** controllers/fixed_order.py:740-834, d[k] = v *)
Definition fupd (r : ffields) (k : field) (v : double) : ffields := fun k' => if field_eqb k k' then v else r k'.
(** controllers/fixed_order.py:923-1026 *)
Definition fset_of_results : ffields := fun _ => f0.

Section FLOAT_HOUR.
Variable P : fplant.
Variable I : fhour.

(** heat/heatpump.py:297-313 *)
Definition felec_usage (demand : double) : double :=
  if feq (fp_hp_capacity P) f0 then f0
  else fmin (fdiv demand (fi_cop I)) (fdiv (fi_duty I) (fi_cop I)).
(** heat/heatpump.py:315-339, the attribute [demand] of the result *)
Definition fthermal_output (elec_supply heat_demand : double) : double :=
  if feq (fp_hp_capacity P) f0 then f0
  else fmin (fmin (fmul elec_supply (fi_cop I)) heat_demand) (fi_duty I).

(** controllers/fixed_order.py:1028-1251; the result is the pair (h, e), a process with one result r gives (r, r) *)
Definition famount (p : process) (c : fchecks) : res (double * double) :=
  let one r := Ok (r, r) in
  let he h := Ok (h, felec_usage h) in
  let spare := fsub (fi_duty I) (f_hp_usage c) in
  let charge_left := fsub (fadd (fi_charge I) (f_ts_discharge c)) (f_ts_charge c) in
  match p with
  | RES_to_demand => Ok (f0, f0)
  (* 1028-1035 *)
  | ES_to_demand => one (fmin (f_elec_unmet c) (f_soc c))
  (* 1037-1043 *)
  | Import_to_demand => one (f_elec_unmet c)
  (* 1045-1062 *)
  | HP_RES_to_demand => he (fmin (fthermal_output (f_RES_left c) (f_heat_unmet c)) spare)
  (* 1064-1075 *)
  | EAUX_RES_to_demand =>
      if fp_electric P then one (fmin (fmin (f_aux_left c) (f_RES_left c)) (f_heat_unmet c)) else Ok (f0, f0)
  (* 1077-1102 *)
  | HP_import_to_demand =>
      he (if feq (fp_hp_capacity P) f0 then f0 else fmin (f_heat_unmet c) spare)
  (* 1104-1119 *)
  | TS_to_demand =>
      one (fmin (f_heat_unmet c) (fadd (fsub (fi_discharge I) (f_ts_discharge c)) (f_ts_charge c)))
  (* 1121-1141 *)
  | ES_to_HP_to_demand => he (fmin (fthermal_output (f_soc c) (f_heat_unmet c)) spare)
  (* 1143-1147 *)
  | AUX_to_demand => one (f_heat_unmet c)
  (* 1149-1174 *)
  | HP_RES_to_TS => he (fmin (fmin spare (fmul (f_RES_left c) (fi_cop I))) charge_left)
  (* 1176-1193 *)
  | EAUX_RES_to_TS =>
      if fp_electric P then one (fmin (fmin (f_aux_left c) (f_RES_left c)) charge_left) else Ok (f0, f0)
  (* 1195-1222 *)
  | HP_import_to_TS =>
      he (if feq (fp_hp_capacity P) f0 then f0 else fround2 (fmin spare charge_left))
  (* 1224-1232 *)
  | RES_to_ES => r <- fmax_charging (fp_battery P) (f_RES_left c) (f_soc c) ;; one r
  (* 1234-1242 *)
  | Import_to_ES => one (fcharge_to_capacity (fp_battery P) (f_soc c))
  (* 1244-1251 *)
  | RES_to_export => one (f_RES_left c)
  end.

(** controllers/fixed_order.py:740-834, what a process writes into the results *)
Definition fwrite (p : process) (he : double * double) (r : ffields) : ffields :=
  let h := fst he in let e := snd he in
  match p with
  | RES_to_demand => r
  | ES_to_demand => fupd (fupd r ED_ES h) ES_discharging_to_demand h
  | Import_to_demand => fupd (fupd r ED_import h) GRID_import_for_elec_demand h
  | HP_RES_to_demand =>
      fupd (fupd (fupd (fupd r HD_HP_RES h) RES_HP_to_heat_demand e)
             HP_heat_from_RES_to_demand h) HP_elec_from_RES_to_demand e
  | EAUX_RES_to_demand => fupd r AUX_RES_to_demand h
  | HP_import_to_demand =>
      fupd (fupd (fupd (fupd r HD_HP_import h) GRID_import_for_heat_pump_to_heat_demand e)
             HP_heat_from_import_to_demand h) HP_elec_from_import_to_demand e
  | TS_to_demand => fupd (fupd r HD_TS h) TS_discharging_total h
  | ES_to_HP_to_demand =>
      fupd (fupd (fupd (fupd r HD_HP_ES h) ES_discharging_to_HP e)
             HP_heat_from_ES_to_demand h) HP_elec_from_ES_to_demand e
  | AUX_to_demand => fupd r HD_aux h
  | HP_RES_to_TS =>
      fupd (fupd (fupd (fupd r RES_HP_to_TS e) HP_heat_from_RES_to_TS h)
             HP_elec_from_RES_to_TS e) TS_HP_from_RES_to_TS h
  | EAUX_RES_to_TS => fupd (fupd r AUX_RES_to_TS h) TS_aux_to_TS h
  | HP_import_to_TS =>
      fupd (fupd (fupd (fupd r GRID_import_for_heat_pump_to_TS e) HP_heat_from_import_to_TS h)
             HP_elec_from_import_to_TS e) TS_HP_from_import_to_TS h
  | RES_to_ES => fupd (fupd r RES_ES h) ES_charging_from_RES h
  | Import_to_ES => fupd (fupd r GRID_import_for_ES h) ES_charging_from_import h
  | RES_to_export => fupd (fupd r RES_export h) GRID_total_export h
  end.

(** controllers/fixed_order.py:853-887 *)
Definition fupdate (p : process) (he : double * double) (c : fchecks) : fchecks :=
  let h := fst he in let e := snd he in
  {| f_elec_unmet := if in_elec_unmet p then fsub (f_elec_unmet c) h else f_elec_unmet c;
     f_heat_unmet := if in_heat_unmet p then fsub (f_heat_unmet c) h else f_heat_unmet c;
     f_RES_left := if in_RES_left p then fsub (f_RES_left c) e else f_RES_left c;
     f_hp_usage := if in_hp_usage p then fadd (f_hp_usage c) h else f_hp_usage c;
     f_ts_discharge := if in_ts_discharge p then fadd (f_ts_discharge c) h else f_ts_discharge c;
     f_ts_charge := if in_ts_charge p then fadd (f_ts_charge c) h else f_ts_charge c;
     f_soc := match p with
              | ES_to_demand => fadd (f_soc c) (fneg h)
              | ES_to_HP_to_demand => fadd (f_soc c) (fneg e)
              | RES_to_ES | Import_to_ES => fadd (f_soc c) h
              | _ => f_soc c
              end;
     f_aux_left := if in_aux p then fsub (f_aux_left c) h else f_aux_left c |}.

(** controllers/fixed_order.py:726-887 *)
Definition frun_process (cr : fchecks * ffields) (p : process) : res (fchecks * ffields) :=
  let (c, r) := cr in
  he <- famount p c ;;
  Ok (fupdate p he c, fwrite p he r).
(** controllers/fixed_order.py:193-200 = 468-475 *)
Definition frun_number (key : Z -> res process) (cr : fchecks * ffields) (n : Z) : res (fchecks * ffields) :=
  p <- key n ;; frun_process cr p.
(** The loop over the order string, controllers/fixed_order.py:193-200 = 468-475 *)
Definition frun_order (key : Z -> res process) (order : list Z) (cr : fchecks * ffields)
  : res (fchecks * ffields) := foldM (frun_number key) order cr.

(** The renewable generation of the hour, controllers/fixed_order.py:70-79: wind + PV *)
Definition fgeneration : double := fadd (fi_wind I) (fi_PV I).
(** controllers/fixed_order.py:1279-1280 *)
Definition fmatch : double := fsub fgeneration (fi_elec_demand I).
(** controllers/fixed_order.py:1294-1300 *)
Definition fdeficit : double := if fle fmatch f0 then fmul fm1 fmatch else f0.
(** controllers/fixed_order.py:1294-1300 *)
Definition fsurplus : double := if fle fmatch f0 then f0 else fmatch.
(** controllers/fixed_order.py:1292 *)
Definition fRES_used : double := fmin fgeneration (fi_elec_demand I).

(** controllers/fixed_order.py:183-191 = 458-466 *)
Definition finit_checks (soc : double) : fchecks :=
  {| f_elec_unmet := fdeficit; f_heat_unmet := fi_heat_demand I; f_RES_left := fsurplus;
     f_hp_usage := f0; f_ts_discharge := f0; f_ts_charge := f0; f_soc := soc; f_aux_left := fp_max_heat P |}.
(** controllers/fixed_order.py:172-200 (the results start at 0.0; of the entries set before the loop only
    those of the grid balance matter here) *)
Definition finit_results : ffields :=
  fupd (fupd (fupd fset_of_results GRID_surplus fsurplus) GRID_deficit fdeficit) GRID_match (fsub fsurplus fdeficit).
(** The loop of one hour from a battery level, controllers/fixed_order.py:172-200 = 444-475 *)
Definition frun_hour (key : Z -> res process) (order : list Z) (soc : double) : res (fchecks * ffields) :=
  frun_order key order (finit_checks soc, finit_results).
End FLOAT_HOUR.
