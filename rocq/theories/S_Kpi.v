(** Specification vocabulary for the performance indicators. *)
From Coq Require Import String.
From Verif Require Import Base M_Battery S_Battery M_HeatPump M_FixedOrder S_FixedOrder M_Grid M_Kpi.

(** Total of a quantity over the hours of a run. *)
Definition total (f : fields -> Q) (rs : list record) : Q := fold_right (fun rc s => f (rf rc) + s) 0 rs.
(** One record per simulated hour. *)
Definition complete_run (K : run) : Prop :=
  (0 < k_timesteps K)%Z /\ Z.of_nat (length (k_results K)) = k_timesteps K.

(** What an hour must satisfy: nothing negative, every kWh of renewable electricity
    accounted for, no consumer given more than it takes, the import made up of its uses. *)
Record hour_balances (electric : bool) (r : fields) : Prop := {
  hb_signs : Forall (fun k => 0 <= r k)
    [RES_generation_total; RES_elec_demand; RES_HP; RES_aux; RES_ES; RES_export; ED_ES; ED_import;
     ED_elec_demand; HP_elec_import_usage; ES_charging_from_import; HP_cop; HP_heat_total_output; AUX_demand];
  hb_renewable : r RES_generation_total ==
    r RES_elec_demand + r RES_HP + r RES_aux + r RES_ES + r RES_export;
  hb_export : r GRID_total_export == r RES_export;
  hb_demand : r RES_elec_demand + r ED_ES + r ED_import <= r ED_elec_demand;
  hb_hp_res : r HP_elec_RES_usage == r RES_HP;
  hb_hp : r HP_elec_RES_usage + r HP_elec_import_usage <= r HP_elec_total_usage;
  hb_hp_heat : (r HP_elec_RES_usage + r HP_elec_import_usage) * r HP_cop <= r HP_heat_total_output;
  hb_aux : r RES_aux <= r AUX_demand;
  hb_import : r GRID_total_import ==
    r ED_import + r HP_elec_import_usage + r ES_charging_from_import +
    (if electric then r AUX_demand - r RES_aux else 0);
  hb_charging : r ES_charging_total == r RES_ES + r ES_charging_from_import }.

(** A simulated year with physically meaningful data and orders that drive nothing negative. *)
Definition good_run (P : plant) (year : list hour_in) : Prop :=
  plant_ok P /\ level_ok (p_battery P) (init_state (p_battery P)) /\ Forall (hour_ok P) year /\
  (forall ps, mapM above_key (p_order_above P) = Ok ps -> order_ok ps) /\
  (forall ps, mapM below_key (p_order_below P) = Ok ps -> order_ok ps).
Definition orders_contain (P : plant) (p : process) : Prop :=
  (forall ps, mapM above_key (p_order_above P) = Ok ps -> In p ps) /\
  (forall ps, mapM below_key (p_order_below P) = Ok ps -> In p ps).
Definition orders_lack (P : plant) (p : process) : Prop :=
  (forall ps, mapM above_key (p_order_above P) = Ok ps -> ~ In p ps) /\
  (forall ps, mapM below_key (p_order_below P) = Ok ps -> ~ In p ps).
(** No minimum output or no minimum run time was entered. *)
Definition no_minimum (P : plant) : Prop := p_min_output P * p_min_runtime P == 0.

(** [K] is the run of plant [P] over [n] hours of [year] from hour [s] on. *)
Definition run_of (P : plant) (year : list hour_in) (s n : Z) (K : run) : Prop :=
  run_timesteps P year s n = Ok (k_results K) /\ k_timesteps K = n /\ k_first_hour K = s /\
  k_fuel K = a_fuel (p_aux P) /\ (0 < n)%Z.

Definition percentage (x : Q) : Prop := 0 <= x <= 100.

(** [rc], recorded [i] hours after the start, belongs to an hour in which the wind farm
    produced at least [hi]. *)
Definition windy_at (wind : list Q) (hi : Q) (hour : Z) : bool :=
  match nth_error wind (Z.to_nat hour) with Some p => qle hi p | None => false end.
Fixpoint windy_total (f : fields -> Q) (wind : list Q) (hi : Q) (hour : Z) (rs : list record) : Q :=
  match rs with
  | [] => 0
  | rc :: rs' => (if windy_at wind hi hour then f (rf rc) else 0) + windy_total f wind hi (hour + 1) rs'
  end.

(** The same run simulated [m] times in a row. *)
Definition repeated (m : positive) (K : run) : run :=
  {| k_name := k_name K; k_timesteps := (Zpos m * k_timesteps K)%Z; k_first_hour := k_first_hour K;
     k_results := concat (repeat (k_results K) (Pos.to_nat m)); k_fuel := k_fuel K; k_grid := k_grid K;
     k_rhi := k_rhi K |}.
Definition num_eq (x y : num) : Prop :=
  match x, y with Fin a, Fin b => a == b | NotFinite, NotFinite => True | _, _ => False end.

(** The incentive for [x] kWh of eligible heat: the first [limit] kWh at one rate in pence,
    the rest at the other. *)
Definition tiered (limit t1 t2 x : Q) : Q := (Qmin x limit * t1 + Qmax 0 (x - limit) * t2) / 100.
