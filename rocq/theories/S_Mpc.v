(** Specification vocabulary for the predictive controller. *)
From Verif Require Import Base M_Battery S_Battery M_HeatPump S_HeatPump M_Tools M_FixedOrder S_FixedOrder M_Mpc.

(** ** The problem stated to the optimiser, mpc.py:264-320 *)

(** Lower bounds of the variables (lb=0) and the on/off variable in [0, 1]. *)
Definition signs (v : point) : Prop :=
  Forall (fun x => 0 <= x)
    [v_RES_ed v; v_export v; v_imp_ed v; v_HPtrd v; v_HPtrs v; v_HPtid v; v_HPtis v; v_HPtesd v;
     v_HP_status v; v_HPt_var v; v_TSc v; v_TSd v; v_soc v; v_ESc v; v_ESc_res v; v_ESc_imp v;
     v_ESd v; v_ESd_hp v; v_ESd_aux v; v_ESd_ed v; v_soc_ES v;
     v_aux_rd v; v_aux_rs v; v_aux_d v; v_aux_s v; v_aux v] /\
  v_HP_status v <= 1.

(** 269-281, without the two differential equations *)
Definition electric_equations (eff : Q) (p : phour) (v : point) : Prop :=
  v_ESd v == v_ESd_ed v + v_ESd_hp v + v_ESd_aux v /\
  v_ESc v == v_ESc_res v + v_ESc_imp v /\
  q_elec p == v_RES_ed v + v_imp_ed v + v_ESd_ed v * eff /\
  q_heat p == v_HPtrd v + v_HPtid v + v_HPtesd v + v_aux_d v + v_aux_rd v + v_ESd_aux v * eff + v_TSd v /\
  v_HPtesd v == v_ESd_hp v * q_cop p * eff /\
  v_HP_status v * v_HPt_var v == v_HPtrs v + v_HPtrd v + v_HPtid v + v_HPtis v + v_HPtesd v /\
  v_aux v == v_aux_d v + v_aux_s v + v_aux_rd v + v_aux_rs v + v_ESd_aux v /\
  v_TSc v == v_HPtrs v + v_HPtis v + v_aux_rs v + v_aux_s v /\
  q_RES p == v_RES_ed v + (v_HPtrs v + v_HPtrd v) / q_cop p + v_ESc_res v + v_aux_rd v + v_aux_rs v + v_export v.

(** 285-298, likewise *)
Definition fuel_equations (eff : Q) (p : phour) (v : point) : Prop :=
  v_ESd v == v_ESd_ed v /\
  v_ESc v == v_ESc_res v + v_ESc_imp v /\
  q_elec p == v_RES_ed v + v_imp_ed v + v_ESd_ed v * eff /\
  q_heat p == v_HPtrd v + v_HPtid v + v_aux_d v + v_TSd v /\
  v_HP_status v * v_HPt_var v == v_HPtrs v + v_HPtrd v + v_HPtid v + v_HPtis v /\
  v_aux v == v_aux_d v + v_aux_s v /\
  v_TSc v == v_HPtrs v + v_HPtis v + v_aux_s v /\
  q_RES p == v_RES_ed v + (v_HPtrs v + v_HPtrd v) / q_cop p + v_ESc_res v + v_export v.

(** 301-311 *)
Definition limits (b : problem) (p : phour) (max_cap : Q) (v : point) : Prop :=
  v_HPt_var v <= q_duty p /\ q_HP_min p <= v_HPt_var v /\
  v_soc v <= max_cap /\ v_TSc v <= max_cap - v_soc v /\ v_TSd v <= v_soc v /\
  v_soc_ES v <= b_capacity (b_battery b) /\
  v_ESc v <= b_charge_max (b_battery b) * b_charge_eff (b_battery b) /\
  v_ESd v <= b_discharge_max (b_battery b) /\ v_ESd v <= v_soc_ES v /\
  v_aux v <= b_aux_cap b.

Definition constraints (b : problem) (p : phour) (max_cap : Q) (v : point) : Prop :=
  signs v /\
  (if b_electric b then electric_equations else fuel_equations) (b_discharge_eff (b_battery b)) p v /\
  limits b p max_cap v.

(** An answer obeys the problem: one point per hour of the horizon, and every point after
    the first (which holds the given initial values) satisfies the constraints.
    The differential equations relate the storage columns of the answer; how GEKKO
    discretises them is left open ([dynamics]). *)
Definition storage_columns (vs : list point) : list (Q * Q * Q * Q * Q * Q) :=
  map (fun v => (v_soc v, v_TSc v, v_TSd v, v_soc_ES v, v_ESc v, v_ESd v)) vs.
Definition feasible (dynamics : list (Q * Q * Q * Q * Q * Q) -> Prop) (b : problem) (vs : list point) : Prop :=
  length vs = length (b_hours b) /\
  dynamics (storage_columns vs) /\
  forall k v, nth_error vs (S k) = Some v ->
    exists p c, nth_error (b_hours b) (S k) = Some p /\ nth_error (b_max_cap b) (S k) = Some c /\
                constraints b p c v.

(** The objective of a time point, 316-320 *)
Definition running_cost (b : problem) (p : phour) (v : point) : Q :=
  q_price p / 1000 * ((v_HPt v - v_HPtrd v - v_HPtesd v - v_HPtrs v) / q_cop p + v_imp_ed v + v_ESc_imp v) +
  (v_aux v - v_aux_rs v - v_aux_rd v - v_ESd_aux v) * (match b_aux_cost b with None => q_price p | Some c => c end) / 1000 -
  v_export v * b_export_cost b / 1000 + (1 # 100000) * v_ESc_res v.
Fixpoint running_costs (b : problem) (ps : list phour) (vs : list point) : Q :=
  match ps, vs with
  | p :: ps', v :: vs' => running_cost b p v + running_costs b ps' vs'
  | _, _ => 0
  end.
(** The first time point holds the initial values, it is not a decision. *)
Definition objective (b : problem) (vs : list point) : Q := running_costs b (tl (b_hours b)) (tl vs).

(** ** Runs *)
Definition electric_backup (X : mpc) : Prop := a_fuel (p_aux (m_plant X)) = ELECTRIC.
(** A fuel has a price and a density, and the back-up works at all. *)
Definition backup_complete (X : mpc) : Prop :=
  ~ a_efficiency (p_aux (m_plant X)) == 0 /\
  (~ electric_backup X -> a_cost (p_aux (m_plant X)) <> None /\ a_energy_density (p_aux (m_plant X)) <> None).

(** An optimiser that always answers with one point per hour of the problem. *)
Definition always_answers (opt : optimiser) : Prop :=
  forall b, exists vs, opt b = Ok vs /\ length vs = length (b_hours b).

(** Weaker: an optimiser that answers every problem starting from the initial charge level of
    the battery. *)
Definition answers_from_initial (X : mpc) (opt : optimiser) : Prop :=
  forall b, v_soc_ES (b_start b) = init_state (p_battery (m_plant X)) ->
    exists vs, opt b = Ok vs /\ length vs = length (b_hours b).

(** What the tank can take up at hour [t], starting from return temperature throughout. *)
Definition full_charge (X : mpc) (year : list hour_in) (t : Z) (c : Q) : Prop :=
  exists I, label year t = Ok I /\
    t_max (p_tank (m_plant X)) Charging (m_return_nodes X) (i_source_temp I) (i_flow_temp I) t = Ok c.

(** Storage state recorded at the end of an hour. *)
Definition recorded_state (rc : record) : nodes * Q := (r_nodes rc, rf rc ES_final_soc).
(** The record [rc] was obtained for the hour after [hour] by an optimisation that
    started from the storage state [st]. *)
Definition starts_from (X : mpc) (opt : optimiser) (year : list hour_in) (max_cap : list Q)
  (hour first_hour : Z) (st : nodes * Q) (rc : record) : Prop :=
  exists pv nx, pr_nodes pv = fst st /\ v_soc_ES (pr_point pv) = snd st /\
    solve X opt year max_cap hour first_hour (horizon_end X hour) pv = Ok (rc, nx).
Definition initial_state (X : mpc) : nodes * Q :=
  (t_init (p_tank (m_plant X)), init_state (p_battery (m_plant X))).

(** The record [rc] was made from a feasible answer whose values at the recorded hour are [v]. *)
Definition optimised (dynamics : list (Q * Q * Q * Q * Q * Q) -> Prop) (X : mpc) (opt : optimiser) (year : list hour_in)
  (max_cap : list Q) (hour first_hour final_hour : Z) (pv : prev) (v : point) (rc : record) : Prop :=
  exists b vs nx,
    make_problem X year max_cap hour first_hour final_hour pv = Ok b /\ opt b = Ok vs /\
    feasible dynamics b vs /\ nth_error vs 1 = Some v /\
    solve X opt year max_cap hour first_hour final_hour pv = Ok (rc, nx).

(** The tank never reports a negative capability (C26 for the tank of hot_water_tank.py). *)
Definition tank_reports_nonneg (X : mpc) : Prop :=
  forall s n so fl t m, t_max (p_tank (m_plant X)) s n so fl t = Ok m -> 0 <= m.

(** How the record of an hour relates to the record before it: either the optimisation
    started from the state recorded there; or an attempt to do so failed and the
    optimisation was repeated from the initial state; or the hour is the last one of the
    year and the record is a copy of the made-up one. *)
Definition continues (X : mpc) (opt : optimiser) (year : list hour_in) (max_cap : list Q) (first_hour hour : Z)
  (before rc : record) : Prop :=
  starts_from X opt year max_cap hour first_hour (recorded_state before) rc \/
  ((first_hour < hour)%Z /\
   (exists pv e, pr_nodes pv = fst (recorded_state before) /\ v_soc_ES (pr_point pv) = snd (recorded_state before) /\
      solve X opt year max_cap hour first_hour (horizon_end X hour) pv = Err e) /\
   starts_from X opt year max_cap hour first_hour (initial_state X) rc) \/
  (hour = 8758%Z /\ (first_hour < hour)%Z /\
   exists I, label year first_hour = Ok I /\ rc = made_up_record X I).

(** Renewable generation over the hours that are decided. *)
Definition planned_generation (b : problem) : Q := qsum (map q_RES (tl (b_hours b))).

(** The record shows the data of the hour [I]. *)
Definition describes (I : hour_in) (f : fields) : Prop :=
  f ED_elec_demand == i_elec_demand I /\ f HD_heat_demand == i_heat_demand I /\
  f RES_generation_total == i_wind I + i_PV I /\ f RES_wind == i_wind I /\ f RES_PV == i_PV I /\
  f GRID_match == i_wind I + i_PV I - i_elec_demand I /\ f GRID_match == f GRID_surplus - f GRID_deficit /\
  f GRID_import_price == i_import_price I /\ f HP_cop == cop (i_perf I) /\ f HP_duty == duty (i_perf I).

(** One possible discretisation of the two differential equations (270, 275 = 288, 293),
    used by the concrete cases: implicit Euler with step one hour. *)
Fixpoint implicit_euler (B : battery) (cols : list (Q * Q * Q * Q * Q * Q)) : Prop :=
  match cols with
  | (s0, _, _, e0, _, _) :: (((s1, c1, d1, e1, ec1, ed1) :: _) as rest) =>
      s1 - s0 == c1 - d1 - (1 # 100) * s1 /\
      e1 - e0 == ec1 * b_charge_eff B - ed1 - b_self_discharge B * e1 /\
      implicit_euler B rest
  | _ => True
  end.
