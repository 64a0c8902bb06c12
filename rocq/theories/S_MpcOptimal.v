(** Specification vocabulary for the predictive controller: best plans. *)
From Verif Require Import Base M_Battery S_Battery M_HeatPump S_HeatPump M_Tools M_FixedOrder S_FixedOrder M_Mpc S_Mpc.

(** A plan obeys the problem and starts from the given values; a best plan is one that no other plan undercuts. *)
Definition plan_of (dyn : list (Q * Q * Q * Q * Q * Q) -> Prop) (b : problem) (vs : list point) : Prop :=
  feasible dyn b vs /\ nth_error vs 0 = Some (b_start b).
Definition best (dyn : list (Q * Q * Q * Q * Q * Q) -> Prop) (b : problem) (vs : list point) : Prop :=
  plan_of dyn b vs /\ forall vs', plan_of dyn b vs' -> objective b vs <= objective b vs'.
(** What a plan buys in an hour: for the demand, the battery, the heat pump and the back-up *)
Definition bought (p : phour) (v : point) : Q :=
  v_imp_ed v + v_ESc_imp v + (v_HPtid v + v_HPtis v) / q_cop p + (v_aux_d v + v_aux_s v).
(** The record [rc] was made from a best plan. *)
Definition best_record (dyn : list (Q * Q * Q * Q * Q * Q) -> Prop) (X : mpc) (opt : optimiser) (year : list hour_in)
  (max_cap : list Q) (hour first_hour final_hour : Z) (pv : prev) (rc : record) : Prop :=
  exists b vs nx,
    make_problem X year max_cap hour first_hour final_hour pv = Ok b /\ opt b = Ok vs /\ best dyn b vs /\
    solve X opt year max_cap hour first_hour final_hour pv = Ok (rc, nx).

(** An hour in which nothing got worse: cheaper power, more generation, a heat pump with more output; the demands and the COP are the same.
    Whatever the new minimum output is, the heat pump can reach it. *)
Definition no_worse (p p' : phour) : Prop :=
  q_price p' <= q_price p /\ q_RES p <= q_RES p' /\ q_elec p = q_elec p' /\ q_heat p = q_heat p' /\ q_cop p = q_cop p' /\
  q_duty p <= q_duty p' /\ q_HP_min p' <= q_duty p'.
(** A battery with the same losses, at least as big and at least as powerful *)
Definition roomier (B B' : battery) : Prop :=
  b_capacity B <= b_capacity B' /\ b_charge_max B <= b_charge_max B' /\ b_discharge_max B <= b_discharge_max B' /\
  b_charge_eff B = b_charge_eff B' /\ b_discharge_eff B = b_discharge_eff B' /\ b_self_discharge B = b_self_discharge B'.
(** The same situation for a plant no part of which is smaller *)
Definition no_smaller (b b' : problem) : Prop :=
  b_start b = b_start b' /\ Forall2 no_worse (b_hours b) (b_hours b') /\ Forall2 Qle (b_max_cap b) (b_max_cap b') /\
  roomier (b_battery b) (b_battery b') /\ b_electric b = true /\ b_electric b' = true /\ b_aux_cost b = None /\ b_aux_cost b' = None /\
  b_aux_cap b <= b_aux_cap b' /\ b_export_cost b <= b_export_cost b'.
(** Plants and data of which the second is nowhere worse; the store is the same. *)
Definition plant_no_smaller (X X' : mpc) : Prop :=
  roomier (p_battery (m_plant X)) (p_battery (m_plant X')) /\ p_tank (m_plant X) = p_tank (m_plant X') /\ p_aux (m_plant X) = p_aux (m_plant X') /\
  p_export_price (m_plant X) <= p_export_price (m_plant X') /\ p_max_heat (m_plant X) <= p_max_heat (m_plant X') /\
  0 <= p_min_output (m_plant X') * p_min_runtime (m_plant X') <= 6000.
Definition hour_no_worse (I I' : hour_in) : Prop :=
  i_import_price I' <= i_import_price I /\ i_wind I + i_PV I <= i_wind I' + i_PV I' /\ i_elec_demand I = i_elec_demand I' /\ i_heat_demand I = i_heat_demand I' /\
  i_source_temp I = i_source_temp I' /\ i_flow_temp I = i_flow_temp I' /\ cop (i_perf I) = cop (i_perf I') /\ duty (i_perf I) <= duty (i_perf I') /\ 0 <= duty (i_perf I').

(** The heat pump is off or delivers its minimum. *)
Definition minimum_kept (p : phour) (v : point) : Prop := v_HPt v == 0 \/ q_HP_min p <= v_HPt v.
(** The same hour with another minimum output *)
Definition other_minimum (p p' : phour) : Prop :=
  q_price p = q_price p' /\ q_RES p = q_RES p' /\ q_elec p = q_elec p' /\ q_heat p = q_heat p' /\ q_cop p = q_cop p' /\ q_duty p = q_duty p'.
(** The same plan as far as anything but the two variables behind the heat pump's output is concerned *)
Definition same_plan (v v' : point) : Prop :=
  v_HPt v == v_HPt v' /\ v_RES_ed v == v_RES_ed v' /\ v_export v == v_export v' /\ v_imp_ed v == v_imp_ed v' /\
  v_HPtrd v == v_HPtrd v' /\ v_HPtrs v == v_HPtrs v' /\ v_HPtid v == v_HPtid v' /\ v_HPtis v == v_HPtis v' /\ v_HPtesd v == v_HPtesd v' /\
  v_TSc v == v_TSc v' /\ v_TSd v == v_TSd v' /\ v_soc v == v_soc v' /\ v_ESc v == v_ESc v' /\ v_ESc_res v == v_ESc_res v' /\ v_ESc_imp v == v_ESc_imp v' /\
  v_ESd v == v_ESd v' /\ v_ESd_hp v == v_ESd_hp v' /\ v_ESd_aux v == v_ESd_aux v' /\ v_ESd_ed v == v_ESd_ed v' /\ v_soc_ES v == v_soc_ES v' /\
  v_aux_rd v == v_aux_rd v' /\ v_aux_rs v == v_aux_rs v' /\ v_aux_d v == v_aux_d v' /\ v_aux_s v == v_aux_s v' /\ v_aux v == v_aux v'.
