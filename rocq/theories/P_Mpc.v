(** Predictive controller: properties C27-C29 and C63-C66. *)
From Verif Require Import Base BaseL M_Battery S_Battery M_HeatPump S_HeatPump L_HeatPump M_Tools M_FixedOrder S_FixedOrder
  L_FixedOrderRun L_Grid P_FixedOrder M_Mpc S_Mpc L_Mpc L_MpcRecord L_MpcRun L_MpcObjective.

(** ** Concrete plants, hours and answers used by the examples and counterexamples *)
Definition demo_mpc : mpc := {| m_plant := demo_plant; m_horizon := 24; m_return_nodes := [40; 40; 40] |}.
Definition demo_year : list hour_in := sunny :: sunny :: repeat sunny (ANNUAL_HOURS - 2).
Lemma demo_year_ok : full_year demo_year.
Proof.
  unfold full_year, demo_year. cbn [length]. rewrite repeat_length. pose proof ANNUAL_HOURS_Z. lia.
Qed.
Lemma demo_year_row t : (0 <= t < 8760)%Z -> label demo_year t = Ok sunny.
Proof.
  intro H. destruct (label_ok demo_year t) as [I E].
  { pose proof demo_year_ok as Y. unfold full_year in Y. rewrite Y. exact H. }
  rewrite E. f_equal. apply label_some in E. destruct E as [_ E]. apply nth_error_In in E.
  destruct E as [E|[E|E]]; [congruence|congruence|]. exact (repeat_spec _ _ _ E).
Qed.
Lemma demo_tank_total : tank_total (p_tank (m_plant demo_mpc)).
Proof. split; intros; eexists; reflexivity. Qed.
Lemma demo_backup : backup_complete demo_mpc.
Proof. split; [cbn; lra|]. intro H. exfalso. apply H. reflexivity. Qed.

(** Heat pump 6 kWh from the sun, back-up 6 kWh, surplus exported; the variations change
    the use of the two storages. *)
Definition plan (RES_ed export imp_ed TSc TSd ESc_res ESd_hp ESd_aux HPt HPtrd HPtesd aux_d aux_s aux : Q) (soc soc_ES : Q) : point :=
  {| v_RES_ed := RES_ed; v_export := export; v_imp_ed := imp_ed;
     v_HPtrd := HPtrd; v_HPtrs := 0; v_HPtid := 0; v_HPtis := 0; v_HPtesd := HPtesd;
     v_HP_status := 1; v_HPt_var := HPt; v_TSc := TSc; v_TSd := TSd; v_soc := soc;
     v_ESc := ESc_res; v_ESc_res := ESc_res; v_ESc_imp := 0;
     v_ESd := ESd_hp + ESd_aux; v_ESd_hp := ESd_hp; v_ESd_aux := ESd_aux; v_ESd_ed := 0; v_soc_ES := soc_ES;
     v_aux_rd := 0; v_aux_rs := 0; v_aux_d := aux_d; v_aux_s := aux_s; v_aux := aux |}.
Definition plain_plan := plan 5 13 0 0 0 0 0 0 6 6 0 6 0 6 (1000 # 101) 5.
Definition circular_plan := plan 5 13 0 5 5 0 0 0 6 6 0 1 5 6 (1000 # 101) 5.
Definition battery_plan := plan 5 13 0 0 0 0 0 1 6 6 0 (51 # 10) 0 (61 # 10) (1000 # 101) 4.
Definition charging_plan := plan 5 10 0 0 0 3 0 0 6 6 0 6 0 6 (1000 # 101) (77 # 10).

(** An optimiser that always answers with the same plan for the decided hours. *)
Definition answer_with (w : point) : optimiser := fun b => Ok (match b_hours b with [] => [] | _ :: r => b_start b :: map (fun _ => w) r end).
Definition two_hours (P : plant) : mpc := {| m_plant := P; m_horizon := 2; m_return_nodes := [40; 40; 40] |}.
Definition demo_optimised (P : plant) (w : point) (rc : record) : Prop :=
  optimised (implicit_euler (p_battery P)) (two_hours P) (answer_with w) demo_year [20; 20] 0 0 2 (initial_prev (two_hours P)) w rc.
Definition demo_solve (P : plant) (w : point) : res (record * prev) :=
  solve (two_hours P) (answer_with w) demo_year [20; 20] 0 0 2 (initial_prev (two_hours P)).

Lemma demo_seen P w (check : fields -> bool) :
  match demo_solve P w with Ok (rc, _) => check (rf rc) | Err _ => false end = true ->
  (exists b vs, make_problem (two_hours P) demo_year [20; 20] 0 0 2 (initial_prev (two_hours P)) = Ok b /\
     answer_with w b = Ok vs /\ feasible (implicit_euler (p_battery P)) b vs /\ nth_error vs 1 = Some w) ->
  exists rc, demo_optimised P w rc /\ check (rf rc) = true.
Proof.
  unfold demo_solve. intros H (b & vs & H1 & H2 & H3 & H4).
  destruct (solve _ _ _ _ _ _ _ _) as [[rc nx]|e] eqn:E; [|discriminate].
  exists rc. split; [|exact H]. exists b, vs, nx. auto.
Qed.

Ltac closed_ineq := vm_compute; first [reflexivity | discriminate].
Ltac demo_feasible :=
  do 2 eexists; split; [reflexivity|]; split; [reflexivity|]; split; [|reflexivity];
  split; [reflexivity|]; split; [cbn; repeat split; closed_ineq|];
  let k := fresh in let u := fresh in let E := fresh in
  intros [|k] u E; [cbn in E|destruct k; discriminate E];
  match type of E with Some ?x = _ => assert (u = x) by congruence; subst u; clear E end;
  do 2 eexists; split; [reflexivity|]; split; [reflexivity|];
  split; [split; [repeat constructor; closed_ineq|closed_ineq]|split; [cbn; repeat split; closed_ineq|unfold limits; repeat split; closed_ineq]].

Example plain_plan_feasible : exists rc, demo_optimised demo_plant plain_plan rc /\ true = true.
Proof. apply (demo_seen demo_plant plain_plan (fun _ => true)); [vm_compute; reflexivity|demo_feasible]. Qed.

Lemma answer_with_always w : always_answers (answer_with w).
Proof.
  intro b. eexists. split; [reflexivity|]. destruct (b_hours b); [reflexivity|]. cbn [length]. rewrite map_length. reflexivity.
Qed.
Lemma always_from_initial X opt : always_answers opt -> answers_from_initial X opt.
Proof. intros H b _. exact (H b). Qed.

(** ** C27: one record per hour *)
Theorem C27_one_record_per_hour :
  forall X opt year first n rs,
    (2 <= n)%Z -> mpc_run X opt year first n = Ok rs -> Z.of_nat (length rs) = n.
Proof.
  intros X opt year first n rs Hn H. destruct (mpc_run_inv _ _ _ _ _ _ H) as (mc & _ & Hm).
  destruct (moving_horizon_inv _ _ _ _ _ _ _ Hm) as (_ & _ & HL). apply HL. exact Hn.
Qed.
Print Assumptions C27_one_record_per_hour.
Example C27_case : exists rs, mpc_run demo_mpc (answer_with plain_plan) demo_year 100 48 = Ok rs /\ Z.of_nat (length rs) = 48%Z.
Proof.
  apply mpc_run_completes; try (cbn; lia).
  - exact demo_year_ok.
  - exact demo_tank_total.
  - exact demo_backup.
  - left. reflexivity.
  - apply always_from_initial, answer_with_always.
Qed.

(** A run of one hour returns nothing. *)
Theorem C27_one_hour_run_refuted :
  exists X opt year first,
    full_year year /\ tank_total (p_tank (m_plant X)) /\ backup_complete X /\ electric_backup X /\ always_answers opt /\
    m_horizon X = 24%Z /\ (0 <= first)%Z /\ (first + 1 <= 8760)%Z /\ mpc_run X opt year first 1 = Ok [].
Proof.
  exists demo_mpc, (answer_with plain_plan), demo_year, 0%Z.
  split; [exact demo_year_ok|]. split; [exact demo_tank_total|]. split; [exact demo_backup|]. split; [reflexivity|].
  split; [apply answer_with_always|]. split; [reflexivity|]. split; [lia|]. split; [lia|].
  destruct (pre_calculation_ok demo_mpc demo_year 0 1 demo_year_ok demo_tank_total) as (arr & E & _); try (cbn; lia).
  unfold mpc_run. rewrite E. reflexivity.
Qed.
Print Assumptions C27_one_hour_run_refuted.

Theorem C27_beyond_the_year :
  forall X opt year first n,
    full_year year -> tank_total (p_tank (m_plant X)) -> (0 <= first)%Z -> (0 <= n)%Z -> (0 <= m_horizon X)%Z ->
    (8760 < first + n)%Z -> mpc_run X opt year first n = Err ValueError.
Proof. exact mpc_run_too_long. Qed.
Print Assumptions C27_beyond_the_year.
Example C27_beyond_case : mpc_run demo_mpc (answer_with plain_plan) demo_year 8700 61 = Err ValueError.
Proof. apply C27_beyond_the_year; try (cbn; lia); [exact demo_year_ok|exact demo_tank_total]. Qed.

(** Whenever the pre-calculation succeeds, every horizon of the run finds its capacities,
    and they are those of its own hours. *)
Theorem C27_precalculation_covers :
  forall X year first n arr hour pv b,
    full_year year -> tank_total (p_tank (m_plant X)) ->
    (0 <= first)%Z -> (0 <= m_horizon X)%Z ->
    pre_calculation X year first n = Ok arr ->
    (first <= hour <= first + n - 2)%Z ->
    make_problem X year arr hour first (horizon_end X hour) pv = Ok b ->
    length (b_max_cap b) = length (b_hours b) /\
    forall k c, nth_error (b_max_cap b) k = Some c -> full_charge X year (hour + Z.of_nat k) c.
Proof. exact precalculation_covers. Qed.
Print Assumptions C27_precalculation_covers.
Example C27_covers_case : exists arr b,
  pre_calculation demo_mpc demo_year 0 48 = Ok arr /\
  make_problem demo_mpc demo_year arr 0 0 (horizon_end demo_mpc 0) (initial_prev demo_mpc) = Ok b.
Proof.
  destruct (pre_calculation_ok demo_mpc demo_year 0 48 demo_year_ok demo_tank_total) as (arr & E & _); try (cbn; lia).
  destruct (make_problem_ok demo_mpc demo_year arr 0 demo_year_ok demo_tank_total 0 (horizon_end demo_mpc 0) (initial_prev demo_mpc)) as [b Eb];
    try (cbn; lia).
  exists arr, b. auto.
Qed.

(** The pre-calculation itself fails for runs that end within two horizons of the year's
    end but more than one horizon before it. *)
Theorem C27_crash_window :
  forall X opt year first n,
    full_year year -> tank_total (p_tank (m_plant X)) -> (0 <= first)%Z -> (0 <= n)%Z -> (0 <= m_horizon X)%Z ->
    (8759 - m_horizon X <= first + n + m_horizon X < 8759)%Z ->
    mpc_run X opt year first n = Err IndexError.
Proof.
  intros X opt year first n HY HT H0 Hn Hh Hw. unfold mpc_run.
  rewrite (pre_calculation_crashes X year first n HY HT H0 Hn Hh Hw). reflexivity.
Qed.
Print Assumptions C27_crash_window.
Theorem C27_near_year_end_refuted :
  exists X year first n,
    full_year year /\ tank_total (p_tank (m_plant X)) /\ backup_complete X /\ electric_backup X /\
    m_horizon X = 24%Z /\ (0 <= first)%Z /\ (2 <= n)%Z /\ (first + n + m_horizon X <= 8760)%Z /\
    forall opt, mpc_run X opt year first n = Err IndexError.
Proof.
  exists demo_mpc, demo_year, 0%Z, 8715%Z.
  split; [exact demo_year_ok|]. split; [exact demo_tank_total|]. split; [exact demo_backup|]. split; [reflexivity|].
  split; [reflexivity|]. split; [lia|]. split; [lia|]. split; [cbn; lia|].
  intro opt. apply C27_crash_window; try (cbn; lia); [exact demo_year_ok|exact demo_tank_total].
Qed.
Print Assumptions C27_near_year_end_refuted.

(** A run of the last two hours of the year never succeeds. *)
Theorem C27_last_two_hours_fail :
  forall X opt year rs, mpc_run X opt year 8758 2 <> Ok rs.
Proof.
  intros X opt year rs H. destruct (mpc_run_inv _ _ _ _ _ _ H) as (mc & _ & Hm).
  refine (first_solve_fails X opt year mc 8758 2 rs _ _ Hm); [lia|].
  intro pv. apply solve_needs_two_points. unfold horizon_end. destruct (Z.ltb_spec 8759 (8758 + m_horizon X)); lia.
Qed.
Print Assumptions C27_last_two_hours_fail.

(** Everything else completes, provided the optimiser answers when it starts from the
    initial charge level.  Missing: runs of one hour, runs in the window above, runs starting
    after hour 8757, and back-up fuels with a tank (C63). *)
Theorem C27_completes_partial :
  forall X opt year first n,
    full_year year -> tank_total (p_tank (m_plant X)) -> backup_complete X ->
    (electric_backup X \/ t_capacity (p_tank (m_plant X)) == 0) -> answers_from_initial X opt ->
    (0 <= first <= 8757)%Z -> (2 <= n)%Z -> (first + n <= 8760)%Z -> (2 <= m_horizon X)%Z ->
    ((first + n + m_horizon X < 8759 - m_horizon X) \/ (8759 <= first + n + m_horizon X))%Z ->
    exists rs, mpc_run X opt year first n = Ok rs /\ Z.of_nat (length rs) = n.
Proof. exact mpc_run_completes. Qed.
Print Assumptions C27_completes_partial.

(** ** C28: the recorded hour satisfies the balances *)
Theorem C28_electricity :
  forall X year dyn opt mc hour first fh pv v rc I,
    optimised dyn X opt year mc hour first fh pv v rc -> label year (hour + 1) = Ok I ->
    let f := rf rc in
    f ED_elec_demand == i_elec_demand I /\ f ED_RES + f ED_import + f ED_ES == f ED_elec_demand /\
    0 <= f ED_RES /\ 0 <= f ED_import /\ (0 <= b_discharge_eff (p_battery (m_plant X)) -> 0 <= f ED_ES).
Proof. exact elec_balance. Qed.
Print Assumptions C28_electricity.
Theorem C28_renewables :
  forall X year dyn opt mc hour first fh pv v rc I,
    optimised dyn X opt year mc hour first fh pv v rc -> label year (hour + 1) = Ok I ->
    let f := rf rc in
    f RES_generation_total == i_wind I + i_PV I /\
    f RES_elec_demand + f RES_HP + f RES_aux + f ES_charging_from_RES + f RES_export == f RES_generation_total.
Proof. exact renewable_balance. Qed.
Print Assumptions C28_renewables.
Theorem C28_heat_pump :
  forall X year dyn opt mc hour first fh pv v rc I,
    optimised dyn X opt year mc hour first fh pv v rc -> label year (hour + 1) = Ok I ->
    let f := rf rc in
    0 < cop (i_perf I) ->
    f HP_elec_RES_usage + f HP_elec_from_ES_to_demand + f HP_elec_import_usage == f HP_elec_total_usage /\
    f HP_heat_total_output == f HP_elec_total_usage * f HP_cop /\
    0 <= f HP_heat_total_output /\ f HP_heat_total_output <= f HP_duty /\ f HP_duty == duty (i_perf I) /\
    (electric_backup X -> 0 <= f HP_elec_import_usage) /\
    (~ electric_backup X -> f HP_heat_from_ES_to_demand == 0 -> 0 <= f HP_elec_import_usage).
Proof. exact heat_pump_balance. Qed.
Print Assumptions C28_heat_pump.
Example C28_case : exists rc, demo_optimised demo_plant battery_plan rc /\
  (qeq (rf rc ED_RES) 5 && qeq (rf rc RES_HP) 2 && qeq (rf rc RES_export) 13 && qeq (rf rc HP_heat_total_output) 6 &&
   qeq (rf rc ES_final_soc) 4)%bool = true.
Proof.
  apply (demo_seen demo_plant battery_plan (fun f => (qeq (f ED_RES) 5 && qeq (f RES_HP) 2 && qeq (f RES_export) 13 &&
    qeq (f HP_heat_total_output) 6 && qeq (f ES_final_soc) 4)%bool)); [vm_compute; reflexivity|demo_feasible].
Qed.
(** Money: what is imported and exported is paid at the prices of the hour; the import is
    that of the demand, the heat pump, the battery and the back-up, where the back-up's share
    includes what the battery gave to it. *)
Theorem C28_import :
  forall X year dyn opt mc hour first fh pv v rc I,
    optimised dyn X opt year mc hour first fh pv v rc -> label year (hour + 1) = Ok I ->
    let f := rf rc in
    f GRID_total_export == f RES_export /\
    f GRID_import_price == i_import_price I /\
    f GRID_import_costs == f GRID_total_import * i_import_price I / 1000 /\
    f GRID_export_income == f GRID_total_export * p_export_price (m_plant X) / 1000 /\
    f GRID_cashflow == f GRID_export_income - f GRID_import_costs /\
    f GRID_total_import == f ED_import + f HP_elec_import_usage + f ES_charging_from_import +
      (if is_electric (m_plant X) then (f AUX_demand - f RES_aux - f ES_discharging_to_aux) + f ES_discharging_to_aux else 0).
Proof. exact import_account. Qed.
Print Assumptions C28_import.

(** The claim that the import is what the grid supplied fails: the back-up heat driven by
    the battery is counted, and paid, as import. *)
Theorem C28_import_refuted :
  exists X year dyn opt mc hour first fh pv v rc,
    full_year year /\ electric_backup X /\ optimised dyn X opt year mc hour first fh pv v rc /\
    let f := rf rc in
    f ED_import == 0 /\ f HP_elec_import_usage == 0 /\ f ES_charging_from_import == 0 /\
    0 < f ES_discharging_to_aux /\
    f GRID_total_import == (f AUX_demand - f RES_aux - f ES_discharging_to_aux) + 1 /\ 0 < f GRID_import_costs.
Proof.
  destruct (demo_seen demo_plant battery_plan (fun f => (qeq (f ED_import) 0 && qeq (f HP_elec_import_usage) 0 &&
    qeq (f ES_charging_from_import) 0 && qlt 0 (f ES_discharging_to_aux) &&
    qeq (f GRID_total_import) (f AUX_demand - f RES_aux - f ES_discharging_to_aux + 1) && qlt 0 (f GRID_import_costs))%bool))
    as (rc & HO & HC); [vm_compute; reflexivity|demo_feasible|].
  exists (two_hours demo_plant), demo_year, (implicit_euler (p_battery demo_plant)), (answer_with battery_plan), [20; 20], 0%Z, 0%Z, 2%Z,
    (initial_prev (two_hours demo_plant)), battery_plan, rc.
  split; [exact demo_year_ok|]. split; [reflexivity|]. split; [exact HO|]. cbv zeta.
  repeat match type of HC with (_ && _)%bool = true => let A := fresh "A" in apply andb_prop in HC as [HC A] end.
  repeat match goal with A : qeq _ _ = true |- _ => apply qeq_true_inv in A | A : qlt _ _ = true |- _ => apply qlt_true in A end.
  repeat split; assumption.
Qed.
Print Assumptions C28_import_refuted.
(** Without battery-driven back-up heat the import is right (missing: that case). *)
Theorem C28_import_partial :
  forall X year dyn opt mc hour first fh pv v rc I,
    optimised dyn X opt year mc hour first fh pv v rc -> label year (hour + 1) = Ok I ->
    let f := rf rc in
    f ES_discharging_to_aux == 0 ->
    f GRID_total_import == f ED_import + f HP_elec_import_usage + f ES_charging_from_import +
      (if is_electric (m_plant X) then f AUX_demand - f RES_aux - f ES_discharging_to_aux else 0).
Proof.
  intros X year dyn opt mc hour first fh pv v rc I HO HI f H0.
  destruct (import_account X year dyn opt mc hour first fh pv v rc I HO HI) as (_ & _ & _ & _ & _ & E).
  unfold f in *. rewrite E. destruct (is_electric (m_plant X)); lra.
Qed.
Print Assumptions C28_import_partial.

(** The renewable charging of the battery is missing from the renewable columns of the
    record, so these do not add up. *)
Theorem C28_renewable_columns_refuted :
  exists X year dyn opt mc hour first fh pv v rc,
    full_year year /\ optimised dyn X opt year mc hour first fh pv v rc /\
    let f := rf rc in
    f RES_ES == 0 /\ f ES_charging_from_RES == 3 /\
    f RES_elec_demand + f RES_HP + f RES_aux + f RES_ES + f RES_export == f RES_generation_total - 3.
Proof.
  destruct (demo_seen demo_plant charging_plan (fun f => (qeq (f RES_ES) 0 && qeq (f ES_charging_from_RES) 3 &&
    qeq (f RES_elec_demand + f RES_HP + f RES_aux + f RES_ES + f RES_export) (f RES_generation_total - 3))%bool))
    as (rc & HO & HC); [vm_compute; reflexivity|demo_feasible|].
  exists (two_hours demo_plant), demo_year, (implicit_euler (p_battery demo_plant)), (answer_with charging_plan), [20; 20], 0%Z, 0%Z, 2%Z,
    (initial_prev (two_hours demo_plant)), charging_plan, rc.
  split; [exact demo_year_ok|]. split; [exact HO|]. cbv zeta.
  repeat match type of HC with (_ && _)%bool = true => let A := fresh "A" in apply andb_prop in HC as [HC A] end.
  repeat match goal with A : qeq _ _ = true |- _ => apply qeq_true_inv in A end.
  repeat split; assumption.
Qed.
Print Assumptions C28_renewable_columns_refuted.

(** Charging and discharging the tank in the same hour at the same rate is feasible and
    recorded as such; the recorded heat then exceeds the demand. *)
Theorem C28_tank_exclusive_refuted :
  exists X year dyn opt mc hour first fh pv v rc,
    full_year year /\ optimised dyn X opt year mc hour first fh pv v rc /\
    let f := rf rc in
    0 < f TS_charging_total /\ 0 < f TS_discharging_total /\
    f HD_HP + f HD_TS + f HD_aux == f HD_heat_demand + 5.
Proof.
  destruct (demo_seen demo_plant circular_plan (fun f => (qlt 0 (f TS_charging_total) && qlt 0 (f TS_discharging_total) &&
    qeq (f HD_HP + f HD_TS + f HD_aux) (f HD_heat_demand + 5))%bool))
    as (rc & HO & HC); [vm_compute; reflexivity|demo_feasible|].
  exists (two_hours demo_plant), demo_year, (implicit_euler (p_battery demo_plant)), (answer_with circular_plan), [20; 20], 0%Z, 0%Z, 2%Z,
    (initial_prev (two_hours demo_plant)), circular_plan, rc.
  split; [exact demo_year_ok|]. split; [exact HO|]. cbv zeta.
  repeat match type of HC with (_ && _)%bool = true => let A := fresh "A" in apply andb_prop in HC as [HC A] end.
  repeat match goal with A : qeq _ _ = true |- _ => apply qeq_true_inv in A | A : qlt _ _ = true |- _ => apply qlt_true in A end.
  repeat split; assumption.
Qed.
Print Assumptions C28_tank_exclusive_refuted.
(** What holds: both are positive only where the answer charges and discharges at the same
    rate, up to half a hundredth. *)
Theorem C28_tank_exclusive_partial :
  forall X year dyn opt mc hour first fh pv v rc I,
    optimised dyn X opt year mc hour first fh pv v rc -> label year (hour + 1) = Ok I ->
    let f := rf rc in
    tank_reports_nonneg X ->
    0 <= f TS_charging_total /\ 0 <= f TS_discharging_total /\
    ((1 # 200) < v_TSc v - v_TSd v -> f TS_discharging_total == 0 /\ f TS_charging_total <= v_TSc v - v_TSd v + (1 # 200)) /\
    (v_TSc v - v_TSd v < - (1 # 200) -> f TS_charging_total == 0 /\ f TS_discharging_total <= v_TSd v - v_TSc v + (1 # 200)) /\
    (0 < f TS_charging_total -> 0 < f TS_discharging_total ->
       f TS_charging_total == v_TSc v /\ f TS_discharging_total == v_TSd v /\
       - (1 # 200) <= f TS_charging_total - f TS_discharging_total /\
       f TS_charging_total - f TS_discharging_total <= 1 # 200).
Proof. exact tank_not_both. Qed.
Print Assumptions C28_tank_exclusive_partial.
Example C28_tank_case : tank_reports_nonneg (two_hours demo_plant).
Proof. intros s n so fl t m H. exact (simple_tank_ok 1000 20 10 ltac:(lra) ltac:(lra) s n so fl t m H). Qed.
(** The heat demand is covered if the tank delivers what the optimiser counted on
    (missing: the balance as an equation, refuted above). *)
Theorem C28_heat_covered_partial :
  forall X year dyn opt mc hour first fh pv v rc I,
    optimised dyn X opt year mc hour first fh pv v rc -> label year (hour + 1) = Ok I ->
    let f := rf rc in
    b_discharge_eff (p_battery (m_plant X)) <= 1 ->
    v_TSd v - v_TSc v - (1 # 200) <= f TS_discharging_total ->
    f HD_heat_demand == i_heat_demand I /\
    i_heat_demand I - (1 # 200) <= f HD_HP + f HD_TS + f HD_aux /\ f HD_HP <= i_heat_demand I.
Proof. exact heat_covered. Qed.
Print Assumptions C28_heat_covered_partial.

(** With another fuel nothing ties the battery-driven heat of the heat pump to the rest of
    the problem: feasible answers give a negative import. *)
Definition mpc_gas_plant : plant :=
  {| p_battery := demo_battery 10 (9 # 10); p_hp_capacity := 8; p_min_runtime := 60; p_min_output := 20;
     p_aux := {| a_fuel := GAS; a_efficiency := 9 # 10; a_cost := Some 30; a_energy_density := Some (1 # 10) |};
     p_tank := simple_tank 0 20 10; p_export_price := 40; p_setpoint := 100;
     p_order_above := all13; p_order_below := all15; p_max_heat := 30 |}.
Definition gas_plan := plan 5 13 0 0 0 0 0 0 6 6 30 6 0 6 (1000 # 101) 5.
Theorem C28_fuel_import_refuted :
  exists X year dyn opt mc hour first fh pv v rc,
    full_year year /\ ~ electric_backup X /\ optimised dyn X opt year mc hour first fh pv v rc /\
    let f := rf rc in
    f GRID_total_import < 0 /\ f GRID_import_costs < 0 /\ f ES_discharging_total == 0 /\
    f HP_heat_from_ES_to_demand == 30 /\ f HP_heat_total_output == 6.
Proof.
  destruct (demo_seen mpc_gas_plant gas_plan (fun f => (qlt (f GRID_total_import) 0 && qlt (f GRID_import_costs) 0 &&
    qeq (f ES_discharging_total) 0 && qeq (f HP_heat_from_ES_to_demand) 30 && qeq (f HP_heat_total_output) 6)%bool))
    as (rc & HO & HC); [vm_compute; reflexivity|demo_feasible|].
  exists (two_hours mpc_gas_plant), demo_year, (implicit_euler (p_battery mpc_gas_plant)), (answer_with gas_plan), [20; 20], 0%Z, 0%Z, 2%Z,
    (initial_prev (two_hours mpc_gas_plant)), gas_plan, rc.
  split; [exact demo_year_ok|]. split; [discriminate|]. split; [exact HO|]. cbv zeta.
  repeat match type of HC with (_ && _)%bool = true => let A := fresh "A" in apply andb_prop in HC as [HC A] end.
  repeat match goal with A : qeq _ _ = true |- _ => apply qeq_true_inv in A | A : qlt _ _ = true |- _ => apply qlt_true in A end.
  repeat split; assumption.
Qed.
Print Assumptions C28_fuel_import_refuted.

(** ** C29: the storage state is kept *)
(** Exactly how every record relates to the one before. *)
Theorem C29_exact :
  forall X opt year first n rs,
    mpc_run X opt year first n = Ok rs -> (2 <= n)%Z ->
    exists mc, pre_calculation X year first n = Ok mc /\
      (exists I, label year first = Ok I /\ nth_error rs 0 = Some (made_up_record X I)) /\
      forall i rc, nth_error rs (S i) = Some rc ->
        exists before, nth_error rs i = Some before /\ continues X opt year mc first (first + Z.of_nat i) before rc.
Proof.
  intros X opt year first n rs H Hn. destruct (mpc_run_inv _ _ _ _ _ _ H) as (mc & Hp & Hm). exists mc. split; [exact Hp|].
  destruct (moving_horizon_inv _ _ _ _ _ _ _ Hm) as (_ & _ & HL). destruct (HL Hn) as (_ & H1 & H2). auto.
Qed.
Print Assumptions C29_exact.
(** The optimisation starts from that state: the battery at its charge level, the tank at
    what its nodes can deliver. *)
Theorem C29_problem_start :
  forall X opt year mc hour first st rc,
    starts_from X opt year mc hour first st rc ->
    exists b vs I m, opt b = Ok vs /\ label year hour = Ok I /\
      t_max (p_tank (m_plant X)) Discharging (fst st) (i_source_temp I) (i_flow_temp I) hour = Ok m /\
      v_soc_ES (b_start b) = snd st /\ v_soc (b_start b) = m.
Proof.
  intros X opt year mc hour first st rc (pv & nx & Hn & Hs & HS).
  destruct (solve_inv _ _ _ _ _ _ _ _ _ _ HS) as (b & vs & v & c & d & s & I & p & n & r & HB & HV & _).
  destruct (make_problem_inv _ _ _ _ _ _ _ _ HB) as (_ & _ & _ & (I0 & soc & HI & HT & HE) & _).
  exists b, vs, I0, soc. rewrite <- Hn, HE. cbn [start_point v_soc_ES v_soc]. auto.
Qed.
Print Assumptions C29_problem_start.
(** Kept throughout if the optimiser always answers (missing: its failures, refuted below,
    and the last hour of the year). *)
Theorem C29_kept_partial :
  forall X opt year first n rs,
    full_year year -> tank_total (p_tank (m_plant X)) -> backup_complete X -> always_answers opt ->
    (electric_backup X \/ t_capacity (p_tank (m_plant X)) == 0) ->
    (0 <= first)%Z -> (2 <= m_horizon X)%Z -> (2 <= n)%Z -> (first + n <= 8759)%Z ->
    mpc_run X opt year first n = Ok rs ->
    exists mc, pre_calculation X year first n = Ok mc /\
    forall i before rc, nth_error rs i = Some before -> nth_error rs (S i) = Some rc ->
      starts_from X opt year mc (first + Z.of_nat i) first (recorded_state before) rc.
Proof.
  intros X opt year first n rs HY HT HB HA HE H0 Hh Hn Hl H. destruct (mpc_run_inv _ _ _ _ _ _ H) as (mc & Hp & Hm).
  exists mc. split; [exact Hp|]. exact (mpc_run_kept X opt year first n rs mc HY HT HB HA HE H0 Hh Hn Hl Hm).
Qed.
Print Assumptions C29_kept_partial.
Example C29_case : exists rs, mpc_run demo_mpc (answer_with charging_plan) demo_year 0 48 = Ok rs.
Proof.
  destruct (mpc_run_completes demo_mpc (answer_with charging_plan) demo_year 0 48) as (rs & E & _); try (cbn; lia).
  - exact demo_year_ok.
  - exact demo_tank_total.
  - exact demo_backup.
  - left. reflexivity.
  - apply always_from_initial, answer_with_always.
  - exists rs. exact E.
Qed.

(** A failure of the optimiser resets the storage: after it the hour starts from the
    initial state, whatever was recorded.  The optimiser of the witness answers every problem
    that starts from the initial charge level, and its answers are feasible. *)
Definition fails_elsewhere (w : point) : optimiser := fun b => if qeq (v_soc_ES (b_start b)) 5 then answer_with w b else Err SystemError.

Lemma demo_pre : pre_calculation (two_hours demo_plant) demo_year 0 3 = Ok [20; 20; 20; 20; 20].
Proof.
  destruct (pre_calculation_ok (two_hours demo_plant) demo_year 0 3 demo_year_ok demo_tank_total) as (arr & E & HL & HC); try (cbn; lia).
  rewrite E. f_equal. cbn in HL.
  assert (HV : forall u, (0 <= u < 5)%Z -> nth_error arr (Z.to_nat u) = Some 20).
  { intros u Hu. destruct (HC u) as (c & (I & H1 & H2) & H3); [cbn; lia|]. cbn in H2. injection H2 as <-.
    rewrite Z.sub_0_r in H3. exact H3. }
  destruct arr as [|a0 [|a1 [|a2 [|a3 [|a4 [|]]]]]]; try discriminate HL.
  pose proof (HV 0%Z ltac:(lia)) as A0. pose proof (HV 1%Z ltac:(lia)) as A1. pose proof (HV 2%Z ltac:(lia)) as A2.
  pose proof (HV 3%Z ltac:(lia)) as A3. pose proof (HV 4%Z ltac:(lia)) as A4.
  vm_compute in A0, A1, A2, A3, A4. congruence.
Qed.

Theorem C29_kept_refuted :
  exists X opt year n rs mc before rc,
    full_year year /\ tank_total (p_tank (m_plant X)) /\ backup_complete X /\ electric_backup X /\
    answers_from_initial X opt /\ pre_calculation X year 0 n = Ok mc /\
    mpc_run X opt year 0 n = Ok rs /\ nth_error rs 1 = Some before /\ nth_error rs 2 = Some rc /\
    ~ starts_from X opt year mc 1 0 (recorded_state before) rc /\
    starts_from X opt year mc 1 0 (initial_state X) rc /\
    snd (recorded_state before) == 77 # 10 /\ snd (initial_state X) == 5.
Proof.
  set (X := two_hours demo_plant). set (opt := fails_elsewhere charging_plan).
  assert (HA : answers_from_initial X opt).
  { intros b Hb. unfold opt, fails_elsewhere. rewrite Hb. change (qeq (init_state (p_battery (m_plant X))) 5) with true.
    cbv iota. apply answer_with_always. }
  assert (HB : backup_complete X) by (split; [cbn; lra|]; intro H; exfalso; apply H; reflexivity).
  destruct (mpc_run_completes X opt demo_year 0 3) as (rs & E & HL); try (cbn; lia).
  { exact demo_year_ok. } { exact demo_tank_total. } { exact HB. } { left; reflexivity. } { exact HA. }
  destruct (C29_exact X opt demo_year 0 3 rs E ltac:(lia)) as (mc & Hmc & (I0 & HI0 & H0) & HC).
  destruct (nth_error rs 1) as [before|] eqn:E1; [|apply nth_error_None in E1; lia].
  destruct (nth_error rs 2) as [rc|] eqn:E2; [|apply nth_error_None in E2; lia].
  assert (HO : forall b vs, opt b = Ok vs -> v_soc_ES (b_start b) == 5 /\ answer_with charging_plan b = Ok vs).
  { intros b vs. unfold opt, fails_elsewhere. destruct (qeq_spec (v_soc_ES (b_start b)) 5); [auto|discriminate]. }
  assert (HS : forall hour st r, starts_from X opt demo_year mc hour 0 st r -> snd st == 5 /\ snd (recorded_state r) = v_soc_ES charging_plan).
  { intros hour st r Hst. destruct (C29_problem_start _ _ _ _ _ _ _ _ Hst) as (b & vs & I & m & Ho & _ & _ & Hs & _).
    destruct (HO _ _ Ho) as [H5 _]. rewrite Hs in H5. split; [exact H5|].
    destruct Hst as (pv & nx & _ & _ & Hsol). rewrite (solve_state _ _ _ _ _ _ _ _ _ _ Hsol).
    destruct (solve_inv _ _ _ _ _ _ _ _ _ _ Hsol) as (b' & vs' & v & c & d & s & I' & p & n' & r' & _ & HV & H1 & _ & _ & _ & _ & _ & _ & _ & ->).
    destruct (HO _ _ HV) as [_ HV']. unfold answer_with in HV'. cbn [snd pr_point with_tank v_soc_ES]. f_equal.
    destruct (b_hours b') as [|? [|? ?]]; injection HV' as <-; cbn in H1; congruence. }
  destruct (HC 0%nat before E1) as (r0 & Hr0 & Hc0). destruct (HC 1%nat rc E2) as (r1 & Hr1 & Hc1).
  assert (r1 = before) by congruence. subst r1. change (0 + Z.of_nat 1)%Z with 1%Z in Hc1. change (0 + Z.of_nat 0)%Z with 0%Z in Hc0.
  assert (Hb : snd (recorded_state before) = 77 # 10).
  { destruct Hc0 as [Hc|[(Hlt & _)|(Hlt & _)]]; [|lia|lia]. exact (proj2 (HS _ _ _ Hc)). }
  assert (Hno : forall r, ~ starts_from X opt demo_year mc 1 0 (recorded_state before) r).
  { intros r Hr. destruct (HS _ _ _ Hr) as [H5 _]. rewrite Hb in H5. discriminate H5. }
  exists X, opt, demo_year, 3%Z, rs, mc, before, rc.
  split; [exact demo_year_ok|]. split; [exact demo_tank_total|]. split; [exact HB|]. split; [reflexivity|].
  split; [exact HA|]. split; [exact Hmc|]. split; [exact E|]. split; [exact E1|]. split; [exact E2|].
  split; [apply Hno|]. split; [|split; [rewrite Hb; reflexivity|reflexivity]].
  destruct Hc1 as [Hc|[(_ & _ & Hc)|(Hc & _)]]; [destruct (Hno _ Hc)|exact Hc|lia].
Qed.
Print Assumptions C29_kept_refuted.
(** The answers used there are feasible. *)
Example C29_answer_feasible : exists rc, demo_optimised demo_plant charging_plan rc /\ true = true.
Proof. apply (demo_seen demo_plant charging_plan (fun _ => true)); [vm_compute; reflexivity|demo_feasible]. Qed.

(** ** C63: every back-up fuel works with the predictive controller *)
Theorem C63_fuel_with_tank_fails :
  forall X opt year first n rs,
    ~ electric_backup X -> ~ t_capacity (p_tank (m_plant X)) == 0 -> (2 <= n)%Z ->
    mpc_run X opt year first n <> Ok rs.
Proof.
  intros X opt year first n rs He Hc Hn H. destruct (mpc_run_inv _ _ _ _ _ _ H) as (mc & _ & Hm).
  refine (first_solve_fails X opt year mc first n rs Hn _ Hm). intro pv. apply solve_fuel_fails; assumption.
Qed.
Print Assumptions C63_fuel_with_tank_fails.
Definition mpc_gas_tank_plant : plant :=
  {| p_battery := demo_battery 10 (9 # 10); p_hp_capacity := 8; p_min_runtime := 60; p_min_output := 20;
     p_aux := {| a_fuel := GAS; a_efficiency := 9 # 10; a_cost := Some 30; a_energy_density := Some (1 # 10) |};
     p_tank := simple_tank 1000 20 10; p_export_price := 40; p_setpoint := 100;
     p_order_above := all13; p_order_below := all15; p_max_heat := 30 |}.
Theorem C63_fuels_refuted :
  exists X opt year n,
    full_year year /\ tank_total (p_tank (m_plant X)) /\ backup_complete X /\ always_answers opt /\ (2 <= n)%Z /\
    a_fuel (p_aux (m_plant X)) = GAS /\ forall first rs, mpc_run X opt year first n <> Ok rs.
Proof.
  exists {| m_plant := mpc_gas_tank_plant; m_horizon := 24; m_return_nodes := [40; 40; 40] |}, (answer_with plain_plan), demo_year, 48%Z.
  split; [exact demo_year_ok|]. split; [split; intros; eexists; reflexivity|].
  split; [split; [cbn; lra|intros _; split; discriminate]|]. split; [apply answer_with_always|]. split; [lia|]. split; [reflexivity|].
  intros first rs. apply C63_fuel_with_tank_fails; [discriminate|cbn; lra|lia].
Qed.
Print Assumptions C63_fuels_refuted.
(** Electric back-up, or no tank: every answering optimiser gives a complete run (missing:
    fuels with a tank, the crash window of C27). *)
Theorem C63_fuels_partial :
  forall X opt year first n,
    full_year year -> tank_total (p_tank (m_plant X)) -> backup_complete X ->
    (electric_backup X \/ t_capacity (p_tank (m_plant X)) == 0) -> always_answers opt ->
    (0 <= first)%Z -> (2 <= n)%Z -> (2 <= m_horizon X)%Z -> (first + n + m_horizon X < 8759 - m_horizon X)%Z ->
    exists rs, mpc_run X opt year first n = Ok rs /\ Z.of_nat (length rs) = n.
Proof.
  intros X opt year first n HY HT HB HE HA H0 Hn Hh Hw.
  apply mpc_run_completes; try assumption; try lia. apply always_from_initial. exact HA.
Qed.
Print Assumptions C63_fuels_partial.
Example C63_case : exists rs,
  mpc_run {| m_plant := mpc_gas_plant; m_horizon := 24; m_return_nodes := [40; 40; 40] |} (answer_with gas_plan) demo_year 0 48 = Ok rs /\
  Z.of_nat (length rs) = 48%Z.
Proof.
  apply C63_fuels_partial; try (cbn; lia).
  - exact demo_year_ok.
  - split; intros; eexists; reflexivity.
  - split; [cbn; lra|intros _; split; discriminate].
  - right. reflexivity.
  - apply answer_with_always.
Qed.

(** ** C64: every record describes its own hour *)
Theorem C64_own_hour_partial :
  forall X opt year first n rs i rc,
    mpc_run X opt year first n = Ok rs -> nth_error rs (S i) = Some rc -> (first + Z.of_nat (S i) < 8759)%Z ->
    exists I, label year (first + Z.of_nat (S i)) = Ok I /\ describes I (rf rc).
Proof.
  intros X opt year first n rs i rc H Hi Hl.
  destruct (Z.le_gt_cases 2 n) as [Hn|Hn].
  - destruct (C29_exact X opt year first n rs H Hn) as (mc & _ & _ & HC). destruct (HC i rc Hi) as (before & _ & Hc).
    assert (Hst : exists st, starts_from X opt year mc (first + Z.of_nat i) first st rc).
    { destruct Hc as [Hc|[(_ & _ & Hc)|(Hc & _)]]; [eexists; exact Hc|eexists; exact Hc|lia]. }
    destruct Hst as (st & pv & nx & _ & _ & HS). destruct (solve_describes _ _ _ _ _ _ _ _ _ _ HS) as (I & HI & HD).
    exists I. split; [|exact HD]. rewrite <- HI. f_equal. lia.
  - destruct (mpc_run_inv _ _ _ _ _ _ H) as (mc & _ & Hm). destruct (moving_horizon_inv _ _ _ _ _ _ _ Hm) as (_ & H0 & _).
    rewrite H0 in Hi by lia. discriminate Hi.
Qed.
Print Assumptions C64_own_hour_partial.
(** The first record is made up: whatever the demand of the first hour, it shows none, nor
    any renewable generation. *)
Theorem C64_first_hour :
  forall X opt year first n rs,
    mpc_run X opt year first n = Ok rs -> (2 <= n)%Z ->
    exists rc, nth_error rs 0 = Some rc /\ rf rc ED_elec_demand == 0 /\ rf rc RES_generation_total == 0 /\
      rf rc GRID_total_import == 0 /\ rf rc GRID_total_export == 0.
Proof.
  intros X opt year first n rs H Hn. destruct (C29_exact X opt year first n rs H Hn) as (mc & _ & (I & _ & H0) & _).
  eexists. split; [exact H0|]. repeat split; reflexivity.
Qed.
Print Assumptions C64_first_hour.
(** So is the last record of the year: it is the made-up record of the run's first hour. *)
Theorem C64_last_hour :
  forall X opt year first n rs,
    mpc_run X opt year first n = Ok rs -> (3 <= n)%Z -> (first + n = 8760)%Z ->
    exists rc I, nth_error rs 0 = Some rc /\ nth_error rs (Z.to_nat (n - 1)) = Some rc /\
      label year first = Ok I /\ rc = made_up_record X I.
Proof.
  intros X opt year first n rs H Hn Hl. destruct (C29_exact X opt year first n rs H ltac:(lia)) as (mc & _ & (I & HI & H0) & HC).
  pose proof (C27_one_record_per_hour X opt year first n rs ltac:(lia) H) as HL.
  replace (Z.to_nat (n - 1)) with (S (Z.to_nat (n - 2))) by lia.
  destruct (nth_error rs (S (Z.to_nat (n - 2)))) as [rc|] eqn:E; [|apply nth_error_None in E; lia].
  destruct (HC _ _ E) as (before & _ & Hc).
  replace (first + Z.of_nat (Z.to_nat (n - 2)))%Z with 8758%Z in Hc by lia.
  assert (HF : forall st r, ~ starts_from X opt year mc 8758 first st r).
  { intros st r (pv & nx & _ & _ & HS).
    destruct (solve_needs_two_points X opt year mc 8758 first (horizon_end X 8758) pv) as [e He]; [|congruence].
    unfold horizon_end. destruct (Z.ltb_spec 8759 (8758 + m_horizon X)); lia. }
  destruct Hc as [Hc|[(_ & _ & Hc)|(_ & _ & I' & HI' & Hrc)]]; [destruct (HF _ _ Hc)|destruct (HF _ _ Hc)|].
  assert (I' = I) by congruence. subst I'. exists rc, I. subst rc. auto.
Qed.
Print Assumptions C64_last_hour.
Theorem C64_own_hour_refuted :
  exists X opt year first n rs rc I,
    full_year year /\ tank_total (p_tank (m_plant X)) /\ backup_complete X /\ electric_backup X /\ always_answers opt /\
    mpc_run X opt year first n = Ok rs /\ nth_error rs 0 = Some rc /\ label year first = Ok I /\
    i_elec_demand I == 5 /\ rf rc ED_elec_demand == 0 /\ i_PV I == 20 /\ rf rc RES_generation_total == 0.
Proof.
  destruct C27_case as (rs & E & HL).
  destruct (C64_first_hour _ _ _ _ _ _ E ltac:(lia)) as (rc & H0 & H1 & H2 & _).
  exists demo_mpc, (answer_with plain_plan), demo_year, 100%Z, 48%Z, rs, rc, sunny.
  split; [exact demo_year_ok|]. split; [exact demo_tank_total|]. split; [exact demo_backup|]. split; [reflexivity|].
  split; [apply answer_with_always|]. split; [exact E|]. split; [exact H0|]. split; [apply demo_year_row; lia|].
  split; [reflexivity|]. split; [exact H1|]. split; [reflexivity|exact H2].
Qed.
Print Assumptions C64_own_hour_refuted.
Example C64_last_case : exists rs, mpc_run demo_mpc (answer_with plain_plan) demo_year 8710 50 = Ok rs.
Proof.
  destruct (mpc_run_completes demo_mpc (answer_with plain_plan) demo_year 8710 50) as (rs & E & _); try (cbn; lia).
  - exact demo_year_ok.
  - exact demo_tank_total.
  - exact demo_backup.
  - left. reflexivity.
  - apply always_from_initial, answer_with_always.
  - exists rs. exact E.
Qed.

(** ** C65: the problem handed to the optimiser has a bounded objective *)
(** Electric back-up: no feasible plan earns more than exporting everything. *)
Theorem C65_electric_bounded :
  forall X year mc hour first fh pv b dyn vs,
    make_problem X year mc hour first fh pv = Ok b -> electric_backup X -> 0 <= p_export_price (m_plant X) ->
    Forall (fun p => 0 < q_cop p /\ 0 <= q_price p) (b_hours b) -> feasible dyn b vs ->
    - (planned_generation b * p_export_price (m_plant X) * (1 # 1000)) <= objective b vs.
Proof.
  intros X year mc hour first fh pv b dyn vs HB He Hx HP HF.
  destruct (make_problem_inv _ _ _ _ _ _ _ _ HB) as (_ & _ & _ & _ & _ & _ & E1 & E2 & _ & E3).
  apply electric_iff in He. rewrite He in E1, E2. rewrite <- E3 in Hx |- *.
  exact (electric_objective_bounded b dyn vs E1 E2 Hx HP HF).
Qed.
Print Assumptions C65_electric_bounded.
Example C65_case : exists b vs,
  make_problem (two_hours demo_plant) demo_year [20; 20] 0 0 2 (initial_prev (two_hours demo_plant)) = Ok b /\
  Forall (fun p => 0 < q_cop p /\ 0 <= q_price p) (b_hours b) /\
  feasible (implicit_euler (p_battery demo_plant)) b vs /\ objective b vs == 38 # 100 /\ planned_generation b == 20.
Proof.
  assert (H : exists b vs, make_problem (two_hours demo_plant) demo_year [20; 20] 0 0 2 (initial_prev (two_hours demo_plant)) = Ok b /\
     answer_with plain_plan b = Ok vs /\ feasible (implicit_euler (p_battery demo_plant)) b vs /\ nth_error vs 1 = Some plain_plan) by demo_feasible.
  destruct H as (b & vs & H1 & H2 & H3 & _). exists b, vs.
  assert (Eb : b_hours b = [phour_of (two_hours demo_plant) sunny; phour_of (two_hours demo_plant) sunny]).
  { assert (HOk : forall A (x y : A), Ok x = Ok y -> x = y) by congruence. apply HOk in H1. subst b. reflexivity. }
  split; [exact H1|]. split; [rewrite Eb; repeat constructor; vm_compute; (reflexivity || discriminate)|]. split; [exact H3|].
  assert (HOk : forall A (x y : A), Ok x = Ok y -> x = y) by congruence. apply HOk in H1. apply HOk in H2. subst b vs.
  split; vm_compute; reflexivity.
Qed.
(** Another fuel: as soon as one feasible plan exists, the objective has no lower bound. *)
Theorem C65_fuel_unbounded :
  forall X year mc hour first fh pv b dyn vs c,
    make_problem X year mc hour first fh pv = Ok b -> ~ electric_backup X -> a_cost (p_aux (m_plant X)) = Some c -> 0 < c ->
    (hour + 2 <= fh)%Z -> feasible dyn b vs ->
    forall M, exists vs', feasible dyn b vs' /\ objective b vs' < M.
Proof.
  intros X year mc hour first fh pv b dyn vs c HB He Hc H0 Hh HF.
  destruct (make_problem_inv _ _ _ _ _ _ _ _ HB) as (_ & HL & _ & _ & _ & _ & E1 & E2 & _).
  assert (Ee : is_electric (m_plant X) = false).
  { destruct (is_electric (m_plant X)) eqn:E; [|reflexivity]. apply electric_iff in E. contradiction. }
  rewrite Ee in E1, E2. rewrite Hc in E2. apply (fuel_objective_unbounded b dyn vs c); try assumption. lia.
Qed.
Print Assumptions C65_fuel_unbounded.
Theorem C65_bounded_refuted :
  exists X year mc hour first fh pv b dyn,
    full_year year /\ tank_total (p_tank (m_plant X)) /\ backup_complete X /\
    make_problem X year mc hour first fh pv = Ok b /\
    forall M, exists vs, feasible dyn b vs /\ objective b vs < M.
Proof.
  assert (H : exists b vs, make_problem (two_hours mpc_gas_plant) demo_year [20; 20] 0 0 2 (initial_prev (two_hours mpc_gas_plant)) = Ok b /\
     answer_with gas_plan b = Ok vs /\ feasible (implicit_euler (p_battery mpc_gas_plant)) b vs /\ nth_error vs 1 = Some gas_plan) by demo_feasible.
  destruct H as (b & vs & H1 & H2 & H3 & _).
  exists (two_hours mpc_gas_plant), demo_year, [20; 20], 0%Z, 0%Z, 2%Z, (initial_prev (two_hours mpc_gas_plant)), b, (implicit_euler (p_battery mpc_gas_plant)).
  split; [exact demo_year_ok|]. split; [split; intros; eexists; reflexivity|].
  split; [split; [cbn; lra|intros _; split; discriminate]|]. split; [exact H1|].
  apply (C65_fuel_unbounded (two_hours mpc_gas_plant) demo_year [20; 20] 0 0 2 (initial_prev (two_hours mpc_gas_plant)) b _ vs 30 H1);
    [discriminate|reflexivity|lra|lia|exact H3].
Qed.
Print Assumptions C65_bounded_refuted.

(** ** C66: the recorded cost of the back-up heat *)
Theorem C66_backup_cost :
  forall X opt year mc hour first fh pv rc nx,
    solve X opt year mc hour first fh pv = Ok (rc, nx) ->
    (electric_backup X -> rf rc AUX_cost == 0) /\
    (~ electric_backup X -> exists c, a_cost (p_aux (m_plant X)) = Some c /\ rf rc AUX_cost == c * (1 # 1000) * rf rc AUX_demand) /\
    rf rc AUX_usage * a_efficiency (p_aux (m_plant X)) == rf rc AUX_demand.
Proof. exact solve_aux_cost. Qed.
Print Assumptions C66_backup_cost.
Example C66_case : exists rc nx, demo_solve mpc_gas_plant gas_plan = Ok (rc, nx) /\ rf rc AUX_cost == 18 # 100.
Proof.
  destruct (demo_seen mpc_gas_plant gas_plan (fun f => qeq (f AUX_cost) (18 # 100))) as (rc & (b & vs & nx & _ & _ & _ & _ & HS) & HC);
    [vm_compute; reflexivity|demo_feasible|].
  exists rc, nx. split; [exact HS|]. apply qeq_true_inv. exact HC.
Qed.
(** Electric back-up heat is recorded as free although it is bought. *)
Theorem C66_electric_cost_refuted :
  exists X year dyn opt mc hour first fh pv v rc I,
    full_year year /\ electric_backup X /\ optimised dyn X opt year mc hour first fh pv v rc /\ label year (hour + 1) = Ok I /\
    0 < i_import_price I /\ rf rc AUX_demand == 6 /\ rf rc RES_aux == 0 /\ rf rc ES_discharging_to_aux == 0 /\ rf rc AUX_cost == 0.
Proof.
  destruct (demo_seen demo_plant plain_plan (fun f => (qeq (f AUX_demand) 6 && qeq (f RES_aux) 0 && qeq (f ES_discharging_to_aux) 0 &&
    qeq (f AUX_cost) 0)%bool)) as (rc & HO & HC); [vm_compute; reflexivity|demo_feasible|].
  exists (two_hours demo_plant), demo_year, (implicit_euler (p_battery demo_plant)), (answer_with plain_plan), [20; 20], 0%Z, 0%Z, 2%Z,
    (initial_prev (two_hours demo_plant)), plain_plan, rc, sunny.
  split; [exact demo_year_ok|]. split; [reflexivity|]. split; [exact HO|]. split; [reflexivity|]. split; [cbn; lra|].
  repeat match type of HC with (_ && _)%bool = true => let A := fresh "A" in apply andb_prop in HC as [HC A] end.
  repeat match goal with A : qeq _ _ = true |- _ => apply qeq_true_inv in A end.
  repeat split; assumption.
Qed.
Print Assumptions C66_electric_cost_refuted.
