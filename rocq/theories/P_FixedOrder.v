(** Fixed-order controller: properties C08-C21. *)
From Verif Require Import Base BaseL M_Battery S_Battery L_Battery M_HeatPump S_HeatPump L_HeatPump
  M_Tools L_Tools M_FixedOrder S_FixedOrder L_FixedOrder L_FixedOrderHour
  L_FixedOrderProps L_FixedOrderMore L_FixedOrderRun.
Require Import Sorting.Sorted.

(** ** Concrete plants used by the examples and counterexamples *)
Definition simple_tank (cap charge discharge : Q) : tank_ops :=
  {| t_capacity := cap; t_init := [60; 50; 40];
     t_max := fun s _ _ _ _ => Ok (match s with Charging => charge | Discharging => discharge | Standby => 0 end);
     t_new := fun _ n _ _ _ _ _ => Ok n |}.
Definition demo_battery (cap eff : Q) : battery :=
  {| b_capacity := cap; b_initial_state := 1#2; b_charge_max := 100; b_discharge_max := 100;
     b_charge_eff := eff; b_discharge_eff := eff; b_self_discharge := 0 |}.
Definition electric_aux : aux :=
  {| a_fuel := ELECTRIC; a_efficiency := 1; a_cost := None; a_energy_density := None |}.
Definition all13 : list Z := [1; 2; 3; 4; 5; 6; 7; 8; 9; 10; 11; 12; 13]%Z.
Definition all15 : list Z := [1; 2; 3; 4; 5; 6; 7; 8; 9; 10; 11; 12; 13; 14; 15]%Z.
Definition demo (b : battery) (hp min_output : Q) (tank : tank_ops) (above below : list Z) : plant :=
  {| p_battery := b; p_hp_capacity := hp; p_min_runtime := 60; p_min_output := min_output;
     p_aux := electric_aux; p_tank := tank; p_export_price := 40; p_setpoint := 100;
     p_order_above := above; p_order_below := below; p_max_heat := 30 |}.
Definition demo_hour (pv elec heat price : Q) (cop_ duty_ : Q) : hour_in :=
  {| i_wind := 0; i_PV := pv; i_elec_demand := elec; i_heat_demand := heat; i_source_temp := 60;
     i_flow_temp := 55; i_import_price := price; i_perf := {| cop := cop_; duty := duty_ |} |}.

Lemma demo_good b hp mo tank ab be pv el he pr c d soc :
  battery_ok b -> 0 <= mo -> (forall s n so fl t m, t_max tank s n so fl t = Ok m -> 0 <= m) ->
  0 <= pv -> 0 <= el -> 0 <= he <= 30 -> 0 < c -> 0 <= d -> (hp == 0 -> d == 0) -> level_ok b soc ->
  (match mapM above_key ab with Ok ps => order_okb ps | Err _ => false end) = true ->
  (match mapM below_key be with Ok ps => order_okb ps | Err _ => false end) = true ->
  good_hour (demo b hp mo tank ab be) (demo_hour pv el he pr c d) soc.
Proof.
  intros. split; [|split; [|split]].
  - unfold plant_ok. cbn [demo p_battery p_min_runtime p_min_output p_aux p_tank electric_aux a_efficiency a_cost a_energy_density].
    split; [assumption|]. split; [lra|]. split; [assumption|]. split; [lra|]. split; discriminate.
  - unfold hour_ok. cbn. repeat split; try lra; try assumption. intros; eauto.
  - assumption.
  - apply plant_orders_ok; assumption.
Qed.
Lemma simple_tank_ok cap ch di : 0 <= ch -> 0 <= di ->
  forall s n so fl t m, t_max (simple_tank cap ch di) s n so fl t = Ok m -> 0 <= m.
Proof. intros Hc Hd s n so fl t m H. cbn in H. injection H as <-. destruct s; lra. Qed.
Lemma demo_battery_ok cap eff : 0 <= cap -> 0 <= eff <= 1 -> battery_ok (demo_battery cap eff).
Proof. intros. unfold battery_ok, demo_battery. cbn. repeat split; lra. Qed.

Ltac demo_ok :=
  apply demo_good;
  [apply demo_battery_ok; lra|lra|apply simple_tank_ok; lra|lra|lra|lra|lra|lra|intro; lra
  |unfold level_ok; cbn; lra|vm_compute; reflexivity|vm_compute; reflexivity].

(** Any order given by strictly increasing numbers satisfies the order condition of
    the theorems; the full orders 1..13 and 1..15 in particular. *)
Theorem C18_increasing_orders_are_safe :
  forall (high : bool) (numbers : list Z) (ps : list process),
    StronglySorted Z.lt numbers ->
    mapM (if high then above_key else below_key) numbers = Ok ps -> order_ok ps.
Proof. exact sorted_order_ok. Qed.
Print Assumptions C18_increasing_orders_are_safe.
Example full_orders :
  (exists ps, mapM above_key all13 = Ok ps /\ order_ok ps) /\ (exists ps, mapM below_key all15 = Ok ps /\ order_ok ps).
Proof.
  split; eexists; (split; [reflexivity|]); apply order_okb_spec; reflexivity.
Qed.

(** An hour with every kind of flow: a surplus hour at high tariff. *)
Definition demo_plant := demo (demo_battery 10 (9#10)) 8 20 (simple_tank 1000 20 10) all13 all15.
Definition sunny := demo_hour 20 5 12 150 3 8.
Definition dull := demo_hour 2 9 25 80 3 8.
Example sunny_good : good_hour demo_plant sunny 5. Proof. demo_ok. Qed.
Example dull_good : good_hour demo_plant dull 5. Proof. demo_ok. Qed.
Example sunny_record :
  match hour_step demo_plant sunny 0 [60; 50; 40] 5 with
  | Ok rc => map (fun k => Qred (rf rc k))
      [ED_RES; HD_HP; HD_TS; HD_aux; RES_HP; RES_aux; RES_ES; RES_export; ES_final_soc]
  | Err _ => []
  end = [5; 8; 0; 4; 8#3; 37#3; 0; 0; 5].
Proof. vm_compute. reflexivity. Qed.
Example dull_record :
  match hour_step demo_plant dull 0 [60; 50; 40] 5 with
  | Ok rc => map (fun k => Qred (rf rc k))
      [ED_RES; ED_ES; ED_import; HD_HP; HD_TS; HD_aux; ES_final_soc; GRID_total_import; GRID_cashflow]
  | Err _ => []
  end = [2; 0; 7; 8; 10; 7; 10; 157#6; -157#75].
Proof. vm_compute. reflexivity. Qed.
Example sunny_dull_contain :
  contains demo_plant sunny Import_to_demand /\ contains demo_plant dull AUX_to_demand /\
  contains demo_plant sunny RES_to_export /\
  quiet demo_plant sunny 0 [60; 50; 40] 5 /\ quiet demo_plant dull 0 [60; 50; 40] 5.
Proof.
  split; [apply plant_contains; reflexivity|]. split; [apply plant_contains; reflexivity|].
  split; [apply plant_contains; reflexivity|]. split; apply quietb_true; vm_compute; reflexivity.
Qed.

(** ** C08 *)
Theorem C08_electrical_demand_met :
  forall P I t n soc rc,
    good_hour P I soc -> contains P I Import_to_demand -> hour_step P I t n soc = Ok rc ->
    rf rc ED_RES + rf rc ED_ES + rf rc ED_import == rf rc ED_elec_demand /\
    rf rc ED_elec_demand = i_elec_demand I.
Proof. exact elec_balance. Qed.
Print Assumptions C08_electrical_demand_met.

(** Any duplicate-free order, any data, provided the battery is not asked after the grid. *)
Theorem C08_electrical_demand_met_any_data :
  forall P I t n soc rc,
    duplicate_free P I -> contains P I Import_to_demand ->
    (forall ps, processes_of P I ps -> never_after ps ES_to_demand Import_to_demand) ->
    hour_step P I t n soc = Ok rc ->
    rf rc ED_RES + rf rc ED_ES + rf rc ED_import == rf rc ED_elec_demand /\
    rf rc ED_elec_demand = i_elec_demand I.
Proof. exact elec_balance_any. Qed.
Print Assumptions C08_electrical_demand_met_any_data.

(** For every duplicate-free order it is false: with 'HP import to TS' in front, its
    rounding to 0.01 overshoots the duty, later processes go negative and the battery
    is booked with a negative delivery after the grid. *)
Theorem C08_electrical_demand_met_any_order_refuted :
  exists P I t n soc rc,
    plant_ok P /\ hour_ok P I /\ level_ok (p_battery P) soc /\ duplicate_free P I /\
    contains P I Import_to_demand /\ hour_step P I t n soc = Ok rc /\
    ~ rf rc ED_RES + rf rc ED_ES + rf rc ED_import == rf rc ED_elec_demand.
Proof.
  set (P := demo (demo_battery 0 1) 1 0 (simple_tank 1000 20 10) [3]%Z [12; 8; 14; 2; 3]%Z).
  set (I := demo_hour 0 0 10 80 2 (6#1000)).
  exists P, I, 0%Z, [60; 50; 40], 0.
  destruct (observe_ok (hour_step P I 0 [60; 50; 40] 0)
    (fun r => negb (qeq (r ED_RES + r ED_ES + r ED_import) (r ED_elec_demand)))) as (rc & E1 & E2).
  { vm_compute. reflexivity. }
  exists rc.
  assert (G : good_hour (demo (demo_battery 0 1) 1 0 (simple_tank 1000 20 10) [3]%Z [2]%Z) I 0) by demo_ok.
  destruct G as (G1 & G2 & G3 & _).
  split; [exact G1|]. split; [exact G2|]. split; [exact G3|]. split; [|split; [|split; [exact E1|]]].
  - intros ps [[_ E]|[_ E]]; injection E as <-; apply nodupb_spec; reflexivity.
  - apply plant_contains; reflexivity.
  - apply qneq_true. exact E2.
Qed.
Print Assumptions C08_electrical_demand_met_any_order_refuted.

(** ** C09 *)
Theorem C09_heat_demand_met_partial :
  forall P I t n soc rc,
    good_hour P I soc -> contains P I AUX_to_demand -> quiet P I t n soc -> hour_step P I t n soc = Ok rc ->
    rf rc HD_heat_demand = i_heat_demand I /\
    (high_tariff P I -> rf rc HD_HP + rf rc HD_TS + rf rc HD_aux == rf rc HD_heat_demand) /\
    (~ high_tariff P I ->
       rf rc HD_HP + rf rc HD_TS + rf rc HD_aux + rf rc AUX_RES_to_demand == rf rc HD_heat_demand).
Proof. exact heat_balance. Qed.
Print Assumptions C09_heat_demand_met_partial.

(** At low tariff the renewable share of an electric back-up is missing from the heat
    demand section of the record (lines 243-245 exist only in the high-tariff branch). *)
Theorem C09_heat_demand_met_low_tariff_refuted :
  exists P I t n soc rc,
    good_hour P I soc /\ contains P I AUX_to_demand /\ quiet P I t n soc /\ hour_step P I t n soc = Ok rc /\
    rf rc HD_HP + rf rc HD_TS + rf rc HD_aux < rf rc HD_heat_demand.
Proof.
  set (P := demo (demo_battery 10 1) 0 0 (simple_tank 0 0 0) all13 all15).
  set (I := demo_hour 10 0 5 80 2 0).
  exists P, I, 0%Z, [], 5.
  destruct (observe_ok (hour_step P I 0 [] 5)
    (fun r => qlt (r HD_HP + r HD_TS + r HD_aux) (r HD_heat_demand))) as (rc & E1 & E2).
  { vm_compute. reflexivity. }
  exists rc. split; [demo_ok|]. split; [apply plant_contains; reflexivity|].
  split; [apply quietb_true; vm_compute; reflexivity|]. split; [exact E1|]. apply qlt_true. exact E2.
Qed.
Print Assumptions C09_heat_demand_met_low_tariff_refuted.

(** ** C10 *)
Theorem C10_renewable_balance_partial :
  forall P I t n soc rc,
    good_hour P I soc -> contains P I RES_to_export -> hour_step P I t n soc = Ok rc ->
    not_switched_off P I t n soc rc ->
    rf rc RES_generation_total ==
      rf rc RES_elec_demand + rf rc RES_HP + rf rc RES_aux + rf rc RES_ES + rf rc RES_export.
Proof. exact res_balance. Qed.
Print Assumptions C10_renewable_balance_partial.

Theorem C10_renewables_not_used_twice :
  forall P I t n soc rc,
    good_hour P I soc -> hour_step P I t n soc = Ok rc ->
    rf rc RES_elec_demand + rf rc RES_HP + rf rc RES_aux + rf rc RES_ES + rf rc RES_export
      <= rf rc RES_generation_total.
Proof. exact res_no_double_use. Qed.
Print Assumptions C10_renewables_not_used_twice.

(** When the minimum-output rule switches the heat pump off, the renewable electricity
    it had been given is lost. *)
Theorem C10_renewable_balance_refuted :
  exists P I t n soc rc,
    good_hour P I soc /\ contains P I RES_to_export /\ hour_step P I t n soc = Ok rc /\
    rf rc RES_elec_demand + rf rc RES_HP + rf rc RES_aux + rf rc RES_ES + rf rc RES_export
      < rf rc RES_generation_total.
Proof.
  set (P := demo (demo_battery 10 1) 10 50 (simple_tank 0 0 0) all13 all15).
  set (I := demo_hour (1#2) 0 1 150 2 10).
  exists P, I, 0%Z, [], 5.
  destruct (observe_ok (hour_step P I 0 [] 5)
    (fun r => qlt (r RES_elec_demand + r RES_HP + r RES_aux + r RES_ES + r RES_export) (r RES_generation_total))) as (rc & E1 & E2).
  { vm_compute. reflexivity. }
  exists rc. split; [demo_ok|]. split; [apply plant_contains; reflexivity|].
  split; [exact E1|]. apply qlt_true. exact E2.
Qed.
Print Assumptions C10_renewable_balance_refuted.

(** ** C11: no assumption on data, order or tank. *)
Theorem C11_costs_and_cash_flow :
  forall P I t n soc rc,
    hour_step P I t n soc = Ok rc ->
    rf rc GRID_import_price = i_import_price I /\
    rf rc GRID_import_costs == rf rc GRID_total_import * i_import_price I / 1000 /\
    rf rc GRID_export_income == rf rc GRID_total_export * p_export_price P / 1000 /\
    rf rc GRID_cashflow == rf rc GRID_export_income - rf rc GRID_import_costs.
Proof. exact grid_costs. Qed.
Print Assumptions C11_costs_and_cash_flow.

Theorem C11_total_import :
  forall P I t n soc rc,
    hour_step P I t n soc = Ok rc -> quiet P I t n soc ->
    rf rc GRID_total_import ==
      rf rc GRID_import_for_elec_demand + rf rc GRID_import_for_heat_pump_total + rf rc GRID_import_for_ES +
      (if fuel_eqb (a_fuel (p_aux P)) ELECTRIC then rf rc AUX_demand - rf rc RES_aux else 0).
Proof. exact grid_total. Qed.
Print Assumptions C11_total_import.

Theorem C11_grid_agrees_with_consumers :
  forall P I t n soc rc,
    duplicate_free P I -> hour_step P I t n soc = Ok rc -> quiet P I t n soc ->
    rf rc GRID_import_for_elec_demand = rf rc ED_import /\
    rf rc GRID_import_for_heat_pump_total == rf rc HP_elec_import_usage /\
    rf rc GRID_import_for_ES = rf rc ES_charging_from_import /\
    rf rc GRID_total_export = rf rc RES_export.
Proof. exact grid_consumers. Qed.
Print Assumptions C11_grid_agrees_with_consumers.

(** ** C12 *)
Theorem C12_flows_nonnegative_partial :
  forall P I t n soc rc,
    good_hour P I soc -> hour_step P I t n soc = Ok rc ->
    Forall (fun k => 0 <= rf rc k) flow_fields.
Proof. exact flows_nonneg. Qed.
Print Assumptions C12_flows_nonnegative_partial.

(** 'Import to ES' before 'RES to ES': the first books more than the free room. *)
Theorem C12_flows_nonnegative_import_first_refuted :
  exists P I t n soc rc,
    plant_ok P /\ hour_ok P I /\ level_ok (p_battery P) soc /\ duplicate_free P I /\
    hour_step P I t n soc = Ok rc /\ rf rc RES_ES < 0.
Proof.
  set (P := demo (demo_battery 10 1) 0 0 (simple_tank 0 0 0) [1]%Z [14; 13]%Z).
  set (I := demo_hour 10 0 5 80 2 0).
  exists P, I, 0%Z, [], 5.
  destruct (observe_ok (hour_step P I 0 [] 5) (fun r => qlt (r RES_ES) 0)) as (rc & E1 & E2).
  { vm_compute. reflexivity. }
  exists rc.
  assert (G : good_hour (demo (demo_battery 10 1) 0 0 (simple_tank 0 0 0) [1]%Z [1]%Z) I 5) by demo_ok.
  destruct G as (G1 & G2 & G3 & _).
  split; [exact G1|]. split; [exact G2|]. split; [exact G3|]. split; [|split; [exact E1|apply qlt_true; exact E2]].
  intros ps [[_ E]|[_ E]]; injection E as <-; apply nodupb_spec; reflexivity.
Qed.
Print Assumptions C12_flows_nonnegative_import_first_refuted.

(** 'AUX to demand' before the renewable-fed back-up. *)
Theorem C12_flows_nonnegative_backup_first_refuted :
  exists P I t n soc rc,
    plant_ok P /\ hour_ok P I /\ level_ok (p_battery P) soc /\ duplicate_free P I /\
    hour_step P I t n soc = Ok rc /\ rf rc AUX_RES_to_demand < 0.
Proof.
  set (P := demo (demo_battery 10 1) 0 0 (simple_tank 1000 20 10) [11; 9; 5]%Z [1]%Z).
  set (I := demo_hour 100 0 25 150 2 0).
  exists P, I, 0%Z, [], 5.
  destruct (observe_ok (hour_step P I 0 [] 5) (fun r => qlt (r AUX_RES_to_demand) 0)) as (rc & E1 & E2).
  { vm_compute. reflexivity. }
  exists rc.
  assert (G : good_hour (demo (demo_battery 10 1) 0 0 (simple_tank 1000 20 10) [1]%Z [1]%Z) I 5) by demo_ok.
  destruct G as (G1 & G2 & G3 & _).
  split; [exact G1|]. split; [exact G2|]. split; [exact G3|]. split; [|split; [exact E1|apply qlt_true; exact E2]].
  intros ps [[_ E]|[_ E]]; injection E as <-; apply nodupb_spec; reflexivity.
Qed.
Print Assumptions C12_flows_nonnegative_backup_first_refuted.

(** ** C13 *)
(** With the full order 1..13: battery-driven output is not counted against the duty. *)
Theorem C13_output_within_duty_refuted :
  exists P I t n soc rc,
    good_hour P I soc /\ minimum_heat P I == 0 /\ p_order_above P = all13 /\
    hour_step P I t n soc = Ok rc /\ rf rc HP_heat_total_output == 2 * duty (i_perf I) /\ 0 < duty (i_perf I).
Proof.
  set (P := demo (demo_battery 10 1) 5 0 (simple_tank 0 0 0) all13 all15).
  set (I := demo_hour 0 0 10 150 2 5).
  exists P, I, 0%Z, [], 10.
  destruct (observe_ok (hour_step P I 0 [] 10)
    (fun r => qeq (r HP_heat_total_output) (2 * duty (i_perf I)))) as (rc & E1 & E2).
  { vm_compute. reflexivity. }
  exists rc. split; [demo_ok|]. split; [reflexivity|]. split; [reflexivity|]. split; [exact E1|].
  split; [apply qeq_true_inv; exact E2|reflexivity].
Qed.
Print Assumptions C13_output_within_duty_refuted.

Theorem C13_output_bound_partial :
  forall P I t n soc rc,
    good_hour P I soc -> hour_step P I t n soc = Ok rc -> minimum_heat P I <= duty (i_perf I) ->
    rf rc HP_heat_total_output <= 2 * duty (i_perf I) + (1#200).
Proof. exact hp_output_bound. Qed.
Print Assumptions C13_output_bound_partial.

Theorem C13_output_within_duty_without_battery_partial :
  forall P I t n soc rc,
    good_hour P I soc -> hour_step P I t n soc = Ok rc -> minimum_heat P I <= duty (i_perf I) ->
    lacks P I ES_to_HP_to_demand ->
    rf rc HP_heat_total_output <= duty (i_perf I) + (1#200) /\
    (lacks P I HP_import_to_TS -> rf rc HP_heat_total_output <= duty (i_perf I)).
Proof. exact hp_output_bound_no_ES. Qed.
Print Assumptions C13_output_within_duty_without_battery_partial.

Theorem C13_output_within_duty_battery_last_partial :
  forall P I t n soc rc,
    good_hour P I soc -> hour_step P I t n soc = Ok rc -> minimum_heat P I <= duty (i_perf I) ->
    (forall ps, processes_of P I ps -> hp_last ps) -> lacks P I HP_import_to_TS ->
    rf rc HP_heat_total_output <= duty (i_perf I).
Proof. exact hp_output_bound_last. Qed.
Print Assumptions C13_output_within_duty_battery_last_partial.

(** ** C14 *)
Theorem C14_minimum_output_partial :
  forall P I t n soc rc,
    hour_step P I t n soc = Ok rc ->
    minimum_heat P I <= rf rc HP_heat_total_output \/ rf rc HP_heat_total_output == 0 \/
    rf rc HP_heat_total_output <= threshold P I.
Proof. exact minimum_output_rule. Qed.
Print Assumptions C14_minimum_output_partial.

(** At high tariff an output of at most 0.1 kWh escapes the rule. *)
Theorem C14_minimum_output_refuted :
  exists P I t n soc rc,
    good_hour P I soc /\ hour_step P I t n soc = Ok rc /\
    0 < rf rc HP_heat_total_output /\ rf rc HP_heat_total_output < minimum_heat P I.
Proof.
  set (P := demo (demo_battery 10 1) 5 50 (simple_tank 0 0 0) all13 all15).
  set (I := demo_hour 0 0 (1#20) 150 2 5).
  exists P, I, 0%Z, [], 0.
  destruct (observe_ok (hour_step P I 0 [] 0)
    (fun r => qlt 0 (r HP_heat_total_output) && qlt (r HP_heat_total_output) (minimum_heat P I))) as (rc & E1 & E2).
  { vm_compute. reflexivity. }
  apply andb_prop in E2. destruct E2 as [E2 E3].
  exists rc. split; [demo_ok|]. split; [exact E1|]. split; apply qlt_true; assumption.
Qed.
Print Assumptions C14_minimum_output_refuted.

Theorem C14_switched_off_partial :
  forall P I t n soc rc,
    hour_step P I t n soc = Ok rc -> ~ quiet P I t n soc -> rf rc HP_heat_total_output == 0 ->
    0 < minimum_heat P I ->
    rf rc HD_heat_demand = i_heat_demand I /\ rf rc HP_elec_total_usage == 0 /\
    (high_tariff P I \/ t_capacity (p_tank P) == 0 ->
       rf rc TS_discharging_total + rf rc AUX_demand == rf rc HD_heat_demand) /\
    (~ high_tariff P I -> ~ t_capacity (p_tank P) == 0 -> rf rc AUX_demand == 0).
Proof. exact switched_off_hour. Qed.
Print Assumptions C14_switched_off_partial.

(** At low tariff with a tank, line 677 overwrites the demand: the back-up gets nothing. *)
Theorem C14_switched_off_covers_demand_refuted :
  exists P I t n soc rc,
    good_hour P I soc /\ contains P I AUX_to_demand /\ ~ quiet P I t n soc /\
    hour_step P I t n soc = Ok rc /\ rf rc HP_heat_total_output == 0 /\
    rf rc TS_discharging_total + rf rc AUX_demand < rf rc HD_heat_demand.
Proof.
  set (P := demo (demo_battery 0 1) 50 90 (simple_tank 1000 1 1) all13 [3; 4; 9]%Z).
  set (I := demo_hour 10 0 20 80 1 50).
  exists P, I, 0%Z, [60; 50; 40], 0.
  destruct (observe_ok (hour_step P I 0 [60; 50; 40] 0)
    (fun r => qeq (r HP_heat_total_output) 0 && qlt (r TS_discharging_total + r AUX_demand) (r HD_heat_demand))) as (rc & E1 & E2).
  { vm_compute. reflexivity. }
  apply andb_prop in E2. destruct E2 as [E2 E3].
  exists rc. split; [demo_ok|]. split; [apply plant_contains; reflexivity|].
  split; [apply quietb_false; vm_compute; reflexivity|]. split; [exact E1|].
  split; [apply qeq_true_inv; exact E2|apply qlt_true; exact E3].
Qed.
Print Assumptions C14_switched_off_covers_demand_refuted.

(** The extra electricity of a topped-up hour never reaches the grid account. *)
Theorem C14_top_up_missing_from_grid_account :
  forall P I t n soc rc,
    duplicate_free P I -> hour_step P I t n soc = Ok rc -> ~ quiet P I t n soc ->
    0 < rf rc HP_heat_total_output ->
    exists extra, 0 < extra /\
      rf rc HP_heat_total_output == minimum_heat P I /\
      rf rc HP_elec_import_usage == rf rc GRID_import_for_heat_pump_total + extra / cop (i_perf I).
Proof. exact topped_up_hour. Qed.
Print Assumptions C14_top_up_missing_from_grid_account.
Theorem C14_top_up_booked_refuted :
  exists P I t n soc rc,
    good_hour P I soc /\ hour_step P I t n soc = Ok rc /\ 0 < rf rc HP_heat_total_output /\
    ~ quiet P I t n soc /\
    rf rc HP_elec_import_usage > 0 /\ rf rc GRID_total_import == 0.
Proof.
  set (P := demo (demo_battery 0 1) 10 50 (simple_tank 1000 20 0) all13 all15).
  set (I := demo_hour (1#2) 0 1 150 2 10).
  exists P, I, 0%Z, [60; 50; 40], 0.
  destruct (observe_ok (hour_step P I 0 [60; 50; 40] 0)
    (fun r => qlt 0 (r HP_heat_total_output) && (qlt 0 (r HP_elec_import_usage) && qeq (r GRID_total_import) 0))) as (rc & E1 & E2).
  { vm_compute. reflexivity. }
  apply andb_prop in E2. destruct E2 as [E2 E3]. apply andb_prop in E3. destruct E3 as [E3 E4].
  exists rc. split; [demo_ok|]. split; [exact E1|]. split; [apply qlt_true; exact E2|].
  split; [apply quietb_false; vm_compute; reflexivity|].
  split; [apply qlt_true; exact E3|apply qeq_true_inv; exact E4].
Qed.
Print Assumptions C14_top_up_booked_refuted.

(** ** C15 *)
Theorem C15_charge_in_range_after_every_hour :
  forall P year s n rs,
    0 <= b_capacity (p_battery P) -> run_timesteps P year s n = Ok rs ->
    Forall (fun rc => 0 <= rf rc ES_final_soc <= b_capacity (p_battery P)) rs.
Proof. exact run_soc_range. Qed.
Print Assumptions C15_charge_in_range_after_every_hour.

(** Every record is the result of the hour's inputs and the state recorded one hour before. *)
Theorem C15_hours_are_chained :
  forall P year s n rs i rc,
    run_timesteps P year s n = Ok rs -> nth_error rs i = Some rc ->
    exists I, (0 <= s + Z.of_nat i)%Z /\ nth_error year (Z.to_nat (s + Z.of_nat i)) = Some I /\
      hour_step P I (s + Z.of_nat i) (fst (state_before P rs i)) (snd (state_before P rs i)) = Ok rc.
Proof. exact run_steps. Qed.
Print Assumptions C15_hours_are_chained.

(** ** C16 *)
Theorem C16_one_record_per_hour :
  forall P year s n rs,
    run_timesteps P year s n = Ok rs ->
    (s + n <= 8760)%Z /\ length rs = Z.to_nat n /\
    forall i rc, nth_error rs i = Some rc ->
      exists I, nth_error year (Z.to_nat (s + Z.of_nat i)) = Some I /\
        rf rc ED_elec_demand = i_elec_demand I /\ rf rc HD_heat_demand = i_heat_demand I /\
        rf rc RES_wind = i_wind I /\ rf rc RES_PV = i_PV I /\ rf rc GRID_import_price = i_import_price I.
Proof. exact run_records. Qed.
Print Assumptions C16_one_record_per_hour.

Theorem C16_beyond_the_year_fails :
  forall P year s n, full_year year -> (8760 < s + n)%Z -> run_timesteps P year s n = Err ValueError.
Proof. exact run_too_long. Qed.
Print Assumptions C16_beyond_the_year_fails.

Theorem C16_negative_start_fails :
  forall P year s n, full_year year -> (s < 0)%Z -> (0 < n)%Z -> (s + n <= 8760)%Z ->
    run_timesteps P year s n = Err KeyError.
Proof. exact run_negative_start. Qed.
Print Assumptions C16_negative_start_fails.

Theorem C16_run_succeeds :
  forall P year s n,
    plant_total P -> full_year year -> (0 <= s)%Z -> (s + n <= 8760)%Z ->
    exists rs, run_timesteps P year s n = Ok rs.
Proof. exact run_total. Qed.
Print Assumptions C16_run_succeeds.

Example demo_plant_total : plant_total demo_plant.
Proof.
  split; [split; intros; eexists; reflexivity|]. split; [cbn; lra|]. split; [intro H; exfalso; apply H; reflexivity|].
  split; eexists; reflexivity.
Qed.
Example demo_year_full : full_year (repeat dull ANNUAL_HOURS).
Proof. unfold full_year. rewrite repeat_length. exact ANNUAL_HOURS_Z. Qed.
Example demo_run : exists rs, run_timesteps demo_plant (repeat dull ANNUAL_HOURS) 8755 5 = Ok rs /\ length rs = 5%nat.
Proof.
  destruct (C16_run_succeeds demo_plant (repeat dull ANNUAL_HOURS) 8755 5 demo_plant_total demo_year_full) as [rs H]; [lia|lia|].
  exists rs. split; [exact H|]. apply C16_one_record_per_hour in H. apply H.
Qed.

(** ** C17 *)
Theorem C17_no_dependence_on_the_future :
  forall P year1 year2 s n1 n2 k rs1 rs2,
    run_timesteps P year1 s n1 = Ok rs1 -> run_timesteps P year2 s n2 = Ok rs2 ->
    (0 <= k)%Z -> (k <= n1)%Z -> (k <= n2)%Z ->
    (forall t, (0 <= t < s + k)%Z -> nth_error year1 (Z.to_nat t) = nth_error year2 (Z.to_nat t)) ->
    firstn (Z.to_nat k) rs1 = firstn (Z.to_nat k) rs2.
Proof. exact run_causal. Qed.
Print Assumptions C17_no_dependence_on_the_future.

(** ** C18 *)
Theorem C18_unknown_number_high_tariff :
  forall P I t n soc k,
    tank_total (p_tank P) -> high_tariff P I -> In k (p_order_above P) -> ~ (1 <= k <= 13)%Z ->
    hour_step P I t n soc = Err KeyError.
Proof. exact bad_number_above. Qed.
Print Assumptions C18_unknown_number_high_tariff.
Theorem C18_unknown_number_low_tariff :
  forall P I t n soc k,
    tank_total (p_tank P) -> ~ high_tariff P I -> In k (p_order_below P) -> ~ (1 <= k <= 15)%Z ->
    hour_step P I t n soc = Err KeyError.
Proof. exact bad_number_below. Qed.
Print Assumptions C18_unknown_number_low_tariff.
Theorem C18_one_is_neutral_high_tariff :
  forall P a1 a2 b I t n soc,
    hour_step (with_orders P (a1 ++ 1%Z :: a2) b) I t n soc = hour_step (with_orders P (a1 ++ a2) b) I t n soc.
Proof. exact skip_one_above. Qed.
Print Assumptions C18_one_is_neutral_high_tariff.
Theorem C18_one_is_neutral_low_tariff :
  forall P a b1 b2 I t n soc,
    hour_step (with_orders P a (b1 ++ 1%Z :: b2)) I t n soc = hour_step (with_orders P a (b1 ++ b2)) I t n soc.
Proof. exact skip_one_below. Qed.
Print Assumptions C18_one_is_neutral_low_tariff.
Theorem C18_high_tariff_ignores_low_order :
  forall P a b b' I t n soc,
    p_setpoint P < i_import_price I ->
    hour_step (with_orders P a b) I t n soc = hour_step (with_orders P a b') I t n soc.
Proof. exact select_above. Qed.
Print Assumptions C18_high_tariff_ignores_low_order.
Theorem C18_low_tariff_ignores_high_order :
  forall P a a' b I t n soc,
    i_import_price I <= p_setpoint P ->
    hour_step (with_orders P a b) I t n soc = hour_step (with_orders P a' b) I t n soc.
Proof. exact select_below. Qed.
Print Assumptions C18_low_tariff_ignores_high_order.
(** The two orders really differ at the setpoint: same plant, same hour. *)
Example orders_matter :
  let P a b := demo (demo_battery 10 1) 0 0 (simple_tank 0 0 0) a b in
  let I := demo_hour 0 5 0 100 2 0 in
  observe (hour_step (P [2]%Z [2]%Z) I 0 [] 5) (fun r => qeq (r ED_import) 5) = true /\
  observe (hour_step (P [2]%Z [3]%Z) I 0 [] 5) (fun r => qeq (r ED_ES) 5) = true.
Proof. vm_compute. auto. Qed.

(** ** C19 *)
Theorem C19_no_diversion_while_importing :
  forall P I t n soc rc,
    good_hour P I soc -> hour_step P I t n soc = Ok rc ->
    0 < rf rc ED_ES + rf rc ED_import ->
    rf rc RES_export == 0 /\ rf rc RES_ES == 0 /\ rf rc RES_HP == 0 /\ rf rc RES_aux == 0.
Proof. exact no_diversion. Qed.
Print Assumptions C19_no_diversion_while_importing.
Example dull_imports : observe (hour_step demo_plant dull 0 [60; 50; 40] 5) (fun r => qlt 0 (r ED_ES + r ED_import)) = true.
Proof. vm_compute. reflexivity. Qed.

(** ** C20 *)
Theorem C20_tank_limits_partial :
  forall P I t n soc rc m m',
    good_hour P I soc -> hour_step P I t n soc = Ok rc -> not_switched_off P I t n soc rc ->
    t_max (p_tank P) Charging n (i_source_temp I) (i_flow_temp I) t = Ok m ->
    t_max (p_tank P) Discharging n (i_source_temp I) (i_flow_temp I) t = Ok m' ->
    rf rc TS_HP_to_TS + rf rc TS_aux_to_TS <= m + rf rc TS_discharging_total + (1#200) /\
    (lacks P I HP_import_to_TS -> rf rc TS_HP_to_TS + rf rc TS_aux_to_TS <= m + rf rc TS_discharging_total) /\
    rf rc TS_discharging_total <= m' + rf rc TS_HP_to_TS + rf rc TS_aux_to_TS.
Proof. exact tank_limits. Qed.
Print Assumptions C20_tank_limits_partial.

(** Switching the heat pump off removes the charging but keeps the discharge that had
    been allowed because of it. *)
Theorem C20_tank_limits_switched_off_refuted :
  exists P I t n soc rc m',
    good_hour P I soc /\ hour_step P I t n soc = Ok rc /\
    t_max (p_tank P) Discharging n (i_source_temp I) (i_flow_temp I) t = Ok m' /\
    m' + rf rc TS_HP_to_TS + rf rc TS_aux_to_TS < rf rc TS_discharging_total.
Proof.
  set (P := demo (demo_battery 0 1) 10 50 (simple_tank 1000 1 0) [10; 6]%Z all15).
  set (I := demo_hour 5 0 4 150 2 10).
  exists P, I, 0%Z, [60; 50; 40], 0.
  destruct (observe_ok (hour_step P I 0 [60; 50; 40] 0)
    (fun r => qlt (0 + r TS_HP_to_TS + r TS_aux_to_TS) (r TS_discharging_total))) as (rc & E1 & E2).
  { vm_compute. reflexivity. }
  exists rc, 0. split; [demo_ok|]. split; [exact E1|]. split; [reflexivity|]. apply qlt_true. exact E2.
Qed.
Print Assumptions C20_tank_limits_switched_off_refuted.

(** ** C21 *)
Theorem C21_battery_delivery_partial :
  forall P I t n soc rc,
    good_hour P I soc -> hour_step P I t n soc = Ok rc ->
    b_discharge_eff (p_battery P) == 1 ->
    rf rc ES_discharging_total - rf rc ES_charging_total <= b_discharge_max (p_battery P) ->
    rf rc ES_discharging_total <= (soc - rf rc ES_final_soc) + rf rc ES_charging_total.
Proof. exact battery_delivery. Qed.
Print Assumptions C21_battery_delivery_partial.

(** With a discharge efficiency below one the store falls by less than it delivers. *)
Theorem C21_battery_delivery_efficiency_refuted :
  exists P I t n soc rc,
    good_hour P I soc /\ hour_step P I t n soc = Ok rc /\
    rf rc ES_discharging_total <= b_discharge_max (p_battery P) /\
    (soc - rf rc ES_final_soc) + rf rc ES_charging_total < rf rc ES_discharging_total.
Proof.
  set (P := demo (demo_battery 10 (1#2)) 0 0 (simple_tank 0 0 0) all13 all15).
  set (I := demo_hour 0 8 0 150 2 0).
  exists P, I, 0%Z, [], 8.
  destruct (observe_ok (hour_step P I 0 [] 8)
    (fun r => qle (r ES_discharging_total) 100 && qlt ((8 - r ES_final_soc) + r ES_charging_total) (r ES_discharging_total))) as (rc & E1 & E2).
  { vm_compute. reflexivity. }
  apply andb_prop in E2. destruct E2 as [E2 E3].
  exists rc. split; [demo_ok|]. split; [exact E1|]. split; [apply qle_true; exact E2|apply qlt_true; exact E3].
Qed.
Print Assumptions C21_battery_delivery_efficiency_refuted.

(** And the discharge power limit is not applied to what is recorded as delivered. *)
Theorem C21_battery_delivery_power_refuted :
  exists P I t n soc rc,
    good_hour P I soc /\ b_discharge_eff (p_battery P) == 1 /\ hour_step P I t n soc = Ok rc /\
    b_discharge_max (p_battery P) < rf rc ES_discharging_total /\
    (soc - rf rc ES_final_soc) + rf rc ES_charging_total < rf rc ES_discharging_total.
Proof.
  set (b := {| b_capacity := 10; b_initial_state := 1#2; b_charge_max := 2; b_discharge_max := 2;
     b_charge_eff := 1; b_discharge_eff := 1; b_self_discharge := 0 |}).
  set (P := demo b 0 0 (simple_tank 0 0 0) all13 all15).
  set (I := demo_hour 0 8 0 150 2 0).
  exists P, I, 0%Z, [], 8.
  destruct (observe_ok (hour_step P I 0 [] 8)
    (fun r => qlt 2 (r ES_discharging_total) && qlt ((8 - r ES_final_soc) + r ES_charging_total) (r ES_discharging_total))) as (rc & E1 & E2).
  { vm_compute. reflexivity. }
  apply andb_prop in E2. destruct E2 as [E2 E3].
  exists rc. split.
  { apply demo_good; [unfold battery_ok, b; cbn; repeat split; lra|lra|apply simple_tank_ok; lra|lra|lra|lra|lra|lra|intro; lra
     |unfold level_ok; cbn; lra|vm_compute; reflexivity|vm_compute; reflexivity]. }
  split; [reflexivity|]. split; [exact E1|]. split; [apply qlt_true; exact E2|apply qlt_true; exact E3].
Qed.
Print Assumptions C21_battery_delivery_power_refuted.
