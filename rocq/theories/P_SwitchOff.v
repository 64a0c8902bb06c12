(** C101: switching the heat pump off in an hour in which it would run below its minimum output. *)
From Coq Require Import String.
From Verif Require Import Base BaseL M_Battery S_Battery M_HeatPump S_HeatPump M_Tools S_Tools M_FixedOrder S_FixedOrder M_Tank S_Tank
  L_Tank L_TankHour L_FixedOrderRun P_Tank.
Open Scope string_scope.

(** The rule of the minimum output asks to switch the heat pump off: the heat output booked is above the threshold and below
    the minimum, and the store cannot take the difference. *)
Definition must_stop (P : plant) (I : hour_in) (t : Z) (T : nodes) (threshold : Q) (hour : res (checks * record)) : Prop :=
  exists c rc m, hour = Ok (c, rc) /\ threshold < rf rc HP_heat_total_output < min_out P I /\
    t_max (p_tank P) Charging T (i_source_temp I) (i_flow_temp I) t = Ok m /\
    m + ts_discharge c - ts_charge c < min_out P I - rf rc HP_heat_total_output.
(** In either order of processes *)
Definition stops (P : plant) (I : hour_in) (t : Z) (T : nodes) (soc : Q) : Prop :=
  if qlt (p_setpoint P) (i_import_price I) then must_stop P I t T (1#10) (above_uncorrected P I t T soc)
  else must_stop P I t T 0 (below_uncorrected P I t T soc).

Lemma cold_discharge K ret delta T source flow o d t : ~ k_capacity K == 0 -> top T == ret ->
  exists e, t_new (tank_instance K ret delta) Discharging T source flow o d t = Err e.
Proof.
  intros C H. cbn [tank_instance t_new]. unfold new_nodes_temp.
  destruct (qeq_spec (k_capacity K) 0) as [E|_]; [contradiction|]. rewrite andb_false_r.
  destruct (check_nodes K T) as [[]|e]; cbn [bind]; [|eexists; reflexivity].
  unfold inner_count. cbn [mass_flow_calc]. destruct (DH_flow_post_mix K d flow ret) as [b|e]; cbn [bind]; [|eexists; reflexivity].
  destruct (source_out_pre_mix K o source delta) as [a|e]; cbn [bind]; [|eexists; reflexivity].
  unfold fdiv at 1. destruct (qeq_spec (top T - ret) 0) as [E|E]; [cbn [bind]; eexists; reflexivity|]. exfalso. apply E. lra.
Qed.
Lemma zero_check K ret delta : ~ k_capacity K == 0 -> qeq (t_capacity (tank_instance K ret delta)) 0 = false.
Proof. intro C. cbn [tank_instance t_capacity]. destruct (qeq_spec (k_capacity K) 0); [contradiction|reflexivity]. Qed.

(** With the store at return temperature - as in the first hour of every run - the hour stops the program. *)
Theorem C101_cold_store : forall K ret delta P I t T soc, p_tank P = tank_instance K ret delta -> ~ k_capacity K == 0 -> top T == ret ->
  stops P I t T soc -> exists e, hour_step P I t T soc = Err e.
Proof.
  intros K ret delta P I t T soc HP C HT S. unfold stops in S. unfold hour_step.
  assert (ND : forall o d, exists e, t_new (p_tank P) Discharging T (i_source_temp I) (i_flow_temp I) o d t = Err e) by (intros o d; rewrite HP; apply cold_discharge; assumption).
  assert (Z : qeq (t_capacity (p_tank P)) 0 = false) by (rewrite HP; apply zero_check, C).
  destruct (qlt (p_setpoint P) (i_import_price I)).
  - destruct S as (c & rc & m & E & (U1 & U2) & M & L). unfold above_setpoint. rewrite E. cbn [bind]. unfold correct. cbv zeta.
    destruct (qlt_spec (rf rc HP_heat_total_output) (min_out P I)); [|exfalso; lra]. destruct (qlt_spec (1#10) (rf rc HP_heat_total_output)); [|exfalso; lra]. cbn [andb].
    rewrite M. cbn [bind]. destruct (qlt_spec (m + ts_discharge c - ts_charge c) (min_out P I - rf rc HP_heat_total_output)); [|exfalso; lra].
    unfold switch_off_above. cbv zeta. rewrite Z. destruct (ND 0 (i_heat_demand I)) as (e & ->). cbn [bind]. eexists; reflexivity.
  - destruct S as (c & rc & m & E & (U1 & U2) & M & L). unfold below_setpoint. rewrite E. cbn [bind]. unfold correct. cbv zeta.
    destruct (qlt_spec (rf rc HP_heat_total_output) (min_out P I)); [|exfalso; lra]. destruct (qlt_spec 0 (rf rc HP_heat_total_output)); [|exfalso; lra]. cbn [andb].
    rewrite M. cbn [bind]. destruct (qlt_spec (m + ts_discharge c - ts_charge c) (min_out P I - rf rc HP_heat_total_output)); [|exfalso; lra].
    unfold switch_off_below. cbv zeta. destruct (t_max (p_tank P) Discharging T _ _ t) as [m'|e]; cbn [bind]; [|eexists; reflexivity]. rewrite Z.
    destruct (ND 0 (upd (upd (zero_fields hp_zeroed (rf rc)) TS_charging_total 0) TS_discharging_total (pmin m' (i_heat_demand I)) TS_discharging_total)) as (e & ->). cbn [bind]. eexists; reflexivity.
Qed.
Print Assumptions C101_cold_store.
(** Without a store the heat pump is switched off and the hour completes. *)
Theorem C101_no_store_partial : forall K ret delta P I t T soc, p_tank P = tank_instance K ret delta -> k_capacity K == 0 ->
  stops P I t T soc -> exists rc, hour_step P I t T soc = Ok rc /\ rf rc HP_heat_total_output == 0 /\ r_nodes rc = T.
Proof.
  intros K ret delta P I t T soc HP C S. unfold stops in S. unfold hour_step.
  assert (Z : qeq (t_capacity (p_tank P)) 0 = true) by (rewrite HP; cbn [tank_instance t_capacity]; destruct (qeq_spec (k_capacity K) 0); [reflexivity|contradiction]).
  assert (MD : exists m', t_max (p_tank P) Discharging T (i_source_temp I) (i_flow_temp I) t = Ok m').
  { rewrite HP. cbn [tank_instance t_max]. unfold max_energy_in_out. cbv zeta. rewrite andb_false_r. destruct (_ && true); [eexists; reflexivity|].
    destruct (qeq_spec (k_capacity K) 0); [eexists; reflexivity|contradiction]. }
  assert (TS : forall x r, tank_step P I t T x r = Ok T) by (intros; unfold tank_step; rewrite Z; reflexivity).
  destruct (qlt (p_setpoint P) (i_import_price I)).
  - destruct S as (c & rc & m & E & (U1 & U2) & M & L). unfold above_setpoint. rewrite E. cbn [bind]. unfold correct. cbv zeta.
    destruct (qlt_spec (rf rc HP_heat_total_output) (min_out P I)); [|exfalso; lra]. destruct (qlt_spec (1#10) (rf rc HP_heat_total_output)); [|exfalso; lra]. cbn [andb].
    rewrite M. cbn [bind]. destruct (qlt_spec (m + ts_discharge c - ts_charge c) (min_out P I - rf rc HP_heat_total_output)); [|exfalso; lra].
    unfold switch_off_above. cbv zeta. rewrite Z. cbn [bind]. eexists. split; [reflexivity|]. split; [reflexivity|]. cbn [complete r_nodes].
    unfold above_uncorrected in E. destruct (run_order _ _ _ _ _ _ _) as [[c1 r1]|e]; cbn [bind] in E; [|discriminate E]. cbv zeta in E.
    destruct (aux_accounts _ _) as [r2|e]; cbn [bind] in E; [|discriminate E]. rewrite TS in E. cbn [bind] in E. apply Ok_inj in E. apply (f_equal (fun x => r_nodes (snd x))) in E. symmetry. exact E.
  - destruct S as (c & rc & m & E & (U1 & U2) & M & L). unfold below_setpoint. rewrite E. cbn [bind]. unfold correct. cbv zeta.
    destruct (qlt_spec (rf rc HP_heat_total_output) (min_out P I)); [|exfalso; lra]. destruct (qlt_spec 0 (rf rc HP_heat_total_output)); [|exfalso; lra]. cbn [andb].
    rewrite M. cbn [bind]. destruct (qlt_spec (m + ts_discharge c - ts_charge c) (min_out P I - rf rc HP_heat_total_output)); [|exfalso; lra].
    unfold switch_off_below. cbv zeta. destruct MD as (m' & ->). cbn [bind]. rewrite Z. cbn [bind]. eexists. split; [reflexivity|]. split; [reflexivity|]. cbn [complete r_nodes].
    unfold below_uncorrected in E. destruct (run_order _ _ _ _ _ _ _) as [[c1 r1]|e]; cbn [bind] in E; [|discriminate E]. cbv zeta in E.
    destruct (aux_accounts _ _) as [r2|e]; cbn [bind] in E; [|discriminate E]. rewrite TS in E. cbn [bind] in E. apply Ok_inj in E. apply (f_equal (fun x => r_nodes (snd x))) in E. symmetry. exact E.
Qed.
Print Assumptions C101_no_store_partial.

(** ** An oversized heat pump with a small store: duty 100 kW, at least half of it for an hour, and 5 kW wanted *)
Definition mild_hour (price : Q) : hour_in :=
  {| i_wind := 0; i_PV := 0; i_elec_demand := 4; i_heat_demand := 5; i_source_temp := 60; i_flow_temp := 55;
     i_import_price := price; i_perf := {| cop := 3; duty := 100 |} |}.
Definition mild_plant (capacity : Q) : plant :=
  {| p_battery := {| b_capacity := 5; b_initial_state := 0; b_charge_max := 3; b_discharge_max := 3; b_charge_eff := 9 # 10;
                     b_discharge_eff := 9 # 10; b_self_discharge := 1 # 100 |};
     p_hp_capacity := 100; p_min_runtime := 60; p_min_output := 50;
     p_aux := {| a_fuel := ELECTRIC; a_efficiency := 1; a_cost := None; a_energy_density := None |};
     p_tank := tank_instance {| k_capacity := capacity; k_insulation := "polyurethane"; k_location := "inside"; k_nodes := 4; k_width := 1 # 2;
       k_pi := 355 # 113; k_openings := 0; k_openings_d := 35; k_bare := 0; k_bare_d := 35; k_insulated := 0; k_insulated_d := 35;
       k_Fi := 11 # 10; k_Fe := 14 # 10; k_air := []; k_cp := fun _ => Some 4181 |} 40 10;
     p_export_price := 40; p_setpoint := 80; p_order_above := [1;2;3;4;5;6;7;8;9;10;11;12;13]%Z; p_order_below := [1;2;3;4;5;6;7;8;9;10;11;12;13;14;15]%Z;
     p_max_heat := 20 |}.
Definition stops_b (P : plant) (I : hour_in) (t : Z) (T : nodes) (threshold : Q) (hour : res (checks * record)) : bool :=
  match hour, t_max (p_tank P) Charging T (i_source_temp I) (i_flow_temp I) t with
  | Ok (c, rc), Ok m => qlt threshold (rf rc HP_heat_total_output) && qlt (rf rc HP_heat_total_output) (min_out P I) &&
      qlt (m + ts_discharge c - ts_charge c) (min_out P I - rf rc HP_heat_total_output)
  | _, _ => false end.
Lemma stops_b_ok P I t T threshold hour : stops_b P I t T threshold hour = true -> must_stop P I t T threshold hour.
Proof.
  unfold stops_b, must_stop. destruct hour as [[c rc]|]; [|discriminate]. destruct (t_max _ _ _ _ _ _) as [m|]; [|discriminate]. intro H.
  apply andb_prop in H as (H & H3). apply andb_prop in H as (H1 & H2). apply qlt_true in H1, H2, H3. exists c, rc, m. auto.
Qed.
(** The cold store meets the conditions on both sides of the setpoint; so does the plant without store; a warm store can be used. *)
Example C101_case : (forall price, price = 50 \/ price = 100 -> stops (mild_plant 400) (mild_hour price) 0 [40;40;40;40] 0 /\ stops (mild_plant 0) (mild_hour price) 0 [40;40;40;40] 0) /\
  stops (mild_plant 400) (mild_hour 100) 0 [58;54;50;45] 0 /\ exists rc, hour_step (mild_plant 400) (mild_hour 100) 0 [58;54;50;45] 0 = Ok rc /\ rf rc HP_heat_total_output == 0.
Proof.
  split; [|split].
  - intros price [-> | ->]; split; apply stops_b_ok; vm_compute; reflexivity.
  - apply stops_b_ok. vm_compute. reflexivity.
  - destruct (hour_step (mild_plant 400) (mild_hour 100) 0 [58;54;50;45] 0) as [rc|e] eqn:E.
    + exists rc. split; [reflexivity|].
      assert (K : match hour_step (mild_plant 400) (mild_hour 100) 0 [58;54;50;45] 0 with Ok r => qeq (rf r HP_heat_total_output) 0 | Err _ => false end = true) by (vm_compute; reflexivity).
      rewrite E in K. destruct (qeq_spec (rf rc HP_heat_total_output) 0); [assumption|discriminate K].
    + exfalso. assert (K : match hour_step (mild_plant 400) (mild_hour 100) 0 [58;54;50;45] 0 with Ok r => true | Err _ => false end = true) by (vm_compute; reflexivity). rewrite E in K. discriminate K.
Qed.
(** A whole run, above and below the setpoint, stops in its first hour. *)
Theorem C101_switch_off_refuted : forall price, price = 50 \/ price = 100 ->
  exists P year K, p_tank P = tank_instance K 40 10 /\ tank_ok K /\ full_year year /\ (forall i, In i year -> i = mild_hour price) /\
    run_timesteps P year 0 24 = Err ZeroDivisionError.
Proof.
  intros price Hp. exists (mild_plant 400), (repeat (mild_hour price) (Z.to_nat 8760)). eexists. split; [reflexivity|].
  assert (F : full_year (repeat (mild_hour price) (Z.to_nat 8760))) by (unfold full_year; rewrite repeat_length, Z2Nat.id by discriminate; reflexivity).
  split; [repeat split; cbn; try lra; try lia; intros d c H; injection H as <-; lra|].
  split; [exact F|]. split; [intros i H; apply repeat_spec in H; exact H|].
  rewrite (run_unfold _ _ 0 24 F) by lia. change (zrange 0 (0 + 24)) with (0 :: zrange 1 24)%Z. cbn [run_loop].
  assert (L : label (repeat (mild_hour price) (Z.to_nat 8760)) 0 = Ok (mild_hour price)).
  { unfold label. cbn [Z.ltb Z.compare Z.to_nat]. destruct (Z.to_nat 8760) eqn:E8; [apply (f_equal Z.of_nat) in E8; rewrite Z2Nat.id in E8 by discriminate; discriminate E8|reflexivity]. }
  rewrite L. cbn [bind fst snd].
  assert (E : hour_step (mild_plant 400) (mild_hour price) 0 (t_init (p_tank (mild_plant 400))) (init_state (p_battery (mild_plant 400))) = Err ZeroDivisionError) by (destruct Hp as [-> | ->]; vm_compute; reflexivity).
  rewrite E. reflexivity.
Qed.
Print Assumptions C101_switch_off_refuted.
