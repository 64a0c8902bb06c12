(** The energy account of a run: property C115. *)
From Verif Require Import Base BaseL M_Battery S_Battery L_Battery M_HeatPump S_HeatPump L_HeatPump M_Tools L_Tools M_FixedOrder S_FixedOrder L_FixedOrder L_FixedOrderSign L_FixedOrderHour
  L_FixedOrderProps L_FixedOrderMore L_FixedOrderRun P_FixedOrder S_Account L_Account.

(** Over a run of any length what is generated and bought is what is consumed and sold plus what goes into the battery on balance. *)
Theorem C115_electricity_partial : forall P year first m rs,
  sound_year P year -> run_timesteps P year first m = Ok rs -> quiet_run P year first rs ->
  (a_fuel (p_aux P) = ELECTRIC -> a_efficiency (p_aux P) == 1) ->
  over_run electricity_in rs == over_run (electricity_out (fuel_eqb (a_fuel (p_aux P)) ELECTRIC)) rs + over_run battery_net rs.
Proof.
  intros P year first m rs SY H Q Ea. rewrite <- over_run_plus. apply over_run_eq. intros i rc E.
  destruct (sound_hours P year first m rs SY H Q i rc E) as (I & t & n & soc & -> & -> & St & G & Qu & C1 & C2 & C3).
  exact (hour_electricity P I t _ _ rc G C1 C3 Qu St Ea).
Qed.
Print Assumptions C115_electricity_partial.

(** No electricity from nowhere: with a battery that gives what it loses, and strong enough to be emptied within an hour, consumption, sale and the
    rise of the battery over a run are covered by generation and purchase. *)
Theorem C115_no_free_electricity_partial : forall P year first m rs,
  sound_year P year -> run_timesteps P year first m = Ok rs -> quiet_run P year first rs ->
  (a_fuel (p_aux P) = ELECTRIC -> a_efficiency (p_aux P) == 1) ->
  b_discharge_eff (p_battery P) == 1 -> b_capacity (p_battery P) <= b_discharge_max (p_battery P) ->
  over_run (electricity_out (fuel_eqb (a_fuel (p_aux P)) ELECTRIC)) rs + (level_after P rs - init_state (p_battery P)) <= over_run electricity_in rs.
Proof.
  intros P year first m rs SY H Q Ea Ed Em. rewrite (C115_electricity_partial P year first m rs SY H Q Ea). apply Qplus_le_r. apply telescope. intros i rc E.
  destruct (sound_hours P year first m rs SY H Q i rc E) as (I & t & n & soc & -> & -> & St & G & Qu & C1 & C2 & C3).
  assert (L : rf rc ES_discharging_total - rf rc ES_charging_total <= snd (state_before P rs i)).
  { clear - G St. destruct (hour_open P I t _ _ rc G St) as (ps & c & r & u & pr & de & rc0 & rc1 & Hps & Ho & Hf & A & Sg & W & Z & Hu & Hpr & Hrf & Hun & Hco & ->).
    rewrite !(settled_corrected P I t _ c rc0 rc1 _ Hco) by (unfold settled; inl).
    pose proof (acc_soc _ _ _ _ _ A) as E. cbn [init_checks c_soc] in E. pose proof (sg_soc _ _ _ _ _ _ Sg) as S0. clear A Sg W Z Hf.
    rewrite Hrf. unfold finish_fields. destruct (hi P I); fld; lra. }
  pose proof (level_before P year first m rs i SY H) as (_ & Lc).
  pose proof (battery_delivery P I t _ _ rc G St Ed) as D. unfold battery_net. assert (D' : rf rc ES_discharging_total - rf rc ES_charging_total <= b_discharge_max (p_battery P)) by lra.
  specialize (D D'). lra.
Qed.
Print Assumptions C115_no_free_electricity_partial.

(** The heat account: what heat pump and back-up produce is the demand plus what goes into the store on balance, at either tariff. *)
Theorem C115_heat_partial : forall P year first m rs,
  sound_year P year -> run_timesteps P year first m = Ok rs -> quiet_run P year first rs ->
  over_run heat_in rs == over_run heat_out rs.
Proof.
  intros P year first m rs SY H Q. apply over_run_eq. intros i rc E.
  destruct (sound_hours P year first m rs SY H Q i rc E) as (I & t & n & soc & -> & -> & St & G & Qu & C1 & C2 & C3).
  exact (hour_heat P I t _ _ rc G C2 Qu St).
Qed.
Print Assumptions C115_heat_partial.

(** ** Cases: three equal hours *)
Definition even_year (I : hour_in) : list hour_in := repeat I ANNUAL_HOURS.
Lemma even_year_full I : full_year (even_year I).
Proof. unfold full_year, even_year. rewrite repeat_length. exact ANNUAL_HOURS_Z. Qed.
Lemma even_run P I (check : list record -> bool) : plant_total P ->
  match run_loop P (even_year I) (zrange 0 (0 + 3)) (t_init (p_tank P), init_state (p_battery P)) with Ok rs => check rs | Err _ => false end = true ->
  exists rs, run_timesteps P (even_year I) 0 3 = Ok rs /\ check rs = true.
Proof.
  intros T H. destruct (run_total P (even_year I) 0 3 T (even_year_full I)) as (rs & E); [lia|lia|].
  exists rs. split; [exact E|]. destruct (run_inv _ _ _ _ _ E) as (_ & _ & E'). rewrite E' in H. exact H.
Qed.
Lemma even_hour I i J : nth_error (even_year I) i = Some J -> J = I.
Proof. intro E. apply nth_error_In in E. apply repeat_spec in E. exact E. Qed.
Lemma no_minimum_quiet P I t n soc : p_min_output P == 0 -> quiet P I t n soc.
Proof.
  intros M c rc _. assert (Z : minimum_heat P I == 0) by (unfold minimum_heat; rewrite M; field).
  destruct (Qlt_le_dec (rf rc HP_heat_total_output) (minimum_heat P I)) as [A|A]; [right|left; exact A]. unfold threshold. destruct (qlt _ _); lra.
Qed.
Lemma no_minimum_quiet_run P I rs : p_min_output P == 0 -> quiet_run P (even_year I) 0 rs.
Proof. intros M i J _ E. apply no_minimum_quiet. exact M. Qed.
Lemma demo_total b hp mo tank : tank_total tank -> plant_total (demo b hp mo tank all13 all15).
Proof. intro T. split; [exact T|]. split; [cbn; lra|]. split; [intro X; contradiction X; reflexivity|]. split; eexists; reflexivity. Qed.
Lemma simple_total cap ch di : tank_total (simple_tank cap ch di).
Proof. split; intros; eexists; reflexivity. Qed.
Lemma sound_even P I soc : 0 <= b_initial_state (p_battery P) <= 1 -> good_hour P I soc ->
  contains P I Import_to_demand -> contains P I AUX_to_demand -> contains P I RES_to_export -> sound_year P (even_year I).
Proof.
  intros Bi (HP & HI & _ & HO) C1 C2 C3. split; [exact HP|]. split; [exact Bi|]. intros J HJ. apply repeat_spec in HJ. subst J. auto.
Qed.

(** A battery with losses on the way out delivers more than it loses: three hours in which the plant consumes 4 units more than it receives and takes out of the battery. *)
Theorem C115_battery_refuted : exists P year rs,
  sound_year P year /\ run_timesteps P year 0 3 = Ok rs /\ quiet_run P year 0 rs /\ a_efficiency (p_aux P) == 1 /\ b_capacity (p_battery P) <= b_discharge_max (p_battery P) /\
  over_run electricity_in rs + 4 < over_run (electricity_out (fuel_eqb (a_fuel (p_aux P)) ELECTRIC)) rs + (level_after P rs - init_state (p_battery P)).
Proof.
  set (P := demo (demo_battery 10 (1#2)) 0 0 (simple_tank 0 0 0) all13 all15). set (I := demo_hour 0 4 0 150 2 0).
  destruct (even_run P I (fun rs => qlt (over_run electricity_in rs + 4) (over_run (electricity_out (fuel_eqb (a_fuel (p_aux P)) ELECTRIC)) rs + (level_after P rs - init_state (p_battery P))))) as (rs & R & K).
  { apply demo_total, simple_total. } { vm_compute. reflexivity. }
  exists P, (even_year I), rs. assert (G : good_hour P I 5) by demo_ok.
  split; [apply (sound_even P I 5); [cbn; lra|exact G|apply plant_contains; reflexivity..]|]. split; [exact R|]. split; [apply no_minimum_quiet_run; reflexivity|].
  split; [reflexivity|]. split; [cbn; lra|]. apply qlt_true. exact K.
Qed.
Print Assumptions C115_battery_refuted.

(** An electric back-up with losses: it uses twice the electricity that is bought for it. *)
Definition weak_heater : plant :=
  {| p_battery := demo_battery 0 1; p_hp_capacity := 0; p_min_runtime := 60; p_min_output := 0;
     p_aux := {| a_fuel := ELECTRIC; a_efficiency := 1 # 2; a_cost := None; a_energy_density := None |}; p_tank := simple_tank 0 0 0; p_export_price := 40; p_setpoint := 100;
     p_order_above := all13; p_order_below := all15; p_max_heat := 30 |}.
Theorem C115_backup_refuted : exists P year rs,
  sound_year P year /\ run_timesteps P year 0 3 = Ok rs /\ quiet_run P year 0 rs /\ b_capacity (p_battery P) == 0 /\
  over_run electricity_in rs == 30 /\ over_run (fun f => f AUX_usage) rs == 60 /\
  over_run (electricity_out (fuel_eqb (a_fuel (p_aux P)) ELECTRIC)) rs + over_run battery_net rs == 60.
Proof.
  set (P := weak_heater). set (I := demo_hour 0 0 10 150 2 0).
  destruct (even_run P I (fun rs => qeq (over_run electricity_in rs) 30 && (qeq (over_run (fun f => f AUX_usage) rs) 60 && qeq (over_run (electricity_out (fuel_eqb (a_fuel (p_aux P)) ELECTRIC)) rs + over_run battery_net rs) 60))) as (rs & R & K).
  { split; [apply simple_total|]. split; [intro X; vm_compute in X; discriminate X|]. split; [intro X; contradiction X; reflexivity|]. split; eexists; reflexivity. } { vm_compute. reflexivity. }
  exists P, (even_year I), rs. assert (G : good_hour (demo (demo_battery 0 1) 0 0 (simple_tank 0 0 0) all13 all15) I 0) by demo_ok.
  assert (G' : good_hour P I 0).
  { destruct G as ((B & _) & HI & L & O). split; [|split; [exact HI|split; [exact L|exact O]]]. split; [exact B|]. cbn. repeat split; try lra; discriminate. }
  split; [apply (sound_even P I 0); [cbn; lra|exact G'|apply plant_contains; reflexivity..]|]. split; [exact R|]. split; [apply no_minimum_quiet_run; reflexivity|]. split; [reflexivity|].
  apply andb_prop in K. destruct K as [K1 K]. apply andb_prop in K. destruct K as [K2 K3]. split; [|split]; apply qeq_true_inv; assumption.
Qed.
Print Assumptions C115_backup_refuted.

(** The minimum output of the heat pump: the electricity of the extra heat is not bought. *)
Theorem C115_minimum_output_refuted : exists P year rs,
  sound_year P year /\ run_timesteps P year 0 3 = Ok rs /\ b_capacity (p_battery P) == 0 /\ a_efficiency (p_aux P) == 1 /\
  over_run electricity_in rs < over_run (electricity_out (fuel_eqb (a_fuel (p_aux P)) ELECTRIC)) rs + over_run battery_net rs.
Proof.
  set (P := demo (demo_battery 0 1) 10 50 (simple_tank 1000 20 0) all13 all15). set (I := demo_hour (1#2) 0 1 150 2 10).
  destruct (even_run P I (fun rs => qlt (over_run electricity_in rs) (over_run (electricity_out (fuel_eqb (a_fuel (p_aux P)) ELECTRIC)) rs + over_run battery_net rs))) as (rs & R & K).
  { apply demo_total, simple_total. } { vm_compute. reflexivity. }
  exists P, (even_year I), rs. assert (G : good_hour P I 0) by demo_ok.
  split; [apply (sound_even P I 0); [cbn; lra|exact G|apply plant_contains; reflexivity..]|]. split; [exact R|]. split; [reflexivity|]. split; [reflexivity|]. apply qlt_true. exact K.
Qed.
Print Assumptions C115_minimum_output_refuted.

(** A run meeting all conditions, with flows of every kind: battery, heat pump, back-up and store are in use. *)
Example C115_case : exists P year rs,
  sound_year P year /\ run_timesteps P year 0 3 = Ok rs /\ quiet_run P year 0 rs /\ b_discharge_eff (p_battery P) == 1 /\ b_capacity (p_battery P) <= b_discharge_max (p_battery P) /\
  0 < over_run (fun f => f HP_elec_total_usage) rs /\ 0 < over_run (fun f => f AUX_usage) rs /\ 0 < over_run (fun f => f TS_discharging_total) rs /\
  over_run battery_net rs == - (5) /\ over_run electricity_in rs == 31 /\ over_run heat_in rs == 42.
Proof.
  set (P := demo (demo_battery 10 1) 8 0 (simple_tank 1000 20 2) all13 all15). set (I := demo_hour 2 3 16 150 2 8).
  destruct (even_run P I (fun rs => qlt 0 (over_run (fun f => f HP_elec_total_usage) rs) && (qlt 0 (over_run (fun f => f AUX_usage) rs) && (qlt 0 (over_run (fun f => f TS_discharging_total) rs) &&
     (qeq (over_run battery_net rs) (- (5)) && (qeq (over_run electricity_in rs) 31 && qeq (over_run heat_in rs) 42)))))) as (rs & R & K).
  { apply demo_total, simple_total. } { vm_compute. reflexivity. }
  exists P, (even_year I), rs. assert (G : good_hour P I 5) by demo_ok.
  split; [apply (sound_even P I 5); [cbn; lra|exact G|apply plant_contains; reflexivity..]|]. split; [exact R|]. split; [apply no_minimum_quiet_run; reflexivity|]. split; [reflexivity|]. split; [cbn; lra|].
  repeat match goal with X : (_ && _)%bool = true |- _ => apply andb_prop in X; destruct X end.
  repeat match goal with |- _ /\ _ => split end; first [apply qlt_true; assumption|apply qeq_true_inv; assumption].
Qed.
