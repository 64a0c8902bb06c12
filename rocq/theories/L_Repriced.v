(** Runs of two workbooks that differ in the prices of electricity. *)
From Coq Require Import String Ascii.
From Verif Require Import Base BaseL M_Battery S_Battery M_HeatPump M_Tools S_HeatPump M_FixedOrder S_FixedOrder L_FixedOrderHour L_FixedOrderRun P_FixedOrder L_Tank S_Prices P_Prices
  M_Excel S_Excel L_Excel L_ExcelSheets P_Excel M_Init S_Init L_Init P_Init M_Program S_Program L_Program L_ProgramRuns L_ProgramOk P_Program P_ProgramOk L_Books L_Rows M_Kpi S_Kpi L_Kpi L_KpiSums L_Less S_Repriced.
From Verif Require M_Tank P_Tank M_Grid P_Grid S_Grid M_Renewables M_Sweep.
Local Open Scope nat_scope.
Local Open Scope string_scope.
Local Open Scope list_scope.

Definition with_grid (k : container) (g : grid_inputs) : container :=
  {| c_parametric := c_parametric k; c_controller := c_controller k; c_resources := c_resources k; c_hot_water := c_hot_water k; c_heating := c_heating k; c_temp_return := c_temp_return k;
     c_source_delta_t := c_source_delta_t k; c_demand := c_demand k; c_PV_location := c_PV_location k; c_PV_spec := c_PV_spec k; c_wind_database := c_wind_database k; c_wind_user := c_wind_user k;
     c_power_curve := c_power_curve k; c_wind_farm := c_wind_farm k; c_battery := c_battery k; c_grid := g; c_aux := c_aux k; c_tank := c_tank k; c_heat_pump := c_heat_pump k |}.
Lemma read_but_grid wb wb' k k' : read_inputs wb = Ok k -> read_inputs wb' = Ok k' -> (forall N, N <> "Grid" -> wb N = wb' N) -> k' = with_grid k (c_grid k').
Proof.
  intros R R' E. apply read_inputs_parts in R as (A1 & A2 & A3 & A4 & A5 & A6 & A7 & A8 & A9 & _ & A11 & A12 & A13).
  apply read_inputs_parts in R' as (B1 & B2 & B3 & B4 & B5 & B6 & B7 & B8 & B9 & _ & B11 & B12 & B13).
  assert (G : forall N, N <> "Grid" -> get_sheet wb N = get_sheet wb' N) by (intros; apply get_sheet_ext, E; assumption).
  unfold x_parametric in *. rewrite (G "Parametric"), B1 in A1 by discriminate. apply Ok_inj in A1.
  unfold x_controller in *. rewrite (G "Controller"), B2 in A2 by discriminate. apply Ok_inj in A2.
  unfold x_resources in *. rewrite (G "Weather resources"), B3 in A3 by discriminate. apply Ok_inj in A3.
  unfold x_demands in *. rewrite (G "Demand gen"), B4 in A4 by discriminate. apply Ok_inj in A4. injection A4 as A41 A42.
  unfold x_demand_input in *. rewrite (G "Demand input"), B5 in A5 by discriminate. apply Ok_inj in A5. injection A5 as A51 A52 A53.
  unfold x_PV in *. rewrite (G "PV inputs"), B6 in A6 by discriminate. apply Ok_inj in A6. injection A6 as A61 A62.
  unfold x_wind in *. rewrite (G "Wind inputs"), B7 in A7 by discriminate. apply Ok_inj in A7. injection A7 as A71 A72 A73.
  unfold x_wind_farm in *. rewrite (G "Wind farm"), B8 in A8 by discriminate. apply Ok_inj in A8.
  unfold x_electrical_storage in *. rewrite (G "Electrical storage"), B9 in A9 by discriminate. apply Ok_inj in A9.
  unfold x_aux in *. rewrite (G "Aux heat"), B11 in A11 by discriminate. apply Ok_inj in A11.
  unfold x_thermal_storage in *. rewrite (G "Thermal storage"), B12 in A12 by discriminate. apply Ok_inj in A12.
  unfold x_heat_pump in *. rewrite (G "Heat pump"), B13 in A13 by discriminate. apply Ok_inj in A13.
  destruct k, k'. unfold with_grid. cbn in *. subst. reflexivity.
Qed.
Lemma combination_but_grid h t k g j j' : combination h t k = Ok j -> combination h t (with_grid k g) = Ok j' -> j' = with_grid j g.
Proof.
  unfold combination, with_grid. cbn. intros C C'. revert C C'. repeat (match goal with |- bind ?x _ = _ -> _ => destruct x as [?|?]; cbn [bind]; [|discriminate] end).
  intros C C'. apply Ok_inj in C, C'. subst. reflexivity.
Qed.
Lemma init_but_grid L k g o o' : init_of L k = Ok o -> init_of L (with_grid k g) = Ok o' ->
  o_user o = o_user o' /\ o_database o = o_database o' /\ o_PV o = o_PV o' /\ o_tank o = o_tank o' /\ o_heat_pump o = o_heat_pump o' /\ o_battery o = o_battery o' /\ o_aux o = o_aux o'.
Proof.
  unfold init_of, init.
  change (battery_of (with_grid k g)) with (battery_of k). change (aux_of (with_grid k g)) with (aux_of k). change (heat_pump_of (lib_fit L) (with_grid k g)) with (heat_pump_of (lib_fit L) k).
  change (user_turbine (with_grid k g)) with (user_turbine k). change (database_turbine (with_grid k g)) with (database_turbine k). change (pv_of (with_grid k g)) with (pv_of k).
  change (tank_of (lib_width L) (lib_pi L) (lib_cp L) (with_grid k g)) with (tank_of (lib_width L) (lib_pi L) (lib_cp L) k). change (c_resources (with_grid k g)) with (c_resources k).
  repeat (match goal with |- bind ?x _ = _ -> bind ?x _ = _ -> _ => destruct x; cbn [bind]; [|discriminate] end).
  destruct (grid_of (lib_wind L) k); cbn [bind]; [|discriminate]. destruct (grid_of (lib_wind L) (with_grid k g)); cbn [bind]; [|discriminate]. intros E E'. apply Ok_inj in E, E'. subst. repeat split.
Qed.
(** One run: what it is charged *)
Lemma charged L run_pv lc opt price wb out d K : ran L run_pv lc opt price wb "Fixed order control" out d -> says wb "Grid" "D" 5 "Flat rates" -> calcs L d = Ok K ->
  exists p e, holds wb "Grid" "C" 9 p /\ holds wb "Grid" "D" 9 e /\ complete_run K /\ k_name K = M_Sweep.folder_name (d_sizes d) /\ (chooses fuels fuel_value wb "Aux heat" "C" 6 ELECTRIC -> k_fuel K = ELECTRIC) /\
    Forall (fun rc => rf rc GRID_cashflow == (rf rc GRID_total_export * e - rf rc GRID_total_import * p) / 1000)%Q (k_results K).
Proof.
  intros R F1 C. pose proof (C95_hours_needed _ _ _ _ _ _ _ _ R) as (_ & s0 & n0 & _ & N0 & _ & N1 & _).
  destruct (fixed_held _ _ _ _ _ _ _ _ R) as (k & q & s & n & x & year & RI & CO & HO & SI & Hx & Ha & Hb & Y & T).
  destruct R as (PL & B & _ & PR & I). pose proof (done_set_up _ _ _ _ _ _ _ _ PR I) as (o & U & GO & FU).
  destruct SI as (S1 & _ & _ & _ & _ & _ & _ & S8 & S9 & S10 & S11 & _).
  assert (n0 = n) by exact (counts_one _ _ _ _ _ _ N0 S11). subst n0. assert (o = q_parts q) by congruence. subst o.
  unfold calcs in C. cbv zeta in C. pose proof CO as CC. apply combination_parts in CC as ((CC & _) & _). destruct (C81_controller wb k PL RI) as (_ & Q1 & Q2 & _).
  rewrite CC, Q1, Q2, (counts_is _ _ _ _ _ S10), (counts_is _ _ _ _ _ S11), GO in C. cbn [bind] in C. destruct (rhi_of (c_heat_pump (d_inputs d))) as [rh|]; cbn [bind] in C; [|discriminate]. apply Ok_inj in C. subst K.
  set (P := plant_of L q x (k_above (c_controller k)) (k_below (c_controller k))) in *.
  assert (RO : run_of P year s n {| k_name := M_Sweep.folder_name (d_sizes d); k_timesteps := n; k_first_hour := s; k_results := d_records d; k_fuel := x_fuel (c_aux (d_inputs d)); k_grid := o_grid (q_parts q); k_rhi := rh |}).
  { unfold run_of. cbn [k_results k_timesteps k_first_hour k_fuel]. rewrite FU. split; [exact T|]. repeat split; lia. }
  destruct (C85_tariff _ _ _ _ _ PL B S1) as (TT & _ & TF & _). cbv zeta in TT, TF. apply says_name in TT, F1. assert (E0 : M_Grid.g_tariff (o_grid (q_parts q)) = "Flat rates") by congruence.
  rewrite E0 in TF. specialize (TF (or_introl eq_refl)). exists (M_Grid.g_flat (o_grid (q_parts q))), (q_export q). split; [exact TF|]. split; [exact S8|]. split; [exact (run_complete _ _ _ _ _ RO)|]. split; [reflexivity|]. split.
  { intro EB. cbn [k_fuel]. rewrite FU. destruct (C85_backup L wb _ _ _ PL B S1) as (B1 & _).
    assert (UU : forall a b, In a fuels -> In b fuels -> fuel_value a = fuel_value b -> a = b) by (intros [] [] _ _; discriminate || reflexivity). exact (chooses_one _ _ _ _ _ _ _ _ UU B1 EB). }
  cbn [k_results]. apply Forall_forall. intros rc IN. apply In_nth_error in IN as (i & Hi). destruct (C15_hours_are_chained _ _ _ _ _ _ rc T Hi) as (J & J0 & NJ & St).
  destruct (C11_costs_and_cash_flow _ _ _ _ _ _ St) as (_ & K1 & K2 & K3). rewrite K3, K1, K2. cbn [P plant_of p_export_price].
  destruct (year_of_inv _ _ _ _ _ Y) as (g & tot & wind & hp & _ & _ & _ & _ & _ & _ & FY & G8). pose proof (G8 _ J NJ) as (_ & _ & _ & _ & _ & _ & E7 & _).
  assert (Hj : (0 <= s + Z.of_nat i < 8760)%Z) by (assert (Z.to_nat (s + Z.of_nat i) < length year) by (apply nth_error_Some; congruence); unfold full_year in FY; lia).
  pose proof (P_Grid.C30_flat_constant _ _ E0 S9 _ Hj) as XX. unfold S_Grid.price_at in XX. rewrite E7 in XX. injection XX as ->. field.
Qed.
(** Two runs *)
Lemma reprice L run_pv lc opt price wb wb' out out' d d' K K' : repriced wb wb' ->
  ran L run_pv lc opt price wb "Fixed order control" out d -> ran L run_pv lc opt price wb' "Fixed order control" out' d' -> d_sizes d = d_sizes d' -> calcs L d = Ok K -> calcs L d' = Ok K' ->
  k_name K = k_name K' /\ k_timesteps K = k_timesteps K' /\ k_rhi K = k_rhi K' /\ M_Grid.g_tariff (k_grid K) = "Flat rates" /\ M_Grid.g_tariff (k_grid K') = "Flat rates" /\
  Forall2 same_energy (k_results K) (k_results K').
Proof.
  intros (LD & F1 & F1' & SS) R R' ES C C'.
  destruct (fixed_held _ _ _ _ _ _ _ _ R) as (k & q & s & n & x & year & RI & CO & HO & SI & Hx & Ha & Hb & Y & T).
  destruct (fixed_held _ _ _ _ _ _ _ _ R') as (k' & q' & s' & n' & x' & year' & RI' & CO' & HO' & SI' & Hx' & Ha' & Hb' & Y' & T').
  destruct R as (PL & B & _ & PR & I). destruct R' as (PL' & B' & _ & PR' & I').
  pose proof (done_set_up _ _ _ _ _ _ _ _ PR I) as (o & U & GO & FU). pose proof (done_set_up _ _ _ _ _ _ _ _ PR' I') as (o' & U' & GO' & FU').
  assert (X : forall M c r, M <> "Grid" -> xl wb M c r = xl wb' M c r) by (intros M c r E; unfold xl; rewrite (LD M E); reflexivity).
  assert (x' = x) by (unfold holds in Hx, Hx'; rewrite <- X in Hx' by discriminate; congruence). subst x'.
  pose proof (read_but_grid wb wb' k k' RI RI' LD) as EK. assert (EC : c_controller k' = c_controller k) by (rewrite EK; reflexivity). rewrite EC in T', Ha', Hb'.
  rewrite <- ES in CO'. rewrite EK in CO'. pose proof (combination_but_grid _ _ _ _ _ _ CO CO') as ED.
  pose proof (hold_inv L _ _ HO) as (_ & I1 & I2 & I3 & I4 & I5 & I6 & _). pose proof (hold_inv L _ _ HO') as (_ & J1 & J2 & J3 & J4 & J5 & J6 & _).
  rewrite ED in J1, J2, J3, J4, J5, J6. cbn [with_grid c_demand c_temp_return c_source_delta_t] in J1, J2, J3, J4, J5, J6.
  assert (Q1 : q_source q = q_source q') by congruence. assert (Q2 : q_flow q = q_flow q') by congruence. assert (Q3 : q_elec q = q_elec q') by congruence. assert (Q4 : q_heat q = q_heat q') by congruence.
  assert (Q5 : q_return q = q_return q') by congruence. assert (Q6 : q_delta q = q_delta q') by congruence.
  pose proof (hold_init _ _ _ HO) as IN. pose proof (hold_init _ _ _ HO') as IN'. rewrite ED in IN'. destruct (init_but_grid _ _ _ _ _ IN IN') as (P1 & P2 & P3 & P4 & P5 & P6 & P7).
  destruct SI as (S1 & _ & _ & _ & _ & _ & _ & S8 & S9 & S10 & S11 & _). destruct SI' as (S1' & _ & _ & _ & _ & _ & _ & S8' & S9' & S10' & S11' & _).
  assert (s' = s). { refine (counts_one _ _ _ _ _ _ _ S10). unfold counts in *. destruct S10' as (v & V & W). exists v. split; [|exact W]. unfold holds in *. rewrite X by discriminate. exact V. }
  assert (n' = n). { refine (counts_one _ _ _ _ _ _ _ S11). unfold counts in *. destruct S11' as (v & V & W). exists v. split; [|exact W]. unfold holds in *. rewrite X by discriminate. exact V. }
  subst s' n'.
  destruct (year_of_inv _ _ _ _ _ Y) as (g & tot & wind & hp & Y1 & _ & Y3 & _ & Y5 & Y6 & FY & G8). destruct (year_of_inv _ _ _ _ _ Y') as (g' & tot' & wind' & hp' & Y1' & _ & Y3' & _ & Y5' & Y6' & FY' & G8').
  rewrite <- P1, <- P2, <- P3 in Y1'. rewrite <- P5 in Y6'. assert (g' = g) by congruence. subst g'. assert (hp' = hp) by congruence. subst hp'. assert (wind' = wind) by (apply some_map; congruence). subst wind'.
  destruct (C85_tariff _ _ _ _ _ PL B S1) as (TT & _ & TF & _). cbv zeta in TT, TF. apply says_name in TT, F1. assert (E0 : M_Grid.g_tariff (o_grid (q_parts q)) = "Flat rates") by congruence.
  rewrite E0 in TF. specialize (TF (or_introl eq_refl)).
  destruct (C85_tariff _ _ _ _ _ PL' B' S1') as (TT' & _ & TF' & _). cbv zeta in TT', TF'. apply says_name in TT', F1'. assert (E0' : M_Grid.g_tariff (o_grid (q_parts q')) = "Flat rates") by congruence.
  rewrite E0' in TF'. specialize (TF' (or_introl eq_refl)). specialize (SS _ _ _ Hx TF TF').
  set (P := plant_of L q x (k_above (c_controller k)) (k_below (c_controller k))) in *. set (P' := plant_of L q' x (k_above (c_controller k)) (k_below (c_controller k))) in *.
  assert (SM : same_machines P P').
  { unfold same_machines. cbn [P P' plant_of p_battery p_hp_capacity p_min_runtime p_min_output p_aux p_tank p_order_above p_order_below p_max_heat]. rewrite P4, P5, P6, P7, Q4, Q5, Q6. repeat match goal with |- _ /\ _ => split end; tauto. }
  assert (HF : Forall2 (same_weather P P') year year').
  { apply Forall2_nth; [unfold full_year in *; lia|]. intros i J J' NJ NJ'. pose proof (G8 i J NJ) as (E1 & E2 & E3 & E4 & E5 & E6 & E7 & E8). pose proof (G8' i J' NJ') as (E1' & E2' & E3' & E4' & E5' & E6' & E7' & E8').
    rewrite <- Q3 in E3'. rewrite <- Q4 in E4'. rewrite <- Q1 in E5'. rewrite <- Q2 in E6'. unfold same_weather. do 7 (split; [congruence|]). cbn [P P' plant_of p_setpoint].
    assert (Hi : (0 <= Z.of_nat i < 8760)%Z) by (assert (i < length year) by (apply nth_error_Some; congruence); unfold full_year in FY; lia).
    pose proof (P_Grid.C30_flat_constant _ _ E0 S9 _ Hi) as XX. unfold S_Grid.price_at in XX. rewrite Nat2Z.id, E7 in XX. injection XX as ->.
    pose proof (P_Grid.C30_flat_constant _ _ E0' S9' _ Hi) as XX. unfold S_Grid.price_at in XX. rewrite Nat2Z.id, E7' in XX. injection XX as ->. exact SS. }
  destruct (proj1 (C102_run P P' year year' s n SM HF) _ T) as (l' & T2 & EN). assert (l' = d_records d') by congruence. subst l'.
  unfold calcs in C, C'. cbv zeta in C, C'. assert (o = q_parts q) by congruence. subst o. assert (o' = q_parts q') by (rewrite <- ES in U'; rewrite <- ES in S1'; congruence). subst o'.
  rewrite GO in C. rewrite GO' in C'. rewrite ED in C'. cbn [with_grid c_controller c_heat_pump c_aux] in C'.
  destruct (whole (M_Excel.k_timesteps (c_controller (d_inputs d)))); cbn [bind] in C, C'; [|discriminate]. destruct (whole (M_Excel.k_first_hour (c_controller (d_inputs d)))); cbn [bind] in C, C'; [|discriminate].
  destruct (rhi_of (c_heat_pump (d_inputs d))) as [rh|]; cbn [bind] in C, C'; [|discriminate]. apply Ok_inj in C, C'. subst K K'. cbn [k_name k_timesteps k_rhi k_grid k_results]. rewrite ES.
  split; [reflexivity|]. split; [reflexivity|]. split; [reflexivity|]. split; [exact E0|]. split; [exact E0'|exact EN].
Qed.
