(** Runs of two workbooks of which the second has a higher coefficient of performance. *)
From Coq Require Import String Ascii.
From Verif Require Import Base BaseL M_Battery S_Battery M_HeatPump M_Tools S_HeatPump M_FixedOrder S_FixedOrder L_FixedOrderRun S_HeatPumpSize S_BetterPump P_BetterPump S_Easier L_Easier P_Easier L_Tank
  M_Excel S_Excel L_Excel L_ExcelSheets P_Excel M_Init S_Init L_Init P_Init M_Program S_Program L_Program L_ProgramRuns L_ProgramOk P_Program P_ProgramOk S_Sensible L_Sensible S_Less L_Books L_Rows S_Books S_Rows
  M_Kpi S_Kpi L_Kpi L_KpiSums L_Less S_Efficient.
From Verif Require M_Tank P_Tank M_Grid P_Grid S_Grid M_Renewables M_Sweep.
Local Open Scope nat_scope.
Local Open Scope string_scope.
Local Open Scope list_scope.

Definition with_pump (k : container) (g : heat_pump_inputs) : container :=
  {| c_parametric := c_parametric k; c_controller := c_controller k; c_resources := c_resources k; c_hot_water := c_hot_water k; c_heating := c_heating k; c_temp_return := c_temp_return k;
     c_source_delta_t := c_source_delta_t k; c_demand := c_demand k; c_PV_location := c_PV_location k; c_PV_spec := c_PV_spec k; c_wind_database := c_wind_database k; c_wind_user := c_wind_user k;
     c_power_curve := c_power_curve k; c_wind_farm := c_wind_farm k; c_battery := c_battery k; c_grid := c_grid k; c_aux := c_aux k; c_tank := c_tank k; c_heat_pump := g |}.
Lemma read_but_pump wb wb' k k' : read_inputs wb = Ok k -> read_inputs wb' = Ok k' -> (forall N, N <> "Heat pump" -> wb N = wb' N) -> k' = with_pump k (c_heat_pump k').
Proof.
  intros R R' E. apply read_inputs_parts in R as (A1 & A2 & A3 & A4 & A5 & A6 & A7 & A8 & A9 & A10 & A11 & A12 & _).
  apply read_inputs_parts in R' as (B1 & B2 & B3 & B4 & B5 & B6 & B7 & B8 & B9 & B10 & B11 & B12 & _).
  assert (G : forall N, N <> "Heat pump" -> get_sheet wb N = get_sheet wb' N) by (intros; apply get_sheet_ext, E; assumption).
  unfold x_parametric in *. rewrite (G "Parametric"), B1 in A1 by discriminate. apply Ok_inj in A1.
  unfold x_controller in *. rewrite (G "Controller"), B2 in A2 by discriminate. apply Ok_inj in A2.
  unfold x_resources in *. rewrite (G "Weather resources"), B3 in A3 by discriminate. apply Ok_inj in A3.
  unfold x_demands in *. rewrite (G "Demand gen"), B4 in A4 by discriminate. apply Ok_inj in A4. injection A4 as A41 A42.
  unfold x_demand_input in *. rewrite (G "Demand input"), B5 in A5 by discriminate. apply Ok_inj in A5. injection A5 as A51 A52 A53.
  unfold x_PV in *. rewrite (G "PV inputs"), B6 in A6 by discriminate. apply Ok_inj in A6. injection A6 as A61 A62.
  unfold x_wind in *. rewrite (G "Wind inputs"), B7 in A7 by discriminate. apply Ok_inj in A7. injection A7 as A71 A72 A73.
  unfold x_wind_farm in *. rewrite (G "Wind farm"), B8 in A8 by discriminate. apply Ok_inj in A8.
  unfold x_electrical_storage in *. rewrite (G "Electrical storage"), B9 in A9 by discriminate. apply Ok_inj in A9.
  unfold x_grid in *. rewrite (G "Grid"), B10 in A10 by discriminate. apply Ok_inj in A10.
  unfold x_aux in *. rewrite (G "Aux heat"), B11 in A11 by discriminate. apply Ok_inj in A11.
  unfold x_thermal_storage in *. rewrite (G "Thermal storage"), B12 in A12 by discriminate. apply Ok_inj in A12.
  destruct k, k'. unfold with_pump. cbn in *. subst. reflexivity.
Qed.
Lemma combination_but_pump h t k g j j' : combination h t k = Ok j -> combination h t (with_pump k g) = Ok j' -> j' = with_pump j (c_heat_pump j').
Proof. unfold combination. cbv zeta. intros C C'. inv_bind C. inv_bind C'. apply Ok_inj in C, C'. subst j j'. reflexivity. Qed.
Lemma init_but_pump L k g o o' : init_of L k = Ok o -> init_of L (with_pump k g) = Ok o' ->
  o_user o = o_user o' /\ o_database o = o_database o' /\ o_PV o = o_PV o' /\ o_tank o = o_tank o' /\ o_battery o = o_battery o' /\ o_aux o = o_aux o' /\ o_grid o = o_grid o'.
Proof.
  unfold init_of, init.
  change (battery_of (with_pump k g)) with (battery_of k). change (aux_of (with_pump k g)) with (aux_of k). change (grid_of (lib_wind L) (with_pump k g)) with (grid_of (lib_wind L) k).
  change (user_turbine (with_pump k g)) with (user_turbine k). change (database_turbine (with_pump k g)) with (database_turbine k). change (pv_of (with_pump k g)) with (pv_of k).
  change (tank_of (lib_width L) (lib_pi L) (lib_cp L) (with_pump k g)) with (tank_of (lib_width L) (lib_pi L) (lib_cp L) k). change (c_resources (with_pump k g)) with (c_resources k).
  repeat (match goal with |- bind ?x _ = _ -> bind ?x _ = _ -> _ => destruct x; cbn [bind]; [|discriminate] end).
  destruct (heat_pump_of (lib_fit L) k _ _); cbn [bind]; [|discriminate]. destruct (heat_pump_of (lib_fit L) (with_pump k g) _ _); cbn [bind]; [|discriminate].
  repeat (match goal with |- bind ?x _ = _ -> bind ?x _ = _ -> _ => destruct x; cbn [bind]; [|discriminate] end). intros E E'. apply Ok_inj in E, E'. subst. repeat split.
Qed.
Lemma more_efficient L run_pv lc opt price wb wb' out out' d d' K K' : higher_cop wb wb' ->
  ran L run_pv lc opt price wb "Fixed order control" out d -> ran L run_pv lc opt price wb' "Fixed order control" out' d' -> d_sizes d = d_sizes d' -> snd (d_sizes d) = 0%Z ->
  sensible L lc wb (d_sizes d) -> sensible L lc wb' (d_sizes d) -> simple_battery_cells wb -> no_leak_cell wb -> flat_prices wb -> calcs L d = Ok K -> calcs L d' = Ok K' ->
  exists P P' year year' s n, run_of P year s n K /\ run_of P' year' s n K' /\ Forall2 (better P) (k_results K) (k_results K') /\ (0 <= p_export_price P)%Q /\ k_fuel K = k_fuel K' /\
    (chooses fuels fuel_value wb "Aux heat" "C" 6 ELECTRIC -> k_fuel K = ELECTRIC).
Proof.
  intros (LD & M1 & M1' & X7 & X8 & X12) R R' ES Z0 SE SE' (LA & LB) NL (F1 & F2 & F3) C C'. pose proof (C95_hours_needed _ _ _ _ _ _ _ _ R) as (_ & s0 & n0 & _ & N0 & _ & N1 & _).
  destruct (fixed_held _ _ _ _ _ _ _ _ R) as (k & q & s & n & x & year & RI & CO & HO & SI & Hx & Ha & Hb & Y & T).
  destruct (fixed_held _ _ _ _ _ _ _ _ R') as (k' & q' & s' & n' & x' & year' & RI' & CO' & HO' & SI' & Hx' & Ha' & Hb' & Y' & T').
  destruct R as (PL & B & _ & PR & I). destruct R' as (PL' & B' & _ & PR' & I').
  pose proof (done_set_up _ _ _ _ _ _ _ _ PR I) as (o & U & GO & FU). pose proof (done_set_up _ _ _ _ _ _ _ _ PR' I') as (o' & U' & GO' & FU').
  assert (X : forall M c r, M <> "Heat pump" -> xl wb M c r = xl wb' M c r) by (intros M c r E; unfold xl; rewrite (LD M E); reflexivity).
  assert (x' = x) by (unfold holds in Hx, Hx'; rewrite <- X in Hx' by discriminate; congruence). subst x'.
  pose proof (read_but_pump wb wb' k k' RI RI' LD) as EK. assert (EC : c_controller k' = c_controller k) by (rewrite EK; reflexivity). rewrite EC in T', Ha', Hb'.
  rewrite ES in SE'. pose proof (sensible_plant L run_pv lc wb out d q s n x _ _ year PL B SE SI Ha Hb Y) as (KP & KI & KH & KO).
  pose proof (sensible_plant L run_pv lc wb' out' d' q' s' n' x _ _ year' PL' B' SE' SI' Ha' Hb' Y') as (KP' & KI' & KH' & _).
  rewrite <- ES in CO'. rewrite EK in CO'. pose proof (combination_but_pump _ _ _ _ _ _ CO CO') as ED.
  pose proof (hold_inv L _ _ HO) as (_ & I1 & I2 & I3 & I4 & I5 & I6 & _). pose proof (hold_inv L _ _ HO') as (_ & J1 & J2 & J3 & J4 & J5 & J6 & _).
  rewrite ED in J1, J2, J3, J4, J5, J6. cbn [with_pump c_demand c_temp_return c_source_delta_t] in J1, J2, J3, J4, J5, J6.
  assert (Q3 : q_elec q = q_elec q') by congruence. assert (Q4 : q_heat q = q_heat q') by congruence. assert (Q5 : q_return q = q_return q') by congruence. assert (Q6 : q_delta q = q_delta q') by congruence.
  pose proof (hold_init _ _ _ HO) as IN. pose proof (hold_init _ _ _ HO') as IN'. rewrite ED in IN'. destruct (init_but_pump _ _ _ _ _ IN IN') as (P1 & P2 & P3 & P4 & P5 & P6 & P7).
  destruct SI as (S1 & _ & _ & _ & _ & _ & _ & S8 & S9 & S10 & S11 & _). destruct SI' as (S1' & _ & _ & _ & _ & _ & _ & S8' & S9' & S10' & S11' & _).
  assert (s' = s). { refine (counts_one _ _ _ _ _ _ _ S10). unfold counts in *. destruct S10' as (v & V & W). exists v. split; [|exact W]. unfold holds in *. rewrite X by discriminate. exact V. }
  assert (n' = n). { refine (counts_one _ _ _ _ _ _ _ S11). unfold counts in *. destruct S11' as (v & V & W). exists v. split; [|exact W]. unfold holds in *. rewrite X by discriminate. exact V. }
  assert (n0 = n) by exact (counts_one _ _ _ _ _ _ N0 S11). subst s' n' n0.
  assert (QX : q_export q = q_export q') by (unfold holds in S8, S8'; rewrite X in S8 by discriminate; congruence).
  assert (QI : q_import q = q_import q') by (rewrite <- P7 in S9'; congruence).
  destruct (C85_heat_pump _ _ _ _ _ PL B S1) as (_ & H2 & _ & H4 & H5 & _ & _ & _ & _ & _ & _ & ap & H12 & H13). destruct (C85_heat_pump _ _ _ _ _ PL' B' S1') as (_ & H2' & _ & H4' & H5' & _ & _ & _ & _ & _ & _ & ap' & H12' & H13').
  assert (UM : forall a b, In a model_names -> In b model_names -> model_name_value a = model_name_value b -> a = b) by (intros [] [] _ _; discriminate || reflexivity).
  assert (ap = SIMPLE) by exact (chooses_one _ _ _ _ _ _ _ _ UM H12 M1). assert (ap' = SIMPLE) by exact (chooses_one _ _ _ _ _ _ _ _ UM H12' M1'). subst ap ap'. cbn [model_of] in H13, H13'.
  destruct H13 as (c & Hc & Mc). destruct H13' as (c' & Hc' & Mc').
  assert (OP : other_pump L q q' c c').
  { unfold other_pump. repeat (split; [assumption|]). split; [rewrite H2, H2', ES; reflexivity|]. split; [unfold holds in H4, H4'; rewrite X7 in H4; congruence|]. split; [unfold holds in H5, H5'; rewrite X8 in H5; congruence|]. split; assumption. }
  set (P := plant_of L q x (k_above (c_controller k)) (k_below (c_controller k))) in *. set (P' := plant_of L q' x (k_above (c_controller k)) (k_below (c_controller k))) in *.
  destruct (C85_tariff _ _ _ _ _ PL B S1) as (TT & _ & TF & _). cbv zeta in TT, TF. apply says_name in TT, F1. assert (E0 : M_Grid.g_tariff (o_grid (q_parts q)) = "Flat rates") by congruence.
  rewrite E0 in TF. specialize (TF (or_introl eq_refl)).
  assert (HY : forall J, In J year -> hour_ok P J /\ (0 <= i_import_price J)%Q).
  { intros J IJ. rewrite Forall_forall in KH. split; [exact (KH J IJ)|]. destruct (year_of_inv _ _ _ _ _ Y) as (g & tot & wind & hp & _ & _ & _ & _ & _ & _ & FY & G8). apply In_nth_error in IJ as (i & NJ). pose proof (G8 i J NJ) as (_ & _ & _ & _ & _ & _ & E7 & _).
    assert (Hi : (0 <= Z.of_nat i < 8760)%Z) by (assert (i < length year) by (apply nth_error_Some; congruence); unfold full_year in FY; lia).
    pose proof (P_Grid.C30_flat_constant _ _ E0 S9 _ Hi) as XX. unfold S_Grid.price_at in XX. rewrite Nat2Z.id, E7 in XX. injection XX as ->. exact (F2 9 _ eq_refl TF). }
  assert (HY' : forall J, In J year' -> hour_ok P' J) by (rewrite Forall_forall in KH'; exact KH').
  assert (NS : no_store P).
  { intros st nodes src flow t m Hm. cbn [P plant_of p_tank] in Hm. destruct (C85_tank L wb _ _ _ PL B S1) as (T1 & _). rewrite P_Tank.C26_zero_size in Hm by (rewrite T1, Z0; reflexivity). apply Ok_inj in Hm. subst m. reflexivity. }
  assert (SO : simple_battery_orders P).
  { intros J ps HJ. split; [exact (KO J ps HJ)|]. destruct HJ as [(_ & HJ)|(_ & HJ)]; [exact (LA _ _ Ha HJ)|exact (LB _ _ Hb HJ)]. }
  assert (SD : (b_self_discharge (o_battery (q_parts q)) == 0)%Q) by (destruct (C85_battery L wb _ _ _ PL B S1) as (r & _ & _ & _ & _ & _ & _ & _ & H7); exact (NL r _ H7)).
  pose proof (C117_workbook_partial L run_pv lc q q' c c' x _ _ year year' s n _ _ OP (X12 _ _ Hc Hc') Y Y' KP KI SD NS SO HY HY' T T') as BE.
  unfold calcs in C, C'. cbv zeta in C, C'. assert (o = q_parts q) by congruence. subst o. rewrite <- ES in U', S1'. assert (o' = q_parts q') by congruence. subst o'.
  pose proof CO as CC. apply combination_parts in CC as ((CC & _) & _). destruct (C81_controller wb k PL RI) as (_ & Q1 & Q2 & _). assert (FE : x_fuel (c_aux (d_inputs d)) = x_fuel (c_aux (d_inputs d'))) by (rewrite ED; reflexivity).
  rewrite ED in C'. cbn [with_pump c_controller c_heat_pump c_aux] in C'. rewrite <- ED in C'. rewrite CC, Q1, Q2, (counts_is _ _ _ _ _ S10), (counts_is _ _ _ _ _ S11), GO in C. rewrite CC, Q1, Q2, (counts_is _ _ _ _ _ S10), (counts_is _ _ _ _ _ S11), GO' in C'. cbn [bind] in C, C'.
  destruct (rhi_of (c_heat_pump (d_inputs d))) as [rh|]; cbn [bind] in C; [|discriminate]. destruct (rhi_of (c_heat_pump (d_inputs d'))) as [rh'|]; cbn [bind] in C'; [|discriminate]. apply Ok_inj in C, C'. subst K K'.
  exists P, P', year, year', s, n. unfold run_of. cbn [k_results k_timesteps k_first_hour k_fuel]. rewrite FU.
  split; [split; [exact T|repeat split; lia]|]. split; [split; [exact T'|split; [reflexivity|split; [reflexivity|split; [|lia]]]]|].
  - cbn [P' plant_of p_aux]. rewrite <- P6. reflexivity.
  - split; [exact BE|]. split; [exact (F3 9 _ eq_refl S8)|]. split; [reflexivity|]. intro EB. destruct (C85_backup L wb _ _ _ PL B S1) as (B1 & _).
    assert (UU : forall a b, In a fuels -> In b fuels -> fuel_value a = fuel_value b -> a = b) by (intros [] [] _ _; discriminate || reflexivity). exact (chooses_one _ _ _ _ _ _ _ _ UU B1 EB).
Qed.
