(** Runs of a period as a whole and in two parts. *)
From Coq Require Import String Ascii.
From Verif Require Import Base BaseL M_Battery S_Battery M_HeatPump M_Tools S_HeatPump M_FixedOrder S_FixedOrder L_FixedOrderRun L_Tank S_Scale P_Scale S_Window P_Window
  M_Excel S_Excel L_Excel L_ExcelSheets P_Excel M_Init S_Init L_Init P_Init M_Program S_Program L_Program L_ProgramRuns L_ProgramOk P_Program P_ProgramOk L_Books S_Books S_Rows
  M_Kpi S_Kpi L_Kpi L_KpiSums S_Periods.
From Verif Require M_Tank P_Tank M_Grid M_Sweep.
Local Open Scope nat_scope.
Local Open Scope string_scope.
Local Open Scope list_scope.

Definition with_controller (k : container) (g : controller) : container :=
  {| c_parametric := c_parametric k; c_controller := g; c_resources := c_resources k; c_hot_water := c_hot_water k; c_heating := c_heating k; c_temp_return := c_temp_return k;
     c_source_delta_t := c_source_delta_t k; c_demand := c_demand k; c_PV_location := c_PV_location k; c_PV_spec := c_PV_spec k; c_wind_database := c_wind_database k; c_wind_user := c_wind_user k;
     c_power_curve := c_power_curve k; c_wind_farm := c_wind_farm k; c_battery := c_battery k; c_grid := c_grid k; c_aux := c_aux k; c_tank := c_tank k; c_heat_pump := c_heat_pump k |}.
Lemma read_but_controller wb wb' k k' : read_inputs wb = Ok k -> read_inputs wb' = Ok k' -> (forall N, N <> "Controller" -> wb N = wb' N) -> k' = with_controller k (c_controller k').
Proof.
  intros R R' E. apply read_inputs_parts in R as (A1 & _ & A3 & A4 & A5 & A6 & A7 & A8 & A9 & A10 & A11 & A12 & A13).
  apply read_inputs_parts in R' as (B1 & _ & B3 & B4 & B5 & B6 & B7 & B8 & B9 & B10 & B11 & B12 & B13).
  assert (G : forall N, N <> "Controller" -> get_sheet wb N = get_sheet wb' N) by (intros; apply get_sheet_ext, E; assumption).
  unfold x_parametric in *. rewrite (G "Parametric"), B1 in A1 by discriminate. apply Ok_inj in A1.
  unfold x_resources in *. rewrite (G "Weather resources"), B3 in A3 by discriminate. apply Ok_inj in A3.
  unfold x_demands in *. rewrite (G "Demand gen"), B4 in A4 by discriminate. apply Ok_inj in A4. injection A4 as A41 A42.
  unfold x_demand_input in *. rewrite (G "Demand input"), B5 in A5 by discriminate. apply Ok_inj in A5. injection A5 as A51 A52 A53.
  unfold x_PV in *. rewrite (G "PV inputs"), B6 in A6 by discriminate. apply Ok_inj in A6. injection A6 as A61 A62.
  unfold x_wind in *. rewrite (G "Wind inputs"), B7 in A7 by discriminate. apply Ok_inj in A7. injection A7 as A71 A72 A73.
  unfold x_wind_farm in *. rewrite (G "Wind farm"), B8 in A8 by discriminate. apply Ok_inj in A8.
  unfold x_electrical_storage in *. rewrite (G "Electrical storage"), B9 in A9 by discriminate. apply Ok_inj in A9.
  unfold x_grid in *. rewrite (G "Grid"), B10 in A10 by discriminate. apply Ok_inj in A10.
  unfold x_aux in *. rewrite (G "Aux heat"), B11 in A11 by discriminate. apply Ok_inj in A11.
  unfold x_thermal_storage in *. rewrite (G "Thermal storage"), B12 in A12 by discriminate. apply Ok_inj in A12.
  unfold x_heat_pump in *. rewrite (G "Heat pump"), B13 in A13 by discriminate. apply Ok_inj in A13.
  destruct k, k'. unfold with_controller. cbn in *. subst. reflexivity.
Qed.
Lemma combination_but_controller h t k g j j' : combination h t k = Ok j -> combination h t (with_controller k g) = Ok j' -> j' = with_controller j g.
Proof.
  unfold combination, with_controller. cbn. intros C C'. revert C C'. repeat (match goal with |- bind ?x _ = _ -> _ => destruct x as [?|?]; cbn [bind]; [|discriminate] end).
  intros C C'. apply Ok_inj in C, C'. subst. reflexivity.
Qed.
(** The plant and the year do not depend on the period. *)
Lemma same_year L run_pv lc opt price wb out d k q s n x year wb' out' d' K' :
  read_inputs wb = Ok k -> combination (fst (d_sizes d)) (snd (d_sizes d)) k = Ok (d_inputs d) -> hold L (d_inputs d) = Ok q -> holds wb "Controller" "D" 7 x ->
  order_of (xl wb "Controller" "D" 8) = Ok (k_above (c_controller k)) -> order_of (xl wb "Controller" "D" 9) = Ok (k_below (c_controller k)) -> year_of L run_pv lc q = Ok year ->
  ran L run_pv lc opt price wb "Fixed order control" out d -> counts wb "Controller" "G" 5 s -> counts wb "Controller" "G" 6 n ->
  ran L run_pv lc opt price wb' "Fixed order control" out' d' -> other_period wb wb' -> d_sizes d = d_sizes d' -> calcs L d' = Ok K' ->
  exists s' n', counts wb' "Controller" "G" 5 s' /\ counts wb' "Controller" "G" 6 n' /\ complete_run K' /\ k_timesteps K' = n' /\ k_name K' = M_Sweep.folder_name (d_sizes d) /\ k_fuel K' = x_fuel (c_aux (d_inputs d)) /\
    run_timesteps (plant_of L q x (k_above (c_controller k)) (k_below (c_controller k))) year s' n' = Ok (k_results K').
Proof.
  intros RI CO HO Hx Ha Hb Y _ _ _ R' (LD & OC) ES C'. pose proof (C95_hours_needed _ _ _ _ _ _ _ _ R') as (_ & s0 & n0 & M0 & N0 & _ & N1 & LE).
  destruct (fixed_held _ _ _ _ _ _ _ _ R') as (k' & q' & s' & n' & x' & year' & RI' & CO' & HO' & SI' & Hx' & Ha' & Hb' & Y' & T').
  destruct SI' as (S1' & _ & _ & _ & _ & _ & _ & _ & _ & S10' & S11' & _). assert (n0 = n') by exact (counts_one _ _ _ _ _ _ N0 S11'). subst n0.
  destruct R' as (PL' & B' & _ & PR' & I'). pose proof (done_set_up _ _ _ _ _ _ _ _ PR' I') as (o' & U' & GO' & FU').
  assert (X7 : xl wb "Controller" "D" 7 = xl wb' "Controller" "D" 7) by (apply OC; cbn; tauto). assert (X8 : xl wb "Controller" "D" 8 = xl wb' "Controller" "D" 8) by (apply OC; cbn; tauto). assert (X9 : xl wb "Controller" "D" 9 = xl wb' "Controller" "D" 9) by (apply OC; cbn; tauto).
  assert (x' = x) by (unfold holds in Hx, Hx'; rewrite <- X7 in Hx'; congruence). subst x'. rewrite <- X8, Ha in Ha'. rewrite <- X9, Hb in Hb'. apply Ok_inj in Ha', Hb'. rewrite <- Ha', <- Hb' in T'.
  pose proof (read_but_controller wb wb' k k' RI RI' LD) as EK. rewrite <- ES, EK in CO'. pose proof (combination_but_controller _ _ _ _ _ _ CO CO') as ED.
  assert (q' = q). { rewrite ED in HO'. change (hold L (with_controller (d_inputs d) (c_controller k'))) with (hold L (d_inputs d)) in HO'. congruence. } subst q'. assert (year' = year) by congruence. subst year'.
  exists s', n'. split; [exact S10'|]. split; [exact S11'|]. unfold calcs in C'. cbv zeta in C'. assert (EC : c_controller (d_inputs d') = c_controller k') by (rewrite ED; reflexivity). rewrite EC in C'. destruct (C81_controller wb' k' PL' RI') as (_ & Q1 & Q2 & _).
  rewrite Q1, Q2, (counts_is _ _ _ _ _ S10'), (counts_is _ _ _ _ _ S11'), GO' in C'. cbn [bind] in C'. destruct (rhi_of _) as [rh|]; cbn [bind] in C'; [|discriminate]. apply Ok_inj in C'. subst K'. unfold complete_run. cbn [k_results k_timesteps k_name k_fuel].
  split; [split; [lia|]|]. { pose proof (run_length _ _ _ _ _ T') as RL. lia. } split; [reflexivity|]. split; [rewrite ES; reflexivity|]. split; [rewrite ED; reflexivity|exact T'].
Qed.
Lemma parts L run_pv lc opt price wb wb1 wb2 out out1 out2 d d1 d2 K K1 K2 m k : split_period wb wb1 wb2 m k ->
  ran L run_pv lc opt price wb "Fixed order control" out d -> ran L run_pv lc opt price wb1 "Fixed order control" out1 d1 -> ran L run_pv lc opt price wb2 "Fixed order control" out2 d2 ->
  d_sizes d = d_sizes d1 -> d_sizes d = d_sizes d2 -> calcs L d = Ok K -> calcs L d1 = Ok K1 -> calcs L d2 = Ok K2 ->
  complete_run K /\ complete_run K1 /\ complete_run K2 /\ k_name K = k_name K1 /\ k_name K = k_name K2 /\ k_fuel K = k_fuel K1 /\ k_fuel K = k_fuel K2 /\
  exists later, k_results K = k_results K1 ++ later /\ (no_battery wb -> snd (d_sizes d) = 0%Z -> Forall2 same_record later (k_results K2)).
Proof.
  intros (O1 & O2 & s & S5 & S6 & A5 & A6 & B5 & B6) R R1 R2 E1 E2 C C1 C2.
  destruct (fixed_held _ _ _ _ _ _ _ _ R) as (kk & q & s' & n' & x & year & RI & CO & HO & SI & Hx & Ha & Hb & Y & T).
  pose proof SI as (S1 & _ & _ & _ & _ & _ & _ & _ & _ & S10 & S11 & _). assert (s' = s) by exact (counts_one _ _ _ _ _ _ S10 S5). assert (n' = m + k)%Z by exact (counts_one _ _ _ _ _ _ S11 S6). subst s' n'.
  assert (O0 : other_period wb wb) by (split; intros; reflexivity).
  destruct (same_year _ _ _ _ _ _ _ _ _ _ _ _ _ _ _ _ _ _ RI CO HO Hx Ha Hb Y R S5 S6 R O0 eq_refl C) as (s0 & n0 & X5 & X6 & CR & TS & NM & FU & T0).
  destruct (same_year _ _ _ _ _ _ _ _ _ _ _ _ _ _ _ _ _ _ RI CO HO Hx Ha Hb Y R S5 S6 R1 O1 E1 C1) as (s1 & n1 & X15 & X16 & CR1 & TS1 & NM1 & FU1 & T1).
  destruct (same_year _ _ _ _ _ _ _ _ _ _ _ _ _ _ _ _ _ _ RI CO HO Hx Ha Hb Y R S5 S6 R2 O2 E2 C2) as (s2 & n2 & X25 & X26 & CR2 & TS2 & NM2 & FU2 & T2).
  assert (s0 = s) by exact (counts_one _ _ _ _ _ _ X5 S5). assert (n0 = m + k)%Z by exact (counts_one _ _ _ _ _ _ X6 S6). assert (s1 = s) by exact (counts_one _ _ _ _ _ _ X15 A5). assert (n1 = m) by exact (counts_one _ _ _ _ _ _ X16 A6).
  assert (s2 = s + m)%Z by exact (counts_one _ _ _ _ _ _ X25 B5). assert (n2 = k) by exact (counts_one _ _ _ _ _ _ X26 B6).
  assert (Hm : (0 <= m)%Z) by (destruct CR1; lia). assert (Hk : (0 <= k)%Z) by (destruct CR2; lia). clear TS TS1 TS2. subst s0 n0 s1 n1 s2 n2.
  set (P := plant_of L q x (k_above (c_controller kk)) (k_below (c_controller kk))) in *.
  do 3 (split; [assumption|]). do 4 (split; [congruence|]).
  exists (skipn (Z.to_nat m) (k_results K)). split.
  - destruct (run_inv _ _ _ _ _ T0) as (_ & _ & L0). destruct (run_inv _ _ _ _ _ T1) as (_ & _ & L1). rewrite (zrange_split s (s + m) (s + (m + k))) in L0 by lia.
    destruct (run_loop_app _ _ _ _ _ _ L0) as (rs1 & rs2 & E & LN & Q1 & _). rewrite L1 in Q1. apply Ok_inj in Q1. rewrite E, Q1. f_equal.
    assert (Lz : length (zrange s (s + m)) = Z.to_nat m). { unfold zrange. rewrite map_length, seq_length. lia. } rewrite Lz in LN. rewrite <- LN, skipn_app, skipn_all, Nat.sub_diag. reflexivity.
  - intros NB Z0. destruct R as (PL & B & _).
    assert (NS : nothing_stored P).
    { destruct (C85_tank L wb _ _ _ PL B S1) as (TK & _). destruct (C85_battery L wb _ _ _ PL B S1) as (r & _ & BK & _). split; cbn [P plant_of p_battery p_tank M_Tank.tank_instance t_capacity]; [exact (NB r _ Logic.I BK)|rewrite TK, Z0; reflexivity]. }
    pose proof (C116_window_partial P year s m k (C110_store _ _ _) NS Hm Hk _ T0) as W. rewrite T2 in W. exact W.
Qed.
