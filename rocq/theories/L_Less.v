(** Runs of two workbooks that differ in the hourly demands only. *)
From Coq Require Import String Ascii.
From Verif Require Import Base BaseL M_Battery S_Battery M_HeatPump M_Tools S_HeatPump M_FixedOrder S_FixedOrder L_FixedOrderHour L_FixedOrderRun P_FixedOrder L_Tank S_HeatPumpSize S_Easier P_Easier
  M_Excel S_Excel L_Excel L_ExcelSheets P_Excel M_Init S_Init L_Init P_Init M_Program S_Program L_Program L_ProgramRuns L_ProgramOk P_Program P_ProgramOk S_Sensible L_Sensible S_Books L_Books L_Rows M_Kpi S_Kpi S_Less.
From Verif Require M_Tank P_Tank M_Grid P_Grid S_Grid M_Renewables M_Sweep.
Local Open Scope nat_scope.
Local Open Scope string_scope.
Local Open Scope list_scope.

Definition with_demand (k : container) (r d : value) (f : frame) : container :=
  {| c_parametric := c_parametric k; c_controller := c_controller k; c_resources := c_resources k; c_hot_water := c_hot_water k; c_heating := c_heating k; c_temp_return := r;
     c_source_delta_t := d; c_demand := f; c_PV_location := c_PV_location k; c_PV_spec := c_PV_spec k; c_wind_database := c_wind_database k; c_wind_user := c_wind_user k;
     c_power_curve := c_power_curve k; c_wind_farm := c_wind_farm k; c_battery := c_battery k; c_grid := c_grid k; c_aux := c_aux k; c_tank := c_tank k; c_heat_pump := c_heat_pump k |}.
Lemma read_but_demand wb wb' k k' : read_inputs wb = Ok k -> read_inputs wb' = Ok k' -> (forall N, N <> "Demand input" -> wb N = wb' N) -> k' = with_demand k (c_temp_return k') (c_source_delta_t k') (c_demand k').
Proof.
  intros R R' E. apply read_inputs_parts in R as (A1 & A2 & A3 & A4 & _ & A6 & A7 & A8 & A9 & A10 & A11 & A12 & A13).
  apply read_inputs_parts in R' as (B1 & B2 & B3 & B4 & _ & B6 & B7 & B8 & B9 & B10 & B11 & B12 & B13).
  assert (G : forall N, N <> "Demand input" -> get_sheet wb N = get_sheet wb' N) by (intros; apply get_sheet_ext, E; assumption).
  unfold x_parametric in *. rewrite (G "Parametric"), B1 in A1 by discriminate. apply Ok_inj in A1.
  unfold x_controller in *. rewrite (G "Controller"), B2 in A2 by discriminate. apply Ok_inj in A2.
  unfold x_resources in *. rewrite (G "Weather resources"), B3 in A3 by discriminate. apply Ok_inj in A3.
  unfold x_demands in *. rewrite (G "Demand gen"), B4 in A4 by discriminate. apply Ok_inj in A4. injection A4 as A41 A42.
  unfold x_PV in *. rewrite (G "PV inputs"), B6 in A6 by discriminate. apply Ok_inj in A6. injection A6 as A61 A62.
  unfold x_wind in *. rewrite (G "Wind inputs"), B7 in A7 by discriminate. apply Ok_inj in A7. injection A7 as A71 A72 A73.
  unfold x_wind_farm in *. rewrite (G "Wind farm"), B8 in A8 by discriminate. apply Ok_inj in A8.
  unfold x_electrical_storage in *. rewrite (G "Electrical storage"), B9 in A9 by discriminate. apply Ok_inj in A9.
  unfold x_grid in *. rewrite (G "Grid"), B10 in A10 by discriminate. apply Ok_inj in A10.
  unfold x_aux in *. rewrite (G "Aux heat"), B11 in A11 by discriminate. apply Ok_inj in A11.
  unfold x_thermal_storage in *. rewrite (G "Thermal storage"), B12 in A12 by discriminate. apply Ok_inj in A12.
  unfold x_heat_pump in *. rewrite (G "Heat pump"), B13 in A13 by discriminate. apply Ok_inj in A13.
  destruct k, k'. unfold with_demand. cbn in *. subst. reflexivity.
Qed.
Lemma combination_but_demand h t k r d f j j' : combination h t k = Ok j -> combination h t (with_demand k r d f) = Ok j' -> j' = with_demand j r d f.
Proof.
  unfold combination, with_demand. cbn. intros C C'. revert C C'. repeat (match goal with |- bind ?x _ = _ -> _ => destruct x as [?|?]; cbn [bind]; [|discriminate] end).
  intros C C'. apply Ok_inj in C, C'. subst. reflexivity.
Qed.
Definition init_of L k := init (lib_width L) (lib_pi L) (lib_cp L) (lib_fit L) (lib_wind L) (lib_module L) (lib_inverter L) (lib_cec L) (lib_sandia L) (lib_inverters L) k.
Lemma hold_init L k (q : held L) : hold L k = Ok q -> init_of L k = Ok (q_parts q).
Proof. unfold hold, init_of. intro H. destruct (init _ _ _ _ _ _ _ _ _ _ k) as [o|] eqn:E; cbn [bind] in H; [|discriminate]. inv_bind H. apply Ok_inj in H. subst q. reflexivity. Qed.
Lemma init_but_demand L k r d f : numbers f "temp_source" = numbers (c_demand k) "temp_source" -> number r = number (c_temp_return k) -> init_of L (with_demand k r d f) = init_of L k.
Proof.
  intros E1 E2. unfold init_of, init.
  assert (H : forall a w, heat_pump_of (lib_fit L) (with_demand k r d f) a w = heat_pump_of (lib_fit L) k a w).
  { intros a w. unfold heat_pump_of. cbn [with_demand c_heat_pump c_demand c_temp_return]. rewrite E1, E2. reflexivity. }
  change (battery_of (with_demand k r d f)) with (battery_of k). change (aux_of (with_demand k r d f)) with (aux_of k). change (grid_of (lib_wind L) (with_demand k r d f)) with (grid_of (lib_wind L) k).
  change (user_turbine (with_demand k r d f)) with (user_turbine k). change (database_turbine (with_demand k r d f)) with (database_turbine k). change (pv_of (with_demand k r d f)) with (pv_of k).
  change (tank_of (lib_width L) (lib_pi L) (lib_cp L) (with_demand k r d f)) with (tank_of (lib_width L) (lib_pi L) (lib_cp L) k). change (c_resources (with_demand k r d f)) with (c_resources k).
  repeat (match goal with |- bind ?x _ = bind ?x _ => destruct x; cbn [bind]; [|reflexivity] end; try rewrite H). reflexivity.
Qed.
Lemma same_list {A} (l l' : list A) : (forall i, nth_error l i = nth_error l' i) -> l = l'.
Proof.
  revert l'. induction l as [|a l IH]; intros [|b l'] H; [reflexivity|discriminate (H 0)|discriminate (H 0)|]. f_equal; [specialize (H 0); cbn in H; congruence|]. apply IH. intro i. exact (H (S i)).
Qed.
Lemma same_down wb wb' N c r l l' : holds_down wb N c r l -> holds_down wb' N c r l' -> length l = length l' -> (forall r, xl wb N c r = xl wb' N c r) -> l = l'.
Proof.
  intros (_ & A) (_ & B) E X. apply same_list. intro i. destruct (Nat.lt_ge_cases i (length l)) as [K|K].
  - destruct (A i K) as (x & -> & Hx). destruct (B i ltac:(lia)) as (y & -> & Hy). unfold holds in *. rewrite X in Hx. congruence.
  - rewrite (proj2 (nth_error_None l i)), (proj2 (nth_error_None l' i)) by lia. reflexivity.
Qed.
Lemma down_at wb N c r l i x : holds_down wb N c r l -> nth_error l i = Some x -> holds wb N c (r + i) x.
Proof. intros (_ & A) E. destruct (A i) as (y & Ey & Hy); [apply nth_error_Some; congruence|]. rewrite E in Ey. injection Ey as ->. exact Hy. Qed.
Lemma some_map {A} (l : list A) : forall m, map Some l = map Some m -> l = m.
Proof. induction l as [|a l IH]; intros [|b m] E; try discriminate; [reflexivity|]. cbn in E. injection E as E1 E2. subst. f_equal. apply IH, E2. Qed.

Lemma less L run_pv lc opt price wb wb' out out' d d' K K' : less_demand wb wb' ->
  ran L run_pv lc opt price wb "Fixed order control" out d -> ran L run_pv lc opt price wb' "Fixed order control" out' d' -> d_sizes d = d_sizes d' -> snd (d_sizes d) = 0%Z ->
  sensible L lc wb (d_sizes d) -> sensible L lc wb' (d_sizes d) -> simple_battery_cells wb -> no_leak_cell wb -> flat_prices wb -> calcs L d = Ok K -> calcs L d' = Ok K' ->
  exists P P' year year' s n, run_of P year s n K /\ run_of P' year' s n K' /\ Forall2 (better P) (k_results K) (k_results K') /\ (0 <= p_export_price P)%Q /\ k_fuel K = k_fuel K' /\
    (chooses fuels fuel_value wb "Aux heat" "C" 6 ELECTRIC -> k_fuel K = ELECTRIC).
Proof.
  intros (LD1 & LD2 & LD3) R R' ES Z0 SE SE' (LA & LB) NL (F1 & F2 & F3) C C'. pose proof (C95_hours_needed _ _ _ _ _ _ _ _ R) as (_ & s0 & n0 & _ & N0 & _ & N1 & _).
  destruct (fixed_held _ _ _ _ _ _ _ _ R) as (k & q & s & n & x & year & RI & CO & HO & SI & Hx & Ha & Hb & Y & T).
  destruct (fixed_held _ _ _ _ _ _ _ _ R') as (k' & q' & s' & n' & x' & year' & RI' & CO' & HO' & SI' & Hx' & Ha' & Hb' & Y' & T').
  destruct R as (PL & B & _ & PR & I). destruct R' as (PL' & B' & _ & PR' & I').
  pose proof (done_set_up _ _ _ _ _ _ _ _ PR I) as (o & U & GO & FU). pose proof (done_set_up _ _ _ _ _ _ _ _ PR' I') as (o' & U' & GO' & FU').
  assert (X : forall M c r, M <> "Demand input" -> xl wb M c r = xl wb' M c r) by (intros M c r E; unfold xl; rewrite (LD1 M E); reflexivity).
  assert (x' = x) by (unfold holds in Hx, Hx'; rewrite <- X in Hx' by discriminate; congruence). subst x'.
  pose proof (read_but_demand wb wb' k k' RI RI' LD1) as EK. assert (EC : c_controller k' = c_controller k) by (rewrite EK; reflexivity). rewrite EC in T', Ha', Hb'.
  rewrite ES in SE'. pose proof (sensible_plant L run_pv lc wb out d q s n x _ _ year PL B SE SI Ha Hb Y) as (KP & KI & KH & KO).
  pose proof (sensible_plant L run_pv lc wb' out' d' q' s' n' x _ _ year' PL' B' SE' SI' Ha' Hb' Y') as (KP' & KI' & KH' & _).
  rewrite <- ES in CO'. rewrite EK in CO'. pose proof (combination_but_demand _ _ _ _ _ _ _ _ CO CO') as ED.
  pose proof (hold_inv L _ _ HO) as (_ & I1 & _ & _ & _ & I5 & _). pose proof (hold_inv L _ _ HO') as (_ & J1 & _ & _ & _ & J5 & _).
  destruct SI as (S1 & S2 & S3 & S4 & S5 & S6 & S7 & S8 & S9 & S10 & S11 & _). destruct SI' as (S1' & S2' & S3' & S4' & S5' & S6' & S7' & S8' & S9' & S10' & S11' & _).
  assert (s' = s). { refine (counts_one _ _ _ _ _ _ _ S10). unfold counts in *. destruct S10' as (v & V & W). exists v. split; [|exact W]. unfold holds in *. rewrite X by discriminate. exact V. }
  assert (n' = n). { refine (counts_one _ _ _ _ _ _ _ S11). unfold counts in *. destruct S11' as (v & V & W). exists v. split; [|exact W]. unfold holds in *. rewrite X by discriminate. exact V. }
  assert (n0 = n) by exact (counts_one _ _ _ _ _ _ N0 S11). subst s' n' n0.
  destruct (year_of_inv _ _ _ _ _ Y) as (g & tot & wind & hp & Y1 & _ & Y3 & _ & Y5 & Y6 & FY & G8). destruct (year_of_inv _ _ _ _ _ Y') as (g' & tot' & wind' & hp' & Y1' & _ & Y3' & _ & Y5' & Y6' & FY' & G8').
  assert (LL : forall c c' l l', holds_down wb "Demand input" c 6 l -> holds_down wb' "Demand input" c' 6 l' -> length l = length l').
  { intros c c' l l' (E & _) (E' & _). rewrite E, E'. destruct S3 as (E3 & _). destruct S3' as (E3' & _). unfold full_year in *. lia. }
  assert (QF : q_flow q = q_flow q') by (apply (same_down wb wb' _ _ _ _ _ S4 S4' (LL _ _ _ _ S4 S4')); intro r; apply LD2; cbn; tauto).
  assert (QS : q_source q = q_source q') by (apply (same_down wb wb' _ _ _ _ _ S5 S5' (LL _ _ _ _ S5 S5')); intro r; apply LD2; cbn; tauto).
  assert (QR : q_return q = q_return q') by (unfold holds in S6, S6'; rewrite LD2 in S6 by (cbn; tauto); congruence).
  assert (QD : q_delta q = q_delta q') by (unfold holds in S7, S7'; rewrite LD2 in S7 by (cbn; tauto); congruence).
  assert (QX : q_export q = q_export q') by (unfold holds in S8, S8'; rewrite X in S8 by discriminate; congruence).
  assert (QP : q_parts q' = q_parts q).
  { apply hold_init in HO, HO'. rewrite ED in HO', J1, J5. cbn [with_demand c_demand c_temp_return] in J1, J5. rewrite init_but_demand in HO'; [congruence|rewrite J1, I1, QS; reflexivity|rewrite J5, I5, QR; reflexivity]. }
  assert (QI : q_import q = q_import q') by (rewrite QP in S9'; congruence).
  rewrite QP in Y1', Y6', S1'. assert (g' = g) by congruence. subst g'. assert (hp' = hp) by congruence. subst hp'. assert (wind' = wind) by (apply some_map; congruence). subst wind'.
  set (P := plant_of L q x (k_above (c_controller k)) (k_below (c_controller k))) in *. set (P' := plant_of L q' x (k_above (c_controller k)) (k_below (c_controller k))) in *.
  assert (SP : same_plant P P').
  { unfold same_plant. cbn [P P' plant_of p_battery p_hp_capacity p_min_runtime p_min_output p_aux p_tank p_export_price p_setpoint p_order_above p_order_below]. rewrite QP, QR, QD, QX. repeat split. }
  destruct (C85_tariff _ _ _ _ _ PL B S1) as (TT & _ & TF & _). cbv zeta in TT, TF. apply says_name in TT, F1. assert (E0 : M_Grid.g_tariff (o_grid (q_parts q)) = "Flat rates") by congruence.
  rewrite E0 in TF. specialize (TF (or_introl eq_refl)).
  assert (HF : Forall2 (hours_eased P P') year year').
  { apply Forall2_nth; [unfold full_year in *; lia|]. intros i J J' NJ NJ'. pose proof (G8 i J NJ) as (E1 & E2 & E3 & E4 & E5 & E6 & E7 & E8). pose proof (G8' i J' NJ') as (E1' & E2' & E3' & E4' & E5' & E6' & E7' & E8').
    rewrite Forall_forall in KH, KH'. split; [|split; [exact (KH _ (nth_error_In _ _ NJ))|split; [exact (KH' _ (nth_error_In _ _ NJ'))|]]].
    - rewrite <- QF in E6'. rewrite <- QS in E5'. rewrite <- QI in E7'. unfold easier_hour. assert (W : i_wind J = i_wind J') by congruence. assert (V : i_PV J = i_PV J') by congruence. rewrite W, V.
      split; [apply Qle_refl|]. split; [apply (LD3 "E"%char (6 + i)); [cbn; tauto|exact (down_at _ _ _ _ _ _ _ S3 E3)|exact (down_at _ _ _ _ _ _ _ S3' E3')]|].
      split; [apply (LD3 "D"%char (6 + i)); [cbn; tauto|exact (down_at _ _ _ _ _ _ _ S2 E4)|exact (down_at _ _ _ _ _ _ _ S2' E4')]|].
      repeat match goal with |- _ /\ _ => split end; congruence.
    - assert (Hi : (0 <= Z.of_nat i < 8760)%Z) by (assert (i < length year) by (apply nth_error_Some; congruence); unfold full_year in FY; lia).
      pose proof (P_Grid.C30_flat_constant _ _ E0 S9 _ Hi) as XX. unfold S_Grid.price_at in XX. rewrite Nat2Z.id, E7 in XX. injection XX as ->. exact (F2 9 _ eq_refl TF). }
  assert (NS : no_store P).
  { intros st nodes src flow t m Hm. cbn [P plant_of p_tank] in Hm. destruct (C85_tank L wb _ _ _ PL B S1) as (T1 & _). rewrite P_Tank.C26_zero_size in Hm by (rewrite T1, Z0; reflexivity). apply Ok_inj in Hm. subst m. reflexivity. }
  assert (SO : simple_battery_orders P).
  { intros J ps HJ. split; [exact (KO J ps HJ)|]. destruct HJ as [(_ & HJ)|(_ & HJ)]; [exact (LA _ _ Ha HJ)|exact (LB _ _ Hb HJ)]. }
  assert (SD : (b_self_discharge (p_battery P) == 0)%Q) by (destruct (C85_battery L wb _ _ _ PL B S1) as (r & _ & _ & _ & _ & _ & _ & _ & H7); exact (NL r _ H7)).
  pose proof (C108_run_partial P P' year year' s n _ _ SP KP KI NS SO SD HF T T') as BE.
  unfold calcs in C, C'. cbv zeta in C, C'. assert (o = q_parts q) by congruence. subst o. rewrite <- ES in U'. assert (o' = q_parts q) by congruence. subst o'.
  pose proof CO as CC. apply combination_parts in CC as ((CC & _) & _). destruct (C81_controller wb k PL RI) as (_ & Q1 & Q2 & _).
  rewrite ED in C', GO'. cbn [with_demand c_controller c_heat_pump c_aux] in C'. rewrite CC, Q1, Q2, (counts_is _ _ _ _ _ S10), (counts_is _ _ _ _ _ S11), GO in C. rewrite CC, Q1, Q2, (counts_is _ _ _ _ _ S10), (counts_is _ _ _ _ _ S11), GO' in C'. cbn [bind] in C, C'.
  destruct (rhi_of (c_heat_pump (d_inputs d))) as [rh|]; cbn [bind] in C, C'; [|discriminate]. apply Ok_inj in C, C'. subst K K'.
  exists P, P', year, year', s, n. unfold run_of. cbn [k_results k_timesteps k_first_hour k_fuel]. rewrite FU.
  split; [split; [exact T|repeat split; lia]|]. split; [split; [exact T'|split; [reflexivity|split; [reflexivity|split; [|lia]]]]|].
  - cbn [P' plant_of p_aux]. rewrite QP. reflexivity.
  - split; [exact BE|]. split; [exact (F3 9 _ eq_refl S8)|]. split; [reflexivity|]. intro EB. destruct (C85_backup L wb _ _ _ PL B S1) as (B1 & _).
    assert (UU : forall a b, In a fuels -> In b fuels -> fuel_value a = fuel_value b -> a = b) by (intros [] [] _ _; discriminate || reflexivity). exact (chooses_one _ _ _ _ _ _ _ _ UU B1 EB).
Qed.
