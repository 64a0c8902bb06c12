(** Runs of two workbooks that differ in the capacity of the battery only. *)
From Coq Require Import String Ascii.
From Verif Require Import Base BaseL M_Battery S_Battery M_HeatPump M_Tools S_HeatPump M_FixedOrder S_FixedOrder S_Sizing L_FixedOrderHour L_FixedOrderRun P_FixedOrder L_Tank
  M_Excel S_Excel L_Excel L_ExcelSheets P_Excel M_Init S_Init L_Init P_Init M_Program S_Program L_Program L_ProgramRuns L_ProgramOk P_Program P_ProgramOk S_Sensible L_Sensible S_Books M_Kpi S_Kpi S_Ranking.
From Verif Require M_Tank M_Renewables M_Mpc M_Sweep M_Plots.
Local Open Scope nat_scope.
Local Open Scope string_scope.
Local Open Scope list_scope.

Definition with_frame (k : container) (f : frame) : container :=
  {| c_parametric := c_parametric k; c_controller := c_controller k; c_resources := c_resources k; c_hot_water := c_hot_water k; c_heating := c_heating k; c_temp_return := c_temp_return k;
     c_source_delta_t := c_source_delta_t k; c_demand := c_demand k; c_PV_location := c_PV_location k; c_PV_spec := c_PV_spec k; c_wind_database := c_wind_database k; c_wind_user := c_wind_user k;
     c_power_curve := c_power_curve k; c_wind_farm := c_wind_farm k; c_battery := f; c_grid := c_grid k; c_aux := c_aux k; c_tank := c_tank k; c_heat_pump := c_heat_pump k |}.
Definition refitted {L} (q : held L) (b : battery) : held L :=
  let o := q_parts q in
  {| q_parts := {| o_user := o_user o; o_database := o_database o; o_PV := o_PV o; o_tank := o_tank o; o_heat_pump := o_heat_pump o; o_battery := b; o_aux := o_aux o; o_grid := o_grid o |};
     q_source := q_source q; q_flow := q_flow q; q_elec := q_elec q; q_heat := q_heat q; q_return := q_return q; q_delta := q_delta q; q_import := q_import q; q_export := q_export q |}.

Lemma read_but_battery wb wb' k k' : read_inputs wb = Ok k -> read_inputs wb' = Ok k' -> (forall N, N <> "Electrical storage" -> wb N = wb' N) -> k' = with_frame k (c_battery k').
Proof.
  intros R R' E. apply read_inputs_parts in R as (A1 & A2 & A3 & A4 & A5 & A6 & A7 & A8 & _ & A10 & A11 & A12 & A13).
  apply read_inputs_parts in R' as (B1 & B2 & B3 & B4 & B5 & B6 & B7 & B8 & _ & B10 & B11 & B12 & B13).
  assert (G : forall N, N <> "Electrical storage" -> get_sheet wb N = get_sheet wb' N) by (intros; apply get_sheet_ext, E; assumption).
  unfold x_parametric in *. rewrite (G "Parametric"), B1 in A1 by discriminate. apply Ok_inj in A1.
  unfold x_controller in *. rewrite (G "Controller"), B2 in A2 by discriminate. apply Ok_inj in A2.
  unfold x_resources in *. rewrite (G "Weather resources"), B3 in A3 by discriminate. apply Ok_inj in A3.
  unfold x_demands in *. rewrite (G "Demand gen"), B4 in A4 by discriminate. apply Ok_inj in A4. injection A4 as A41 A42.
  unfold x_demand_input in *. rewrite (G "Demand input"), B5 in A5 by discriminate. apply Ok_inj in A5. injection A5 as A51 A52 A53.
  unfold x_PV in *. rewrite (G "PV inputs"), B6 in A6 by discriminate. apply Ok_inj in A6. injection A6 as A61 A62.
  unfold x_wind in *. rewrite (G "Wind inputs"), B7 in A7 by discriminate. apply Ok_inj in A7. injection A7 as A71 A72 A73.
  unfold x_wind_farm in *. rewrite (G "Wind farm"), B8 in A8 by discriminate. apply Ok_inj in A8.
  unfold x_grid in *. rewrite (G "Grid"), B10 in A10 by discriminate. apply Ok_inj in A10.
  unfold x_aux in *. rewrite (G "Aux heat"), B11 in A11 by discriminate. apply Ok_inj in A11.
  unfold x_thermal_storage in *. rewrite (G "Thermal storage"), B12 in A12 by discriminate. apply Ok_inj in A12.
  unfold x_heat_pump in *. rewrite (G "Heat pump"), B13 in A13 by discriminate. apply Ok_inj in A13.
  destruct k, k'. unfold with_frame. cbn in *. subst. reflexivity.
Qed.
Lemma combination_but_battery h t k f j j' : combination h t k = Ok j -> combination h t (with_frame k f) = Ok j' -> j' = with_frame j f.
Proof.
  unfold combination, with_frame. cbn. intros C C'. revert C C'. repeat (match goal with |- bind ?x _ = _ -> _ => destruct x as [?|?]; cbn [bind]; [|discriminate] end).
  intros C C'. apply Ok_inj in C, C'. subst. reflexivity.
Qed.
Lemma hold_but_battery L k f (q q' : held L) : hold L k = Ok q -> hold L (with_frame k f) = Ok q' -> q' = refitted q (o_battery (q_parts q')).
Proof.
  unfold hold, init. intros H H'. revert H H'. generalize (battery_of (with_frame k f)). intro b'.
  change (tank_of (lib_width L) (lib_pi L) (lib_cp L) (with_frame k f)) with (tank_of (lib_width L) (lib_pi L) (lib_cp L) k).
  change (heat_pump_of (lib_fit L) (with_frame k f)) with (heat_pump_of (lib_fit L) k). change (aux_of (with_frame k f)) with (aux_of k). change (grid_of (lib_wind L) (with_frame k f)) with (grid_of (lib_wind L) k).
  change (user_turbine (with_frame k f)) with (user_turbine k). change (database_turbine (with_frame k f)) with (database_turbine k). change (pv_of (with_frame k f)) with (pv_of k).
  cbn [with_frame c_resources c_demand c_temp_return c_source_delta_t c_grid].
  destruct b' as [b'|e].
  - repeat (match goal with
    | |- bind (bind ?x _) _ = _ -> _ => destruct x as [?|?]; cbn [bind o_grid]; [|discriminate]
    | |- bind ?x _ = _ -> _ => destruct x as [?|?]; cbn [bind o_grid]; [|discriminate] end).
    intros H H'. apply Ok_inj in H, H'. subst. reflexivity.
  - intros _. repeat (match goal with
    | |- bind (bind ?x _) _ = _ -> _ => destruct x as [?|?]; cbn [bind o_grid]; [|discriminate] end).
    discriminate.
Qed.
Lemma fixed_held L run_pv lc opt price wb out d : ran L run_pv lc opt price wb "Fixed order control" out d ->
  exists k q s n x year, read_inputs wb = Ok k /\ combination (fst (d_sizes d)) (snd (d_sizes d)) k = Ok (d_inputs d) /\ hold L (d_inputs d) = Ok q /\
    simulated L wb out d q s n /\ holds wb "Controller" "D" 7 x /\ order_of (xl wb "Controller" "D" 8) = Ok (k_above (c_controller k)) /\ order_of (xl wb "Controller" "D" 9) = Ok (k_below (c_controller k)) /\
    year_of L run_pv lc q = Ok year /\ run_timesteps (plant_of L q x (k_above (c_controller k)) (k_below (c_controller k))) year s n = Ok (d_records d).
Proof.
  intros (P & B & SC & H & I). apply program_inv in H as (k & p & cs & c & s & n & R & _ & _ & _ & N & T & F & _ & A & _).
  rewrite Forall_forall in A. destruct (A d I) as (C & Hs & Hp). rewrite (says_controller wb k _ c P R SC N) in Hs.
  unfold run_solver in Hs. change (String.eqb "Fixed order control" "Fixed order control") with true in Hs. cbv iota in Hs.
  apply fixed_order_inv in Hs as (q & x & year & H1 & H2 & H3 & H4).
  destruct (hold_cells L wb k _ _ _ q P B R C H1) as (Q1 & Q2 & Q3 & Q4 & Q5 & Q6 & Q7 & Q8 & Q9).
  pose proof C as C0. apply combination_parts in C0 as ((C0 & _) & _). rewrite C0 in H2, H4.
  destruct (C81_controller wb k P R) as (_ & A2 & A3 & A4 & _ & A6 & A7). rewrite A3 in T. rewrite A2 in F. rewrite A4 in H2.
  exists k, q, s, n, x, year.
  apply whole_counts in T, F. apply number_holds in H2. unfold simulated. repeat match goal with |- _ /\ _ => split end; assumption.
Qed.
Lemma holds_same wb N c r x y : holds wb N c r x -> holds wb N c r y -> x = y.
Proof. unfold holds. congruence. Qed.

Section TWO.
Variables wb wb' : workbook.
Hypothesis BB : bigger_battery_cell wb wb'.
Let N := "Electrical storage".
Lemma bb_cell c r : letter c <> letter "C" -> xl wb N c r = xl wb' N c r.
Proof. intro E. destruct BB as (_ & s & s' & E1 & E2 & _ & _ & K & _). unfold xl. subst N. rewrite E1, E2. exact (K (r - 2)%nat (letter c) E). Qed.
Lemma bb_size r x x' : holds wb N "C" r x -> holds wb' N "C" r x' -> (x <= x')%Q.
Proof.
  intros A A'. destruct BB as (_ & s & s' & E1 & E2 & _ & _ & _ & K). unfold holds, xl in *. subst N. rewrite E1 in A. rewrite E2 in A'. specialize (K (r - 2)%nat). unfold content_at in K.
  destruct K as [K|(y & y' & Y & Y' & K)]; [rewrite A, A' in K; assert (x = x') by congruence; subst; apply Qle_refl|].
  rewrite A in Y. rewrite A' in Y'. assert (x = y) by congruence. assert (x' = y') by congruence. subst. exact K.
Qed.
Lemma bb_complete r : complete wb' N 2 [] r -> complete wb N 2 [] r.
Proof.
  destruct BB as (_ & s & s' & E1 & E2 & E3 & E4 & K & K'). unfold complete, last_row, width. subst N. rewrite E1, E2, E3, E4. intros (A & C). split; [exact A|].
  intros c Hc Hn. specialize (C c Hc Hn). specialize (K (r - 2)%nat c). specialize (K' (r - 2)%nat). unfold content_at in *.
  destruct (Nat.eq_dec c (letter "C")) as [->|Ne]; [|rewrite K by exact Ne; exact C]. destruct K' as [->|(x & x' & X & _)]; [exact C|]. rewrite X. discriminate.
Qed.
Lemma bb_complete' r : complete wb N 2 [] r -> complete wb' N 2 [] r.
Proof.
  destruct BB as (_ & s & s' & E1 & E2 & E3 & E4 & K & K'). unfold complete, last_row, width. subst N. rewrite E1, E2, E3, E4. intros (A & C). split; [exact A|].
  intros c Hc Hn. specialize (C c Hc Hn). specialize (K (r - 2)%nat c). specialize (K' (r - 2)%nat). unfold content_at in *.
  destruct (Nat.eq_dec c (letter "C")) as [->|Ne]; [|rewrite <- K by exact Ne; exact C]. destruct K' as [<-|(x & x' & _ & X & _)]; [exact C|]. rewrite X. discriminate.
Qed.
Lemma first_one w r r' : first_complete w N 2 [] [5] r -> first_complete w N 2 [] [5] r' -> r = r'.
Proof.
  intros (A & B & C) (A' & B' & C'). destruct (Nat.lt_trichotomy r r') as [L|[L|L]]; [exfalso; exact (C' r L B A)|exact L|exfalso; exact (C r' L B' A')].
Qed.
Lemma bb_first r r' : first_complete wb N 2 [] [5] r -> first_complete wb' N 2 [] [5] r' -> r' = r.
Proof.
  intros F (A & B & C). apply (first_one wb); [|exact F]. split; [apply bb_complete, A|]. split; [exact B|]. intros r0 H0 H1 H2. exact (C r0 H0 H1 (bb_complete' _ H2)).
Qed.
Lemma bb_battery L h t o o' : plain wb -> big_enough wb -> plain wb' -> big_enough wb' -> set_up L wb h t = Ok o -> set_up L wb' h t = Ok o' ->
  (b_capacity (o_battery o) <= b_capacity (o_battery o'))%Q /\ b_initial_state (o_battery o) = b_initial_state (o_battery o') /\ b_charge_max (o_battery o) = b_charge_max (o_battery o') /\
  b_discharge_max (o_battery o) = b_discharge_max (o_battery o') /\ b_charge_eff (o_battery o) = b_charge_eff (o_battery o') /\
  b_discharge_eff (o_battery o) = b_discharge_eff (o_battery o') /\ b_self_discharge (o_battery o) = b_self_discharge (o_battery o').
Proof.
  intros P B P' B' U U'. destruct (C85_battery L wb h t o P B U) as (r & F & H1 & H2 & H3 & H4 & H5 & H6 & H7). destruct (C85_battery L wb' h t o' P' B' U') as (r' & F' & G1 & G2 & G3 & G4 & G5 & G6 & G7).
  rewrite (bb_first r r' F F') in *. split; [exact (bb_size r _ _ H1 G1)|].
  unfold holds in *. fold N in H2, H3, H4, H5, H6, H7, G2, G3, G4, G5, G6, G7. rewrite <- bb_cell in G2, G3, G4, G5, G6, G7 by discriminate.
  repeat split; congruence.
Qed.
Lemma bb_other : forall M, M <> N -> wb M = wb' M.
Proof. exact (proj1 BB). Qed.
End TWO.

(** Two runs: all that is known about them *)
Lemma books L run_pv lc opt price wb wb' out out' d d' K K' : bigger_battery_cell wb wb' ->
  ran L run_pv lc opt price wb "Fixed order control" out d -> ran L run_pv lc opt price wb' "Fixed order control" out' d' -> d_sizes d = d_sizes d' ->
  sensible L lc wb (d_sizes d) -> battery_last_cells wb -> calcs L d = Ok K -> calcs L d' = Ok K' ->
  exists q q' x ab be year s n, let P := plant_of L q x ab be in let P' := plant_of L q' x ab be in beside P P' year s n K K' /\
    set_up L wb (fst (d_sizes d)) (snd (d_sizes d)) = Ok (q_parts q) /\ set_up L wb' (fst (d_sizes d)) (snd (d_sizes d)) = Ok (q_parts q') /\
    holds wb "Grid" "D" 9 (q_export q) /\ M_Grid.import_cost_series (o_grid (q_parts q)) = Ok (Some (q_import q)) /\ year_of L run_pv lc q = Ok year /\
    order_of (xl wb "Controller" "D" 8) = Ok ab /\ order_of (xl wb "Controller" "D" 9) = Ok be /\ k_results K = d_records d /\ k_results K' = d_records d' /\ k_grid K = o_grid (q_parts q).
Proof.
  intros BB R R' ES SE (LA & LB) C C'. pose proof (C95_hours_needed _ _ _ _ _ _ _ _ R) as (_ & s0 & n0 & _ & N0 & _ & N1 & _).
  destruct (fixed_held _ _ _ _ _ _ _ _ R) as (k & q & s & n & x & year & RI & CO & HO & SI & Hx & Ha & Hb & Y & T).
  destruct (fixed_held _ _ _ _ _ _ _ _ R') as (k' & q' & s' & n' & x' & year' & RI' & CO' & HO' & SI' & Hx' & Ha' & Hb' & Y' & T').
  destruct R as (PL & B & _ & PR & I). destruct R' as (PL' & B' & _ & PR' & I').
  pose proof (done_set_up _ _ _ _ _ _ _ _ PR I) as (o & U & GO & FU).
  assert (X : forall M c r, M <> "Electrical storage" -> xl wb M c r = xl wb' M c r) by (intros M c r E; unfold xl; rewrite (proj1 BB M E); reflexivity).
  assert (x' = x) by (unfold holds in Hx, Hx'; rewrite <- X in Hx' by discriminate; congruence). subst x'.
  pose proof (read_but_battery wb wb' k k' RI RI' (proj1 BB)) as EK. assert (EC : c_controller k' = c_controller k) by (rewrite EK; reflexivity). rewrite EC in T'.
  rewrite <- ES in CO'. rewrite EK in CO'. pose proof (combination_but_battery _ _ _ _ _ _ CO CO') as ED. rewrite ED in HO'.
  pose proof (hold_but_battery L _ _ q q' HO HO') as EQ.
  assert (year' = year) by (rewrite EQ in Y'; change (year_of L run_pv lc (refitted q (o_battery (q_parts q')))) with (year_of L run_pv lc q) in Y'; congruence). subst year'.
  pose proof (sensible_plant L run_pv lc wb out d q s n x _ _ year PL B SE SI Ha Hb Y) as (KP & KI & KH & KO).
  destruct SI as (S1 & _ & _ & _ & _ & _ & _ & S8 & S9 & S10 & S11 & _). destruct SI' as (S1' & _ & _ & _ & _ & _ & _ & _ & _ & S10' & S11' & _).
  assert (s' = s). { refine (counts_one _ _ _ _ _ _ _ S10). unfold counts in *. destruct S10' as (v & V & W). exists v. split; [|exact W]. unfold holds in *. rewrite X by discriminate. exact V. }
  assert (n' = n). { refine (counts_one _ _ _ _ _ _ _ S11). unfold counts in *. destruct S11' as (v & V & W). exists v. split; [|exact W]. unfold holds in *. rewrite X by discriminate. exact V. }
  assert (n0 = n) by exact (counts_one _ _ _ _ _ _ N0 S11). subst s' n' n0.
  rewrite <- ES in S1'. destruct (bb_battery wb wb' BB L _ _ _ _ PL B PL' B' S1 S1') as (Z1 & Z2 & Z3 & Z4 & Z5 & Z6 & Z7).
  assert (o = q_parts q) by congruence. subst o.
  unfold calcs in C, C'. cbv zeta in C, C'. rewrite ED in C'. rewrite <- ES in C'. cbn [with_frame c_controller c_heat_pump c_aux] in C'. change (grid_of (lib_wind L) (with_frame (d_inputs d) (c_battery k'))) with (grid_of (lib_wind L) (d_inputs d)) in C'.
  pose proof CO as CC. apply combination_parts in CC as ((CC & _) & _). destruct (C81_controller wb k PL RI) as (_ & Q1 & Q2 & _).
  rewrite CC, Q1, Q2, (counts_is _ _ _ _ _ S10), (counts_is _ _ _ _ _ S11), GO in C, C'. cbn [bind] in C, C'.
  destruct (rhi_of (c_heat_pump (d_inputs d))) as [rh|]; cbn [bind] in C, C'; [|discriminate]. apply Ok_inj in C, C'. subst K K'.
  exists q, q', x, (k_above (c_controller k)), (k_below (c_controller k)), year, s, n. cbv zeta. cbn [k_results k_grid].
  split; [|repeat match goal with |- _ /\ _ => split end; first [assumption|reflexivity]].
  assert (PQ : plant_of L q' x (k_above (c_controller k)) (k_below (c_controller k)) = {| p_battery := o_battery (q_parts q'); p_hp_capacity := p_hp_capacity (plant_of L q x (k_above (c_controller k)) (k_below (c_controller k)));
     p_min_runtime := p_min_runtime (plant_of L q x (k_above (c_controller k)) (k_below (c_controller k))); p_min_output := p_min_output (plant_of L q x (k_above (c_controller k)) (k_below (c_controller k)));
     p_aux := p_aux (plant_of L q x (k_above (c_controller k)) (k_below (c_controller k))); p_tank := p_tank (plant_of L q x (k_above (c_controller k)) (k_below (c_controller k)));
     p_export_price := q_export q; p_setpoint := x; p_order_above := k_above (c_controller k); p_order_below := k_below (c_controller k); p_max_heat := p_max_heat (plant_of L q x (k_above (c_controller k)) (k_below (c_controller k))) |}).
  { clear - EQ. set (b := o_battery (q_parts q')) in *. clearbody b. subst q'. reflexivity. }
  assert (BP : bigger_battery (plant_of L q x (k_above (c_controller k)) (k_below (c_controller k))) (plant_of L q' x (k_above (c_controller k)) (k_below (c_controller k)))).
  { rewrite PQ. unfold bigger_battery. cbn [p_battery p_hp_capacity p_min_runtime p_min_output p_aux p_tank p_export_price p_setpoint p_order_above p_order_below p_max_heat plant_of].
    repeat match goal with |- _ /\ _ => split end; first [assumption|reflexivity]. }
  unfold beside. split; [exact BP|]. split; [exact KP|]. split; [exact KI|]. split; [exact KH|]. split.
  - intros J ps HJ. split; [exact (KO J ps HJ)|]. unfold processes_of in HJ. cbn [plant_of p_setpoint p_order_above p_order_below] in HJ.
    destruct HJ as [(_ & HJ)|(_ & HJ)]; [exact (LA _ _ Ha HJ)|exact (LB _ _ Hb HJ)].
  - unfold run_of. cbn [k_results k_timesteps k_first_hour k_fuel k_name k_grid k_rhi]. rewrite FU.
    split; [split; [exact T|repeat split; lia]|]. split; [split; [exact T'|split; [reflexivity|split; [reflexivity|split; [|lia]]]]|repeat split].
    clear - EQ. cbn [plant_of p_aux]. set (b := o_battery (q_parts q')) in *. clearbody b. subst q'. reflexivity.
Qed.
