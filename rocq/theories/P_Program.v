(** C94 to C97: from the workbook to the results. *)
From Coq Require Import String Ascii.
From Verif Require Import Base BaseL M_Battery M_HeatPump M_Tools S_HeatPump L_HeatPump L_Tools M_FixedOrder S_FixedOrder L_FixedOrderHour L_FixedOrderProps L_FixedOrderRun P_FixedOrder
  M_Regression L_Regression M_Excel S_Excel L_Excel L_ExcelSheets P_Excel M_Init S_Init L_Init P_Init M_Program S_Program L_Program L_ProgramRuns.
From Verif Require M_Tank M_Grid L_Grid S_Grid P_Grid M_Renewables M_Mpc S_Mpc L_MpcRun P_Mpc M_Sweep L_Sweep P_Sweep M_Kpi P_Kpi M_Plots L_Plots P_Plots.
Local Open Scope nat_scope.
Local Open Scope string_scope.
Local Open Scope list_scope.

(** ** C94 *)
Lemma hour_number_ok wb s i n : counts wb "Controller" "G" 5 s -> (0 <= s)%Z -> (s + n <= 8760)%Z -> (Z.of_nat i < n)%Z -> hour_number wb i (s + Z.of_nat i).
Proof. intros C S0 Sn Hi. exists s. split; [exact C|]. split; [reflexivity|]. split; [exact S0|lia]. Qed.
Lemma hour_index s i : (0 <= s)%Z -> Z.to_nat (s + Z.of_nat i) = Z.to_nat s + i.
Proof. lia. Qed.

Lemma hour_cop_duty P I t n soc rc : hour_step P I t n soc = Ok rc -> rf rc HP_cop = cop (i_perf I) /\ rf rc HP_duty = duty (i_perf I).
Proof.
  intro H. apply hour_inv in H as (c & rc0 & rc1 & Hu & Hc & ->). apply uncorrected_inv in Hu as (ps & r & u & pr & de & _ & Hf & _ & _ & Hrf & _).
  pose proof (corrected_intro _ _ _ _ _ _ _ Hc) as Hco.
  split; (rewrite (settled_corrected P I t n c rc0 rc1 _ Hco) by (unfold settled; cbn; tauto)); (rewrite Hrf, finish_written by (cbn; tauto));
    (rewrite (run_keeps _ _ _ _ _ _ _ _ _ _ Hf) by (cbn; intuition discriminate)); unfold start_fields; destruct (hi P I); reflexivity.
Qed.

(** Record [i] shows the demands of row 6 + t of the sheet 'Demand input', t the hour of the year. *)
Theorem C94_own_row : forall L run_pv lc opt price wb out d i rc,
  ran L run_pv lc opt price wb "Fixed order control" out d -> nth_error (d_records d) i = Some rc ->
  exists t, hour_number wb i t /\ shows_row wb (6 + Z.to_nat t) (rf rc).
Proof.
  intros L run_pv lc opt price wb out d i rc (P & B & S & H & I) E.
  destruct (fixed_hour L run_pv lc opt price wb out d i rc P B S H I E) as (q & s & n & x & ab & be & year & g & tot & wind & hp & J & A & Hx & Ha & Hb & S0 & Sn & Hi & G1 & G2 & G3 & G4 & F & Y & R & St).
  destruct A as (A0 & A1 & A2 & _ & _ & _ & _ & A7 & A8 & A9 & _). destruct F as (F1 & F2 & F3 & F4 & _ & _ & F7 & F8).
  destruct (hour_demands _ _ _ _ _ _ St) as (D1 & D2 & D3 & D4 & D5).
  exists (s + Z.of_nat i)%Z. split; [eapply hour_number_ok; eassumption|]. rewrite (hour_index _ _ S0).
  split; [exists (i_elec_demand J)|exists (i_heat_demand J)]; (split; [eapply down_at; eassumption|]); rewrite ?D1, ?D2; reflexivity.
Qed.
Print Assumptions C94_own_row.

(** The generation is what the wind and PV models give for that hour, from the turbines and panels of the workbook (C85). *)
Theorem C94_generation : forall L run_pv lc opt price wb out d i rc,
  ran L run_pv lc opt price wb "Fixed order control" out d -> nth_error (d_records d) i = Some rc ->
  exists t o g, hour_number wb i t /\ set_up L wb (fst (d_sizes d)) (snd (d_sizes d)) = Ok o /\
    M_Renewables.renewable_generation (lib_wind L) run_pv (o_user o) (o_database o) (o_PV o) = Ok g /\
    nth_error (M_Renewables.g_wind g) (Z.to_nat t) = Some (Some (rf rc RES_wind)) /\ nth_error (M_Renewables.g_PV g) (Z.to_nat t) = Some (rf rc RES_PV) /\
    rf rc RES_generation_total = (rf rc RES_wind + rf rc RES_PV)%Q.
Proof.
  intros L run_pv lc opt price wb out d i rc (P & B & S & H & I) E.
  destruct (fixed_hour L run_pv lc opt price wb out d i rc P B S H I E) as (q & s & n & x & ab & be & year & g & tot & wind & hp & J & A & Hx & Ha & Hb & S0 & Sn & Hi & G1 & G2 & G3 & G4 & F & Y & R & St).
  destruct A as (A0 & A1 & A2 & _ & _ & _ & _ & A7 & A8 & A9 & _). destruct F as (F1 & F2 & F3 & F4 & _ & _ & F7 & F8).
  destruct (hour_demands _ _ _ _ _ _ St) as (D1 & D2 & D3 & D4 & D5).
  exists (s + Z.of_nat i)%Z, (q_parts q), g. split; [eapply hour_number_ok; eassumption|]. rewrite (hour_index _ _ S0). split; [exact A0|]. split; [exact G1|].
  split; [rewrite G3, nth_error_map, F1, D3; reflexivity|]. split; [rewrite F2, D4; reflexivity|].
  apply hour_inv in St as (c0 & rc0 & rc1 & _ & _ & ->). reflexivity.
Qed.
Print Assumptions C94_generation.

(** The coefficient of performance and the duty are those of that hour, from the heat pump of the combination. *)
Theorem C94_heat_pump : forall L run_pv lc opt price wb out d i rc,
  ran L run_pv lc opt price wb "Fixed order control" out d -> nth_error (d_records d) i = Some rc ->
  exists t o hp p, hour_number wb i t /\ set_up L wb (fst (d_sizes d)) (snd (d_sizes d)) = Ok o /\ performance lc (o_heat_pump o) = Ok hp /\
    nth_error hp (Z.to_nat t) = Some p /\ rf rc HP_cop = cop p /\ rf rc HP_duty = duty p.
Proof.
  intros L run_pv lc opt price wb out d i rc (P & B & S & H & I) E.
  destruct (fixed_hour L run_pv lc opt price wb out d i rc P B S H I E) as (q & s & n & x & ab & be & year & g & tot & wind & hp & J & A & Hx & Ha & Hb & S0 & Sn & Hi & G1 & G2 & G3 & G4 & F & Y & R & St).
  destruct A as (A0 & A1 & A2 & _ & _ & _ & _ & A7 & A8 & A9 & _). destruct F as (F1 & F2 & F3 & F4 & _ & _ & F7 & F8).
  destruct (hour_demands _ _ _ _ _ _ St) as (D1 & D2 & D3 & D4 & D5).
  exists (s + Z.of_nat i)%Z, (q_parts q), hp, (i_perf J). split; [eapply hour_number_ok; eassumption|]. rewrite (hour_index _ _ S0). split; [exact A0|]. split; [exact G4|].
  split; [exact F8|]. destruct (hour_cop_duty _ _ _ _ _ _ St) as (K1 & K2). split; assumption.
Qed.
Print Assumptions C94_heat_pump.

(** Prices and money *)
Theorem C94_price : forall L run_pv lc opt price wb out d i rc,
  ran L run_pv lc opt price wb "Fixed order control" out d -> nth_error (d_records d) i = Some rc ->
  let N := "Grid" in let p := rf rc GRID_import_price in
  (says wb N "D" 5 "Flat rates" -> holds wb N "C" 9 p) /\
  (says wb N "D" 5 "Variable periods" -> exists y t c, counts wb N "N" 42 y /\ hour_number wb i t /\
     ((t / 24 < 364)%Z \/ ~ S_Grid.leap y -> In (S_Grid.weekday_name (S_Grid.weekday y (t / 24)), c) day_columns /\ holds wb N c (18 + Z.to_nat (t mod 24)) p)) /\
  (says wb N "D" 5 "Time of use - WM" -> exists t m e x, hour_number wb i t /\ holds wb N "C" (12 + Z.to_nat t) m /\ holds wb N "G" 9 e /\ holds wb N "H" 9 x /\
     ((16 <= t mod 24 <= 18)%Z -> p == Qmin ((22#10) * m + e) x)%Q /\ (~ (16 <= t mod 24 <= 18)%Z -> p == Qmin ((22#10) * m) x)%Q).
Proof.
  intros L run_pv lc opt price wb out d i rc (P & B & S & H & I) E.
  destruct (fixed_hour L run_pv lc opt price wb out d i rc P B S H I E) as (q & s & n & x & ab & be & year & g & tot & wind & hp & J & A & Hx & Ha & Hb & S0 & Sn & Hi & G1 & G2 & G3 & G4 & F & Y & R & St).
  destruct A as (A0 & A1 & A2 & _ & _ & _ & _ & A7 & A8 & A9 & _). destruct F as (F1 & F2 & F3 & F4 & _ & _ & F7 & F8).
  destruct (hour_demands _ _ _ _ _ _ St) as (D1 & D2 & D3 & D4 & D5).
  cbv zeta. rewrite D5. pose proof (C85_tariff L wb _ _ _ P B A0) as (T1 & _ & TF & TV & TM & _). cbv zeta in T1, TF, TV, TM.
  assert (TS : forall w, says wb "Grid" "D" 5 w -> M_Grid.g_tariff (o_grid (q_parts q)) = w).
  { intros w Hw. apply says_name in Hw, T1. congruence. }
  set (t := (s + Z.of_nat i)%Z). assert (Ht : (0 <= t < 8760)%Z) by (unfold t; lia).
  assert (HN : hour_number wb i t) by (eapply hour_number_ok; eassumption).
  assert (Dm : (t = 24 * (t / 24) + t mod 24)%Z) by (apply Z.div_mod; lia).
  assert (Mm : (0 <= t mod 24 < 24)%Z) by (apply Z.mod_pos_bound; lia).
  assert (Dd : (0 <= t / 24 < 365)%Z) by (split; [apply Z.div_pos; lia|apply Z.div_lt_upper_bound; lia]).
  rewrite <- (hour_index _ _ S0) in F7. fold t in F7.
  split; [|split]; intro W; pose proof (TS _ W) as E0.
  - pose proof (P_Grid.C30_flat_constant _ _ E0 A8 t Ht) as X. unfold S_Grid.price_at in X. rewrite F7 in X. injection X as ->. apply TF. rewrite E0. cbn; tauto.
  - destruct TV as (TV & TY); [rewrite E0; cbn; tauto|].
    destruct (P_Grid.C30_period_prices _ _ E0 A8 (t / 24) (t mod 24) ltac:(lia) Mm) as (p & Hp & Hin & _).
    unfold S_Grid.price_at in Hp. rewrite <- Dm, F7 in Hp. injection Hp as <-.
    assert (C : exists c, (t / 24 < 364)%Z \/ ~ S_Grid.leap (M_Grid.g_year (o_grid (q_parts q))) ->
      In (S_Grid.weekday_name (S_Grid.weekday (M_Grid.g_year (o_grid (q_parts q))) (t / 24)), c) day_columns /\ holds wb "Grid" c (18 + Z.to_nat (t mod 24)) (i_import_price J)).
    { set (nm := S_Grid.weekday_name _). destruct (find (fun c => String.eqb (fst c) nm) day_columns) as [[nm' c]|] eqn:Fd.
      - exists c. intro K. apply Hin in K as (col & F & Hc). apply find_some in Fd as (Fd & Eq). cbn [fst] in Eq. apply String.eqb_eq in Eq. subst nm'. split; [exact Fd|].
        destruct (periods_column wb _ _ nm col c TV F Fd) as (_ & Hd). assert (Hlt : Z.to_nat (t mod 24) < length col) by (apply nth_error_Some; congruence).
        destruct (Hd _ Hlt) as (x' & Ex & Hx'). congruence.
      - exists "H"%char. intro K. exfalso. apply Hin in K as (col & F & _). apply find_some in F as (F & _). exact (periods_none wb _ _ nm col TV F Fd). }
    destruct C as (c & C). exists (M_Grid.g_year (o_grid (q_parts q))), t, c. auto.
  - destruct TM as (TM & TP & TX); [rewrite E0; cbn; tauto|].
    destruct (P_Grid.C31_market_price _ _ E0 A8 (t / 24) (t mod 24) Dd Mm) as (p & m & Hp & Hm & K1 & K2). rewrite <- Dm in Hp, Hm.
    unfold S_Grid.price_at in Hp, Hm. rewrite F7 in Hp. injection Hp as <-. exists t, m, (M_Grid.g_premium (o_grid (q_parts q))), (M_Grid.g_maximum (o_grid (q_parts q))).
    split; [exact HN|]. split; [|split; [exact TP|split; [exact TX|split; assumption]]].
    destruct TM as (_ & TM). assert (Hlt : Z.to_nat t < length (M_Grid.g_market (o_grid (q_parts q)))) by (apply nth_error_Some; congruence).
    destruct (TM _ Hlt) as (x' & Ex & Hx'). congruence.
Qed.
Print Assumptions C94_price.
Theorem C94_money : forall L run_pv lc opt price wb out d i rc,
  ran L run_pv lc opt price wb "Fixed order control" out d -> nth_error (d_records d) i = Some rc ->
  let f := rf rc in exists e, holds wb "Grid" "D" 9 e /\
    (f GRID_import_costs == f GRID_total_import * f GRID_import_price / 1000 /\ f GRID_export_income == f GRID_total_export * e / 1000 /\
     f GRID_cashflow == f GRID_export_income - f GRID_import_costs)%Q.
Proof.
  intros L run_pv lc opt price wb out d i rc (P & B & S & H & I) E.
  destruct (fixed_hour L run_pv lc opt price wb out d i rc P B S H I E) as (q & s & n & x & ab & be & year & g & tot & wind & hp & J & A & Hx & Ha & Hb & S0 & Sn & Hi & G1 & G2 & G3 & G4 & F & Y & R & St).
  destruct A as (A0 & A1 & A2 & _ & _ & _ & _ & A7 & A8 & A9 & _). destruct F as (F1 & F2 & F3 & F4 & _ & _ & F7 & F8).
  destruct (hour_demands _ _ _ _ _ _ St) as (D1 & D2 & D3 & D4 & D5).
  destruct (C11_costs_and_cash_flow _ _ _ _ _ _ St) as (K1 & K2 & K3 & K4). exists (q_export q). split; [exact A7|]. cbv zeta. rewrite K1. auto.
Qed.
Print Assumptions C94_money.

(** The battery never leaves the capacity entered for it. *)
Theorem C94_charge : forall L run_pv lc opt price wb out d i rc,
  ran L run_pv lc opt price wb "Fixed order control" out d -> nth_error (d_records d) i = Some rc ->
  exists r c, first_complete wb "Electrical storage" 2 [] [5] r /\ holds wb "Electrical storage" "C" r c /\
    ((0 <= c)%Q -> (0 <= rf rc ES_final_soc <= c)%Q).
Proof.
  intros L run_pv lc opt price wb out d i rc (P & B & S & H & I) E.
  destruct (fixed_hour L run_pv lc opt price wb out d i rc P B S H I E) as (q & s & n & x & ab & be & year & g & tot & wind & hp & J & A & Hx & Ha & Hb & S0 & Sn & Hi & G1 & G2 & G3 & G4 & F & Y & R & St).
  destruct A as (A0 & A1 & A2 & _ & _ & _ & _ & A7 & A8 & A9 & _). destruct F as (F1 & F2 & F3 & F4 & _ & _ & F7 & F8).
  destruct (hour_demands _ _ _ _ _ _ St) as (D1 & D2 & D3 & D4 & D5).
  destruct (C85_battery L wb _ _ _ P B A0) as (r & K1 & K2 & _). exists r, (b_capacity (o_battery (q_parts q))). split; [exact K1|]. split; [exact K2|]. intro Hc.
  pose proof (C15_charge_in_range_after_every_hour (plant_of L q x ab be) year s n _ Hc R) as K. rewrite Forall_forall in K. apply (K rc). eapply nth_error_In, E.
Qed.
Print Assumptions C94_charge.

(** With sensible orders in the cells D8 and D9 the electrical demand entered for the hour is met. *)
Theorem C94_demand_met : forall L run_pv lc opt price wb out d i rc,
  ran L run_pv lc opt price wb "Fixed order control" out d -> nth_error (d_records d) i = Some rc ->
  sensible_order above_key (xl wb "Controller" "D" 8) -> sensible_order below_key (xl wb "Controller" "D" 9) ->
  exists t e, hour_number wb i t /\ holds wb "Demand input" "E" (6 + Z.to_nat t) e /\ (rf rc ED_RES + rf rc ED_ES + rf rc ED_import == e)%Q.
Proof.
  intros L run_pv lc opt price wb out d i rc (P & B & S & H & I) E.
  destruct (fixed_hour L run_pv lc opt price wb out d i rc P B S H I E) as (q & s & n & x & ab & be & year & g & tot & wind & hp & J & A & Hx & Ha & Hb & S0 & Sn & Hi & G1 & G2 & G3 & G4 & F & Y & R & St).
  destruct A as (A0 & A1 & A2 & _ & _ & _ & _ & A7 & A8 & A9 & _). destruct F as (F1 & F2 & F3 & F4 & _ & _ & F7 & F8).
  destruct (hour_demands _ _ _ _ _ _ St) as (D1 & D2 & D3 & D4 & D5).
  intros O1 O2. exists (s + Z.of_nat i)%Z, (i_elec_demand J). split; [eapply hour_number_ok; eassumption|]. rewrite (hour_index _ _ S0). split; [eapply down_at; eassumption|].
  assert (O : forall ps, processes_of (plant_of L q x ab be) J ps -> NoDup ps /\ In Import_to_demand ps /\ never_after ps ES_to_demand Import_to_demand).
  { intros ps [(_ & K)|(_ & K)]; [exact (O1 _ _ Ha K)|exact (O2 _ _ Hb K)]. }
  destruct (C08_electrical_demand_met_any_data _ _ _ _ _ _ (fun ps K => proj1 (O ps K)) (fun ps K => proj1 (proj2 (O ps K))) (fun ps K => proj2 (proj2 (O ps K))) St) as (K1 & K2).
  rewrite K1, K2. reflexivity.
Qed.
Print Assumptions C94_demand_met.

(** Full statement: every record of a predictive run shows its own row too.  Missing: the first record, which is made up
    (below and C64), and the last hour of the year (C64). *)
Theorem C94_predictive_partial : forall L run_pv lc opt price wb out d i rc,
  ran L run_pv lc opt price wb "Model predictive control" out d -> nth_error (d_records d) (S i) = Some rc ->
  exists t, hour_number wb (S i) t /\ ((t < 8759)%Z -> shows_row wb (6 + Z.to_nat t) (rf rc)).
Proof.
  intros L run_pv lc opt price wb out d i rc (P & B & S & H & I) E.
  destruct (predictive_simulated L run_pv lc opt price wb out d P B S H I) as (q & s & n & z & year & A & _ & Y & R). cbv zeta in R.
  destruct A as (_ & A1 & A2 & _ & _ & _ & _ & _ & _ & A9 & _).
  destruct (L_MpcRun.mpc_run_inv _ _ _ _ _ _ R) as (mc & _ & Hm). destruct (L_MpcRun.moving_horizon_inv _ _ _ _ _ _ _ Hm) as (HF & H0 & H2).
  destruct (Z.le_gt_cases 2 n) as [Hn|Hn]; [|rewrite H0 in E by lia; discriminate E]. destruct (H2 Hn) as (HL & (I0 & E0 & _) & _). apply label_inv in E0 as (E0 & _).
  assert (Hi : Datatypes.S i < length (d_records d)) by (apply nth_error_Some; congruence).
  exists (s + Z.of_nat (Datatypes.S i))%Z. split; [exists s; split; [exact A9|]; split; [reflexivity|]; split; [exact E0|lia]|]. intro Ht.
  destruct (P_Mpc.C64_own_hour_partial _ _ _ _ _ _ _ _ R E Ht) as (J & EJ & D). apply label_inv in EJ as (Pos & EJ).
  destruct (year_of_inv L run_pv lc q year Y) as (g & tot & wind & hp & _ & _ & _ & _ & _ & _ & _ & F).
  destruct (F _ _ EJ) as (_ & _ & F3 & F4 & _). destruct D as (D1 & D2 & _).
  split; [exists (i_elec_demand J)|exists (i_heat_demand J)]; (split; [eapply down_at; eassumption|assumption]).
Qed.
Print Assumptions C94_predictive_partial.
(** Whatever the workbook says, the first record of a predictive run shows no electrical demand and no generation. *)
Theorem C94_predictive_first : forall L run_pv lc opt price wb out d,
  ran L run_pv lc opt price wb "Model predictive control" out d ->
  exists rc, nth_error (d_records d) 0 = Some rc /\ (rf rc ED_elec_demand == 0 /\ rf rc RES_generation_total == 0)%Q.
Proof.
  intros L run_pv lc opt price wb out d (P & B & S & H & I).
  destruct (predictive_simulated L run_pv lc opt price wb out d P B S H I) as (q & s & n & z & year & A & _ & Y & R). cbv zeta in R.
  destruct A as (_ & _ & _ & _ & _ & _ & _ & _ & _ & _ & _ & AP).
  destruct (Z.le_gt_cases 2 n) as [Hn|Hn].
  - destruct (P_Mpc.C64_first_hour _ _ _ _ _ _ R Hn) as (rc & E & K1 & K2 & _). exists rc. auto.
  - exfalso. destruct (L_MpcRun.mpc_run_inv _ _ _ _ _ _ R) as (mc & _ & Hm). destruct (L_MpcRun.moving_horizon_inv _ _ _ _ _ _ _ Hm) as (_ & H0 & _).
    rewrite H0 in AP by lia. destruct (Z.le_gt_cases n 0) as [N0|N0]; [rewrite no_plots in AP by exact N0; discriminate|].
    assert (n = 1%Z) by lia. subst n. rewrite P_Plots.C92_missing_records in AP by reflexivity. discriminate.
Qed.
Print Assumptions C94_predictive_first.

(** ** C95 *)
Lemma covered L run_pv lc q year wb : holds_down wb "Demand input" "D" 6 (q_heat q) -> holds_down wb "Demand input" "E" 6 (q_elec q) ->
  holds_down wb "Demand input" "F" 6 (q_flow q) -> holds_down wb "Demand input" "G" 6 (q_source q) -> year_of L run_pv lc q = Ok year -> covers_the_year wb.
Proof.
  intros A1 A2 A3 A4 Y. destruct (year_of_inv L run_pv lc q year Y) as (g & tot & wind & hp & _ & _ & _ & _ & FY & _). unfold full_year in FY.
  unfold covers_the_year. cbv zeta. destruct A1 as (L1 & A1), A2 as (L2 & A2), A3 as (L3 & A3), A4 as (L4 & A4). split; [lia|].
  intros r (R1 & R2). replace r with (6 + (r - 6)) by lia. assert (K : r - 6 < last_row wb "Demand input" + 1 - 6) by lia.
  rewrite <- L1 in K at 1. destruct (A1 _ K) as (x1 & _ & H1). rewrite L1, <- L2 in K. destruct (A2 _ K) as (x2 & _ & H2).
  rewrite L2, <- L3 in K. destruct (A3 _ K) as (x3 & _ & H3). rewrite L3, <- L4 in K. destruct (A4 _ K) as (x4 & _ & H4).
  repeat split; eexists; eassumption.
Qed.
(** A run is completed only if the demand sheet has exactly one row per hour of the year and the
    stated hours lie within it. *)
Theorem C95_hours_needed : forall L run_pv lc opt price wb out d,
  ran L run_pv lc opt price wb "Fixed order control" out d ->
  covers_the_year wb /\ exists s n, counts wb "Controller" "G" 5 s /\ counts wb "Controller" "G" 6 n /\ (0 <= s)%Z /\ (1 <= n)%Z /\ (s + n <= 8760)%Z /\
    Z.of_nat (length (d_records d)) = n.
Proof.
  intros L run_pv lc opt price wb out d (P & B & S & H & I).
  destruct (fixed_simulated L run_pv lc opt price wb out d P B S H I) as (q & s & n & x & above & below & year & A & _ & _ & _ & Y & R).
  destruct A as (_ & A1 & A2 & A3 & A4 & _ & _ & _ & _ & A9 & A10 & AP). split; [eapply covered; eassumption|].
  destruct (C16_one_record_per_hour _ _ _ _ _ R) as (N1 & N2 & _). exists s, n. split; [exact A9|]. split; [exact A10|].
  assert (Hn : (1 <= n)%Z).
  { destruct (Z.le_gt_cases 1 n) as [K|K]; [exact K|]. destruct (d_records d) as [|r0 rs]; [|cbn in N2; lia]. rewrite no_plots in AP by lia. discriminate. }
  destruct (nth_error (d_records d) 0) as [r0|] eqn:E0; [|apply nth_error_None in E0; lia].
  destruct (C15_hours_are_chained _ _ _ _ _ 0 r0 R E0) as (_ & X & _). split; [lia|]. split; [exact Hn|]. split; [exact N1|]. lia.
Qed.
Print Assumptions C95_hours_needed.
(** Under predictive control at least two hours are needed. *)
Theorem C95_predictive_hours_needed : forall L run_pv lc opt price wb out d,
  ran L run_pv lc opt price wb "Model predictive control" out d ->
  covers_the_year wb /\ exists s n, counts wb "Controller" "G" 5 s /\ counts wb "Controller" "G" 6 n /\ (0 <= s)%Z /\ (2 <= n)%Z /\ (s + n <= 8760)%Z /\
    Z.of_nat (length (d_records d)) = n.
Proof.
  intros L run_pv lc opt price wb out d (P & B & S & H & I).
  destruct (predictive_simulated L run_pv lc opt price wb out d P B S H I) as (q & s & n & z & year & A & _ & Y & R). cbv zeta in R.
  destruct A as (_ & A1 & A2 & A3 & A4 & _ & _ & _ & _ & A9 & A10 & AP). split; [eapply covered; eassumption|]. exists s, n. split; [exact A9|]. split; [exact A10|].
  destruct (L_MpcRun.mpc_run_inv _ _ _ _ _ _ R) as (mc & Hp & Hm). destruct (L_MpcRun.moving_horizon_inv _ _ _ _ _ _ _ Hm) as (HF & H0 & _).
  assert (Hn : (2 <= n)%Z).
  { destruct (Z.le_gt_cases 2 n) as [K|K]; [exact K|]. rewrite H0 in AP by lia. destruct (Z.le_gt_cases n 0) as [N0|N0]; [rewrite no_plots in AP by exact N0; discriminate|].
    assert (n = 1%Z) by lia. subst n. rewrite P_Plots.C92_missing_records in AP by reflexivity. discriminate. }
  destruct (P_Mpc.C29_exact _ _ _ _ _ _ R Hn) as (mc' & _ & (I0 & E0 & _) & _). apply label_inv in E0 as (E0 & _).
  split; [exact E0|]. split; [exact Hn|]. split; [lia|]. exact (P_Mpc.C27_one_record_per_hour _ _ _ _ _ _ Hn R).
Qed.
Print Assumptions C95_predictive_hours_needed.

(** ** C96 *)
(** The results and figures of a combination do not depend on which other sizes are tried. *)
Theorem C96_sweep_independent : forall L run_pv lc opt price wb wb' out out' d d',
  same_but_sizes wb wb' -> program L run_pv lc opt price wb = Ok out -> program L run_pv lc opt price wb' = Ok out' ->
  In d (r_done out) -> In d' (r_done out') -> d_sizes d = d_sizes d' ->
  d_records d = d_records d' /\ d_figures d = d_figures d'.
Proof.
  intros L run_pv lc opt price wb wb' out out' d d' S H H' I I' E.
  apply program_inv in H as (k & p & cs & c & s & n & R & _ & _ & _ & N & T & F & _ & A & _).
  apply program_inv in H' as (k' & p' & cs' & c' & s' & n' & R' & _ & _ & _ & N' & T' & F' & _ & A' & _).
  rewrite Forall_forall in A, A'. destruct (A d I) as (A1 & A2 & A3). destruct (A' d' I') as (B1 & B2 & B3). rewrite <- E in B1.
  pose proof (read_same_rest wb wb' k k' R R' (fun N H _ => S N H)) as SR. destruct (combination_same_rest _ _ _ _ _ _ SR A1 B1) as (SJ & C1 & C2).
  assert (CC : c_controller k = c_controller k').
  { apply read_inputs_parts in R as (_ & R & _). apply read_inputs_parts in R' as (_ & R' & _). unfold x_controller in *.
    rewrite (get_sheet_ext wb wb') in R by (apply S; discriminate). rewrite R' in R. apply Ok_inj in R. congruence. }
  rewrite <- CC in N', T', F'. rewrite N in N'. rewrite T in T'. rewrite F in F'. apply Ok_inj in N', T', F'. subst c' n' s'.
  assert (D : d_records d = d_records d').
  { unfold run_solver, fixed_order, predictive in A2, B2. rewrite <- (hold_same_rest L _ _ SJ), C2, <- CC, <- C1, A2 in B2. apply Ok_inj in B2. exact B2. }
  split; [exact D|]. rewrite <- D, A3 in B3. apply Ok_inj in B3. exact B3.
Qed.
Print Assumptions C96_sweep_independent.

(** Fewer hours give the first part of the same results. *)
Theorem C96_fewer_hours : forall L run_pv lc opt price wb wb' out out' d d',
  same_but_hours wb wb' -> ran L run_pv lc opt price wb "Fixed order control" out d -> ran L run_pv lc opt price wb' "Fixed order control" out' d' ->
  d_sizes d = d_sizes d' -> length (d_records d) <= length (d_records d') ->
  d_records d = firstn (length (d_records d)) (d_records d').
Proof.
  intros L run_pv lc opt price wb wb' out out' d d' (S1 & S2) (P & B & S & H & I) (P' & B' & S' & H' & I') E LE.
  apply program_inv in H as (k & p & cs & c & s & n & R & _ & _ & _ & N & _ & F & _ & A & _).
  apply program_inv in H' as (k' & p' & cs' & c' & s' & n' & R' & _ & _ & _ & N' & _ & F' & _ & A' & _).
  rewrite Forall_forall in A, A'. destruct (A d I) as (A1 & A2 & _). destruct (A' d' I') as (B1 & B2 & _). rewrite <- E in B1.
  rewrite (says_controller wb k _ c P R S N) in A2. rewrite (says_controller wb' k' _ c' P' R' S' N') in B2.
  unfold run_solver in A2, B2. change (String.eqb "Fixed order control" "Fixed order control") with true in A2, B2. cbv iota in A2, B2.
  pose proof (read_same_rest wb wb' k k' R R' (fun N _ H => S1 N H)) as SR. destruct (combination_same_rest _ _ _ _ _ _ SR A1 B1) as (SJ & C1 & C2).
  apply fixed_order_inv in A2 as (q & x & year & H1 & H2 & H3 & H4). apply fixed_order_inv in B2 as (q' & x' & year' & H1' & H2' & H3' & H4').
  rewrite <- (hold_same_rest L _ _ SJ), H1 in H1'. apply Ok_inj in H1'. subst q'. rewrite H3 in H3'. apply Ok_inj in H3'. subst year'.
  rewrite C1 in H2, H4. rewrite C2 in H2', H4'. destruct (C81_controller wb k P R) as (_ & K2 & _ & K4 & _ & K6 & K7).
  destruct (C81_controller wb' k' P' R') as (_ & J2 & _ & J4 & _ & J6 & J7). rewrite <- !S2 in J2, J4, J6, J7 by discriminate.
  rewrite <- J2 in K2. rewrite <- J4 in K4. rewrite J6 in K6. rewrite J7 in K7. apply Ok_inj in K6, K7.
  rewrite <- K2, F in F'. apply Ok_inj in F'. subst s'. rewrite <- K4, H2 in H2'. apply Ok_inj in H2'. subst x'. rewrite K6, K7 in H4'.
  destruct (C16_one_record_per_hour _ _ _ _ _ H4) as (_ & N1 & _). destruct (C16_one_record_per_hour _ _ _ _ _ H4') as (_ & N1' & _).
  destruct (Z.le_gt_cases n 0) as [Neg|Pos].
  { destruct (d_records d) as [|r0 rs]; [reflexivity|cbn in N1; lia]. }
  pose proof (C17_no_dependence_on_the_future _ _ _ _ _ _ n _ _ H4 H4' ltac:(lia) ltac:(lia) ltac:(lia) (fun t _ => eq_refl)) as K.
  rewrite <- N1 in K. rewrite firstn_all in K. exact K.
Qed.
Print Assumptions C96_fewer_hours.

(** ** C97 *)
(** The combinations simulated are those of the sweep stated in the sheet 'Parametric' (C33), in that order. *)
Theorem C97_combinations : forall L run_pv lc opt price wb out,
  plain wb -> program L run_pv lc opt price wb = Ok out -> exists p, let N := "Parametric" in
    counts wb N "E" 6 (M_Sweep.hp_min p) /\ counts wb N "D" 6 (M_Sweep.hp_max p) /\ counts wb N "F" 6 (M_Sweep.hp_step p) /\
    counts wb N "E" 7 (M_Sweep.ts_min p) /\ counts wb N "D" 7 (M_Sweep.ts_max p) /\ counts wb N "F" 7 (M_Sweep.ts_step p) /\
    M_Sweep.combos p = Ok (map d_sizes (r_done out)) /\ r_done out <> [].
Proof.
  intros L run_pv lc opt price wb out P H. apply program_inv in H as (k & p & cs & c & s & n & R & S & C & NE & _ & _ & _ & D & _).
  exists p. destruct (C81_sweep wb k P R) as (A1 & A2 & A3 & A4 & A5 & A6). unfold sweep_of in S. rewrite A1, A2, A3, A4, A5, A6 in S. inv_bind S. injection S as <-. cbv zeta. cbn.
  cbn in C. rewrite D. repeat (split; [apply whole_counts; assumption|]). split; [exact C|]. intro Z. rewrite Z in D. apply NE. symmetry. exact D.
Qed.
Print Assumptions C97_combinations.
(** Row [i] of every table belongs to combination [i] and is computed from the records of its own simulation, with the hours,
    the fuel, the tariff and the incentive that the workbook states. *)
Definition incentive (wb : workbook) (r : M_Kpi.rhi) : Prop := let N := "Heat pump" in
  says wb N "N" 5 (M_Kpi.rhi_type r) /\ says wb N "N" 6 (M_Kpi.rhi_tariff r) /\
  holds wb N "N" 7 (M_Kpi.rhi_fixed r) /\ holds wb N "N" 8 (M_Kpi.rhi_tier_1 r) /\ holds wb N "N" 9 (M_Kpi.rhi_tier_2 r).
Lemma combination_rhi h t k k' : combination h t k = Ok k' -> rhi_of (c_heat_pump k') = rhi_of (c_heat_pump k).
Proof. unfold combination. cbv zeta. intro H. inv_bind H. injection H as <-. reflexivity. Qed.
Lemma rhi_cells wb k r : plain wb -> big_enough wb -> read_inputs wb = Ok k -> rhi_of (c_heat_pump k) = Ok r <-> incentive wb r.
Proof.
  intros P B R. destruct (C81_heat_pump wb k P B R) as (_ & (R1 & R2 & R3 & R4 & R5) & _). unfold rhi_of, incentive. rewrite R1, R2, R3, R4, R5. cbv zeta. split.
  - intro H. inv_bind H. injection H as <-. cbn. split; [apply name_says; assumption|]. split; [apply name_says; assumption|].
    split; [apply number_holds; assumption|]. split; [apply number_holds; assumption|apply number_holds; assumption].
  - intros (H1 & H2 & H3 & H4 & H5). rewrite (says_name _ _ _ _ _ H1), (says_name _ _ _ _ _ H2). unfold holds in *. rewrite H3, H4, H5. destruct r. reflexivity.
Qed.
Theorem C97_rows : forall L run_pv lc opt price wb out tables i d,
  plain wb -> big_enough wb -> program L run_pv lc opt price wb = Ok out -> In (M_Plots.KpiTables tables) (r_kpis out) -> nth_error (r_done out) i = Some d ->
  exists K o economic technical output, set_up L wb (fst (d_sizes d)) (snd (d_sizes d)) = Ok o /\
    M_Kpi.k_results K = d_records d /\ M_Kpi.k_grid K = o_grid o /\ M_Kpi.k_fuel K = a_fuel (o_aux o) /\
    M_Kpi.k_name K = M_Sweep.folder_name (d_sizes d) /\ incentive wb (M_Kpi.k_rhi K) /\
    counts wb "Controller" "G" 6 (M_Kpi.k_timesteps K) /\ counts wb "Controller" "G" 5 (M_Kpi.k_first_hour K) /\
    tables = [economic; technical; output] /\
    length economic = length (r_done out) /\ length technical = length (r_done out) /\ length output = length (r_done out) /\
    let sizes := [Some (M_Kpi.Fin (inject_Z (fst (d_sizes d)))); Some (M_Kpi.Fin (inject_Z (snd (d_sizes d)) / 1000))] in
    let q (x : res Q) (c : M_Kpi.num) := exists v, x = Ok v /\ c = M_Kpi.Fin v in
    let n (x : res M_Kpi.num) (c : M_Kpi.num) := x = Ok c in
    (exists c1 c2 c3 c4 c5 c6 c7,
      nth_error economic i = Some (sizes ++ map Some [c1; c2; c3; c4; c5; c6; c7]) /\
      q (M_Kpi.capital_cost price K) c1 /\ q (M_Kpi.operating_cost K) c2 /\ n (M_Kpi.cost_of_heat K) c3 /\ q (M_Kpi.cost_elec K) c4 /\
      q (M_Kpi.lifetime_cost price K) c5 /\ n (M_Kpi.levelised_cost_of_heat price K) c6 /\
      n (M_Kpi.levelised_cost_of_energy price K) c7) /\
    (exists c1 c2 c3 c4 c5 c6 c7 c8 c9 c10,
      nth_error technical i = Some (sizes ++ map Some [c1; c2; c3; c4; c5; c6; c7; c8; c9; c10]) /\
      q (M_Kpi.RES_self_consumption K) c1 /\ q (M_Kpi.total_RES_self_consumption K) c2 /\ q (M_Kpi.grid_RES_used K) c3 /\
      q (M_Kpi.total_RES_used K) c4 /\ n (M_Kpi.heat_met_RES K) c5 /\ n (M_Kpi.demand_met_RES K) c6 /\ n (M_Kpi.HP_met_RES K) c7 /\
      n (M_Kpi.HP_size_ratio K) c8 /\ n (M_Kpi.HP_utilisation K) c9 /\ n (M_Kpi.days_storage_content K) c10) /\
    (exists c1 c2 c3 c4 c5 c6 c7 c8,
      nth_error output i = Some (sizes ++ map Some [c1; c2; c3; c4; c5; c6; c7; c8]) /\
      q (M_Kpi.sum_hp_output K) c1 /\ q (M_Kpi.sum_hp_usage K) c2 /\ n (M_Kpi.calc_scop K) c3 /\ q (M_Kpi.sum_aux_output K) c4 /\
      q (M_Kpi.sum_ed_import K) c5 /\ q (M_Kpi.sum_RES K) c6 /\ q (M_Kpi.sum_import K) c7 /\ q (M_Kpi.sum_export K) c8).
Proof.
  intros L run_pv lc opt price wb out tables i d P B H T E.
  assert (In d (r_done out)) as I by (eapply nth_error_In, E).
  destruct (done_set_up L run_pv lc opt price wb out d H I) as (o & SU & G & FU).
  pose proof (program_load L run_pv lc opt price wb out d) as LO.
  apply program_inv in H as HH. destruct HH as (k & p & cs & c & s & n & R & _ & C & _ & _ & _ & _ & D & A & EK).
  pose proof (kpi_tables _ _ _ _ _ _ EK T) as ET.
  assert (EC : nth_error cs i = Some (fst (d_sizes d), snd (d_sizes d))) by (rewrite <- D, nth_error_map, E; cbn; rewrite <- surjective_pairing; reflexivity).
  destruct (P_Kpi.C61_rows _ _ _ _ _ _ _ _ ET C EC) as (K & ec & te & ou & EL & ETab & L1 & L2 & L3 & R1 & R2 & R3).
  rewrite <- surjective_pairing in EL. pose proof (LO _ K H I eq_refl EL) as CA.
  rewrite Forall_forall in A. destruct (A d I) as (A1 & _). pose proof (combination_rhi _ _ _ _ A1) as AR. apply combination_parts in A1 as ((A1 & _) & _). destruct (C81_controller wb k P R) as (_ & Q1 & Q2 & _).
  unfold calcs in CA. rewrite A1, Q1, Q2, G in CA. cbn [bind] in CA. inv_bind CA. injection CA as CA.
  assert (LD : length (r_done out) = length cs) by (rewrite <- D, map_length; reflexivity).
  exists K, o, ec, te, ou. rewrite LD. split; [exact SU|]. split; [rewrite <- CA; reflexivity|]. split; [rewrite <- CA; reflexivity|]. split; [rewrite <- CA; exact FU|].
  split; [rewrite <- CA; reflexivity|]. split; [apply (rhi_cells wb k _ P B R); rewrite <- AR, <- CA; cbn [M_Kpi.k_rhi]; reflexivity|].
  split; [rewrite <- CA; apply whole_counts; assumption|]. split; [rewrite <- CA; apply whole_counts; assumption|].
  split; [exact ETab|]. split; [exact L1|]. split; [exact L2|]. split; [exact L3|]. cbv zeta. split; [exact R1|]. split; [exact R2|exact R3].
Qed.
Print Assumptions C97_rows.
