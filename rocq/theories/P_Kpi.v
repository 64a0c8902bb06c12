(** Performance indicators: properties C41-C43 and C58-C62. *)
From Coq Require Import String.
From Verif Require Import Base BaseL M_Battery S_Battery M_HeatPump S_HeatPump L_HeatPump M_FixedOrder S_FixedOrder
  L_FixedOrderRun P_FixedOrder M_Grid S_Grid L_Grid P_Grid M_Sweep L_Sweep L_Tank M_Kpi S_Kpi L_Kpi L_KpiSums L_KpiCost.
Open Scope string_scope.

(** ** One-hour runs used by the examples and counterexamples *)
Definition plain_grid : grid :=
  {| g_tariff := "Flat rates"; g_flat := 12 # 100; g_periods := []; g_year := 2021; g_market := [];
     g_premium := 10; g_maximum := 225; g_lower_percent := 3 # 4; g_higher_percent := 1 # 4;
     g_lower_penalty := 20; g_higher_discount := 30; g_wind := [] |}.
Definition plain_rhi : rhi :=
  {| rhi_type := "Domestic"; rhi_tariff := "Fixed"; rhi_fixed := 10; rhi_tier_1 := 9; rhi_tier_2 := 3 |}.
Definition one_hour_run (P : plant) (s : Z) (G : grid) (R : rhi) (rc : record) : run :=
  {| k_name := folder_name (14, 500)%Z; k_timesteps := 1; k_first_hour := s; k_results := [rc];
     k_fuel := a_fuel (p_aux P); k_grid := G; k_rhi := R |}.
Definition first_step (P : plant) (I : hour_in) (s : Z) : res record :=
  hour_step P I s (t_init (p_tank P)) (init_state (p_battery P)).
Definition seen {A} (x : res A) (f : A -> bool) : bool := match x with Ok y => f y | Err _ => false end.
Lemma seen_ok {A} (x : res A) f : seen x f = true -> exists y, x = Ok y /\ f y = true.
Proof. destruct x as [y|]; [|discriminate]. intro H. exists y. auto. Qed.
Lemma one_hour P I s G R : plant_total P -> (0 <= s < 8760)%Z ->
  exists rc, first_step P I s = Ok rc /\ run_of P (repeat I ANNUAL_HOURS) s 1 (one_hour_run P s G R rc).
Proof.
  intros HP Hs.
  destruct (C16_run_succeeds P (repeat I ANNUAL_HOURS) s 1 HP) as [rs H];
    [unfold full_year; rewrite repeat_length; exact ANNUAL_HOURS_Z|lia|lia|].
  pose proof (run_length _ _ _ _ _ H) as L. destruct rs as [|rc [|? ?]]; try discriminate L.
  destruct (run_steps _ _ _ _ _ 0 rc H eq_refl) as (I' & _ & HI & Hst).
  apply nth_error_In, repeat_spec in HI. subst I'. cbn in Hst. rewrite Z.add_0_r in Hst.
  exists rc. split; [exact Hst|]. split; [exact H|]. repeat split; reflexivity.
Qed.
Lemma demo_good_run P I :
  good_hour P I (init_state (p_battery P)) ->
  (match mapM above_key (p_order_above P) with Ok ps => order_okb ps | Err _ => false end) = true ->
  (match mapM below_key (p_order_below P) with Ok ps => order_okb ps | Err _ => false end) = true ->
  good_run P (repeat I ANNUAL_HOURS).
Proof.
  intros (H1 & H2 & H3 & _) Ha Hb. split; [exact H1|]. split; [exact H3|]. split.
  - apply Forall_forall. intros x Hx. apply repeat_spec in Hx. subst x. exact H2.
  - split; intros ps E; [rewrite E in Ha; apply order_okb_spec, Ha|rewrite E in Hb; apply order_okb_spec, Hb].
Qed.
Lemma demo_total b hp mo tank ab be :
  tank_total tank -> (exists ps, mapM above_key ab = Ok ps) -> (exists ps, mapM below_key be = Ok ps) ->
  plant_total (demo b hp mo tank ab be).
Proof. intros. split; [assumption|]. split; [cbn; lra|]. split; [intro H'; exfalso; apply H'; reflexivity|]. auto. Qed.

Ltac run_ok :=
  apply demo_good_run;
  [apply demo_good;
    [apply demo_battery_ok; lra|lra|apply simple_tank_ok; lra|lra|lra|lra|lra|lra|intro; lra
    |split; vm_compute; discriminate|vm_compute; reflexivity|vm_compute; reflexivity]
  |reflexivity|reflexivity].
Ltac total_ok := apply demo_total; [split; intros; eexists; reflexivity|eexists; reflexivity|eexists; reflexivity].

(** ** C41 *)
Theorem C41_self_consumption : forall P year s n K,
  good_run P year -> run_of P year s n K ->
  exists x, RES_self_consumption K = Ok x /\ percentage x.
Proof.
  intros P year s n K G R. exact (self_consumption_percentage K (run_complete P year s n K R) (run_exports P year s n K G R)).
Qed.
Print Assumptions C41_self_consumption.

(** Any run whose hours balance, whatever controller produced it. *)
Theorem C41_balanced_hours : forall K,
  complete_run K -> Forall (fun rc => hour_balances (fuel_eqb (k_fuel K) ELECTRIC) (rf rc)) (k_results K) ->
  (exists x, RES_self_consumption K = Ok x /\ percentage x) /\
  (forall x, heat_met_RES K = Ok (Fin x) -> percentage x) /\
  (forall x, HP_met_RES K = Ok (Fin x) -> Forall (fun rc => 0 < rf rc HP_cop) (k_results K) -> percentage x).
Proof.
  intros K HK HB. split; [|split].
  - apply self_consumption_percentage; [exact HK|]. revert HB. apply Forall_impl. intros rc Hb.
    pose proof (hb_signs _ _ Hb) as Sg. repeat (apply Forall_cons_iff in Sg as [? Sg]).
    rewrite (hb_export _ _ Hb), (hb_renewable _ _ Hb). lra.
  - exact (heat_met_percentage K HK HB).
  - intros x Hx HC. apply (hp_met_percentage K x HK); [|exact Hx].
    rewrite Forall_forall in *. intros rc Hin. pose proof (HB rc Hin) as Hb. specialize (HC rc Hin).
    pose proof (hb_signs _ _ Hb) as Sg. repeat (apply Forall_cons_iff in Sg as [? Sg]).
    pose proof (hb_hp_res _ _ Hb). pose proof (hb_hp_heat _ _ Hb). repeat split; lra.
Qed.
Print Assumptions C41_balanced_hours.

(** Full statement for the demand met: 0 <= x <= 100.  False as soon as the battery is
    charged: what goes into it counts as used but is no demand. *)
Theorem C41_demand_met_refuted : exists P year s n K x,
  good_run P year /\ orders_contain P RES_to_export /\ no_minimum P /\ run_of P year s n K /\
  demand_met_RES K = Ok (Fin x) /\ 100 < x.
Proof.
  set (P := demo (demo_battery 10 1) 8 0 (simple_tank 1000 20 10) [1; 2; 3; 12; 13]%Z [1; 2; 13; 15]%Z).
  set (I := demo_hour 6 1 0 150 3 8).
  destruct (one_hour P I 0 plain_grid plain_rhi) as (rc & E & R); [|lia|].
  { total_ok. }
  destruct (seen_ok (first_step P I 0) (fun rc => seen (demand_met_RES (one_hour_run P 0 plain_grid plain_rhi rc))
    (fun x => match x with Fin q => qlt 100 q | NotFinite => false end))) as (rc' & E1 & E2).
  { vm_compute. reflexivity. }
  rewrite E in E1. apply Ok_inj in E1. subst rc'.
  destruct (seen_ok _ _ E2) as ([x|] & E3 & E4); [|discriminate E4].
  exists P, (repeat I ANNUAL_HOURS), 0%Z, 1%Z, (one_hour_run P 0 plain_grid plain_rhi rc), x.
  split; [run_ok|].
  split; [split; intros ps Hps; injection Hps as <-; cbn; tauto|].
  split; [reflexivity|]. split; [exact R|]. split; [exact E3|]. apply qlt_true. exact E4.
Qed.
Print Assumptions C41_demand_met_refuted.

(** What holds: never negative, and above 100 only by the share charged into the battery. *)
Theorem C41_demand_met_partial : forall K,
  complete_run K -> Forall (fun rc => hour_balances (fuel_eqb (k_fuel K) ELECTRIC) (rf rc)) (k_results K) ->
  forall x, demand_met_RES K = Ok (Fin x) ->
  let demand := total (fun r => r HP_elec_total_usage + r AUX_demand + r ED_elec_demand) (k_results K) in
  let charged := total (fun r => r ES_charging_total) (k_results K) in
  0 < demand /\ 0 <= x /\ x <= 100 + 100 * (charged / demand) /\ (charged == 0 -> percentage x).
Proof.
  intros K HK HB x Hx. destruct (demand_met_bounds K HK HB x Hx) as (A & B & C). cbv zeta.
  split; [exact A|]. split; [exact B|]. split; [exact C|]. intro E. unfold percentage. split; [exact B|].
  eapply Qle_trans; [exact C|]. rewrite E. unfold Qdiv. lra.
Qed.
Print Assumptions C41_demand_met_partial.

(** Fixed-order runs meet these hypotheses whenever the order can export, no minimum run
    time applies and the data are meaningful. *)
Theorem C41_fixed_order_runs : forall P year s n K,
  good_run P year -> orders_contain P RES_to_export -> no_minimum P -> run_of P year s n K ->
  (forall x, heat_met_RES K = Ok (Fin x) -> percentage x) /\
  (forall x, demand_met_RES K = Ok (Fin x) -> 0 <= x /\
     (total (fun r => r ES_charging_total) (k_results K) == 0 -> x <= 100)).
Proof.
  intros P year s n K G Hx Hm R. pose proof (run_complete P year s n K R) as HK.
  pose proof (run_balances P year s n K G Hx Hm R) as HB. split; [exact (heat_met_percentage K HK HB)|].
  intros x H. destruct (C41_demand_met_partial K HK HB x H) as (_ & B & _ & D). split; [exact B|].
  intro E. apply (D E).
Qed.
Print Assumptions C41_fixed_order_runs.
Theorem C41_heat_pump_share : forall P year s n K,
  good_run P year -> run_of P year s n K -> forall x, HP_met_RES K = Ok (Fin x) -> percentage x.
Proof.
  intros P year s n K G R x. exact (hp_met_percentage K x (run_complete P year s n K R) (run_cops P year s n K G R)).
Qed.
Print Assumptions C41_heat_pump_share.
(** A run with all shares strictly between 0 and 100. *)
Example C41_case :
  let P := demo (demo_battery 0 1) 8 0 (simple_tank 1000 20 10) all13 all15 in
  let I := demo_hour 9 5 25 150 3 8 in
  exists K x y z w, good_run P (repeat I ANNUAL_HOURS) /\ orders_contain P RES_to_export /\ no_minimum P /\
    run_of P (repeat I ANNUAL_HOURS) 0 1 K /\ total (fun r => r ES_charging_total) (k_results K) == 0 /\
    RES_self_consumption K = Ok x /\ demand_met_RES K = Ok (Fin y) /\ heat_met_RES K = Ok (Fin z) /\
    HP_met_RES K = Ok (Fin w) /\ 0 < x /\ 0 < y < 100 /\ 0 < z < 100 /\ 0 < w.
Proof.
  intros P I.
  destruct (one_hour P I 0 plain_grid plain_rhi) as (rc & E & R); [|lia|].
  { total_ok. }
  set (inside := fun x => match x with Fin q => qlt 0 q && qlt q 100 | NotFinite => false end).
  set (pos := fun x => match x with Fin q => qlt 0 q | NotFinite => false end).
  destruct (seen_ok (first_step P I 0) (fun rc => let K := one_hour_run P 0 plain_grid plain_rhi rc in
    qeq (total (fun r => r ES_charging_total) (k_results K)) 0 &&
    seen (RES_self_consumption K) (fun x => qlt 0 x) && seen (demand_met_RES K) inside && seen (heat_met_RES K) inside &&
    seen (HP_met_RES K) pos)%bool) as (rc' & E1 & E2).
  { vm_compute. reflexivity. }
  rewrite E in E1. apply Ok_inj in E1. subst rc'. cbv zeta in E2.
  apply andb_prop in E2 as [E2 A5]. apply andb_prop in E2 as [E2 A4]. apply andb_prop in E2 as [E2 A3]. apply andb_prop in E2 as [A1 A2].
  apply seen_ok in A2 as (x & A2 & B2). apply seen_ok in A3 as ([y|] & A3 & B3); [|discriminate B3].
  apply seen_ok in A4 as ([z|] & A4 & B4); [|discriminate B4]. apply seen_ok in A5 as ([w|] & A5 & B5); [|discriminate B5].
  exists (one_hour_run P 0 plain_grid plain_rhi rc), x, y, z, w.
  split; [run_ok|].
  split; [split; intros ps Hps; injection Hps as <-; cbn; tauto|].
  split; [reflexivity|]. split; [exact R|]. split; [apply qeq_true_inv; exact A1|].
  do 4 (split; [assumption|]). unfold inside, pos in *.
  apply andb_prop in B3 as [? ?]. apply andb_prop in B4 as [? ?].
  repeat split; apply qlt_true; assumption.
Qed.

(** ** C42 *)
(** Electric back-up: both indicators are the capital cost plus twenty years of the reported
    operating cost, in thousand pounds, scaled to a full year. *)
Theorem C42_electric : forall store_price K c o L f,
  complete_run K -> k_fuel K = ELECTRIC -> f = 8760 / inject_Z (k_timesteps K) ->
  capital_cost store_price K = Ok c -> operating_cost K = Ok o -> lifetime_cost store_price K = Ok L ->
  L == c + 20 * (f * o) /\
  (forall R x, RHI_income K = Ok R -> levelised_cost_of_energy store_price K = Ok (Fin x) ->
     x * (20 * (f * total (fun r => r HD_heat_demand + r ED_elec_demand) (k_results K))) ==
     1000 * (c + 20 * (f * o)) - total_income R).
Proof.
  intros sp K c o L f HK EF Ef Hc Ho HL. pose proof (lifetime_spec sp K HK c o L f Hc Ho HL Ef) as E.
  rewrite EF in E. cbn [fuel_eqb] in E.
  assert (E' : L == c + 20 * (f * o)) by (rewrite E; ring). split; [exact E'|].
  intros R x HR Hx. rewrite <- E', <- (levelised_spec sp K HK L R x f HL HR Hx Ef). ring.
Qed.
Print Assumptions C42_electric.
(** Any other fuel: the fuel cost is a thousand times smaller in the operating cost than in
    the lifetime cost. *)
Theorem C42_other_fuel_partial : forall store_price K c o L f,
  complete_run K -> k_fuel K <> ELECTRIC -> f = 8760 / inject_Z (k_timesteps K) ->
  capital_cost store_price K = Ok c -> operating_cost K = Ok o -> lifetime_cost store_price K = Ok L ->
  let burnt := total (fun r => r AUX_cost) (k_results K) in
  L == c + 20 * (f * (o + (999 # 1000) * (burnt / 1000))) /\
  (L == c + 20 * (f * o) <-> burnt == 0).
Proof.
  intros sp K c o L f HK EF Ef Hc Ho HL. pose proof (lifetime_spec sp K HK c o L f Hc Ho HL Ef) as E.
  assert (Hf : 0 < f).
  { subst f. apply Qlt_shift_div_l; [apply steps_pos; exact HK|]. lra. }
  destruct (fuel_eqb (k_fuel K) ELECTRIC) eqn:EE; [exfalso; apply EF; destruct (k_fuel K); (reflexivity || discriminate EE)|].
  fold (fuel_cost K). cbv zeta. split; [rewrite E; field|]. rewrite E. split; intro H.
  - assert (Z : f * fuel_cost K == 0).
    { assert (20 * f * (fuel_cost K / 1000 * (999 # 1000)) == 0) by lra.
      setoid_replace (f * fuel_cost K) with (20 * f * (fuel_cost K / 1000 * (999 # 1000)) * (1000000 # 19980)) by field.
      rewrite H0. ring. }
    apply Qmult_integral_l in Z; [exact Z|lra].
  - rewrite H. field.
Qed.
Print Assumptions C42_other_fuel_partial.

Definition gas_plant : plant :=
  {| p_battery := demo_battery 0 1; p_hp_capacity := 8; p_min_runtime := 60; p_min_output := 0;
     p_aux := {| a_fuel := GAS; a_efficiency := 1; a_cost := Some 5; a_energy_density := Some 1 |};
     p_tank := simple_tank 1000 20 10; p_export_price := 40; p_setpoint := 100;
     p_order_above := [1; 2; 3; 4; 6; 8; 9; 13]%Z; p_order_below := [1; 2; 4; 6; 7; 9; 15]%Z; p_max_heat := 30 |}.
Lemma gas_plant_total : plant_total gas_plant.
Proof.
  split; [split; intros; eexists; reflexivity|]. split; [cbn; lra|]. split; [intros _; split; discriminate|].
  split; eexists; reflexivity.
Qed.
Lemma gas_plant_good : good_run gas_plant (repeat dull ANNUAL_HOURS).
Proof.
  apply demo_good_run; [|reflexivity|reflexivity].
  assert (G : good_hour (demo (demo_battery 0 1) 8 0 (simple_tank 1000 20 10) [13]%Z [15]%Z) dull 0) by demo_ok.
  destruct G as (G1 & G2 & G3 & _). split; [|split; [exact G2|split; [exact G3|]]].
  - destruct G1 as (A & B & C & _). split; [exact A|]. split; [exact B|]. split; [exact C|]. split; [cbn; lra|].
    split; intros q Hq; injection Hq as <-; lra.
  - apply plant_orders_ok; reflexivity.
Qed.
(** Full statement: for every back-up fuel. *)
Theorem C42_consistent_costs_refuted : exists P year s n K store_price c o L,
  good_run P year /\ run_of P year s n K /\
  capital_cost store_price K = Ok c /\ operating_cost K = Ok o /\ lifetime_cost store_price K = Ok L /\
  c + 20 * (8760 / inject_Z n * o) < L.
Proof.
  destruct (one_hour gas_plant dull 0 plain_grid plain_rhi) as (rc & E & R); [exact gas_plant_total|lia|].
  set (K := one_hour_run gas_plant 0 plain_grid plain_rhi) in *.
  destruct (seen_ok (first_step gas_plant dull 0) (fun rc => qlt 0 (total (fun r => r AUX_cost) [rc]))) as (rc' & E1 & E2).
  { vm_compute. reflexivity. }
  rewrite E in E1. apply Ok_inj in E1. subst rc'. apply qlt_true in E2.
  pose proof (run_complete _ _ _ _ _ R) as HK.
  destruct (operating_cost_ok (K rc) HK) as (o & Eo & _).
  assert (HC : exists c, capital_cost (fun _ => 1) (K rc) = Ok c) by (eexists; vm_compute; reflexivity).
  destruct (lifetime_total (fun _ => 1) (K rc) HK HC) as [L HL]. destruct HC as [c Hc].
  exists gas_plant, (repeat dull ANNUAL_HOURS), 0%Z, 1%Z, (K rc), (fun _ => 1), c, o, L.
  split; [exact gas_plant_good|]. split; [exact R|]. do 3 (split; [assumption|]).
  destruct (C42_other_fuel_partial (fun _ => 1) (K rc) c o L _ HK ltac:(discriminate) eq_refl Hc Eo HL) as [EL _].
  rewrite EL. change (k_timesteps (K rc)) with 1%Z. change (k_results (K rc)) with [rc].
  set (b := total _ [rc]) in *. setoid_replace (8760 / inject_Z 1) with 8760 by reflexivity.
  assert (0 < b / 1000) by (apply Qlt_shift_div_l; lra). lra.
Qed.
Print Assumptions C42_consistent_costs_refuted.
(** The electric statement on a run with every kind of flow; all indicators exist. *)
Example C42_case : exists K c o L R x, run_of demo_plant (repeat dull ANNUAL_HOURS) 0 1 K /\ k_fuel K = ELECTRIC /\
  capital_cost (fun _ => 1) K = Ok c /\ operating_cost K = Ok o /\ lifetime_cost (fun _ => 1) K = Ok L /\
  RHI_income K = Ok R /\ levelised_cost_of_energy (fun _ => 1) K = Ok (Fin x) /\ 0 < c /\ 0 < o /\ 0 < x.
Proof.
  destruct (one_hour demo_plant dull 0 plain_grid plain_rhi) as (rc & E & R); [exact demo_plant_total|lia|].
  set (K := one_hour_run demo_plant 0 plain_grid plain_rhi) in *.
  destruct (seen_ok (first_step demo_plant dull 0) (fun rc =>
    seen (capital_cost (fun _ => 1) (K rc)) (qlt 0) && seen (operating_cost (K rc)) (qlt 0) &&
    seen (lifetime_cost (fun _ => 1) (K rc)) (fun _ => true) && seen (RHI_income (K rc)) (fun _ => true) &&
    seen (levelised_cost_of_energy (fun _ => 1) (K rc)) (fun x => match x with Fin q => qlt 0 q | _ => false end))%bool)
    as (rc' & E1 & E2).
  { vm_compute. reflexivity. }
  rewrite E in E1. apply Ok_inj in E1. subst rc'.
  apply andb_prop in E2 as [E2 A5]. apply andb_prop in E2 as [E2 A4]. apply andb_prop in E2 as [E2 A3]. apply andb_prop in E2 as [A1 A2].
  apply seen_ok in A1 as (c & ? & ?), A2 as (o & ? & ?), A3 as (L & ? & ?), A4 as (I & ? & ?), A5 as ([x|] & ? & B5); [|discriminate B5].
  exists (K rc), c, o, L, I, x. split; [exact R|]. split; [reflexivity|]. do 5 (split; [assumption|]).
  repeat split; apply qlt_true; assumption.
Qed.

(** ** C43 *)
Theorem C43_tiered : forall K eligible capacity y,
  rhi_tariff (k_rhi K) = "Tiered" -> rhi_year K eligible capacity = Ok y ->
  y == tiered (inject_Z capacity * 1314) (rhi_tier_1 (k_rhi K)) (rhi_tier_2 (k_rhi K)) eligible.
Proof. exact tiered_rhi. Qed.
Print Assumptions C43_tiered.
(** Monotone and Lipschitz, hence continuous, the tier limit included. *)
Theorem C43_monotone_continuous : forall K capacity x y px py,
  rhi_tariff (k_rhi K) = "Tiered" -> 0 <= rhi_tier_1 (k_rhi K) -> 0 <= rhi_tier_2 (k_rhi K) -> x <= y ->
  rhi_year K x capacity = Ok px -> rhi_year K y capacity = Ok py ->
  px <= py /\ py - px <= Qmax (rhi_tier_1 (k_rhi K)) (rhi_tier_2 (k_rhi K)) / 100 * (y - x).
Proof.
  intros K capacity x y px py HT H1 H2 Hxy Hx Hy.
  pose proof (tiered_rhi K x capacity px HT Hx) as Ex. pose proof (tiered_rhi K y capacity py HT Hy) as Ey.
  destruct (tiered_continuous (inject_Z capacity * 1314) _ _ x y H1 H2 Hxy) as [A B]. rewrite <- Ex, <- Ey in A, B.
  split; [lra|exact B].
Qed.
Print Assumptions C43_monotone_continuous.
Theorem C43_equal_tiers : forall K K' eligible capacity y,
  rhi_tariff (k_rhi K) = "Tiered" -> rhi_tariff (k_rhi K') = "Fixed" ->
  rhi_tier_1 (k_rhi K) = rhi_fixed (k_rhi K') -> rhi_tier_2 (k_rhi K) = rhi_fixed (k_rhi K') ->
  rhi_year K eligible capacity = Ok y ->
  exists y', rhi_year K' eligible capacity = Ok y' /\ y' == y.
Proof.
  intros K K' e cap y HT HF E1 E2 H. pose proof (tiered_rhi K e cap y HT H) as E. rewrite E1, E2, tiered_equal in E.
  exists (e * rhi_fixed (k_rhi K') / 100). split; [unfold rhi_year; rewrite HF; reflexivity|]. rewrite E. reflexivity.
Qed.
Print Assumptions C43_equal_tiers.
(** The yearly income is paid on heat less electricity, for seven or twenty years. *)
Theorem C43_income : forall K R,
  complete_run K -> RHI_income K = Ok R ->
  exists capacity n, size_at (k_name K) 0 = Ok capacity /\
    rhi_year K (total (fun r => r HP_heat_total_output) (k_results K) - total (fun r => r HP_elec_total_usage) (k_results K))
      capacity = Ok (year_income R) /\
    (rhi_type (k_rhi K) = "Domestic" /\ n = 7 \/ rhi_type (k_rhi K) = "Non-domestic" /\ n = 20) /\
    total_income R = year_income R * n.
Proof.
  intros K R HK. unfold RHI_income, sum_hp_output, sum_hp_usage. rewrite !(sum_of_ok K HK). cbn [bind].
  destruct (size_at (k_name K) 0) as [cap|] eqn:Ec; cbn [bind]; [|discriminate].
  destruct (rhi_year K _ cap) as [y|] eqn:Ey; cbn [bind]; [|discriminate].
  unfold rhi_years. destruct (String.eqb_spec (rhi_type (k_rhi K)) "Domestic") as [D|D]; cbn [bind].
  - intro H. apply Ok_inj in H. subst R. exists cap, 7. split; [reflexivity|]. split; [exact Ey|]. split; [left; split; [exact D|reflexivity]|reflexivity].
  - destruct (String.eqb_spec (rhi_type (k_rhi K)) "Non-domestic") as [N|N]; cbn [bind]; [|discriminate].
    intro H. apply Ok_inj in H. subst R. exists cap, 20. split; [reflexivity|]. split; [exact Ey|]. split; [right; split; [exact N|reflexivity]|reflexivity].
Qed.
Print Assumptions C43_income.
(** Any other name of a tariff or of an installation fails instead of paying nothing. *)
Theorem C43_unknown_kinds_fail : forall K,
  (rhi_tariff (k_rhi K) <> "Fixed" /\ rhi_tariff (k_rhi K) <> "Tiered" \/
   rhi_type (k_rhi K) <> "Domestic" /\ rhi_type (k_rhi K) <> "Non-domestic") ->
  forall R, RHI_income K <> Ok R.
Proof. exact rhi_kinds. Qed.
Print Assumptions C43_unknown_kinds_fail.
Example C43_case :
  let K t := one_hour_run demo_plant 0 plain_grid
    {| rhi_type := "Domestic"; rhi_tariff := t; rhi_fixed := 9; rhi_tier_1 := 9; rhi_tier_2 := 3 |} {| rf := fun _ => 0; r_nodes := [] |} in
  (* 14 kW: the first 18396 kWh at 9 p, the rest at 3 p *)
  seen (rhi_year (K "Tiered") 10000 14) (qeq 900) = true /\ seen (rhi_year (K "Tiered") 20000 14) (qeq (17037600 # 10000)) = true /\
  seen (rhi_year (K "Fixed") 20000 14) (qeq 1800) = true /\ rhi_year (K "none") 20000 14 = Err UnboundLocalError.
Proof. vm_compute. repeat split. Qed.

(** ** C58 *)
(** Full statement: imports count as grid renewables exactly in the simulated hours in which
    the wind farm reached the higher band.  The wind output is read from the start of the
    year instead of from the first simulated hour. *)
Theorem C58_windy_hours_refuted : exists P year s n K w x,
  good_run P year /\ run_of P year s n K /\ complete_inputs (k_grid K) /\
  In (g_tariff (k_grid K)) ["Time of use - PPA + FR"; "Time of use - PPA + WM"; "Time of use - PPA + VP"] /\
  wind_farm_info (k_grid K) = Ok w /\ grid_RES_used K = Ok x /\
  ~ x == windy_total (fun r => r GRID_total_import) (w_power w) (w_higher w) s (k_results K).
Proof.
  set (G := ex_grid "Time of use - PPA + FR" 2021).
  destruct (one_hour demo_plant dull 5000 G plain_rhi) as (rc & E & R); [exact demo_plant_total|lia|].
  destruct (seen_ok (first_step demo_plant dull 5000) (fun rc => qlt 0 (rf rc GRID_total_import))) as (rc' & E1 & E2).
  { vm_compute. reflexivity. }
  rewrite E in E1. apply Ok_inj in E1. subst rc'. apply qlt_true in E2.
  set (K := one_hour_run demo_plant 5000 G plain_rhi rc) in *.
  destruct (ex_grid_complete "Time of use - PPA + FR" 2021 ltac:(lia)) as (C1 & C2 & C3 & C4 & C5 & C6).
  fold G in C4, C5, C6. destruct (wind_total G C4 C5 C6) as [[lo hi pw] Hw].
  destruct (ex_bands _ _ _ _ _ Hw) as [-> ->]. destruct (wind_inv _ _ Hw) as (_ & _ & Ep). cbn [w_power] in Ep. subst pw.
  pose proof (run_complete _ _ _ _ _ R) as HK.
  assert (HL : (length (k_results K) <= length (g_wind G))%nat).
  { change (length (k_results K)) with 1%nat. apply Nat2Z.inj_le. lia. }
  pose proof (windy_sum_ppa K (fun r => r GRID_total_import) _ HK (or_introl eq_refl) Hw HL) as Hx.
  exists demo_plant, (repeat dull ANNUAL_HOURS), 5000%Z, 1%Z, K. do 2 eexists.
  split; [run_ok|]. split; [exact R|].
  split; [exact (ex_grid_complete "Time of use - PPA + FR" 2021 ltac:(lia))|].
  split; [left; reflexivity|]. split; [exact Hw|]. split; [exact Hx|].
  cbn [w_power w_higher].
  change (k_results K) with [rc]. cbn [w_power w_higher windy_total]. unfold windy_at.
  assert (N1 : nth_error (g_wind G) (Z.to_nat 0) = Some 10).
  { unfold G. cbn [g_wind ex_grid]. rewrite nth_error_app1 by (rewrite repeat_length; lia).
    rewrite (nth_error_nth' _ 10) by (rewrite repeat_length; lia). rewrite nth_repeat. reflexivity. }
  assert (N2 : nth_error (g_wind G) (Z.to_nat 5000) = Some 0).
  { unfold G. cbn [g_wind ex_grid]. rewrite nth_error_app2 by (rewrite repeat_length; lia). rewrite repeat_length.
    rewrite (nth_error_nth' _ 0) by (rewrite repeat_length; lia). rewrite nth_repeat. reflexivity. }
  rewrite N1, N2. change (qle 10 10) with true. change (qle 10 0) with false. cbv iota. lra.
Qed.
Print Assumptions C58_windy_hours_refuted.
(** It holds for runs from the start of the year; other tariffs attribute nothing. *)
Theorem C58_windy_hours_partial : forall K w,
  complete_run K -> complete_inputs (k_grid K) -> (k_timesteps K <= 8760)%Z -> k_first_hour K = 0%Z ->
  wind_farm_info (k_grid K) = Ok w ->
  In (g_tariff (k_grid K)) ["Time of use - PPA + FR"; "Time of use - PPA + WM"; "Time of use - PPA + VP"] ->
  grid_RES_used K =
    Ok (windy_total (fun r => r GRID_total_import) (g_wind (k_grid K)) (w_higher w) (k_first_hour K) (k_results K)) /\
  HP_from_grid_RES K =
    Ok (windy_total (fun r => r HP_elec_import_usage * r HP_cop) (g_wind (k_grid K)) (w_higher w) (k_first_hour K) (k_results K)).
Proof.
  intros K w HK (_ & _ & _ & HW & _) HN H0 Hw HT. destruct (wind_inv _ _ Hw) as (_ & _ & Ep).
  assert (HL : (length (k_results K) <= length (w_power w))%nat) by (rewrite Ep; destruct HK; lia).
  rewrite H0, <- Ep. split; apply windy_sum_ppa; assumption.
Qed.
Print Assumptions C58_windy_hours_partial.
Theorem C58_no_agreement : forall K,
  In (g_tariff (k_grid K)) ["Flat rates"; "Variable periods"; "Time of use - WM"] ->
  grid_RES_used K = Ok 0 /\ HP_from_grid_RES K = Ok 0 /\ heat_from_grid_RES K = Ok 0.
Proof. intros K H. repeat split; apply windy_sum_plain; exact H. Qed.
Print Assumptions C58_no_agreement.
(** A January run buys wind power. *)
Example C58_case : exists K w, run_of demo_plant (repeat dull ANNUAL_HOURS) 0 1 K /\ complete_inputs (k_grid K) /\
  g_tariff (k_grid K) = "Time of use - PPA + FR" /\ wind_farm_info (k_grid K) = Ok w /\
  exists x, grid_RES_used K = Ok x /\ 0 < x.
Proof.
  set (G := ex_grid "Time of use - PPA + FR" 2021).
  destruct (one_hour demo_plant dull 0 G plain_rhi) as (rc & E & R); [exact demo_plant_total|lia|].
  destruct (seen_ok (first_step demo_plant dull 0) (fun rc => qlt 0 (rf rc GRID_total_import))) as (rc' & E1 & E2).
  { vm_compute. reflexivity. }
  rewrite E in E1. apply Ok_inj in E1. subst rc'. apply qlt_true in E2.
  set (K := one_hour_run demo_plant 0 G plain_rhi rc) in *.
  pose proof (ex_grid_complete "Time of use - PPA + FR" 2021 ltac:(lia)) as C. pose proof C as (C1 & C2 & C3 & C4 & C5 & C6).
  fold G in C4, C5, C6. destruct (wind_total G C4 C5 C6) as [w Hw].
  exists K, w. do 2 (split; [assumption|]). split; [reflexivity|]. split; [exact Hw|].
  destruct (C58_windy_hours_partial K w (run_complete _ _ _ _ _ R) C) as [-> _]; [cbn; lia|reflexivity|exact Hw|left; reflexivity|].
  eexists. split; [reflexivity|]. destruct w as [lo hi pw]. destruct (ex_bands _ _ _ _ _ Hw) as [_ ->].
  change (k_results K) with [rc]. cbn [w_higher windy_total]. unfold windy_at.
  assert (N1 : nth_error (g_wind (k_grid K)) (Z.to_nat (k_first_hour K)) = Some 10).
  { unfold K, one_hour_run, G. cbn [g_wind ex_grid k_grid k_first_hour]. rewrite nth_error_app1 by (rewrite repeat_length; lia).
    rewrite (nth_error_nth' _ 10) by (rewrite repeat_length; lia). rewrite nth_repeat. reflexivity. }
  rewrite N1. change (qle 10 10) with true. cbv iota. lra.
Qed.

(** ** C59 *)
(** Simulating the same period [m] times over changes no annualised figure ... *)
Theorem C59_annualised : forall store_price m K,
  complete_run K ->
  (forall L L', lifetime_cost store_price K = Ok L -> lifetime_cost store_price (repeated m K) = Ok L' -> L' == L) /\
  (forall x x', calc_scop K = Ok x -> calc_scop (repeated m K) = Ok x' -> num_eq x' x) /\
  (forall x x', RES_self_consumption K = Ok x -> RES_self_consumption (repeated m K) = Ok x' -> x' == x) /\
  (forall x x', days_storage_content K = Ok x -> days_storage_content (repeated m K) = Ok x' -> num_eq x' x).
Proof.
  intros sp m K HK. split; [exact (repeated_lifetime sp m K HK)|]. split; [|split]; intros;
    [eapply repeated_scop|eapply repeated_self|eapply repeated_storage_days]; eassumption.
Qed.
Print Assumptions C59_annualised.
(** ... except the levelised costs: the incentive of the simulated period is taken for that
    of a year. *)
Theorem C59_levelised_cost_refuted : exists P year s n K store_price m x x',
  good_run P year /\ run_of P year s n K /\
  levelised_cost_of_energy store_price K = Ok (Fin x) /\
  levelised_cost_of_energy store_price (repeated m K) = Ok (Fin x') /\ ~ x' == x.
Proof.
  destruct (one_hour demo_plant dull 0 plain_grid plain_rhi) as (rc & E & R); [exact demo_plant_total|lia|].
  set (K := one_hour_run demo_plant 0 plain_grid plain_rhi) in *.
  destruct (seen_ok (first_step demo_plant dull 0) (fun rc =>
    seen (levelised_cost_of_energy (fun _ => 1) (K rc)) (fun x => seen (levelised_cost_of_energy (fun _ => 1) (repeated 2 (K rc)))
      (fun x' => match x, x' with Fin q, Fin q' => negb (qeq q' q) | _, _ => false end)))) as (rc' & E1 & E2).
  { vm_compute. reflexivity. }
  rewrite E in E1. apply Ok_inj in E1. subst rc'.
  apply seen_ok in E2 as ([x|] & A1 & E2); [|apply seen_ok in E2 as ([x'|] & _ & B); discriminate B].
  apply seen_ok in E2 as ([x'|] & A2 & E3); [|discriminate E3].
  exists demo_plant, (repeat dull ANNUAL_HOURS), 0%Z, 1%Z, (K rc), (fun _ => 1), 2%positive, x, x'.
  split; [run_ok|]. do 3 (split; [assumption|]).
  apply qneq_true. exact E3.
Qed.
Print Assumptions C59_levelised_cost_refuted.
Theorem C59_levelised_cost_partial : forall store_price m K x x' R R',
  complete_run K ->
  levelised_cost_of_energy store_price K = Ok x -> levelised_cost_of_energy store_price (repeated m K) = Ok x' ->
  RHI_income K = Ok R -> RHI_income (repeated m K) = Ok R' -> total_income R == total_income R' -> num_eq x' x.
Proof. intros sp m K x x' R R' HK. exact (repeated_levelised sp m K HK x x' R R'). Qed.
Print Assumptions C59_levelised_cost_partial.
(** With a rate of nothing the incomes agree and the costs exist. *)
Example C59_case : exists K x R R', run_of demo_plant (repeat dull ANNUAL_HOURS) 0 1 K /\
  levelised_cost_of_energy (fun _ => 1) K = Ok (Fin x) /\ levelised_cost_of_energy (fun _ => 1) (repeated 3 K) <> Ok NotFinite /\
  RHI_income K = Ok R /\ RHI_income (repeated 3 K) = Ok R' /\ total_income R == total_income R' /\
  exists L, lifetime_cost (fun _ => 1) (repeated 3 K) = Ok L /\ 0 < L.
Proof.
  set (none := {| rhi_type := "Domestic"; rhi_tariff := "Fixed"; rhi_fixed := 0; rhi_tier_1 := 0; rhi_tier_2 := 0 |}).
  destruct (one_hour demo_plant dull 0 plain_grid none) as (rc & E & R); [exact demo_plant_total|lia|].
  set (K := one_hour_run demo_plant 0 plain_grid none) in *.
  set (finite := fun x => match x with Fin _ => true | NotFinite => false end).
  destruct (seen_ok (first_step demo_plant dull 0) (fun rc =>
    seen (levelised_cost_of_energy (fun _ => 1) (K rc)) finite && seen (levelised_cost_of_energy (fun _ => 1) (repeated 3 (K rc))) finite &&
    seen (RHI_income (K rc)) (fun x => qeq (total_income x) 0) && seen (RHI_income (repeated 3 (K rc))) (fun x => qeq (total_income x) 0) &&
    seen (lifetime_cost (fun _ => 1) (repeated 3 (K rc))) (qlt 0))%bool) as (rc' & E1 & E2).
  { vm_compute. reflexivity. }
  rewrite E in E1. apply Ok_inj in E1. subst rc'.
  apply andb_prop in E2 as [E2 A5]. apply andb_prop in E2 as [E2 A4]. apply andb_prop in E2 as [E2 A3]. apply andb_prop in E2 as [A1 A2].
  apply seen_ok in A1 as ([x|] & A1 & B1), A2 as (x2 & A2 & B2), A3 as (R1 & A3 & B3), A4 as (R2 & A4 & B4), A5 as (L & A5 & B5); [|discriminate B1].
  exists (K rc), x, R1, R2. do 2 (split; [assumption|]).
  split; [intro H; rewrite A2 in H; apply Ok_inj in H; subst x2; discriminate B2|]. do 2 (split; [assumption|]).
  apply qeq_true_inv in B3. apply qeq_true_inv in B4. split; [lra|]. exists L. split; [exact A5|]. apply qlt_true. exact B5.
Qed.

(** ** C60 *)
(** The seasonal coefficient of performance is at least the worst hourly one. *)
Theorem C60_at_least_worst : forall P year s n K lo x,
  good_run P year -> run_of P year s n K -> calc_scop K = Ok (Fin x) ->
  Forall (fun rc => lo <= rf rc HP_cop) (k_results K) -> lo <= x.
Proof. exact run_scop_lower. Qed.
Print Assumptions C60_at_least_worst.
(** Full statement: and at most the best.  Heat produced with battery electricity counts, the
    electricity does not. *)
Theorem C60_at_most_best_refuted : exists P year s n K hi x,
  good_run P year /\ run_of P year s n K /\ calc_scop K = Ok (Fin x) /\
  Forall (fun rc => rf rc HP_cop <= hi) (k_results K) /\ hi < x.
Proof.
  set (P := demo (demo_battery 4 1) 8 0 (simple_tank 1000 20 10) [3; 4; 7; 13]%Z [2; 4; 8; 15]%Z).
  set (I := demo_hour 2 0 24 150 3 8).
  destruct (one_hour P I 0 plain_grid plain_rhi) as (rc & E & R); [total_ok|lia|].
  destruct (seen_ok (first_step P I 0) (fun rc => qle (rf rc HP_cop) 3 && seen (calc_scop (one_hour_run P 0 plain_grid plain_rhi rc))
    (fun x => match x with Fin q => qlt 3 q | NotFinite => false end))%bool) as (rc' & E1 & E2).
  { vm_compute. reflexivity. }
  rewrite E in E1. apply Ok_inj in E1. subst rc'. apply andb_prop in E2 as [A1 A2].
  apply seen_ok in A2 as ([x|] & E3 & E4); [|discriminate E4].
  exists P, (repeat I ANNUAL_HOURS), 0%Z, 1%Z, (one_hour_run P 0 plain_grid plain_rhi rc), 3, x.
  split; [run_ok|]. split; [exact R|]. split; [exact E3|].
  split; [constructor; [apply qle_true; exact A1|constructor]|]. apply qlt_true. exact E4.
Qed.
Print Assumptions C60_at_most_best_refuted.
(** It holds when the order neither drives the heat pump from the battery nor charges the tank
    with imported electricity (a figure that is rounded). *)
Theorem C60_between_partial : forall P year s n K lo hi x,
  good_run P year -> orders_lack P ES_to_HP_to_demand -> orders_lack P HP_import_to_TS -> run_of P year s n K ->
  calc_scop K = Ok (Fin x) -> Forall (fun rc => lo <= rf rc HP_cop <= hi) (k_results K) -> lo <= x <= hi.
Proof.
  intros P year s n K lo hi x G L1 L2 R Hx F. apply (scop_between K lo hi x (run_complete P year s n K R) Hx).
  pose proof (run_exact_cops P year s n K G L1 L2 R) as EC. rewrite Forall_forall in *. intros rc Hin.
  destruct (EC rc Hin) as (A & _ & B). split; [exact A|]. split; [exact B|]. exact (F rc Hin).
Qed.
Print Assumptions C60_between_partial.
Example C60_case : exists K x, good_run gas_plant (repeat dull ANNUAL_HOURS) /\ orders_lack gas_plant ES_to_HP_to_demand /\
  orders_lack gas_plant HP_import_to_TS /\ run_of gas_plant (repeat dull ANNUAL_HOURS) 0 1 K /\ calc_scop K = Ok (Fin x) /\
  Forall (fun rc => 3 <= rf rc HP_cop <= 3) (k_results K).
Proof.
  destruct (one_hour gas_plant dull 0 plain_grid plain_rhi) as (rc & E & R); [exact gas_plant_total|lia|].
  destruct (seen_ok (first_step gas_plant dull 0) (fun rc => qeq (rf rc HP_cop) 3 && seen (calc_scop (one_hour_run gas_plant 0 plain_grid plain_rhi rc))
    (fun x => match x with Fin _ => true | NotFinite => false end))%bool) as (rc' & E1 & E2).
  { vm_compute. reflexivity. }
  rewrite E in E1. apply Ok_inj in E1. subst rc'. apply andb_prop in E2 as [A1 A2]. apply qeq_true_inv in A1.
  apply seen_ok in A2 as ([x|] & E3 & E4); [|discriminate E4].
  exists (one_hour_run gas_plant 0 plain_grid plain_rhi rc), x. split; [exact gas_plant_good|].
  do 2 (split; [split; intros ps Hps; injection Hps as <-; cbn; intuition discriminate|]).
  split; [exact R|]. split; [exact E3|]. constructor; [lra|constructor].
Qed.

(** ** C61 *)
(** Row [i] of every table shows the sizes of combination [i] and the indicators computed from
    the run stored under its name. *)
Theorem C61_rows : forall store_price load p tables cs i h t,
  KPIs_to_csv store_price load p = Ok tables -> combos p = Ok cs -> nth_error cs i = Some (h, t) ->
  exists K economic technical output,
    load (folder_name (h, t)) = Ok K /\ tables = [economic; technical; output] /\
    length economic = length cs /\ length technical = length cs /\ length output = length cs /\
    let sizes := [Some (Fin (inject_Z h)); Some (Fin (inject_Z t / 1000))] in
    let q (x : res Q) (c : num) := exists v, x = Ok v /\ c = Fin v in
    let n (x : res num) (c : num) := x = Ok c in
    (exists c1 c2 c3 c4 c5 c6 c7,
      nth_error economic i = Some (sizes ++ map Some [c1; c2; c3; c4; c5; c6; c7])%list /\
      q (capital_cost store_price K) c1 /\ q (operating_cost K) c2 /\ n (cost_of_heat K) c3 /\ q (cost_elec K) c4 /\
      q (lifetime_cost store_price K) c5 /\ n (levelised_cost_of_heat store_price K) c6 /\
      n (levelised_cost_of_energy store_price K) c7) /\
    (exists c1 c2 c3 c4 c5 c6 c7 c8 c9 c10,
      nth_error technical i = Some (sizes ++ map Some [c1; c2; c3; c4; c5; c6; c7; c8; c9; c10])%list /\
      q (RES_self_consumption K) c1 /\ q (total_RES_self_consumption K) c2 /\ q (grid_RES_used K) c3 /\
      q (total_RES_used K) c4 /\ n (heat_met_RES K) c5 /\ n (demand_met_RES K) c6 /\ n (HP_met_RES K) c7 /\
      n (HP_size_ratio K) c8 /\ n (HP_utilisation K) c9 /\ n (days_storage_content K) c10) /\
    (exists c1 c2 c3 c4 c5 c6 c7 c8,
      nth_error output i = Some (sizes ++ map Some [c1; c2; c3; c4; c5; c6; c7; c8])%list /\
      q (sum_hp_output K) c1 /\ q (sum_hp_usage K) c2 /\ n (calc_scop K) c3 /\ q (sum_aux_output K) c4 /\
      q (sum_ed_import K) c5 /\ q (sum_RES K) c6 /\ q (sum_import K) c7 /\ q (sum_export K) c8).
Proof. exact table_rows. Qed.
Print Assumptions C61_rows.
(** Two combinations, both read from a run of the demonstration plant. *)
Example C61_case : exists K tables cs, run_of demo_plant (repeat dull ANNUAL_HOURS) 0 1 K /\
  let p := {| hp_min := 14; hp_max := 14; hp_step := 1; ts_min := 0; ts_max := 500; ts_step := 500 |}%Z in
  KPIs_to_csv (fun _ => 1) (fun name => Ok {| k_name := name; k_timesteps := k_timesteps K; k_first_hour := k_first_hour K;
    k_results := k_results K; k_fuel := k_fuel K; k_grid := k_grid K; k_rhi := k_rhi K |}) p = Ok tables /\
  combos p = Ok cs /\ nth_error cs 1 = Some (14, 500)%Z.
Proof.
  destruct (one_hour demo_plant dull 0 plain_grid plain_rhi) as (rc & E & R); [exact demo_plant_total|lia|].
  set (p := {| hp_min := 14; hp_max := 14; hp_step := 1; ts_min := 0; ts_max := 500; ts_step := 500 |}%Z).
  destruct (seen_ok (first_step demo_plant dull 0) (fun rc => let K := one_hour_run demo_plant 0 plain_grid plain_rhi rc in
    seen (KPIs_to_csv (fun _ => 1) (fun name => Ok {| k_name := name; k_timesteps := k_timesteps K; k_first_hour := k_first_hour K;
      k_results := k_results K; k_fuel := k_fuel K; k_grid := k_grid K; k_rhi := k_rhi K |}) p) (fun _ => true))) as (rc' & E1 & E2).
  { vm_compute. reflexivity. }
  rewrite E in E1. apply Ok_inj in E1. subst rc'. apply seen_ok in E2 as (tables & E2 & _).
  exists (one_hour_run demo_plant 0 plain_grid plain_rhi rc), tables. eexists. split; [exact R|].
  split; [exact E2|]. split; reflexivity.
Qed.

(** ** C62 *)
(** Electric back-up: electricity for heat attributed to grid renewables is part of the
    attributed imports. *)
Theorem C62_heat_part_of_imports_partial : forall K x y,
  complete_run K -> k_fuel K = ELECTRIC -> Forall (fun rc => hour_balances true (rf rc)) (k_results K) ->
  heat_grid_RES_used K = Ok x -> grid_RES_used K = Ok y -> x <= y.
Proof.
  intros K x y HK _ HB. apply windy_sum_le; [exact HK|]. revert HB. apply Forall_impl. intros rc Hb.
  pose proof (hb_signs _ _ Hb) as Sg. repeat (apply Forall_cons_iff in Sg as [? Sg]). rewrite (hb_import _ _ Hb). lra.
Qed.
Print Assumptions C62_heat_part_of_imports_partial.
(** Full statement: for every fuel.  With gas the heat of the burner counts as renewable
    whenever the wind blows: here all of it, without a kWh of electricity used for heat. *)
Theorem C62_burnt_gas_counts_as_renewable_refuted : exists P year s n K x,
  good_run P year /\ orders_contain P RES_to_export /\ no_minimum P /\ run_of P year s n K /\ k_fuel K = GAS /\
  complete_inputs (k_grid K) /\ s = 0%Z /\
  Forall (fun rc => rf rc HP_elec_total_usage == 0 /\ rf rc RES_generation_total == 0 /\ 0 < rf rc AUX_demand) (k_results K) /\
  heat_met_RES K = Ok (Fin x) /\ x == 100.
Proof.
  set (P := {| p_battery := demo_battery 0 1; p_hp_capacity := 8; p_min_runtime := 60; p_min_output := 0;
     p_aux := {| a_fuel := GAS; a_efficiency := 1; a_cost := Some 5; a_energy_density := Some 1 |};
     p_tank := simple_tank 1000 20 10; p_export_price := 40; p_setpoint := 100;
     p_order_above := [3; 9; 13]%Z; p_order_below := [2; 9; 15]%Z; p_max_heat := 30 |}).
  set (I := demo_hour 0 0 10 80 3 8).
  set (G := ex_grid "Time of use - PPA + FR" 2021).
  destruct (one_hour P I 0 G plain_rhi) as (rc & E & R).
  { split; [split; intros; eexists; reflexivity|]. split; [cbn; lra|]. split; [intros _; split; discriminate|].
    split; eexists; reflexivity. }
  { lia. }
  destruct (seen_ok (first_step P I 0) (fun rc => qeq (rf rc HP_elec_total_usage) 0 && qeq (rf rc HP_heat_total_output) 0 &&
    qeq (rf rc RES_generation_total) 0 && qlt 0 (rf rc AUX_demand) && qeq (rf rc RES_aux) 0 && qeq (rf rc HP_elec_import_usage) 0 &&
    qeq (rf rc HP_elec_RES_usage) 0)%bool) as (rc' & E1 & E2).
  { vm_compute. reflexivity. }
  rewrite E in E1. apply Ok_inj in E1. subst rc'.
  repeat match type of E2 with (_ && _)%bool = true => let A := fresh "A" in apply andb_prop in E2 as [E2 A] end.
  repeat match goal with A : qeq _ _ = true |- _ => apply qeq_true_inv in A | A : qlt _ _ = true |- _ => apply qlt_true in A end.
  set (K := one_hour_run P 0 G plain_rhi rc) in *.
  pose proof (ex_grid_complete "Time of use - PPA + FR" 2021 ltac:(lia)) as C. pose proof C as (C1 & C2 & C3 & C4 & C5 & C6).
  fold G in C4, C5, C6. destruct (wind_total G C4 C5 C6) as [[lo hi pw] Hw].
  destruct (ex_bands _ _ _ _ _ Hw) as [-> ->]. destruct (wind_inv _ _ Hw) as (_ & _ & Ep). cbn [w_power] in Ep. subst pw.
  pose proof (run_complete _ _ _ _ _ R) as HK.
  assert (HL : (length (k_results K) <= length (g_wind G))%nat) by (change (length (k_results K)) with 1%nat; apply Nat2Z.inj_le; lia).
  pose proof (windy_sum_ppa K (fun r => r AUX_demand - r RES_aux + r HP_elec_import_usage * r HP_cop) _ HK (or_introl eq_refl) Hw HL) as Hx.
  cbn [w_power w_higher] in Hx. change (k_results K) with [rc] in Hx. cbn [windy_total] in Hx. unfold windy_at in Hx.
  assert (N1 : nth_error (g_wind G) (Z.to_nat 0) = Some 10).
  { unfold G. cbn [g_wind ex_grid]. rewrite nth_error_app1 by (rewrite repeat_length; lia).
    rewrite (nth_error_nth' _ 10) by (rewrite repeat_length; lia). rewrite nth_repeat. reflexivity. }
  rewrite N1 in Hx. change (qle 10 10) with true in Hx. cbv iota in Hx.
  assert (HM : exists x, heat_met_RES K = Ok (Fin x) /\ x == 100).
  { unfold heat_met_RES, heat_from_local_RES, heat_from_grid_RES, sum_hp_output, sum_aux_output.
    rewrite !(sum_of_ok K HK), Hx. cbn [bind]. change (k_results K) with [rc]. cbn [total fold_right]. unfold ndiv.
    match goal with |- context [qeq ?d 0] => destruct (qeq_spec d 0) as [D|D] end; [exfalso; lra|].
    cbn [nmap]. eexists. split; [reflexivity|].
    match goal with |- ?a / ?b * 100 == 100 => assert (EQ : a == b) end.
    { rewrite A, A0, A1, A4. ring. }
    rewrite EQ. field. lra. }
  destruct HM as (x & Hm & Ex).
  exists P, (repeat I ANNUAL_HOURS), 0%Z, 1%Z, K, x.
  split.
  { apply demo_good_run; [|reflexivity|reflexivity].
    assert (Gd : good_hour (demo (demo_battery 0 1) 8 0 (simple_tank 1000 20 10) [13]%Z [15]%Z) I 0) by demo_ok.
    destruct Gd as (G1 & G2 & G3 & _). split; [|split; [exact G2|split; [exact G3|]]].
    - destruct G1 as (B1 & B2 & B3 & _). split; [exact B1|]. split; [exact B2|]. split; [exact B3|]. split; [cbn; lra|].
      split; intros q Hq; injection Hq as <-; lra.
    - apply plant_orders_ok; reflexivity. }
  split; [split; intros ps Hps; injection Hps as <-; cbn; tauto|].
  split; [reflexivity|]. split; [exact R|]. split; [reflexivity|]. split; [exact C|]. split; [reflexivity|].
  split; [constructor; [repeat split; assumption|constructor]|]. split; [exact Hm|exact Ex].
Qed.
Print Assumptions C62_burnt_gas_counts_as_renewable_refuted.
(** An electric run in a windy hour. *)
Example C62_case :
  let P := demo (demo_battery 0 1) 8 0 (simple_tank 1000 20 10) all13 all15 in
  exists K, run_of P (repeat dull ANNUAL_HOURS) 0 1 K /\ k_fuel K = ELECTRIC /\
    Forall (fun rc => hour_balances true (rf rc)) (k_results K) /\
    In (g_tariff (k_grid K)) ppa_tariffs /\ complete_inputs (k_grid K).
Proof.
  intro P. set (G := ex_grid "Time of use - PPA + FR" 2021).
  destruct (one_hour P dull 0 G plain_rhi) as (rc & E & R); [total_ok|lia|].
  exists (one_hour_run P 0 G plain_rhi rc). split; [exact R|]. split; [reflexivity|]. split.
  - refine (run_balances P (repeat dull ANNUAL_HOURS) 0 1 _ _ _ _ R); [run_ok|split; intros ps Hps; injection Hps as <-; cbn; tauto|reflexivity].
  - split; [left; reflexivity|apply ex_grid_complete; lia].
Qed.
