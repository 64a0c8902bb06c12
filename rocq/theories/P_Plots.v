(** The figures: properties C89-C93. *)
From Coq Require Import String Qabs.
From Verif Require Import Base BaseL M_Battery S_Battery M_HeatPump S_HeatPump M_Tools S_Tools L_Tools
  M_FixedOrder S_FixedOrder L_FixedOrder L_FixedOrderHour L_FixedOrderProps L_FixedOrderMore L_FixedOrderRun P_FixedOrder
  M_Tank L_Tank L_TankHour P_Tank M_Mpc S_Mpc P_Mpc M_Sweep S_Sweep L_Sweep P_Sweep
  M_Grid M_Kpi S_Kpi L_Kpi P_Kpi M_Plots S_Plots L_Plots L_PlotsHours L_Surfaces.
Local Open Scope string_scope.
Local Open Scope list_scope.

(** ** Concrete runs *)
Lemma demo_three P year s n rs cap a b :
  p_tank P = simple_tank cap a b -> run_timesteps P year s n = Ok rs -> Forall (fun rc => length (r_nodes rc) = 3%nat) rs.
Proof.
  intros HP H. apply Forall_forall. intros rc Hin. apply In_nth_error in Hin. destruct Hin as [i Hi].
  revert rc Hi. induction i as [|i IH]; intros rc Hi;
    destruct (run_steps _ _ _ _ _ _ _ H Hi) as (I & _ & _ & E); apply hour_nodes in E; unfold moved in E; rewrite HP in E;
    (destruct E as [(_ & ->)|(_ & s' & o & d & E)]; [|apply Ok_inj in E; rewrite <- E]); cbn [state_before];
    try (destruct (nth_error rs i) as [rc'|]; [cbn [fst]; apply IH; reflexivity|]); cbn [fst]; rewrite HP; reflexivity.
Qed.
Lemma demo_nodes P year s n rs cap a b :
  p_tank P = simple_tank cap a b -> run_timesteps P year s n = Ok rs -> same_nodes rs.
Proof. intros HP H. exists 3%nat. eapply demo_three; eassumption. Qed.
Lemma run_and_figures P year s n cap a b :
  plant_total P -> p_tank P = simple_tank cap a b -> full_year year -> (0 <= s)%Z -> (0 < n)%Z -> (s + n <= 8760)%Z ->
  exists rs out, run_timesteps P year s n = Ok rs /\ run_plots rs n s = Ok out.
Proof.
  intros HP HT HY H0 Hn H1. destruct (C16_run_succeeds P year s n HP HY H0 H1) as [rs R].
  destruct (run_plots_ok rs n s Hn) as [out O]; [rewrite (run_length _ _ _ _ _ R); lia|eapply demo_nodes; eassumption|].
  exists rs, out. auto.
Qed.
(** One hour of sun, then dull weather for the rest of the year. *)
Definition one_sunny_hour : list hour_in := sunny :: repeat dull (Z.to_nat 8759).
Lemma one_sunny_full : full_year one_sunny_hour.
Proof. unfold full_year, one_sunny_hour. cbn [length]. rewrite repeat_length. rewrite Nat2Z.inj_succ, Z2Nat.id by discriminate. reflexivity. Qed.
Lemma one_sunny_nth t I : (0 < t)%Z -> nth_error one_sunny_hour (Z.to_nat t) = Some I -> I = dull.
Proof.
  intros H E. unfold one_sunny_hour in E. destruct (Z.to_nat t) as [|k] eqn:K; [lia|]. cbn [nth_error] in E.
  apply nth_error_In, repeat_spec in E. exact E.
Qed.

(** ** C89 *)
(** Every curve and band is the quantity its file, subplot and legend announce, one point per
    drawn hour, above the abscissa of that hour, and the time axis is labelled. *)
Theorem C89_points : forall rs n s out per figs fig p c leg q,
  run_plots rs n s = Ok out -> In (per, figs) out -> In fig figs -> shows (fg_file fig) p c leg q ->
  named fig p c leg /\ time_axis fig "Hour of the year" /\
  exists lo hi off, drawn n per (fg_file fig) lo hi off /\
    forall x y, point fig p c x y <->
      (lo <= x < hi)%Z /\ exists rc, nth_error rs (Z.to_nat (x + off)) = Some rc /\ y = q rc.
Proof. exact curve_points. Qed.
Print Assumptions C89_points.
Example C89_case : exists rs out figs fig, run_timesteps demo_plant one_sunny_hour 0 8760 = Ok rs /\
  run_plots rs 8760 0 = Ok out /\ In ("Summer", figs) out /\ In fig figs /\
  shows (fg_file fig) 0 2 (Some "Aux") (fun r => rf r HD_heat_demand - rf r HD_HP - rf r HD_TS).
Proof.
  destruct (run_and_figures demo_plant one_sunny_hour 0 8760 1000 20 10 demo_plant_total eq_refl one_sunny_full) as (rs & out & R & O); [lia|lia|lia|].
  destruct (find_folder _ _ _ _ "Summer" O) as [figs I]; [cbn; tauto|].
  destruct (find_figure _ _ _ _ _ _ "heat_demand_and_heat_pump.png" O I) as (fig & F & E); [cbn; tauto|].
  exists rs, out, figs, fig. rewrite E. split; [exact R|]. split; [exact O|]. split; [exact I|]. split; [exact F|]. constructor.
Qed.

(** The same for the node temperatures: curve [k] is node [k]. *)
Theorem C89_nodes : forall rs n s out per figs fig p,
  run_plots rs n s = Ok out -> In (per, figs) out -> In fig figs -> shows_nodes (fg_file fig) p ->
  exists lo hi off, drawn n per (fg_file fig) lo hi off /\
    forall k x y, point fig p k x y <->
      (lo <= x < hi)%Z /\ exists rc, nth_error rs (Z.to_nat (x + off)) = Some rc /\ nth_error (r_nodes rc) k = Some y.
Proof. exact node_points. Qed.
Print Assumptions C89_nodes.
(** In the figure of the store the legend counts the nodes from 1 on. *)
Theorem C89_node_names : forall rs n s out per figs fig k x y,
  run_plots rs n s = Ok out -> In (per, figs) out -> In fig figs -> fg_file fig = "thermal_storage.png" ->
  point fig 2 k x y ->
  exists name, named fig 2 k (Some name) /\ literal (list_ascii_of_string name) (Z.of_nat k + 1).
Proof.
  intros rs n s out per figs fig k x y H I F E P. eexists. split; [eapply node_legend; eassumption|].
  rewrite list_ascii_of_string_of_list_ascii. apply literal_str.
Qed.
Print Assumptions C89_node_names.
Example C89_nodes_case : exists rs out figs fig y, run_timesteps demo_plant one_sunny_hour 3 7 = Ok rs /\
  run_plots rs 7 3 = Ok out /\ In ("User", figs) out /\ In fig figs /\ fg_file fig = "thermal_storage.png" /\ point fig 2 2 4 y.
Proof.
  destruct (run_and_figures demo_plant one_sunny_hour 3 7 1000 20 10 demo_plant_total eq_refl one_sunny_full) as (rs & out & R & O); [lia|lia|lia|].
  destruct (find_folder _ _ _ _ "User" O) as [figs I]; [cbn; tauto|].
  destruct (find_figure _ _ _ _ _ _ "thermal_storage.png" O I) as (fig & F & E); [cbn; tauto|].
  assert (S : shows_nodes (fg_file fig) 2) by (rewrite E; constructor).
  destruct (C89_nodes _ _ _ _ _ _ _ _ O I F S) as (lo & hi & off & D & A).
  assert (D' : lo = 0%Z /\ hi = 7%Z /\ off = 0%Z) by (inversion D; auto; lia). destruct D' as (-> & -> & ->).
  pose proof (run_length _ _ _ _ _ R) as L. destruct (nth_error rs 4) as [rc|] eqn:E4; [|apply nth_error_None in E4; rewrite L in E4; lia].
  pose proof (demo_three demo_plant one_sunny_hour 3 7 rs 1000 20 10 eq_refl R) as K. rewrite Forall_forall in K. pose proof (K rc (nth_error_In _ _ E4)) as K4.
  destruct (nth_error (r_nodes rc) 2) as [y|] eqn:Ey; [|apply nth_error_None in Ey; lia].
  exists rs, out, figs, fig, y. split; [exact R|]. split; [exact O|]. split; [exact I|]. split; [exact F|]. split; [exact E|].
  apply A. split; [lia|]. exists rc. split; [exact E4|exact Ey].
Qed.

(** Full statement: above abscissa [x] is the value recorded for hour [x] of the year.  It holds
    for runs that start with the year, except for the weeks in the operation figure. *)
Theorem C89_hours_partial : forall rs n out per figs fig p c leg q x y,
  run_plots rs n 0 = Ok out -> In (per, figs) out -> In fig figs -> shows (fg_file fig) p c leg q ->
  fg_file fig <> "operation.png" \/ per = "User" \/ per = "Year" ->
  point fig p c x y -> exists rc, of_hour rs 0 x rc /\ y = q rc.
Proof.
  intros rs n out per figs fig p c leg q x y H I F S X Pt.
  destruct (C89_points _ _ _ _ _ _ _ _ _ _ _ H I F S) as (_ & _ & lo & hi & off & D & A).
  destruct (proj1 (A x y) Pt) as (Hx & rc & Hr & ->). exists rc. split; [|reflexivity]. split; [destruct D; lia|].
  assert (off = 0%Z) by (destruct D; try reflexivity; destruct X as [X|[X|X]]; (contradiction || discriminate X)). subst off.
  rewrite Z.sub_0_r, <- (Z.add_0_r x). exact Hr.
Qed.
Print Assumptions C89_hours_partial.
(** A run that starts later is drawn from hour 0 of the year on all the same. *)
Theorem C89_start_refuted : exists P year s n rs out per figs fig p c leg q x y,
  plant_total P /\ full_year year /\ run_timesteps P year s n = Ok rs /\
  run_plots rs n s = Ok out /\ In (per, figs) out /\ In fig figs /\ shows (fg_file fig) p c leg q /\
  time_axis fig "Hour of the year" /\ point fig p c x y /\ ~ exists rc, of_hour rs s x rc.
Proof.
  destruct (run_and_figures demo_plant one_sunny_hour 5000 24 1000 20 10 demo_plant_total eq_refl one_sunny_full) as (rs & out & R & O); [lia|lia|lia|].
  destruct (find_folder _ _ _ _ "User" O) as [figs I]; [cbn; tauto|].
  destruct (find_figure _ _ _ _ _ _ "grid.png" O I) as (fig & F & E); [cbn; tauto|].
  assert (S : shows (fg_file fig) 0 0 (Some "Import") (fun r => rf r GRID_total_import)) by (rewrite E; constructor).
  destruct (C89_points _ _ _ _ _ _ _ _ _ _ _ O I F S) as (_ & T & lo & hi & off & D & A).
  assert (D' : lo = 0%Z /\ hi = 24%Z /\ off = 0%Z) by (inversion D; auto; lia). destruct D' as (-> & -> & ->).
  pose proof (run_length _ _ _ _ _ R) as L. destruct (nth_error rs 0) as [rc|] eqn:E4; [|apply nth_error_None in E4; rewrite L in E4; lia].
  exists demo_plant, one_sunny_hour, 5000%Z, 24%Z, rs, out, "User", figs, fig, 0%nat, 0%nat, (Some "Import"),
    (fun r => rf r GRID_total_import), 0%Z, (rf rc GRID_total_import).
  split; [exact demo_plant_total|]. split; [exact one_sunny_full|]. split; [exact R|]. split; [exact O|]. split; [exact I|]. split; [exact F|].
  split; [exact S|]. split; [exact T|]. split; [apply A; split; [lia|]; exists rc; split; [exact E4|reflexivity]|].
  intros (rc' & Hr & _). lia.
Qed.
Print Assumptions C89_start_refuted.
(** The winter week of the operation figure is drawn over hours 0 to 167, but is hours 24 to 191. *)
Theorem C89_operation_refuted : exists P year rs out figs fig x y rc,
  plant_total P /\ full_year year /\ run_timesteps P year 0 8760 = Ok rs /\
  run_plots rs 8760 0 = Ok out /\ In ("Winter", figs) out /\ In fig figs /\ fg_file fig = "operation.png" /\
  named fig 0 2 (Some "HD") /\ time_axis fig "Hour of the year" /\ point fig 0 2 x y /\
  of_hour rs 0 x rc /\ ~ y == rf rc HD_heat_demand.
Proof.
  destruct (run_and_figures demo_plant one_sunny_hour 0 8760 1000 20 10 demo_plant_total eq_refl one_sunny_full) as (rs & out & R & O); [lia|lia|lia|].
  destruct (find_folder _ _ _ _ "Winter" O) as [figs I]; [cbn; tauto|].
  destruct (find_figure _ _ _ _ _ _ "operation.png" O I) as (fig & F & E); [cbn; tauto|].
  assert (S : shows (fg_file fig) 0 2 (Some "HD") (fun r => rf r HD_heat_demand)) by (rewrite E; constructor).
  destruct (C89_points _ _ _ _ _ _ _ _ _ _ _ O I F S) as (N & T & lo & hi & off & D & A). rewrite E in D.
  assert (D' : lo = 0%Z /\ hi = 168%Z /\ off = 24%Z) by (inversion D; try contradiction; auto). destruct D' as (-> & -> & ->).
  pose proof (run_length _ _ _ _ _ R) as L.
  destruct (nth_error rs (Z.to_nat 24)) as [rc|] eqn:E4; [|apply nth_error_None in E4; rewrite L in E4; lia].
  destruct (nth_error rs (Z.to_nat 0)) as [rc0|] eqn:E0; [|apply nth_error_None in E0; rewrite L in E0; lia].
  destruct (run_records _ _ _ _ _ R) as (_ & _ & RR).
  destruct (RR _ _ E4) as (I4 & H4 & _ & V4 & _). destruct (RR _ _ E0) as (I0 & H0 & _ & V0 & _).
  apply one_sunny_nth in H4; [|reflexivity]. subst I4. injection H0 as <-.
  exists demo_plant, one_sunny_hour, rs, out, figs, fig, 0%Z, (rf rc HD_heat_demand), rc0.
  split; [exact demo_plant_total|]. split; [exact one_sunny_full|]. split; [exact R|]. split; [exact O|]. split; [exact I|]. split; [exact F|].
  split; [exact E|]. split; [exact N|]. split; [exact T|]. split; [apply A; split; [lia|]; exists rc; split; [exact E4|reflexivity]|].
  split; [split; [lia|exact E0]|]. rewrite V4, V0. vm_compute. discriminate.
Qed.
Print Assumptions C89_operation_refuted.

(** Every subplot has the title and the vertical label that is listed for it. *)
Theorem C89_captions : forall rs n s out per figs fig,
  run_plots rs n s = Ok out -> In (per, figs) out -> In fig figs -> fg_file fig <> "RES_bar_charts.png" ->
  map (fun P => (pn_title P, pn_ylabel P)) (fg_panels fig) = captions (fg_file fig).
Proof.
  intros rs n s out per figs fig H I F N. destruct (run_plots_inv _ _ _ _ _ _ H I) as (w & b & A & _). exact (all_captions _ _ _ _ _ _ A fig F N).
Qed.
Print Assumptions C89_captions.
(** The cash flow is said to be in pounds per MWh, but is in pounds: it does not become the money of the hour when it is multiplied by the energy of the hour. *)
Theorem C89_cashflow_unit_refuted : exists P year s n rs out figs fig y rc,
  plant_total P /\ full_year year /\ run_timesteps P year s n = Ok rs /\ run_plots rs n s = Ok out /\ In ("User", figs) out /\ In fig figs /\
  fg_file fig = "grid.png" /\ nth_error (captions (fg_file fig)) 2 = Some ("", "Cashflow (Pounds/MWh)") /\ point fig 2 0 0 y /\ nth_error rs 0 = Some rc /\
  rf rc GRID_total_export == 0 /\ 0 < rf rc GRID_total_import /\
  let pounds := - (rf rc GRID_import_price * (rf rc GRID_total_import / 1000)) in y == pounds /\ ~ y * (rf rc GRID_total_import / 1000) == pounds.
Proof.
  destruct (run_and_figures demo_plant one_sunny_hour 1 1 1000 20 10 demo_plant_total eq_refl one_sunny_full) as (rs & out & R & O); [lia|lia|lia|].
  destruct (find_folder _ _ _ _ "User" O) as [figs I]; [cbn; tauto|].
  destruct (find_figure _ _ _ _ _ _ "grid.png" O I) as (fig & F & E); [cbn; tauto|].
  assert (S : shows (fg_file fig) 2 0 None (fun r => rf r GRID_cashflow)) by (rewrite E; constructor).
  destruct (C89_points _ _ _ _ _ _ _ _ _ _ _ O I F S) as (_ & T & lo & hi & off & D & A).
  assert (D' : lo = 0%Z /\ hi = 1%Z /\ off = 0%Z) by (inversion D; auto; lia). destruct D' as (-> & -> & ->).
  pose proof (run_length _ _ _ _ _ R) as L. destruct (nth_error rs 0) as [rc|] eqn:E4; [|apply nth_error_None in E4; rewrite L in E4; lia].
  exists demo_plant, one_sunny_hour, 1%Z, 1%Z, rs, out, figs, fig, (rf rc GRID_cashflow), rc.
  split; [exact demo_plant_total|]. split; [exact one_sunny_full|]. split; [exact R|]. split; [exact O|]. split; [exact I|]. split; [exact F|]. split; [exact E|].
  split; [rewrite E; reflexivity|]. split; [apply A; split; [lia|]; exists rc; split; [exact E4|reflexivity]|]. split; [exact E4|].
  destruct (run_steps _ _ _ _ _ _ _ R E4) as (J & _ & HJ & St). apply one_sunny_nth in HJ; [|lia]. subst J.
  clear - St. cbn [state_before fst snd] in St. vm_compute in St. injection St as <-. cbn. repeat split; vm_compute; try reflexivity; discriminate.
Qed.
Print Assumptions C89_cashflow_unit_refuted.

(** ** C90 *)
(** The height of a stack above abscissa [x] is the sum of the announced quantities of the record
    [x] hours after the start of the run, and every drawn hour has a height. *)
Theorem C90_heights : forall rs n s out per figs fig p title qs,
  run_plots rs n s = Ok out -> In (per, figs) out -> In fig figs -> stacked (fg_file fig) p title qs ->
  exists lo hi, drawn n per (fg_file fig) lo hi 0 /\
    forall x y, stack fig p title x y <->
      (lo <= x < hi)%Z /\ exists rc, nth_error rs (Z.to_nat x) = Some rc /\ y = qsum (map (fun q => q rc) qs).
Proof. exact stack_heights. Qed.
Print Assumptions C90_heights.

(** "Electrical demand" reaches the demand of the hour. *)
Theorem C90_electrical_demand : forall P year s n rs out per figs fig x y,
  good_run P year -> orders_contain P Import_to_demand -> run_timesteps P year s n = Ok rs ->
  run_plots rs n s = Ok out -> In (per, figs) out -> In fig figs ->
  fg_file fig = "electricity_demand_and_generation.png" -> stack fig 0 "Electrical demand" x y ->
  exists I, nth_error year (Z.to_nat (s + x)) = Some I /\ y == i_elec_demand I.
Proof.
  intros P year s n rs out per figs fig x y G C R H I F E K.
  assert (S := St_demand). rewrite <- E in S.
  destruct (stack_good_hour _ _ _ _ _ _ _ _ _ _ _ _ _ _ G R H I F S K) as (J & rc & nd & soc & HJ & _ & Hst & -> & Gh & Gc & _).
  exists J. split; [exact HJ|]. destruct (elec_balance _ _ _ _ _ _ Gh (Gc _ C) Hst) as [B1 B2]. rewrite <- B2. cbn. lra.
Qed.
Print Assumptions C90_electrical_demand.
(** "Renewable power generation" reaches the generation of the hour, for any data. *)
Theorem C90_generation : forall P year s n rs out per figs fig x y,
  run_timesteps P year s n = Ok rs -> run_plots rs n s = Ok out -> In (per, figs) out -> In fig figs ->
  fg_file fig = "electricity_demand_and_generation.png" -> stack fig 1 "Renewable power generation" x y ->
  exists I rc, nth_error year (Z.to_nat (s + x)) = Some I /\ nth_error rs (Z.to_nat x) = Some rc /\
    y == i_wind I + i_PV I /\ y == rf rc RES_generation_total.
Proof.
  intros P year s n rs out per figs fig x y R H I F E K.
  assert (S := St_generation). rewrite <- E in S.
  destruct (stack_hour _ _ _ _ _ _ _ _ _ _ _ _ _ _ R H I F S K) as (J & rc & nd & soc & HJ & Hr & Hst & ->).
  exists J, rc. split; [exact HJ|]. split; [exact Hr|].
  destruct (hour_demands _ _ _ _ _ _ Hst) as (_ & _ & V1 & V2 & _). pose proof (hour_generation _ _ _ _ _ _ Hst) as V.
  cbn [map qsum fold_right]. rewrite <- V1, <- V2. split; lra.
Qed.
Print Assumptions C90_generation.
(** "Heat demand" reaches the demand of the hour, for any data: the band named Aux is what is
    left of the demand, not what the back-up delivered. *)
Theorem C90_heat_demand : forall P year s n rs out per figs fig x y,
  run_timesteps P year s n = Ok rs -> run_plots rs n s = Ok out -> In (per, figs) out -> In fig figs ->
  fg_file fig = "heat_demand_and_heat_pump.png" -> stack fig 0 "Heat demand" x y ->
  exists I, nth_error year (Z.to_nat (s + x)) = Some I /\ y == i_heat_demand I.
Proof.
  intros P year s n rs out per figs fig x y R H I F E K.
  assert (S := St_heat). rewrite <- E in S.
  destruct (stack_hour _ _ _ _ _ _ _ _ _ _ _ _ _ _ R H I F S K) as (J & rc & nd & soc & HJ & Hr & Hst & ->).
  exists J. split; [exact HJ|]. destruct (hour_demands _ _ _ _ _ _ Hst) as (_ & V & _). rewrite <- V. cbn. lra.
Qed.
Print Assumptions C90_heat_demand.
(** "Heat pump thermal output" reaches the recorded output, for any data. *)
Theorem C90_thermal_output : forall P year s n rs out per figs fig x y,
  run_timesteps P year s n = Ok rs -> run_plots rs n s = Ok out -> In (per, figs) out -> In fig figs ->
  fg_file fig = "heat_demand_and_heat_pump.png" -> stack fig 1 "Heat pump thermal output" x y ->
  exists rc, nth_error rs (Z.to_nat x) = Some rc /\ y == rf rc HP_heat_total_output.
Proof.
  intros P year s n rs out per figs fig x y R H I F E K.
  assert (S := St_output). rewrite <- E in S.
  destruct (stack_hour _ _ _ _ _ _ _ _ _ _ _ _ _ _ R H I F S K) as (J & rc & nd & soc & HJ & Hr & Hst & ->).
  exists rc. split; [exact Hr|]. pose proof (hour_output _ _ _ _ _ _ Hst) as V. cbn. lra.
Qed.
Print Assumptions C90_thermal_output.
(** "Heat pump electrical usage" is the electricity behind the output: times the COP it gives the
    heat output unless the tank is charged from the grid, where rounding makes it at most that. *)
Theorem C90_electrical_usage : forall P year s n rs out per figs fig x y,
  good_run P year -> run_timesteps P year s n = Ok rs ->
  run_plots rs n s = Ok out -> In (per, figs) out -> In fig figs ->
  fg_file fig = "heat_demand_and_heat_pump.png" -> stack fig 2 "Heat pump electrical usage" x y ->
  exists rc, nth_error rs (Z.to_nat x) = Some rc /\ y * rf rc HP_cop <= rf rc HP_heat_total_output /\
    (orders_lack P HP_import_to_TS -> y * rf rc HP_cop == rf rc HP_heat_total_output) /\
    y == rf rc HP_elec_total_usage + rf rc HP_elec_from_ES_to_demand.
Proof.
  intros P year s n rs out per figs fig x y G R H I F E K.
  assert (S := St_use). rewrite <- E in S.
  destruct (stack_good_hour _ _ _ _ _ _ _ _ _ _ _ _ _ _ G R H I F S K) as (J & rc & nd & soc & HJ & Hr & Hst & -> & Gh & _ & Gl).
  exists rc. split; [exact Hr|]. destruct (hour_use _ _ _ _ _ _ Gh Hst) as (U1 & U2 & U3).
  assert (X : qsum (map (fun q => q rc) [fun r => rf r HP_elec_RES_usage; fun r => rf r HP_elec_import_usage; fun r => rf r HP_elec_from_ES_to_demand]) ==
    rf rc HP_elec_RES_usage + rf rc HP_elec_import_usage + rf rc HP_elec_from_ES_to_demand) by (cbn; lra).
  split; [rewrite X; exact U1|]. split; [intro L; rewrite X; exact (U2 (Gl _ L))|]. rewrite X. exact U3.
Qed.
Print Assumptions C90_electrical_usage.
(** Full statement: "Renewable power usage" reaches the generation of the hour.  The electricity
    that charges the battery has no band, so the stack falls short by it. *)
Theorem C90_usage_partial : forall P year s n rs out per figs fig x y,
  good_run P year -> orders_contain P RES_to_export -> no_minimum P -> run_timesteps P year s n = Ok rs ->
  run_plots rs n s = Ok out -> In (per, figs) out -> In fig figs ->
  fg_file fig = "electricity_demand_and_generation.png" -> stack fig 2 "Renewable power usage" x y ->
  exists I rc, nth_error year (Z.to_nat (s + x)) = Some I /\ nth_error rs (Z.to_nat x) = Some rc /\
    y + rf rc RES_ES == i_wind I + i_PV I /\ (orders_lack P RES_to_ES -> y == i_wind I + i_PV I).
Proof.
  intros P year s n rs out per figs fig x y G C M R H I F E K.
  assert (S := St_usage). rewrite <- E in S.
  destruct (stack_good_hour _ _ _ _ _ _ _ _ _ _ _ _ _ _ G R H I F S K) as (J & rc & nd & soc & HJ & Hr & Hst & -> & Gh & Gc & Gl).
  exists J, rc. split; [exact HJ|]. split; [exact Hr|].
  assert (Q1 : not_switched_off P J (s + x) nd soc rc) by (left; apply no_minimum_quiet; assumption).
  pose proof (res_balance _ _ _ _ _ _ Gh (Gc _ C) Hst Q1) as B.
  destruct (hour_demands _ _ _ _ _ _ Hst) as (_ & _ & V1 & V2 & _). pose proof (hour_generation _ _ _ _ _ _ Hst) as V.
  rewrite V1, V2 in V. cbn [map qsum fold_right]. split; [lra|]. intro L.
  assert (Z : rf rc RES_ES == 0) by (apply (res_es_zero P J (s + x) nd soc rc Gh Hst); apply Gl; exact L). lra.
Qed.
Print Assumptions C90_usage_partial.

(** One hour with a full set of figures. *)
Definition charging_plant := demo (demo_battery 10 1) 8 0 (simple_tank 1000 20 10) all13 all15.
Lemma charging_total : plant_total charging_plant.
Proof. total_ok. Qed.
Lemma hour_figures I :
  exists rc out figs, first_step charging_plant I 0 = Ok rc /\ run_timesteps charging_plant (repeat I ANNUAL_HOURS) 0 1 = Ok [rc] /\
    run_plots [rc] 1 0 = Ok out /\ In ("User", figs) out.
Proof.
  destruct (one_hour charging_plant I 0 plain_grid plain_rhi charging_total) as (rc & E & R); [lia|].
  destruct R as (R & _). cbn [one_hour_run k_results] in R.
  destruct (run_plots_ok [rc] 1 0) as [out O]; [lia|cbn; lia|exact (demo_nodes charging_plant _ 0 1 [rc] 1000 20 10 eq_refl R)|].
  destruct (find_folder _ _ _ _ "User" O) as [figs F]; [cbn; tauto|]. exists rc, out, figs. auto.
Qed.
Lemma hour_stack rc out figs file p title qs :
  run_plots [rc] 1 0 = Ok out -> In ("User", figs) out -> stacked file p title qs ->
  exists fig, In fig figs /\ fg_file fig = file /\ stack fig p title 0 (qsum (map (fun q => q rc) qs)).
Proof.
  intros O F S. destruct (stacked_in _ _ _ _ S) as [I _].
  destruct (find_figure _ _ _ _ _ _ file O F) as (fig & G & E); [apply in_or_app; left; exact I|].
  exists fig. split; [exact G|]. split; [exact E|]. rewrite <- E in S.
  destruct (stack_heights _ _ _ _ _ _ _ _ _ _ O F G S) as (lo & hi & D & A).
  assert (D' : lo = 0%Z /\ hi = 1%Z) by (inversion D; auto; lia). destruct D' as (-> & ->).
  apply A. split; [lia|]. exists rc. split; reflexivity.
Qed.
Example C90_case : exists rc out figs fig y,
  let year := repeat (demo_hour 40 5 12 80 3 8) ANNUAL_HOURS in
  good_run charging_plant year /\ orders_contain charging_plant Import_to_demand /\ orders_contain charging_plant RES_to_export /\
  no_minimum charging_plant /\ run_timesteps charging_plant year 0 1 = Ok [rc] /\
  run_plots [rc] 1 0 = Ok out /\ In ("User", figs) out /\ In fig figs /\
  fg_file fig = "electricity_demand_and_generation.png" /\ stack fig 0 "Electrical demand" 0 y.
Proof.
  destruct (hour_figures (demo_hour 40 5 12 80 3 8)) as (rc & out & figs & _ & R & O & F).
  destruct (hour_stack _ _ _ _ _ _ _ O F St_demand) as (fig & G & E & K).
  exists rc, out, figs, fig. eexists. split; [run_ok|]. split; [split; intros ps Hps; injection Hps as <-; cbn; tauto|].
  split; [split; intros ps Hps; injection Hps as <-; cbn; tauto|]. split; [vm_compute; reflexivity|].
  split; [exact R|]. split; [exact O|]. split; [exact F|]. split; [exact G|]. split; [exact E|exact K].
Qed.
Theorem C90_usage_refuted : exists P year s n rs out per figs fig x y I,
  good_run P year /\ orders_contain P RES_to_export /\ no_minimum P /\ run_timesteps P year s n = Ok rs /\
  run_plots rs n s = Ok out /\ In (per, figs) out /\ In fig figs /\
  fg_file fig = "electricity_demand_and_generation.png" /\ stack fig 2 "Renewable power usage" x y /\
  nth_error year (Z.to_nat (s + x)) = Some I /\ y < i_wind I + i_PV I.
Proof.
  set (I := demo_hour 40 5 12 80 3 8). destruct (hour_figures I) as (rc & out & figs & E & R & O & F).
  destruct (hour_stack _ _ _ _ _ _ _ O F St_usage) as (fig & G & Ef & K).
  exists charging_plant, (repeat I ANNUAL_HOURS), 0%Z, 1%Z, [rc], out, "User", figs, fig, 0%Z. eexists. exists I.
  split; [run_ok|]. split; [split; intros ps Hps; injection Hps as <-; cbn; tauto|]. split; [vm_compute; reflexivity|].
  split; [exact R|]. split; [exact O|]. split; [exact F|]. split; [exact G|]. split; [exact Ef|]. split; [exact K|].
  split; [change (nth_error (repeat I ANNUAL_HOURS) 0 = Some I); destruct ANNUAL_HOURS eqn:A; [discriminate A|reflexivity]|].
  destruct (seen_ok (first_step charging_plant I 0) (fun rc => qlt (qsum (map (fun q => q rc)
    [fun r => rf r RES_elec_demand; fun r => rf r RES_HP; fun r => rf r RES_aux; fun r => rf r RES_export])) (i_wind I + i_PV I)))
    as (rc' & E1 & E2); [vm_compute; reflexivity|].
  rewrite E in E1. apply Ok_inj in E1. subst rc'. apply qlt_true in E2. exact E2.
Qed.
Print Assumptions C90_usage_refuted.
(** The recorded total of the heat pump lacks the share from the battery, which the stack shows. *)
Theorem C90_recorded_total_refuted : exists P year s n rs out per figs fig x y rc,
  good_run P year /\ run_timesteps P year s n = Ok rs /\ run_plots rs n s = Ok out /\ In (per, figs) out /\ In fig figs /\
  fg_file fig = "heat_demand_and_heat_pump.png" /\ stack fig 2 "Heat pump electrical usage" x y /\
  nth_error rs (Z.to_nat x) = Some rc /\ rf rc HP_elec_total_usage < y.
Proof.
  set (I := demo_hour 0 1 12 150 3 8). destruct (hour_figures I) as (rc & out & figs & E & R & O & F).
  destruct (hour_stack _ _ _ _ _ _ _ O F St_use) as (fig & G & Ef & K).
  exists charging_plant, (repeat I ANNUAL_HOURS), 0%Z, 1%Z, [rc], out, "User", figs, fig, 0%Z. eexists. exists rc.
  split; [run_ok|]. split; [exact R|]. split; [exact O|]. split; [exact F|]. split; [exact G|]. split; [exact Ef|]. split; [exact K|].
  split; [reflexivity|].
  destruct (seen_ok (first_step charging_plant I 0) (fun rc => qlt (rf rc HP_elec_total_usage) (qsum (map (fun q => q rc)
    [fun r => rf r HP_elec_RES_usage; fun r => rf r HP_elec_import_usage; fun r => rf r HP_elec_from_ES_to_demand]))))
    as (rc' & E1 & E2); [vm_compute; reflexivity|].
  rewrite E in E1. apply Ok_inj in E1. subst rc'. apply qlt_true in E2. exact E2.
Qed.
Print Assumptions C90_recorded_total_refuted.
(** The band named Aux is what the back-up delivers: at high tariff as recorded, at low tariff
    with the renewable share that is recorded apart. *)
Theorem C90_backup_band : forall P year s n rs out per figs fig x y,
  good_run P year -> orders_contain P AUX_to_demand -> no_minimum P -> run_timesteps P year s n = Ok rs ->
  run_plots rs n s = Ok out -> In (per, figs) out -> In fig figs ->
  fg_file fig = "heat_demand_and_heat_pump.png" -> point fig 0 2 x y ->
  exists I rc, nth_error year (Z.to_nat (s + x)) = Some I /\ nth_error rs (Z.to_nat x) = Some rc /\
    (high_tariff P I -> y == rf rc HD_aux) /\ (~ high_tariff P I -> y == rf rc HD_aux + rf rc AUX_RES_to_demand).
Proof.
  intros P year s n rs out per figs fig x y G C M R H I F E Pt.
  assert (S := Sh_he3). rewrite <- E in S. assert (S' := St_heat). rewrite <- E in S'.
  destruct (C89_points _ _ _ _ _ _ _ _ _ _ _ H I F S) as (_ & _ & lo & hi & off & D & A).
  pose proof (drawn_off _ _ _ _ _ _ D ltac:(rewrite E; discriminate)) as O. rewrite O in *. clear O.
  destruct (proj1 (A x y) Pt) as (Hx & rc & Hr & ->). rewrite Z.add_0_r in Hr.
  destruct (C90_heights _ _ _ _ _ _ _ _ _ _ H I F S') as (lo' & hi' & D' & A').
  assert (B : lo' = lo /\ hi' = hi).
  { rewrite E in D, D'. inversion D; inversion D'; subst; auto; try discriminate; try contradiction. }
  destruct B as [-> ->].
  assert (K : stack fig 0 "Heat demand" x (qsum (map (fun q => q rc) [fun r => rf r HD_HP; fun r => rf r HD_TS; fun r => rf r HD_heat_demand - rf r HD_HP - rf r HD_TS]))).
  { apply A'. split; [exact Hx|]. exists rc. split; [exact Hr|reflexivity]. }
  destruct (stack_good_hour _ _ _ _ _ _ _ _ _ _ _ _ _ _ G R H I F S' K) as (J & rc' & nd & soc & HJ & Hr' & Hst & _ & Gh & Gc & _).
  rewrite Hr in Hr'. injection Hr' as <-. exists J, rc. split; [exact HJ|]. split; [exact Hr|].
  destruct (heat_balance _ _ _ _ _ _ Gh (Gc _ C) (no_minimum_quiet _ _ _ _ _ M Gh) Hst) as (_ & B1 & B2).
  split; intro T; [specialize (B1 T)|specialize (B2 T)]; lra.
Qed.
Print Assumptions C90_backup_band.

(** ** C91 *)
(** The bars of a whole year: the energy of each calendar month in MWh, and the annual total. *)
Theorem C91_months : forall rs s out figs fig p title q,
  run_plots rs 8760 s = Ok out -> In ("Year", figs) out -> In fig figs -> fg_file fig = "RES_bar_charts.png" ->
  Z.of_nat (length rs) = 8760%Z -> bar_shows p title q ->
  exists B months, nth_error (fg_panels fig) p = Some B /\ pn_shape B = Bars /\ pn_title B = title /\ pn_ticks B = month_names /\
    concat months = rs /\ map (fun m => Z.of_nat (length m)) months = map (fun d => 24 * d)%Z days_in_month /\
    pn_y B = [map (fun m => qsum (map q m) / 1000) months] /\
    exists t, pn_total B = Some t /\ Qabs (t - qsum (map q rs) / 1000) <= 1 # 200.
Proof.
  intros rs s out figs fig p title q H I F E L S.
  pose proof (bar_panel _ _ _ _ _ _ (bar_figure _ _ _ _ _ _ _ H I F E) S) as B. rewrite (column_all _ _ _ L) in B.
  exists (bars title (map q rs)), (month_split rs). split; [exact B|]. split; [reflexivity|]. split; [reflexivity|]. split; [reflexivity|].
  split; [apply month_split_concat; exact L|]. split; [apply month_split_lengths; exact L|]. split.
  - cbn [bars pn_y]. f_equal. rewrite sum_monthly_eq. unfold month_split. rewrite !map_map. apply map_ext. intros [a b].
    unfold zslice, pslice. rewrite <- firstn_map, <- skipn_map. reflexivity.
  - eexists. split; [reflexivity|]. pose proof (round2_bounds (qsum (map q rs) / 1000)). apply Qabs_Qle_condition. lra.
Qed.
Print Assumptions C91_months.
Theorem C91_bars_add_up : forall rs s out figs fig p title q,
  run_plots rs 8760 s = Ok out -> In ("Year", figs) out -> In fig figs -> fg_file fig = "RES_bar_charts.png" ->
  Z.of_nat (length rs) = 8760%Z -> bar_shows p title q ->
  exists B ys, nth_error (fg_panels fig) p = Some B /\ pn_y B = [ys] /\ qsum ys == qsum (map q rs) / 1000.
Proof.
  intros rs s out figs fig p title q H I F E L S.
  pose proof (bar_panel _ _ _ _ _ _ (bar_figure _ _ _ _ _ _ _ H I F E) S) as B. rewrite (column_all _ _ _ L) in B.
  eexists _, _. split; [exact B|]. split; [reflexivity|]. apply sum_monthly_total. unfold full_year. rewrite map_length. exact L.
Qed.
Print Assumptions C91_bars_add_up.
Lemma sun_positive : forall rs s n, (0 < s)%Z -> run_timesteps demo_plant one_sunny_hour s n = Ok rs ->
  Forall (fun rc => rf rc RES_PV = 2) rs.
Proof.
  intros rs s n Hs R. apply Forall_forall. intros rc Hin. apply In_nth_error in Hin as [i Hi].
  destruct (run_records _ _ _ _ _ R) as (_ & _ & RR). destruct (RR i rc Hi) as (I & HI & _ & _ & _ & V & _).
  apply one_sunny_nth in HI; [|lia]. subst I. exact V.
Qed.
Lemma qsum_positive (f : record -> Q) rs : rs <> [] -> Forall (fun rc => 0 < f rc) rs -> 0 < qsum (map f rs).
Proof.
  intros N F. destruct F as [|rc rs Hr F]; [contradiction|]. clear N.
  assert (A : 0 <= qsum (map f rs)).
  { clear - F. induction F as [|rc rs Hr F IH]; [apply Qle_refl|]. change (0 <= f rc + qsum (map f rs)). lra. }
  change (0 < f rc + qsum (map f rs)). lra.
Qed.
(** The vertical axis says kWh, but a run with production shows a thousandth of its kWh. *)
Theorem C91_unit_refuted : exists P year rs out figs fig p title q B ys,
  plant_total P /\ full_year year /\ run_timesteps P year 0 8760 = Ok rs /\ run_plots rs 8760 0 = Ok out /\
  In ("Year", figs) out /\ In fig figs /\ fg_file fig = "RES_bar_charts.png" /\ bar_shows p title q /\
  nth_error (fg_panels fig) p = Some B /\ pn_ylabel B = "Energy (kWh)" /\ pn_y B = [ys] /\
  qsum ys < qsum (map q rs) /\ 1000 * qsum ys == qsum (map q rs).
Proof.
  destruct (run_and_figures demo_plant (repeat dull ANNUAL_HOURS) 0 8760 1000 20 10 demo_plant_total eq_refl demo_year_full) as (rs & out & R & O); [lia|lia|lia|].
  destruct (find_folder _ _ _ _ "Year" O) as [figs I]; [cbn; tauto|].
  destruct (find_figure _ _ _ _ _ _ "RES_bar_charts.png" O I) as (fig & F & E); [cbn; tauto|].
  pose proof (run_length _ _ _ _ _ R) as L. assert (L' : Z.of_nat (length rs) = 8760%Z) by (rewrite L; apply Z2Nat.id; lia).
  pose proof (bar_panel _ _ _ _ _ _ (bar_figure _ _ _ _ _ _ _ O I F E) Bs_pv) as B. rewrite (column_all _ _ _ L') in B.
  eexists _, _, rs, out, figs, fig, _, _, _, _, _.
  split; [exact demo_plant_total|]. split; [exact demo_year_full|]. split; [exact R|]. split; [exact O|]. split; [exact I|]. split; [exact F|].
  split; [exact E|]. split; [exact Bs_pv|]. split; [exact B|]. split; [reflexivity|]. split; [reflexivity|].
  assert (T : qsum (sum_monthly (map (fun r => rf r RES_PV) rs)) == qsum (map (fun r => rf r RES_PV) rs) / 1000)
    by (apply sum_monthly_total; unfold full_year; rewrite map_length; exact L').
  assert (Pos : 0 < qsum (map (fun r => rf r RES_PV) rs)).
  { apply qsum_positive; [intro X; rewrite X in L'; discriminate L'|]. apply Forall_forall. intros rc Hin. apply In_nth_error in Hin as [i Hi].
    destruct (run_records _ _ _ _ _ R) as (_ & _ & RR). destruct (RR i rc Hi) as (J & HJ & _ & _ & _ & V & _).
    apply nth_error_In, repeat_spec in HJ. rewrite V, HJ. reflexivity. }
  rewrite T. revert Pos. generalize (qsum (map (fun r => rf r RES_PV) rs)). intros v Pos. split; [|field].
  apply Qlt_shift_div_r; [reflexivity|]. lra.
Qed.
Print Assumptions C91_unit_refuted.
(** A run of February alone: its production is the bar named jan, and feb is empty. *)
Theorem C91_partial_year_refuted : exists P year rs out figs fig p title q B jan feb rest,
  plant_total P /\ full_year year /\ run_timesteps P year 744 672 = Ok rs /\ run_plots rs 672 744 = Ok out /\
  In ("User", figs) out /\ In fig figs /\ fg_file fig = "RES_bar_charts.png" /\ bar_shows p title q /\
  nth_error (fg_panels fig) p = Some B /\ pn_ticks B = month_names /\ pn_y B = [jan :: feb :: rest] /\
  0 < qsum (map q rs) /\ jan == qsum (map q rs) / 1000 /\ feb == 0.
Proof.
  destruct (run_and_figures demo_plant one_sunny_hour 744 672 1000 20 10 demo_plant_total eq_refl one_sunny_full) as (rs & out & R & O); [lia|lia|lia|].
  destruct (find_folder _ _ _ _ "User" O) as [figs I]; [cbn; tauto|].
  destruct (find_figure _ _ _ _ _ _ "RES_bar_charts.png" O I) as (fig & F & E); [cbn; tauto|].
  pose proof (run_length _ _ _ _ _ R) as L. assert (L' : Z.of_nat (length rs) = 672%Z) by (rewrite L; apply Z2Nat.id; lia).
  pose proof (bar_panel _ _ _ _ _ _ (bar_figure _ _ _ _ _ _ _ O I F E) Bs_pv) as B. rewrite (column_all _ _ _ L') in B.
  eexists _, _, rs, out, figs, fig, _, _, _, _, _, _, _.
  split; [exact demo_plant_total|]. split; [exact one_sunny_full|]. split; [exact R|]. split; [exact O|]. split; [exact I|]. split; [exact F|].
  split; [exact E|]. split; [exact Bs_pv|]. split; [exact B|]. split; [reflexivity|].
  set (l := map (fun r => rf r RES_PV) rs).
  assert (Ll : Z.of_nat (length l) = 672%Z) by (unfold l; rewrite map_length; exact L').
  split; [unfold bars, sum_monthly, month_bounds; cbn [pn_y map fst snd]; reflexivity|]. split; [|split].
  - apply qsum_positive; [intro X; rewrite X in L'; discriminate L'|]. eapply Forall_impl; [|eapply sun_positive; [|exact R]; lia].
    intros rc ->. reflexivity.
  - fold l. unfold zslice, pslice. cbn [Z.to_nat skipn]. rewrite Nat.sub_0_r, firstn_all2 by lia. reflexivity.
  - fold l. unfold zslice, pslice. rewrite (skipn_all2 l) by lia. rewrite firstn_nil. reflexivity.
Qed.
Print Assumptions C91_partial_year_refuted.

(** ** C92 *)
(** A run with a tank that simulated at least one hour gets its complete set of figures. *)
Theorem C92_all_figures : forall K ret delta P year s n rs,
  p_tank P = tank_instance K ret delta -> run_timesteps P year s n = Ok rs -> (0 < n)%Z ->
  exists out, run_plots rs n s = Ok out /\ map fst out = folders n /\
    forall per figs, In (per, figs) out ->
      map fg_file figs = figure_files ++ (if has_bars per then ["RES_bar_charts.png"] else []).
Proof.
  intros K ret delta P year s n rs HT R Hn.
  destruct (run_plots_ok rs n s Hn) as [out O].
  - rewrite (run_length _ _ _ _ _ R). lia.
  - exists (k_nodes K). pose proof (run_tank_shape _ _ _ _ _ _ _ _ HT R) as F. revert F. apply Forall_impl. intros rc [X _]. exact X.
  - exists out. split; [exact O|]. split; [exact (run_plots_folders _ _ _ _ O)|]. intros per figs I. exact (run_plots_files _ _ _ _ _ _ O I).
Qed.
Print Assumptions C92_all_figures.
Example C92_case : exists rs, p_tank ex_tank_plant = tank_instance ex_K 40 10 /\ run_timesteps ex_tank_plant ex_year 0 2 = Ok rs.
Proof. destruct C22_run_case as (rs & rc & R & _). exists rs. split; [reflexivity|exact R]. Qed.
(** For any stored results: enough records with the same number of nodes suffice, and figures
    are drawn only if there are enough. *)
Theorem C92_enough_records : forall rs n s,
  (0 < n)%Z -> (n <= Z.of_nat (length rs))%Z -> same_nodes rs -> exists out, run_plots rs n s = Ok out.
Proof. intros rs n s Hn HL Hk. apply run_plots_ok; [exact Hn|lia|exact Hk]. Qed.
Print Assumptions C92_enough_records.
Theorem C92_missing_records : forall rs n s,
  (Z.of_nat (length rs) < n)%Z -> run_plots rs n s = Err IndexError.
Proof.
  intros rs n s H.
  assert (C : forall A (f : record -> A), collect rs n f = Err IndexError) by (intros; apply collect_short; lia).
  unfold run_plots. destruct (n =? 8760)%Z; cbn [mapM]; unfold all_plots, operation, series; rewrite C; reflexivity.
Qed.
Print Assumptions C92_missing_records.
(** Full statement: every completed run gets its figures.  A run of no hours does not. *)
Theorem C92_no_hours_refuted : exists P year rs,
  plant_total P /\ full_year year /\ run_timesteps P year 0 0 = Ok rs /\ run_plots rs 0 0 = Err IndexError.
Proof.
  destruct (C16_run_succeeds demo_plant one_sunny_hour 0 0 demo_plant_total one_sunny_full) as [rs R]; [lia|lia|].
  exists demo_plant, one_sunny_hour, rs. split; [exact demo_plant_total|]. split; [exact one_sunny_full|]. split; [exact R|].
  pose proof (run_length _ _ _ _ _ R) as L. destruct rs; [reflexivity|discriminate L].
Qed.
Print Assumptions C92_no_hours_refuted.
(** Nor does a predictive run of one hour, which completes without a record. *)
Theorem C92_predictive_hour_refuted : exists X opt year s rs,
  full_year year /\ always_answers opt /\ mpc_run X opt year s 1 = Ok rs /\ run_plots rs 1 s = Err IndexError.
Proof.
  destruct C27_one_hour_run_refuted as (X & opt & year & s & HY & _ & _ & _ & HA & _ & _ & _ & R).
  exists X, opt, year, s, []. split; [exact HY|]. split; [exact HA|]. split; [exact R|]. apply C92_missing_records. reflexivity.
Qed.
Print Assumptions C92_predictive_hour_refuted.

(** ** C93 *)
(** Each surface has, above each combination of sizes, the indicator it is labelled with, computed
    from the run stored for that combination, and nothing else. *)
Theorem C93_surfaces : forall store_price load p cs os r s,
  run_KPIs store_price load p = (os, r) -> combos p = Ok cs -> In (KpiSurface s) os ->
  exists ind, surface_shows store_price (sf_file s) (sf_zlabel s) ind /\
    forall h t z, plotted s h t z <->
      exists c K, In c cs /\ load (folder_name c) = Ok K /\ ind K = Ok z /\
        h = inject_Z (fst c) /\ t = inject_Z (snd c) / 1000.
Proof. exact surfaces_right. Qed.
Print Assumptions C93_surfaces.
(** If the tables can be computed and both sizes vary, all eight surfaces are drawn. *)
Theorem C93_complete : forall store_price load p cs t,
  combos p = Ok cs -> KPIs_to_csv store_price load p = Ok t -> two_by_two cs ->
  exists ss, run_KPIs store_price load p = (KpiTables t :: map KpiSurface ss, Ok tt) /\ map sf_file ss = surface_files.
Proof. exact surfaces_complete. Qed.
Print Assumptions C93_complete.
(** The sizes a user has to enter for that. *)
Theorem C93_both_sizes_vary : forall p cs,
  (0 < hp_step p)%Z -> (0 < ts_step p)%Z -> (hp_min p < hp_max p)%Z -> (ts_min p < ts_max p)%Z ->
  (ts_min p + ts_step p < ts_max p + hp_step p)%Z -> combos p = Ok cs -> two_by_two cs.
Proof.
  intros p cs H1 H2 H3 H4 H5 C. destruct (C33_sweep_exact p) as (cs' & C' & _ & E); [left; exact H1|left; exact H2|].
  assert (cs' = cs) by congruence. subst cs'.
  assert (A : In (hp_min p, ts_min p) cs).
  { apply E. split; right; (split; [lia|]); exists 0%Z; lia. }
  assert (B : In (hp_min p + hp_step p, ts_min p + ts_step p)%Z cs).
  { apply E. split; right; (split; [lia|]); exists 1%Z; lia. }
  split; eexists _, _; (split; [exact A|]); (split; [exact B|]); cbn; lia.
Qed.
Print Assumptions C93_both_sizes_vary.
(** Full statement: every sweep gets its surfaces.  Unless both sizes vary, the tables are written
    and the program then stops with an exception before the first surface. *)
Theorem C93_one_size_stops : forall store_price load p cs t,
  (0 < hp_step p \/ hp_min p = hp_max p)%Z -> (0 < ts_step p \/ ts_min p = ts_max p)%Z ->
  combos p = Ok cs -> KPIs_to_csv store_price load p = Ok t -> ~ two_by_two cs ->
  run_KPIs store_price load p = ([KpiTables t], Err (if Nat.ltb (length cs) 3 then ValueError else RuntimeError)).
Proof.
  intros sp load p cs t H1 H2 C T W. destruct (C33_sweep_exact p H1 H2) as (cs' & C' & N & _).
  assert (cs' = cs) by congruence. subst cs'. rewrite (surfaces_fail _ _ _ _ _ C T N W).
  destruct cs as [|? [|? [|? ?]]]; reflexivity.
Qed.
Print Assumptions C93_one_size_stops.
Theorem C93_single_design_refuted : exists load p t,
  combos p = Ok [(14, 500)]%Z /\ KPIs_to_csv (fun _ => 1) load p = Ok t /\
  run_KPIs (fun _ => 1) load p = ([KpiTables t], Err ValueError).
Proof.
  destruct (one_hour demo_plant dull 0 plain_grid plain_rhi) as (rc & E & R); [exact demo_plant_total|lia|].
  set (p := {| hp_min := 14; hp_max := 14; hp_step := 1; ts_min := 500; ts_max := 500; ts_step := 500 |}%Z).
  destruct (seen_ok (first_step demo_plant dull 0) (fun rc =>
    seen (KPIs_to_csv (fun _ => 1) (fun _ => Ok (one_hour_run demo_plant 0 plain_grid plain_rhi rc)) p) (fun _ => true))) as (rc' & E1 & E2).
  { vm_compute. reflexivity. }
  rewrite E in E1. apply Ok_inj in E1. subst rc'. apply seen_ok in E2 as (t & E2 & _).
  exists (fun _ => Ok (one_hour_run demo_plant 0 plain_grid plain_rhi rc)), p, t. split; [reflexivity|]. split; [exact E2|].
  apply (C93_one_size_stops _ _ p [(14, 500)]%Z t); [left; reflexivity|left; reflexivity|reflexivity|exact E2|].
  intros [(c & c' & [<-|[]] & [<-|[]] & N) _]. apply N. reflexivity.
Qed.
Print Assumptions C93_single_design_refuted.
Example C93_case : exists load p cs t,
  combos p = Ok cs /\ KPIs_to_csv (fun _ => 1) load p = Ok t /\ two_by_two cs.
Proof.
  destruct (one_hour demo_plant dull 0 plain_grid plain_rhi) as (rc & E & R); [exact demo_plant_total|lia|].
  set (p := {| hp_min := 14; hp_max := 15; hp_step := 1; ts_min := 500; ts_max := 1000; ts_step := 500 |}%Z).
  destruct (seen_ok (first_step demo_plant dull 0) (fun rc =>
    seen (KPIs_to_csv (fun _ => 1) (fun _ => Ok (one_hour_run demo_plant 0 plain_grid plain_rhi rc)) p) (fun _ => true))) as (rc' & E1 & E2).
  { vm_compute. reflexivity. }
  rewrite E in E1. apply Ok_inj in E1. subst rc'. apply seen_ok in E2 as (t & E2 & _).
  exists (fun _ => Ok (one_hour_run demo_plant 0 plain_grid plain_rhi rc)), p. eexists. exists t.
  split; [reflexivity|]. split; [exact E2|]. apply (C93_both_sizes_vary p); try reflexivity.
Qed.
