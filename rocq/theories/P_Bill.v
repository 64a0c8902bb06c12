(** C120: a bigger battery never makes the electricity account worse, if what is left in the battery counts. *)
From Verif Require Import Base BaseL M_Battery S_Battery M_HeatPump M_Tools M_FixedOrder S_FixedOrder L_FixedOrder L_FixedOrderHour L_FixedOrderRun L_Tank P_FixedOrder S_Account S_Sizing L_Sizing P_Sizing S_Bill L_Bill P_BetterBattery.

(** One hour: what the plant with the bigger battery earns less, it has put into the battery. *)
Theorem C120_hour_partial : forall P P' I t T soc soc' rc, bigger_battery P P' -> plant_ok P -> no_leak P -> hour_ok P I -> battery_last_orders P -> contains P I Import_to_demand ->
  0 <= p_export_price P -> p_export_price P <= i_import_price I -> level_ok (p_battery P) soc -> 0 <= soc' - soc <= b_capacity (p_battery P') - b_capacity (p_battery P) -> hour_step P I t T soc = Ok rc ->
  exists rc', hour_step P' I t T soc' = Ok rc' /\ eased rc rc' /\ rf rc' ES_final_soc - rf rc ES_final_soc <= b_capacity (p_battery P') - b_capacity (p_battery P) /\
    rf rc GRID_cashflow + (rf rc ES_final_soc - soc) * p_export_price P / 1000 <= rf rc' GRID_cashflow + (rf rc' ES_final_soc - soc') * p_export_price P / 1000.
Proof.
  intros P P' I t T soc soc' rc B HP HL HI HO HC E0 E1 Hs Hd H.
  destruct (hours_eased P P' I t T soc soc' rc B HP HI HO Hs Hd H) as (rc' & H' & Ea & Eb). exists rc'. split; [exact H'|]. split; [exact Ea|]. split; [exact Eb|].
  assert (K : rf rc GRID_total_export - rf rc' GRID_total_export <= rf rc' RES_ES - rf rc RES_ES /\ rf rc GRID_total_import - rf rc' GRID_total_import == rf rc' ED_ES - rf rc ED_ES /\
    rf rc' RES_ES - rf rc RES_ES <= (rf rc' ES_final_soc - soc') - (rf rc ES_final_soc - soc) + (rf rc' ED_ES - rf rc ED_ES)).
  { clear Ea Eb E0 E1. revert H H'. destruct P as [b h mr mo ax tk ep sp oa ob mh], P' as [b' h' mr' mo' ax' tk' ep' sp' oa' ob' mh'].
    assert (B0 := B). destruct B0 as (_ & _ & _ & _ & _ & _ & _ & Q1 & Q2 & Q3 & Q4 & Q5 & Q6 & Q7 & Q8 & Q9 & Q10). cbn in Q1, Q2, Q3, Q4, Q5, Q6, Q7, Q8, Q9, Q10. subst.
    cbn [p_battery] in *. apply traded; try assumption. exact (HO I). }
  destruct K as (K1 & K2 & K3).
  destruct (C11_costs_and_cash_flow P I t T soc rc H) as (_ & M1 & M2 & M3). destruct (C11_costs_and_cash_flow P' I t T soc' rc' H') as (_ & M1' & M2' & M3').
  assert (Ep : p_export_price P' = p_export_price P) by (symmetry; unfold bigger_battery in B; tauto). rewrite Ep in M2'.
  assert (K4 : rf rc ED_ES <= rf rc' ED_ES) by (unfold eased in Ea; tauto).
  rewrite M3, M3', M1, M1', M2, M2'.
  set (x := rf rc GRID_total_export) in *. set (x' := rf rc' GRID_total_export) in *. set (m := rf rc GRID_total_import) in *. set (m' := rf rc' GRID_total_import) in *.
  set (d := rf rc' ED_ES - rf rc ED_ES) in *. set (a := rf rc' RES_ES - rf rc RES_ES) in *. set (f := rf rc ES_final_soc - soc) in *. set (f' := rf rc' ES_final_soc - soc') in *.
  assert (D : 0 <= d) by (unfold d; lra). set (e := p_export_price P) in *. set (i := i_import_price I) in *.
  clearbody x x' m m' d a f f' e i. clear - K1 K2 K3 D E0 E1.
  assert (Hm : m == m' + d) by lra. rewrite Hm.
  assert (N1 : e * (x - x') <= e * a) by nra. assert (N2 : e * a <= e * (f' - f + d)) by nra. assert (N3 : e * d <= i * d) by nra.
  assert (N : x * e - (m' + d) * i + f * e <= x' * e - m' * i + f' * e) by nra.
  assert (Q : forall u v w z : Q, u / 1000 - v / 1000 + w / 1000 == (u - v + w) / 1000) by (intros; field). rewrite !Q by exact 0. unfold Qdiv. apply Qmult_le_compat_r; [lra|discriminate].
Qed.
Print Assumptions C120_hour_partial.
(** The level at the end of a list of hours *)
Definition last_level (soc : Q) (rs : list record) : Q := fold_left (fun _ rc => rf rc ES_final_soc) rs soc.
Lemma last_level_after P rs : level_after P rs = last_level (init_state (p_battery P)) rs.
Proof.
  unfold level_after, last_level. destruct rs as [|rc rs _] using rev_ind; [reflexivity|]. rewrite fold_left_app, app_length, Nat.add_comm. cbn [length Nat.add state_before fold_left].
  rewrite nth_error_app2, Nat.sub_diag by apply Nat.le_refl. reflexivity.
Qed.
Lemma earned_cons rc l : earned (rc :: l) == rf rc GRID_cashflow + earned l.
Proof. unfold earned, over_run. cbn [map]. rewrite qsum_cons. reflexivity. Qed.
Lemma loops_earn P P' year : bigger_battery P P' -> plant_ok P -> no_leak P -> Forall (hour_ok P) year -> battery_last_orders P -> buys_the_rest P year -> selling_pays_less P year -> forall ts T soc soc' l,
  level_ok (p_battery P) soc -> 0 <= soc' - soc <= b_capacity (p_battery P') - b_capacity (p_battery P) ->
  run_loop P year ts (T, soc) = Ok l -> exists l', run_loop P' year ts (T, soc') = Ok l' /\
    earned l + (last_level soc l - soc) * p_export_price P / 1000 <= earned l' + (last_level soc' l' - soc') * p_export_price P / 1000.
Proof.
  intros B HP HL HI HO HC (E0 & E1). induction ts as [|t ts IH]; intros T soc soc' l HS HD; cbn [run_loop].
  - intro H. apply Ok_inj in H. subst. exists []. split; [reflexivity|]. unfold last_level. cbn [fold_left]. assert (Z : forall x y, (x - x) * y / 1000 == 0) by (intros; field). rewrite !Z. lra.
  - destruct (label year t) as [I|e] eqn:La; cbn [bind]; [|discriminate]. cbn [fst snd].
    destruct (hour_step P I t T soc) as [rc|e] eqn:H; cbn [bind]; [|discriminate].
    apply label_inv in La as (_ & La). apply nth_error_In in La. rewrite Forall_forall in HI.
    destruct (C120_hour_partial P P' I t T soc soc' rc B HP HL (HI I La) HO (HC I La) E0 (E1 I La) HS HD H) as (rc' & -> & E & F & G). cbn [bind].
    pose proof (final_soc_range P I t T soc rc (proj1 (proj1 HP)) H) as Rg.
    destruct (run_loop P year ts (r_nodes rc, rf rc ES_final_soc)) as [l1|e] eqn:L1; cbn [bind]; [|discriminate].
    assert (E2 := E). destruct E2 as (_ & En & _ & _ & _ & _ & _ & _ & Es).
    destruct (IH (r_nodes rc) (rf rc ES_final_soc) (rf rc' ES_final_soc) l1 Rg ltac:(split; lra) L1) as (l1' & L1' & Fa).
    rewrite En in L1'. rewrite L1'. cbn [bind]. intro K. apply Ok_inj in K. subst. exists (rc' :: l1'). split; [reflexivity|].
    rewrite !earned_cons. unfold last_level in *. cbn [fold_left]. revert G Fa.
    generalize (fold_left (fun _ rc => rf rc ES_final_soc) l1 (rf rc ES_final_soc)) (fold_left (fun _ rc => rf rc ES_final_soc) l1' (rf rc' ES_final_soc)). intros z z'.
    generalize (rf rc ES_final_soc) (rf rc' ES_final_soc) (rf rc GRID_cashflow) (rf rc' GRID_cashflow) (earned l1) (earned l1') (p_export_price P).
    clear. intros f f' g g' u u' e G Fa.
    assert (Q1 : (z - soc) * e / 1000 == (f - soc) * e / 1000 + (z - f) * e / 1000) by field. assert (Q2 : (z' - soc') * e / 1000 == (f' - soc') * e / 1000 + (z' - f') * e / 1000) by field. lra.
Qed.
(** A whole run: counting what it has put into the battery at the price it could have been sold for, it earns at least as much with the bigger battery. *)
Theorem C120_run_partial : forall P P' year first n l, bigger_battery P P' -> plant_ok P -> 0 <= b_initial_state (p_battery P) <= 1 -> no_leak P -> Forall (hour_ok P) year -> battery_last_orders P -> buys_the_rest P year -> selling_pays_less P year ->
  run_timesteps P year first n = Ok l -> exists l', run_timesteps P' year first n = Ok l' /\
    earned l + gained P (p_export_price P) l <= earned l' + gained P' (p_export_price P) l'.
Proof.
  intros P P' year first n l B HP Hi HL HI HO HC HE. unfold run_timesteps. destruct (surplus_deficit_year _ _) as [s|e]; cbn [bind]; [|discriminate].
  cbv zeta. destruct (8760 <? first + n)%Z; [discriminate|]. intro H.
  assert (Et : p_tank P = p_tank P') by (unfold bigger_battery in B; tauto). rewrite <- Et.
  assert (Bc := proj1 (proj1 HP)). assert (Ei : b_initial_state (p_battery P) = b_initial_state (p_battery P')) by (unfold bigger_battery in B; tauto).
  assert (Bk : b_capacity (p_battery P) <= b_capacity (p_battery P')) by (unfold bigger_battery in B; tauto).
  unfold gained. destruct (loops_earn P P' year B HP HL HI HO HC HE (zrange first (first + n)) (t_init (p_tank P)) (init_state (p_battery P)) (init_state (p_battery P')) l) as (l' & H' & K); [unfold level_ok, init_state; nra|unfold init_state; rewrite <- Ei; nra|exact H|].
  exists l'. split; [exact H'|]. rewrite !last_level_after. exact K.
Qed.
Print Assumptions C120_run_partial.
(** So the account of a run that leaves the bigger battery no fuller than it began is not worse than that of a run that leaves the smaller one no emptier. *)
Theorem C120_account_partial : forall P P' year first n l l', bigger_battery P P' -> plant_ok P -> 0 <= b_initial_state (p_battery P) <= 1 -> no_leak P -> Forall (hour_ok P) year -> battery_last_orders P -> buys_the_rest P year -> selling_pays_less P year ->
  run_timesteps P year first n = Ok l -> run_timesteps P' year first n = Ok l' -> init_state (p_battery P) <= level_after P l -> level_after P' l' <= init_state (p_battery P') -> earned l <= earned l'.
Proof.
  intros P P' year first n l l' B HP Hi HL HI HO HC HE H H' G G'. destruct (C120_run_partial P P' year first n l B HP Hi HL HI HO HC HE H) as (l2 & H2 & K). rewrite H' in H2. apply Ok_inj in H2. subst l2.
  destruct HE as (E0 & _). unfold gained in K. revert K G G' E0. generalize (level_after P l) (level_after P' l') (init_state (p_battery P)) (init_state (p_battery P')) (p_export_price P) (earned l) (earned l'). clear.
  intros x x' i i' e u u' K G G' E.
  assert (A : 0 <= (x - i) * e / 1000) by (unfold Qdiv; apply Qmult_le_0_compat; [nra|discriminate]).
  assert (C : (x' - i') * e / 1000 <= 0) by (assert (D : 0 <= (i' - x') * e / 1000) by (unfold Qdiv; apply Qmult_le_0_compat; [nra|discriminate]); assert (Q : (x' - i') * e / 1000 == - ((i' - x') * e / 1000)) by field; rewrite Q; lra).
  lra.
Qed.
Print Assumptions C120_account_partial.
(** ** Not without each of these conditions *)
Definition cell (size start leak : Q) : battery := {| b_capacity := size; b_initial_state := start; b_charge_max := 20; b_discharge_max := 20; b_charge_eff := 1; b_discharge_eff := 1; b_self_discharge := leak |}.
Lemma bigger_cells h mo tk above below a a' s x : a <= a' -> bigger_battery (demo (cell a s x) h mo tk above below) (demo (cell a' s x) h mo tk above below).
Proof. intro L. unfold bigger_battery. repeat match goal with |- _ /\ _ => split end; try reflexivity. exact L. Qed.
Lemma worse_from P P' a b c : bigger_battery P P' -> plant_ok P -> 0 <= b_initial_state (p_battery P) <= 1 -> (forall I ps, processes_of P I ps -> order_ok ps) -> hour_ok P a -> hour_ok P b -> hour_ok P c ->
  match run_loop P [a; b; c] (zrange 0 3) (t_init (p_tank P), init_state (p_battery P)), run_loop P' [a; b; c] (zrange 0 3) (t_init (p_tank P'), init_state (p_battery P')) with
  | Ok l, Ok l' => qlt (earned l' + gained P' (p_export_price P) l') (earned l + gained P (p_export_price P) l) | _, _ => false end = true -> worse_account P P' (P_Start.year_from [a; b; c] c).
Proof.
  intros A1 A2 A3 A4 Ha Hb Hc K. unfold worse_account. split; [exact A1|]. split; [exact A2|]. split; [exact A3|].
  split; [apply P_Start.year_all; [constructor; [exact Ha|constructor; [exact Hb|constructor; [exact Hc|constructor]]]|exact Hc]|]. split; [exact A4|].
  destruct (run_loop P [a; b; c] _ _) as [l|] eqn:E; [|discriminate K]. destruct (run_loop P' [a; b; c] _ _) as [l'|] eqn:E'; [|discriminate K].
  exists 3%Z, l, l'. rewrite !P_Start.first_three. split; [exact E|]. split; [exact E'|exact (qlt_true _ _ K)].
Qed.
Lemma house_buys b I : contains (house b P_Sizing.without814) I Import_to_demand.
Proof. intros ps [(_ & H)|(_ & H)]; injection H as <-; cbn; tauto. Qed.
Lemma three_prices (P : plant) (p : Q) a b c : p_export_price P = p -> 0 <= p -> p <= i_import_price a -> p <= i_import_price b -> p <= i_import_price c -> selling_pays_less P (P_Start.year_from [a; b; c] c).
Proof.
  intros E Z A B C. unfold selling_pays_less. rewrite E. split; [exact Z|]. apply Forall_forall. apply P_Start.year_all; [|exact C]. constructor; [exact A|constructor; [exact B|constructor; [exact C|constructor]]].
Qed.
Ltac cells := unfold plant_ok, battery_ok, house, demo, cell; cbn; repeat match goal with |- _ /\ _ => split end; try lra; try discriminate; try (intros; lra).
Ltac three_hours := first [apply house_hour; cbn [In]; tauto | unfold hour_ok, house, demo, demo_hour; cbn; repeat match goal with |- _ /\ _ => split end; try lra; intros x _ _ q H; injection H as <-; destruct x; lra].
(** A battery that leaks: the bigger one keeps electricity that is gone by the evening. *)
Theorem C120_leak_refuted : exists P P' year, worse_account P P' year /\ battery_last_orders P /\ buys_the_rest P year /\ selling_pays_less P year.
Proof.
  exists (house (cell 4 0 (1 # 10)) P_Sizing.without814), (house (cell 8 0 (1 # 10)) P_Sizing.without814), (P_Start.year_from [sunny 20; quiet_hour; quiet_hour] quiet_hour).
  split; [apply worse_from; [apply bigger_cells; lra|cells|cbn; lra|exact (house_orders _)|three_hours|three_hours|three_hours|vm_compute; reflexivity]|].
  split; [increasing|]. split; [intros I _; apply house_buys|apply (three_prices _ 40); try reflexivity; cbn; lra].
Qed.
Print Assumptions C120_leak_refuted.
(** Electricity that sells for more than it costs should be sold, not kept. *)
Definition well_paid (size : Q) : plant :=
  {| p_battery := cell size 0 0; p_hp_capacity := 5; p_min_runtime := 60; p_min_output := 0; p_aux := p_aux demo_plant; p_tank := simple_tank 0 0 0; p_export_price := 150; p_setpoint := 100;
     p_order_above := P_Sizing.without7; p_order_below := P_Sizing.without814; p_max_heat := 30 |}.
Theorem C120_price_refuted : exists P P' year, worse_account P P' year /\ no_leak P /\ battery_last_orders P /\ buys_the_rest P year /\ 0 <= p_export_price P.
Proof.
  exists (well_paid 4), (well_paid 8), (P_Start.year_from [sunny 20; evening 8; quiet_hour] quiet_hour).
  assert (O : forall I ps, processes_of (well_paid 4) I ps -> order_ok ps /\ In Import_to_demand ps) by (intros I ps [(_ & H)|(_ & H)]; injection H as <-; (split; [apply order_okb_spec; reflexivity|cbn; tauto])).
  assert (Hh : forall h, In h [sunny 20; evening 8; quiet_hour] -> hour_ok (well_paid 4) h) by (intros h K; cbn [In] in K; repeat (destruct K as [<-|K]; [apply (house_hour (cell 4 0 0) P_Sizing.without814); cbn [In]; tauto|]); destruct K).
  split; [apply worse_from; [unfold bigger_battery; repeat match goal with |- _ /\ _ => split end; try reflexivity; cbn; lra|unfold well_paid; cells|cbn; lra|intros I ps H; apply (O I ps H)|apply Hh; cbn [In]; tauto|apply Hh; cbn [In]; tauto|apply Hh; cbn [In]; tauto|vm_compute; reflexivity]|].
  split; [reflexivity|]. split; [increasing|]. split; [intros I _ ps H; apply (O I ps H)|cbn; lra].
Qed.
Print Assumptions C120_price_refuted.
(** An order that buys nothing for the demand: what the battery gives saves nothing. *)
Definition unsupplied : list Z := [1; 2; 4; 5; 6; 8; 9; 10; 11; 12; 13]%Z.
Theorem C120_no_import_refuted : exists P P' year, worse_account P P' year /\ no_leak P /\ battery_last_orders P /\ selling_pays_less P year.
Proof.
  exists (demo (cell 4 0 0) 5 0 (simple_tank 0 0 0) unsupplied P_Sizing.without814), (demo (cell 8 0 0) 5 0 (simple_tank 0 0 0) unsupplied P_Sizing.without814), (P_Start.year_from [sunny 20; evening 8; evening 8] (evening 8)).
  split; [apply worse_from; [apply bigger_cells; lra|cells|cbn; lra|intros I ps [(_ & H)|(_ & H)]; apply order_okb_spec; injection H as <-; reflexivity|three_hours|three_hours|three_hours|vm_compute; reflexivity]|].
  split; [reflexivity|]. split; [increasing|apply (three_prices _ 40); try reflexivity; cbn; lra].
Qed.
Print Assumptions C120_no_import_refuted.
(** A battery that is filled from the grid: the bigger one buys more for later. *)
Theorem C120_buying_refuted : exists P P' year, worse_account P P' year /\ no_leak P /\ buys_the_rest P year /\ selling_pays_less P year.
Proof.
  exists (house (cell 4 0 0) all15), (house (cell 8 0 0) all15), (P_Start.year_from [demo_hour 0 0 0 80 3 5; demo_hour 0 0 0 80 3 5; demo_hour 0 0 0 80 3 5] (demo_hour 0 0 0 80 3 5)).
  split; [apply worse_from; [apply bigger_cells; lra|cells|cbn; lra|intros I ps [(_ & H)|(_ & H)]; apply order_okb_spec; injection H as <-; reflexivity|three_hours|three_hours|three_hours|vm_compute; reflexivity]|].
  split; [reflexivity|]. split; [intros I _ ps [(_ & H)|(_ & H)]; injection H as <-; cbn; tauto|apply (three_prices _ 40); try reflexivity; cbn; lra].
Qed.
Print Assumptions C120_buying_refuted.
(** And what is left in the battery has to be counted. *)
Theorem C120_end_refuted : exists P P' year l l', bigger_battery P P' /\ plant_ok P /\ 0 <= b_initial_state (p_battery P) <= 1 /\ no_leak P /\ Forall (hour_ok P) year /\ battery_last_orders P /\ buys_the_rest P year /\ selling_pays_less P year /\
  run_timesteps P year 0 3 = Ok l /\ run_timesteps P' year 0 3 = Ok l' /\ earned l' < earned l.
Proof.
  set (P := house (cell 4 0 0) P_Sizing.without814). set (P' := house (cell 8 0 0) P_Sizing.without814). exists P, P', (P_Start.year_from [quiet_hour; quiet_hour; sunny 20] (sunny 20)).
  assert (K : match run_loop P [quiet_hour; quiet_hour; sunny 20] (zrange 0 3) (t_init (p_tank P), init_state (p_battery P)), run_loop P' [quiet_hour; quiet_hour; sunny 20] (zrange 0 3) (t_init (p_tank P'), init_state (p_battery P')) with
    Ok l, Ok l' => qlt (earned l') (earned l) | _, _ => false end = true) by (vm_compute; reflexivity).
  destruct (run_loop P _ _ _) as [l|] eqn:E; [|discriminate K]. destruct (run_loop P' _ _ _) as [l'|] eqn:E'; [|discriminate K]. exists l, l'. rewrite !P_Start.first_three.
  split; [apply bigger_cells; lra|]. split; [unfold P; cells|]. split; [cbn; lra|]. split; [reflexivity|].
  split; [apply P_Start.year_all; [repeat (constructor; [apply house_hour; cbn [In]; tauto|]); constructor|apply house_hour; cbn [In]; tauto]|].
  split; [unfold P; increasing|]. split; [intros I _; apply house_buys|]. split; [apply (three_prices _ 40); try reflexivity; cbn; lra|].
  split; [exact E|]. split; [exact E'|exact (qlt_true _ _ K)].
Qed.
Print Assumptions C120_end_refuted.
(** After a sunny hour and an evening of 6 kWh, 8 kWh instead of 4 are worth 0.16 more. *)
Example C120_case : let P := house (cell 4 0 0) P_Sizing.without814 in let P' := house (cell 8 0 0) P_Sizing.without814 in let year := P_Start.year_from [sunny 20; evening 6; quiet_hour] quiet_hour in
  bigger_battery P P' /\ plant_ok P /\ 0 <= b_initial_state (p_battery P) <= 1 /\ no_leak P /\ Forall (hour_ok P) year /\ battery_last_orders P /\ buys_the_rest P year /\ selling_pays_less P year /\
  exists l l', run_timesteps P year 0 3 = Ok l /\ run_timesteps P' year 0 3 = Ok l' /\ (earned l' + gained P' (p_export_price P) l') - (earned l + gained P (p_export_price P) l) == 16 # 100.
Proof.
  cbv zeta. set (P := house (cell 4 0 0) P_Sizing.without814). set (P' := house (cell 8 0 0) P_Sizing.without814).
  split; [apply bigger_cells; lra|]. split; [unfold P; cells|]. split; [cbn; lra|]. split; [reflexivity|].
  split; [apply P_Start.year_all; [repeat (constructor; [apply house_hour; cbn [In]; tauto|]); constructor|apply house_hour; cbn [In]; tauto]|].
  split; [unfold P; increasing|]. split; [intros I _; apply house_buys|]. split; [apply (three_prices _ 40); try reflexivity; cbn; lra|].
  assert (K : match run_loop P [sunny 20; evening 6; quiet_hour] (zrange 0 3) (t_init (p_tank P), init_state (p_battery P)), run_loop P' [sunny 20; evening 6; quiet_hour] (zrange 0 3) (t_init (p_tank P'), init_state (p_battery P')) with
    Ok l, Ok l' => qeq ((earned l' + gained P' (p_export_price P) l') - (earned l + gained P (p_export_price P) l)) (16 # 100) | _, _ => false end = true) by (vm_compute; reflexivity).
  destruct (run_loop P _ _ _) as [l|] eqn:E; [|discriminate K]. destruct (run_loop P' _ _ _) as [l'|] eqn:E'; [|discriminate K]. exists l, l'. rewrite !P_Start.first_three.
  split; [exact E|]. split; [exact E'|exact (qeq_true_inv _ _ K)].
Qed.
