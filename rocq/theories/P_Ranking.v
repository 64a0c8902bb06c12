(** C121: what the columns of the tables say about a bigger battery. *)
From Coq Require Import String.
From Verif Require Import Base BaseL M_Battery S_Battery M_HeatPump M_Tools M_FixedOrder S_FixedOrder L_FixedOrderHour L_FixedOrderRun L_Tank P_FixedOrder S_Account S_Sizing P_Sizing S_Bill P_BetterBattery P_Bill
  M_Sweep M_Grid S_Grid L_Grid P_Grid M_Kpi S_Kpi L_Kpi L_KpiSums L_KpiCost P_Kpi S_Ranking L_Ranking.
Open Scope string_scope.

Ltac kept := intros rc rc' ((Ke & _) & _); rewrite ?(Ke HP_heat_total_output eq_refl), ?(Ke HP_elec_total_usage eq_refl), ?(Ke HD_heat_demand eq_refl), ?(Ke AUX_demand eq_refl), ?(Ke ED_elec_demand eq_refl), ?(Ke RES_generation_total eq_refl),
  ?(Ke RES_aux eq_refl), ?(Ke HP_elec_RES_usage eq_refl), ?(Ke HP_elec_import_usage eq_refl), ?(Ke HP_cop eq_refl), ?(Ke AUX_cost eq_refl), ?(Ke GRID_import_price eq_refl), ?(Ke RES_elec_demand eq_refl); reflexivity.
Section SIDES.
Variable price : Z -> Q.
Variables K K' : run.
Hypothesis H : side_by_side K K'.
Lemma same_hp : sum_hp_output K = sum_hp_output K'.
Proof. apply (same_sum _ _ H). kept. Qed.
Lemma same_usage : sum_hp_usage K = sum_hp_usage K'.
Proof. apply (same_sum _ _ H). kept. Qed.
Lemma same_aux : sum_aux_output K = sum_aux_output K'.
Proof. apply (same_sum _ _ H). kept. Qed.
Lemma same_hd : sum_hd K = sum_hd K'.
Proof. apply (same_sum _ _ H). kept. Qed.
Lemma same_ed : sum_ed K = sum_ed K'.
Proof. apply (same_sum _ _ H). kept. Qed.
Lemma same_res : sum_RES K = sum_RES K'.
Proof. apply (same_sum _ _ H). kept. Qed.
Lemma same_local : HP_from_local_RES K = HP_from_local_RES K'.
Proof. apply (same_sum _ _ H). kept. Qed.
Lemma same_heat_local : heat_from_local_RES K = heat_from_local_RES K'.
Proof. unfold heat_from_local_RES. rewrite (same_sum _ _ H (fun r => r RES_aux)), (same_sum _ _ H (fun r => r HP_elec_RES_usage * r HP_cop)) by kept. reflexivity. Qed.
Lemma same_grid_heat : heat_from_grid_RES K = heat_from_grid_RES K'.
Proof. apply (same_windy _ _ H). kept. Qed.
Lemma same_grid_pump : HP_from_grid_RES K = HP_from_grid_RES K'.
Proof. apply (same_windy _ _ H). kept. Qed.
Lemma same_capital : capital_cost price K = capital_cost price K'.
Proof. unfold capital_cost. rewrite (sb_name _ _ H). reflexivity. Qed.
Lemma same_income : RHI_income K = RHI_income K'.
Proof. unfold RHI_income, rhi_year, rhi_years. rewrite same_hp, same_usage, (sb_name _ _ H), (sb_rhi _ _ H). reflexivity. Qed.
Lemma same_factor : year_factor K = year_factor K'.
Proof. unfold year_factor. rewrite (sb_steps _ _ H). reflexivity. Qed.
Lemma unchanged h : In h ["HP_size_ratio"; "HP_utilisation"; "capital_cost"; "sum_hp_output"; "sum_hp_usage"; "scop"; "sum_aux_output"; "sum_RES"; "HP_met_RES"; "days_storage_content"; "heat_met_RES"] -> entry price K h = entry price K' h.
Proof.
  cbn [In]. intro Hh.
  repeat (destruct Hh as [<-|Hh]; [unfold entry; cbn [indicators find fst snd String.eqb Ascii.eqb Bool.eqb fin];
    first [unfold HP_size_ratio, max_heat_pump_output, max_heat_demand; rewrite !(same_max _ _ H) by kept; reflexivity
          |unfold HP_utilisation; rewrite same_hp, same_hd; reflexivity | unfold fin; rewrite same_capital; reflexivity | unfold fin; rewrite same_hp; reflexivity | unfold fin; rewrite same_usage; reflexivity
          |unfold calc_scop; rewrite same_hp, same_usage; reflexivity | unfold fin; rewrite same_aux; reflexivity | unfold fin; rewrite same_res; reflexivity
          |unfold HP_met_RES; rewrite same_hp, same_local, same_grid_pump; reflexivity | unfold days_storage_content; rewrite same_hd, (sb_name _ _ H), (sb_steps _ _ H); reflexivity
          |unfold heat_met_RES; rewrite same_hp, same_aux, same_heat_local, same_grid_heat; reflexivity]|]). destruct Hh.
Qed.
Lemma sums_less f : (forall rc rc', paired rc rc' -> f (rf rc') <= f (rf rc)) -> forall x, fin (sum_of K f) = Ok x -> exists x', fin (sum_of K' f) = Ok x' /\ num_le x' x.
Proof.
  intros Hf x. rewrite (sum_of_ok K (sb_done _ _ H)), (sum_of_ok K' (sb_done' _ _ H)). cbn [fin bind]. intro Y. apply Ok_inj in Y. subst x. eexists. split; [reflexivity|]. exact (less_total _ _ H f Hf).
Qed.
Lemma export_less : total (fun r => r GRID_total_export) (k_results K') <= total (fun r => r GRID_total_export) (k_results K).
Proof. apply (less_total _ _ H). intros rc rc' (E & _). unfold eased in E. tauto. Qed.
Lemma same_generation : total (fun r => r RES_generation_total) (k_results K') = total (fun r => r RES_generation_total) (k_results K).
Proof. assert (E := same_res). unfold sum_RES in E. rewrite (sum_of_ok K (sb_done _ _ H)), (sum_of_ok K' (sb_done' _ _ H)) in E. apply Ok_inj in E. symmetry. exact E. Qed.
Lemma own_use h : In h ["local_RES_used"; "total_RES_self_consumption"] -> exists x x', entry price K h = Ok x /\ entry price K' h = Ok x' /\ num_le x x'.
Proof.
  assert (X := export_less). assert (G := same_generation). assert (S1 := sum_of_ok K (sb_done _ _ H)). assert (S2 := sum_of_ok K' (sb_done' _ _ H)).
  cbn [In]. intros [<-|[<-|[]]]; unfold entry; cbn [indicators find fst snd String.eqb Ascii.eqb Bool.eqb]; unfold RES_self_consumption, total_RES_self_consumption, sum_RES, sum_export; rewrite !S1, !S2, G; cbn [fin bind];
    do 2 eexists; (split; [reflexivity|]); (split; [reflexivity|]); cbn [num_le].
  - clear - X. revert X. generalize (total (fun r => r GRID_total_export) (k_results K)) (total (fun r => r GRID_total_export) (k_results K')) (total (fun r => r RES_generation_total) (k_results K)).
    intros e e' g X. destruct (qlt_spec 0 g) as [L|L]; [|apply Qle_refl].
    assert (D : e' / g <= e / g) by (unfold Qdiv; apply Qmult_le_compat_r; [exact X|apply Qlt_le_weak, Qinv_lt_0_compat, L]). lra.
  - lra.
Qed.
Lemma purchases h x : In h ["sum_import"; "sum_export"; "sum_ed_import"; "grid_RES_used"] -> entry price K h = Ok x -> exists x', entry price K' h = Ok x' /\ num_le x' x.
Proof.
  cbn [In]. intros [<-|[<-|[<-|[<-|[]]]]]; unfold entry; cbn [indicators find fst snd String.eqb Ascii.eqb Bool.eqb];
    [apply sums_less; intros rc rc' (E & _); unfold eased in E; tauto|apply sums_less; intros rc rc' (E & _); unfold eased in E; tauto|apply sums_less; intros rc rc' (_ & E & _); exact E|].
  unfold grid_RES_used. destruct (windy_sum K _) as [q|e] eqn:E; cbn [fin bind]; [|discriminate]. intro Y. apply Ok_inj in Y. subst x.
  destruct (less_windy _ _ H (fun r => r GRID_total_import) q) as (q' & -> & L); [intros rc rc' (Y & _); unfold eased in Y; tauto|exact E|]. cbn [bind]. eexists. split; [reflexivity|exact L].
Qed.
Lemma ndiv_le a a' d : 0 <= d -> a <= a' -> num_le (ndiv a d) (ndiv a' d).
Proof.
  intros D L. unfold ndiv. destruct (qeq_spec d 0) as [E|E]; cbn [num_le]; [exact Logic.I|]. unfold Qdiv. apply Qmult_le_compat_r; [exact L|]. apply Qinv_le_0_compat, D.
Qed.
Lemma renewable_share h : In (g_tariff (k_grid K)) plain_tariffs -> In h ["total_RES_used"; "demand_met_RES"] -> exists x x', entry price K h = Ok x /\ entry price K' h = Ok x' /\ num_le x x'.
Proof.
  intro Hg. assert (X := export_less). assert (G := same_generation). assert (S1 := sum_of_ok K (sb_done _ _ H)). assert (S2 := sum_of_ok K' (sb_done' _ _ H)).
  assert (W1 := windy_sum_plain K (fun r => r GRID_total_import) Hg). assert (Hg' := Hg). rewrite (sb_grid _ _ H) in Hg'. assert (W2 := windy_sum_plain K' (fun r => r GRID_total_import) Hg').
  cbn [In]. intros [<-|[<-|[]]]; unfold entry; cbn [indicators find fst snd String.eqb Ascii.eqb Bool.eqb].
  - unfold total_RES_used, grid_RES_used, total_RES_self_consumption, sum_RES, sum_export. rewrite W1, W2. rewrite !S1, !S2, G. cbn [fin bind].
    do 2 eexists; (split; [reflexivity|]); (split; [reflexivity|]); cbn [num_le]. lra.
  - unfold demand_met_RES. rewrite <- same_usage, <- same_aux, <- same_ed. unfold sum_hp_usage, sum_aux_output, sum_ed, total_RES_used, grid_RES_used, total_RES_self_consumption, sum_RES, sum_export. rewrite W1, W2. rewrite !S1, !S2, G. cbn [bind].
    do 2 eexists; (split; [reflexivity|]); (split; [reflexivity|]).
    assert (D : 0 <= total (fun r => r HP_elec_total_usage) (k_results K) + total (fun r => r AUX_demand) (k_results K) + total (fun r => r ED_elec_demand) (k_results K)).
    { pose proof (nonneg_total _ _ H HP_elec_total_usage ltac:(cbn; tauto)). pose proof (nonneg_total _ _ H AUX_demand ltac:(cbn; tauto)). pose proof (nonneg_total _ _ H ED_elec_demand ltac:(cbn; tauto)). lra. }
    revert D X. generalize (total (fun r => r HP_elec_total_usage) (k_results K) + total (fun r => r AUX_demand) (k_results K) + total (fun r => r ED_elec_demand) (k_results K)).
    generalize (total (fun r => r GRID_total_export) (k_results K)) (total (fun r => r GRID_total_export) (k_results K')) (total (fun r => r RES_generation_total) (k_results K)). intros e e' g d D X.
    assert (L := ndiv_le (d - (0 + (g - e'))) (d - (0 + (g - e))) d D ltac:(lra)). revert L. destruct (ndiv (d - (0 + (g - e'))) d), (ndiv (d - (0 + (g - e))) d); cbn [nmap num_le]; try tauto. intro L. lra.
Qed.
Lemma same_heat_cost : exists l l', array K (heat_cost K) = Ok l /\ array K' (heat_cost K') = Ok l' /\ qsum l' == qsum l.
Proof.
  rewrite (array_ok K (sb_done _ _ H)), (array_ok K' (sb_done' _ _ H)). do 2 eexists. split; [reflexivity|]. split; [reflexivity|]. rewrite !qsum_total.
  assert (E : heat_cost K' = heat_cost K) by (unfold heat_cost; rewrite (sb_fuel _ _ H); reflexivity). rewrite E. apply (equal_total _ _ H).
  intros rc rc' ((Ke & _) & _ & O). unfold heat_cost. rewrite (Ke AUX_cost eq_refl), (Ke GRID_import_price eq_refl). unfold other_import in O. cbv zeta. destruct (fuel_eqb _ _); rewrite O; reflexivity.
Qed.
Lemma ndiv_same a a' d : a == a' -> num_eq (ndiv a d) (ndiv a' d).
Proof. intro E. unfold ndiv. destruct (qeq d 0); cbn [num_eq]; [exact Logic.I|]. rewrite E. reflexivity. Qed.
Lemma heat_costs h x : In h ["cost_of_heat"; "levelised_cost_of_heat"] -> entry price K h = Ok x -> exists x', entry price K' h = Ok x' /\ num_eq x' x.
Proof.
  destruct same_heat_cost as (l & l' & E & E' & Q0). cbn [In]. intros [<-|[<-|[]]]; unfold entry; cbn [indicators find fst snd String.eqb Ascii.eqb Bool.eqb].
  - unfold cost_of_heat. rewrite E, E', <- same_aux, <- same_hp, <- same_income. cbn [bind]. destruct (sum_aux_output K) as [a|e]; cbn [bind]; [|discriminate]. destruct (sum_hp_output K) as [b|e]; cbn [bind]; [|discriminate].
    destruct (RHI_income K) as [y|e]; cbn [bind]; [|discriminate]. intro Y. apply Ok_inj in Y. subst x. eexists. split; [reflexivity|]. apply ndiv_same. rewrite Q0. reflexivity.
  - unfold levelised_cost_of_heat. rewrite E, E', <- same_capital, <- same_hd, <- same_income, <- same_factor. cbn [bind]. destruct (capital_cost price K) as [a|e]; cbn [bind]; [|discriminate]. destruct (RHI_income K) as [y|e]; cbn [bind]; [|discriminate].
    destruct (sum_hd K) as [b|e]; cbn [bind]; [|discriminate]. destruct (year_factor K) as [z|e]; cbn [bind]; [|discriminate]. intro Y. apply Ok_inj in Y. subst x. eexists. split; [reflexivity|]. apply ndiv_same. rewrite Q0. reflexivity.
Qed.
Hypothesis Hc : cash K <= cash K'.
Lemma same_fuel_cost : fuel_cost K' == fuel_cost K.
Proof. apply (equal_total _ _ H). kept. Qed.
Lemma thousandth a b : a <= b -> a / 1000 <= b / 1000.
Proof. intro L. unfold Qdiv. apply Qmult_le_compat_r; [exact L|discriminate]. Qed.
Lemma costs h x : In h ["opex"; "cost_elec"; "lifetime_cost"; "levelised_cost_of_energy"] -> entry price K h = Ok x -> exists x', entry price K' h = Ok x' /\ num_le x' x.
Proof.
  assert (Fc := same_fuel_cost). destruct (energy_total K (sb_done _ _ H)) as (l & El & Hl), (energy_total K' (sb_done' _ _ H)) as (l' & El' & Hl').
  assert (L : qsum l' <= qsum l).
  { rewrite Hl, Hl', <- (sb_fuel _ _ H). apply thousandth. destruct (fuel_eqb _ _); rewrite ?Fc; lra. }
  assert (F0 : forall f, year_factor K = Ok f -> 0 <= f).
  { intros f. rewrite (year_factor_ok K (sb_done _ _ H)). intro Y. apply Ok_inj in Y. subst f. pose proof (steps_pos K (sb_done _ _ H)) as T. unfold Qdiv. apply Qmult_le_0_compat; [discriminate|]. apply Qinv_le_0_compat. lra. }
  cbn [In]. intros [<-|[<-|[<-|[<-|[]]]]]; unfold entry; cbn [indicators find fst snd String.eqb Ascii.eqb Bool.eqb].
  - destruct (operating_cost_ok K (sb_done _ _ H)) as (o & -> & Eo), (operating_cost_ok K' (sb_done' _ _ H)) as (o' & -> & Eo'). cbn [fin bind]. intro Y. apply Ok_inj in Y. subst x. eexists. split; [reflexivity|]. cbn [num_le].
    rewrite Eo, Eo', <- (sb_fuel _ _ H). apply thousandth. destruct (fuel_eqb _ _); rewrite ?Fc; lra.
  - unfold cost_elec. rewrite (sum_of_ok K (sb_done _ _ H)), (sum_of_ok K' (sb_done' _ _ H)). cbn [fin bind]. intro Y. apply Ok_inj in Y. subst x. eexists. split; [reflexivity|]. cbn [num_le].
    assert (Sc : forall rs, total (fun r => - r GRID_cashflow / 1000) rs == - total (fun r => r GRID_cashflow) rs / 1000) by (intro rs; rewrite (total_scale (fun r => - r GRID_cashflow) (/ 1000)), (total_opp (fun r => r GRID_cashflow)); reflexivity).
    rewrite !Sc. apply thousandth. unfold cash in Hc. lra.
  - unfold lifetime_cost. rewrite El, El', <- same_capital, <- same_factor. cbn [bind]. destruct (capital_cost price K) as [a|e]; cbn [bind fin]; [|discriminate]. destruct (year_factor K) as [z|e] eqn:Z; cbn [bind fin]; [|discriminate].
    intro Y. apply Ok_inj in Y. subst x. eexists. split; [reflexivity|]. cbn [num_le]. pose proof (F0 z eq_refl). nra.
  - unfold levelised_cost_of_energy. rewrite El, El', <- same_capital, <- same_factor, <- same_income, <- same_hd, <- same_ed. cbn [bind]. destruct (capital_cost price K) as [a|e]; cbn [bind]; [|discriminate]. destruct (RHI_income K) as [y|e]; cbn [bind]; [|discriminate].
    unfold sum_hd, sum_ed. rewrite !(sum_of_ok K (sb_done _ _ H)). cbn [bind]. destruct (year_factor K) as [z|e] eqn:Z; cbn [bind]; [|discriminate].
    intro Y. apply Ok_inj in Y. subst x. eexists. split; [reflexivity|].
    pose proof (F0 z eq_refl). pose proof (nonneg_total _ _ H HD_heat_demand ltac:(cbn; tauto)). pose proof (nonneg_total _ _ H ED_elec_demand ltac:(cbn; tauto)).
    apply ndiv_le; [|assert (qsum l' * 1000 * z * 20 <= qsum l * 1000 * z * 20) by nra; lra].
    apply Qmult_le_0_compat; [apply Qmult_le_0_compat; lra|discriminate].
Qed.
End SIDES.

(** ** C121.  The full statement: in the tables, the plant with the bigger battery shows a heat side that is the same, no more purchases, sales, electricity and energy costs, and no smaller share of
    renewables.  As published, it holds for orders that use the battery last; for the share of renewables without a wind farm agreement; for the costs of a run under the conditions of C120. *)
(** Everything about the heat side *)
Theorem C121_heat_partial : forall price P P' year first n K K' h, beside P P' year first n K K' ->
  In h ["HP_size_ratio"; "HP_utilisation"; "capital_cost"; "sum_hp_output"; "sum_hp_usage"; "scop"; "sum_aux_output"; "sum_RES"; "HP_met_RES"; "days_storage_content"; "heat_met_RES"] ->
  entry price K h = entry price K' h.
Proof. intros price P P' year first n K K' h B. exact (unchanged price K K' (beside_runs _ _ _ _ _ _ _ B) h). Qed.
Print Assumptions C121_heat_partial.
(** What heat costs *)
Theorem C121_cost_of_heat_partial : forall price P P' year first n K K' h x, beside P P' year first n K K' ->
  In h ["cost_of_heat"; "levelised_cost_of_heat"] -> entry price K h = Ok x -> exists x', entry price K' h = Ok x' /\ num_eq x' x.
Proof. intros price P P' year first n K K' h x B. exact (heat_costs price K K' (beside_runs _ _ _ _ _ _ _ B) h x). Qed.
Print Assumptions C121_cost_of_heat_partial.
(** What is bought and sold *)
Theorem C121_trade_partial : forall price P P' year first n K K' h x, beside P P' year first n K K' ->
  In h ["sum_import"; "sum_export"; "sum_ed_import"; "grid_RES_used"] -> entry price K h = Ok x -> exists x', entry price K' h = Ok x' /\ num_le x' x.
Proof. intros price P P' year first n K K' h x B. exact (purchases price K K' (beside_runs _ _ _ _ _ _ _ B) h x). Qed.
Print Assumptions C121_trade_partial.
(** What is used of the own generation *)
Theorem C121_own_use_partial : forall price P P' year first n K K' h, beside P P' year first n K K' ->
  In h ["local_RES_used"; "total_RES_self_consumption"] -> exists x x', entry price K h = Ok x /\ entry price K' h = Ok x' /\ num_le x x'.
Proof. intros price P P' year first n K K' h B. exact (own_use price K K' (beside_runs _ _ _ _ _ _ _ B) h). Qed.
Print Assumptions C121_own_use_partial.
(** How much of the demand is met by renewables, unless the electricity bought counts as renewable in some hours *)
Theorem C121_demand_met_partial : forall price P P' year first n K K' h, beside P P' year first n K K' -> In (g_tariff (k_grid K)) ["Flat rates"; "Variable periods"; "Time of use - WM"] ->
  In h ["total_RES_used"; "demand_met_RES"] -> exists x x', entry price K h = Ok x /\ entry price K' h = Ok x' /\ num_le x x'.
Proof. intros price P P' year first n K K' h B. exact (renewable_share price K K' (beside_runs _ _ _ _ _ _ _ B) h). Qed.
Print Assumptions C121_demand_met_partial.
(** Costs: under the conditions of C120 *)
Theorem C121_costs_partial : forall price P P' year first n K K' h x, beside P P' year first n K K' -> no_leak P -> buys_the_rest P year -> selling_pays_less P year ->
  init_state (p_battery P) <= level_after P (k_results K) -> level_after P' (k_results K') <= init_state (p_battery P') ->
  In h ["opex"; "cost_elec"; "lifetime_cost"; "levelised_cost_of_energy"] -> entry price K h = Ok x -> exists x', entry price K' h = Ok x' /\ num_le x' x.
Proof.
  intros price P P' year first n K K' h x B HL HC HE G G'. apply (costs price K K' (beside_runs _ _ _ _ _ _ _ B)).
  destruct B as (B & HP & Hi & HI & HO & R & R' & _). unfold cash. rewrite <- !qsum_total.
  exact (C120_account_partial P P' year first n _ _ B HP Hi HL HI HO HC HE (proj1 R) (proj1 R') G G').
Qed.
Print Assumptions C121_costs_partial.
(** ** Not without these conditions *)
From Verif Require Import P_BetterBattery P_Bill.
Definition three_run (P : plant) (G : grid) (l : list record) : run :=
  {| k_name := folder_name (14, 500)%Z; k_timesteps := 3; k_first_hour := 0; k_results := l; k_fuel := a_fuel (p_aux P); k_grid := G; k_rhi := plain_rhi |}.
Definition three_loop (P : plant) (a b c : hour_in) : res (list record) := run_loop P [a; b; c] (zrange 0 3) (t_init (p_tank P), init_state (p_battery P)).
Lemma three_of P a b c G l : three_loop P a b c = Ok l -> run_of P (P_Start.year_from [a; b; c] c) 0 3 (three_run P G l).
Proof. intro E. unfold run_of. rewrite P_Start.first_three. split; [exact E|]. repeat split; reflexivity. Qed.
Definition two (x y : res (list record)) (f : list record -> list record -> bool) : bool := match x, y with Ok l, Ok l' => f l l' | _, _ => false end.
Lemma two_ok x y f : two x y f = true -> exists l l', x = Ok l /\ y = Ok l' /\ f l l' = true.
Proof. destruct x as [l|], y as [l'|]; cbn; try discriminate. eauto 6. Qed.
Lemma beside_house size size' start leak a b c G l l' : 0 <= size -> size <= size' -> 0 <= start <= 1 -> 0 <= leak <= 1 ->
  (forall h, In h [a; b; c] -> In h [quiet_hour; sunny 4; sunny 6; sunny 20; evening 4; evening 6; evening 8; demo_hour 0 0 0 20 3 5]) ->
  three_loop (house (cell size start leak) P_Sizing.without814) a b c = Ok l -> three_loop (house (cell size' start leak) P_Sizing.without814) a b c = Ok l' ->
  beside (house (cell size start leak) P_Sizing.without814) (house (cell size' start leak) P_Sizing.without814) (P_Start.year_from [a; b; c] c) 0 3
    (three_run (house (cell size start leak) P_Sizing.without814) G l) (three_run (house (cell size' start leak) P_Sizing.without814) G l').
Proof.
  intros S0 S1 St Lk Hh E E'. unfold beside. split; [apply bigger_cells; exact S1|]. split; [cells|]. split; [exact St|].
  split; [apply P_Start.year_all; [constructor; [|constructor; [|constructor; [|constructor]]]|]; apply house_hour, Hh; cbn [In]; tauto|].
  split; [increasing|]. split; [apply three_of, E|]. split; [apply three_of, E'|]. repeat split; reflexivity.
Qed.
Definition has_entry (K : run) (h : string) (x : Q) : bool := match entry (fun _ => 0) K h with Ok (Fin y) => qeq y x | _ => false end.
Lemma has_entry_ok K h x : has_entry K h x = true -> exists y, entry (fun _ => 0) K h = Ok (Fin y) /\ y == x.
Proof. unfold has_entry. destruct (entry _ K h) as [[y|]|]; try discriminate. intro E. exists y. split; [reflexivity|exact (qeq_true_inv _ _ E)]. Qed.
(** A battery that drives the heat pump: increasing orders, and what it gives the heat pump is missing from the electricity of the heat pump.  With a coefficient of performance of 3 the seasonal
    performance is 5 with the smaller and 15 with the bigger battery. *)
Theorem C121_battery_pump_refuted : exists P P' year K K', bigger_battery P P' /\ plant_ok P /\ 0 <= b_initial_state (p_battery P) <= 1 /\ Forall (hour_ok P) year /\ (forall I ps, processes_of P I ps -> order_ok ps) /\
  run_of P year 0 3 K /\ run_of P' year 0 3 K' /\ k_name K = k_name K' /\ k_grid K = k_grid K' /\ k_rhi K = k_rhi K' /\ (forall I, In I year -> cop (i_perf I) == 3) /\
  exists x x', entry (fun _ => 0) K "scop" = Ok (Fin x) /\ entry (fun _ => 0) K' "scop" = Ok (Fin x') /\ x == 5 /\ x' == 15.
Proof.
  set (P := demo (cell 4 1 0) 30 0 (simple_tank 0 0 0) all13 all15). set (P' := demo (cell 8 1 0) 30 0 (simple_tank 0 0 0) all13 all15). set (cold := demo_hour 0 0 30 120 3 30).
  destruct (two_ok (three_loop P cold quiet_hour quiet_hour) (three_loop P' cold quiet_hour quiet_hour) (fun l l' => has_entry (three_run P plain_grid l) "scop" 5 && has_entry (three_run P' plain_grid l') "scop" 15)) as (l & l' & E & E' & B); [vm_compute; reflexivity|].
  apply andb_prop in B as (B & B'). apply has_entry_ok in B as (x & X & Ex). apply has_entry_ok in B' as (x' & X' & Ex').
  exists P, P', (P_Start.year_from [cold; quiet_hour; quiet_hour] quiet_hour), (three_run P plain_grid l), (three_run P' plain_grid l').
  assert (H1 : hour_ok P cold) by (unfold hour_ok, P, demo, cold, demo_hour; cbn; repeat match goal with |- _ /\ _ => split end; try lra; intros y _ _ q Y; injection Y as <-; destruct y; lra).
  assert (H2 : hour_ok P quiet_hour) by (unfold hour_ok, P, demo, quiet_hour, demo_hour; cbn; repeat match goal with |- _ /\ _ => split end; try lra; intros y _ _ q Y; injection Y as <-; destruct y; lra).
  split; [apply bigger_cells; lra|]. split; [unfold P; cells|]. split; [cbn; lra|].
  split; [apply P_Start.year_all; [constructor; [exact H1|constructor; [exact H2|constructor; [exact H2|constructor]]]|exact H2]|].
  split; [intros I ps [(_ & Y)|(_ & Y)]; apply order_okb_spec; injection Y as <-; reflexivity|].
  split; [apply three_of, E|]. split; [apply three_of, E'|]. split; [reflexivity|]. split; [reflexivity|]. split; [reflexivity|].
  split; [apply Forall_forall, P_Start.year_all; [constructor; [reflexivity|constructor; [reflexivity|constructor; [reflexivity|constructor]]]|reflexivity]|].
  exists x, x'. auto.
Qed.
Print Assumptions C121_battery_pump_refuted.
(** Electricity bought in windy hours counts as renewable: a battery that is full at the start lowers the share of renewables from a half to nothing. *)
Theorem C121_wind_farm_refuted : exists P P' year K K', beside P P' year 0 3 K K' /\ complete_inputs (k_grid K) /\ g_tariff (k_grid K) = "Time of use - PPA + FR" /\
  exists x x', entry (fun _ => 0) K "demand_met_RES" = Ok (Fin x) /\ entry (fun _ => 0) K' "demand_met_RES" = Ok (Fin x') /\ x == 50 /\ x' == 0.
Proof.
  set (P := house (cell 4 1 0) P_Sizing.without814). set (P' := house (cell 8 1 0) P_Sizing.without814). set (G := ex_grid "Time of use - PPA + FR" 2021).
  set (used := fun l => total (fun r => r GRID_total_import) l + (total (fun r => r RES_generation_total) l - total (fun r => r GRID_total_export) l)).
  set (dem := fun l => total (fun r => r HP_elec_total_usage) l + total (fun r => r AUX_demand) l + total (fun r => r ED_elec_demand) l).
  destruct (two_ok (three_loop P (evening 8) quiet_hour quiet_hour) (three_loop P' (evening 8) quiet_hour quiet_hour) (fun l l' => (qeq (used l) 4 && qeq (dem l) 8) && (qeq (used l') 0 && qeq (dem l') 8) && (Nat.eqb (length l) 3 && Nat.eqb (length l') 3)))
    as (l & l' & E & E' & B); [vm_compute; reflexivity|].
  rewrite !andb_true_iff in B. destruct B as (((B1 & B2) & (B3 & B4)) & (B5 & B6)). apply qeq_true_inv in B1, B2, B3, B4. apply Nat.eqb_eq in B5, B6.
  pose proof (ex_grid_complete "Time of use - PPA + FR" 2021 ltac:(lia)) as C. pose proof C as (_ & _ & _ & C4 & C5 & C6). fold G in C, C4, C5, C6. destruct (wind_total G C4 C5 C6) as [w Hw].
  assert (Lw : (3 <= length (w_power w))%nat) by (destruct (wind_inv _ _ Hw) as (_ & _ & Ep); rewrite Ep; apply Nat2Z.inj_le; lia).
  assert (At : forall h, (0 <= h < 4380)%Z -> windy_at (w_power w) (w_higher w) h = true).
  { intros h Hh. destruct w as [lo hi pw]. destruct (ex_bands _ _ _ _ _ Hw) as [_ Eh]. destruct (wind_inv _ _ Hw) as (_ & _ & Ep). cbn [w_power w_higher] in *. subst hi pw.
    unfold windy_at, G. cbn [g_wind ex_grid]. rewrite nth_error_app1 by (rewrite repeat_length; lia). rewrite (nth_error_nth' _ 10) by (rewrite repeat_length; lia). rewrite nth_repeat. reflexivity. }
  assert (Win : forall Pl m, length m = 3%nat -> complete_run (three_run Pl G m) -> windy_sum (three_run Pl G m) (fun r => r GRID_total_import) = Ok (total (fun r => r GRID_total_import) m)).
  { intros Pl m Lm Cm. rewrite (windy_sum_ppa (three_run Pl G m) (fun r => r GRID_total_import) w Cm (or_introl eq_refl) Hw) by (cbn [k_results three_run]; lia). f_equal. cbn [k_results three_run].
    destruct m as [|m1 [|m2 [|m3 [|]]]]; try discriminate Lm. cbn [windy_total]. rewrite !At by lia. reflexivity. }
  assert (Sh : forall Pl m u, length m = 3%nat -> complete_run (three_run Pl G m) -> used m == u -> dem m == 8 -> exists x, entry (fun _ => 0) (three_run Pl G m) "demand_met_RES" = Ok (Fin x) /\ x == u / 8 * 100).
  { intros Pl m u Lm Cm Eu Ed. unfold entry; cbn [indicators find fst snd String.eqb Ascii.eqb Bool.eqb].
    unfold demand_met_RES, total_RES_used, grid_RES_used, total_RES_self_consumption, sum_hp_usage, sum_aux_output, sum_ed, sum_RES, sum_export. rewrite (Win Pl m Lm Cm). rewrite !(sum_of_ok _ Cm). cbn [bind k_results three_run].
    fold (dem m) (used m). unfold ndiv. destruct (qeq_spec (dem m) 0) as [Z|Z]; [rewrite Ed in Z; discriminate Z|]. cbn [nmap]. eexists. split; [reflexivity|]. rewrite Eu, Ed. field. }
  assert (R := three_of P _ _ _ G l E). assert (R' := three_of P' _ _ _ G l' E').
  destruct (Sh P l 4 B5 (run_complete _ _ _ _ _ R) B1 B2) as (x & X & Ex). destruct (Sh P' l' 0 B6 (run_complete _ _ _ _ _ R') B3 B4) as (x' & X' & Ex').
  exists P, P', (P_Start.year_from [evening 8; quiet_hour; quiet_hour] quiet_hour), (three_run P G l), (three_run P' G l').
  split; [apply beside_house; [lra|lra|lra|lra|intros h K; cbn [In] in *; tauto|exact E|exact E']|]. split; [exact C|]. split; [reflexivity|]. exists x, x'. split; [exact X|]. split; [exact X'|].
  split; [rewrite Ex; reflexivity|rewrite Ex'; reflexivity].
Qed.
Print Assumptions C121_wind_farm_refuted.
(** What is left in the bigger battery at the end of a run was not sold: the costs are higher. *)
Theorem C121_end_refuted : exists P P' year K K', beside P P' year 0 3 K K' /\ no_leak P /\ buys_the_rest P year /\ selling_pays_less P year /\
  exists x x', entry (fun _ => 0) K "opex" = Ok (Fin x) /\ entry (fun _ => 0) K' "opex" = Ok (Fin x') /\ x < x'.
Proof.
  set (P := house (cell 4 0 0) P_Sizing.without814). set (P' := house (cell 8 0 0) P_Sizing.without814).
  destruct (two_ok (three_loop P quiet_hour quiet_hour (sunny 20)) (three_loop P' quiet_hour quiet_hour (sunny 20)) (fun l l' => has_entry (three_run P plain_grid l) "opex" (- (16 # 25000)) && has_entry (three_run P' plain_grid l') "opex" (- (12 # 25000)))) as (l & l' & E & E' & B); [vm_compute; reflexivity|].
  apply andb_prop in B as (B & B'). apply has_entry_ok in B as (x & X & Ex). apply has_entry_ok in B' as (x' & X' & Ex').
  exists P, P', (P_Start.year_from [quiet_hour; quiet_hour; sunny 20] (sunny 20)), (three_run P plain_grid l), (three_run P' plain_grid l').
  split; [apply beside_house; [lra|lra|lra|lra|intros h K; cbn [In] in *; tauto|exact E|exact E']|]. split; [reflexivity|]. split; [intros I _; apply house_buys|]. split; [apply (three_prices _ 40); try reflexivity; cbn; lra|].
  exists x, x'. split; [exact X|]. split; [exact X'|]. rewrite Ex, Ex'. reflexivity.
Qed.
Print Assumptions C121_end_refuted.
(** A sunny hour and an evening of 8 kWh, empty batteries before and after: with 8 instead of 4 kWh the plant buys 4 kWh less and uses 40 instead of 20 per cent of its generation. *)
Example C121_case : let P := house (cell 4 0 0) P_Sizing.without814 in let P' := house (cell 8 0 0) P_Sizing.without814 in let year := P_Start.year_from [sunny 20; evening 8; quiet_hour] quiet_hour in
  exists K K', beside P P' year 0 3 K K' /\ In (g_tariff (k_grid K)) ["Flat rates"; "Variable periods"; "Time of use - WM"] /\ no_leak P /\ buys_the_rest P year /\ selling_pays_less P year /\
  init_state (p_battery P) <= level_after P (k_results K) /\ level_after P' (k_results K') <= init_state (p_battery P') /\
  Forall (fun p => exists x x', entry (fun _ => 0) K (fst p) = Ok (Fin x) /\ entry (fun _ => 0) K' (fst p) = Ok (Fin x') /\ x == fst (snd p) /\ x' == snd (snd p))
    [("sum_import", (4, 0)); ("sum_export", (16, 12)); ("local_RES_used", (20, 40)); ("demand_met_RES", (50, 100)); ("opex", (- (16 # 100000), - (48 # 100000)))].
Proof.
  cbv zeta. set (P := house (cell 4 0 0) P_Sizing.without814). set (P' := house (cell 8 0 0) P_Sizing.without814).
  set (ps := [("sum_import", (4, 0)); ("sum_export", (16, 12)); ("local_RES_used", (20, 40)); ("demand_met_RES", (50, 100)); ("opex", (- (16 # 100000), - (48 # 100000)))]).
  destruct (two_ok (three_loop P (sunny 20) (evening 8) quiet_hour) (three_loop P' (sunny 20) (evening 8) quiet_hour) (fun l l' => (qle (init_state (p_battery P)) (level_after P l) && qle (level_after P' l') (init_state (p_battery P'))) &&
    forallb (fun p => has_entry (three_run P plain_grid l) (fst p) (fst (snd p)) && has_entry (three_run P' plain_grid l') (fst p) (snd (snd p))) ps)) as (l & l' & E & E' & B); [vm_compute; reflexivity|].
  apply andb_prop in B as (B1 & B). apply andb_prop in B1 as (B1 & B2).
  exists (three_run P plain_grid l), (three_run P' plain_grid l'). split; [apply beside_house; [lra|lra|lra|lra|intros h K; cbn [In] in *; tauto|exact E|exact E']|].
  split; [left; reflexivity|]. split; [reflexivity|]. split; [intros I _; apply house_buys|]. split; [apply (three_prices _ 40); try reflexivity; cbn; lra|].
  split; [exact (qle_true _ _ B1)|]. split; [exact (qle_true _ _ B2)|]. apply Forall_forall. intros p Hp. rewrite forallb_forall in B. specialize (B p Hp). apply andb_prop in B as (X & X').
  apply has_entry_ok in X as (x & X & Ex). apply has_entry_ok in X' as (x' & X' & Ex'). exists x, x'. auto.
Qed.
