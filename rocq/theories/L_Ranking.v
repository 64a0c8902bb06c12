(** Lemmas: the indicators of two runs that differ in the size of the battery only. *)
From Coq Require Import String.
From Verif Require Import Base BaseL M_Battery S_Battery L_Battery M_HeatPump M_Tools L_Tools M_FixedOrder S_FixedOrder S_Sizing L_FixedOrder L_FixedOrderSign L_FixedOrderHour L_FixedOrderProps L_FixedOrderRun
  L_Tank L_Sizing P_FixedOrder P_Sizing L_Bill M_Grid M_Kpi S_Kpi L_Kpi L_KpiSums L_KpiCost S_Ranking.

(** What is booked as bought for the electrical demand *)
Lemma bought_for_demand P I t T soc rc : good_hour P I soc -> hour_step P I t T soc = Ok rc -> rf rc GRID_import_for_elec_demand = rf rc ED_import.
Proof.
  intros G H. destruct (hour_open P I t T soc rc G H) as (ps & c & r & u & pr & de & rc0 & rc1 & Hps & Ho & Hf & A & S0 & W & Z & Hu & Hpr & Hrf & Hun & Hco & ->).
  rewrite !(settled_corrected P I t T c rc0 rc1 _ Hco) by (unfold settled; cbn; tauto). rewrite Hrf, !finish_written by (cbn; tauto). symmetry. exact (mir2 _ _ _ _ _ A).
Qed.
(** Bought for anything but the electrical demand *)
Definition other_import (f : fields) : Q := f GRID_total_import - f GRID_import_for_elec_demand.
Section TWO.
Variables (b b' : battery) (hpc mr mo : Q) (ax : aux) (tank_ : tank_ops) (ep sp : Q) (oa ob : list Z) (mh : Q).
Let P := {| p_battery := b; p_hp_capacity := hpc; p_min_runtime := mr; p_min_output := mo; p_aux := ax;
  p_tank := tank_; p_export_price := ep; p_setpoint := sp; p_order_above := oa; p_order_below := ob; p_max_heat := mh |}.
Let P' := {| p_battery := b'; p_hp_capacity := hpc; p_min_runtime := mr; p_min_output := mo; p_aux := ax;
  p_tank := tank_; p_export_price := ep; p_setpoint := sp; p_order_above := oa; p_order_below := ob; p_max_heat := mh |}.
Hypothesis Hbig : bigger_battery P P'.
Hypothesis HP : plant_ok P.
Variable I : hour_in.
Hypothesis HI : hour_ok P I.
Variables (t : Z) (T : nodes) (soc soc' : Q).
Hypothesis Hsoc : level_ok b soc.
Hypothesis Hlev : 0 <= soc' - soc <= b_capacity b' - b_capacity b.
Hypothesis Hord : forall ps, processes_of P I ps -> order_ok ps /\ battery_last ps.

Lemma heat_imports rc rc' : hour_step P I t T soc = Ok rc -> hour_step P' I t T soc' = Ok rc' ->
  rf rc GRID_import_for_elec_demand = rf rc ED_import /\ rf rc' GRID_import_for_elec_demand = rf rc' ED_import /\ other_import (rf rc) == other_import (rf rc').
Proof.
  intros H H'.
  assert (HP2 := HP' b b' hpc mr mo ax tank_ ep sp oa ob mh Hbig HP soc soc' Hlev). assert (Hs2 := Hsoc' b b' soc soc' Hsoc Hlev).
  assert (G : good_hour P I soc) by (split; [exact HP|split; [exact HI|split; [exact Hsoc|intros q K; apply Hord, K]]]).
  assert (G' : good_hour P' I soc') by (split; [exact HP2|split; [exact HI|split; [exact Hs2|intros q K; apply Hord, K]]]).
  assert (B1 := bought_for_demand P I t T soc rc G H). assert (B2 := bought_for_demand P' I t T soc' rc' G' H').
  split; [exact B1|]. split; [exact B2|]. unfold other_import. rewrite B1, B2.
  destruct (hour_opened P I t T soc rc G H) as (ps & c & r & Hps & O). destruct (hour_opened P' I t T soc' rc' G' H') as (ps' & c' & r' & Hps' & O').
  assert (E := order_unique P I ps' ps Hps' Hps). subst ps'. destruct (Hord ps Hps) as (Ok1 & BL).
  pose proof (pair_run b b' hpc mr mo ax tank_ ep sp oa ob mh Hbig I t T soc soc' Hlev ps (proj1 Ok1) BL ps [] _ _ _ _ eq_refl (start_pair b b' hpc mr mo ax tank_ ep sp oa ob mh I soc soc' Hlev (start_fields P I) (start_zero P I))) as K.
  fold P P' in K. assert (E0 := op_run _ _ _ _ _ _ _ _ _ O). rewrite E0 in K. assert (E := op_run _ _ _ _ _ _ _ _ _ O'). change (start_fields P' I) with (start_fields P I) in E. rewrite E in K. clear E E0.
  assert (Rr : forall k, battery_entry k = false -> r k = r' k) by exact (pr_rel _ _ _ _ _ _ _ _ _ _ K).
  destruct O as [_ A _ _ _ (_ & F2 & _) _ Fi], O' as [_ A' _ _ _ (_ & F2' & _) _ Fi'].
  pose proof (mir2 _ _ _ _ _ A) as M2. pose proof (mir2 _ _ _ _ _ A') as M2'. clear K A A' G G' H H' B1 B2.
  rewrite Fi, Fi', F2, F2', M2, M2'. change (is_electric P') with (is_electric P). unfold total_aux.
  rewrite <- (Rr GRID_import_for_heat_pump_to_heat_demand eq_refl), <- (Rr GRID_import_for_heat_pump_to_TS eq_refl), <- (Rr GRID_import_for_ES eq_refl), <- (Rr HD_aux eq_refl), <- (Rr AUX_RES_to_demand eq_refl), <- (Rr AUX_RES_to_TS eq_refl).
  cbv zeta. clear. destruct (is_electric P); lra.
Qed.
End TWO.
(** Two records, hour by hour *)
Definition paired (rc rc' : record) : Prop :=
  eased rc rc' /\ rf rc' GRID_import_for_elec_demand <= rf rc GRID_import_for_elec_demand /\ other_import (rf rc) == other_import (rf rc').
Lemma loops_paired P P' year : bigger_battery P P' -> plant_ok P -> Forall (hour_ok P) year -> battery_last_orders P -> forall ts T soc soc' l,
  level_ok (p_battery P) soc -> 0 <= soc' - soc <= b_capacity (p_battery P') - b_capacity (p_battery P) ->
  run_loop P year ts (T, soc) = Ok l -> exists l', run_loop P' year ts (T, soc') = Ok l' /\ Forall2 paired l l'.
Proof.
  intros B HP HI HO. induction ts as [|t ts IH]; intros T soc soc' l HS HD; cbn [run_loop].
  - intro H. apply Ok_inj in H. subst. exists []. split; [reflexivity|constructor].
  - destruct (label year t) as [I|e] eqn:La; cbn [bind]; [|discriminate]. cbn [fst snd].
    destruct (hour_step P I t T soc) as [rc|e] eqn:H; cbn [bind]; [|discriminate].
    apply label_inv in La as (_ & La). apply nth_error_In in La. rewrite Forall_forall in HI.
    destruct (hours_eased P P' I t T soc soc' rc B HP (HI I La) HO HS HD H) as (rc' & H' & E & F).
    assert (K : rf rc GRID_import_for_elec_demand = rf rc ED_import /\ rf rc' GRID_import_for_elec_demand = rf rc' ED_import /\ other_import (rf rc) == other_import (rf rc')).
    { assert (HIh := HI I La). clear IH HI E F. revert H H' HIh. destruct P as [b h mr mo ax tk ep sp oa ob mh], P' as [b' h' mr' mo' ax' tk' ep' sp' oa' ob' mh']. intros H H' HIh.
      assert (B0 := B). destruct B0 as (_ & _ & _ & _ & _ & _ & _ & Q1 & Q2 & Q3 & Q4 & Q5 & Q6 & Q7 & Q8 & Q9 & Q10). cbn in Q1, Q2, Q3, Q4, Q5, Q6, Q7, Q8, Q9, Q10. subst.
      cbn [p_battery] in *. eapply heat_imports; try eassumption. exact (HO I). }
    rewrite H'. cbn [bind].
    pose proof (final_soc_range P I t T soc rc (proj1 (proj1 HP)) H) as Rg.
    destruct (run_loop P year ts (r_nodes rc, rf rc ES_final_soc)) as [l1|e] eqn:L1; cbn [bind]; [|discriminate].
    assert (E0 := E). destruct E0 as (_ & En & _ & Ei & _ & _ & _ & _ & Es).
    destruct (IH (r_nodes rc) (rf rc ES_final_soc) (rf rc' ES_final_soc) l1 Rg ltac:(split; lra) L1) as (l1' & L1' & Fa).
    rewrite En in L1'. rewrite L1'. cbn [bind]. intro Y. apply Ok_inj in Y. subst. exists (rc' :: l1'). split; [reflexivity|].
    constructor; [|exact Fa]. destruct K as (K1 & K2 & K3). unfold paired. split; [exact E|]. split; [rewrite K1, K2; exact Ei|exact K3].
Qed.
Lemma runs_paired P P' year first n l : bigger_battery P P' -> plant_ok P -> 0 <= b_initial_state (p_battery P) <= 1 -> Forall (hour_ok P) year -> battery_last_orders P ->
  run_timesteps P year first n = Ok l -> exists l', run_timesteps P' year first n = Ok l' /\ Forall2 paired l l'.
Proof.
  intros B HP Hi HI HO. unfold run_timesteps. destruct (surplus_deficit_year _ _) as [s|e]; cbn [bind]; [|discriminate].
  cbv zeta. destruct (8760 <? first + n)%Z; [discriminate|]. intro H.
  assert (Et : p_tank P = p_tank P') by (unfold bigger_battery in B; tauto). rewrite <- Et.
  assert (Bc := proj1 (proj1 HP)). assert (Ei : b_initial_state (p_battery P) = b_initial_state (p_battery P')) by (unfold bigger_battery in B; tauto).
  assert (Bk : b_capacity (p_battery P) <= b_capacity (p_battery P')) by (unfold bigger_battery in B; tauto).
  apply (loops_paired P P' year B HP HI HO _ _ (init_state (p_battery P))); [unfold level_ok, init_state; nra|unfold init_state; rewrite <- Ei; nra|exact H].
Qed.

(** ** Two objects of the indicators *)
Record side_by_side (K K' : run) : Prop := {
  sb_done : complete_run K; sb_done' : complete_run K';
  sb_name : k_name K = k_name K'; sb_steps : k_timesteps K = k_timesteps K'; sb_fuel : k_fuel K = k_fuel K'; sb_grid : k_grid K = k_grid K'; sb_rhi : k_rhi K = k_rhi K';
  sb_hours : Forall2 paired (k_results K) (k_results K');
  sb_signs : Forall (fun rc => Forall (fun k => 0 <= rf rc k) flow_fields) (k_results K) }.
Lemma beside_runs P P' year first n K K' : beside P P' year first n K K' -> side_by_side K K'.
Proof.
  intros (B & HP & Hi & HI & HO & R & R' & E1 & E2 & E3). assert (C := run_complete _ _ _ _ _ R). assert (C' := run_complete _ _ _ _ _ R').
  assert (Ea : p_aux P = p_aux P') by (unfold bigger_battery in B; tauto).
  assert (R0 := R). destruct R as (R & N & _ & Fu & _), R' as (R' & N' & _ & Fu' & _).
  constructor; try assumption.
  - rewrite N, N'. reflexivity.
  - rewrite Fu, Fu', Ea. reflexivity.
  - destruct (runs_paired P P' year first n _ B HP Hi HI HO R) as (l' & H' & F). rewrite R' in H'. apply Ok_inj in H'. subst l'. exact F.
  - apply (run_hours P year first n K _ R0). intros i rc Hn. destruct (run_steps P year first n _ i rc R Hn) as (I & H0 & HIn & Hst).
    apply (C12_flows_nonnegative_partial P I _ _ _ rc) in Hst; [exact Hst|]. split; [exact HP|]. split; [|split].
    + rewrite Forall_forall in HI. apply HI. exact (nth_error_In _ _ HIn).
    + assert (Bc := proj1 (proj1 HP)). assert (L0 : level_ok (p_battery P) (init_state (p_battery P))) by (unfold level_ok, init_state; nra).
      destruct i as [|j]; cbn [state_before]; [exact L0|]. destruct (nth_error (k_results K) j) as [rc'|] eqn:E; [|exact L0].
      pose proof (run_soc_range P year first n _ Bc R) as F. rewrite Forall_forall in F. apply (F rc'). exact (nth_error_In _ _ E).
    + intros ps K0. apply (HO I ps K0).
Qed.
Section SIDES.
Variables K K' : run.
Hypothesis H : side_by_side K K'.
Lemma same_array (f : fields -> Q) : (forall rc rc', paired rc rc' -> f (rf rc) = f (rf rc')) -> array K f = array K' f.
Proof.
  intro Hf. rewrite (array_ok K (sb_done _ _ H)), (array_ok K' (sb_done' _ _ H)). f_equal.
  induction (sb_hours _ _ H) as [|rc rc' l l' E F IH]; [reflexivity|]. cbn [map]. rewrite (Hf _ _ E), IH. reflexivity.
Qed.
Lemma same_sum f : (forall rc rc', paired rc rc' -> f (rf rc) = f (rf rc')) -> sum_of K f = sum_of K' f.
Proof. intro Hf. unfold sum_of. rewrite (same_array f Hf). reflexivity. Qed.
Lemma same_max f : (forall rc rc', paired rc rc' -> f (rf rc) = f (rf rc')) -> max_of K f = max_of K' f.
Proof. intro Hf. unfold max_of. rewrite (same_array f Hf). reflexivity. Qed.
Lemma less_total f : (forall rc rc', paired rc rc' -> f (rf rc') <= f (rf rc)) -> total f (k_results K') <= total f (k_results K).
Proof.
  intro Hf. induction (sb_hours _ _ H) as [|rc rc' l l' E F IH]; [apply Qle_refl|]. rewrite !total_cons. pose proof (Hf _ _ E). lra.
Qed.
Lemma equal_total f : (forall rc rc', paired rc rc' -> f (rf rc') == f (rf rc)) -> total f (k_results K') == total f (k_results K).
Proof.
  intro Hf. induction (sb_hours _ _ H) as [|rc rc' l l' E F IH]; [reflexivity|]. rewrite !total_cons. rewrite (Hf _ _ E), IH. reflexivity.
Qed.
Lemma nonneg_total k : In k flow_fields -> 0 <= total (fun r => r k) (k_results K).
Proof. intro Hk. apply total_nonneg. eapply Forall_impl; [|exact (sb_signs _ _ H)]. cbv beta. intros rc F. rewrite Forall_forall in F. exact (F k Hk). Qed.
Lemma same_zeros : zeros K = zeros K'.
Proof. unfold zeros. rewrite (sb_steps _ _ H). reflexivity. Qed.
Lemma less_windy f x : (forall rc rc', paired rc rc' -> f (rf rc') <= f (rf rc)) -> windy_sum K f = Ok x -> exists x', windy_sum K' f = Ok x' /\ x' <= x.
Proof.
  intro Hf. unfold windy_sum. rewrite <- (sb_grid _ _ H), <- same_zeros. destruct (existsb _ plain_tariffs); [intro Y; exists x; split; [exact Y|apply Qle_refl]|].
  destruct (negb _); [discriminate|]. destruct (wind_farm_info _) as [w|e]; cbn [bind]; [|discriminate]. destruct (zeros K) as [m|e]; cbn [bind]; [|discriminate].
  assert (L : forall s l, mapM (fun i => p <- label (w_power w) (Z.of_nat i) ;; if qle (w_higher w) p then r <- pidx (k_results K) i ;; Ok (f (rf r)) else Ok 0) s = Ok l ->
    exists l', mapM (fun i => p <- label (w_power w) (Z.of_nat i) ;; if qle (w_higher w) p then r <- pidx (k_results K') i ;; Ok (f (rf r)) else Ok 0) s = Ok l' /\ qsum l' <= qsum l).
  { induction s as [|i s IH]; intros l; cbn [mapM]; [intro Y; apply Ok_inj in Y; subst; exists []; split; [reflexivity|apply Qle_refl]|].
    destruct (label _ _) as [p|e]; cbn [bind]; [|discriminate]. destruct (qle (w_higher w) p).
    - unfold pidx at 1 3. destruct (nth_error (k_results K) i) as [rc|] eqn:E; cbn [bind]; [|discriminate].
      assert (E' : exists rc', nth_error (k_results K') i = Some rc' /\ paired rc rc').
      { clear - E H. assert (F := sb_hours _ _ H). revert i E. induction F as [|a b l l' X F IH]; intros [|i]; cbn [nth_error]; intro E; try discriminate; [injection E as <-; eauto|exact (IH i E)]. }
      destruct E' as (rc' & -> & Pr). cbn [bind]. destruct (mapM _ s) as [l1|e] eqn:M; cbn [bind]; [|discriminate]. destruct (IH l1 eq_refl) as (l2 & M2 & Le). rewrite M2. cbn [bind].
      intro Y. apply Ok_inj in Y. subst l. exists (f (rf rc') :: l2). split; [reflexivity|]. rewrite !qsum_cons. pose proof (Hf _ _ Pr). lra.
    - cbn [bind]. destruct (mapM _ s) as [l1|e] eqn:M; cbn [bind]; [|discriminate]. destruct (IH l1 eq_refl) as (l2 & M2 & Le). rewrite M2. cbn [bind].
      intro Y. apply Ok_inj in Y. subst l. exists (0 :: l2). split; [reflexivity|]. rewrite !qsum_cons. lra. }
  destruct (mapM _ (seq 0 m)) as [l|e] eqn:M; cbn [bind]; [|discriminate]. intro Y. apply Ok_inj in Y. subst x. destruct (L _ _ M) as (l' & -> & Le). exists (qsum l'). split; [reflexivity|exact Le].
Qed.
Lemma same_windy f : (forall rc rc', paired rc rc' -> f (rf rc) = f (rf rc')) -> windy_sum K f = windy_sum K' f.
Proof.
  intro Hf. unfold windy_sum. rewrite <- (sb_grid _ _ H), <- same_zeros. destruct (existsb _ plain_tariffs); [reflexivity|]. destruct (negb _); [reflexivity|].
  destruct (wind_farm_info _) as [w|e]; cbn [bind]; [|reflexivity]. destruct (zeros K) as [m|e]; cbn [bind]; [|reflexivity].
  f_equal. generalize (seq 0 m). induction l as [|i s IH]; [reflexivity|]. cbn [mapM]. destruct (label _ _) as [p|e]; cbn [bind]; [|reflexivity].
  assert (E : (if qle (w_higher w) p then r <- pidx (k_results K) i ;; Ok (f (rf r)) else Ok 0) = (if qle (w_higher w) p then r <- pidx (k_results K') i ;; Ok (f (rf r)) else Ok 0)).
  { destruct (qle (w_higher w) p); [|reflexivity]. unfold pidx. assert (F := sb_hours _ _ H). clear - F Hf. revert i. induction F as [|a b l l' X F IH]; intros [|i]; cbn [nth_error]; try reflexivity; [cbn [bind]; rewrite (Hf _ _ X); reflexivity|apply IH]. }
  rewrite E. rewrite IH. reflexivity.
Qed.
End SIDES.
