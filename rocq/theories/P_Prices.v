(** C102: with the fixed order, prices decide through the setpoint only. *)
From Verif Require Import Base BaseL M_Battery M_HeatPump M_Tools M_FixedOrder M_Tank S_FixedOrder S_Tank L_FixedOrder L_FixedOrderRun L_Tank P_FixedOrder S_Prices L_Prices P_SwitchOff.

Lemma hours_related P P' I I' t T soc : same_machines P P' -> same_weather P P' I I' -> relr (hour_step P I t T soc) (hour_step P' I' t T soc).
Proof.
  destruct P as [b h mr mo [fu ef ac de] tk ep sp oa ob mh], P' as [b' h' mr' mo' [fu' ef' ac' de'] tk' ep' sp' oa' ob' mh'].
  destruct I as [wi pv ed hd st fl ip pf], I' as [wi' pv' ed' hd' st' fl' ip' pf'].
  unfold same_machines, same_weather. cbn. intros (-> & -> & -> & -> & -> & -> & -> & -> & -> & -> & -> & A) (-> & -> & -> & -> & -> & -> & -> & S).
  apply rel_hour; assumption.
Qed.
(** One hour: if it completes at one set of prices it completes at the other, with the same energies, and if it stops it stops with the same error. *)
Theorem C102_hour : forall P P' I I' t T soc, same_machines P P' -> same_weather P P' I I' ->
  (forall rc, hour_step P I t T soc = Ok rc -> exists rc', hour_step P' I' t T soc = Ok rc' /\ same_energy rc rc') /\
  (forall e, hour_step P I t T soc = Err e -> hour_step P' I' t T soc = Err e).
Proof.
  intros P P' I I' t T soc M W. pose proof (hours_related P P' I I' t T soc M W) as K.
  destruct (hour_step P I t T soc) as [r|e], (hour_step P' I' t T soc) as [r'|e']; cbn [relr] in K; try contradiction.
  - split; [intros rc H; apply Ok_inj in H; subst; eauto|intros e H; discriminate H].
  - split; [intros rc H; discriminate H|intros e0 H; injection H as <-; subst; reflexivity].
Qed.
Print Assumptions C102_hour.
Lemma loops_related P P' year year' : same_machines P P' -> Forall2 (same_weather P P') year year' -> forall ts st,
  match run_loop P year ts st, run_loop P' year' ts st with
  | Ok l, Ok l' => Forall2 same_energy l l' | Err e, Err e' => e = e' | _, _ => False end.
Proof.
  intros M W. induction ts as [|t ts IH]; intro st; cbn [run_loop]; [constructor|].
  assert (L : match label year t, label year' t with Ok i, Ok i' => same_weather P P' i i' | Err e, Err e' => e = e' | _, _ => False end).
  { unfold label. destruct (t <? 0)%Z; [reflexivity|]. revert W. generalize (Z.to_nat t). clear. intros n W. revert n. induction W as [|x y l l' H W IH]; intros [|n]; cbn; auto. apply IH. }
  destruct (label year t) as [i|e], (label year' t) as [i'|e']; try contradiction; cbn [bind]; [|exact L].
  pose proof (hours_related P P' i i' t (fst st) (snd st) M L) as K.
  destruct (hour_step P i t (fst st) (snd st)) as [r|e], (hour_step P' i' t (fst st) (snd st)) as [r'|e']; cbn [relr] in K; try contradiction; cbn [bind]; [|exact K].
  destruct K as (K & Kn). rewrite <- Kn, <- (K ES_final_soc eq_refl). specialize (IH (r_nodes r, rf r ES_final_soc)).
  destruct (run_loop P year ts _) as [l|e], (run_loop P' year' ts _) as [l'|e']; try contradiction; cbn [bind]; [|exact IH]. constructor; [split; assumption|exact IH].
Qed.
Lemma years_map P P' year year' (f : hour_in -> Q) : (forall I I', same_weather P P' I I' -> f I = f I') -> Forall2 (same_weather P P') year year' -> map f year = map f year'.
Proof. intros H W. induction W; cbn; [reflexivity|]. f_equal; auto. Qed.
(** A whole run: the same hours, energies, charge levels and temperatures, or the same error. *)
Theorem C102_run : forall P P' year year' first n, same_machines P P' -> Forall2 (same_weather P P') year year' ->
  (forall l, run_timesteps P year first n = Ok l -> exists l', run_timesteps P' year' first n = Ok l' /\ Forall2 same_energy l l') /\
  (forall e, run_timesteps P year first n = Err e -> run_timesteps P' year' first n = Err e).
Proof.
  intros P P' year year' first n M W. unfold run_timesteps.
  rewrite (years_map P P' year year' (fun i => i_wind i + i_PV i)); [|intros I I' (-> & -> & _); reflexivity|exact W].
  rewrite (years_map P P' year year' i_elec_demand); [|intros I I' (_ & _ & -> & _); reflexivity|exact W].
  destruct (surplus_deficit_year _ _) as [s|e]; cbn [bind]; [|split; intros x H; [discriminate H|exact H]]. cbv zeta.
  destruct (8760 <? first + n)%Z; [split; intros x H; [discriminate H|exact H]|].
  assert (E : (t_init (p_tank P'), init_state (p_battery P')) = (t_init (p_tank P), init_state (p_battery P))) by (destruct M as (-> & _ & _ & _ & -> & _); reflexivity). rewrite E.
  pose proof (loops_related P P' year year' M W (zrange first (first + n)) (t_init (p_tank P), init_state (p_battery P))) as K.
  destruct (run_loop P year _ _) as [l|e], (run_loop P' year' _ _) as [l'|e']; try contradiction.
  - split; [intros x H; apply Ok_inj in H; subst; eauto|intros x H; discriminate H].
  - split; [intros x H; discriminate H|intros x H; subst; exact H].
Qed.
Print Assumptions C102_run.
(** So a run can be priced afresh from its own energies. *)
Theorem C102_repricing : forall P P' I I' t T soc rc rc', same_machines P P' -> same_weather P P' I I' ->
  hour_step P I t T soc = Ok rc -> hour_step P' I' t T soc = Ok rc' ->
  rf rc' GRID_cashflow == rf rc GRID_total_export * p_export_price P' / 1000 - rf rc GRID_total_import * i_import_price I' / 1000.
Proof.
  intros P P' I I' t T soc rc rc' M W H H'. pose proof (hours_related P P' I I' t T soc M W) as K. rewrite H, H' in K. destruct K as (K & _).
  destruct (C11_costs_and_cash_flow _ _ _ _ _ _ H') as (_ & C & E & F). rewrite F, E, C, (K GRID_total_export eq_refl), (K GRID_total_import eq_refl). reflexivity.
Qed.
Print Assumptions C102_repricing.
(** The side of the setpoint does matter. *)
Definition priced (export setpoint : Q) : plant :=
  let P := mild_plant 0 in
  {| p_battery := p_battery P; p_hp_capacity := 10; p_min_runtime := 0; p_min_output := 0; p_aux := p_aux P; p_tank := p_tank P;
     p_export_price := export; p_setpoint := setpoint; p_order_above := p_order_above P; p_order_below := p_order_below P; p_max_heat := 20 |}.
Definition breeze (price : Q) : hour_in :=
  {| i_wind := 5; i_PV := 0; i_elec_demand := 4; i_heat_demand := 5; i_source_temp := 60; i_flow_temp := 55; i_import_price := price; i_perf := {| cop := 3; duty := 10 |} |}.
Theorem C102_side_matters : exists P I I' rc rc', i_import_price I' == i_import_price I - 2 /\ I' = breeze (i_import_price I') /\ I = breeze (i_import_price I) /\
  hour_step P I 0 [40;40;40;40] 0 = Ok rc /\ hour_step P I' 0 [40;40;40;40] 0 = Ok rc' /\ ~ rf rc ES_charging_total == rf rc' ES_charging_total.
Proof.
  exists (priced 40 80), (breeze 81), (breeze 79).
  assert (K : match hour_step (priced 40 80) (breeze 81) 0 [40;40;40;40] 0, hour_step (priced 40 80) (breeze 79) 0 [40;40;40;40] 0 with
    Ok r, Ok r' => negb (qeq (rf r ES_charging_total) (rf r' ES_charging_total)) | _, _ => false end = true) by (vm_compute; reflexivity).
  destruct (hour_step (priced 40 80) (breeze 81) 0 _ 0) as [r|]; [|discriminate K]. destruct (hour_step (priced 40 80) (breeze 79) 0 _ 0) as [r'|]; [|discriminate K].
  exists r, r'. split; [reflexivity|]. split; [reflexivity|]. split; [reflexivity|]. split; [reflexivity|]. split; [reflexivity|].
  destruct (qeq_spec (rf r ES_charging_total) (rf r' ES_charging_total)); [discriminate K|assumption].
Qed.
Print Assumptions C102_side_matters.
(** Twice the tariff, three times the feed-in price and another setpoint: other money, same energies. *)
Example C102_case : same_machines (priced 40 80) (priced 120 150) /\ same_weather (priced 40 80) (priced 120 150) (breeze 100) (breeze 200) /\
  exists rc rc', hour_step (priced 40 80) (breeze 100) 0 [40;40;40;40] 0 = Ok rc /\ hour_step (priced 120 150) (breeze 200) 0 [40;40;40;40] 0 = Ok rc' /\
    ~ rf rc GRID_cashflow == rf rc' GRID_cashflow /\ 0 < rf rc GRID_total_import.
Proof.
  split; [repeat split; intro H; exact H|]. split; [repeat split; cbn; intros; lra|].
  assert (K : match hour_step (priced 40 80) (breeze 100) 0 [40;40;40;40] 0, hour_step (priced 120 150) (breeze 200) 0 [40;40;40;40] 0 with
    Ok r, Ok r' => negb (qeq (rf r GRID_cashflow) (rf r' GRID_cashflow)) && qlt 0 (rf r GRID_total_import) | _, _ => false end = true) by (vm_compute; reflexivity).
  destruct (hour_step (priced 40 80) (breeze 100) 0 _ 0) as [r|]; [|discriminate K]. destruct (hour_step (priced 120 150) (breeze 200) 0 _ 0) as [r'|]; [|discriminate K].
  apply andb_prop in K as (K & L). exists r, r'. split; [reflexivity|]. split; [reflexivity|]. split; [|exact (qlt_true _ _ L)].
  destruct (qeq_spec (rf r GRID_cashflow) (rf r' GRID_cashflow)); [discriminate K|assumption].
Qed.
