(** Lemmas on the predictive controller: balances of a record. *)
From Verif Require Import Base BaseL M_Battery S_Battery M_HeatPump S_HeatPump M_Tools M_FixedOrder S_FixedOrder
  L_Grid M_Mpc S_Mpc L_Mpc.

Section Record.
Variables (X : mpc) (year : list hour_in).
Notation P := (m_plant X).

(** Every field of a record, in terms of the optimiser's answer. *)
Lemma record_fields I p v c d n r :
  mpc_aux_accounts X (flows X (is_electric P) I p v c d) = Ok r ->
  let rc := {| rf := mpc_grid_accounts X I p r; r_nodes := n |} in
  let f := rf rc in
  let co := cop (i_perf I) in
  let eff := b_discharge_eff (p_battery P) in
  f ED_elec_demand = i_elec_demand I /\ f ED_RES = v_RES_ed v /\ f ED_import = v_imp_ed v /\
  f ED_ES = v_ESd_ed v * eff /\
  f RES_generation_total = i_wind I + i_PV I /\ f RES_elec_demand = v_RES_ed v /\
  f RES_HP = (v_HPtrd v + v_HPtrs v) / co /\
  f RES_aux = (if is_electric P then v_aux_rd v + v_aux_rs v else 0) /\
  f RES_export = v_export v /\ f RES_ES = 0 /\
  f HP_cop = co /\ f HP_duty = duty (i_perf I) /\ f HP_heat_total_output = v_HPt v /\
  f HP_heat_from_ES_to_demand = v_HPtesd v /\
  f HP_elec_total_usage = v_HPt v / co /\
  f HP_elec_RES_usage = f RES_HP /\ f HP_elec_from_ES_to_demand = v_HPtesd v / co /\
  f HP_elec_import_usage = v_HPt v / co - (v_HPtrd v + v_HPtrs v) / co - v_HPtesd v / co /\
  f HD_TS = d /\ f HD_heat_demand = i_heat_demand I /\
  f HD_HP = pmin (v_HPt v) (q_heat p) /\ f HD_aux = v_aux v /\
  f TS_charging_total = c /\ f TS_discharging_total = d /\
  f ES_charging_from_RES = v_ESc_res v /\ f ES_charging_from_import = v_ESc_imp v /\
  f ES_charging_total = v_ESc_res v + v_ESc_imp v /\
  f ES_discharging_to_demand = v_ESd_ed v * eff /\ f ES_discharging_to_HP = v_ESd_hp v /\
  f ES_discharging_to_aux = v_ESd_aux v /\ f ES_final_soc = v_soc_ES v /\
  f AUX_demand = v_aux v /\
  f GRID_import_for_elec_demand = v_imp_ed v /\ f GRID_import_for_heat_pump_total = f HP_elec_import_usage /\
  f GRID_import_for_ES = v_ESc_imp v /\ f GRID_total_export = v_export v /\
  f GRID_total_import = (if is_electric P then f ED_import + f HP_elec_import_usage + f ES_charging_from_import + f AUX_demand - f RES_aux
                         else f ED_import + f HP_elec_import_usage + f ES_charging_from_import) /\
  f GRID_import_price = q_price p /\
  f GRID_import_costs = f GRID_total_import * f GRID_import_price / 1000 /\
  f GRID_export_income = f GRID_total_export * p_export_price P / 1000 /\
  f GRID_cashflow = f GRID_export_income - f GRID_import_costs.
Proof.
  intro H. cbv zeta. cbn [rf].
  assert (K : forall k x, k <> AUX_usage -> k <> AUX_cost -> k <> AUX_mass ->
    flows X (is_electric P) I p v c d k = x -> r k = x).
  { intros k x H1 H2 H3 Hk. rewrite (mpc_aux_frame X _ _ _ H H1 H2 H3). exact Hk. }
  clear H.
  assert (HRES : r RES_HP = (v_HPtrd v + v_HPtrs v) / cop (i_perf I)).
  { refine (K _ _ _ _ _ _); [discriminate|discriminate|discriminate|]. generalize (is_electric P).
    intros []; reflexivity. }
  repeat match goal with |- _ /\ _ => split end;
    try reflexivity;
    try (refine (K _ _ _ _ _ _); [discriminate|discriminate|discriminate|]; generalize (is_electric P);
         intros []; reflexivity).
  - transitivity (r RES_HP); [|reflexivity].
    refine (K _ _ _ _ _ _); [discriminate|discriminate|discriminate|]. rewrite HRES. generalize (is_electric P).
    intros []; reflexivity.
Qed.

Lemma optimised_inv dyn opt mc hour first fh pv v rc :
  optimised dyn X opt year mc hour first fh pv v rc ->
  exists b I c d s n r cap,
    make_problem X year mc hour first fh pv = Ok b /\
    label year (hour + 1)%Z = Ok I /\
    constraints b (phour_of X I) cap v /\ b_electric b = is_electric P /\ b_battery b = p_battery P /\
    net_tank X year (pr_nodes pv) v = Ok (c, d, s) /\
    final_nodes X year hour (pr_nodes pv) (c, d, s) = Ok (Some n) /\
    mpc_aux_accounts X (flows X (is_electric P) I (phour_of X I) v c d) = Ok r /\
    rc = {| rf := mpc_grid_accounts X I (phour_of X I) r; r_nodes := n |}.
Proof.
  intros (b & vs & nx & HB & HV & [HL [_ HF]] & H1 & HS).
  destruct (solve_inv _ _ _ _ _ _ _ _ _ _ HS) as (b' & vs' & v' & c & d & s & I & p & n & r & HB' & HV' & H1' & HN & HFN & HI & Hp & -> & HA & -> & ->).
  assert (b' = b) by congruence. subst b'. assert (vs' = vs) by congruence. subst vs'.
  assert (v' = v) by congruence. subst v'.
  destruct (HF O v H1) as (p & cap & Hp1 & _ & HC).
  assert (p = phour_of X I) by congruence. subst p.
  destruct (make_problem_inv _ _ _ _ _ _ _ _ HB) as (_ & _ & _ & _ & _ & Hbat & Hel & _).
  exists b, I, c, d, s, n, r, cap. repeat split; assumption || reflexivity || apply HC.
Qed.

Lemma round2_mono x y : x <= y -> round2 x <= round2 y.
Proof.
  intro H. unfold round2, pround. unfold Qdiv. apply Qmult_le_compat_r; [|discriminate].
  rewrite <- Zle_Qle. apply round_half_even_mono. apply Qmult_le_compat_r; [exact H|discriminate].
Qed.

Lemma net_tank_cases n v c d s : net_tank X year n v = Ok (c, d, s) ->
  let T := p_tank P in
  (c = v_TSc v /\ d = v_TSd v /\ s = Standby /\
   - (1 # 200) <= v_TSc v - v_TSd v /\ v_TSc v - v_TSd v <= 1 # 200) \/
  (v_TSd v < v_TSc v /\ d = 0 /\ s = (if qeq c 0 then Standby else Charging) /\
   exists I1 m, label year 1 = Ok I1 /\ t_max T Charging n (i_source_temp I1) (i_flow_temp I1) 1 = Ok m /\
     c = pmin m (round2 (v_TSc v - v_TSd v))) \/
  (v_TSc v < v_TSd v /\ c = 0 /\ s = (if qeq d 0 then Standby else Discharging) /\
   exists I1 m, label year 1 = Ok I1 /\ t_max T Discharging n (i_source_temp I1) (i_flow_temp I1) 1 = Ok m /\
     d = pmin m (round2 (v_TSd v - v_TSc v))).
Proof.
  cbv zeta. unfold net_tank.
  assert (Hs : forall x y z x' y' z', @Ok (Q * Q * tank_state) (x, y, z) = Ok (x', y', z') -> x = x' /\ y = y' /\ z = z')
    by (intros; split; [|split]; congruence).
  destruct (qlt_spec (round2 (v_TSd v - v_TSc v)) (round2 (v_TSc v - v_TSd v))) as [H|H].
  - destruct (label year 1) as [I1|e] eqn:EI; cbn [bind]; [|discriminate].
    destruct (t_max _ _ _ _ _ _) as [m|e] eqn:EM; cbn [bind]; [|discriminate].
    intro E. apply Hs in E. destruct E as (<- & <- & <-). right. left. split.
    + apply Qnot_le_lt. intro Hle.
      assert (round2 (v_TSc v - v_TSd v) <= round2 (v_TSd v - v_TSc v)) by (apply round2_mono; lra). lra.
    + split; [reflexivity|]. split; [reflexivity|]. exists I1, m. auto.
  - destruct (qlt_spec (round2 (v_TSc v - v_TSd v)) (round2 (v_TSd v - v_TSc v))) as [H'|H'].
    + destruct (label year 1) as [I1|e] eqn:EI; cbn [bind]; [|discriminate].
      destruct (t_max _ _ _ _ _ _) as [m|e] eqn:EM; cbn [bind]; [|discriminate].
      intro E. apply Hs in E. destruct E as (<- & <- & <-). right. right. split.
      * apply Qnot_le_lt. intro Hle.
        assert (round2 (v_TSd v - v_TSc v) <= round2 (v_TSc v - v_TSd v)) by (apply round2_mono; lra). lra.
      * split; [reflexivity|]. split; [reflexivity|]. exists I1, m. auto.
    + intro E. apply Hs in E. destruct E as (<- & <- & <-). left.
      split; [reflexivity|]. split; [reflexivity|]. split; [reflexivity|].
      pose proof (round2_bounds (v_TSc v - v_TSd v)). pose proof (round2_bounds (v_TSd v - v_TSc v)).
      split; lra.
Qed.

Ltac fields_of HA :=
  let F := fresh "F" in
  pose proof (record_fields _ _ _ _ _ _ _ HA) as F; cbv zeta in F; cbn [rf] in F;
  repeat match type of F with _ /\ _ => let F1 := fresh "F" in destruct F as [F1 F] end.

Lemma cop_phour I : q_cop (phour_of X I) = cop (i_perf I). Proof. reflexivity. Qed.

Lemma signs_inv v : signs v ->
  0 <= v_RES_ed v /\ 0 <= v_export v /\ 0 <= v_imp_ed v /\ 0 <= v_HPtrd v /\ 0 <= v_HPtrs v /\ 0 <= v_HPtid v /\
  0 <= v_HPtis v /\ 0 <= v_HPtesd v /\ 0 <= v_HP_status v /\ 0 <= v_HPt_var v /\ 0 <= v_TSc v /\ 0 <= v_TSd v /\
  0 <= v_ESc_res v /\ 0 <= v_ESc_imp v /\ 0 <= v_ESd_ed v /\ 0 <= v_ESd_hp v /\ 0 <= v_ESd_aux v /\ 0 <= v_soc_ES v /\
  0 <= v_aux_rd v /\ 0 <= v_aux_rs v /\ 0 <= v_aux_d v /\ 0 <= v_aux_s v /\ 0 <= v_aux v /\ v_HP_status v <= 1.
Proof.
  intros [H H1]. repeat match type of H with Forall _ (_ :: _) => apply Forall_cons_iff in H; let H' := fresh in destruct H as [H' H] end.
  repeat split; assumption.
Qed.

Section Optimised.
Variables (dyn : list (Q * Q * Q * Q * Q * Q) -> Prop) (opt : optimiser) (mc : list Q) (hour first fh : Z) (pv : prev)
  (v : point) (rc : record) (I : hour_in).
Hypothesis HO : optimised dyn X opt year mc hour first fh pv v rc.
Hypothesis HI : label year (hour + 1)%Z = Ok I.
Let f := rf rc.

Lemma elec_balance :
  f ED_elec_demand == i_elec_demand I /\ f ED_RES + f ED_import + f ED_ES == f ED_elec_demand /\
  0 <= f ED_RES /\ 0 <= f ED_import /\ (0 <= b_discharge_eff (p_battery P) -> 0 <= f ED_ES).
Proof.
  destruct (optimised_inv _ _ _ _ _ _ _ _ _ HO) as (b & I' & c & d & s & n & r & cap & HB & HI' & [HS [HE HL]] & Hel & Hbat & HN & HFN & HA & ->).
  assert (I' = I) by congruence. subst I'. unfold f. clear f.
  pose proof (record_fields I (phour_of X I) v c d n r HA) as F. cbv zeta in F. cbn [rf] in F |- *.
  destruct F as (F1 & F2 & F3 & F4 & _). rewrite F1, F2, F3, F4.
  apply signs_inv in HS. split; [reflexivity|]. split; [|split; [tauto|split; [tauto|]]].
  - rewrite Hbat in HE. destruct (b_electric b); cbn beta iota delta [electric_equations fuel_equations] in HE.
    + destruct HE as (_ & _ & H & _). cbn in H. rewrite H. reflexivity.
    + destruct HE as (_ & _ & H & _). cbn in H. rewrite H. reflexivity.
  - intro He. apply Qmult_le_0_compat; tauto.
Qed.

Lemma renewable_balance :
  f RES_generation_total == i_wind I + i_PV I /\
  f RES_elec_demand + f RES_HP + f RES_aux + f ES_charging_from_RES + f RES_export == f RES_generation_total.
Proof.
  destruct (optimised_inv _ _ _ _ _ _ _ _ _ HO) as (b & I' & c & d & s & n & r & cap & HB & HI' & [HS [HE HL]] & Hel & Hbat & HN & HFN & HA & ->).
  assert (I' = I) by congruence. subst I'. unfold f. clear f.
  pose proof (record_fields I (phour_of X I) v c d n r HA) as F. cbv zeta in F. cbn [rf] in F |- *.
  destruct F as (_ & _ & _ & _ & F5 & F6 & F7 & F8 & F9 & _ & _ & _ & _ & _ & _ & _ & _ & _ & _ & _ & _ & _ & _ & _ & F25 & _).
  rewrite F5, F6, F7, F8, F9, F25. split; [reflexivity|].
  rewrite Hel in HE. destruct (is_electric P).
  - destruct HE as (_ & _ & _ & _ & _ & _ & _ & _ & H). cbn [phour_of q_RES q_cop] in H. rewrite H.
    unfold Qdiv. ring.
  - destruct HE as (_ & _ & _ & _ & _ & _ & _ & H). cbn [phour_of q_RES q_cop] in H. rewrite H.
    unfold Qdiv. ring.
Qed.

Lemma heat_pump_balance :
  0 < cop (i_perf I) ->
  f HP_elec_RES_usage + f HP_elec_from_ES_to_demand + f HP_elec_import_usage == f HP_elec_total_usage /\
  f HP_heat_total_output == f HP_elec_total_usage * f HP_cop /\
  0 <= f HP_heat_total_output /\ f HP_heat_total_output <= f HP_duty /\ f HP_duty == duty (i_perf I) /\
  (electric_backup X -> 0 <= f HP_elec_import_usage) /\
  (~ electric_backup X -> f HP_heat_from_ES_to_demand == 0 -> 0 <= f HP_elec_import_usage).
Proof.
  intro Hc.
  destruct (optimised_inv _ _ _ _ _ _ _ _ _ HO) as (b & I' & c & d & s & n & r & cap & HB & HI' & [HS [HE HL]] & Hel & Hbat & HN & HFN & HA & ->).
  assert (I' = I) by congruence. subst I'. unfold f. clear f.
  pose proof (record_fields I (phour_of X I) v c d n r HA) as F. cbv zeta in F. cbn [rf] in F |- *.
  destruct F as (_ & _ & _ & _ & _ & _ & F7 & _ & _ & _ & F11 & F12 & F13 & F14 & F15 & F16 & F17 & F18 & _).
  rewrite F16, F7, F11, F12, F13, F14, F15, F17, F18.
  assert (Hsg := HS). apply signs_inv in HS. destruct HS as (S1 & S2 & S3 & S4 & S5 & S6 & S7 & S8 & S9 & S10 & S11 & S12 & S13 & S14 & S15 & S16 & S17 & S18 & S19 & S20 & S21 & S22 & S23 & S24).
  split; [unfold Qdiv; ring|]. split; [field; lra|].
  assert (Hge : 0 <= v_HPt v) by (unfold v_HPt; apply Qmult_le_0_compat; assumption).
  split; [exact Hge|]. split.
  { destruct HL as (L1 & _). cbn [phour_of q_duty] in L1. unfold v_HPt. apply Qle_trans with (v_HPt_var v); [|exact L1].
    assert (v_HP_status v * v_HPt_var v <= 1 * v_HPt_var v) by (apply Qmult_le_compat_r; assumption). lra. }
  split; [reflexivity|].
  assert (Hi : forall x y, v_HPt v == v_HPtrd v + v_HPtrs v + v_HPtesd v + x + y -> 0 <= x -> 0 <= y ->
    0 <= v_HPt v / cop (i_perf I) - (v_HPtrd v + v_HPtrs v) / cop (i_perf I) - v_HPtesd v / cop (i_perf I)).
  { intros x y Hx Hx0 Hy0. setoid_replace (v_HPt v / cop (i_perf I) - (v_HPtrd v + v_HPtrs v) / cop (i_perf I) - v_HPtesd v / cop (i_perf I))
      with ((x + y) / cop (i_perf I)) by (rewrite Hx; field; lra).
    apply Qle_shift_div_l; [exact Hc|]. lra. }
  assert (Hee : electric_backup X <-> is_electric P = true).
  { unfold electric_backup, is_electric. destruct (a_fuel (p_aux P)); cbn; split; congruence. }
  rewrite Hel in HE. split.
  - intro He. apply Hee in He. rewrite He in HE. destruct HE as (_ & _ & _ & _ & _ & H & _).
    apply (Hi (v_HPtid v) (v_HPtis v)); try assumption. unfold v_HPt. rewrite H. ring.
  - intros He H0. destruct (is_electric P) eqn:E; [tauto|]. destruct HE as (_ & _ & _ & _ & H & _).
    apply (Hi (v_HPtid v) (v_HPtis v)); try assumption. unfold v_HPt. rewrite H, H0. ring.
Qed.

Lemma import_account :
  f GRID_total_export == f RES_export /\
  f GRID_import_price == i_import_price I /\
  f GRID_import_costs == f GRID_total_import * i_import_price I / 1000 /\
  f GRID_export_income == f GRID_total_export * p_export_price P / 1000 /\
  f GRID_cashflow == f GRID_export_income - f GRID_import_costs /\
  f GRID_total_import == f ED_import + f HP_elec_import_usage + f ES_charging_from_import +
    (if is_electric P then (f AUX_demand - f RES_aux - f ES_discharging_to_aux) + f ES_discharging_to_aux else 0).
Proof.
  destruct (optimised_inv _ _ _ _ _ _ _ _ _ HO) as (b & I' & c & d & s & n & r & cap & HB & HI' & [HS [HE HL]] & Hel & Hbat & HN & HFN & HA & ->).
  assert (I' = I) by congruence. subst I'. unfold f. clear f.
  pose proof (record_fields I (phour_of X I) v c d n r HA) as F. cbv zeta in F. cbn [rf] in F |- *.
  repeat match type of F with _ /\ _ => let F1 := fresh "F" in destruct F as [F1 F] end.
  rewrite F, F39, F38, F37, F36, F35, F8. cbn [phour_of q_price].
  split; [reflexivity|]. split; [reflexivity|]. split; [reflexivity|]. split; [reflexivity|].
  split; [reflexivity|]. destruct (is_electric P); ring.
Qed.

Lemma tank_account : exists c d s,
  net_tank X year (pr_nodes pv) v = Ok (c, d, s) /\
  f TS_charging_total = c /\ f TS_discharging_total = d /\ f HD_TS = d /\
  final_nodes X year hour (pr_nodes pv) (c, d, s) = Ok (Some (r_nodes rc)).
Proof.
  destruct (optimised_inv _ _ _ _ _ _ _ _ _ HO) as (b & I' & c & d & s & n & r & cap & HB & HI' & [HS [HE HL]] & Hel & Hbat & HN & HFN & HA & ->).
  assert (I' = I) by congruence. subst I'. unfold f. clear f.
  pose proof (record_fields I (phour_of X I) v c d n r HA) as F. cbv zeta in F. cbn [rf] in F |- *.
  repeat match type of F with _ /\ _ => let F1 := fresh "F" in destruct F as [F1 F] end.
  exists c, d, s. cbn [r_nodes]. auto 10.
Qed.

Lemma optimised_signs : signs v.
Proof.
  destruct (optimised_inv _ _ _ _ _ _ _ _ _ HO) as (b & I' & c & d & s & n & r & cap & HB & HI' & [HS [HE HL]] & _).
  exact HS.
Qed.

Lemma pmin_nonneg a b : 0 <= a -> 0 <= b -> 0 <= pmin a b.
Proof. unfold pmin. destruct (qlt b a); auto. Qed.

Lemma tank_not_both :
  tank_reports_nonneg X ->
  0 <= f TS_charging_total /\ 0 <= f TS_discharging_total /\
  ((1 # 200) < v_TSc v - v_TSd v -> f TS_discharging_total == 0 /\ f TS_charging_total <= v_TSc v - v_TSd v + (1 # 200)) /\
  (v_TSc v - v_TSd v < - (1 # 200) -> f TS_charging_total == 0 /\ f TS_discharging_total <= v_TSd v - v_TSc v + (1 # 200)) /\
  (0 < f TS_charging_total -> 0 < f TS_discharging_total ->
     f TS_charging_total == v_TSc v /\ f TS_discharging_total == v_TSd v /\
     - (1 # 200) <= f TS_charging_total - f TS_discharging_total /\
     f TS_charging_total - f TS_discharging_total <= 1 # 200).
Proof.
  intro HT. destruct tank_account as (c & d & s & HN & -> & -> & _ & _).
  pose proof optimised_signs as HS. apply signs_inv in HS.
  destruct HS as (_ & _ & _ & _ & _ & _ & _ & _ & _ & _ & S11 & S12 & _).
  destruct (net_tank_cases _ _ _ _ _ HN) as [H|[H|H]].
  - destruct H as (-> & -> & _ & H1 & H2). split; [exact S11|]. split; [exact S12|].
    split; [intro; exfalso; lra|]. split; [intro; exfalso; lra|]. intros _ _.
    split; [reflexivity|]. split; [reflexivity|]. split; assumption.
  - destruct H as (H0 & -> & _ & I1 & m & _ & Hm & ->).
    assert (0 <= round2 (v_TSc v - v_TSd v)) by (apply pround_nonneg; lra).
    assert (0 <= m) by (eapply HT; exact Hm).
    split; [apply pmin_nonneg; assumption|]. split; [apply Qle_refl|].
    split; [|split; [intro; exfalso; lra|intros _ Hc; exfalso; lra]].
    intros _. split; [reflexivity|].
    pose proof (round2_bounds (v_TSc v - v_TSd v)). unfold pmin. destruct (qlt_spec (round2 (v_TSc v - v_TSd v)) m); lra.
  - destruct H as (H0 & -> & _ & I1 & m & _ & Hm & ->).
    assert (0 <= round2 (v_TSd v - v_TSc v)) by (apply pround_nonneg; lra).
    assert (0 <= m) by (eapply HT; exact Hm).
    split; [apply Qle_refl|]. split; [apply pmin_nonneg; assumption|].
    split; [intro; exfalso; lra|]. split; [|intros Hc; exfalso; lra].
    intros _. split; [reflexivity|].
    pose proof (round2_bounds (v_TSd v - v_TSc v)). unfold pmin. destruct (qlt_spec (round2 (v_TSd v - v_TSc v)) m); lra.
Qed.

Lemma heat_covered :
  b_discharge_eff (p_battery P) <= 1 ->
  v_TSd v - v_TSc v - (1 # 200) <= f TS_discharging_total ->
  f HD_heat_demand == i_heat_demand I /\
  i_heat_demand I - (1 # 200) <= f HD_HP + f HD_TS + f HD_aux /\ f HD_HP <= i_heat_demand I.
Proof.
  intros He Hd. destruct tank_account as (c' & d' & s' & HN' & _ & Ed & EHT & _). rewrite EHT. rewrite Ed in Hd. clear Ed EHT.
  destruct (optimised_inv _ _ _ _ _ _ _ _ _ HO) as (b & I' & c & d & s & n & r & cap & HB & HI' & [HS [HE HL]] & Hel & Hbat & HN & HFN & HA & ->).
  assert (I' = I) by congruence. subst I'. unfold f in *. clear f.
  pose proof (record_fields I (phour_of X I) v c d n r HA) as F. cbv zeta in F. cbn [rf] in F |- *.
  repeat match type of F with _ /\ _ => let F1 := fresh "F" in destruct F as [F1 F] end.
  rewrite F19, F20, F21. cbn [phour_of q_heat]. split; [reflexivity|].
  apply signs_inv in HS. destruct HS as (S1 & S2 & S3 & S4 & S5 & S6 & S7 & S8 & S9 & S10 & S11 & S12 & S13 & S14 & S15 & S16 & S17 & S18 & S19 & S20 & S21 & S22 & S23 & S24).
  assert (Hsum : i_heat_demand I <= v_HPt v + v_aux v + v_TSd v - v_TSc v).
  { rewrite Hel in HE. unfold v_HPt. destruct (is_electric P).
    - destruct HE as (_ & _ & _ & H4 & _ & H6 & H7 & H8 & _). cbn [phour_of q_heat] in H4. rewrite Hbat in H4.
      assert (v_ESd_aux v * b_discharge_eff (p_battery P) <= v_ESd_aux v * 1) by (rewrite !(Qmult_comm (v_ESd_aux v)); apply Qmult_le_compat_r; assumption).
      rewrite H4, H6, H7, H8.
      generalize dependent (v_ESd_aux v * b_discharge_eff (p_battery P)). intros q _ Hq. lra.
    - destruct HE as (_ & _ & _ & H4 & H5 & H6 & H7 & _). cbn [phour_of q_heat] in H4. rewrite H4, H5, H6, H7. lra. }
  unfold pmin.
  assert (d = d') by congruence. subst d'.
  assert (Hdge : 0 <= d \/ d < 0) by (destruct (Qlt_le_dec d 0); auto).
  split; [|destruct (qlt_spec (i_heat_demand I) (v_HPt v)); lra].
  destruct (qlt_spec (i_heat_demand I) (v_HPt v)); [|lra].
  destruct Hdge; [lra|].
  destruct (net_tank_cases _ _ _ _ _ HN) as [HC|[HC|HC]].
  - destruct HC as (-> & -> & _). lra.
  - destruct HC as (_ & -> & _). lra.
  - destruct HC as (HC0 & -> & _). lra.
Qed.
End Optimised.
End Record.

Lemma solve_describes X opt year mc hour first fh pv rc nx : solve X opt year mc hour first fh pv = Ok (rc, nx) ->
  exists I, label year (hour + 1)%Z = Ok I /\ describes I (rf rc).
Proof.
  intro H. destruct (solve_inv _ _ _ _ _ _ _ _ _ _ H) as (b & vs & v & c & d & s & I & p & n & r & _ & _ & _ & _ & _ & HI & _ & -> & HA & -> & _).
  exists I. split; [exact HI|].
  pose proof (record_fields X I (phour_of X I) v c d n r HA) as F. cbv zeta in F. cbn [rf] in F |- *.
  repeat match type of F with _ /\ _ => let F1 := fresh "F" in destruct F as [F1 F] end.
  unfold describes. rewrite F0, F4, F10, F11, F19, F37.
  assert (G1 : mpc_grid_accounts X I (phour_of X I) r RES_wind = i_wind I).
  { transitivity (r RES_wind); [reflexivity|]. rewrite (mpc_aux_frame X _ _ RES_wind HA) by discriminate.
    generalize (is_electric (m_plant X)). intros []; reflexivity. }
  assert (G2 : mpc_grid_accounts X I (phour_of X I) r RES_PV = i_PV I).
  { transitivity (r RES_PV); [reflexivity|]. rewrite (mpc_aux_frame X _ _ RES_PV HA) by discriminate.
    generalize (is_electric (m_plant X)). intros []; reflexivity. }
  rewrite G1, G2. cbn [phour_of q_price].
  set (bal := surplus_deficit_hour (i_wind I + i_PV I) (i_elec_demand I)).
  assert (B1 : mpc_grid_accounts X I (phour_of X I) r GRID_match = bal_match bal) by reflexivity.
  assert (B2 : mpc_grid_accounts X I (phour_of X I) r GRID_surplus = bal_surplus bal) by reflexivity.
  assert (B3 : mpc_grid_accounts X I (phour_of X I) r GRID_deficit = bal_deficit bal) by reflexivity.
  rewrite B1, B2, B3. unfold bal, surplus_deficit_hour.
  destruct (qle_spec (i_wind I + i_PV I - i_elec_demand I) 0); cbn [bal_match bal_surplus bal_deficit];
    repeat match goal with |- _ /\ _ => split end; reflexivity || ring.
Qed.

Lemma solve_aux_cost X opt year mc hour first fh pv rc nx : solve X opt year mc hour first fh pv = Ok (rc, nx) ->
  (electric_backup X -> rf rc AUX_cost == 0) /\
  (~ electric_backup X -> exists c, a_cost (p_aux (m_plant X)) = Some c /\ rf rc AUX_cost == c * (1 # 1000) * rf rc AUX_demand) /\
  rf rc AUX_usage * a_efficiency (p_aux (m_plant X)) == rf rc AUX_demand.
Proof.
  intro H. destruct (solve_inv _ _ _ _ _ _ _ _ _ _ H) as (b & vs & v & c & d & s & I & p & n & r & _ & _ & _ & _ & _ & HI & _ & -> & HA & -> & _).
  cbn [rf].
  assert (E1 : mpc_grid_accounts X I (phour_of X I) r AUX_cost = r AUX_cost) by reflexivity.
  assert (E2 : mpc_grid_accounts X I (phour_of X I) r AUX_demand = r AUX_demand) by reflexivity.
  assert (E3 : mpc_grid_accounts X I (phour_of X I) r AUX_usage = r AUX_usage) by reflexivity.
  rewrite E1, E2, E3. clear E1 E2 E3.
  assert (D : r AUX_demand = v_aux v).
  { rewrite (mpc_aux_frame X _ _ AUX_demand HA) by discriminate. reflexivity. }
  rewrite D.
  set (r0 := flows X (is_electric (m_plant X)) I (phour_of X I) v c d) in HA.
  assert (D0 : r0 AUX_demand = v_aux v) by reflexivity.
  assert (G0 : r0 GRID_import_price = 0).
  { unfold r0. generalize (is_electric (m_plant X)). intros []; reflexivity. }
  clearbody r0. unfold mpc_aux_accounts in HA.
  unfold fuel_usage in HA. destruct (qeq_spec (a_efficiency (p_aux (m_plant X))) 0) as [Hz|Hz]; cbn [bind] in HA; [discriminate|].
  assert (Hs : forall A (x y : A), Ok x = Ok y -> x = y) by congruence.
  assert (Hel : electric_backup X <-> is_electric (m_plant X) = true).
  { unfold electric_backup, is_electric. destruct (a_fuel (p_aux (m_plant X))); cbn; split; congruence. }
  destruct (is_electric (m_plant X)) eqn:E; cbn [bind] in HA.
  - apply Hs in HA. subst r. split; [|split].
    + intros _. transitivity (r0 GRID_import_price / 1000 * r0 AUX_demand); [reflexivity|]. rewrite G0. unfold Qdiv. ring.
    + intro C. exfalso. apply C. apply Hel. reflexivity.
    + transitivity (r0 AUX_demand / a_efficiency (p_aux (m_plant X)) * a_efficiency (p_aux (m_plant X))); [reflexivity|].
      rewrite D0. field. exact Hz.
  - destruct (a_cost (p_aux (m_plant X))) as [co|] eqn:Ec; cbn [bind] in HA; [|discriminate].
    destruct (a_energy_density (p_aux (m_plant X))) as [de|] eqn:Ede; cbn [bind] in HA; [|discriminate].
    apply Hs in HA. subst r. split; [|split].
    + intro C. apply Hel in C. discriminate.
    + intros _. exists co. split; [reflexivity|]. transitivity (co / 1000 * r0 AUX_demand); [reflexivity|]. rewrite D0. field.
    + transitivity (r0 AUX_demand / a_efficiency (p_aux (m_plant X)) * a_efficiency (p_aux (m_plant X))); [reflexivity|].
      rewrite D0. field. exact Hz.
Qed.
