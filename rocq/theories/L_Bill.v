(** Lemmas: what a bigger battery changes in the accounts of an hour. *)
From Verif Require Import Base BaseL M_Battery S_Battery L_Battery M_HeatPump M_Tools L_Tools M_FixedOrder S_FixedOrder S_Sizing L_FixedOrder L_FixedOrderSign L_FixedOrderHour L_FixedOrderProps L_Tank L_Sizing P_FixedOrder.

Lemma order_unique P I ps ps' : processes_of P I ps -> processes_of P I ps' -> ps = ps'.
Proof. unfold processes_of. intros [(A & E)|(A & E)] [(B & F)|(B & F)]; try contradiction; rewrite E in F; apply Ok_inj in F; exact F. Qed.
(** What an hour shows of the loop *)
Record opened (P : plant) (I : hour_in) (t : Z) (T : nodes) (soc : Q) (rc : record) (ps : list process) (c : checks) (r : fields) : Prop := {
  op_run : foldM (run_process P I t T) ps (init_checks P I soc, start_fields P I) = Ok (c, r);
  op_acc : Acc (init_checks P I soc) (start_fields P I) (rev ps) c r;
  op_sgn : Sgn P I t T (rev ps) c;
  op_nn : forall k, In k (flat_map writes all_processes) -> 0 <= r k;
  op_done : done_zero (rev ps) c;
  op_ed : rf rc ED_ES = r ED_ES /\ rf rc ED_import = r ED_import /\ rf rc RES_ES = r RES_ES /\ rf rc GRID_total_export = r GRID_total_export;
  op_lev : rf rc ES_final_soc = new_soc (p_battery P) (r ES_charging_from_RES + r ES_charging_from_import - (r ES_discharging_to_demand + r ES_discharging_to_HP)) soc;
  op_imp : rf rc GRID_total_import = (let base := r GRID_import_for_elec_demand + (r GRID_import_for_heat_pump_to_heat_demand + r GRID_import_for_heat_pump_to_TS) + r GRID_import_for_ES in
             if is_electric P then base + total_aux r - r AUX_RES_to_demand - r AUX_RES_to_TS else base) }.
Lemma hour_opened P I t T soc rc : good_hour P I soc -> hour_step P I t T soc = Ok rc -> exists ps c r, processes_of P I ps /\ opened P I t T soc rc ps c r.
Proof.
  intros G H. destruct (hour_open P I t T soc rc G H) as (ps & c & r & u & pr & de & rc0 & rc1 & Hps & Ho & Hf & A & S0 & W & Z & Hu & Hpr & Hrf & Hun & Hco & ->).
  exists ps, c, r. split; [exact Hps|]. constructor; try assumption.
  - intros k K. apply in_flat_map in K as (p & _ & K). exact (W p k K).
  - repeat match goal with |- _ /\ _ => split end; (rewrite (settled_corrected P I t T c rc0 rc1 _ Hco) by (unfold settled; cbn; tauto)); (rewrite Hrf, finish_written by (cbn; tauto)); reflexivity.
  - rewrite (settled_corrected P I t T c rc0 rc1 _ Hco) by (unfold settled; cbn; tauto). rewrite Hrf. unfold finish_fields. destruct (hi P I); reflexivity.
  - rewrite (settled_corrected P I t T c rc0 rc1 _ Hco) by (unfold settled; cbn; tauto). rewrite Hrf. unfold finish_fields. destruct (hi P I); unfold above_rec, below_rec;
    cbn [grid_totals es_totals upd field_eqb field_id Pos.eqb]; destruct (is_electric P); reflexivity.
Qed.

Lemma sure_level b d soc : battery_ok b -> level_ok b soc -> 0 <= d <= soc -> b_self_discharge b == 0 -> new_soc b (0 - d) soc == soc - Qmin (d * b_discharge_eff b) (b_discharge_max b).
Proof.
  intros B L D K. rewrite (level_discharged b d soc B L (proj1 D)). destruct B as (B1 & B2 & B3 & B4 & B5 & B6).
  assert (M : Qmin (d * b_discharge_eff b) (b_discharge_max b) <= d) by (pose proof (Q.le_min_l (d * b_discharge_eff b) (b_discharge_max b)); nra).
  rewrite K. rewrite Q.max_r; [ring|lra].
Qed.
Lemma given_out d d' e m : 0 <= e <= 1 -> 0 <= d -> d <= d' -> Qmin (d' * e) m - Qmin (d * e) m <= d' - d.
Proof.
  intros E D L. destruct (Q.min_spec (d * e) m) as [[A ->]|[A ->]]; destruct (Q.min_spec (d' * e) m) as [[B ->]|[B ->]]; nra.
Qed.

Section TWO.
Variables (b b' : battery) (hpc mr mo : Q) (ax : aux) (tank_ : tank_ops) (ep sp : Q) (oa ob : list Z) (mh : Q).
Let P := {| p_battery := b; p_hp_capacity := hpc; p_min_runtime := mr; p_min_output := mo; p_aux := ax;
  p_tank := tank_; p_export_price := ep; p_setpoint := sp; p_order_above := oa; p_order_below := ob; p_max_heat := mh |}.
Let P' := {| p_battery := b'; p_hp_capacity := hpc; p_min_runtime := mr; p_min_output := mo; p_aux := ax;
  p_tank := tank_; p_export_price := ep; p_setpoint := sp; p_order_above := oa; p_order_below := ob; p_max_heat := mh |}.
Hypothesis Hbig : bigger_battery P P'.
Hypothesis HP : plant_ok P.
Variable I : hour_in.
Hypothesis HI : hour_ok P I.
Variables (t : Z) (T : nodes) (soc soc' : Q).
Hypothesis Hsoc : level_ok b soc.
Hypothesis Hlev : 0 <= soc' - soc <= b_capacity b' - b_capacity b.
Hypothesis Hord : forall ps, processes_of P I ps -> order_ok ps /\ battery_last ps.
Hypothesis Himp : contains P I Import_to_demand.
Hypothesis Hkeep : b_self_discharge b == 0.

Lemma traded rc rc' : hour_step P I t T soc = Ok rc -> hour_step P' I t T soc' = Ok rc' ->
  rf rc GRID_total_export - rf rc' GRID_total_export <= rf rc' RES_ES - rf rc RES_ES /\
  rf rc GRID_total_import - rf rc' GRID_total_import == rf rc' ED_ES - rf rc ED_ES /\
  rf rc' RES_ES - rf rc RES_ES <= (rf rc' ES_final_soc - soc') - (rf rc ES_final_soc - soc) + (rf rc' ED_ES - rf rc ED_ES).
Proof.
  intros H H'.
  assert (HP2 := HP' b b' hpc mr mo ax tank_ ep sp oa ob mh Hbig HP soc soc' Hlev). assert (Hs2 := Hsoc' b b' soc soc' Hsoc Hlev).
  destruct (hour_opened P I t T soc rc) as (ps & c & r & Hps & O); [split; [exact HP|split; [exact HI|split; [exact Hsoc|intros q K; apply Hord, K]]]|exact H|].
  destruct (hour_opened P' I t T soc' rc') as (ps' & c' & r' & Hps' & O'); [split; [exact HP2|split; [exact HI|split; [exact Hs2|intros q K; apply Hord, K]]]|exact H'|].
  assert (E := order_unique P I ps' ps Hps' Hps). subst ps'. destruct (Hord ps Hps) as (Ok1 & BL).
  pose proof (pair_run b b' hpc mr mo ax tank_ ep sp oa ob mh Hbig I t T soc soc' Hlev ps (proj1 Ok1) BL ps [] _ _ _ _ eq_refl (start_pair b b' hpc mr mo ax tank_ ep sp oa ob mh I soc soc' Hlev (start_fields P I) (start_zero P I))) as K.
  fold P P' in K. assert (E0 := op_run _ _ _ _ _ _ _ _ _ O). rewrite E0 in K. assert (E := op_run _ _ _ _ _ _ _ _ _ O'). change (start_fields P' I) with (start_fields P I) in E. rewrite E in K.
  pose proof (iq_rs _ _ _ _ _ _ (runs_ineqs b b' hpc mr mo ax tank_ ep sp oa ob mh Hbig HP I HI t T soc soc' Hsoc Hlev ps (start_fields P I) c r c' r' Ok1 BL (start_zero P I) E0 E K)) as Mo. clear E E0.
  destruct O as [_ A Sg Nn Dz (F1 & F2 & F3 & F4) Fl Fi], O' as [_ A' Sg' Nn' Dz' (F1' & F2' & F3' & F4') Fl' Fi']. cbn [p_battery P P'] in Fl, Fl'.
  assert (Zi : r ES_charging_from_import = 0 /\ r' ES_charging_from_import = 0 /\ r ES_discharging_to_HP = 0 /\ r' ES_discharging_to_HP = 0).
  { destruct BL as (B1 & B2 & _). repeat split;
    [apply (acc_zero _ _ _ _ _ A Import_to_ES)|apply (acc_zero _ _ _ _ _ A' Import_to_ES)|apply (acc_zero _ _ _ _ _ A ES_to_HP_to_demand)|apply (acc_zero _ _ _ _ _ A' ES_to_HP_to_demand)];
    try (rewrite <- in_rev; assumption); cbn; tauto. }
  destruct Zi as (Z1 & Z2 & Z3 & Z4).
  assert (N : forall k, In k (flat_map writes all_processes) -> 0 <= r k /\ 0 <= r' k) by (intros k Hk; split; [apply Nn, Hk|apply Nn', Hk]).
  assert (Rr : forall k, battery_entry k = false -> r k = r' k) by exact (pr_rel _ _ _ _ _ _ _ _ _ _ K).
  assert (U0 : elec_unmet c == 0 /\ elec_unmet c' == 0) by (split; [apply Dz|apply Dz']; apply -> in_rev; apply Himp, Hps).
  pose proof (acc_res _ _ _ _ _ A) as AR. pose proof (acc_res _ _ _ _ _ A') as AR'. pose proof (acc_elec _ _ _ _ _ A) as AE. pose proof (acc_elec _ _ _ _ _ A') as AE'.
  cbn [init_checks RES_left elec_unmet] in AR, AR', AE, AE'.
  pose proof (mir15 _ _ _ _ _ A) as M15. pose proof (mir15 _ _ _ _ _ A') as M15'. pose proof (mir17 _ _ _ _ _ A) as M17. pose proof (mir17 _ _ _ _ _ A') as M17'.
  pose proof (mir1 _ _ _ _ _ A) as M1. pose proof (mir1 _ _ _ _ _ A') as M1'. pose proof (mir2 _ _ _ _ _ A) as M2. pose proof (mir2 _ _ _ _ _ A') as M2'.
  split; [|split].
  - rewrite F4, F4', F3, F3'. rewrite <- M17, <- M17'.
    destruct (in_dec process_eq_dec RES_to_export ps) as [Ie|Ie];
      [|rewrite (acc_zero _ _ _ _ _ A RES_to_export RES_export), (acc_zero _ _ _ _ _ A' RES_to_export RES_export) by ((rewrite <- in_rev; exact Ie) || (cbn; tauto)); clear - Mo; lra].
    assert (R0 : RES_left c == 0 /\ RES_left c' == 0) by (split; [apply Dz|apply Dz']; apply -> in_rev; exact Ie).
    rewrite <- (Rr RES_HP_to_heat_demand eq_refl), <- (Rr RES_HP_to_TS eq_refl), <- (Rr AUX_RES_to_demand eq_refl), <- (Rr AUX_RES_to_TS eq_refl) in AR'.
    clear - AR AR' R0. lra.
  - rewrite F1, F1', Fi, Fi'. change (is_electric P') with (is_electric P). unfold total_aux.
    rewrite <- (Rr GRID_import_for_heat_pump_to_heat_demand eq_refl), <- (Rr GRID_import_for_heat_pump_to_TS eq_refl), <- (Rr GRID_import_for_ES eq_refl), <- (Rr HD_aux eq_refl), <- (Rr AUX_RES_to_demand eq_refl), <- (Rr AUX_RES_to_TS eq_refl).
    rewrite <- M2, <- M2'. clear - AE AE' U0. cbv zeta. destruct (is_electric P); lra.
  - rewrite F3, F3', F1, F1', M15, M15', M1, M1', Fl, Fl', Z1, Z2, Z3, Z4.
    assert (Ex : (r ES_discharging_to_demand == 0 /\ r' ES_discharging_to_demand == 0) \/ (r ES_charging_from_RES == 0 /\ r' ES_charging_from_RES == 0)).
    { pose proof (sg_res _ _ _ _ _ _ Sg). pose proof (sg_res _ _ _ _ _ _ Sg'). rewrite M15 in AR. rewrite M15' in AR'. rewrite M1 in AE. rewrite M1' in AE'.
      destruct (surplus_deficit_hour_spec (i_wind I + i_PV I) (i_elec_demand I)) as (_ & _ & [E|E] & _).
      - right. destruct (N RES_HP_to_heat_demand ltac:(cbn; tauto)), (N RES_HP_to_TS ltac:(cbn; tauto)), (N RES_export ltac:(cbn; tauto)), (N AUX_RES_to_demand ltac:(cbn; tauto)), (N AUX_RES_to_TS ltac:(cbn; tauto)), (N ES_charging_from_RES ltac:(cbn; tauto)).
        split; lra.
      - left. destruct (N ED_import ltac:(cbn; tauto)), (N ES_discharging_to_demand ltac:(cbn; tauto)). split; lra. }
    clear AR AR' AE AE' U0 M15 M15' M17 M17' M1 M1' M2 M2' F1 F1' F2 F2' F3 F3' F4 F4' Fl Fl' Fi Fi' Rr.
    destruct (N ES_discharging_to_demand ltac:(cbn; tauto)) as (D & D'), (N ES_charging_from_RES ltac:(cbn; tauto)) as (C & C'). clear N Nn Nn' Dz Dz' A A' Sg Sg'.
    pose proof (proj1 HP) as Bo. pose proof (proj1 HP2) as Bo'. cbn [P P' p_battery] in Bo, Bo'.
    destruct Hbig as (G1 & _ & G2 & G3 & _ & G5 & G6 & _). cbn [P P' p_battery] in G1, G2, G3, G5, G6.
    assert (Hkeep' : b_self_discharge b' == 0) by (rewrite <- G6; exact Hkeep).
    pose proof (pr_out _ _ _ _ _ _ _ _ _ _ K) as Po. pose proof (pr_in _ _ _ _ _ _ _ _ _ _ K) as Pi. clear K.
    set (d := r ES_discharging_to_demand) in *. set (d' := r' ES_discharging_to_demand) in *. set (a := r ES_charging_from_RES) in *. set (a' := r' ES_charging_from_RES) in *.
    assert (Zc : (a == 0 /\ a' == 0) \/ (has RES_to_ES ps = true /\ d == 0 /\ d' == 0)).
    { destruct Ex as [(E1 & E2)|E]; [|left; exact E]. destruct (has RES_to_ES ps); [right; auto|left]. destruct Pi as (-> & ->). split; reflexivity. }
    destruct Zc as [(E1 & E2)|(X & E1 & E2)].
    + assert (Dd : d <= soc /\ d' <= soc' /\ d <= d').
      { destruct (has ES_to_demand ps); [|destruct Po as (-> & ->); destruct Hsoc, Hs2; repeat split; lra].
        destruct Po as (v & V1 & V2). rewrite V1, V2. pose proof (pmin_le_r v soc). pose proof (pmin_le_r v soc'). destruct (out_mono b b' soc soc' Hlev v). auto. }
      destruct Dd as (D1 & D2 & D3).
      assert (L1 : new_soc b (a + 0 - (d + 0)) soc == soc - Qmin (d * b_discharge_eff b) (b_discharge_max b)).
      { rewrite <- (sure_level b d soc Bo Hsoc (conj D D1) Hkeep). rewrite !new_soc_spec by assumption. apply spec_next_compat. lra. }
      assert (L2 : new_soc b' (a' + 0 - (d' + 0)) soc' == soc' - Qmin (d' * b_discharge_eff b) (b_discharge_max b)).
      { rewrite G3, G5. rewrite <- (sure_level b' d' soc' Bo' Hs2 (conj D' D2) Hkeep'). rewrite !new_soc_spec by assumption. apply spec_next_compat. lra. }
      rewrite L1, L2. destruct Bo as (_ & _ & _ & _ & B5 & _). pose proof (given_out d d' (b_discharge_eff b) (b_discharge_max b) B5 D D3). lra.
    + rewrite X in Pi. destruct Pi as (w & P1 & P2).
      assert (Bd : a <= b_charge_max b /\ a <= b_capacity b - soc /\ a' <= b_charge_max b' /\ a' <= b_capacity b' - soc').
      { destruct Hsoc as (S1 & S2), Hs2 as (S1' & S2'). destruct Bo as (_ & Q1 & _), Bo' as (_ & Q2 & _).
        assert (V1 : a == Qmin (Qmin (Qmax w 0) (b_charge_max b)) (b_capacity b - (if has ES_to_demand ps then soc + - d else soc))) by (rewrite P1; apply max_charging_min; [exact Q1|destruct (has ES_to_demand ps); lra]).
        assert (V2 : a' == Qmin (Qmin (Qmax w 0) (b_charge_max b')) (b_capacity b' - (if has ES_to_demand ps then soc' + - d' else soc'))) by (rewrite P2; apply max_charging_min; [exact Q2|destruct (has ES_to_demand ps); lra]).
        pose proof (Q.le_min_l (Qmin (Qmax w 0) (b_charge_max b)) (b_capacity b - (if has ES_to_demand ps then soc + - d else soc))).
        pose proof (Q.le_min_r (Qmin (Qmax w 0) (b_charge_max b)) (b_capacity b - (if has ES_to_demand ps then soc + - d else soc))).
        pose proof (Q.le_min_l (Qmin (Qmax w 0) (b_charge_max b')) (b_capacity b' - (if has ES_to_demand ps then soc' + - d' else soc'))).
        pose proof (Q.le_min_r (Qmin (Qmax w 0) (b_charge_max b')) (b_capacity b' - (if has ES_to_demand ps then soc' + - d' else soc'))).
        pose proof (Q.le_min_r (Qmax w 0) (b_charge_max b)). pose proof (Q.le_min_r (Qmax w 0) (b_charge_max b')).
        destruct (has ES_to_demand ps); repeat split; lra. }
      destruct Bd as (A1 & A2 & A3 & A4).
      assert (L1 : new_soc b (a + 0 - (d + 0)) soc == soc * (1 - b_self_discharge b) + a).
      { rewrite <- (level_charged b a soc Bo Hsoc C A1 A2). rewrite !new_soc_spec by assumption. apply spec_next_compat. lra. }
      assert (L2 : new_soc b' (a' + 0 - (d' + 0)) soc' == soc' * (1 - b_self_discharge b') + a').
      { rewrite <- (level_charged b' a' soc' Bo' Hs2 C' A3 A4). rewrite !new_soc_spec by assumption. apply spec_next_compat. lra. }
      rewrite L1, L2, Hkeep, Hkeep'. lra.
Qed.
End TWO.
