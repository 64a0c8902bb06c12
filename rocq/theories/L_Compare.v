(** Lemmas: an hour of the fixed-order controller in a plant without stores is a plan of the predictive one. *)
From Verif Require Import Base BaseL M_Battery S_Battery L_Battery M_HeatPump S_HeatPump M_Tools L_Tools M_FixedOrder S_FixedOrder L_FixedOrder L_FixedOrderSign L_FixedOrderHour L_FixedOrderProps L_FixedOrderMore
  L_FixedOrderRun S_HeatPumpSize L_HeatPumpSize L_Grid S_Compare.

(** ** The fixed-order hour *)
Section Storeless.
Variables (P : plant) (I : hour_in) (t : Z) (n : nodes).
Hypothesis HP : plant_ok P.
Hypothesis HI : hour_ok P I.
Hypothesis HS : no_store P.
Hypothesis HB : b_capacity (p_battery P) == 0.
Let k := cop (i_perf I).

Record bare (don : list process) (c : checks) (r : fields) : Prop := {
  ba_tc : ts_charge c == 0; ba_td : ts_discharge c == 0; ba_soc : c_soc c == 0; ba_aux : heat_unmet c <= aux_left c;
  ba_rd : r HP_elec_from_RES_to_demand * k == r HP_heat_from_RES_to_demand;
  ba_id : r HP_elec_from_import_to_demand * k == r HP_heat_from_import_to_demand;
  ba_rs : r HP_elec_from_RES_to_TS == 0; ba_is : r HP_elec_from_import_to_TS == 0;
  ba_eh : r HP_heat_from_ES_to_demand == 0; ba_ed : r ED_ES == 0;
  ba_du : hp_usage c <= duty (i_perf I);
  ba_re : r RES_ES == 0; ba_ie : r GRID_import_for_ES == 0 }.
Lemma bare_step don c r p h e : Sgn P I t n don c -> allowed don p -> ~ In p don -> amount P I t n p c = Ok (h, e) -> bare don c r ->
  bare (p :: don) (update p (h, e) c) (write p (h, e) r).
Proof.
  intros Sg Al Np Ha [B1 B2 B3 B4 B5 B6 B7 B8 B9 B10 B13 B11 B12].
  destruct (delivered P I t n HP HI HS don c p h e Sg Al Np B1 B2 B4 Ha) as (Hn0 & D).
  pose proof HI as (_ & _ & _ & _ & _ & Hk & _). fold k in Hk, D.
  assert (ES : p = ES_to_HP_to_demand -> h == 0 /\ e == 0).
  { intros ->. destruct (amount_limits P I t n HP HI don c _ h e Sg Al Np Ha) as (_ & E0 & _ & _ & _ & _ & _ & _ & _ & _ & _ & E1 & _). specialize (E1 eq_refl).
    cbn [amount] in Ha. apply Ok_eq in Ha. injection Ha as Hh He. pose proof (sg_soc _ _ _ _ _ _ Sg) as S0. pose proof (sg_heat _ _ _ _ _ _ Sg) as S1.
    pose proof (pmin_le_l (fst (thermal_output (p_hp_capacity P) (c_soc c) (i_perf I) (heat_unmet c))) (duty (i_perf I) - hp_usage c)) as L.
    destruct (thermal_output_le (p_hp_capacity P) (c_soc c) (i_perf I) (heat_unmet c) S0 S1 Hk) as (T & _). rewrite Hh in L. fold k in T.
    assert (Z : c_soc c * k == 0) by (rewrite B3; ring). split; lra. }
  assert (Hq : forall x, x / k * k == x) by (intro x; field; lra).
  clear Ha Sg.
  destruct p; cbn [delivers] in D; unfold least3, least2 in D; try specialize (ES eq_refl); try specialize (D HB B3);
    constructor; cbn [update write fst snd elec_unmet heat_unmet RES_left hp_usage ts_discharge ts_charge c_soc aux_left in_elec_unmet in_heat_unmet in_RES_left in_hp_usage in_ts_discharge in_ts_charge in_aux upd field_eqb field_id Pos.eqb];
    try assumption; try lra;
    try (destruct D as (_ & D); rewrite D; apply Hq).
Qed.
Lemma bare_run soc ps c r : level_ok (p_battery P) soc -> order_ok ps ->
  foldM (run_process P I t n) ps (init_checks P I soc, start_fields P I) = Ok (c, r) -> bare (rev ps) c r.
Proof.
  intros L Ho H. apply (run_invariant P I t n bare ps [] ps _ _ c r HP HI Ho eq_refl) in H; [exact H| | |].
  - intros. eapply bare_step; eassumption.
  - apply init_sgn; assumption.
  - pose proof HI as (_ & _ & _ & Hh & Hm & _ & Hdd & _). destruct L as (L1 & L2).
    constructor; cbn [init_checks ts_charge ts_discharge c_soc heat_unmet aux_left hp_usage]; try reflexivity; try lra;
      repeat match goal with |- context [start_fields P I ?f] => rewrite (start_zero P I f) by (cbn; auto 60) end; reflexivity.
Qed.
End Storeless.

(** What the record of such an hour says *)
Record storeless (P : plant) (I : hour_in) (rc : record) : Prop := {
  st_elec : rf rc ED_RES + rf rc ED_import == i_elec_demand I;
  st_res : i_wind I + i_PV I == rf rc ED_RES + rf rc RES_HP + rf rc RES_aux + rf rc RES_export;
  st_heat : (rf rc RES_HP + rf rc HP_elec_import_usage) * cop (i_perf I) + rf rc AUX_demand == i_heat_demand I;
  st_duty : (rf rc RES_HP + rf rc HP_elec_import_usage) * cop (i_perf I) <= duty (i_perf I);
  st_import : rf rc GRID_total_import == rf rc ED_import + rf rc HP_elec_import_usage + (rf rc AUX_demand - rf rc RES_aux);
  st_export : rf rc GRID_total_export == rf rc RES_export;
  st_signs : 0 <= rf rc ED_RES /\ 0 <= rf rc ED_import /\ 0 <= rf rc RES_HP /\ 0 <= rf rc RES_aux /\ 0 <= rf rc RES_export /\ 0 <= rf rc HP_elec_import_usage /\ 0 <= rf rc AUX_demand - rf rc RES_aux }.
Lemma storeless_hour P I t n soc rc : good_hour P I soc -> quiet P I t n soc -> b_capacity (p_battery P) == 0 -> no_store P -> serves_all P I -> a_fuel (p_aux P) = ELECTRIC ->
  hour_step P I t n soc = Ok rc -> storeless P I rc.
Proof.
  intros G Q B NS (C1 & C2 & C3) El H.
  pose proof (elec_balance P I t n soc rc G C1 H) as (X1 & X2).
  pose proof (res_balance P I t n soc rc G C3 H (or_introl Q)) as X3.
  pose proof (grid_total P I t n soc rc H Q) as X4. rewrite El in X4. cbn [fuel_eqb] in X4.
  assert (DF : duplicate_free P I). { intros ps Hps. exact (proj1 (proj2 (proj2 (proj2 G)) ps Hps)). }
  pose proof (grid_consumers P I t n soc rc DF H Q) as (X5 & X6 & X7 & X8).
  pose proof (flows_nonneg P I t n soc rc G H) as N.
  assert (NN : forall f, In f flow_fields -> 0 <= rf rc f) by (intros f Hf; exact (proj1 (Forall_forall _ _) N f Hf)). clear N.
  destruct (quiet_open P I t n soc rc G Q H) as (ps & c & r & u & pr & de & rc0 & Ps & Oo & R & A & Sg & W & Z & U & Rf & ->).
  destruct G as (HP & HI & HL & _). pose proof (bare_run P I t n HP HI NS B soc ps c r HL Oo R) as [B1 B2 B3 B4 B5 B6 B7 B8 B9 B10 B13 B11 B12].
  assert (F1 : rf (complete I rc0) ED_ES = r ED_ES) by (change (rf (complete I rc0) ED_ES) with (rf rc0 ED_ES); rewrite Rf; apply finish_written; cbn; auto 30).
  assert (F2 : rf (complete I rc0) RES_ES = r RES_ES) by (change (rf (complete I rc0) RES_ES) with (rf rc0 RES_ES); rewrite Rf; apply finish_written; cbn; auto 30).
  assert (F3 : rf (complete I rc0) GRID_import_for_ES = r GRID_import_for_ES) by (change (rf (complete I rc0) GRID_import_for_ES) with (rf rc0 GRID_import_for_ES); rewrite Rf; apply finish_written; cbn; auto 30).
  assert (F4 : rf (complete I rc0) AUX_demand = total_aux r) by (change (rf (complete I rc0) AUX_demand) with (rf rc0 AUX_demand); rewrite Rf; apply untouched_aux).
  assert (F5 : rf (complete I rc0) RES_aux == r AUX_RES_to_demand + r AUX_RES_to_TS).
  { change (rf (complete I rc0) RES_aux) with (rf rc0 AUX_RES_to_demand + rf rc0 AUX_RES_to_TS). rewrite Rf, !finish_written by (cbn; auto 30). reflexivity. }
  assert (F6 : rf (complete I rc0) RES_HP = r HP_elec_from_RES_to_demand + r HP_elec_from_RES_to_TS).
  { change (rf (complete I rc0) RES_HP) with (rf rc0 HP_elec_RES_usage). rewrite Rf. unfold finish_fields, above_rec, below_rec. destruct (hi P I); reflexivity. }
  assert (F7 : rf (complete I rc0) HP_elec_import_usage = r HP_elec_from_import_to_demand + r HP_elec_from_import_to_TS).
  { change (rf (complete I rc0) HP_elec_import_usage) with (rf rc0 HP_elec_import_usage). rewrite Rf. unfold finish_fields, above_rec, below_rec. destruct (hi P I); reflexivity. }
  assert (F8 : rf (complete I rc0) RES_elec_demand = rf (complete I rc0) ED_RES) by reflexivity.
  assert (F9 : rf (complete I rc0) RES_generation_total = i_wind I + i_PV I) by reflexivity.
  pose proof (acc_heat _ _ _ _ _ A) as AH. pose proof (acc_hp _ _ _ _ _ A) as AP. pose proof (acc_tsc _ _ _ _ _ A) as AC. pose proof (acc_tsd _ _ _ _ _ A) as AD. cbn [init_checks heat_unmet hp_usage ts_charge ts_discharge] in AH, AP, AC, AD.
  rewrite (mir3 _ _ _ _ _ A), (mir5 _ _ _ _ _ A), (mir8 _ _ _ _ _ A), (mir7 _ _ _ _ _ A) in AH. rewrite (mir11 _ _ _ _ _ A), (mir14 _ _ _ _ _ A) in AP.
  pose proof (W HP_RES_to_TS TS_HP_from_RES_to_TS ltac:(cbn; auto)) as W1. pose proof (W HP_import_to_TS TS_HP_from_import_to_TS ltac:(cbn; auto)) as W2. pose proof (W EAUX_RES_to_TS TS_aux_to_TS ltac:(cbn; auto)) as W3. pose proof (W AUX_to_demand HD_aux ltac:(cbn; auto)) as W4.
  assert (Hz : heat_unmet c == 0) by (apply Z; apply -> in_rev; apply C2; exact Ps).
  assert (T0 : r AUX_RES_to_TS == 0) by (rewrite (mir12 _ _ _ _ _ A); lra).
  unfold total_aux in F4.
  assert (S5 : (rf (complete I rc0) RES_HP + rf (complete I rc0) HP_elec_import_usage) * cop (i_perf I) == r HP_heat_from_RES_to_demand + r HP_heat_from_import_to_demand).
  { rewrite F6, F7, B7, B8, <- B5, <- B6. ring. }
  rewrite X2 in X1. rewrite F1 in X1. rewrite F2, F8, F9 in X3. rewrite X5, X6, F3 in X4.
  assert (Q1 : 0 <= r HD_aux) by (apply (W AUX_to_demand); cbn; auto).
  constructor.
  - lra.
  - lra.
  - rewrite S5, F4. lra.
  - rewrite S5. lra.
  - lra.
  - rewrite X8. reflexivity.
  - repeat match goal with |- _ /\ _ => split end; try (apply NN; cbn; auto 80). rewrite F4, F5. lra.
Qed.

(** ** The same hour as a plan *)
From Verif Require Import M_Mpc S_Mpc L_Mpc L_MpcRecord L_MpcRun L_MpcObjective S_MpcOptimal L_MpcOptimal.

Lemma max_cap_zero X year first n mc : no_store (m_plant X) -> pre_calculation X year first n = Ok mc -> Forall (fun c => c == 0) mc.
Proof.
  intros NS H. unfold pre_calculation in H. destruct (n + m_horizon X <? 0)%Z; [discriminate|].
  destruct (foldM _ _ _) as [arr|] eqn:E; cbn [bind] in H; [|discriminate]. destruct (surplus_deficit_year _ _) as [bal|]; cbn [bind] in H; [|discriminate]. assert (arr = mc) by congruence. subst arr. clear H.
  assert (Z0 : Forall (fun c => c == 0) (repeat 0 (Z.to_nat (n + m_horizon X)))) by (apply Forall_forall; intros x Hx; apply repeat_spec in Hx; subst x; reflexivity).
  revert Z0 E. generalize (repeat 0 (Z.to_nat (n + m_horizon X))). generalize (zrange first (pre_final_hour X first n)).
  induction l as [|t l IH]; intros a Z0 E; cbn [foldM] in E; [congruence|].
  destruct (max_cap_step X year first a t) as [a'|] eqn:E1; cbn [bind] in E; [|discriminate]. refine (IH a' _ E).
  unfold max_cap_step in E1. destruct (label year t) as [I|]; cbn [bind] in E1; [|discriminate]. destruct (t_max _ _ _ _ _ _) as [c|] eqn:E2; cbn [bind] in E1; [|discriminate]. apply NS in E2.
  revert E1. generalize (Z.to_nat (t - first)). intros i E1. clear IH E. revert i a' E1. induction Z0 as [|x l0 Hx Z0 IH]; intros [|i] a' E1; cbn [set_nth] in E1; try discriminate.
  - assert (a' = c :: l0) by congruence. subst a'. constructor; assumption.
  - destruct (set_nth i c l0) as [a2|] eqn:E3; cbn [bind] in E1; [|discriminate]. assert (a' = x :: a2) by congruence. subst a'. constructor; [assumption|]. exact (IH _ _ E3).
Qed.
Lemma pslice_Forall {A} (R : A -> Prop) i j l : Forall R l -> Forall R (pslice i j l).
Proof.
  intro F. unfold pslice. apply Forall_forall. intros x Hx. apply (proj1 (Forall_forall _ _) F). rewrite <- (firstn_skipn i l). apply in_or_app. right.
  rewrite <- (firstn_skipn (j - i) (skipn i l)). apply in_or_app. left. exact Hx.
Qed.

Definition as_plan (p : phour) (f : fields) (v : point) : point :=
  let h := (f RES_HP + f HP_elec_import_usage) * q_cop p in
  let w := pmax h (q_HP_min p) in
  {| v_RES_ed := f ED_RES; v_export := f RES_export; v_imp_ed := f ED_import;
     v_HPtrd := f RES_HP * q_cop p; v_HPtrs := 0; v_HPtid := f HP_elec_import_usage * q_cop p; v_HPtis := 0; v_HPtesd := 0;
     v_HP_status := 1 * h / w; v_HPt_var := w;
     v_TSc := v_TSc v; v_TSd := v_TSd v; v_soc := v_soc v;
     v_ESc := v_ESc v; v_ESc_res := 0; v_ESc_imp := 0;
     v_ESd := v_ESd v; v_ESd_hp := 0; v_ESd_aux := 0; v_ESd_ed := 0;
     v_soc_ES := v_soc_ES v;
     v_aux_rd := f RES_aux; v_aux_rs := 0; v_aux_d := f AUX_demand - f RES_aux; v_aux_s := 0; v_aux := f AUX_demand |}.
(** A plan of a plant without stores does not use them. *)
Lemma stores_unused b p cap v : constraints b p cap v -> cap == 0 -> b_capacity (b_battery b) == 0 -> b_charge_max (b_battery b) == 0 ->
  v_TSc v == 0 /\ v_TSd v == 0 /\ v_soc v == 0 /\ v_ESc v == 0 /\ v_ESd v == 0 /\ v_soc_ES v == 0.
Proof.
  intros (HS & _ & HL) C B1 B2. all_signs HS. destruct HL as (_ & _ & L3 & L4 & L5 & L6 & L7 & L8 & L9 & _).
  assert (Z : b_charge_max (b_battery b) * b_charge_eff (b_battery b) == 0) by (rewrite B2; ring).
  generalize dependent (b_charge_max (b_battery b) * b_charge_eff (b_battery b)). intros q L7 Z. repeat match goal with |- _ /\ _ => split end; lra.
Qed.
Section Plan.
Variables (X : mpc) (I : hour_in) (b : problem) (cap : Q) (v : point) (rc : record).
Let P := m_plant X.
Let p := phour_of X I.
Hypothesis HE : b_electric b = true.
Hypothesis HA : b_aux_cost b = None.
Hypothesis HM : b_aux_cap b = p_max_heat P.
Hypothesis HX : b_export_cost b = p_export_price P.
Hypothesis HC0 : b_capacity (b_battery b) == 0.
Hypothesis HC1 : b_charge_max (b_battery b) == 0.
Hypothesis HI : hour_ok P I.
Hypothesis Hmin : minimum_heat P I <= duty (i_perf I).
Hypothesis Hcap : cap == 0.
Hypothesis HV : constraints b p cap v.
Hypothesis HR : storeless P I rc.
Lemma as_plan_output : v_HPt (as_plan p (rf rc) v) == (rf rc RES_HP + rf rc HP_elec_import_usage) * cop (i_perf I) /\ 0 <= v_HP_status (as_plan p (rf rc) v) <= 1.
Proof.
  destruct HI as (_ & _ & _ & _ & _ & Hk & _). destruct (st_signs _ _ _ HR) as (_ & _ & N3 & _ & _ & N6 & _).
  unfold v_HPt, as_plan. cbv zeta. pt. unfold p, phour_of. cbn [q_cop].
  assert (N : 0 <= (rf rc RES_HP + rf rc HP_elec_import_usage) * cop (i_perf I)) by (apply Qmult_le_0_compat; lra).
  destruct (other_status 1 ((rf rc RES_HP + rf rc HP_elec_import_usage) * cop (i_perf I)) (pmax ((rf rc RES_HP + rf rc HP_elec_import_usage) * cop (i_perf I)) (q_HP_min (phour_of X I)))) as (O1 & O2).
  - lra.
  - split; [exact N|apply pmax_ge].
  - split; [rewrite O1; ring|exact O2].
Qed.
Lemma as_plan_constraints : constraints b p cap (as_plan p (rf rc) v).
Proof.
  pose proof as_plan_output as (AO & AS). destruct (stores_unused b p cap v HV Hcap HC0 HC1) as (Z1 & Z2 & Z3 & Z4 & Z5 & Z6).
  pose proof HI as (_ & _ & _ & _ & Hmx & Hk & _). destruct HR as [R1 R2 R3 R4 R5 R6 (N1 & N2 & N3 & N4 & N5 & N6 & N7)].
  assert (M1 : 0 <= rf rc RES_HP * cop (i_perf I)) by (apply Qmult_le_0_compat; lra). assert (M2 : 0 <= rf rc HP_elec_import_usage * cop (i_perf I)) by (apply Qmult_le_0_compat; lra).
  assert (M3 : (rf rc RES_HP + rf rc HP_elec_import_usage) * cop (i_perf I) == rf rc RES_HP * cop (i_perf I) + rf rc HP_elec_import_usage * cop (i_perf I)) by ring.
  pose proof (pmax_ge ((rf rc RES_HP + rf rc HP_elec_import_usage) * cop (i_perf I)) (q_HP_min p)) as (G1 & G2).
  assert (G3 : q_HP_min p <= duty (i_perf I)).
  { refine (Qle_trans _ _ _ _ Hmin). unfold p, phour_of, minimum_heat. cbn [q_HP_min]. fold P. apply Qle_lteq. right. field. }
  pose proof (pmax_le _ _ _ R4 G3) as G4.
  destruct HV as (HS & HEq & HL). split; [|split].
  - all_signs HS. split; [|exact (proj2 AS)]. clear HL HEq. unfold as_plan in *. cbv zeta in *. pt. cbn [v_HP_status] in AS. change (q_cop p) with (cop (i_perf I)) in *.
    generalize dependent (pmax ((rf rc RES_HP + rf rc HP_elec_import_usage) * cop (i_perf I)) (q_HP_min p)). intros w AO AS G1 G2 G4.
    generalize dependent (1 * ((rf rc RES_HP + rf rc HP_elec_import_usage) * cop (i_perf I)) / w). intros s _ AS.
    generalize dependent (rf rc RES_HP * cop (i_perf I)). generalize dependent (rf rc HP_elec_import_usage * cop (i_perf I)). intros.
    repeat (apply Forall_cons; [lra|]). apply Forall_nil.
  - rewrite HE. clear HEq HL. unfold electric_equations. change (v_HP_status (as_plan p (rf rc) v) * v_HPt_var (as_plan p (rf rc) v)) with (v_HPt (as_plan p (rf rc) v)). rewrite AO.
    unfold as_plan. cbv zeta. pt. change (q_cop p) with (cop (i_perf I)). change (q_elec p) with (i_elec_demand I). change (q_heat p) with (i_heat_demand I). change (q_RES p) with (i_wind I + i_PV I).
    repeat match goal with |- _ /\ _ => split end.
    + lra.
    + lra.
    + rewrite <- R1. ring.
    + rewrite <- R3, Z2. ring.
    + ring.
    + ring.
    + ring.
    + lra.
    + rewrite R2. field. lra.
  - clear HEq. destruct HL as (_ & _ & L3 & L4 & L5 & L6 & L7 & L8 & L9 & _). unfold limits, as_plan. cbv zeta. pt. change (q_cop p) with (cop (i_perf I)). change (q_duty p) with (duty (i_perf I)).
    split; [exact G4|]. split; [exact G2|]. repeat match goal with |- _ /\ _ => split end; try assumption. rewrite HM. lra.
Qed.
Lemma as_plan_cost : running_cost b p (as_plan p (rf rc) v) ==
  (rf rc GRID_total_import * i_import_price I - rf rc GRID_total_export * p_export_price P) / 1000.
Proof.
  pose proof as_plan_output as (AO & _). destruct HI as (_ & _ & _ & _ & _ & Hk & _). unfold running_cost. rewrite AO, HA, HX. unfold as_plan. cbv zeta. pt.
  change (q_cop p) with (cop (i_perf I)). change (q_price p) with (i_import_price I). rewrite (st_import _ _ _ HR), (st_export _ _ _ HR). field. lra.
Qed.
(** What the plan [v] costs is what the record of it shows. *)
Lemma plan_cost_recorded c d r : is_electric P = true -> mpc_aux_accounts X (flows X (is_electric P) I p v c d) = Ok r ->
  b_battery b = p_battery P ->
  mpc_grid_accounts X I p r GRID_cashflow == - running_cost b p v.
Proof.
  intros El HAcc HBt. pose proof (record_fields X I p v c d (t_init (p_tank P)) r HAcc) as F. cbv zeta in F. cbn [rf] in F.
  repeat match type of F with _ /\ _ => let F1 := fresh "F" in destruct F as [F1 F] end.
  destruct (stores_unused b p cap v HV Hcap HC0 HC1) as (Z1 & Z2 & Z3 & Z4 & Z5 & Z6). unfold P in *. rewrite El in *.
  repeat match goal with F : mpc_grid_accounts _ _ _ _ ?k = _ |- context [mpc_grid_accounts _ _ _ _ ?k] => rewrite F end.
  pose proof HI as (_ & _ & _ & _ & _ & Hk & _). destruct HV as (HS & HEq & _). rewrite HE in HEq. destruct HEq as (E1 & E2 & _ & _ & _ & _ & _ & _ & _). apply signs_inv in HS.
  destruct HS as (_ & _ & _ & _ & _ & _ & _ & _ & _ & _ & _ & _ & S13 & S14 & S15 & S16 & S17 & _).
  assert (Y1 : v_ESc_res v == 0) by lra. assert (Y2 : v_ESc_imp v == 0) by lra. assert (Y3 : v_ESd_aux v == 0) by lra. clear E1 E2.
  unfold running_cost. rewrite HA, HX. change (q_cop p) with (cop (i_perf I)). change (q_price p) with (i_import_price I). rewrite Y1, Y2, Y3. field. lra.
Qed.
End Plan.
