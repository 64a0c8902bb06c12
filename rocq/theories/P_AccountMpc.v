(** The energy account of a run under predictive control: property C115. *)
From Verif Require Import Base BaseL M_Battery S_Battery L_Battery M_HeatPump S_HeatPump M_Tools M_FixedOrder S_FixedOrder L_FixedOrder L_FixedOrderHour L_FixedOrderRun P_FixedOrder
  M_Mpc S_Mpc L_Mpc L_MpcRecord L_MpcRun P_Mpc S_MpcOptimal L_MpcOptimal S_HeatPumpSize S_Compare P_Compare S_Account L_Account P_Account S_AccountMpc.

Lemma euler_conservative B : battery_ok B -> conservative (implicit_euler B).
Proof.
  intros (_ & _ & _ & He & _ & Hs) s0 c0 d0 e0 ec0 ed0 s1 c1 d1 e1 ec1 ed1 rest (_ & E & _) P1 P2. nra.
Qed.

(** An hour under predictive control: consumption, sale and the rise of the battery are covered by generation and purchase, whatever the efficiencies of the battery. *)
Theorem C115_planned_hour_partial : forall dyn X opt year mc hour first fh pv rc I,
  plan_record dyn X opt year mc hour first fh pv rc -> conservative dyn -> label year (hour + 1) = Ok I ->
  electric_backup X -> a_efficiency (p_aux (m_plant X)) == 1 -> 0 <= b_discharge_eff (p_battery (m_plant X)) <= 1 -> 0 < cop (i_perf I) ->
  planned_out (rf rc) + (rf rc ES_final_soc - v_soc_ES (pr_point pv)) <= electricity_in (rf rc).
Proof.
  intros dyn X opt year mc hour first fh pv rc I (b & vs & nx & HB & HV & ((FL & FD & FC) & F0) & HS) Cn HI He Ea Ed Hc.
  destruct (solve_inv _ _ _ _ _ _ _ _ _ _ HS) as (b' & vs' & v & c & d & s & I' & p & n & r & HB' & HV' & H1 & HN & HFN & HI' & Hp & -> & HA & -> & ->).
  assert (b' = b) by congruence. subst b'. assert (vs' = vs) by congruence. subst vs'. assert (I' = I) by congruence. subst I'. clear HB' HV' HI' HN HFN HS.
  destruct (make_problem_inv _ _ _ _ _ _ _ _ HB) as (_ & _ & _ & (I0 & soc & _ & _ & ES) & _ & Ebt & E1 & _). assert (Hel : is_electric (m_plant X) = true) by (apply electric_iff; exact He). rewrite Hel in E1.
  destruct (FC O v H1) as (q & cap & Hq & _ & (Sg & Eq & _)). assert (q = phour_of X I) by congruence. subst q. rewrite E1, Ebt in Eq.
  assert (Lv : v_soc_ES v - v_soc_ES (pr_point pv) <= v_ESc v - v_ESd v).
  { assert (K : exists w rest, vs = w :: v :: rest /\ v_soc_ES w = v_soc_ES (pr_point pv)).
    { destruct vs as [|w [|w' rest]]; try discriminate H1. exists w, rest. cbn in H1, F0. injection H1 as ->. injection F0 as ->. split; [reflexivity|]. rewrite ES. reflexivity. }
    destruct K as (w & rest & -> & <-). unfold storage_columns in FD. cbn [map] in FD. all_signs Sg. apply (Cn _ _ _ _ _ _ _ _ _ _ _ _ _ FD); assumption. }
  assert (Us : r AUX_usage == r AUX_demand).
  { clear - HA Ea. unfold mpc_aux_accounts in HA. set (fl := M_Mpc.flows X (is_electric (m_plant X)) I (phour_of X I) v c d) in *.
    unfold fuel_usage in HA. destruct (qeq_spec (a_efficiency (p_aux (m_plant X))) 0); cbn [bind] in HA; [discriminate|].
    assert (G : forall (x : res (Q * Q)) r0, (do (aux_price, density) <~ x ;; Ok (upd (upd r0 AUX_cost (aux_price * upd fl AUX_usage (fl AUX_demand / a_efficiency (p_aux (m_plant X))) AUX_demand)) AUX_mass
      (density * upd r0 AUX_cost (aux_price * upd fl AUX_usage (fl AUX_demand / a_efficiency (p_aux (m_plant X))) AUX_demand) AUX_usage))) = Ok r -> r AUX_usage = r0 AUX_usage /\ r AUX_demand = r0 AUX_demand).
    { intros x r0 HH. destruct x as [(a, g)|]; cbn [bind] in HH; [|discriminate]. split; [exact (eq_sym (f_equal (fun z => match z with Ok y => y AUX_usage | Err _ => 0 end) HH))|exact (eq_sym (f_equal (fun z => match z with Ok y => y AUX_demand | Err _ => 0 end) HH))]. }
    apply (G _ (upd fl AUX_usage (fl AUX_demand / a_efficiency (p_aux (m_plant X))))) in HA. destruct HA as (-> & ->).
    change (fl AUX_demand / a_efficiency (p_aux (m_plant X)) == fl AUX_demand). rewrite Ea. field. }
  pose proof (record_fields X I (phour_of X I) v c d n r HA) as F. cbv zeta in F. cbn [rf] in F |- *.
  unfold planned_out, electricity_in.
  change (mpc_grid_accounts X I (phour_of X I) r AUX_usage) with (r AUX_usage). assert (Ud : mpc_grid_accounts X I (phour_of X I) r AUX_demand = r AUX_demand) by reflexivity.
  destruct F as (F1 & F2 & F3 & F4 & F5 & F6 & F7 & F8 & F9 & F10 & F11 & F12 & F13 & F14 & F15 & F16 & F17 & F18 & F19 & F20 & F21 & F22 & F23 & F24 & F25 & F26 & F27 & F28 & F29 & F30 & F31 & F32 & F33 & F34 & F35 & F36 & F37 & _).
  rewrite F37, F36, F5, F1, F15, F31, F3, F18, F26, F8, F32, Us, <- Ud, F32, Hel.
  cbn beta iota delta [electric_equations] in Eq. destruct Eq as (Q1 & Q2 & Q3 & Q4 & Q5 & Q6 & Q7 & Q8 & Q9). cbn [phour_of q_elec q_heat q_cop q_RES] in *.
  set (eff := b_discharge_eff (p_battery (m_plant X))) in *. set (k := cop (i_perf I)) in *.
  assert (Q5' : v_HPtesd v / k == v_ESd_hp v * eff) by (rewrite Q5; field; lra).
  assert (Q9' : (v_HPtrs v + v_HPtrd v) / k == (v_HPtrd v + v_HPtrs v) / k) by (field; lra). rewrite Q9' in Q9.
  revert Q5' Q9 Lv. all_signs Sg. generalize (v_HPtesd v / k) ((v_HPtrd v + v_HPtrs v) / k) (v_HPt v / k). intros x y z Q5' Q9 Lv. clear Q4 Q5 Q6 Q7 Q8 Q9'.
  assert (M1 : v_ESd_ed v * eff <= v_ESd_ed v) by nra. assert (M2 : v_ESd_hp v * eff <= v_ESd_hp v) by nra. lra.
Qed.
Print Assumptions C115_planned_hour_partial.

(** A run under predictive control, from its second hour on *)
Theorem C115_planned_run_partial : forall dyn X opt year mc first rs,
  plan_run dyn X opt year mc first rs -> conservative dyn -> (forall I, In I year -> 0 < cop (i_perf I)) ->
  electric_backup X -> a_efficiency (p_aux (m_plant X)) == 1 -> 0 <= b_discharge_eff (p_battery (m_plant X)) <= 1 ->
  over_run planned_out (tl rs) + (last_level rs - first_level rs) <= over_run electricity_in (tl rs).
Proof.
  intros dyn X opt year mc first rs PR Cn Hc He Ea Ed.
  assert (St : forall i a b, nth_error rs i = Some a -> nth_error rs (S i) = Some b -> planned_out (rf b) + (rf b ES_final_soc - rf a ES_final_soc) <= electricity_in (rf b)).
  { intros i a b Ha Hb. destruct (PR i a b Ha Hb) as (pv & <- & PV). pose proof PV as (b0 & vs & nx & _ & _ & _ & HS).
    destruct (solve_inv _ _ _ _ _ _ _ _ _ _ HS) as (b' & vs' & v & c & d & s & I & p & n & r & _ & _ & _ & _ & _ & HI & _).
    apply (C115_planned_hour_partial dyn X opt year mc _ first _ pv b I PV Cn HI He Ea Ed). apply Hc. apply label_inv in HI. exact (nth_error_In _ _ (proj2 HI)). }
  clear - St. destruct rs as [|a rs]; [cbn; lra|]. cbn [tl first_level]. unfold last_level. revert a St. induction rs as [|b rs IH]; intros a St; [cbn; lra|].
  specialize (IH b (fun i => St (S i))). pose proof (St O a b eq_refl eq_refl) as S0.
  assert (L : forall x l, (match rev (x :: b :: l) with rc :: _ => rf rc ES_final_soc | [] => 0 end) = (match rev (b :: l) with rc :: _ => rf rc ES_final_soc | [] => 0 end)).
  { intros x l. cbn [rev]. destruct (rev l ++ [b]) eqn:E; [destruct (rev l); discriminate E|]. reflexivity. }
  rewrite L. unfold over_run in *. cbn [map]. rewrite !qsum_cons. lra.
Qed.
Print Assumptions C115_planned_run_partial.

(** A case: ten units of sun are charged in one hour; five of them serve the demand of the next. *)
Definition storing_point (p : phour) : point :=
  {| v_RES_ed := 0; v_export := 0; v_imp_ed := 0; v_HPtrd := 0; v_HPtrs := 0; v_HPtid := 0; v_HPtis := 0; v_HPtesd := 0; v_HP_status := 0; v_HPt_var := 0;
     v_TSc := 0; v_TSd := 0; v_soc := 0; v_ESc := q_RES p; v_ESc_res := q_RES p; v_ESc_imp := 0; v_ESd := q_elec p; v_ESd_hp := 0; v_ESd_aux := 0; v_ESd_ed := q_elec p;
     v_soc_ES := 10 - q_elec p; v_aux_rd := 0; v_aux_rs := 0; v_aux_d := 0; v_aux_s := 0; v_aux := 0 |}.
Lemma short_plan b hp mo pv I I' w :
  constraints (short_problem b hp mo pv I I') (phour_of (two_hours (demo b hp mo (simple_tank 0 0 0) all13 all15)) I') 0 w ->
  implicit_euler b (storage_columns [start_point (pr_point pv) 0; w]) ->
  plan_of (implicit_euler b) (short_problem b hp mo pv I I') [start_point (pr_point pv) 0; w].
Proof.
  intros HC HD. split; [|reflexivity]. split; [reflexivity|]. split; [exact HD|]. intros [|k] v E; [|destruct k; discriminate E]. cbn [nth_error] in E. assert (v = w) by congruence. subst v.
  do 2 eexists. split; [reflexivity|]. split; [reflexivity|]. exact HC.
Qed.
Ltac easy_plan S0 := apply short_plan;
  [split; [split; [repeat constructor; closed_ineq|closed_ineq]|split; [cbn; repeat split; closed_ineq|unfold limits; repeat split; closed_ineq]]
  |cbn [storage_columns map implicit_euler start_point v_soc v_TSc v_TSd v_soc_ES v_ESc v_ESd]; rewrite S0; cbn; repeat split; closed_ineq].
Definition Xs := two_hours (plain_plant 20 0).
Definition ys := short_year quiet_hour sun_hour demand_hour.
Example C115_planned_case : exists rs, mpc_run Xs (answer_by storing_point) ys 0 3 = Ok rs /\ pre_calculation Xs ys 0 3 = Ok [0; 0; 0; 0; 0] /\
  plan_run (implicit_euler (plain_battery 20)) Xs (answer_by storing_point) ys [0; 0; 0; 0; 0] 0 rs /\ conservative (implicit_euler (plain_battery 20)) /\
  electric_backup Xs /\ a_efficiency (p_aux (m_plant Xs)) == 1 /\ (forall I, In I ys -> 0 < cop (i_perf I)) /\
  over_run planned_out (tl rs) == 5 /\ last_level rs - first_level rs == 5 /\ over_run electricity_in (tl rs) == 10.
Proof.
  set (X := Xs). set (plan := storing_point).
  assert (K1 : match solve X (answer_by plan) ys [0; 0; 0; 0; 0] 0 0 2 (initial_prev X) with Ok (rc, _) => (qeq (planned_out (rf rc)) 0 && qeq (electricity_in (rf rc)) 10)%bool | Err _ => false end = true) by (vm_compute; reflexivity).
  assert (K2 : forall pv, match solve X (answer_by plan) ys [0; 0; 0; 0; 0] 1 0 3 pv with Ok (rc, _) => (qeq (planned_out (rf rc)) 5 && qeq (electricity_in (rf rc)) 0 && qeq (rf rc ES_final_soc) 5)%bool | Err _ => false end = true) by (intro pv; vm_compute; reflexivity).
  destruct (solve X (answer_by plan) ys [0; 0; 0; 0; 0] 0 0 2 (initial_prev X)) as [[rc1 n1]|] eqn:E1; [|discriminate].
  specialize (K2 n1). destruct (solve X (answer_by plan) ys [0; 0; 0; 0; 0] 1 0 3 n1) as [[rc2 n2]|] eqn:E2; [|discriminate].
  assert (N1 : v_soc_ES (pr_point n1) = 10 - 0 /\ rf rc1 ES_final_soc = v_soc_ES (pr_point n1)).
  { pose proof (solve_state _ _ _ _ _ _ _ _ _ _ E1) as Z. destruct (solve_inv _ _ _ _ _ _ _ _ _ _ E1) as (b1 & vs & v & c & d & s & I & p & n & r & B & V & V1 & _ & _ & _ & _ & _ & _ & _ & EN).
    split; [|exact (f_equal snd Z)]. clear Z. rewrite EN. cbn [pr_point with_tank v_soc_ES]. change (make_problem X ys [0; 0; 0; 0; 0] 0 0 2 (initial_prev X)) with (Ok (short_problem (plain_battery 20) 0 0 (initial_prev X) quiet_hour sun_hour)) in B. injection B as <-.
    unfold answer_by, short_problem in V. cbn [b_hours b_start map] in V. injection V as <-. cbn in V1. injection V1 as <-. reflexivity. }
  destruct N1 as (N1 & N2).
  exists [made_up_record X quiet_hour; rc1; rc2]. split.
  { unfold mpc_run. unfold X, Xs, plain_plant, ys. rewrite short_capacities. cbn [bind]. apply (three_records _ _ _ _ quiet_hour rc1 n1 rc2 n2); [reflexivity|exact E1|exact E2]. }
  split; [unfold X, Xs, plain_plant, ys; apply short_capacities|]. split.
  { intros [|[|i]] before rc H0 H1; cbn [nth_error] in H0, H1; [| |destruct i; discriminate].
    - injection H0 as <-. injection H1 as <-. exists (initial_prev X). split; [reflexivity|].
      exists (short_problem (plain_battery 20) 0 0 (initial_prev X) quiet_hour sun_hour), [start_point (pr_point (initial_prev X)) 0; plan (phour_of X sun_hour)], n1.
      split; [reflexivity|]. split; [reflexivity|]. split; [|exact E1].
      assert (S0 : v_soc_ES (pr_point (initial_prev X)) = init_state (plain_battery 20)) by reflexivity. easy_plan S0.
    - injection H0 as <-. injection H1 as <-. exists n1. split; [symmetry; exact N2|].
      exists (short_problem (plain_battery 20) 0 0 n1 sun_hour demand_hour), [start_point (pr_point n1) 0; plan (phour_of X demand_hour)], n2.
      split; [reflexivity|]. split; [reflexivity|]. split; [|exact E2]. easy_plan N1. }
  split; [apply euler_conservative, plain_battery_ok; lra|]. split; [reflexivity|]. split; [reflexivity|]. split.
  { apply short_in; cbn; lra. }
  apply andb_prop in K1. destruct K1 as (A1 & A2). apply andb_prop in K2. destruct K2 as (K2 & A5). apply andb_prop in K2. destruct K2 as (A3 & A4). apply qeq_true_inv in A1, A2, A3, A4, A5.
  cbn [tl]. unfold over_run, last_level, first_level. cbn [map rev app]. rewrite !qsum_cons. change (qsum []) with 0.
  change (rf (made_up_record X quiet_hour) ES_final_soc) with (init_state (plain_battery 20)). assert (Z : init_state (plain_battery 20) == 0) by reflexivity.
  repeat match goal with |- _ /\ _ => split end; [lra| |lra]. rewrite A5, Z. reflexivity.
Qed.

(** When the optimiser fails and the hour is planned again from the initial level, the battery is filled from nothing: 5 units, served twice. *)
Definition full_battery : battery :=
  {| b_capacity := 10; b_initial_state := 1; b_charge_max := 10; b_discharge_max := 10; b_charge_eff := 1; b_discharge_eff := 1; b_self_discharge := 0 |}.
Definition serving_point (p : phour) : point :=
  {| v_RES_ed := 0; v_export := 0; v_imp_ed := 0; v_HPtrd := 0; v_HPtrs := 0; v_HPtid := 0; v_HPtis := 0; v_HPtesd := 0; v_HP_status := 0; v_HPt_var := 0;
     v_TSc := 0; v_TSd := 0; v_soc := 0; v_ESc := 0; v_ESc_res := 0; v_ESc_imp := 0; v_ESd := q_elec p; v_ESd_hp := 0; v_ESd_aux := 0; v_ESd_ed := q_elec p;
     v_soc_ES := 10 - q_elec p; v_aux_rd := 0; v_aux_rs := 0; v_aux_d := 0; v_aux_s := 0; v_aux := 0 |}.
Definition fails_unless_full (plan : phour -> point) : optimiser := fun b => if qeq (v_soc_ES (b_start b)) 10 then answer_by plan b else Err SystemError.
Lemma three_records_reset X opt year mc I r1 n1 r2 n2 e : label year 0 = Ok I -> solve X opt year mc 0 0 (horizon_end X 0) (initial_prev X) = Ok (r1, n1) ->
  solve X opt year mc 1 0 (horizon_end X 1) n1 = Err e -> solve X opt year mc 1 0 (horizon_end X 1) (initial_prev X) = Ok (r2, n2) ->
  moving_horizon X opt year mc 0 3 = Ok [made_up_record X I; r1; r2].
Proof.
  intros HI H1 H2 H3. unfold moving_horizon. change (zrange 0 (0 + 3 - 1)) with [0; 1]%Z. change (8760 <? 0 + 3)%Z with false. cbv iota. cbn [foldM]. unfold hour_pass at 1.
  change (0 =? 0)%Z with true. cbn [orb]. rewrite HI. cbn [bind]. rewrite H1. cbn [bind app]. unfold hour_pass. change (1 =? 0)%Z with false. change (1 =? 8758)%Z with false. cbn [orb].
  change (pidx [initial_prev X; n1] (Z.to_nat (1 - 0))) with (Ok n1). cbn [bind]. rewrite H2, H3. cbn [bind app]. reflexivity.
Qed.
Lemma solved (x : res (record * prev)) (check : record -> prev -> bool) : match x with Ok (rc, n) => check rc n | Err _ => false end = true -> exists rc n, x = Ok (rc, n) /\ check rc n = true.
Proof. destruct x as [(rc, n)|]; [|discriminate]. intro H. exists rc, n. split; [reflexivity|exact H]. Qed.
Lemma solve_refused X opt year mc hour first fh pv b e : make_problem X year mc hour first fh pv = Ok b -> opt b = Err e -> solve X opt year mc hour first fh pv = Err e.
Proof. intros HB HO. unfold solve. rewrite HB. cbn [bind]. rewrite HO. reflexivity. Qed.
Theorem C115_planned_reset_refuted : exists dyn X opt year mc rs, full_year year /\ mpc_run X opt year 0 3 = Ok rs /\ pre_calculation X year 0 3 = Ok mc /\ conservative dyn /\
  (forall i rc, nth_error rs (S i) = Some rc -> exists pv, plan_record dyn X opt year mc (0 + Z.of_nat i) 0 (horizon_end X (0 + Z.of_nat i)) pv rc) /\
  electric_backup X /\ a_efficiency (p_aux (m_plant X)) == 1 /\ battery_ok (p_battery (m_plant X)) /\
  over_run planned_out (tl rs) == 10 /\ last_level rs - first_level rs == - (5) /\ over_run electricity_in (tl rs) == 0.
Proof.
  set (P := demo full_battery 0 0 (simple_tank 0 0 0) all13 all15). set (X := two_hours P). set (year := short_year demand_hour demand_hour demand_hour). set (opt := fails_unless_full serving_point).
  assert (OK : battery_ok full_battery) by (unfold battery_ok, full_battery; cbn; repeat split; lra).
  destruct (solved (solve X opt year [0; 0; 0; 0; 0] 0 0 2 (initial_prev X)) (fun rc n => (qeq (planned_out (rf rc)) 5 && qeq (electricity_in (rf rc)) 0 && qeq (v_soc_ES (pr_point n)) 5)%bool)) as (rc1 & n1 & E1 & K1); [vm_compute; reflexivity|].
  destruct (solved (solve X opt year [0; 0; 0; 0; 0] 1 0 3 (initial_prev X)) (fun rc n => (qeq (planned_out (rf rc)) 5 && qeq (electricity_in (rf rc)) 0 && qeq (rf rc ES_final_soc) 5)%bool)) as (rc2 & n2 & E2 & K2); [vm_compute; reflexivity|].
  apply andb_prop in K1. destruct K1 as (K1 & B3). apply andb_prop in K1. destruct K1 as (B1 & B2). apply andb_prop in K2. destruct K2 as (K2 & A3). apply andb_prop in K2. destruct K2 as (A1 & A2). apply qeq_true_inv in B1, B2, B3, A1, A2, A3.
  assert (E3 : solve X opt year [0; 0; 0; 0; 0] 1 0 3 n1 = Err SystemError).
  { clear - B3. apply (solve_refused X opt year _ 1 0 3 n1 (short_problem full_battery 0 0 n1 demand_hour demand_hour)); [reflexivity|].
    unfold opt, fails_unless_full, short_problem. cbn [b_start]. change (v_soc_ES (start_point (pr_point n1) 0)) with (v_soc_ES (pr_point n1)).
    destruct (qeq_spec (v_soc_ES (pr_point n1)) 10) as [F|F]; [|reflexivity]. rewrite B3 in F. discriminate F. }
  exists (implicit_euler full_battery), X, opt, year, [0; 0; 0; 0; 0], [made_up_record X demand_hour; rc1; rc2].
  split; [apply short_year_ok|]. split.
  { unfold mpc_run. unfold X, P, year. rewrite short_capacities. cbn [bind]. apply (three_records_reset _ _ _ _ demand_hour rc1 n1 rc2 n2 SystemError); [reflexivity|exact E1|exact E3|exact E2]. }
  split; [apply short_capacities|]. split; [apply euler_conservative; exact OK|]. split.
  { assert (S0 : v_soc_ES (pr_point (initial_prev X)) = init_state full_battery) by reflexivity.
    intros [|[|i]] rc H; cbn [nth_error] in H; [| |destruct i; discriminate]; injection H as <-; exists (initial_prev X), (short_problem full_battery 0 0 (initial_prev X) demand_hour demand_hour),
      [start_point (pr_point (initial_prev X)) 0; serving_point (phour_of X demand_hour)].
    - exists n1. split; [reflexivity|]. split; [reflexivity|]. split; [|exact E1]. easy_plan S0.
    - exists n2. split; [reflexivity|]. split; [reflexivity|]. split; [|exact E2]. easy_plan S0. }
  split; [reflexivity|]. split; [reflexivity|]. split; [exact OK|].
  cbn [tl]. unfold over_run, last_level, first_level. cbn [map rev app]. rewrite !qsum_cons. change (qsum []) with 0.
  change (rf (made_up_record X demand_hour) ES_final_soc) with (init_state full_battery). assert (Z : init_state full_battery == 10) by reflexivity.
  repeat match goal with |- _ /\ _ => split end; [lra| |lra]. rewrite A3, Z. reflexivity.
Qed.
Print Assumptions C115_planned_reset_refuted.
