(** The two controllers side by side: property C114. *)
From Verif Require Import Base BaseL M_Battery S_Battery L_Battery M_HeatPump S_HeatPump L_HeatPump M_Tools M_FixedOrder S_FixedOrder
  L_FixedOrder L_FixedOrderSign L_FixedOrderHour L_FixedOrderProps L_FixedOrderRun L_Grid P_FixedOrder S_HeatPumpSize M_Mpc S_Mpc L_Mpc L_MpcRecord L_MpcRun L_MpcObjective P_Mpc S_MpcOptimal L_MpcOptimal P_MpcOptimal S_Compare L_Compare.

(** In a plant without stores an hour planned ahead costs no more than the same hour in the fixed order, whatever came before. *)
Theorem C114_hour_partial : forall dyn X opt year mc hour first fh pv rcM I t n soc rcF,
  best_record dyn X opt year mc hour first fh pv rcM -> Forall (fun c => c == 0) mc -> label year (hour + 1) = Ok I ->
  without_stores (m_plant X) -> electric_backup X -> good_hour (m_plant X) I soc -> serves_all (m_plant X) I -> undisturbed (m_plant X) I t n soc ->
  hour_step (m_plant X) I t n soc = Ok rcF -> rf rcF GRID_cashflow <= rf rcM GRID_cashflow.
Proof.
  intros dyn X opt year mc hour first fh pv rcM I t n soc rcF (b & vs & nx & HB & HO & HBest & HS) Hmc HI (W1 & W2 & W3) He G SA (Q & Hmin) HF.
  destruct (solve_inv _ _ _ _ _ _ _ _ _ _ HS) as (b' & vs' & v & c & d & s & I' & p & n' & r & HB' & HV' & H1 & HN & HFN & HI' & Hp & -> & HA & -> & ->).
  assert (b' = b) by congruence. subst b'. assert (vs' = vs) by congruence. subst vs'. assert (I' = I) by congruence. subst I'. clear HB' HV' HI' HN HFN HS.
  destruct (make_problem_inv _ _ _ _ _ _ _ _ HB) as (_ & _ & _ & _ & HM & Ebt & E1 & E2 & E3 & E4). assert (Hel : is_electric (m_plant X) = true) by (apply electric_iff; exact He). rewrite Hel in E1, E2.
  pose proof (storeless_hour _ _ _ _ _ _ G Q W1 W3 SA He HF) as R.
  destruct HBest as ((FE & H0) & HBest). pose proof FE as (_ & _ & HC). destruct (HC O v H1) as (q & cap & Hq & Hcap & C). assert (q = phour_of X I) by congruence. subst q.
  assert (Zc : cap == 0). { apply (proj1 (Forall_forall _ _) (pslice_Forall (fun c => c == 0) (Z.to_nat (hour - first)) (Z.to_nat (fh - first)) mc Hmc)). rewrite <- HM. exact (nth_error_In _ _ Hcap). }
  rewrite <- Ebt in W1, W2. pose proof G as (_ & HIo & _).
  pose proof (as_plan_constraints X I b cap v rcF E1 E3 W1 W2 HIo Hmin Zc C R) as C'.
  pose proof (as_plan_cost X I b v rcF E2 E4 HIo R) as K1.
  pose proof (plan_cost_recorded X I b cap v E1 E2 E4 W1 W2 HIo Zc C c d r Hel HA Ebt) as K2. cbn [rf]. rewrite K2.
  set (x := as_plan (phour_of X I) (rf rcF) v) in *.
  assert (N : plan_of dyn b (replace 1 x vs)).
  { split; [|rewrite replace_nth; cbn [Nat.eqb]; exact H0]. apply (replace_feasible dyn b vs 0 (phour_of X I) cap v); try assumption. reflexivity. }
  specialize (HBest _ N). unfold objective in HBest. destruct vs as [|v0 vs]; [discriminate H0|]. cbn [replace tl] in HBest. destruct (b_hours b) as [|p0 ps]; [discriminate Hp|]. cbn [tl nth_error] in *.
  rewrite (replace_costs b ps vs 0 (phour_of X I) v x Hp H1), K1 in HBest.
  destruct (grid_costs _ _ _ _ _ _ HF) as (_ & C1 & C2 & C3). rewrite C3, C1, C2.
  setoid_replace (rf rcF GRID_total_export * p_export_price (m_plant X) / 1000 - rf rcF GRID_total_import * i_import_price I / 1000)
    with (- ((rf rcF GRID_total_import * i_import_price I - rf rcF GRID_total_export * p_export_price (m_plant X)) / 1000)) by field.
  revert HBest. generalize (running_costs b ps vs), (running_cost b (phour_of X I) v), ((rf rcF GRID_total_import * i_import_price I - rf rcF GRID_total_export * p_export_price (m_plant X)) / 1000). intros; lra.
Qed.
Print Assumptions C114_hour_partial.

Lemma earned_le rs rs' : length rs = length rs' -> (forall i a b, nth_error rs (S i) = Some a -> nth_error rs' (S i) = Some b -> rf a GRID_cashflow <= rf b GRID_cashflow) -> earned rs <= earned rs'.
Proof.
  destruct rs as [|x rs], rs' as [|y rs']; cbn [length]; intro L; try discriminate L; intro H; unfold earned; cbn [tl]; [cbn; lra|]. cbn [nth_error] in H. injection L as L. clear x y.
  revert rs' L H. induction rs as [|a rs IH]; intros [|b rs'] L H; cbn [length] in L; try discriminate L; [cbn; lra|]. cbn [map]. rewrite !qsum_cons.
  apply Qplus_le_compat; [exact (H O a b eq_refl eq_refl)|]. apply IH; [lia|]. intros i. exact (H (S i)).
Qed.
(** Over a run: hour by hour from the second on, and in total. *)
Theorem C114_run_partial : forall dyn X opt year mc first n rsM rsF, (2 <= n)%Z ->
  without_stores (m_plant X) -> electric_backup X -> plant_ok (m_plant X) ->
  (forall I, In I year -> hour_ok (m_plant X) I /\ serves_all (m_plant X) I /\ (forall ps, processes_of (m_plant X) I ps -> order_ok ps)) ->
  run_timesteps (m_plant X) year first n = Ok rsF ->
  (forall i I, nth_error year (Z.to_nat (first + Z.of_nat i)) = Some I -> undisturbed (m_plant X) I (first + Z.of_nat i) (fst (state_before (m_plant X) rsF i)) (snd (state_before (m_plant X) rsF i))) ->
  mpc_run X opt year first n = Ok rsM -> pre_calculation X year first n = Ok mc -> best_run dyn X opt year mc first rsM ->
  length rsM = length rsF /\
  (forall i rcM rcF, nth_error rsM (S i) = Some rcM -> nth_error rsF (S i) = Some rcF -> rf rcF GRID_cashflow <= rf rcM GRID_cashflow) /\
  earned rsF <= earned rsM.
Proof.
  intros dyn X opt year mc first n rsM rsF Hn W He HP HY RF HQ RM HM HB.
  assert (L : length rsM = length rsF).
  { rewrite (run_length _ _ _ _ _ RF). unfold mpc_run in RM. rewrite HM in RM. cbn [bind] in RM. destruct (moving_horizon_inv _ _ _ _ _ _ _ RM) as (_ & _ & K). destruct (K Hn) as (K' & _). lia. }
  assert (K : forall i rcM rcF, nth_error rsM (S i) = Some rcM -> nth_error rsF (S i) = Some rcF -> rf rcF GRID_cashflow <= rf rcM GRID_cashflow).
  { intros i rcM rcF H1 H2. destruct (run_steps _ _ _ _ _ _ _ RF H2) as (I & T0 & HI & HS). destruct (HB i rcM H1) as (pv & BR).
    destruct (HY I (nth_error_In _ _ HI)) as (Y1 & Y2 & Y3). pose proof (HQ (S i) I HI) as Q.
    refine (C114_hour_partial dyn X opt year mc _ first _ pv rcM I _ _ _ rcF BR (max_cap_zero X year first n mc (proj2 (proj2 W)) HM) _ W He _ Y2 Q HS).
    - apply label_nth; [lia|]. replace (first + Z.of_nat i + 1)%Z with (first + Z.of_nat (S i))%Z by lia. exact HI.
    - split; [exact HP|]. split; [exact Y1|]. split; [|exact Y3]. cbn [state_before]. destruct (nth_error rsF i) as [rc0|] eqn:E0.
      + pose proof (run_soc_range _ _ _ _ _ (proj1 (proj1 HP)) RF) as F. exact (proj1 (Forall_forall _ _) F rc0 (nth_error_In _ _ E0)).
      + exfalso. apply nth_error_None in E0. assert (nth_error rsF (S i) <> None) by congruence. apply nth_error_Some in H. lia. }
  split; [exact L|]. split; [exact K|]. apply earned_le; [symmetry; exact L|]. intros i a b Ha Hb. exact (K i b a Hb Ha).
Qed.
Print Assumptions C114_run_partial.

(** ** Runs of three hours with a horizon of two *)
Definition short_year (r0 r1 r2 : hour_in) : list hour_in := r0 :: r1 :: r2 :: repeat r2 (ANNUAL_HOURS - 3).
Lemma short_year_ok r0 r1 r2 : full_year (short_year r0 r1 r2).
Proof. unfold full_year, short_year. cbn [length]. rewrite repeat_length. pose proof ANNUAL_HOURS_Z. lia. Qed.
Definition answer_by (plan : phour -> point) : optimiser := fun b => Ok (match b_hours b with [] => [] | _ :: r => b_start b :: map plan r end).
Lemma three_records X opt year mc I r1 n1 r2 n2 : label year 0 = Ok I -> solve X opt year mc 0 0 (horizon_end X 0) (initial_prev X) = Ok (r1, n1) ->
  solve X opt year mc 1 0 (horizon_end X 1) n1 = Ok (r2, n2) -> moving_horizon X opt year mc 0 3 = Ok [made_up_record X I; r1; r2].
Proof.
  intros HI H1 H2. unfold moving_horizon. change (zrange 0 (0 + 3 - 1)) with [0; 1]%Z. change (8760 <? 0 + 3)%Z with false. cbv iota. cbn [foldM]. unfold hour_pass at 1.
  change (0 =? 0)%Z with true. cbn [orb]. rewrite HI. cbn [bind]. rewrite H1. cbn [bind app]. unfold hour_pass. change (1 =? 0)%Z with false. change (1 =? 8758)%Z with false. cbn [orb].
  change (pidx [initial_prev X; n1] (Z.to_nat (1 - 0))) with (Ok n1). cbn [bind]. rewrite H2. cbn [bind app]. reflexivity.
Qed.
Section Short.
Variables (b : battery) (hp mo : Q) (plan : phour -> point) (r0 r1 r2 : hour_in).
Let P := demo b hp mo (simple_tank 0 0 0) all13 all15.
Let X := two_hours P.
Let year := short_year r0 r1 r2.
Let dyn := implicit_euler b.
Definition short_problem (pv : prev) (I I' : hour_in) : problem :=
  {| b_start := start_point (pr_point pv) 0; b_hours := [phour_of X I; phour_of X I']; b_max_cap := [0; 0]; b_battery := b; b_electric := true; b_aux_cost := None; b_aux_cap := 30; b_export_cost := 40 |}.
Hypothesis HB1 : forall pv, v_soc_ES (pr_point pv) = init_state b -> best dyn (short_problem pv r0 r1) [start_point (pr_point pv) 0; plan (phour_of X r1)].
Hypothesis HB2 : forall pv, v_soc_ES (pr_point pv) = v_soc_ES (plan (phour_of X r1)) -> best dyn (short_problem pv r1 r2) [start_point (pr_point pv) 0; plan (phour_of X r2)].
Variables (c1 c2 : fields -> bool).
Hypothesis HC1 : match solve X (answer_by plan) year [0; 0; 0; 0; 0] 0 0 2 (initial_prev X) with Ok (rc, _) => c1 (rf rc) | Err _ => false end = true.
Hypothesis HC2 : forall pv, match solve X (answer_by plan) year [0; 0; 0; 0; 0] 1 0 3 pv with Ok (rc, _) => c2 (rf rc) | Err _ => false end = true.
Lemma short_capacities : pre_calculation X year 0 3 = Ok [0; 0; 0; 0; 0].
Proof.
  destruct (pre_calculation_ok X year 0 3 (short_year_ok _ _ _)) as (arr & E & L & N); try (cbn; lia).
  { split; [intros; eexists; reflexivity|intros; eexists; reflexivity]. }
  rewrite E. f_equal.
  assert (A : forall k, (k < 5)%nat -> nth_error arr k = Some 0).
  { intros k Hk. destruct (N (Z.of_nat k)) as (c & (I & _ & Hc) & Hn); [cbn; lia|]. cbn in Hc. assert (c = 0) by congruence. subst c. replace (Z.to_nat (Z.of_nat k - 0)) with k in Hn by lia. exact Hn. }
  change (Z.to_nat (3 + m_horizon X)) with 5%nat in L. pose proof (A 0%nat ltac:(lia)). pose proof (A 1%nat ltac:(lia)). pose proof (A 2%nat ltac:(lia)). pose proof (A 3%nat ltac:(lia)). pose proof (A 4%nat ltac:(lia)). clear - L H H0 H1 H2 H3.
  destruct arr as [|a [|a1 [|a2 [|a3 [|a4 [|a5 arr]]]]]]; try discriminate L. cbn in *. congruence.
Qed.
Lemma short_run : exists rs rc1 rc2, mpc_run X (answer_by plan) year 0 3 = Ok rs /\ best_run dyn X (answer_by plan) year [0; 0; 0; 0; 0] 0 rs /\
  tl rs = [rc1; rc2] /\ c1 (rf rc1) = true /\ c2 (rf rc2) = true.
Proof.
  pose proof HC1 as K1. destruct (solve X (answer_by plan) year [0; 0; 0; 0; 0] 0 0 2 (initial_prev X)) as [[rc1 n1]|] eqn:E1; [|discriminate].
  pose proof (HC2 n1) as K2. destruct (solve X (answer_by plan) year [0; 0; 0; 0; 0] 1 0 3 n1) as [[rc2 n2]|] eqn:E2; [|discriminate].
  exists [made_up_record X r0; rc1; rc2], rc1, rc2. split.
  { unfold mpc_run. rewrite short_capacities. cbn [bind]. apply (three_records _ _ _ _ r0 rc1 n1 rc2 n2); [reflexivity|exact E1|exact E2]. }
  split; [|auto]. intros [|[|i]] rc H; cbn [nth_error] in H; [| |destruct i; discriminate].
  - assert (rc = rc1) by congruence. subst rc. exists (initial_prev X), (short_problem (initial_prev X) r0 r1), [start_point (pr_point (initial_prev X)) 0; plan (phour_of X r1)], n1.
    split; [reflexivity|]. split; [reflexivity|]. split; [apply HB1; reflexivity|exact E1].
  - assert (rc = rc2) by congruence. subst rc. exists n1, (short_problem n1 r1 r2), [start_point (pr_point n1) 0; plan (phour_of X r2)], n2.
    split; [reflexivity|]. split; [reflexivity|]. split; [|exact E2]. apply HB2. destruct (solve_inv _ _ _ _ _ _ _ _ _ _ E1) as (b1 & vs & v & c & d & s & I & p & n & r & B & V & V1 & _ & _ & _ & _ & _ & _ & _ & ->).
    cbn [pr_point with_tank v_soc_ES]. change (make_problem X year [0; 0; 0; 0; 0] 0 0 2 (initial_prev X)) with (Ok (short_problem (initial_prev X) r0 r1)) in B. assert (b1 = short_problem (initial_prev X) r0 r1) by congruence. subst b1.
    unfold answer_by, short_problem in V. cbn [b_hours b_start map] in V. assert (vs = [start_point (pr_point (initial_prev X)) 0; plan (phour_of X r1)]) by congruence. subst vs. cbn in V1. congruence.
Qed.
End Short.
Lemma short_best b hp mo pv I I' w :
  constraints (short_problem b hp mo pv I I') (phour_of (two_hours (demo b hp mo (simple_tank 0 0 0) all13 all15)) I') 0 w ->
  implicit_euler b (storage_columns [start_point (pr_point pv) 0; w]) ->
  (forall v, constraints (short_problem b hp mo pv I I') (phour_of (two_hours (demo b hp mo (simple_tank 0 0 0) all13 all15)) I') 0 v -> implicit_euler b (storage_columns [start_point (pr_point pv) 0; v]) ->
     running_cost (short_problem b hp mo pv I I') (phour_of (two_hours (demo b hp mo (simple_tank 0 0 0) all13 all15)) I') w <=
     running_cost (short_problem b hp mo pv I I') (phour_of (two_hours (demo b hp mo (simple_tank 0 0 0) all13 all15)) I') v) ->
  best (implicit_euler b) (short_problem b hp mo pv I I') [start_point (pr_point pv) 0; w].
Proof.
  intros HC HD HM. split.
  - split; [|reflexivity]. split; [reflexivity|]. split; [exact HD|]. intros [|k] v E; [|destruct k; discriminate E]. cbn [nth_error] in E. assert (v = w) by congruence. subst v.
    do 2 eexists. split; [reflexivity|]. split; [reflexivity|]. exact HC.
  - intros vs ((L & D & F) & H0). destruct vs as [|v0 [|v [|u vs]]]; try discriminate L. cbn in H0. assert (v0 = start_point (pr_point pv) 0) by congruence. subst v0.
    destruct (F O v eq_refl) as (p & c & Hp & Hc & C). cbn in Hp, Hc. assert (E1 : p = phour_of (two_hours (demo b hp mo (simple_tank 0 0 0) all13 all15)) I') by congruence. assert (c = 0) by congruence. subst p c.
    pose proof (HM v C D) as M. unfold objective. cbn [short_problem b_hours tl running_costs]. lra.
Qed.
Definition plain_battery (cap : Q) : battery :=
  {| b_capacity := cap; b_initial_state := 0; b_charge_max := cap; b_discharge_max := cap; b_charge_eff := 1; b_discharge_eff := 1; b_self_discharge := 0 |}.
Definition plain_point (p : phour) : point :=
  {| v_RES_ed := pmin (q_RES p) (q_elec p); v_export := q_RES p - pmin (q_RES p) (q_elec p); v_imp_ed := q_elec p - pmin (q_RES p) (q_elec p);
     v_HPtrd := 0; v_HPtrs := 0; v_HPtid := 0; v_HPtis := 0; v_HPtesd := 0; v_HP_status := 0; v_HPt_var := 0;
     v_TSc := 0; v_TSd := 0; v_soc := 0; v_ESc := 0; v_ESc_res := 0; v_ESc_imp := 0; v_ESd := 0; v_ESd_hp := 0; v_ESd_aux := 0; v_ESd_ed := 0; v_soc_ES := 0;
     v_aux_rd := 0; v_aux_rs := 0; v_aux_d := 0; v_aux_s := 0; v_aux := 0 |}.
Lemma no_minimum P I t n soc : minimum_heat P I == 0 -> 0 <= duty (i_perf I) -> undisturbed P I t n soc.
Proof.
  intros M D. split; [|lra]. intros c rc _. destruct (Qlt_le_dec (rf rc HP_heat_total_output) 0) as [L|L]; [right|left; lra].
  unfold threshold. destruct (qlt _ _); lra.
Qed.
Ltac all_known C := let HS := fresh "HS" in let HE := fresh "HE" in let HL := fresh "HL" in
  destruct C as (HS & HE & HL); all_signs HS;
  cbn [short_problem b_electric] in HE; unfold electric_equations in HE; destruct HE as (E1 & E2 & E3 & E4 & E5 & E6 & E7 & E8 & E9);
  destruct HL as (L1 & L2 & L3 & L4 & L5 & L6 & L7 & L8 & L9 & L10).
(** Sun, then a demand: 10 kWh can be stored for the next hour *)
Definition quiet_hour := demo_hour 0 0 0 120 2 0.
Definition sun_hour := demo_hour 10 0 0 120 2 0.
Definition demand_hour := demo_hour 0 5 0 120 2 0.
Ltac values := cbn [q_elec q_heat q_cop q_RES q_duty q_HP_min q_price phour_of two_hours m_plant demo p_min_output p_min_runtime short_problem b_battery b_aux_cap b_aux_cost b_export_cost plain_battery b_capacity b_charge_max b_discharge_max b_charge_eff b_discharge_eff b_self_discharge
  demo_hour i_wind i_PV i_elec_demand i_heat_demand i_import_price i_perf cop duty storage_columns map implicit_euler start_point v_soc v_TSc v_TSd v_soc_ES v_ESc v_ESd] in *.
Ltac cheapest v C D := all_known C; unfold quiet_hour, sun_hour, demand_hour in *; values; destruct D as (_ & D & _);
  match goal with |- running_cost ?b ?p ?w <= running_cost ?b ?p v => let x := eval vm_compute in (running_cost b p w) in
    apply Qle_trans with x; [vm_compute; discriminate|] end;
  unfold running_cost, v_HPt; values; match goal with H : v_HP_status v * v_HPt_var v == _ |- _ => rewrite H; clear H end; unfold Qdiv in *; change (/ 1000) with (1 # 1000) in *; change (/ 2) with (1 # 2) in *; lra.
Lemma sun_sold pv : v_soc_ES (pr_point pv) = init_state (plain_battery 20) ->
  best (implicit_euler (plain_battery 20)) (short_problem (plain_battery 20) 0 0 pv quiet_hour sun_hour) [start_point (pr_point pv) 0; plain_point (phour_of (two_hours (demo (plain_battery 20) 0 0 (simple_tank 0 0 0) all13 all15)) sun_hour)].
Proof.
  intro S0. apply short_best.
  - split; [split; [repeat constructor; closed_ineq|closed_ineq]|split; [cbn; repeat split; closed_ineq|unfold limits; repeat split; closed_ineq]].
  - cbn [storage_columns map implicit_euler start_point v_soc v_TSc v_TSd v_soc_ES v_ESc v_ESd]. rewrite S0. cbn. repeat split; closed_ineq.
  - intros v C D. cheapest v C D.
Qed.
Lemma demand_bought pv : v_soc_ES (pr_point pv) = 0 ->
  best (implicit_euler (plain_battery 20)) (short_problem (plain_battery 20) 0 0 pv sun_hour demand_hour) [start_point (pr_point pv) 0; plain_point (phour_of (two_hours (demo (plain_battery 20) 0 0 (simple_tank 0 0 0) all13 all15)) demand_hour)].
Proof.
  intro S0. apply short_best.
  - split; [split; [repeat constructor; closed_ineq|closed_ineq]|split; [cbn; repeat split; closed_ineq|unfold limits; repeat split; closed_ineq]].
  - cbn [storage_columns map implicit_euler start_point v_soc v_TSc v_TSd v_soc_ES v_ESc v_ESd]. rewrite S0. cbn. repeat split; closed_ineq.
  - intros v C D. cbn [storage_columns map implicit_euler start_point v_soc v_TSc v_TSd v_soc_ES v_ESc v_ESd] in D. rewrite S0 in D. cheapest v C D.
Qed.
Lemma plain_battery_ok cap : 0 <= cap -> battery_ok (plain_battery cap).
Proof. intros. unfold battery_ok, plain_battery. cbn. repeat split; lra. Qed.
Lemma short_in (R : hour_in -> Prop) r0 r1 r2 : R r0 -> R r1 -> R r2 -> forall I, In I (short_year r0 r1 r2) -> R I.
Proof. intros H0 H1 H2 I [<-|[<-|[<-|H]]]; auto. apply repeat_spec in H. subst I. exact H2. Qed.
Definition plain_plant (cap hp : Q) : plant := demo (plain_battery cap) hp 0 (simple_tank 0 0 0) all13 all15.
Lemma plain_no_store cap hp : no_store (plain_plant cap hp).
Proof. intros [] n so fl t m H; cbn in H; assert (m = 0) by congruence; subst m; reflexivity. Qed.
Lemma plain_total cap hp : plant_total (plain_plant cap hp).
Proof.
  split; [split; [intros; eexists; reflexivity|intros; eexists; reflexivity]|]. split; [cbn; lra|]. split; [intro H; contradiction H; reflexivity|]. split; eexists; reflexivity.
Qed.
Lemma plain_hours cap hp r0 r1 r2 : (forall I, In I [r0; r1; r2] -> hour_ok (plain_plant cap hp) I) ->
  forall I, In I (short_year r0 r1 r2) -> hour_ok (plain_plant cap hp) I /\ serves_all (plain_plant cap hp) I /\ (forall ps, processes_of (plain_plant cap hp) I ps -> order_ok ps).
Proof.
  intros H. apply short_in; (split; [apply H; cbn; auto|]); (split; [split; [|split]; apply plant_contains; vm_compute; reflexivity|apply plant_orders_ok; vm_compute; reflexivity]).
Qed.
Lemma plain_undisturbed cap hp r0 r1 r2 rs : (forall I, In I [r0; r1; r2] -> hour_ok (plain_plant cap hp) I) ->
  forall i I, nth_error (short_year r0 r1 r2) (Z.to_nat (0 + Z.of_nat i)) = Some I ->
  undisturbed (plain_plant cap hp) I (0 + Z.of_nat i) (fst (state_before (plain_plant cap hp) rs i)) (snd (state_before (plain_plant cap hp) rs i)).
Proof.
  intros H i I HI. apply nth_error_In in HI. assert (D : 0 <= duty (i_perf I)). { apply (plain_hours cap hp r0 r1 r2 H) in HI. apply HI. }
  apply no_minimum; [|exact D]. unfold minimum_heat, plain_plant. cbn [demo p_min_output p_min_runtime]. unfold Qdiv. ring.
Qed.
Lemma demo_hour_ok cap hp pv el he pr c d : 0 <= pv -> 0 <= el -> 0 <= he <= 30 -> 0 < c -> 0 <= d -> (hp == 0 -> d == 0) -> hour_ok (plain_plant cap hp) (demo_hour pv el he pr c d).
Proof.
  intros. unfold hour_ok. cbn. repeat split; try lra; try assumption. intros [] n t m E; assert (m = 0) by congruence; subst m; lra.
Qed.
(** The three hours in the fixed order *)
Lemma short_fixed cap hp r0 r1 r2 (check : list record -> bool) :
  match run_loop (plain_plant cap hp) (short_year r0 r1 r2) (zrange 0 (0 + 3)) (t_init (p_tank (plain_plant cap hp)), init_state (p_battery (plain_plant cap hp))) with Ok rs => check rs | Err _ => false end = true ->
  exists rs, run_timesteps (plain_plant cap hp) (short_year r0 r1 r2) 0 3 = Ok rs /\ check rs = true.
Proof.
  intro H. destruct (run_total (plain_plant cap hp) (short_year r0 r1 r2) 0 3 (plain_total cap hp) (short_year_ok _ _ _)) as (rs & E); [lia|lia|].
  exists rs. split; [exact E|]. destruct (run_inv _ _ _ _ _ E) as (_ & _ & E'). rewrite E' in H. exact H.
Qed.
(** With a battery planning ahead can cost more: the plan for the sunny hour does not see the demand of the hour after its horizon. *)
Theorem C114_refuted : exists dyn X opt year mc rsM rsF, full_year year /\ no_store (m_plant X) /\ electric_backup X /\ plant_ok (m_plant X) /\
  (forall I, In I year -> hour_ok (m_plant X) I /\ serves_all (m_plant X) I /\ (forall ps, processes_of (m_plant X) I ps -> order_ok ps)) /\
  run_timesteps (m_plant X) year 0 3 = Ok rsF /\
  (forall i I, nth_error year (Z.to_nat (0 + Z.of_nat i)) = Some I -> undisturbed (m_plant X) I (0 + Z.of_nat i) (fst (state_before (m_plant X) rsF i)) (snd (state_before (m_plant X) rsF i))) /\
  mpc_run X opt year 0 3 = Ok rsM /\ pre_calculation X year 0 3 = Ok mc /\ best_run dyn X opt year mc 0 rsM /\
  earned rsM == - (2 # 10) /\ earned rsF == 0.
Proof.
  assert (HH : forall I, In I [quiet_hour; sun_hour; demand_hour] -> hour_ok (plain_plant 20 0) I).
  { intros I [<-|[<-|[<-|[]]]]; apply demo_hour_ok; try lra. }
  destruct (short_fixed 20 0 quiet_hour sun_hour demand_hour (fun rs => qeq (earned rs) 0)) as (rsF & RF & KF); [vm_compute; reflexivity|].
  destruct (short_run (plain_battery 20) 0 0 plain_point quiet_hour sun_hour demand_hour sun_sold) with (c1 := fun f : fields => qeq (f GRID_cashflow) (4 # 10)) (c2 := fun f : fields => qeq (f GRID_cashflow) (- (6 # 10))) as (rsM & a & b & RM & BR & T & K1 & K2).
  - intros pv E. apply demand_bought. exact E.
  - vm_compute. reflexivity.
  - intro pv. vm_compute. reflexivity.
  - exists (implicit_euler (plain_battery 20)), (two_hours (plain_plant 20 0)), (answer_by plain_point), (short_year quiet_hour sun_hour demand_hour), [0; 0; 0; 0; 0], rsM, rsF.
    split; [apply short_year_ok|]. split; [apply plain_no_store|]. split; [reflexivity|]. split; [split; [apply plain_battery_ok; lra|]; cbn; repeat split; try lra; discriminate|].
    split; [apply plain_hours; exact HH|]. split; [exact RF|]. split; [apply plain_undisturbed; exact HH|]. split; [exact RM|]. split; [apply short_capacities|]. split; [exact BR|].
    apply qeq_true_inv in KF, K1, K2. split; [|exact KF]. unfold earned. rewrite T. cbn [map]. rewrite !qsum_cons. change (qsum []) with 0. lra.
Qed.
Print Assumptions C114_refuted.
(** A case without stores: power is cheaper to buy than to sell; the plan sells all generation and buys what is needed, the fixed order does not. *)
Definition cheap_hour := demo_hour 5 2 6 30 3 8.
Definition trading_point : point :=
  {| v_RES_ed := 0; v_export := 5; v_imp_ed := 2; v_HPtrd := 0; v_HPtrs := 0; v_HPtid := 6; v_HPtis := 0; v_HPtesd := 0; v_HP_status := 1; v_HPt_var := 6;
     v_TSc := 0; v_TSd := 0; v_soc := 0; v_ESc := 0; v_ESc_res := 0; v_ESc_imp := 0; v_ESd := 0; v_ESd_hp := 0; v_ESd_aux := 0; v_ESd_ed := 0; v_soc_ES := 0;
     v_aux_rd := 0; v_aux_rs := 0; v_aux_d := 0; v_aux_s := 0; v_aux := 0 |}.
Lemma trading_best pv : v_soc_ES (pr_point pv) == 0 ->
  best (implicit_euler (plain_battery 0)) (short_problem (plain_battery 0) 8 0 pv cheap_hour cheap_hour) [start_point (pr_point pv) 0; trading_point].
Proof.
  intro S0. apply short_best.
  - split; [split; [repeat constructor; closed_ineq|closed_ineq]|split; [cbn; repeat split; closed_ineq|unfold limits; repeat split; closed_ineq]].
  - cbn [storage_columns map implicit_euler start_point v_soc v_TSc v_TSd v_soc_ES v_ESc v_ESd trading_point]. rewrite S0. cbn. repeat split; closed_ineq.
  - intros v C D. all_known C. unfold cheap_hour in *. values. destruct D as (D0 & D & _).
    apply Qle_trans with (- (8 # 100)); [vm_compute; discriminate|].
    unfold running_cost, v_HPt. values. rewrite E6. clear E6. unfold Qdiv in *. change (/ 1000) with (1 # 1000) in *. change (/ 3) with (1 # 3) in *. lra.
Qed.
Example C114_case : exists mc rsM rsF, let X := two_hours (plain_plant 0 8) in let year := short_year cheap_hour cheap_hour cheap_hour in
  without_stores (m_plant X) /\ electric_backup X /\ plant_ok (m_plant X) /\
  (forall I, In I year -> hour_ok (m_plant X) I /\ serves_all (m_plant X) I /\ (forall ps, processes_of (m_plant X) I ps -> order_ok ps)) /\
  run_timesteps (m_plant X) year 0 3 = Ok rsF /\
  (forall i I, nth_error year (Z.to_nat (0 + Z.of_nat i)) = Some I -> undisturbed (m_plant X) I (0 + Z.of_nat i) (fst (state_before (m_plant X) rsF i)) (snd (state_before (m_plant X) rsF i))) /\
  mpc_run X (answer_by (fun _ => trading_point)) year 0 3 = Ok rsM /\ pre_calculation X year 0 3 = Ok mc /\
  best_run (implicit_euler (plain_battery 0)) X (answer_by (fun _ => trading_point)) year mc 0 rsM /\ earned rsF == 8 # 100 /\ earned rsM == 16 # 100.
Proof.
  assert (HH : forall I, In I [cheap_hour; cheap_hour; cheap_hour] -> hour_ok (plain_plant 0 8) I).
  { intros I [<-|[<-|[<-|[]]]]; apply demo_hour_ok; try lra. }
  destruct (short_fixed 0 8 cheap_hour cheap_hour cheap_hour (fun rs => qeq (earned rs) (8 # 100))) as (rsF & RF & KF); [vm_compute; reflexivity|].
  destruct (short_run (plain_battery 0) 8 0 (fun _ => trading_point) cheap_hour cheap_hour cheap_hour) with (c1 := fun f : fields => qeq (f GRID_cashflow) (8 # 100)) (c2 := fun f : fields => qeq (f GRID_cashflow) (8 # 100)) as (rsM & a & b & RM & BR & T & K1 & K2).
  - intros pv E. apply trading_best. rewrite E. vm_compute. reflexivity.
  - intros pv E. apply trading_best. rewrite E. reflexivity.
  - vm_compute. reflexivity.
  - intro pv. vm_compute. reflexivity.
  - exists [0; 0; 0; 0; 0], rsM, rsF. cbv zeta.
    split; [split; [reflexivity|split; [reflexivity|apply plain_no_store]]|]. split; [reflexivity|]. split; [split; [apply plain_battery_ok; lra|]; cbn; repeat split; try lra; discriminate|].
    split; [apply plain_hours; exact HH|]. split; [exact RF|]. split; [apply plain_undisturbed; exact HH|]. split; [exact RM|]. split; [apply short_capacities|]. split; [exact BR|].
    apply qeq_true_inv in KF, K1, K2. split; [exact KF|]. unfold earned. rewrite T. cbn [map]. rewrite !qsum_cons. change (qsum []) with 0. lra.
Qed.
Print Assumptions C114_case.
