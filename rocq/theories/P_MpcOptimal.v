(** Predictive controller, best plans: properties C111-C113. *)
From Verif Require Import Base BaseL M_Battery S_Battery M_HeatPump S_HeatPump L_HeatPump M_Tools M_FixedOrder S_FixedOrder
  L_FixedOrder L_FixedOrderRun L_Grid P_FixedOrder M_Mpc S_Mpc L_Mpc L_MpcRecord L_MpcRun L_MpcObjective P_Mpc S_MpcOptimal L_MpcOptimal.

(** ** Buying while selling *)
(** A best plan does not buy in an hour in which it sells, unless the price is within 0.01 of the export price or below. *)
Theorem C111_plan : forall dyn b vs k p v, best dyn b vs -> b_electric b = true -> b_aux_cost b = None ->
  nth_error (b_hours b) (S k) = Some p -> nth_error vs (S k) = Some v -> 0 < q_cop p -> b_export_cost b + (1 # 100) < q_price p ->
  0 < v_export v -> bought p v == 0.
Proof.
  intros dyn b vs k p v ((HF & H0) & HB) He Ha Hp Hv Hc Hpr Hx.
  pose proof HF as (HL & HD & HC). destruct (HC k v Hv) as (q & cap & Hq & Hcap & C). assert (q = p) by congruence. subst q. pose proof C as (HS & HE & _).
  rewrite He in HE. destruct HE as (_ & _ & _ & _ & _ & E6 & _). apply signs_inv in HS.
  destruct HS as (_ & _ & S3 & _ & _ & S6 & S7 & _ & _ & _ & _ & _ & _ & S14 & _ & _ & _ & _ & _ & _ & S21 & S22 & _).
  assert (HW : v_ESc_imp v <= bought p v).
  { unfold bought. assert (0 <= (v_HPtid v + v_HPtis v) / q_cop p) by (apply Qle_shift_div_l; [exact Hc|]; lra). lra. }
  destruct (Qlt_le_dec 0 (bought p v)) as [W|W]; [exfalso|lra].
  set (t := pmin 1 (v_export v / bought p v)).
  assert (Ht : 0 < t <= 1 /\ t * bought p v <= v_export v).
  { assert (Hq0 : 0 < v_export v / bought p v) by (apply Qlt_shift_div_l; [exact W|]; lra).
    assert (Hq1 : v_export v / bought p v * bought p v == v_export v) by (field; lra).
    unfold t, pmin. generalize dependent (v_export v / bought p v). intros x X1 X2. destruct (qlt_spec x 1); [split; [lra|lra]|]. split; [lra|]. nra. }
  destruct Ht as (Ht & Hte). clearbody t.
  assert (C' : constraints b p cap (use_own p v t)) by (apply own_constraints; try assumption; lra).
  assert (N : plan_of dyn b (replace (S k) (use_own p v t) vs)).
  { split; [|rewrite replace_nth; cbn [Nat.eqb]; exact H0]. apply (replace_feasible dyn b vs k p cap v); try assumption. reflexivity. }
  specialize (HB _ N). unfold objective in HB. destruct vs as [|v0 vs]; [discriminate H0|]. cbn [replace tl] in HB. destruct (b_hours b) as [|p0 ps]; [discriminate Hp|]. cbn [tl nth_error] in *.
  rewrite (replace_costs b ps vs k p v (use_own p v t) Hp Hv), (own_cost b p v t Ha Hc) in HB by (unfold v_HPt; exact E6).
  assert (G : 0 < t * ((q_price p - b_export_cost b) * (1 # 1000) * bought p v - (1 # 100000) * v_ESc_imp v)).
  { setoid_replace 0 with (t * 0) by ring. apply Qmult_lt_l; [lra|].
    assert ((1 # 100) * bought p v < (q_price p - b_export_cost b) * bought p v) by (apply Qmult_lt_r; lra). lra. }
  generalize dependent (t * ((q_price p - b_export_cost b) * (1 # 1000) * bought p v - (1 # 100000) * v_ESc_imp v)). generalize (running_costs b ps vs), (running_cost b p v). intros; lra.
Qed.
Print Assumptions C111_plan.
(** In the record of the hour: nothing is imported for the demand, the heat pump or the battery while something is exported; the recorded import is what the battery gave to the back-up. *)
Theorem C111_record_partial : forall dyn X opt year mc hour first fh pv rc I, best_record dyn X opt year mc hour first fh pv rc -> electric_backup X ->
  label year (hour + 1) = Ok I -> 0 < cop (i_perf I) -> p_export_price (m_plant X) + (1 # 100) < rf rc GRID_import_price -> 0 < rf rc GRID_total_export ->
  rf rc GRID_import_for_elec_demand == 0 /\ rf rc GRID_import_for_heat_pump_total == 0 /\ rf rc GRID_import_for_ES == 0 /\ rf rc GRID_total_import == rf rc ES_discharging_to_aux.
Proof.
  intros dyn X opt year mc hour first fh pv rc I (b & vs & nx & HB & HO & HBest & HS) He HI Hc Hpr Hx.
  destruct (solve_inv _ _ _ _ _ _ _ _ _ _ HS) as (b' & vs' & v & c & d & s & I' & p & n & r & HB' & HV' & H1 & HN & HFN & HI' & Hp & -> & HA & -> & ->).
  assert (b' = b) by congruence. subst b'. assert (vs' = vs) by congruence. subst vs'. assert (I' = I) by congruence. subst I'.
  destruct (make_problem_inv _ _ _ _ _ _ _ _ HB) as (_ & _ & _ & _ & _ & _ & E1 & E2 & _ & E3). assert (Hel : is_electric (m_plant X) = true) by (apply electric_iff; exact He). rewrite Hel in E1, E2.
  pose proof (record_fields X I (phour_of X I) v c d n r HA) as F. cbv zeta in F. cbn [rf] in *.
  repeat match type of F with _ /\ _ => let F1 := fresh "F" in destruct F as [F1 F] end.
  rewrite Hel in *.
  match goal with F : mpc_grid_accounts _ _ _ _ GRID_total_export = _ |- _ => rewrite F in Hx end. match goal with F : mpc_grid_accounts _ _ _ _ GRID_import_price = _ |- _ => rewrite F in Hpr end.
  assert (W : bought (phour_of X I) v == 0) by (apply (C111_plan dyn b vs 0 (phour_of X I) v); try assumption; rewrite E3; exact Hpr).
  destruct HBest as (((_ & _ & HC) & _) & _). destruct (HC O v H1) as (q & cap & Hq & _ & (Sg & EE & _)). assert (q = phour_of X I) by congruence. subst q. rewrite E1 in EE.
  destruct EE as (_ & _ & _ & _ & _ & E6 & E7 & _). apply signs_inv in Sg. destruct Sg as (_ & _ & S3 & _ & _ & S6 & S7 & _ & _ & _ & _ & _ & _ & S14 & _ & _ & _ & _ & _ & _ & S21 & S22 & _).
  unfold bought in W. cbn [phour_of q_cop] in W.
  assert (Hh : 0 <= (v_HPtid v + v_HPtis v) / cop (i_perf I)) by (apply Qle_shift_div_l; [exact Hc|]; lra).
  assert (Hi : v_HPt v / cop (i_perf I) - (v_HPtrd v + v_HPtrs v) / cop (i_perf I) - v_HPtesd v / cop (i_perf I) == (v_HPtid v + v_HPtis v) / cop (i_perf I)).
  { unfold v_HPt. rewrite E6. field. lra. }
  repeat match goal with F : mpc_grid_accounts _ _ _ _ ?k = _ |- context [mpc_grid_accounts _ _ _ _ ?k] => rewrite F end.
  rewrite Hi. split; [lra|]. split; [lra|]. split; [lra|]. rewrite E7. lra.
Qed.
Print Assumptions C111_record_partial.

(** A plant without heat pump, with a battery of 20 kWh, in sunny hours in which only heat is needed *)
Definition seller (hp min_output : Q) : plant := demo (demo_battery 20 1) hp min_output (simple_tank 0 0 0) all13 all15.
Definition selling_hour (duty_ heat : Q) : hour_in := demo_hour 5 0 heat 120 2 duty_.
Definition selling_year (duty_ heat : Q) : list hour_in := selling_hour duty_ heat :: selling_hour duty_ heat :: repeat (selling_hour duty_ heat) (ANNUAL_HOURS - 2).
Lemma selling_year_ok d h : full_year (selling_year d h).
Proof. unfold full_year, selling_year. cbn [length]. rewrite repeat_length. pose proof ANNUAL_HOURS_Z. lia. Qed.
(** The battery heats, and all generation is sold. *)
Definition heating_plan : point :=
  {| v_RES_ed := 0; v_export := 5; v_imp_ed := 0; v_HPtrd := 0; v_HPtrs := 0; v_HPtid := 0; v_HPtis := 0; v_HPtesd := 0; v_HP_status := 0; v_HPt_var := 0;
     v_TSc := 0; v_TSd := 0; v_soc := 0; v_ESc := 0; v_ESc_res := 0; v_ESc_imp := 0; v_ESd := 5; v_ESd_hp := 0; v_ESd_aux := 5; v_ESd_ed := 0; v_soc_ES := 5;
     v_aux_rd := 0; v_aux_rs := 0; v_aux_d := 0; v_aux_s := 0; v_aux := 5 |}.
(** The battery drives the heat pump at half of its minimum output of 4 kW. *)
Definition half_minimum_plan : point :=
  {| v_RES_ed := 0; v_export := 5; v_imp_ed := 0; v_HPtrd := 0; v_HPtrs := 0; v_HPtid := 0; v_HPtis := 0; v_HPtesd := 2; v_HP_status := 1 # 2; v_HPt_var := 4;
     v_TSc := 0; v_TSd := 0; v_soc := 0; v_ESc := 0; v_ESc_res := 0; v_ESc_imp := 0; v_ESd := 1; v_ESd_hp := 1; v_ESd_aux := 0; v_ESd_ed := 0; v_soc_ES := 9;
     v_aux_rd := 0; v_aux_rs := 0; v_aux_d := 0; v_aux_s := 0; v_aux := 0 |}.
Definition seller_best (hp mo duty_ heat : Q) (w : point) (rc : record) : Prop :=
  best_record (implicit_euler (p_battery (seller hp mo))) (two_hours (seller hp mo)) (answer_with w) (selling_year duty_ heat) [0; 0] 0 0 2 (initial_prev (two_hours (seller hp mo))) rc.
(** Selling all generation and buying nothing cannot be improved. *)
Lemma seller_seen hp mo d h w (check : fields -> bool) :
  match solve (two_hours (seller hp mo)) (answer_with w) (selling_year d h) [0; 0] 0 0 2 (initial_prev (two_hours (seller hp mo))) with Ok (rc, _) => check (rf rc) | Err _ => false end = true ->
  (exists b vs, make_problem (two_hours (seller hp mo)) (selling_year d h) [0; 0] 0 0 2 (initial_prev (two_hours (seller hp mo))) = Ok b /\
     answer_with w b = Ok vs /\ plan_of (implicit_euler (p_battery (seller hp mo))) b vs /\ objective b vs <= - (1 # 5)) ->
  exists rc, seller_best hp mo d h w rc /\ check (rf rc) = true.
Proof.
  intros H (b & vs & H1 & H2 & H3 & H4).
  destruct (solve _ _ _ _ _ _ _ _) as [[rc nx]|e] eqn:E; [|discriminate].
  exists rc. split; [|exact H]. exists b, vs, nx. split; [exact H1|]. split; [exact H2|]. split; [|exact E]. split; [exact H3|].
  intros vs' (F' & _). apply (Qle_trans _ _ _ H4).
  assert (G : Forall (fun p => 0 < q_cop p /\ 0 <= q_price p) (b_hours b) /\ planned_generation b == 5).
  { unfold make_problem in H1. cbn in H1. injection H1 as <-. split; [repeat constructor; cbn; lra|reflexivity]. }
  pose proof (C65_electric_bounded _ _ _ _ _ _ _ _ _ _ H1 eq_refl ltac:(cbn; lra) (proj1 G) F') as L. cbn [two_hours m_plant seller demo p_export_price] in L. rewrite (proj2 G) in L. lra.
Qed.
Ltac seller_plan :=
  do 2 eexists; split; [reflexivity|]; split; [reflexivity|]; split; [|vm_compute; discriminate]; split; [|reflexivity];
  split; [reflexivity|]; split; [cbn; repeat split; closed_ineq|];
  let k := fresh in let u := fresh in let E := fresh in
  intros [|k] u E; [cbn in E|destruct k; discriminate E];
  match type of E with Some ?x = _ => assert (u = x) by congruence; subst u; clear E end;
  do 2 eexists; split; [reflexivity|]; split; [reflexivity|];
  split; [split; [repeat constructor; closed_ineq|closed_ineq]|split; [cbn; repeat split; closed_ineq|unfold limits; repeat split; closed_ineq]].
(** The claim for the recorded total fails: a best plan, 5 kWh sold, and 5 kWh recorded and paid as import at three times the price. *)
Theorem C111_total_refuted : exists dyn X opt year mc hour first fh pv rc I, full_year year /\ best_record dyn X opt year mc hour first fh pv rc /\ electric_backup X /\
  label year (hour + 1) = Ok I /\ 0 < cop (i_perf I) /\ p_export_price (m_plant X) + (1 # 100) < rf rc GRID_import_price /\ rf rc GRID_total_export == 5 /\ rf rc GRID_total_import == 5 /\ 0 < rf rc GRID_import_costs.
Proof.
  destruct (seller_seen 0 0 0 5 heating_plan (fun f => (qeq (f GRID_total_export) 5 && qeq (f GRID_total_import) 5 && qlt 0 (f GRID_import_costs) && qeq (f GRID_import_price) 120)%bool)) as (rc & HO & HC); [vm_compute; reflexivity|seller_plan|].
  exists (implicit_euler (p_battery (seller 0 0))), (two_hours (seller 0 0)), (answer_with heating_plan), (selling_year 0 5), [0; 0], 0%Z, 0%Z, 2%Z, (initial_prev (two_hours (seller 0 0))), rc, (selling_hour 0 5).
  split; [apply selling_year_ok|]. split; [exact HO|]. split; [reflexivity|]. split; [reflexivity|]. split; [cbn; lra|].
  repeat match type of HC with (_ && _)%bool = true => let A := fresh "A" in apply andb_prop in HC as [HC A] end.
  repeat match goal with A : qeq _ _ = true |- _ => apply qeq_true_inv in A | A : qlt _ _ = true |- _ => apply qlt_true in A end.
  split; [cbn [two_hours m_plant seller demo p_export_price]; lra|]. split; [assumption|]. split; assumption.
Qed.
Print Assumptions C111_total_refuted.
(** A case of the record theorem: the battery drives the heat pump, everything generated is sold, nothing is bought. *)
Example C111_case : exists rc, seller_best 8 0 8 2 half_minimum_plan rc /\ 0 < rf rc GRID_total_export /\ rf rc GRID_total_import == 0 /\ rf rc HP_heat_total_output == 2.
Proof.
  destruct (seller_seen 8 0 8 2 half_minimum_plan (fun f => (qlt 0 (f GRID_total_export) && qeq (f GRID_total_import) 0 && qeq (f HP_heat_total_output) 2)%bool)) as (rc & HO & HC); [vm_compute; reflexivity|seller_plan|].
  repeat match type of HC with (_ && _)%bool = true => let A := fresh "A" in apply andb_prop in HC as [HC A] end.
  repeat match goal with A : qeq _ _ = true |- _ => apply qeq_true_inv in A | A : qlt _ _ = true |- _ => apply qlt_true in A end.
  exists rc. split; [exact HO|]. split; [assumption|]. split; assumption.
Qed.
Print Assumptions C111_case.

(** ** A plant no part of which is smaller *)
Theorem C112_plan : forall dyn b b' vs, no_smaller b b' -> 0 <= b_charge_eff (b_battery b) -> 0 <= b_export_cost b -> Forall (fun p => 0 < q_cop p) (b_hours b) ->
  plan_of dyn b vs -> exists vs', plan_of dyn b' vs' /\ objective b' vs' <= objective b vs.
Proof.
  intros dyn b b' vs N Hce Hx HC (HF & H0). exists (adapt_plan b b' vs). pose proof N as (Hst & F & Fc & R & He & He' & _ & _ & Hac & _). split; [split|].
  - apply adapt_feasible; try assumption. congruence.
  - destruct vs as [|v vs]; [discriminate H0|]. cbn. cbn in H0. congruence.
  - apply (adapt_objective dyn); assumption.
Qed.
Print Assumptions C112_plan.
Theorem C112_best : forall dyn b b' vs vs', no_smaller b b' -> 0 <= b_charge_eff (b_battery b) -> 0 <= b_export_cost b -> Forall (fun p => 0 < q_cop p) (b_hours b) ->
  best dyn b vs -> best dyn b' vs' -> objective b' vs' <= objective b vs.
Proof.
  intros dyn b b' vs vs' N Hce Hx HC (HP & _) (_ & HB). destruct (C112_plan dyn b b' vs N Hce Hx HC HP) as (ws & W & L). exact (Qle_trans _ _ _ (HB ws W) L).
Qed.
Print Assumptions C112_best.
(** The problems an hour poses for two plants in the same state *)
Lemma label_pair2 {A B} (R : A -> B -> Prop) l l' t x y : Forall2 R l l' -> label l t = Ok x -> label l' t = Ok y -> R x y.
Proof. intros F Hx Hy. apply label_some in Hx, Hy. exact (Forall2_nth R l l' F _ _ _ (proj2 Hx) (proj2 Hy)). Qed.
Theorem C112_plants : forall X X' year year' mc hour first fh pv b b', plant_no_smaller X X' -> electric_backup X -> Forall2 hour_no_worse year year' ->
  make_problem X year mc hour first fh pv = Ok b -> make_problem X' year' mc hour first fh pv = Ok b' -> no_smaller b b'.
Proof.
  intros X X' year year' mc hour first fh pv b b' (PB & PT & PA & PE & PM & P0 & P1) He F H H'.
  destruct (make_problem_inv _ _ _ _ _ _ _ _ H) as (_ & HL & HH & (I0 & soc & HI0 & HT & HS) & HM & HB & E1 & E2 & E3 & E4).
  destruct (make_problem_inv _ _ _ _ _ _ _ _ H') as (_ & HL' & HH' & (I0' & soc' & HI0' & HT' & HS') & HM' & HB' & E1' & E2' & E3' & E4').
  assert (Hel : is_electric (m_plant X) = true) by (apply electric_iff; exact He).
  assert (Hel' : is_electric (m_plant X') = true) by (apply electric_iff; unfold electric_backup; rewrite <- PA; exact He).
  rewrite Hel in *. rewrite Hel' in *. unfold no_smaller. rewrite HS, HS', HB, HB', E1, E1', E2, E2', E3, E3', E4, E4', HM, HM'.
  pose proof (label_pair2 _ _ _ _ _ _ F HI0 HI0') as (_ & _ & _ & _ & T1 & T2 & _). rewrite <- PT, <- T1, <- T2, HT in HT'. injection HT' as <-.
  repeat match goal with |- _ /\ _ => split end; try reflexivity; try assumption.
  - assert (LL : length (b_hours b) = length (b_hours b')) by lia. clear - HH HH' LL F P0 P1.
    assert (G : forall k p p', nth_error (b_hours b) k = Some p -> nth_error (b_hours b') k = Some p' -> no_worse p p').
    { intros k p p' Hp Hp'. destruct (HH k p Hp) as (I & HI & ->). destruct (HH' k p' Hp') as (I' & HI' & ->). pose proof (label_pair2 _ _ _ _ _ _ F HI HI') as (G1 & G2 & G3 & G4 & _ & _ & G7 & G8 & G9).
      unfold no_worse, phour_of. cbn [q_price q_RES q_elec q_heat q_cop q_duty q_HP_min]. repeat match goal with |- _ /\ _ => split end; try assumption.
      setoid_replace (duty (i_perf I') * p_min_output (m_plant X') * p_min_runtime (m_plant X') / 60 / 100) with ((p_min_output (m_plant X') * p_min_runtime (m_plant X')) * (1 # 6000) * duty (i_perf I')) by field.
      generalize dependent (p_min_output (m_plant X') * p_min_runtime (m_plant X')). intros m P0 P1. nra. }
    clear - G LL. revert LL G. generalize (b_hours b), (b_hours b'). induction l as [|p l IH]; intros [|p' l'] LL G; cbn in LL; try discriminate; constructor; [exact (G O p p' eq_refl eq_refl)|]. apply IH; [lia|]. intros k. exact (G (S k)).
  - generalize (pslice (Z.to_nat (hour - first)) (Z.to_nat (fh - first)) mc). induction l; constructor; [apply Qle_refl|assumption].
Qed.
Print Assumptions C112_plants.
(** A case: twice the battery, a heat pump where there was none, 2 kWh more sun *)
Example C112_case : exists b b' vs,
  plant_no_smaller (two_hours (seller 0 0)) (two_hours (demo (demo_battery 40 1) 8 50 (simple_tank 0 0 0) all13 all15)) /\
  hour_no_worse (selling_hour 0 5) (demo_hour 7 0 5 110 2 8) /\
  make_problem (two_hours (seller 0 0)) (selling_year 0 5) [0; 0] 0 0 2 (initial_prev (two_hours (seller 0 0))) = Ok b /\
  make_problem (two_hours (demo (demo_battery 40 1) 8 50 (simple_tank 0 0 0) all13 all15)) (map (fun _ => demo_hour 7 0 5 110 2 8) (selling_year 0 5)) [0; 0] 0 0 2 (initial_prev (two_hours (seller 0 0))) = Ok b' /\
  no_smaller b b' /\ plan_of (implicit_euler (p_battery (seller 0 0))) b vs /\ objective b vs == - (1 # 5).
Proof.
  assert (PP : plant_no_smaller (two_hours (seller 0 0)) (two_hours (demo (demo_battery 40 1) 8 50 (simple_tank 0 0 0) all13 all15))).
  { unfold plant_no_smaller, roomier. cbn. repeat match goal with |- _ /\ _ => split end; try reflexivity; try lra. }
  assert (PH : hour_no_worse (selling_hour 0 5) (demo_hour 7 0 5 110 2 8)).
  { unfold hour_no_worse. cbn. repeat match goal with |- _ /\ _ => split end; try reflexivity; try lra. }
  assert (B : exists b vs, make_problem (two_hours (seller 0 0)) (selling_year 0 5) [0; 0] 0 0 2 (initial_prev (two_hours (seller 0 0))) = Ok b /\ answer_with heating_plan b = Ok vs /\ plan_of (implicit_euler (p_battery (seller 0 0))) b vs /\ objective b vs <= - (1 # 5)) by seller_plan.
  destruct B as (b & vs & H1 & H2 & H3 & H4).
  assert (B' : exists b', make_problem (two_hours (demo (demo_battery 40 1) 8 50 (simple_tank 0 0 0) all13 all15)) (map (fun _ => demo_hour 7 0 5 110 2 8) (selling_year 0 5)) [0; 0] 0 0 2 (initial_prev (two_hours (seller 0 0))) = Ok b') by (eexists; reflexivity).
  destruct B' as (b' & H1'). exists b, b', vs. split; [exact PP|]. split; [exact PH|]. split; [exact H1|]. split; [exact H1'|]. split; [|split; [exact H3|]].
  - refine (C112_plants _ _ _ _ _ _ _ _ _ _ _ PP eq_refl _ H1 H1').
    assert (G : forall l, Forall (fun I => I = selling_hour 0 5) l -> Forall2 hour_no_worse l (map (fun _ => demo_hour 7 0 5 110 2 8) l)) by (induction 1; constructor; [subst; exact PH|assumption]).
    apply G. unfold selling_year. constructor; [reflexivity|]. constructor; [reflexivity|]. apply Forall_forall. intros x Hx. exact (repeat_spec _ _ _ Hx).
  - apply Qle_antisym; [exact H4|]. unfold make_problem in H1. cbn in H1. injection H1 as <-. cbn in H2. injection H2 as <-. vm_compute. discriminate.
Qed.
Print Assumptions C112_case.

(** ** The minimum output of the heat pump *)
(** Were the on/off variable 0 or 1, the minimum output would be kept. *)
Theorem C113_minimum_partial : forall b p cap v, constraints b p cap v -> v_HP_status v == 0 \/ v_HP_status v == 1 -> minimum_kept p v.
Proof.
  intros b p cap v (_ & _ & (_ & L & _)) [E|E]; unfold minimum_kept, v_HPt; rewrite E; [left; ring|right]. lra.
Qed.
Print Assumptions C113_minimum_partial.
(** But it is a number between 0 and 1, and so the minimum output has no effect at all: whatever is entered, the possible plans and their costs are the same. *)
Theorem C113_no_effect : forall dyn b b' vs, Forall2 other_minimum (b_hours b) (b_hours b') -> Forall (fun p => q_HP_min p <= q_duty p) (b_hours b') ->
  b_start b = b_start b' -> b_max_cap b = b_max_cap b' -> b_battery b = b_battery b' -> b_electric b = b_electric b' -> b_aux_cost b = b_aux_cost b' -> b_aux_cap b = b_aux_cap b' -> b_export_cost b = b_export_cost b' ->
  0 <= b_charge_eff (b_battery b) -> plan_of dyn b vs -> exists vs', plan_of dyn b' vs' /\ Forall2 same_plan vs vs' /\ objective b' vs' == objective b vs.
Proof.
  intros dyn b b' vs F M Es Em Eb Ee Ea Ec Ex Hce (HF & H0). exists (adapt_plan b b' vs).
  assert (N : Forall2 no_worse (b_hours b) (b_hours b')).
  { clear - F M. induction F as [|p p' l l' E F IH]; constructor; [|apply Forall_cons_iff in M; apply IH, M]. apply Forall_cons_iff in M. destruct M as (M & _), E as (E1 & E2 & E3 & E4 & E5 & E6).
    unfold no_worse. rewrite E1, E2, E6. repeat match goal with |- _ /\ _ => split end; try assumption; apply Qle_refl. }
  pose proof HF as (HL & _ & HC). split; [split|].
  - apply adapt_feasible; try assumption; [rewrite <- Em; generalize (b_max_cap b); induction l; constructor; [apply Qle_refl|assumption]|unfold roomier; rewrite Eb; repeat match goal with |- _ /\ _ => split end; try reflexivity; apply Qle_refl|rewrite Ec; apply Qle_refl].
  - destruct vs as [|v vs]; [discriminate H0|]. cbn. cbn in H0. congruence.
  - destruct vs as [|v0 vs]; [discriminate H0|]. unfold objective. cbn [adapt_plan tl]. destruct (b_hours b) as [|p0 ps]; [discriminate HL|]. destruct (b_hours b') as [|p0' ps']; [inversion F|]. cbn [tl]. inversion F as [|? ? ? ? _ F']; subst. clear F. cbn in HL.
    assert (HC' : forall k v, nth_error vs k = Some v -> signs v). { intros k v Hv. destruct (HC k v Hv) as (? & ? & _ & _ & (Sg & _)). exact Sg. }
    assert (LL : length vs = length ps) by lia. clear - F' HC' LL Ea Ex.
    assert (G : Forall2 same_plan vs (adapt_all ps ps' vs) /\ running_costs b' ps' (adapt_all ps ps' vs) == running_costs b ps vs).
    { revert vs HC' LL. induction F' as [|p p' l l' E F IH]; intros [|v vs] HC LL; cbn in LL; try discriminate LL; [split; [constructor|reflexivity]|].
      destruct (IH vs (fun k => HC (Datatypes.S k)) ltac:(lia)) as (G1 & G2). destruct E as (E1 & E2 & E3 & E4 & E5 & E6). destruct (adapt_output p p' v (HC O v eq_refl)) as (AO & _). cbn [adapt_all running_costs]. split.
      - constructor; [|exact G1]. unfold same_plan. split; [symmetry; exact AO|]. clear AO. unfold adapt. cbv zeta. pt. repeat match goal with |- _ /\ _ => split end; try reflexivity. rewrite E2. ring.
      - rewrite G2. apply Qplus_comp; [|reflexivity]. unfold running_cost. rewrite AO, <- Ea, <- Ex, <- E1, <- E5. clear AO. unfold adapt. cbv zeta. pt. rewrite E2. setoid_replace (v_export v + (q_RES p' - q_RES p')) with (v_export v) by ring. reflexivity. }
    destruct G as (G1 & G2). split; [|exact G2]. constructor; [|exact G1]. unfold same_plan. repeat match goal with |- _ /\ _ => split end; reflexivity.
Qed.
Print Assumptions C113_no_effect.
(** A best plan, and the hour recorded from it, in which a heat pump with a minimum output of 4 kW delivers 2 kW *)
Theorem C113_minimum_refuted : exists dyn X opt year mc hour first fh pv rc I, full_year year /\ best_record dyn X opt year mc hour first fh pv rc /\ electric_backup X /\
  label year (hour + 1) = Ok I /\ 0 < rf rc HP_heat_total_output /\ rf rc HP_heat_total_output < minimum_heat (m_plant X) I.
Proof.
  destruct (seller_seen 8 50 8 2 half_minimum_plan (fun f => (qeq (f HP_heat_total_output) 2)%bool)) as (rc & HO & HC); [vm_compute; reflexivity|seller_plan|]. apply qeq_true_inv in HC.
  exists (implicit_euler (p_battery (seller 8 50))), (two_hours (seller 8 50)), (answer_with half_minimum_plan), (selling_year 8 2), [0; 0], 0%Z, 0%Z, 2%Z, (initial_prev (two_hours (seller 8 50))), rc, (selling_hour 8 2).
  split; [apply selling_year_ok|]. split; [exact HO|]. split; [reflexivity|]. split; [reflexivity|]. rewrite HC. split; [lra|]. vm_compute. reflexivity.
Qed.
Print Assumptions C113_minimum_refuted.
(** A case for the others: problems with minimum outputs of 0 and 4 kW *)
Example C113_case : exists b b', make_problem (two_hours (seller 8 0)) (selling_year 8 2) [0; 0] 0 0 2 (initial_prev (two_hours (seller 8 0))) = Ok b /\
  make_problem (two_hours (seller 8 50)) (selling_year 8 2) [0; 0] 0 0 2 (initial_prev (two_hours (seller 8 50))) = Ok b' /\
  Forall2 other_minimum (b_hours b) (b_hours b') /\ Forall (fun p => q_HP_min p <= q_duty p) (b_hours b') /\ Forall (fun p => q_HP_min p == 4) (b_hours b') /\ Forall (fun p => q_HP_min p == 0) (b_hours b) /\ b_start b = b_start b' /\ b_battery b = b_battery b'.
Proof.
  do 2 eexists. split; [reflexivity|]. split; [reflexivity|]. cbn. repeat match goal with |- _ /\ _ => split end; try reflexivity.
  - repeat constructor.
  - repeat constructor; vm_compute; discriminate.
  - repeat constructor.
  - repeat constructor.
Qed.
Print Assumptions C113_case.
