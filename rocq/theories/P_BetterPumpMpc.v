(** C117 for the predictive controller: best plans with a heat pump that needs less electricity. *)
From Verif Require Import Base BaseL M_Battery S_Battery M_HeatPump S_HeatPump M_Tools M_FixedOrder S_FixedOrder L_FixedOrderRun L_Grid P_FixedOrder
  L_HeatPump M_Mpc S_Mpc L_Mpc L_MpcRecord L_MpcRun L_MpcObjective P_Mpc S_MpcOptimal L_MpcOptimal P_MpcOptimal S_BetterPumpMpc.

(** What the heat pump no longer needs of the generation is sold. *)
Definition sell_rest (p p' : phour) (v : point) : point :=
  {| v_RES_ed := v_RES_ed v; v_export := v_export v + ((v_HPtrs v + v_HPtrd v) / q_cop p - (v_HPtrs v + v_HPtrd v) / q_cop p'); v_imp_ed := v_imp_ed v;
     v_HPtrd := v_HPtrd v; v_HPtrs := v_HPtrs v; v_HPtid := v_HPtid v; v_HPtis := v_HPtis v;
     v_HPtesd := v_HPtesd v; v_HP_status := v_HP_status v; v_HPt_var := v_HPt_var v;
     v_TSc := v_TSc v; v_TSd := v_TSd v; v_soc := v_soc v;
     v_ESc := v_ESc v; v_ESc_res := v_ESc_res v; v_ESc_imp := v_ESc_imp v;
     v_ESd := v_ESd v; v_ESd_hp := v_ESd_hp v; v_ESd_aux := v_ESd_aux v; v_ESd_ed := v_ESd_ed v;
     v_soc_ES := v_soc_ES v;
     v_aux_rd := v_aux_rd v; v_aux_rs := v_aux_rs v; v_aux_d := v_aux_d v; v_aux_s := v_aux_s v;
     v_aux := v_aux v |}.
Lemma less_for x k k' : 0 <= x -> 0 < k -> k <= k' -> x / k' <= x / k.
Proof. intros X K L. apply Qle_shift_div_l; [exact K|]. setoid_replace (x / k' * k) with (x * k / k') by (field; lra). apply Qle_shift_div_r; [lra|]. nra. Qed.
Lemma rest_constraints b b' p p' cap v : b_electric b = true -> b_electric b' = true -> b_battery b = b_battery b' -> b_aux_cap b = b_aux_cap b' -> needs_less p p' -> 0 < q_cop p ->
  v_ESd_hp v == 0 -> constraints b p cap v -> constraints b' p' cap (sell_rest p p' v).
Proof.
  intros He He' Eb Ea (_ & P2 & P3 & P4 & P5 & P6 & P7) Hc Z [HS [HE HL]]. split; [|split].
  - all_signs HS. split; [|exact Hst]. unfold sell_rest. pt. pose proof (less_for (v_HPtrs v + v_HPtrd v) (q_cop p) (q_cop p') ltac:(lra) Hc P5) as W.
    generalize dependent ((v_HPtrs v + v_HPtrd v) / q_cop p). intros x W. generalize dependent ((v_HPtrs v + v_HPtrd v) / q_cop p'). intros y W.
    repeat (apply Forall_cons; [lra|]). apply Forall_nil.
  - rewrite He' in *. rewrite He in HE. rewrite <- Eb. destruct HE as (E1 & E2 & E3 & E4 & E5 & E6 & E7 & E8 & E9). unfold electric_equations, sell_rest. pt. rewrite <- P2, <- P3, <- P4.
    repeat match goal with |- _ /\ _ => split end; try assumption; [rewrite E5, Z; ring|]. rewrite E9 at 1. ring.
  - unfold limits in *. unfold sell_rest. pt. rewrite <- Eb, <- P6, <- P7, <- Ea. exact HL.
Qed.
Lemma rest_cost b b' p p' cap v : b_electric b = true -> b_aux_cost b = None -> b_aux_cost b' = None -> b_export_cost b = b_export_cost b' -> 0 <= b_export_cost b -> 0 <= q_price p ->
  0 < q_cop p -> needs_less p p' -> constraints b p cap v -> running_cost b' p' (sell_rest p p' v) <= running_cost b p v.
Proof.
  intros He Ha Ha' Ex Hx Hp Hc (P1 & _ & _ & _ & P5 & _) [HS [HE _]]. rewrite He in HE. destruct HE as (_ & _ & _ & _ & _ & H6 & _).
  unfold running_cost. rewrite Ha, Ha', <- Ex, <- P1. change (v_HPt (sell_rest p p' v)) with (v_HPt v). unfold sell_rest. pt.
  apply signs_inv in HS. destruct HS as (S1 & S2 & S3 & S4 & S5 & S6 & S7 & _).
  assert (H0 : 0 <= v_HPt v - v_HPtrd v - v_HPtesd v - v_HPtrs v) by (unfold v_HPt; rewrite H6; lra).
  pose proof (less_for _ _ _ H0 Hc P5) as W1. pose proof (less_for (v_HPtrs v + v_HPtrd v) (q_cop p) (q_cop p') ltac:(lra) Hc P5) as W2.
  generalize dependent ((v_HPt v - v_HPtrd v - v_HPtesd v - v_HPtrs v) / q_cop p). intros a W1. generalize dependent ((v_HPt v - v_HPtrd v - v_HPtesd v - v_HPtrs v) / q_cop p'). intros a' W1.
  generalize dependent ((v_HPtrs v + v_HPtrd v) / q_cop p). intros x W2. generalize dependent ((v_HPtrs v + v_HPtrd v) / q_cop p'). intros x' W2.
  assert (M1 : 0 <= q_price p * (a - a')) by (apply Qmult_le_0_compat; lra). assert (M2 : 0 <= (x - x') * b_export_cost b) by (apply Qmult_le_0_compat; lra).
  unfold Qdiv. change (/ 1000) with (1 # 1000). clear - M1 M2.
  setoid_replace (q_price p * (1 # 1000) * (a' + v_imp_ed v + v_ESc_imp v)) with (q_price p * (1 # 1000) * (a + v_imp_ed v + v_ESc_imp v) - (1 # 1000) * (q_price p * (a - a'))) by ring.
  setoid_replace ((v_export v + (x - x')) * b_export_cost b * (1 # 1000)) with (v_export v * b_export_cost b * (1 # 1000) + (1 # 1000) * ((x - x') * b_export_cost b)) by ring. lra.
Qed.
Fixpoint rest_all (ps ps' : list phour) (vs : list point) : list point :=
  match ps, ps', vs with p :: ps, p' :: ps', v :: vs => sell_rest p p' v :: rest_all ps ps' vs | _, _, _ => [] end.
Lemma rest_all_length ps ps' vs : length ps = length ps' -> length vs = length ps -> length (rest_all ps ps' vs) = length vs.
Proof. revert ps' vs. induction ps as [|p ps IH]; intros [|p' ps'] [|v vs] H1 H2; cbn in *; try discriminate; auto. Qed.
Lemma rest_all_nth ps ps' vs k w : nth_error (rest_all ps ps' vs) k = Some w -> exists p p' v, nth_error ps k = Some p /\ nth_error ps' k = Some p' /\ nth_error vs k = Some v /\ w = sell_rest p p' v.
Proof.
  revert ps' vs k. induction ps as [|p ps IH]; intros [|p' ps'] [|v vs] [|k] H; cbn in *; try discriminate; [|eapply IH; eassumption]. injection H as <-. exists p, p', v. auto.
Qed.
Lemma rest_all_columns ps ps' vs : length ps = length ps' -> length vs = length ps -> storage_columns (rest_all ps ps' vs) = storage_columns vs.
Proof. revert ps' vs. induction ps as [|p ps IH]; intros [|p' ps'] [|v vs] H1 H2; cbn in *; try discriminate; [reflexivity|]. f_equal. apply IH; lia. Qed.
Lemma rest_costs b b' ps ps' vs : b_electric b = true -> b_aux_cost b = None -> b_aux_cost b' = None -> b_export_cost b = b_export_cost b' -> 0 <= b_export_cost b ->
  Forall2 needs_less ps ps' -> Forall (fun p => 0 < q_cop p /\ 0 <= q_price p) ps -> length vs = length ps -> (forall k p v, nth_error ps k = Some p -> nth_error vs k = Some v -> exists cap, constraints b p cap v) ->
  running_costs b' ps' (rest_all ps ps' vs) <= running_costs b ps vs.
Proof.
  intros He Ha Ha' Ex Hx F. revert vs. induction F as [|p p' ps ps' E F IH]; intros [|v vs] HC HL HF; cbn in HL; try discriminate HL; [cbn; lra|].
  cbn [rest_all running_costs]. apply Forall_cons_iff in HC. destruct HC as [[Hc Hp] HC]. destruct (HF O p v eq_refl eq_refl) as (cap & C).
  pose proof (rest_cost b b' p p' cap v He Ha Ha' Ex Hx Hp Hc E C) as A.
  assert (B : running_costs b' ps' (rest_all ps ps' vs) <= running_costs b ps vs) by (apply IH; [exact HC|lia|]; intros k q w; exact (HF (S k) q w)).
  apply Qplus_le_compat; assumption.
Qed.
(** Any plan in which the battery does not drive the heat pump can be followed, at no greater cost. *)
Theorem C117_plan_partial : forall dyn b b' vs, pumped_better b b' -> 0 <= b_export_cost b -> Forall (fun p => 0 < q_cop p /\ 0 <= q_price p) (b_hours b) -> battery_apart vs ->
  plan_of dyn b vs -> exists vs', plan_of dyn b' vs' /\ objective b' vs' <= objective b vs.
Proof.
  intros dyn b b' vs (Hst & F & Fc & Eb & He & He' & Ha & Ha' & Hac & Ex) Hx HC Z ((HL & HD & HF) & H0). pose proof (Forall2_length_eq _ _ _ F) as Hlen.
  destruct vs as [|v0 vs]; [discriminate H0|]. unfold objective.
  destruct (b_hours b) as [|p0 ps] eqn:Eh; [discriminate HL|]. destruct (b_hours b') as [|p0' ps'] eqn:Eh'; [discriminate Hlen|]. cbn in HL, Hlen. apply Forall_cons_iff in HC. destruct HC as [Hc0 HC].
  inversion F as [|? ? ? ? F0 F1]; subst. exists (v0 :: rest_all ps ps' vs). cbn [tl]. split; [split; [split; [|split]|]|].
  - cbn [length]. rewrite Eh'. cbn [length]. rewrite rest_all_length; lia.
  - unfold storage_columns in *. cbn [map] in *. replace (map _ (rest_all ps ps' vs)) with (storage_columns vs); [exact HD|]. symmetry. apply rest_all_columns; lia.
  - intros k w Hw. cbn [nth_error] in Hw. destruct (rest_all_nth _ _ _ _ _ Hw) as (p & p' & v & Hp & Hp' & Hv & ->).
    destruct (HF k v Hv) as (q & cap & Hq & Hcap & C). cbn [nth_error] in Hq. assert (q = p) by congruence. subst q.
    exists p', cap. rewrite Eh', <- Fc. cbn [nth_error]. split; [exact Hp'|]. split; [exact Hcap|].
    apply (rest_constraints b b' p p' cap v); try assumption; [exact (Forall2_nth _ _ _ F1 k p p' Hp Hp')| |exact (Z k v Hv)].
    rewrite Forall_forall in HC. apply HC. exact (nth_error_In _ _ Hp).
  - cbn in H0 |- *. congruence.
  - apply rest_costs; try assumption; [lia|]. intros k p v Hp Hv. destruct (HF k v Hv) as (q & cap & Hq & _ & C). cbn [nth_error] in Hq. assert (q = p) by congruence. subst q. exists cap. exact C.
Qed.
Print Assumptions C117_plan_partial.
(** Without a battery, best plans cost no more. *)
Theorem C117_best_partial : forall dyn b b' vs vs', pumped_better b b' -> b_capacity (b_battery b) <= 0 -> 0 <= b_export_cost b -> Forall (fun p => 0 < q_cop p /\ 0 <= q_price p) (b_hours b) ->
  best dyn b vs -> best dyn b' vs' -> objective b' vs' <= objective b vs.
Proof.
  intros dyn b b' vs vs' N Cap Hx HC (HP & _) (_ & HB).
  assert (Z : battery_apart vs).
  { intros k v Hv. destruct HP as ((_ & _ & HF) & _). destruct (HF k v Hv) as (p & cap & _ & _ & HS & HE & HL). destruct N as (_ & _ & _ & _ & He & _). rewrite He in HE.
    destruct HE as (E1 & _). destruct HL as (_ & _ & _ & _ & _ & L6 & _ & _ & L9 & _). all_signs HS. lra. }
  destruct (C117_plan_partial dyn b b' vs N Hx HC Z HP) as (ws & W & L). exact (Qle_trans _ _ _ (HB ws W) L).
Qed.
Print Assumptions C117_best_partial.
(** The problems an hour poses for the same plant with two heat pumps *)
Theorem C117_problems : forall X year year' mc hour first fh pv b b', electric_backup X -> Forall2 better_pumped_hour year year' ->
  make_problem X year mc hour first fh pv = Ok b -> make_problem X year' mc hour first fh pv = Ok b' -> pumped_better b b'.
Proof.
  intros X year year' mc hour first fh pv b b' He F H H'.
  destruct (make_problem_inv _ _ _ _ _ _ _ _ H) as (_ & HL & HH & (I0 & soc & HI0 & HT & HS) & HM & HB & E1 & E2 & E3 & E4).
  destruct (make_problem_inv _ _ _ _ _ _ _ _ H') as (_ & HL' & HH' & (I0' & soc' & HI0' & HT' & HS') & HM' & HB' & E1' & E2' & E3' & E4').
  assert (Hel : is_electric (m_plant X) = true) by (apply electric_iff; exact He).
  rewrite Hel in *. unfold pumped_better. rewrite HS, HS', HB, HB', E1, E1', E2, E2', E3, E3', E4, E4', HM, HM'.
  pose proof (label_pair2 _ _ _ _ _ _ F HI0 HI0') as (_ & _ & _ & _ & _ & T1 & T2 & _). rewrite <- T1, <- T2, HT in HT'. injection HT' as <-.
  repeat match goal with |- _ /\ _ => split end; try reflexivity.
  assert (LL : length (b_hours b) = length (b_hours b')) by lia. clear - HH HH' LL F.
  assert (G : forall k p p', nth_error (b_hours b) k = Some p -> nth_error (b_hours b') k = Some p' -> needs_less p p').
  { intros k p p' Hp Hp'. destruct (HH k p Hp) as (I & HI & ->). destruct (HH' k p' Hp') as (I' & HI' & ->). pose proof (label_pair2 _ _ _ _ _ _ F HI HI') as (G1 & G2 & G3 & G4 & G5 & _ & _ & G8 & G9).
    unfold needs_less, phour_of. cbn [q_price q_RES q_elec q_heat q_cop q_duty q_HP_min]. rewrite G1, G2, G3, G4, G5, G9. repeat match goal with |- _ /\ _ => split end; try reflexivity. exact G8. }
  clear - G LL. revert LL G. generalize (b_hours b), (b_hours b'). induction l as [|p l IH]; intros [|p' l'] LL G; cbn in LL; try discriminate; constructor; [exact (G O p p' eq_refl eq_refl)|]. apply IH; [lia|]. intros k. exact (G (S k)).
Qed.
Print Assumptions C117_problems.
(** A case without a battery: 4 kWh of heat from 5 kWh of sun.  A coefficient of 4 instead of 2 leaves 4 kWh instead of 3 to sell. *)
Definition sunny (c : Q) : list hour_in := demo_hour 5 0 4 120 c 8 :: demo_hour 5 0 4 120 c 8 :: repeat (demo_hour 5 0 4 120 c 8) (ANNUAL_HOURS - 2).
Definition sunny_plant : mpc := two_hours (demo (demo_battery 0 1) 8 0 (simple_tank 0 0 0) all13 all15).
Definition sunny_plan (x : Q) : point :=
  {| v_RES_ed := 0; v_export := x; v_imp_ed := 0; v_HPtrd := 4; v_HPtrs := 0; v_HPtid := 0; v_HPtis := 0; v_HPtesd := 0; v_HP_status := 1; v_HPt_var := 4;
     v_TSc := 0; v_TSd := 0; v_soc := 0; v_ESc := 0; v_ESc_res := 0; v_ESc_imp := 0; v_ESd := 0; v_ESd_hp := 0; v_ESd_aux := 0; v_ESd_ed := 0; v_soc_ES := 0;
     v_aux_rd := 0; v_aux_rs := 0; v_aux_d := 0; v_aux_s := 0; v_aux := 0 |}.
Lemma sunny_seen c x y : (exists b vs, make_problem sunny_plant (sunny c) [0; 0] 0 0 2 (initial_prev sunny_plant) = Ok b /\ answer_with (sunny_plan x) b = Ok vs /\ plan_of (implicit_euler (demo_battery 0 1)) b vs /\ objective b vs == y) ->
  exists b vs, make_problem sunny_plant (sunny c) [0; 0] 0 0 2 (initial_prev sunny_plant) = Ok b /\ plan_of (implicit_euler (demo_battery 0 1)) b vs /\ objective b vs == y /\ battery_apart vs /\
    0 <= b_export_cost b /\ b_capacity (b_battery b) <= 0.
Proof.
  intros (b & vs & H1 & H2 & H3 & H4). exists b, vs. split; [exact H1|]. split; [exact H3|]. split; [exact H4|].
  unfold make_problem in H1. cbn in H1. injection H1 as <-. cbn in H2. injection H2 as <-. split; [|cbn; lra]. intros [|k] v Hv; [cbn in Hv; injection Hv as <-; reflexivity|destruct k; discriminate Hv].
Qed.
Ltac sunny_proof :=
  do 2 eexists; split; [reflexivity|]; split; [reflexivity|]; split; [|vm_compute; reflexivity]; split; [|reflexivity];
  split; [reflexivity|]; split; [cbn; repeat split; closed_ineq|];
  let k := fresh in let u := fresh in let E := fresh in
  intros [|k] u E; [cbn in E|destruct k; discriminate E];
  match type of E with Some ?x = _ => assert (u = x) by congruence; subst u; clear E end;
  do 2 eexists; split; [reflexivity|]; split; [reflexivity|];
  split; [split; [repeat constructor; closed_ineq|closed_ineq]|split; [cbn; repeat split; closed_ineq|unfold limits; repeat split; closed_ineq]].
Example C117_planned_case : exists b b' vs vs', electric_backup sunny_plant /\ Forall2 better_pumped_hour (sunny 2) (sunny 4) /\
  make_problem sunny_plant (sunny 2) [0; 0] 0 0 2 (initial_prev sunny_plant) = Ok b /\ make_problem sunny_plant (sunny 4) [0; 0] 0 0 2 (initial_prev sunny_plant) = Ok b' /\
  plan_of (implicit_euler (demo_battery 0 1)) b vs /\ objective b vs == - (3 # 25) /\ battery_apart vs /\ 0 <= b_export_cost b /\ b_capacity (b_battery b) <= 0 /\
  plan_of (implicit_euler (demo_battery 0 1)) b' vs' /\ objective b' vs' == - (4 # 25).
Proof.
  destruct (sunny_seen 2 3 (- (3 # 25))) as (b & vs & A1 & A2 & A3 & A4 & A5 & A6); [sunny_proof|].
  destruct (sunny_seen 4 4 (- (4 # 25))) as (b' & vs' & A1' & A2' & A3' & _); [sunny_proof|].
  exists b, b', vs, vs'. split; [reflexivity|]. split; [|repeat (split; [assumption|]); assumption].
  assert (G : better_pumped_hour (demo_hour 5 0 4 120 2 8) (demo_hour 5 0 4 120 4 8)) by (unfold better_pumped_hour; cbn; repeat match goal with |- _ /\ _ => split end; try reflexivity; lra).
  unfold sunny. constructor; [exact G|]. constructor; [exact G|]. generalize (ANNUAL_HOURS - 2)%nat. induction n; cbn [repeat]; constructor; assumption.
Qed.
