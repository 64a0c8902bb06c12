(** C117 for the predictive controller, continued: plans in which the battery drives the heat pump. *)
From Verif Require Import Base BaseL M_Battery S_Battery M_HeatPump S_HeatPump M_Tools M_FixedOrder S_FixedOrder L_FixedOrderRun L_Grid P_FixedOrder
  L_HeatPump M_Mpc S_Mpc L_Mpc L_MpcRecord L_MpcRun L_MpcObjective P_Mpc S_MpcOptimal L_MpcOptimal P_MpcOptimal S_BetterPumpMpc P_BetterPumpMpc.

(** The hour replanned, with [er] of the generation and [ei] of bought electricity charged, and the battery ending at [e]. *)
Definition replan (p p' : phour) (v : point) (er ei e : Q) : point :=
  {| v_RES_ed := v_RES_ed v; v_export := v_export v + ((v_HPtrs v + v_HPtrd v) / q_cop p - (v_HPtrs v + v_HPtrd v) / q_cop p') + (v_ESc_res v - er); v_imp_ed := v_imp_ed v;
     v_HPtrd := v_HPtrd v; v_HPtrs := v_HPtrs v; v_HPtid := v_HPtid v; v_HPtis := v_HPtis v;
     v_HPtesd := v_HPtesd v; v_HP_status := v_HP_status v; v_HPt_var := v_HPt_var v;
     v_TSc := v_TSc v; v_TSd := v_TSd v; v_soc := v_soc v;
     v_ESc := er + ei; v_ESc_res := er; v_ESc_imp := ei;
     v_ESd := v_ESd v - (v_ESd_hp v - v_ESd_hp v * q_cop p / q_cop p'); v_ESd_hp := v_ESd_hp v * q_cop p / q_cop p'; v_ESd_aux := v_ESd_aux v; v_ESd_ed := v_ESd_ed v;
     v_soc_ES := e;
     v_aux_rd := v_aux_rd v; v_aux_rs := v_aux_rs v; v_aux_d := v_aux_d v; v_aux_s := v_aux_s v;
     v_aux := v_aux v |}.
(** How much to charge: as much as planned, or as much as the battery takes; what is not charged is first not bought. *)
Lemma less_charged c eta a r i : 0 <= eta -> 0 <= r -> 0 <= i -> a <= c ->
  exists r' i', 0 <= r' <= r /\ 0 <= i' <= i /\ a + (r' + i') * eta <= c /\ (r' == r /\ i' == i \/ a + (r' + i') * eta == c).
Proof.
  intros E R0 I0 L. destruct (Qlt_le_dec c (a + (r + i) * eta)) as [G|G]; [|exists r, i; repeat split; try lra].
  assert (E0 : 0 < eta). { destruct (Qlt_le_dec 0 eta) as [|N]; [assumption|]. assert (Z : eta == 0) by lra. rewrite Z in G. exfalso. lra. }
  set (x := (c - a) / eta). assert (X0 : 0 <= x) by (apply Qle_shift_div_l; lra). assert (X1 : x <= r + i) by (apply Qle_shift_div_r; lra). assert (X2 : x * eta == c - a) by (unfold x; field; lra).
  destruct (Qlt_le_dec x r) as [M|M].
  - assert (X3 : (x + 0) * eta == c - a) by (rewrite <- X2; ring). exists x, 0. repeat match goal with |- _ /\ _ => split end; lra.
  - assert (X3 : (r + (x - r)) * eta == c - a) by (rewrite <- X2; ring). exists r, (x - r). repeat match goal with |- _ /\ _ => split end; lra.
Qed.
Lemma saved_hp x k k' : 0 <= x -> 0 < k -> k <= k' -> 0 <= x * k / k' <= x.
Proof. intros X K L. split; [apply Qle_shift_div_l; [lra|nra]|apply Qle_shift_div_r; [lra|nra]]. Qed.
Section Hour.
Variables (b b' : problem) (p p' : phour) (cap : Q) (v : point) (e0 e0' : Q).
Let B := b_battery b.
Hypothesis He : b_electric b = true.
Hypothesis He' : b_electric b' = true.
Hypothesis Eb : b_battery b = b_battery b'.
Hypothesis Ea : b_aux_cap b = b_aux_cap b'.
Hypothesis Hn : needs_less p p'.
Hypothesis Hc : 0 < q_cop p.
Hypothesis HB : battery_ok B.
Hypothesis C : constraints b p cap v.
Hypothesis Dy : v_soc_ES v - e0 == v_ESc v * b_charge_eff B - v_ESd v - b_self_discharge B * v_soc_ES v.
Hypothesis L0 : e0 <= e0'.
Hypothesis L1 : e0' <= b_capacity B.
Lemma replanned : exists er ei e, constraints b' p' cap (replan p p' v er ei e) /\ 0 <= er <= v_ESc_res v /\ 0 <= ei <= v_ESc_imp v /\ v_soc_ES v <= e /\ e <= b_capacity B /\
  e - e0' == (er + ei) * b_charge_eff B - v_ESd (replan p p' v er ei e) - b_self_discharge B * e.
Proof.
  destruct Hn as (_ & P2 & P3 & P4 & P5 & P6 & P7). destruct C as (HS & HE & HL). rewrite He in HE. destruct HE as (E1 & E2 & E3 & E4 & E5 & E6 & E7 & E8 & E9).
  pose proof HB as (C1 & C2 & C3 & (C4 & C4') & (C5 & C5') & (C6 & C6')). fold B in E3, E4, E5. set (eta := b_charge_eff B) in *. set (sg := b_self_discharge B) in *. set (K := b_capacity B) in *.
  pose proof HL as (M1 & M2 & M3 & M4 & M5 & M6 & M7 & M8 & M9 & M10). fold B in M6, M7, M8. fold K in M6. fold eta in M7.
  assert (Hsg := HS). apply signs_inv in HS. destruct HS as (S1 & S2 & S3 & S4 & S5 & S6 & S7 & S8 & S9 & S10 & S11 & S12 & S13 & S14 & S15 & S16 & S17 & S18 & S19 & S20 & S21 & S22 & S23 & S24).
  set (h' := v_ESd_hp v * q_cop p / q_cop p'). pose proof (saved_hp (v_ESd_hp v) (q_cop p) (q_cop p') S16 Hc P5) as Hh. fold h' in Hh.
  set (d' := v_ESd v - (v_ESd_hp v - h')). assert (D0 : 0 <= d' <= v_ESd v) by (unfold d'; lra).
  (* the battery at the end of the hour before anything is charged, and what it may hold *)
  assert (Fs : v_soc_ES v * (1 + sg) == e0 + v_ESc v * eta - v_ESd v) by lra.
  assert (Sd : 0 <= v_soc_ES v * sg) by (apply Qmult_le_0_compat; assumption). assert (Kd : 0 <= K * sg) by (apply Qmult_le_0_compat; assumption).
  assert (Room : e0' - d' <= K * (1 + sg)) by (clear - Kd L1 D0; lra).
  destruct (less_charged (K * (1 + sg)) eta (e0' - d') (v_ESc_res v) (v_ESc_imp v) C4 S13 S14 Room) as (er & ei & X1 & X2 & X3 & X4).
  set (x := e0' - d' + (er + ei) * eta) in *. set (e := x / (1 + sg)).
  assert (Ex : e * (1 + sg) == x) by (unfold e; field; lra).
  assert (N1 : v_soc_ES v * (1 + sg) <= x).
  { destruct X4 as [(X4 & X5)|X4]; [|rewrite X4; apply Qmult_le_compat_r; lra]. unfold x. assert (Q1 : (er + ei) * eta == v_ESc v * eta) by (rewrite E2, X4, X5; reflexivity). lra. }
  assert (N2 : v_soc_ES v <= e) by (unfold e; apply Qle_shift_div_l; [lra|exact N1]).
  assert (N3 : e <= K) by (unfold e; apply Qle_shift_div_r; [lra|exact X3]).
  exists er, ei, e. split; [|split; [exact X1|split; [exact X2|split; [exact N2|split; [exact N3|]]]]].
  2: { unfold replan. pt. fold h'. fold d'. unfold x in Ex. clear - Ex. lra. }
  pose proof (less_for (v_HPtrs v + v_HPtrd v) (q_cop p) (q_cop p') ltac:(lra) Hc P5) as W. split; [|split].
  - all_signs Hsg. split; [|exact Hst]. unfold replan. pt. fold h'. fold d'.
    generalize dependent ((v_HPtrs v + v_HPtrd v) / q_cop p). intros y E9 W. generalize dependent ((v_HPtrs v + v_HPtrd v) / q_cop p'). intros y' W. clearbody h' d' e.
    clear - W X1 X2 N2 D0 Hh S1 S2 S3 S4 S5 S6 S7 S8 S9 S10 S11 S12 S13 S14 S15 S16 S17 S18 S19 S20 S21 S22 S23 Sg11 Sg12.
    repeat (apply Forall_cons; [lra|]). apply Forall_nil.
  - rewrite He'. rewrite <- Eb. fold B. unfold electric_equations, replan. pt. fold h'. fold d'. rewrite <- P2, <- P3, <- P4.
    repeat match goal with |- _ /\ _ => split end; try assumption.
    + unfold d'. lra.
    + reflexivity.
    + rewrite E5. unfold h'. field. lra.
    + rewrite E9 at 1. ring.
  - unfold limits, replan. pt. fold h'. fold d'. rewrite <- Eb, <- P6, <- P7, <- Ea. fold B. fold K. fold eta. clear - M1 M2 M3 M4 M5 M6 M7 M8 M9 M10 D0 X1 X2 E2 N2 N3.
    repeat match goal with |- _ /\ _ => split end; try assumption; lra.
Qed.
End Hour.
Lemma replan_cost b b' p p' cap v er ei e : b_electric b = true -> b_aux_cost b = None -> b_aux_cost b' = None -> b_export_cost b = b_export_cost b' -> 0 <= b_export_cost b -> 0 <= q_price p ->
  0 < q_cop p -> needs_less p p' -> constraints b p cap v -> er <= v_ESc_res v -> ei <= v_ESc_imp v -> running_cost b' p' (replan p p' v er ei e) <= running_cost b p v.
Proof.
  intros He Ha Ha' Ex Hx Hp Hc N C R1 R2. apply Qle_trans with (running_cost b' p' (sell_rest p p' v)); [|exact (rest_cost b b' p p' cap v He Ha Ha' Ex Hx Hp Hc N C)].
  pose proof N as (P1 & _). unfold running_cost. rewrite Ha', <- Ex, <- P1. change (v_HPt (sell_rest p p' v)) with (v_HPt v). change (v_HPt (replan p p' v er ei e)) with (v_HPt v). unfold sell_rest, replan. pt.
  generalize ((v_HPt v - v_HPtrd v - v_HPtesd v - v_HPtrs v) / q_cop p'). intro a. generalize ((v_HPtrs v + v_HPtrd v) / q_cop p - (v_HPtrs v + v_HPtrd v) / q_cop p'). intro x.
  assert (M1 : 0 <= q_price p * (v_ESc_imp v - ei)) by (apply Qmult_le_0_compat; lra). assert (M2 : 0 <= (v_ESc_res v - er) * b_export_cost b) by (apply Qmult_le_0_compat; lra).
  unfold Qdiv. change (/ 1000) with (1 # 1000). clear - M1 M2 R1.
  setoid_replace (q_price p * (1 # 1000) * (a + v_imp_ed v + ei)) with (q_price p * (1 # 1000) * (a + v_imp_ed v + v_ESc_imp v) - (1 # 1000) * (q_price p * (v_ESc_imp v - ei))) by ring.
  setoid_replace ((v_export v + x + (v_ESc_res v - er)) * b_export_cost b * (1 # 1000)) with ((v_export v + x) * b_export_cost b * (1 # 1000) + (1 # 1000) * ((v_ESc_res v - er) * b_export_cost b)) by ring. lra.
Qed.
Lemma replanned_all b b' : b_electric b = true -> b_electric b' = true -> b_battery b = b_battery b' -> b_aux_cap b = b_aux_cap b' -> b_aux_cost b = None -> b_aux_cost b' = None -> b_export_cost b = b_export_cost b' -> 0 <= b_export_cost b -> battery_ok (b_battery b) ->
  forall ps ps', Forall2 needs_less ps ps' -> forall caps vs s0 x y e0 z w x' y' e0' z' w', Forall (fun p => 0 < q_cop p /\ 0 <= q_price p) ps -> length vs = length ps ->
  implicit_euler (b_battery b) ((s0, x, y, e0, z, w) :: storage_columns vs) -> (forall k v, nth_error vs k = Some v -> exists p cap, nth_error ps k = Some p /\ nth_error caps k = Some cap /\ constraints b p cap v) ->
  e0 <= e0' -> e0' <= b_capacity (b_battery b) ->
  exists vs', length vs' = length vs /\ implicit_euler (b_battery b) ((s0, x', y', e0', z', w') :: storage_columns vs') /\
    (forall k v, nth_error vs' k = Some v -> exists p cap, nth_error ps' k = Some p /\ nth_error caps k = Some cap /\ constraints b' p cap v) /\ running_costs b' ps' vs' <= running_costs b ps vs.
Proof.
  intros He He' Eb Ea Ha Ha' Ex Hx HB ps ps' F. induction F as [|p p' ps ps' E F IH]; intros caps vs s0 x y e0 z w x' y' e0' z' w' HC HL HD HF L0 L1.
  - destruct vs; [|discriminate HL]. exists []. split; [reflexivity|]. split; [exact Logic.I|]. split; [intros [|k] v H; discriminate H|cbn; lra].
  - destruct vs as [|v vs]; [discriminate HL|]. cbn [length] in HL. apply Forall_cons_iff in HC as ((Hc & Hp) & HC).
    destruct (HF O v eq_refl) as (q & cap & Hq & Hcap & Cv). cbn [nth_error] in Hq. injection Hq as <-. destruct caps as [|cap0 caps]; [discriminate Hcap|]. cbn [nth_error] in Hcap. injection Hcap as ->.
    cbn [storage_columns map implicit_euler] in HD. destruct HD as (D1 & D2 & D3).
    destruct (replanned b b' p p' cap v e0 e0' He He' Eb Ea E Hc HB Cv D2 L0 L1) as (er & ei & e & C' & R1 & R2 & N1 & N2 & D').
    destruct (IH caps vs (v_soc v) (v_TSc v) (v_TSd v) (v_soc_ES v) (v_ESc v) (v_ESd v) (v_TSc v) (v_TSd v) e (er + ei) (v_ESd (replan p p' v er ei e)) HC ltac:(lia) D3 ltac:(intros k u Hu; exact (HF (S k) u Hu)) N1 N2) as (vs' & I1 & I2 & I3 & I4).
    exists (replan p p' v er ei e :: vs'). split; [cbn [length]; lia|]. split; [|split].
    + cbn [storage_columns map implicit_euler]. split; [exact D1|]. split; [exact D'|exact I2].
    + intros [|k] u Hu; [|exact (I3 k u Hu)]. cbn [nth_error] in Hu. injection Hu as <-. exists p', cap. split; [reflexivity|]. split; [reflexivity|exact C'].
    + cbn [running_costs]. apply Qplus_le_compat; [|exact I4]. exact (replan_cost b b' p p' cap v er ei e He Ha Ha' Ex Hx Hp Hc E Cv (proj2 R1) (proj2 R2)).
Qed.
(** With the storage equations taken hour by hour (implicit Euler), any plan can be followed with the better heat pump at no greater cost: what the battery keeps because the heat pump needs less of it is kept, or not charged. *)
Theorem C117_plan_battery_partial : forall b b' vs, pumped_better b b' -> battery_ok (b_battery b) -> v_soc_ES (b_start b) <= b_capacity (b_battery b) -> 0 <= b_export_cost b -> Forall (fun p => 0 < q_cop p /\ 0 <= q_price p) (b_hours b) ->
  plan_of (implicit_euler (b_battery b)) b vs -> exists vs', plan_of (implicit_euler (b_battery b')) b' vs' /\ objective b' vs' <= objective b vs.
Proof.
  intros b b' vs (Hst & F & Fc & Eb & He & He' & Ha & Ha' & Hac & Ex) HB Ls Hx HC ((HL & HD & HF) & H0). pose proof (Forall2_length_eq _ _ _ F) as Hlen.
  destruct vs as [|v0 vs]; [discriminate H0|]. cbn [nth_error] in H0. injection H0 as ->. unfold objective.
  destruct (b_hours b) as [|p0 ps] eqn:Eh; [discriminate HL|]. destruct (b_hours b') as [|p0' ps'] eqn:Eh'; [discriminate Hlen|]. cbn [length] in HL, Hlen. apply Forall_cons_iff in HC. destruct HC as [_ HC].
  inversion F as [|? ? ? ? F0 F1]; subst. cbn [tl].
  destruct (replanned_all b b' He He' Eb Hac Ha Ha' Ex Hx HB ps ps' F1 (tl (b_max_cap b)) vs (v_soc (b_start b)) (v_TSc (b_start b)) (v_TSd (b_start b)) (v_soc_ES (b_start b)) (v_ESc (b_start b)) (v_ESd (b_start b)) (v_TSc (b_start b)) (v_TSd (b_start b)) (v_soc_ES (b_start b)) (v_ESc (b_start b)) (v_ESd (b_start b)) HC ltac:(lia) HD) as (vs' & V1 & V2 & V3 & V4); [|apply Qle_refl|exact Ls|].
  { intros k v Hv. destruct (HF k v Hv) as (p & cap & Hp & Hcap & Cv). exists p, cap. split; [exact Hp|]. split; [|exact Cv]. destruct (b_max_cap b); [discriminate Hcap|exact Hcap]. }
  exists (b_start b :: vs'). cbn [tl]. split; [split; [split; [|split]|]|exact V4].
  - rewrite Eh'. cbn [length]. lia.
  - rewrite <- Eb. exact V2.
  - intros k v Hv. destruct (V3 k v Hv) as (p & cap & Hp & Hcap & Cv). exists p, cap. rewrite Eh', <- Fc. cbn [nth_error]. split; [exact Hp|]. split; [|exact Cv]. destruct (b_max_cap b); [destruct k; discriminate Hcap|exact Hcap].
  - cbn [nth_error]. congruence.
Qed.
Print Assumptions C117_plan_battery_partial.
(** So best plans cost no more. *)
Theorem C117_best_battery_partial : forall b b' vs vs', pumped_better b b' -> battery_ok (b_battery b) -> v_soc_ES (b_start b) <= b_capacity (b_battery b) -> 0 <= b_export_cost b -> Forall (fun p => 0 < q_cop p /\ 0 <= q_price p) (b_hours b) ->
  best (implicit_euler (b_battery b)) b vs -> best (implicit_euler (b_battery b')) b' vs' -> objective b' vs' <= objective b vs.
Proof.
  intros b b' vs vs' N HB Ls Hx HC (HP & _) (_ & HM). destruct (C117_plan_battery_partial b b' vs N HB Ls Hx HC HP) as (ws & W & L). exact (Qle_trans _ _ _ (HM ws W) L).
Qed.
Print Assumptions C117_best_battery_partial.
(** In terms of the plant and its data: whatever hour the controller plans, from whatever state *)
Theorem C117_planned_battery_partial : forall X year year' mc hour first fh pv b b' vs vs', electric_backup X -> Forall2 better_pumped_hour year year' ->
  battery_ok (p_battery (m_plant X)) -> v_soc_ES (pr_point pv) <= b_capacity (p_battery (m_plant X)) -> 0 <= p_export_price (m_plant X) -> Forall (fun I => 0 < cop (i_perf I) /\ 0 <= i_import_price I) year ->
  make_problem X year mc hour first fh pv = Ok b -> make_problem X year' mc hour first fh pv = Ok b' ->
  best (implicit_euler (p_battery (m_plant X))) b vs -> best (implicit_euler (p_battery (m_plant X))) b' vs' -> objective b' vs' <= objective b vs.
Proof.
  intros X year year' mc hour first fh pv b b' vs vs' He F HB Ls Hx HC H H' M M'. pose proof (C117_problems X year year' mc hour first fh pv b b' He F H H') as N.
  destruct (make_problem_inv _ _ _ _ _ _ _ _ H) as (_ & _ & HH & (I0 & soc & _ & _ & HS) & _ & Hb & _ & _ & _ & E4). assert (Eb : b_battery b = b_battery b') by apply N.
  apply (C117_best_battery_partial b b' vs vs' N); rewrite <- ?Eb, ?Hb, ?E4; try assumption.
  - rewrite HS. exact Ls.
  - apply Forall_forall. intros p Hp. apply In_nth_error in Hp as (k & Hp). destruct (HH k p Hp) as (I & HI & ->). rewrite Forall_forall in HC. apply (HC I). apply label_inv in HI as (_ & HI). exact (nth_error_In _ _ HI).
Qed.
Print Assumptions C117_planned_battery_partial.
(** A case: the battery holds 2 kWh and may give 1 of them. With a coefficient of 2 that makes 2 of the 4 kWh of heat and 1 kWh is bought; with a coefficient of 4 it makes them all. *)
Definition dark (c : Q) : list hour_in := demo_hour 0 0 4 120 c 8 :: demo_hour 0 0 4 120 c 8 :: repeat (demo_hour 0 0 4 120 c 8) (ANNUAL_HOURS - 2).
Definition dark_plant : mpc := two_hours (demo (demo_battery 4 1) 8 0 (simple_tank 0 0 0) all13 all15).
Definition dark_plan (x y : Q) : point :=
  {| v_RES_ed := 0; v_export := 0; v_imp_ed := 0; v_HPtrd := 0; v_HPtrs := 0; v_HPtid := y; v_HPtis := 0; v_HPtesd := x; v_HP_status := 1; v_HPt_var := 4;
     v_TSc := 0; v_TSd := 0; v_soc := 0; v_ESc := 0; v_ESc_res := 0; v_ESc_imp := 0; v_ESd := 1; v_ESd_hp := 1; v_ESd_aux := 0; v_ESd_ed := 0; v_soc_ES := 1;
     v_aux_rd := 0; v_aux_rs := 0; v_aux_d := 0; v_aux_s := 0; v_aux := 0 |}.
Lemma dark_seen c x y z : (exists b vs, make_problem dark_plant (dark c) [0; 0] 0 0 2 (initial_prev dark_plant) = Ok b /\ answer_with (dark_plan x y) b = Ok vs /\ plan_of (implicit_euler (demo_battery 4 1)) b vs /\ objective b vs == z) ->
  exists b vs, make_problem dark_plant (dark c) [0; 0] 0 0 2 (initial_prev dark_plant) = Ok b /\ plan_of (implicit_euler (demo_battery 4 1)) b vs /\ objective b vs == z /\
    battery_ok (b_battery b) /\ v_soc_ES (b_start b) <= b_capacity (b_battery b) /\ 0 <= b_export_cost b.
Proof.
  intros (b & vs & H1 & H2 & H3 & H4). exists b, vs. split; [exact H1|]. split; [exact H3|]. split; [exact H4|].
  unfold make_problem in H1. cbn in H1. injection H1 as <-. split; [apply demo_battery_ok; cbn; lra|]. split; closed_ineq.
Qed.
Example C117_planned_battery_case : exists b b' vs vs', electric_backup dark_plant /\ Forall2 better_pumped_hour (dark 2) (dark 4) /\
  make_problem dark_plant (dark 2) [0; 0] 0 0 2 (initial_prev dark_plant) = Ok b /\ make_problem dark_plant (dark 4) [0; 0] 0 0 2 (initial_prev dark_plant) = Ok b' /\
  plan_of (implicit_euler (demo_battery 4 1)) b vs /\ objective b vs == 3 # 25 /\ battery_ok (b_battery b) /\ v_soc_ES (b_start b) <= b_capacity (b_battery b) /\ 0 <= b_export_cost b /\
  plan_of (implicit_euler (demo_battery 4 1)) b' vs' /\ objective b' vs' == 0.
Proof.
  destruct (dark_seen 2 2 2 (3 # 25)) as (b & vs & A1 & A2 & A3 & A4 & A5 & A6); [sunny_proof|].
  destruct (dark_seen 4 4 0 0) as (b' & vs' & A1' & A2' & A3' & _); [sunny_proof|].
  exists b, b', vs, vs'. split; [reflexivity|]. split; [|repeat (split; [assumption|]); assumption].
  assert (G : better_pumped_hour (demo_hour 0 0 4 120 2 8) (demo_hour 0 0 4 120 4 8)) by (unfold better_pumped_hour; cbn; repeat match goal with |- _ /\ _ => split end; try reflexivity; lra).
  unfold dark. constructor; [exact G|]. constructor; [exact G|]. generalize (ANNUAL_HOURS - 2)%nat. induction n; cbn [repeat]; constructor; assumption.
Qed.
