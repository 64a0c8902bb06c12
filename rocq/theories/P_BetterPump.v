(** C117: a heat pump that needs less electricity never makes the plant buy more. *)
From Verif Require Import Base BaseL M_Battery S_Battery M_HeatPump S_HeatPump L_HeatPump P_HeatPump M_Tools M_FixedOrder S_FixedOrder L_FixedOrder L_FixedOrderSign L_FixedOrderHour L_FixedOrderProps L_FixedOrderRun P_FixedOrder S_HeatPumpSize L_HeatPumpSize P_HeatPumpSize S_Easier L_Easier P_Easier S_BetterPump
  M_Init M_Program S_Program L_Program.
From Verif Require M_Renewables M_Tank.

Lemma better_eased I I' : better_pump I I' -> eased_hour I I'.
Proof.
  intros (E1 & E2 & E3 & E4 & E5 & E6 & E7). unfold eased_hour. rewrite E1, E2, E3, E4, E5, E6. repeat match goal with |- _ /\ _ => split end; try apply Qle_refl; try reflexivity. exact E7.
Qed.
(** One hour, whatever the minimum output rule does: no more is bought, for any purpose, and no less is sold. *)
Theorem C117_hour_partial : forall P I I' t n n' soc soc' rc rc', better_pump I I' -> plant_ok P -> hour_ok P I -> hour_ok P I' -> no_store P -> simple_battery_orders P ->
  level_ok (p_battery P) soc -> level_ok (p_battery P) soc' -> soc <= soc' -> hour_step P I t n soc = Ok rc -> hour_step P I' t n' soc' = Ok rc' -> buys_less rc rc'.
Proof.
  intros P I I' t n n' soc soc' rc rc' H1 H3 H4 H5 H6 H7 H8 H9 H10 H H'.
  exact (proj1 (hours_easier P P I I' t n n' soc soc' rc rc' ltac:(repeat split) (better_eased _ _ H1) H3 H4 H5 H6 H7 H8 H9 H10 H H')).
Qed.
Print Assumptions C117_hour_partial.
(** So the grid costs no more and pays no less. *)
Theorem C117_money_partial : forall P I I' t n n' soc soc' rc rc', better_pump I I' -> plant_ok P -> hour_ok P I -> hour_ok P I' -> no_store P -> simple_battery_orders P ->
  level_ok (p_battery P) soc -> level_ok (p_battery P) soc' -> soc <= soc' -> 0 <= i_import_price I -> 0 <= p_export_price P ->
  hour_step P I t n soc = Ok rc -> hour_step P I' t n' soc' = Ok rc' -> costs_less rc rc'.
Proof.
  intros P I I' t n n' soc soc' rc rc' H1 H3 H4 H5 H6 H7 H8 H9 H10 Pi Pe H H'.
  destruct (hours_easier P P I I' t n n' soc soc' rc rc' ltac:(repeat split) (better_eased _ _ H1) H3 H4 H5 H6 H7 H8 H9 H10 H H') as (_ & K & _). exact (K Pi Pe).
Qed.
Print Assumptions C117_money_partial.
(** The battery ends at least as full, if it starts the same or does not discharge by itself. *)
Theorem C117_level_partial : forall P I I' t n n' soc soc' rc rc', better_pump I I' -> plant_ok P -> hour_ok P I -> hour_ok P I' -> no_store P -> simple_battery_orders P ->
  level_ok (p_battery P) soc -> level_ok (p_battery P) soc' -> soc <= soc' -> soc == soc' \/ b_self_discharge (p_battery P) == 0 ->
  hour_step P I t n soc = Ok rc -> hour_step P I' t n' soc' = Ok rc' -> rf rc ES_final_soc <= rf rc' ES_final_soc.
Proof.
  intros P I I' t n n' soc soc' rc rc' H1 H3 H4 H5 H6 H7 H8 H9 H10 Lo H H'.
  destruct (hours_easier P P I I' t n n' soc soc' rc rc' ltac:(repeat split) (better_eased _ _ H1) H3 H4 H5 H6 H7 H8 H9 H10 H H') as (_ & _ & K & _). apply K. destruct Lo as [->|Lo]; [reflexivity|rewrite Lo; ring].
Qed.
Print Assumptions C117_level_partial.
(** The back-up has no more to do, apart from what it does with surplus, in hours that the minimum output rule leaves alone. *)
Theorem C117_back_up_partial : forall P I I' t n n' soc soc' rc rc', better_pump I I' -> plant_ok P -> hour_ok P I -> hour_ok P I' -> no_store P -> simple_battery_orders P ->
  level_ok (p_battery P) soc -> level_ok (p_battery P) soc' -> soc <= soc' -> quiet P I t n soc -> quiet P I' t n' soc' ->
  hour_step P I t n soc = Ok rc -> hour_step P I' t n' soc' = Ok rc' -> bought_back_up rc' <= bought_back_up rc.
Proof.
  intros P I I' t n n' soc soc' rc rc' H1 H3 H4 H5 H6 H7 H8 H9 H10 Q Q' H H'.
  destruct (hours_easier P P I I' t n n' soc soc' rc rc' ltac:(repeat split) (better_eased _ _ H1) H3 H4 H5 H6 H7 H8 H9 H10 H H') as (_ & _ & _ & K). exact (K Q Q').
Qed.
Print Assumptions C117_back_up_partial.

(** ** Whole runs *)
Definition hours_pumped (P P' : plant) (I I' : hour_in) : Prop := better_pump I I' /\ hour_ok P I /\ hour_ok P' I' /\ 0 <= i_import_price I.
Lemma hours_pumped_better P P' year year' : Forall2 (hours_pumped P P') year year' -> Forall2 (hours_better P P') year year'.
Proof. intro F. induction F as [|I I' l l' (E & H) F IH]; constructor; [split; [apply better_eased, E|exact H]|exact IH]. Qed.
(** Hour by hour *)
Theorem C117_run_partial : forall P year year' first n l l', plant_ok P -> 0 <= b_initial_state (p_battery P) <= 1 -> no_store P -> simple_battery_orders P -> b_self_discharge (p_battery P) == 0 ->
  Forall2 (hours_pumped P P) year year' -> run_timesteps P year first n = Ok l -> run_timesteps P year' first n = Ok l' -> Forall2 (better P) l l'.
Proof.
  intros P year year' first n l l' HP Hi NS SB Sd F. exact (runs_easier P P year year' first n l l' ltac:(repeat split) HP Hi NS SB Sd (hours_pumped_better _ _ _ _ F)).
Qed.
Print Assumptions C117_run_partial.
(** So over the whole period no more is bought, no less is sold, and the cash flow is no worse. *)
Theorem C117_year_partial : forall P year year' first n l l', plant_ok P -> 0 <= b_initial_state (p_battery P) <= 1 -> no_store P -> simple_battery_orders P -> b_self_discharge (p_battery P) == 0 ->
  Forall2 (hours_pumped P P) year year' -> 0 <= p_export_price P -> run_timesteps P year first n = Ok l -> run_timesteps P year' first n = Ok l' ->
  length l = length l' /\
  qsum (map (fun rc => rf rc GRID_total_import) l') <= qsum (map (fun rc => rf rc GRID_total_import) l) /\
  qsum (map (fun rc => rf rc GRID_total_export) l) <= qsum (map (fun rc => rf rc GRID_total_export) l') /\
  qsum (map (fun rc => rf rc GRID_cashflow) l) <= qsum (map (fun rc => rf rc GRID_cashflow) l').
Proof.
  intros P year year' first n l l' HP Hi NS SB Sd F Pe H H'. exact (summed P l l' Pe (C117_run_partial P year year' first n l l' HP Hi NS SB Sd F H H')).
Qed.
Print Assumptions C117_year_partial.

(** ** From the workbook *)
(** A higher coefficient typed into the workbook is a better heat pump in every hour of the year. *)
Theorem C117_typed : forall lc h h' c c' l l', typed_cop h h' c c' -> c <= c' -> performance lc h = Ok l -> performance lc h' = Ok l' -> Forall2 cheaper_heat l l'.
Proof.
  intros lc h h' c c' l l' (E1 & _ & _ & E2 & E3) L H H'.
  assert (R : forall x y n, cheaper_heat x y -> Forall2 cheaper_heat (repeat x n) (repeat y n)) by (intros x y n N; induction n; cbn [repeat]; constructor; assumption).
  destruct (Qeq_dec (h_capacity h) 0) as [Z|Z].
  - rewrite (performance_zero_capacity lc h Z) in H. rewrite E1 in Z. rewrite (performance_zero_capacity lc h' Z) in H'. apply Ok_eq in H, H'. rewrite <- H, <- H'. apply R. split; [reflexivity|apply Qle_refl].
  - rewrite (performance_simple lc h c Z E2) in H. rewrite E1 in Z. rewrite (performance_simple lc h' c' Z E3) in H'. apply Ok_eq in H, H'. rewrite <- H, <- H'. apply R. split; [exact E1|exact L].
Qed.
Print Assumptions C117_typed.
(** So is a cooler flow with the generic regression, within the range in which that formula falls. *)
Theorem C117_cooler_flow : forall lc h h' f f' l l', h_type h = h_type h' -> h_capacity h = h_capacity h' -> heat_resource h = heat_resource h' -> h_model h = MGeneric -> h_model h' = MGeneric ->
  h_flow h = PdSeries f -> h_flow h' = PdSeries f' -> Forall2 (fun x y => y <= x) f f' -> (forall i x a, nth_error f i = Some x -> nth_error (heat_resource h) i = Some a -> x - a <= 96) ->
  performance lc h = Ok l -> performance lc h' = Ok l' -> Forall2 cheaper_heat l l'.
Proof.
  intros lc h h' f f' l l' Et Ec Er M M' F F' Fl In96 H H'. unfold performance in H, H'. rewrite <- Ec, <- Er, <- Et, M', F' in H'. rewrite M, F in H. cbn [dot_values bind] in H, H'.
  assert (R0 : forall x n, Forall2 cheaper_heat (repeat x n) (repeat x n)) by (intros x n; induction n; cbn [repeat]; constructor; [split; [reflexivity|apply Qle_refl]|assumption]).
  destruct (qeq (h_capacity h) 0). { rewrite H in H'. injection H' as ->. unfold perf_array in H. destruct (Nat.eqb _ _); [|discriminate]. apply Ok_eq in H. rewrite <- H. clear.
    generalize (repeat (1 # 2) ANNUAL_HOURS), (repeat 0 ANNUAL_HOURS). induction l as [|x l IH]; intros [|y m]; cbn [zip2]; constructor; [split; [reflexivity|apply Qle_refl]|apply IH]. }
  unfold perf_array in H, H'. destruct (Nat.eqb _ _) in H; [|discriminate H]. destruct (Nat.eqb _ _) in H'; [|discriminate H']. apply Ok_eq in H, H'. rewrite <- H, <- H'. clear H H' F F' R0.
  generalize (repeat (h_capacity h) ANNUAL_HOURS). revert In96. generalize (heat_resource h). clear - Fl. induction Fl as [|x y f f' E Fl IH]; intros [|a am] N [|d ds]; cbn [zip2]; constructor.
  - split; [reflexivity|]. cbn [cop]. apply C47_generic_hotter_flow_never_better; [exact E|exact (N 0%nat x a eq_refl eq_refl)].
  - apply IH. intros i u v Hu Hv. exact (N (Datatypes.S i) u v Hu Hv).
Qed.
Print Assumptions C117_cooler_flow.
Lemma Forall2_at {A B} (R : A -> B -> Prop) l l' i x y : Forall2 R l l' -> nth_error l i = Some x -> nth_error l' i = Some y -> R x y.
Proof.
  intro F. revert i. induction F as [|a b l l' E F IH]; intros [|i] H H'; cbn in H, H'; try discriminate; [injection H as <-; injection H' as <-; exact E|exact (IH i H H')].
Qed.
Lemma Forall2_by {A B} (R : A -> B -> Prop) l l' : length l = length l' -> (forall i x y, nth_error l i = Some x -> nth_error l' i = Some y -> R x y) -> Forall2 R l l'.
Proof.
  revert l'. induction l as [|a l IH]; intros [|b l'] E H; try discriminate E; constructor; [exact (H 0%nat a b eq_refl eq_refl)|].
  apply IH; [injection E as E; exact E|]. intros i x y Hx Hy. exact (H (Datatypes.S i) x y Hx Hy).
Qed.
Lemma Forall2_long {A B} (R : A -> B -> Prop) l l' : Forall2 R l l' -> length l = length l'.
Proof. intro F. induction F as [|a b l l' _ _ IH]; cbn [length]; congruence. Qed.
(** What the two controllers hold: the same, but for the heat pump. *)
Definition other_pump (L : libraries) (h h' : held L) (c c' : Q) : Prop :=
  o_user (q_parts h) = o_user (q_parts h') /\ o_database (q_parts h) = o_database (q_parts h') /\ o_PV (q_parts h) = o_PV (q_parts h') /\
  o_battery (q_parts h) = o_battery (q_parts h') /\ o_aux (q_parts h) = o_aux (q_parts h') /\ o_tank (q_parts h) = o_tank (q_parts h') /\
  q_elec h = q_elec h' /\ q_heat h = q_heat h' /\ q_import h = q_import h' /\ q_export h = q_export h' /\ q_return h = q_return h' /\ q_delta h = q_delta h' /\
  typed_cop (o_heat_pump (q_parts h)) (o_heat_pump (q_parts h')) c c'.
(** The years put together for two workbooks that differ in that coefficient *)
Theorem C117_years : forall L run_pv lc h h' c c' year year', other_pump L h h' c c' -> c <= c' -> year_of L run_pv lc h = Ok year -> year_of L run_pv lc h' = Ok year' -> Forall2 better_pump year year'.
Proof.
  intros L run_pv lc h h' c c' year year' (E1 & E2 & E3 & _ & _ & _ & E4 & E5 & E6 & _ & _ & _ & E7) Lc H H'.
  apply year_of_inv in H as (g & total & wind & hp & G1 & G2 & G3 & _ & _ & G4 & G5 & G6). apply year_of_inv in H' as (g' & total' & wind' & hp' & G1' & G2' & G3' & _ & _ & G4' & G5' & G6').
  rewrite E1, E2, E3, G1' in G1. injection G1 as <-. assert (W : map Some wind = map Some wind') by congruence. clear G2 G2' G3 G3' G1'.
  pose proof (C117_typed lc _ _ c c' hp hp' E7 Lc G4 G4') as N. clear G4 G4' E7 E1 E2 E3.
  apply Forall2_by; [unfold full_year in G5, G5'; lia|]. intros t I I' Ht Ht'. destruct (G6 t I Ht) as (A1 & A2 & A3 & A4 & A5 & A6 & A7 & A8). destruct (G6' t I' Ht') as (A1' & A2' & A3' & A4' & A5' & A6' & A7' & A8').
  rewrite <- E4 in A3'. rewrite <- E5 in A4'. rewrite <- E6 in A7'.
  assert (W1 : i_wind I = i_wind I'). { pose proof (f_equal (fun l => nth_error l t) W) as W'. cbv beta in W'. rewrite !nth_error_map, A1, A1' in W'. cbn in W'. injection W' as W'. exact W'. }
  split; [exact W1|]. split; [congruence|]. split; [congruence|]. split; [congruence|]. split; [congruence|]. exact (Forall2_at _ _ _ _ _ _ N A8 A8').
Qed.
Print Assumptions C117_years.
(** So the runs compare as above. *)
Theorem C117_workbook_partial : forall L run_pv lc h h' c c' setpoint above below year year' first n l l', other_pump L h h' c c' -> c <= c' ->
  year_of L run_pv lc h = Ok year -> year_of L run_pv lc h' = Ok year' ->
  plant_ok (plant_of L h setpoint above below) -> 0 <= b_initial_state (o_battery (q_parts h)) <= 1 -> b_self_discharge (o_battery (q_parts h)) == 0 ->
  no_store (plant_of L h setpoint above below) -> simple_battery_orders (plant_of L h setpoint above below) ->
  (forall I, In I year -> hour_ok (plant_of L h setpoint above below) I /\ 0 <= i_import_price I) -> (forall I, In I year' -> hour_ok (plant_of L h' setpoint above below) I) ->
  run_timesteps (plant_of L h setpoint above below) year first n = Ok l -> run_timesteps (plant_of L h' setpoint above below) year' first n = Ok l' ->
  Forall2 (better (plant_of L h setpoint above below)) l l'.
Proof.
  intros L run_pv lc h h' c c' sp ab be year year' first n l l' O Lc Y Y' HP Hi Sd NS SB F F' H H'.
  pose proof (C117_years L run_pv lc h h' c c' year year' O Lc Y Y') as B. destruct O as (_ & _ & _ & E1 & E2 & E3 & _ & E4 & _ & E5 & E6 & E7 & (E8 & E9 & E10 & _)).
  assert (Ep : plant_of L h' sp ab be = plant_of L h sp ab be) by (unfold plant_of; cbv zeta; rewrite E1, E2, E3, E4, E5, E6, E7, E8, E9, E10; reflexivity).
  rewrite Ep in H', F'. apply (C117_run_partial _ year year' first n l l'); try assumption.
  apply Forall2_by; [exact (Forall2_long _ _ _ B)|]. intros i I I' Hx Hy. split; [exact (Forall2_at _ _ _ _ _ _ B Hx Hy)|]. destruct (F I (nth_error_In _ _ Hx)) as (F1 & F2). split; [exact F1|]. split; [exact (F' I' (nth_error_In _ _ Hy))|exact F2].
Qed.
Print Assumptions C117_workbook_partial.

(** ** Where it fails *)
Lemma demo_better pv el he pr c c' d : c <= c' -> better_pump (demo_hour pv el he pr c d) (demo_hour pv el he pr c' d).
Proof. intro H. repeat split. exact H. Qed.
(** The battery drives the heat pump, and the limit of the heat pump does not count what it drove.  With twice the coefficient more is driven by surplus and counted, so less is left for the bought electricity, and the electric back-up buys more than is saved. *)
Theorem C117_order_refuted : exists P I I' rc rc', better_pump I I' /\ plant_ok P /\ hour_ok P I /\ hour_ok P I' /\ no_store P /\ p_order_above P = all13 /\ level_ok (p_battery P) 5 /\
  hour_step P I 0 [60; 50; 40] 5 = Ok rc /\ hour_step P I' 0 [60; 50; 40] 5 = Ok rc' /\ rf rc GRID_total_import < rf rc' GRID_total_import /\ bought_back_up rc < bought_back_up rc'.
Proof.
  exists (pumped 5 0 all13), (demo_hour (1 # 10) 0 10 120 10 5), (demo_hour (1 # 10) 0 10 120 20 5).
  assert (K : match hour_step (pumped 5 0 all13) (demo_hour (1 # 10) 0 10 120 10 5) 0 [60; 50; 40] 5, hour_step (pumped 5 0 all13) (demo_hour (1 # 10) 0 10 120 20 5) 0 [60; 50; 40] 5 with
    Ok r, Ok r' => qlt (rf r GRID_total_import) (rf r' GRID_total_import) && qlt (bought_back_up r) (bought_back_up r') | _, _ => false end = true) by (vm_compute; reflexivity).
  destruct (hour_step _ (demo_hour _ 0 10 120 10 5) _ _ _) as [r|]; [|discriminate K]. destruct (hour_step _ (demo_hour _ 0 10 120 20 5) _ _ _) as [r'|]; [|discriminate K].
  apply andb_prop in K as (K1 & K2).
  exists r, r'. split; [apply demo_better; lra|]. split; [apply pumped_ok; lra|]. split; [apply pumped_hour; lra|]. split; [apply pumped_hour; lra|]. split; [apply pumped_store|]. split; [reflexivity|]. split; [apply pumped_level|].
  split; [reflexivity|]. split; [reflexivity|]. split; apply qlt_true; assumption.
Qed.
Print Assumptions C117_order_refuted.
(** A battery that loses a tenth of its initial level in every hour: the better heat pump leaves it fuller in the first hour, both are filled up in the second, and the fuller one has lost more when the third hour needs it. *)
Definition warm_year (c : Q) : list hour_in := [demo_hour 5 0 5 120 c 5; demo_hour 100 0 0 120 c 5; demo_hour 0 10 0 120 c 5].
Lemma warm_hour pv el he c : 0 <= pv -> 0 <= el -> 0 <= he <= 30 -> 0 < c -> hour_ok leaky (demo_hour pv el he 120 c 5).
Proof. intros A B C D. unfold hour_ok, leaky, demo, demo_hour. cbn. repeat split; try lra. intros x _ _ q H. injection H as <-. destruct x; lra. Qed.
Lemma warm_hours : Forall2 (hours_pumped leaky leaky) (warm_year 1) (warm_year 5).
Proof.
  repeat apply Forall2_cons; try apply Forall2_nil; (split; [apply demo_better; lra|]; split; [apply warm_hour; lra|]; split; [apply warm_hour; lra|cbn; lra]).
Qed.
Lemma warm_runs : three_worse (run_loop leaky (warm_year 1) (zrange 0 3) (t_init (p_tank leaky), init_state (p_battery leaky))) (run_loop leaky (warm_year 5) (zrange 0 3) (t_init (p_tank leaky), init_state (p_battery leaky))) = true.
Proof. vm_compute. reflexivity. Qed.
Theorem C117_self_discharge_refuted : exists P year year' l l', plant_ok P /\ 0 <= b_initial_state (p_battery P) <= 1 /\ no_store P /\ simple_battery_orders P /\ Forall2 (hours_pumped P P) year year' /\
  run_loop P year (zrange 0 3) (t_init (p_tank P), init_state (p_battery P)) = Ok l /\ run_loop P year' (zrange 0 3) (t_init (p_tank P), init_state (p_battery P)) = Ok l' /\
  (exists a b c a' b' c', l = [a; b; c] /\ l' = [a'; b'; c'] /\ rf b' ES_final_soc < rf b ES_final_soc /\ rf c GRID_total_import < rf c' GRID_total_import) /\
  qsum (map (fun rc => rf rc GRID_total_import) l) < qsum (map (fun rc => rf rc GRID_total_import) l').
Proof.
  destruct (three_hours _ _ warm_runs) as (a & b & c & a' & b' & c' & R & R' & K1 & K2 & K3).
  exists leaky, (warm_year 1), (warm_year 5), [a; b; c], [a'; b'; c']. destruct leaky_ok as (A1 & A2 & A3 & A4 & _). split; [exact A1|]. split; [exact A4|]. split; [exact A2|]. split; [exact A3|]. split; [exact warm_hours|].
  split; [exact R|]. split; [exact R'|]. split; [|exact K3]. exists a, b, c, a', b', c'. split; [reflexivity|]. split; [reflexivity|]. split; assumption.
Qed.
Print Assumptions C117_self_discharge_refuted.
(** A coefficient of 4 instead of 2: all hypotheses of the theorems hold, and the plant buys 2 kWh less. *)
Example C117_case : plant_ok (pumped 8 0 without_battery_heat) /\ no_store (pumped 8 0 without_battery_heat) /\ simple_battery_orders (pumped 8 0 without_battery_heat) /\
  hours_pumped (pumped 8 0 without_battery_heat) (pumped 8 0 without_battery_heat) (demo_hour 1 20 10 120 2 8) (demo_hour 1 20 10 120 4 8) /\ b_self_discharge (p_battery (pumped 8 0 without_battery_heat)) == 0 /\
  level_ok (p_battery (pumped 8 0 without_battery_heat)) 5 /\
  quiet (pumped 8 0 without_battery_heat) (demo_hour 1 20 10 120 2 8) 0 [60; 50; 40] 5 /\ quiet (pumped 8 0 without_battery_heat) (demo_hour 1 20 10 120 4 8) 0 [60; 50; 40] 5 /\
  exists rc rc', hour_step (pumped 8 0 without_battery_heat) (demo_hour 1 20 10 120 2 8) 0 [60; 50; 40] 5 = Ok rc /\ hour_step (pumped 8 0 without_battery_heat) (demo_hour 1 20 10 120 4 8) 0 [60; 50; 40] 5 = Ok rc' /\
    rf rc GRID_total_import == rf rc' GRID_total_import + 2 /\ bought_back_up rc == 2 /\ bought_back_up rc' == 2.
Proof.
  split; [apply pumped_ok; lra|]. split; [apply pumped_store|]. split; [apply pumped_simple|].
  split. { split; [apply demo_better; lra|]. split; [apply pumped_hour; lra|]. split; [apply pumped_hour; lra|cbn; lra]. }
  split; [reflexivity|]. split; [apply pumped_level|]. split; [apply quietb_true; vm_compute; reflexivity|]. split; [apply quietb_true; vm_compute; reflexivity|].
  assert (K : match hour_step (pumped 8 0 without_battery_heat) (demo_hour 1 20 10 120 2 8) 0 [60; 50; 40] 5, hour_step (pumped 8 0 without_battery_heat) (demo_hour 1 20 10 120 4 8) 0 [60; 50; 40] 5 with
    Ok r, Ok r' => qeq (rf r GRID_total_import) (rf r' GRID_total_import + 2) && (qeq (bought_back_up r) 2 && qeq (bought_back_up r') 2) | _, _ => false end = true) by (vm_compute; reflexivity).
  destruct (hour_step _ (demo_hour 1 20 10 120 2 8) _ _ _) as [r|]; [|discriminate K]. destruct (hour_step _ (demo_hour 1 20 10 120 4 8) _ _ _) as [r'|]; [|discriminate K].
  apply andb_prop in K as (K1 & K). apply andb_prop in K as (K2 & K3). exists r, r'. split; [reflexivity|]. split; [reflexivity|]. split; [apply qeq_true_inv, K1|]. split; apply qeq_true_inv; assumption.
Qed.
(** Two heat pumps of the workbook that differ as the theorems ask *)
Example C117_typed_case : typed_cop {| h_type := ASHP; h_capacity := 10; h_ambient_delta_t := 5; h_minimum_runtime := 0; h_minimum_output := 0; h_data_input := INTEGRATED; h_flow := Scalar 60; h_return := Scalar 40; h_air := []; h_water := []; h_model := MSimple 2 |}
  {| h_type := ASHP; h_capacity := 10; h_ambient_delta_t := 5; h_minimum_runtime := 0; h_minimum_output := 0; h_data_input := INTEGRATED; h_flow := Scalar 60; h_return := Scalar 40; h_air := []; h_water := []; h_model := MSimple 3 |} 2 3.
Proof. repeat split. Qed.
