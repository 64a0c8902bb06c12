(** From the workbook to the hours of a run. *)
From Coq Require Import String Ascii.
From Verif Require Import Base BaseL M_Battery M_HeatPump M_Tools S_HeatPump L_HeatPump L_Tools M_FixedOrder S_FixedOrder L_FixedOrderRun P_FixedOrder
  M_Regression L_Regression M_Excel S_Excel L_Excel L_ExcelSheets P_Excel M_Init S_Init L_Init P_Init M_Program S_Program L_Program.
From Verif Require M_Tank M_Grid L_Grid S_Grid P_Grid M_Renewables M_Mpc S_Mpc L_MpcRun P_Mpc M_Sweep L_Sweep P_Sweep M_Kpi P_Kpi M_Plots L_Plots P_Plots.
Local Open Scope nat_scope.
Local Open Scope string_scope.
Local Open Scope list_scope.

Section RUNS.
Variable L : libraries.
Variable run_pv : M_Renewables.pvlib_model (lib_module L) (lib_inverter L).
Variable lc : lorentz_spec -> Q -> Q -> Q -> Q -> Q.
Variable opt : M_Mpc.optimiser.
Variable price : Z -> Q.
Let program := program L run_pv lc opt price.

(** ** From the workbook to the hours of a run *)
Lemma hold_cells wb k k' h t (q : held L) : plain wb -> big_enough wb -> read_inputs wb = Ok k -> combination h t k = Ok k' -> hold L k' = Ok q ->
  set_up L wb h t = Ok (q_parts q) /\
  holds_down wb "Demand input" "D" 6 (q_heat q) /\ holds_down wb "Demand input" "E" 6 (q_elec q) /\
  holds_down wb "Demand input" "F" 6 (q_flow q) /\ holds_down wb "Demand input" "G" 6 (q_source q) /\
  holds wb "Demand input" "I" 6 (q_return q) /\ holds wb "Demand input" "I" 8 (q_delta q) /\
  holds wb "Grid" "D" 9 (q_export q) /\ M_Grid.import_cost_series (o_grid (q_parts q)) = Ok (Some (q_import q)).
Proof.
  intros P B R C H. apply hold_inv in H as (M & H1 & H2 & H3 & H4 & H5 & H6 & H7 & H8).
  pose proof (set_up_ok L wb h t k k' _ R C M) as S. split; [exact S|].
  assert (CD : c_source_delta_t k' = c_source_delta_t k) by (unfold combination in C; inv_bind C; injection C as <-; reflexivity).
  apply combination_parts in C as ((_ & _ & C1 & C2 & _ & _ & _ & _ & _ & _ & _ & C3 & _) & _).
  rewrite C2 in H1, H2, H3, H4. rewrite C1 in H5. rewrite CD in H6. rewrite C3 in H8.
  destruct (C82_demand wb k P B R) as (D1 & D2 & D3 & D4). destruct (C81_heating wb k P B R) as (_ & A1 & A2 & _).
  pose proof (C81_grid wb k P B R) as G.
  split; [eapply numbers_down; eassumption|]. split; [eapply numbers_down; eassumption|]. split; [eapply numbers_down; eassumption|].
  split; [eapply numbers_down; eassumption|]. rewrite A1 in H5. rewrite A2 in H6. split; [apply number_holds, H5|]. split; [apply number_holds, H6|].
  split; [|exact H7]. apply number_holds. rewrite <- H8. f_equal. symmetry. apply G.
Qed.

(** What a completed combination was computed from *)
Definition simulated (wb : workbook) (out : outcome) (d : done) (q : held L) (s n : Z) : Prop :=
  set_up L wb (fst (d_sizes d)) (snd (d_sizes d)) = Ok (q_parts q) /\
  holds_down wb "Demand input" "D" 6 (q_heat q) /\ holds_down wb "Demand input" "E" 6 (q_elec q) /\
  holds_down wb "Demand input" "F" 6 (q_flow q) /\ holds_down wb "Demand input" "G" 6 (q_source q) /\
  holds wb "Demand input" "I" 6 (q_return q) /\ holds wb "Demand input" "I" 8 (q_delta q) /\
  holds wb "Grid" "D" 9 (q_export q) /\ M_Grid.import_cost_series (o_grid (q_parts q)) = Ok (Some (q_import q)) /\
  counts wb "Controller" "G" 5 s /\ counts wb "Controller" "G" 6 n /\ M_Plots.run_plots (d_records d) n s = Ok (d_figures d).
Lemma says_controller wb k c c' : plain wb -> read_inputs wb = Ok k -> says wb "Controller" "D" 5 c -> name (k_controller (c_controller k)) = Ok c' -> c' = c.
Proof.
  intros P R S N. destruct (C81_controller wb k P R) as (A & _). rewrite A in N. apply says_name in S. congruence.
Qed.
Lemma fixed_simulated wb out d : plain wb -> big_enough wb -> says wb "Controller" "D" 5 "Fixed order control" -> program wb = Ok out -> In d (r_done out) ->
  exists q s n setpoint above below year, simulated wb out d q s n /\ holds wb "Controller" "D" 7 setpoint /\
    order_of (xl wb "Controller" "D" 8) = Ok above /\ order_of (xl wb "Controller" "D" 9) = Ok below /\
    year_of L run_pv lc q = Ok year /\ run_timesteps (plant_of L q setpoint above below) year s n = Ok (d_records d).
Proof.
  intros P B S H I. apply program_inv in H as (k & p & cs & c & s & n & R & _ & _ & _ & N & T & F & _ & A & _).
  rewrite Forall_forall in A. destruct (A d I) as (C & Hs & Hp). rewrite (says_controller wb k _ c P R S N) in Hs.
  unfold run_solver in Hs. change (String.eqb "Fixed order control" "Fixed order control") with true in Hs. cbv iota in Hs.
  apply fixed_order_inv in Hs as (q & x & year & H1 & H2 & H3 & H4).
  destruct (hold_cells wb k _ _ _ q P B R C H1) as (Q1 & Q2 & Q3 & Q4 & Q5 & Q6 & Q7 & Q8 & Q9).
  apply combination_parts in C as ((C & _) & _). rewrite C in H2, H4.
  destruct (C81_controller wb k P R) as (_ & A2 & A3 & A4 & _ & A6 & A7). rewrite A3 in T. rewrite A2 in F. rewrite A4 in H2.
  exists q, s, n, x, (k_above (c_controller k)), (k_below (c_controller k)), year.
  apply whole_counts in T, F. apply number_holds in H2. unfold simulated. repeat match goal with |- _ /\ _ => split end; assumption.
Qed.
Lemma predictive_simulated wb out d : plain wb -> big_enough wb -> says wb "Controller" "D" 5 "Model predictive control" -> program wb = Ok out -> In d (r_done out) ->
  exists q s n z year, simulated wb out d q s n /\ counts wb "Controller" "G" 9 z /\ year_of L run_pv lc q = Ok year /\
    let P := plant_of L q 0%Q [] [] in
    M_Mpc.mpc_run {| M_Mpc.m_plant := P; M_Mpc.m_horizon := z; M_Mpc.m_return_nodes := t_init (p_tank P) |} opt year s n = Ok (d_records d).
Proof.
  intros P B S H I. apply program_inv in H as (k & p & cs & c & s & n & R & _ & _ & _ & N & T & F & _ & A & _).
  rewrite Forall_forall in A. destruct (A d I) as (C & Hs & Hp). rewrite (says_controller wb k _ c P R S N) in Hs.
  unfold run_solver in Hs. change (String.eqb "Model predictive control" "Fixed order control") with false in Hs.
  change (String.eqb "Model predictive control" "Model predictive control") with true in Hs. cbv iota in Hs.
  apply predictive_inv in Hs as (q & x & year & H1 & H2 & H3 & H4).
  destruct (hold_cells wb k _ _ _ q P B R C H1) as (Q1 & Q2 & Q3 & Q4 & Q5 & Q6 & Q7 & Q8 & Q9).
  apply combination_parts in C as ((C & _) & _). rewrite C in H2.
  destruct (C81_controller wb k P R) as (_ & A2 & A3 & _ & A5 & _). rewrite A3 in T. rewrite A2 in F. rewrite A5 in H2.
  exists q, s, n, x, year. apply whole_counts in T, F, H2. unfold simulated. repeat match goal with |- _ /\ _ => split end; assumption.
Qed.
Lemma down_at wb N c from l t x : holds_down wb N c from l -> nth_error l t = Some x -> holds wb N c (from + t) x.
Proof.
  intros (_ & H) E. assert (Ht : t < length l) by (apply nth_error_Some; congruence). destruct (H t Ht) as (q & E' & Hq). congruence.
Qed.
(** An hour of a fixed-order run: its data are those of its row. *)
Lemma fixed_hour wb out d i rc : plain wb -> big_enough wb -> says wb "Controller" "D" 5 "Fixed order control" -> program wb = Ok out -> In d (r_done out) ->
  nth_error (d_records d) i = Some rc ->
  exists q s n setpoint above below year g total wind hp I, simulated wb out d q s n /\ holds wb "Controller" "D" 7 setpoint /\
    order_of (xl wb "Controller" "D" 8) = Ok above /\ order_of (xl wb "Controller" "D" 9) = Ok below /\ (0 <= s)%Z /\ (s + n <= 8760)%Z /\ (Z.of_nat i < n)%Z /\
    M_Renewables.renewable_generation (lib_wind L) run_pv (o_user (q_parts q)) (o_database (q_parts q)) (o_PV (q_parts q)) = Ok g /\
    M_Renewables.g_total g = map Some total /\ M_Renewables.g_wind g = map Some wind /\ performance lc (o_heat_pump (q_parts q)) = Ok hp /\
    hour_from L q wind (M_Renewables.g_PV g) hp (Z.to_nat s + i) I /\ full_year year /\
    let P := plant_of L q setpoint above below in
    run_timesteps P year s n = Ok (d_records d) /\
    hour_step P I (s + Z.of_nat i) (fst (state_before P (d_records d) i)) (snd (state_before P (d_records d) i)) = Ok rc.
Proof.
  intros P B S H I E. destruct (fixed_simulated wb out d P B S H I) as (q & s & n & x & above & below & year & H1 & H2 & H3 & H4 & H5 & H6).
  destruct (year_of_inv L run_pv lc q year H5) as (g & total & wind & hp & Y1 & Y2 & Y3 & _ & _ & Y4 & Y5 & Y6).
  destruct (C16_one_record_per_hour _ _ _ _ _ H6) as (N1 & N2 & _).
  destruct (C15_hours_are_chained _ _ _ _ _ i rc H6 E) as (J & Hn & EJ & St).
  assert (Hi : i < length (d_records d)) by (apply nth_error_Some; congruence).
  assert (S0 : (0 <= s)%Z).
  { destruct (nth_error (d_records d) 0) as [r0|] eqn:E0; [|apply nth_error_None in E0; lia].
    destruct (C15_hours_are_chained _ _ _ _ _ 0 r0 H6 E0) as (_ & X & _). lia. }
  replace (Z.to_nat (s + Z.of_nat i)) with (Z.to_nat s + i) in EJ by lia.
  exists q, s, n, x, above, below, year, g, total, wind, hp, J. pose proof (Y6 _ _ EJ) as HF.
  assert ((Z.of_nat i < n)%Z) by lia. cbv zeta. tauto.
Qed.
End RUNS.

(** The columns of the weekdays *)
Lemma periods_column wb N (ps : list (string * list Q)) nm col c :
  Forall2 (fun dc p => fst p = fst dc /\ holds_down_to wb N (snd dc) 18 24 (snd p)) day_columns ps ->
  find (fun x => String.eqb (fst x) nm) ps = Some (nm, col) -> In (nm, c) day_columns -> holds_down_to wb N c 18 24 col.
Proof.
  intros F Fi I. unfold day_columns in *.
  repeat match goal with H : Forall2 _ (_ :: _) _ |- _ => inversion H; subst; clear H | H : Forall2 _ [] _ |- _ => inversion H; subst; clear H end.
  repeat match goal with H : fst ?y = _ /\ _ |- _ => destruct y; cbn [fst snd] in H; destruct H as [-> H] end.
  cbn [In] in I. repeat destruct I as [I|I]; try contradiction; injection I as <- <-; cbn in Fi; injection Fi as <-; assumption.
Qed.
Lemma periods_none wb N (ps : list (string * list Q)) nm col :
  Forall2 (fun dc p => fst p = fst dc /\ holds_down_to wb N (snd dc) 18 24 (snd p)) day_columns ps ->
  In (nm, col) ps -> find (fun x => String.eqb (fst x) nm) day_columns = None -> False.
Proof.
  intros F I Fd. revert I Fd. generalize day_columns F. clear. intros dcs F. induction F as [|dc p dcs ps (E & _) F IH]; intros I Fd; [exact I|].
  cbn [find] in Fd. destruct I as [->|I].
  - cbn [fst] in E. rewrite <- E, String.eqb_refl in Fd. discriminate.
  - destruct (String.eqb (fst dc) nm); [discriminate|]. apply IH; assumption.
Qed.

Lemma no_plots n s : (n <= 0)%Z -> M_Plots.run_plots [] n s = Err IndexError.
Proof. intro H. destruct n as [|p|p]; [reflexivity|lia|reflexivity]. Qed.

(** ** Workbooks that agree on what is needed *)
Lemma get_sheet_ext wb wb' N : wb N = wb' N -> get_sheet wb N = get_sheet wb' N.
Proof. unfold get_sheet. intros ->. reflexivity. Qed.
(** Everything but the sweep and the controller *)
Definition same_rest (k k' : container) : Prop :=
  c_resources k = c_resources k' /\ c_temp_return k = c_temp_return k' /\ c_source_delta_t k = c_source_delta_t k' /\ c_demand k = c_demand k' /\
  c_PV_location k = c_PV_location k' /\ c_PV_spec k = c_PV_spec k' /\ c_wind_database k = c_wind_database k' /\ c_wind_user k = c_wind_user k' /\
  c_power_curve k = c_power_curve k' /\ c_wind_farm k = c_wind_farm k' /\ c_battery k = c_battery k' /\ c_grid k = c_grid k' /\ c_aux k = c_aux k' /\
  c_tank k = c_tank k' /\ c_heat_pump k = c_heat_pump k'.
Lemma read_same_rest wb wb' k k' : read_inputs wb = Ok k -> read_inputs wb' = Ok k' ->
  (forall N, N <> "Parametric" -> N <> "Controller" -> wb N = wb' N) -> same_rest k k'.
Proof.
  intros R R' S. apply read_inputs_parts in R as (_ & _ & A3 & A4 & A5 & A6 & A7 & A8 & A9 & A10 & A11 & A12 & A13).
  apply read_inputs_parts in R' as (_ & _ & B3 & B4 & B5 & B6 & B7 & B8 & B9 & B10 & B11 & B12 & B13).
  assert (G : forall N, N <> "Parametric" -> N <> "Controller" -> get_sheet wb N = get_sheet wb' N) by (intros; apply get_sheet_ext, S; assumption).
  unfold x_resources in *. rewrite (G "Weather resources"), B3 in A3 by discriminate. apply Ok_inj in A3.
  unfold x_demand_input in *. rewrite (G "Demand input"), B5 in A5 by discriminate. apply Ok_inj in A5. injection A5 as A51 A52 A53.
  unfold x_PV in *. rewrite (G "PV inputs"), B6 in A6 by discriminate. apply Ok_inj in A6. injection A6 as A61 A62.
  unfold x_wind in *. rewrite (G "Wind inputs"), B7 in A7 by discriminate. apply Ok_inj in A7. injection A7 as A71 A72 A73.
  unfold x_wind_farm in *. rewrite (G "Wind farm"), B8 in A8 by discriminate. apply Ok_inj in A8.
  unfold x_electrical_storage in *. rewrite (G "Electrical storage"), B9 in A9 by discriminate. apply Ok_inj in A9.
  unfold x_grid in *. rewrite (G "Grid"), B10 in A10 by discriminate. apply Ok_inj in A10.
  unfold x_aux in *. rewrite (G "Aux heat"), B11 in A11 by discriminate. apply Ok_inj in A11.
  unfold x_thermal_storage in *. rewrite (G "Thermal storage"), B12 in A12 by discriminate. apply Ok_inj in A12.
  unfold x_heat_pump in *. rewrite (G "Heat pump"), B13 in A13 by discriminate. apply Ok_inj in A13.
  unfold same_rest. repeat split; congruence.
Qed.
Lemma combination_same_rest h t k k' j j' : same_rest k k' -> combination h t k = Ok j -> combination h t k' = Ok j' ->
  same_rest j j' /\ c_controller j = c_controller k /\ c_controller j' = c_controller k'.
Proof.
  intros S C C'. destruct S as (S1 & S2 & S3 & S4 & S5 & S6 & S7 & S8 & S9 & S10 & S11 & S12 & S13 & S14 & S15).
  unfold combination in C, C'. rewrite <- S14, <- S15 in C'. inv_bind C. inv_bind C'. injection C as <-. injection C' as <-.
  repeat match goal with H : Ok _ = Ok _ |- _ => apply Ok_inj in H end. subst. unfold same_rest. cbn. repeat split; congruence.
Qed.
Lemma init_same_rest L k k' : same_rest k k' ->
  init (lib_width L) (lib_pi L) (lib_cp L) (lib_fit L) (lib_wind L) (lib_module L) (lib_inverter L) (lib_cec L) (lib_sandia L) (lib_inverters L) k =
  init (lib_width L) (lib_pi L) (lib_cp L) (lib_fit L) (lib_wind L) (lib_module L) (lib_inverter L) (lib_cec L) (lib_sandia L) (lib_inverters L) k'.
Proof.
  intros (S1 & S2 & S3 & S4 & S5 & S6 & S7 & S8 & S9 & S10 & S11 & S12 & S13 & S14 & S15). destruct k, k'. cbn in *. subst. reflexivity.
Qed.
Lemma hold_same_rest L k k' : same_rest k k' -> hold L k = hold L k'.
Proof.
  intro S. unfold hold. rewrite (init_same_rest L k k' S). destruct S as (S1 & S2 & S3 & S4 & _ & _ & _ & _ & _ & _ & _ & S12 & _).
  rewrite S2, S3, S4, S12. reflexivity.
Qed.
Lemma combination_same h t k j j' : combination h t k = Ok j -> combination h t k = Ok j' -> j = j'.
Proof. intros A B. rewrite A in B. apply Ok_inj, B. Qed.
Lemma counts_one wb N c r a b : counts wb N c r a -> counts wb N c r b -> a = b.
Proof.
  intros (x & X1 & X2) (y & Y1 & Y2). unfold holds in *. rewrite X1 in Y1. injection Y1 as <-. rewrite X2 in Y2. unfold Qeq in Y2. cbn in Y2. lia.
Qed.
(** ** What the indicators are computed from *)
Lemma program_load L run_pv lc opt price wb out d nm K : program L run_pv lc opt price wb = Ok out -> In d (r_done out) ->
  nm = M_Sweep.folder_name (d_sizes d) -> load L (r_done out) nm = Ok K -> calcs L d = Ok K.
Proof.
  intros H I -> E. apply program_inv in H as (k & p & cs & c & s & n & _ & _ & _ & _ & _ & _ & _ & _ & A & _). rewrite Forall_forall in A.
  unfold load in E. set (f := fun d0 : done => _) in E. destruct (find f (rev (r_done out))) as [d'|] eqn:F; [|discriminate].
  apply find_some in F as (I' & Fd). apply in_rev in I'. unfold f in Fd. destruct (list_eq_dec _ _ _) as [Eq|]; [|discriminate].
  apply P_Sweep.C34_names_distinct in Eq. destruct (A d I) as (A1 & A2 & A3). destruct (A d' I') as (B1 & B2 & B3). rewrite Eq in B1.
  pose proof (combination_same _ _ _ _ _ A1 B1) as EI. rewrite <- EI in B2. rewrite A2 in B2. apply Ok_inj in B2.
  unfold calcs in *. rewrite EI, B2, <- Eq. exact E.
Qed.
Definition draws (j : res M_Plots.kpi_output) : Prop := forall o, j = Ok o -> exists s, o = M_Plots.KpiSurface s.
Lemma jobs_no_tables l : Forall draws l -> forall os r t, M_Plots.run_jobs l = (os, r) -> ~ In (M_Plots.KpiTables t) os.
Proof.
  induction 1 as [|j l Aj _ IH]; intros os' r' t J X; cbn [M_Plots.run_jobs] in J; [injection J as <- _; destruct X|].
  destruct j as [o|e]; [|injection J as <- _; destruct X]. destruct (M_Plots.run_jobs l) as [os2 r2] eqn:J2. injection J as <- _.
  destruct X as [X|X]; [destruct (Aj o eq_refl) as (s & ->); discriminate|]. exact (IH _ _ _ eq_refl X).
Qed.
Lemma kpi_tables price lo p os r tables : M_Plots.run_KPIs price lo p = (os, r) -> In (M_Plots.KpiTables tables) os -> M_Kpi.KPIs_to_csv price lo p = Ok tables.
Proof.
  unfold M_Plots.run_KPIs. destruct (M_Sweep.combos p) as [cs|]; [|intros [= <- _] []].
  cbv zeta. match goal with |- context [M_Plots.run_jobs (?j :: ?l)] => assert (A : Forall draws l);
    [repeat (apply Forall_cons || apply Forall_nil); intros o X; match type of X with bind ?e _ = _ => destruct e; cbn [bind] in X; [injection X as <-; eexists; reflexivity|discriminate] end|
     generalize dependent l; intros jobs A] end.
  destruct (M_Kpi.KPIs_to_csv price lo p) as [t|] eqn:E; cbn [bind M_Plots.run_jobs]; [|intros [= <- _] []].
  destruct (M_Plots.run_jobs jobs) as [os' r'] eqn:J. intros [= <- _] [X|X]; [congruence|]. exfalso. exact (jobs_no_tables jobs A _ _ _ J X).
Qed.
Lemma done_set_up L run_pv lc opt price wb out d : program L run_pv lc opt price wb = Ok out -> In d (r_done out) ->
  exists o, set_up L wb (fst (d_sizes d)) (snd (d_sizes d)) = Ok o /\ grid_of (lib_wind L) (d_inputs d) = Ok (o_grid o) /\ x_fuel (c_aux (d_inputs d)) = a_fuel (o_aux o).
Proof.
  intros H I. apply program_inv in H as (k & p & cs & c & s & n & R & _ & _ & _ & _ & _ & _ & _ & A & _). rewrite Forall_forall in A. destruct (A d I) as (A1 & A2 & _).
  assert (HO : exists h, hold L (d_inputs d) = Ok h).
  { unfold run_solver in A2. destruct (String.eqb c "Fixed order control"); [apply fixed_order_inv in A2 as (q & _ & _ & Q & _); exists q; exact Q|].
    destruct (String.eqb c "Model predictive control"); [|discriminate]. apply predictive_inv in A2 as (q & _ & _ & Q & _). exists q. exact Q. }
  destruct HO as (q & Q). apply hold_inv in Q as (M & _). exists (q_parts q). split; [eapply set_up_ok; eassumption|].
  destruct M as (_ & _ & _ & _ & _ & _ & _ & _ & _ & _ & _ & _ & _ & _ & M & G). split; [exact G|]. revert M. generalize (o_aux (q_parts q)). intros a M. unfold aux_of in M. cbv zeta in M. destruct (number _); cbn [bind] in M; [|discriminate].
  destruct (x_fuel (c_aux (d_inputs d))); (try (destruct (find _ _) as [[f0 [dn co]]|]; [|discriminate]; destruct (number dn); cbn [bind] in M; [|discriminate]; destruct (number co); cbn [bind] in M; [|discriminate]));
    unfold make_aux in M; cbn in M; injection M as <-; reflexivity.
Qed.
