(** C98: a filled-in workbook without a thermal store runs to completion. *)
From Coq Require Import String Ascii.
From Verif Require Import Base BaseL M_Battery M_HeatPump S_HeatPump L_HeatPump L_Renewables M_FixedOrder S_FixedOrder L_FixedOrderRun P_FixedOrder
  S_Plots M_Excel S_Excel L_Excel P_Excel M_Init S_Init L_Init P_Init P_InitReady M_Program S_Program L_Program L_ProgramRuns L_ProgramOk P_Program.
From Verif Require M_Tank M_Grid M_Renewables S_Renewables M_Mpc S_Mpc M_Sweep P_Sweep M_Kpi S_Kpi L_KpiSums L_KpiCost P_Kpi M_Plots P_Plots.
Local Open Scope nat_scope.
Local Open Scope string_scope.
Local Open Scope list_scope.

Theorem C98_completes_without_store : forall L run_pv lc opt price wb,
  filled_in L wb -> runnable wb -> ordered wb -> swept wb -> without_store wb -> answers L run_pv ->
  exists out, program L run_pv lc opt price wb = Ok out.
Proof.
  intros L run_pv lc opt price wb F RU O SW (Z1 & Z2) AN. apply program_ok; try assumption.
  intros h t cs p E D C I. assert (T : t = 0%Z).
  { pose proof (counts_one _ _ _ _ _ _ E Z1) as E0. pose proof (counts_one _ _ _ _ _ _ D Z2) as D0. unfold M_Sweep.combos in C. destruct (M_Sweep.hp_sizes p) as [hs|]; cbn [bind] in C; [|discriminate].
    unfold M_Sweep.ts_sizes in C. rewrite E0, D0 in C. cbn [bind Z.eqb] in C. apply Ok_inj in C. subst cs. apply in_flat_map in I as (h' & _ & I). cbn in I. destruct I as [I|[]]. congruence. }
  subst t. intros q year x above below s n SU Y FY OA OB HX S N S0 N0 SN HR HD.
  pose proof F as (P & B & _). destruct (C85_tank _ _ _ _ _ P B SU) as (TC & _). destruct (C85_backup _ _ _ _ _ P B SU) as (_ & BE & _ & BF).
  destruct O as (_ & _ & _ & O5 & O6). destruct RU as (_ & _ & _ & _ & _ & RA).
  apply C16_run_succeeds; [|exact FY|exact S0|exact SN]. unfold plant_total, plant_of. cbn [p_tank p_aux p_order_above p_order_below].
  split; [apply no_tank_total; rewrite TC; reflexivity|]. split; [apply RA, BE|]. split; [|split; [apply O5, OA|apply O6, OB]].
  intro NE. destruct (BF NE) as (r & d & c & _ & _ & _ & _ & Ed & _ & Ec). rewrite Ed, Ec. split; discriminate.
Qed.
Print Assumptions C98_completes_without_store.
(** The same under predictive control, if the optimiser answers. *)
Theorem C98_predictive_completes_without_store : forall L run_pv lc opt price wb,
  filled_in L wb -> runnable wb -> predicted wb -> swept wb -> without_store wb -> answers L run_pv -> (forall X, S_Mpc.answers_from_initial X opt) ->
  exists out, program L run_pv lc opt price wb = Ok out.
Proof. intros L run_pv lc opt price wb F RU PR SW WS AN AO. apply predictive_ok; assumption. Qed.
Print Assumptions C98_predictive_completes_without_store.

(** ** The tables *)
(** A known kind of incentive, its period known *)
Definition incentive_known (r : M_Kpi.rhi) : Prop :=
  (M_Kpi.rhi_type r = "Domestic" \/ M_Kpi.rhi_type r = "Non-domestic") /\ (M_Kpi.rhi_tariff r = "Fixed" \/ M_Kpi.rhi_tariff r = "Tiered").
Lemma row_ok price K h t : S_Kpi.complete_run K -> incentive_known (M_Kpi.k_rhi K) -> In (M_Grid.g_tariff (M_Kpi.k_grid K)) M_Kpi.plain_tariffs ->
  M_Kpi.k_name K = M_Sweep.folder_name (h, t) -> (0 <= h)%Z -> (0 <= t)%Z ->
  exists vs, mapM (fun p => v <- snd p ;; Ok (fst p, v)) (M_Kpi.indicators price K) = Ok vs.
Proof.
  intros HK (I1 & I2) HT HN H0 T0. destruct (P_Sweep.C34_sizes_read_back h t H0 T0) as (_ & S1 & S2). rewrite <- HN in S1, S2.
  assert (W : forall f, M_Kpi.windy_sum K f = Ok 0%Q).
  { intro f. unfold M_Kpi.windy_sum. cbv zeta. replace (existsb _ M_Kpi.plain_tariffs) with true; [reflexivity|]. symmetry. apply existsb_exists. eexists. split; [exact HT|]. apply String.eqb_refl. }
  assert (R : exists R, M_Kpi.RHI_income K = Ok R).
  { unfold M_Kpi.RHI_income, M_Kpi.sum_hp_output, M_Kpi.sum_hp_usage. rewrite !(L_KpiSums.sum_of_ok K HK), S1. cbn [bind]. unfold M_Kpi.rhi_year, M_Kpi.rhi_years. cbv zeta.
    destruct I2 as [E2|E2]; rewrite E2; destruct I1 as [E1|E1]; rewrite E1; cbn; try (destruct (qle _ _); cbn); eexists; reflexivity. }
  destruct R as [R ER].
  assert (C : exists c, M_Kpi.capital_cost price K = Ok c) by (unfold M_Kpi.capital_cost; rewrite S1, S2; eexists; reflexivity). destruct C as [c EC].
  assert (Y : M_Kpi.year_factor K = Ok (8760 / inject_Z (M_Kpi.k_timesteps K))%Q) by (apply L_KpiCost.year_factor_ok; exact HK).
  assert (M : forall f, exists m, M_Kpi.max_of K f = Ok m).
  { intro f. unfold M_Kpi.max_of. rewrite (L_KpiSums.array_ok K HK). cbn [bind]. destruct HK as (P1 & P2). destruct (M_Kpi.k_results K); [cbn in P2; lia|]. eexists. reflexivity. }
  destruct (M (fun r => r HP_heat_total_output)) as [m1 M1]. destruct (M (fun r => r HD_heat_demand)) as [m2 M2].
  assert (Z : (M_Kpi.k_timesteps K =? 0)%Z = false) by (destruct HK; apply Z.eqb_neq; lia).
  unfold M_Kpi.indicators, M_Kpi.operating_cost, M_Kpi.RES_self_consumption, M_Kpi.total_RES_used, M_Kpi.total_RES_self_consumption, M_Kpi.grid_RES_used, M_Kpi.HP_size_ratio,
    M_Kpi.HP_utilisation, M_Kpi.cost_of_heat, M_Kpi.levelised_cost_of_heat, M_Kpi.levelised_cost_of_energy, M_Kpi.cost_elec, M_Kpi.lifetime_cost, M_Kpi.calc_scop, M_Kpi.demand_met_RES,
    M_Kpi.HP_met_RES, M_Kpi.heat_met_RES, M_Kpi.days_storage_content, M_Kpi.total_RES_used, M_Kpi.total_RES_self_consumption, M_Kpi.grid_RES_used, M_Kpi.heat_from_local_RES, M_Kpi.heat_from_grid_RES, M_Kpi.HP_from_local_RES, M_Kpi.HP_from_grid_RES,
    M_Kpi.max_heat_pump_output, M_Kpi.max_heat_demand, M_Kpi.sum_hp_output, M_Kpi.sum_hp_usage, M_Kpi.sum_aux_output, M_Kpi.sum_ed_import, M_Kpi.sum_RES, M_Kpi.sum_import, M_Kpi.sum_export, M_Kpi.sum_hd, M_Kpi.sum_ed, M_Kpi.fin.
  rewrite !W, !(L_KpiSums.array_ok K HK), !(L_KpiSums.sum_of_ok K HK), M1, M2, ER, EC, Y, S2, Z. cbn [mapM bind fst snd]. eexists. reflexivity.
Qed.
(** Whoever gets results gets the three tables, if the tariff has no wind farm, the kind of incentive is known and no size is negative. *)
Definition plainly_priced (wb : workbook) : Prop := exists s, says wb "Grid" "D" 5 s /\ In s ["Flat rates"; "Variable periods"; "Time of use - WM"].
Definition no_negative_sizes (wb : workbook) : Prop :=
  (forall z, counts wb "Parametric" "E" 6 z -> (0 <= z)%Z) /\ (forall z, counts wb "Parametric" "E" 7 z -> (0 <= z)%Z).
Lemma differ_dec (f : Z * Z -> Z) cs : (exists c c', In c cs /\ In c' cs /\ f c <> f c') \/ ~ (exists c c', In c cs /\ In c' cs /\ f c <> f c').
Proof.
  destruct cs as [|x cs]; [right; intros (c & _ & [] & _)|]. destruct (forallb (fun c => Z.eqb (f c) (f x)) cs) eqn:E.
  - right. rewrite forallb_forall in E. assert (A : forall c, In c (x :: cs) -> f c = f x) by (intros c [<-|I]; [reflexivity|apply Z.eqb_eq, E, I]).
    intros (c & c' & I & I' & N). apply N. rewrite (A c I), (A c' I'). reflexivity.
  - left. assert (X : exists c, In c cs /\ f c <> f x).
    { clear - E. induction cs as [|c cs IH]; [discriminate|]. cbn in E. destruct (Z.eqb_spec (f c) (f x)) as [Q|Q]; [|exists c; split; [left; reflexivity|exact Q]].
      destruct (IH E) as (c' & I & N). exists c'. split; [right; exact I|exact N]. }
    destruct X as (c & I & N). exists c, x. split; [right; exact I|]. split; [left; reflexivity|exact N].
Qed.
Lemma two_by_two_dec cs : two_by_two cs \/ ~ two_by_two cs.
Proof. unfold two_by_two. destruct (differ_dec fst cs) as [A|A], (differ_dec snd cs) as [B|B]; tauto. Qed.
Lemma swept_steps wb p : swept wb -> counts wb "Parametric" "E" 6 (M_Sweep.hp_min p) -> counts wb "Parametric" "D" 6 (M_Sweep.hp_max p) -> counts wb "Parametric" "F" 6 (M_Sweep.hp_step p) ->
  counts wb "Parametric" "E" 7 (M_Sweep.ts_min p) -> counts wb "Parametric" "D" 7 (M_Sweep.ts_max p) -> counts wb "Parametric" "F" 7 (M_Sweep.ts_step p) ->
  (0 < M_Sweep.hp_step p \/ M_Sweep.hp_min p = M_Sweep.hp_max p)%Z /\ (0 < M_Sweep.ts_step p \/ M_Sweep.ts_min p = M_Sweep.ts_max p)%Z.
Proof.
  intros (a & b & c & d & e & f & W1 & W2 & W3 & W4 & W5 & W6 & W7 & W8) A1 A2 A3 A4 A5 A6.
  pose proof (counts_one _ _ _ _ _ _ W1 A1). pose proof (counts_one _ _ _ _ _ _ W2 A2). pose proof (counts_one _ _ _ _ _ _ W3 A3).
  pose proof (counts_one _ _ _ _ _ _ W4 A4). pose proof (counts_one _ _ _ _ _ _ W5 A5). pose proof (counts_one _ _ _ _ _ _ W6 A6). subst. split; lia.
Qed.
Theorem C98_tables : forall L run_pv lc opt price wb out r,
  plain wb -> big_enough wb -> program L run_pv lc opt price wb = Ok out -> swept wb -> no_negative_sizes wb -> plainly_priced wb -> incentive wb r -> incentive_known r ->
  exists tables surfaces, r_kpis out = M_Plots.KpiTables tables :: map M_Plots.KpiSurface surfaces /\
    (two_by_two (map d_sizes (r_done out)) -> r_end out = Ok tt /\ map M_Plots.sf_file surfaces = surface_files) /\
    (~ two_by_two (map d_sizes (r_done out)) -> surfaces = [] /\ exists e, r_end out = Err e).
Proof.
  intros L run_pv lc opt price wb out r P B H SW (Z1 & Z2) (ta & HT & IT) IR KR.
  destruct (C97_combinations L run_pv lc opt price wb out P H) as (p & A1 & A2 & A3 & A4 & A5 & A6 & C & NE). cbv zeta in A1, A2, A3, A4, A5, A6.
  destruct (swept_steps wb p SW A1 A2 A3 A4 A5 A6) as (S1 & S2).
  assert (NN : forall h t, In (h, t) (map d_sizes (r_done out)) -> (0 <= h)%Z /\ (0 <= t)%Z).
  { intros h t I. destruct (P_Sweep.C33_sweep_exact p S1 S2) as (cs & C' & _ & M). rewrite C in C'. apply Ok_inj in C'. rewrite <- C' in M. apply M in I. specialize (Z1 _ A1). specialize (Z2 _ A4).
    destruct I as ([(_ & ->)|(N1 & k1 & K1 & -> & _)] & [(_ & ->)|(N2 & k2 & K2 & -> & _)]); split; nia. }
  assert (T : exists t, M_Kpi.KPIs_to_csv price (load L (r_done out)) p = Ok t).
  { unfold M_Kpi.KPIs_to_csv. rewrite C. cbn [bind].
    destruct (mapM_total (M_Kpi.table_row price (load L (r_done out))) (map d_sizes (r_done out))) as [rows ER]; [|rewrite ER; eexists; reflexivity].
    intros [h t] I. destruct (NN h t I) as (H0 & T0). apply in_map_iff in I as (d0 & E0 & I0). unfold M_Kpi.table_row, load.
    set (f := fun d1 : done => if list_eq_dec Ascii.ascii_dec (M_Sweep.folder_name (d_sizes d1)) (M_Sweep.folder_name (h, t)) then true else false).
    destruct (find f (rev (r_done out))) as [d|] eqn:F; [|exfalso; pose proof (find_none _ _ F d0 ltac:(apply in_rev; rewrite rev_involutive; exact I0)) as X; unfold f in X; rewrite E0 in X; destruct (list_eq_dec _ _ _); [discriminate|contradiction]].
    apply find_some in F as (I & Fd). apply in_rev in I. unfold f in Fd. destruct (list_eq_dec _ _ _) as [EN|]; [|discriminate]. clear f Fd.
    destruct (done_set_up L run_pv lc opt price wb out d H I) as (o & SU & G & FU).
    assert (HR : exists s n, counts wb "Controller" "G" 5 s /\ counts wb "Controller" "G" 6 n /\ (1 <= n)%Z /\ Z.of_nat (length (d_records d)) = n).
    { apply program_inv in H as HH. destruct HH as (k & p' & cs & c & s & n & R & _ & _ & _ & N & _ & _ & _ & A & _). destruct (C81_controller wb k P R) as (K1 & _). rewrite K1 in N. apply name_says in N.
      rewrite Forall_forall in A. destruct (A d I) as (_ & A' & _). unfold run_solver in A'. destruct (String.eqb_spec c "Fixed order control") as [->|_].
      - destruct (C95_hours_needed L run_pv lc opt price wb out d) as (_ & s' & n' & X1 & X2 & _ & X3 & _ & X4); [unfold ran; tauto|]. exists s', n'. tauto.
      - destruct (String.eqb_spec c "Model predictive control") as [->|_]; [|discriminate]. destruct (C95_predictive_hours_needed L run_pv lc opt price wb out d) as (_ & s' & n' & X1 & X2 & _ & X3 & _ & X4); [unfold ran; tauto|].
        exists s', n'. split; [exact X1|]. split; [exact X2|]. split; [lia|exact X4]. }
    destruct HR as (s & n & HS & HN & N1 & LN).
    apply program_inv in H as HH. destruct HH as (k & p' & cs & c & s' & n' & R & _ & _ & _ & _ & _ & _ & _ & A & _). rewrite Forall_forall in A. destruct (A d I) as (A' & _).
    pose proof (combination_rhi _ _ _ _ A') as AR. apply combination_parts in A' as ((AC & _) & _). destruct (C81_controller wb k P R) as (_ & Q1 & Q2 & _).
    unfold calcs. cbv zeta. rewrite AC, Q1, Q2, (counts_is _ _ _ _ _ HN), (counts_is _ _ _ _ _ HS), G, AR. cbn [bind]. rewrite (proj2 (rhi_cells wb k r P B R) IR). cbn [bind].
    match goal with |- context [M_Kpi.indicators price ?K] => destruct (row_ok price K h t) as [vs EV] end; try assumption; [split; cbn; [lia|exact LN]| |rewrite EV; eexists; reflexivity].
    cbn. destruct (C85_tariff _ _ _ _ _ P B SU) as (G1 & _). destruct HT as (t1 & X1 & ->), G1 as (t2 & X2 & ->). rewrite X1 in X2. injection X2 as <-. exact IT. }
  destruct T as [t ET]. apply program_inv in H as HH. destruct HH as (k & p' & cs & c & s & n & R & SP & C' & _ & _ & _ & _ & D & _ & EK).
  assert (p' = p).
  { destruct (C81_sweep wb k P R) as (B1 & B2 & B3 & B4 & B5 & B6). unfold sweep_of in SP. rewrite B1, B2, B3, B4, B5, B6 in SP.
    rewrite (counts_is _ _ _ _ _ A1), (counts_is _ _ _ _ _ A2), (counts_is _ _ _ _ _ A3), (counts_is _ _ _ _ _ A4), (counts_is _ _ _ _ _ A5), (counts_is _ _ _ _ _ A6) in SP. cbn [bind] in SP. injection SP as <-. destruct p. reflexivity. }
  subst p'. exists t. destruct (two_by_two_dec (map d_sizes (r_done out))) as [TB|TB].
  - destruct (P_Plots.C93_complete _ _ _ _ _ C ET TB) as (ss & E & F). rewrite EK in E. injection E as E1 E2. exists ss. split; [exact E1|]. split; [intros _; split; assumption|contradiction].
  - pose proof (P_Plots.C93_one_size_stops _ _ _ _ _ S1 S2 C ET TB) as E. rewrite EK in E. injection E as E1 E2. exists []. split; [exact E1|]. split; [contradiction|]. intros _. split; [reflexivity|eexists; exact E2].
Qed.
Print Assumptions C98_tables.
