(** C128: what a higher coefficient of performance in the workbook does to the published tables. *)
From Coq Require Import String Ascii.
From Verif Require Import Base BaseL M_Battery S_Battery M_HeatPump M_Tools S_HeatPump M_FixedOrder S_FixedOrder S_Easier P_Easier L_Tank
  M_Excel S_Excel L_Excel P_Excel M_Init S_Init L_Init P_Init P_InitReady M_Program S_Program L_Program L_ProgramRuns L_ProgramOk P_Program P_ProgramOk P_ProgramCases S_Sensible L_Sensible P_Sensible
  M_Kpi S_Kpi L_Kpi L_KpiSums L_KpiCost S_Ranking S_Books P_Books S_Rows P_Rows L_FixedOrderRun S_Less L_Less P_Less S_Efficient L_Efficient.
From Verif Require M_Sweep.
Local Open Scope nat_scope.
Local Open Scope string_scope.
Local Open Scope list_scope.

(** Two completed runs under fixed order control, of workbooks of which the second has a higher coefficient of performance; a combination of the same sizes and without a heat store in both, as it is loaded for the tables *)
Definition efficient_in_tables L run_pv lc opt price (wb wb' : workbook) (d d' : done) (K K' : run) : Prop :=
  higher_cop wb wb' /\ d_sizes d = d_sizes d' /\ snd (d_sizes d) = 0%Z /\ sensible L lc wb (d_sizes d) /\ sensible L lc wb' (d_sizes d) /\ simple_battery_cells wb /\ no_leak_cell wb /\ flat_prices wb /\
  calcs L d = Ok K /\ calcs L d' = Ok K' /\ exists out out', ran L run_pv lc opt price wb "Fixed order control" out d /\ ran L run_pv lc opt price wb' "Fixed order control" out' d'.

(** ** C128.  The full statement: entering a higher coefficient of performance and running the program again gives tables with no more electricity bought, no less sold and no higher cost.  It holds without a heat
    store, for a battery that does not lose charge, in orders in which the battery serves the demand before it is filled from the grid and drives the heat pump only after the grid, at a flat rate; the operating cost
    for an electric back-up.  C117 refutes it for other orders, for a battery that loses charge and with a heat store. *)
Theorem C128_purchases_partial : forall L run_pv lc opt price wb wb' d d' K K' h, efficient_in_tables L run_pv lc opt price wb wb' d d' K K' ->
  In h ["sum_import"; "sum_ed_import"] -> exists x x', entry price K h = Ok (Fin x) /\ entry price K' h = Ok (Fin x') /\ (x' <= x)%Q.
Proof.
  intros L run_pv lc opt price wb wb' d d' K K' h (LD & ES & Z & SE & SE' & SB & NL & FP & C & C' & out & out' & R & R') I.
  destruct (more_efficient _ _ _ _ _ _ _ _ _ _ _ _ _ LD R R' ES Z SE SE' SB NL FP C C') as (P & P' & year & year' & s & n & RO & RO' & F & _).
  assert (N : forall k, (forall rc rc', better P rc rc' -> rf rc' k <= rf rc k)%Q -> exists x x', fin (sum_of K (fun r => r k)) = Ok (Fin x) /\ fin (sum_of K' (fun r => r k)) = Ok (Fin x') /\ (x' <= x)%Q).
  { intros k Hk. rewrite (sum_of_ok K (run_complete _ _ _ _ _ RO)), (sum_of_ok K' (run_complete _ _ _ _ _ RO')). eexists. eexists. split; [reflexivity|]. split; [reflexivity|]. exact (sum_less P _ _ (fun r => r k) F Hk). }
  cbn in I. destruct I as [<-|[<-|[]]]; [apply (N GRID_total_import)|apply (N GRID_import_for_elec_demand)]; intros rc rc' (B & _); unfold buys_less in B; tauto.
Qed.
Print Assumptions C128_purchases_partial.
Theorem C128_sales_partial : forall L run_pv lc opt price wb wb' d d' K K', efficient_in_tables L run_pv lc opt price wb wb' d d' K K' ->
  exists x x', entry price K "sum_export" = Ok (Fin x) /\ entry price K' "sum_export" = Ok (Fin x') /\ (x <= x')%Q.
Proof.
  intros L run_pv lc opt price wb wb' d d' K K' (LD & ES & Z & SE & SE' & SB & NL & FP & C & C' & out & out' & R & R').
  destruct (more_efficient _ _ _ _ _ _ _ _ _ _ _ _ _ LD R R' ES Z SE SE' SB NL FP C C') as (P & P' & year & year' & s & n & RO & RO' & F & _).
  change (entry price K "sum_export") with (fin (sum_of K (fun r => r GRID_total_export))). change (entry price K' "sum_export") with (fin (sum_of K' (fun r => r GRID_total_export))).
  rewrite (sum_of_ok K (run_complete _ _ _ _ _ RO)), (sum_of_ok K' (run_complete _ _ _ _ _ RO')). eexists. eexists. split; [reflexivity|]. split; [reflexivity|].
  apply (sum_more P _ _ _ F). intros rc rc' (B & _). unfold buys_less in B. tauto.
Qed.
Print Assumptions C128_sales_partial.
Theorem C128_costs_partial : forall L run_pv lc opt price wb wb' d d' K K' h, efficient_in_tables L run_pv lc opt price wb wb' d d' K K' ->
  h = "cost_elec" \/ h = "opex" /\ electric_backup wb -> exists x x', entry price K h = Ok (Fin x) /\ entry price K' h = Ok (Fin x') /\ (x' <= x)%Q.
Proof.
  intros L run_pv lc opt price wb wb' d d' K K' h (LD & ES & Z & SE & SE' & SB & NL & FP & C & C' & out & out' & R & R') I.
  destruct (more_efficient _ _ _ _ _ _ _ _ _ _ _ _ _ LD R R' ES Z SE SE' SB NL FP C C') as (P & P' & year & year' & s & n & RO & RO' & F & PE & EF & EL).
  assert (Hc : (cash K <= cash K')%Q) by (apply (sum_more P _ _ _ F); intros rc rc' (_ & _ & B); destruct (B PE) as (_ & _ & X); exact X).
  assert (TH : forall a b, (a <= b -> a / 1000 <= b / 1000)%Q) by (intros a b X; unfold Qdiv; apply Qmult_le_compat_r; [exact X|discriminate]).
  destruct I as [->|(-> & EB)].
  - change (entry price K "cost_elec") with (fin (cost_elec K)). change (entry price K' "cost_elec") with (fin (cost_elec K')). unfold cost_elec.
    rewrite (sum_of_ok K (run_complete _ _ _ _ _ RO)), (sum_of_ok K' (run_complete _ _ _ _ _ RO')). eexists. eexists. split; [reflexivity|]. split; [reflexivity|].
    apply (sum_less P _ _ _ F). intros rc rc' (_ & _ & B). destruct (B PE) as (_ & _ & X). apply TH. lra.
  - change (entry price K "opex") with (fin (operating_cost K)). change (entry price K' "opex") with (fin (operating_cost K')).
    destruct (operating_cost_ok K (run_complete _ _ _ _ _ RO)) as (o & -> & Eo). destruct (operating_cost_ok K' (run_complete _ _ _ _ _ RO')) as (o' & -> & Eo'). eexists. eexists. split; [reflexivity|]. split; [reflexivity|].
    rewrite Eo, Eo', <- EF, (EL EB). cbn [fuel_eqb]. apply TH. lra.
Qed.
Print Assumptions C128_costs_partial.

(** ** Case: the sweep of C124_case, where the coefficient is 3, and the same with 4 *)
Definition efficient : workbook := fun name =>
  if String.eqb name "Heat pump" then Some (sheet_by 19 47 (at_cells [(3, 3, "ASHP"%string); (4, 3, "SIMPLE"%string); (9, 3, "PEAK PERFORMANCE"%string); (5, 13, "Domestic"%string); (6, 13, "Fixed"%string)]
    (fun r c => if Nat.eqb c 3 && Nat.eqb r 6 then P_Excel.num 0 else if Nat.eqb c 3 && Nat.eqb r 10 then P_Excel.num 4 else number_at r c)))
  else pumps name.
Lemma efficient_elsewhere N : N <> "Heat pump" -> efficient N = pumps N.
Proof. intro E. unfold efficient. apply String.eqb_neq in E. rewrite E. reflexivity. Qed.
Lemma efficient_plain : plain efficient.
Proof. intros name sh H. unfold efficient in H. destruct (String.eqb name "Heat pump"); [injection H as <-; apply sheet_by_plain|]. exact (pumps_plain name sh H). Qed.
Lemma efficient_big : big_enough efficient.
Proof.
  unfold big_enough. repeat match goal with |- _ /\ _ => split end;
    (eapply reaches_by; [reflexivity|vm_compute; reflexivity|first [apply Nat.leb_le; lia|vm_compute; reflexivity]]).
Qed.
Ltac elsewhere4 := unfold weather_filled, demand_filled, PV_filled_in, wind_filled, battery_filled, backup_filled, tank_filled, tariff_filled, readable, covers_the_year, evaluable, priced, ordered, swept, without_store,
  periods_filled, market_filled, rows_of, wordless, worded, numeric, chooses, counts, holds, says, first_complete, complete, test_result, tested_at, xl, last_row, width; cbv zeta;
  repeat match goal with |- context [efficient ?N] => rewrite (efficient_elsewhere N) by discriminate end.
Ltac carry_4 H := let K := fresh in pose proof H as K; revert K; elsewhere4; intro K; exact K.
Lemma efficient_heat_pump tr : heat_pump_filled efficient tr.
Proof.
  split; [exists ASHP; choose_it|]. split; [exists PEAK; choose_it|].
  split; [intros r I; cbn in I; repeat (destruct I as [<-|I]; [cell|]); contradiction|]. split; [|exists SIMPLE; split; [choose_it|cell]].
  intros x r I J (w & t & T & _). erewrite xl_by in T; [|reflexivity|cbn in I; repeat (destruct I as [<-|I]; [vm_compute; lia|]); contradiction|lia].
  unfold at_cells in T. destruct (find _ _) as [y|] eqn:F; [|destruct (_ && _) in T; [discriminate|]; destruct (_ && _) in T; discriminate]. apply find_some in F as [Ix F]. apply andb_prop in F as [F _]. apply Nat.eqb_eq in F.
  cbn in Ix. repeat (destruct Ix as [<-|Ix]; [cbn in F; lia|]). contradiction.
Qed.
Lemma efficient_filled : filled_in calm efficient.
Proof.
  destruct pumps_filled as (_ & _ & _ & A & B & C & D & E & F & G & H & I & J).
  unfold filled_in. split; [exact efficient_plain|]. split; [exact efficient_big|].
  split; [unfold readable, readable_fuel; repeat match goal with |- _ /\ _ => split end; (eexists; vm_compute; reflexivity)|].
  split; [carry_4 A|]. split; [carry_4 B|]. split; [carry_4 C|]. split; [exact D|]. split; [carry_4 E|]. split; [carry_4 F|]. split; [carry_4 G|]. split; [carry_4 H|]. split; [apply efficient_heat_pump|carry_4 J].
Qed.
Lemma efficient_runs opt price : exists out, program calm sun (fun _ _ _ _ _ => 3%Q) opt price efficient = Ok out.
Proof.
  destruct (batteried_runnable) as (R1 & R2 & R3 & _ & R5 & _).
  apply C98_completes_without_store; [apply efficient_filled| | | | |apply calm_answers].
  - split; [assert (K : covers_the_year pumps) by (carry_on R1); carry_4 K|]. split; [assert (K : numeric pumps "Demand input" "I" 8) by (carry_on R2); carry_4 K|].
    split; [eexists; reflexivity|]. split; [left; choose_it|]. split; [left; eexists; split; reflexivity|]. intros e E. vm_compute in E. injection E as <-. discriminate.
  - split; [exists (list_ascii_of_string "Fixed order control"); split; reflexivity|]. split; [eexists; reflexivity|]. split; [exists 100%Z, 24%Z; split; [eexists; split; reflexivity|]; split; [eexists; split; reflexivity|]; lia|].
    split; intros l E; vm_compute in E; injection E as <-; eexists; reflexivity.
  - assert (K : swept pumps) by (carry_on batteried_swept). carry_4 K.
  - assert (K : without_store pumps) by (carry_on batteried_without). carry_4 K.
Qed.
Lemma efficient_sizes opt price out : program calm sun (fun _ _ _ _ _ => 3%Q) opt price efficient = Ok out -> map d_sizes (r_done out) = [(10, 0); (20, 0); (30, 0)]%Z.
Proof.
  intro H. destruct (C97_combinations _ _ _ _ _ _ _ efficient_plain H) as (p & A1 & A2 & A3 & A4 & A5 & A6 & C & _). cbv zeta in *.
  assert (E : forall N cc r v z, xl efficient N cc r = P_Excel.num v -> counts efficient N cc r z -> z = v).
  { intros N cc r v z Ev Ez. refine (counts_one _ _ _ _ _ _ Ez _). exists (inject_Z v). split; [exact Ev|reflexivity]. }
  apply (E "Parametric" "E"%char 6%nat 10%Z _ eq_refl) in A1. apply (E "Parametric" "D"%char 6%nat 30%Z _ eq_refl) in A2. apply (E "Parametric" "F"%char 6%nat 10%Z _ eq_refl) in A3.
  apply (E "Parametric" "E"%char 7%nat 0%Z _ eq_refl) in A4. apply (E "Parametric" "D"%char 7%nat 0%Z _ eq_refl) in A5. apply (E "Parametric" "F"%char 7%nat 1%Z _ eq_refl) in A6.
  destruct p. cbn in *. subst. vm_compute in C. injection C as C. symmetry. exact C.
Qed.
Ltac carry_cells4 H := let K := fresh in pose proof H as K; revert K; unfold battery_sensible, demand_sensible, turbines_sensible, backup_sensible, orders_sensible, all_in; elsewhere4; intro K; exact K.
Lemma efficient_sensible h : (0 <= h)%Z -> sensible calm (fun _ _ _ _ _ => 3%Q) efficient (h, 0%Z).
Proof.
  intro H0. destruct (pumps_sensible h H0) as (A & B & C & D & E & _ & G & _ & _).
  unfold sensible. split; [exact A|]. split; [carry_cells4 B|]. split; [carry_cells4 C|]. split; [carry_cells4 D|]. split; [carry_cells4 E|]. split; [|split; [carry_cells4 G|split; [exact H0|left; reflexivity]]].
  split; [intros r x <- X; vm_compute in X; injection X as <-; discriminate|]. split; [intros r x <- X; vm_compute in X; injection X as <-; discriminate|].
  left. split; [choose_it|]. intros r x <- X. vm_compute in X. injection X as <-. reflexivity.
Qed.
Lemma efficient_cop : higher_cop pumps efficient.
Proof.
  split; [intros M E; symmetry; exact (efficient_elsewhere M E)|]. split; [choose_it|]. split; [choose_it|]. split; [reflexivity|]. split; [reflexivity|].
  intros c c' X X'. vm_compute in X, X'. injection X as <-. injection X' as <-. discriminate.
Qed.
Example C128_case : forall opt price, exists d d' K K', efficient_in_tables calm sun (fun _ _ _ _ _ => 3%Q) opt price pumps efficient d d' K K' /\ d_sizes d = (20, 0)%Z /\ electric_backup pumps.
Proof.
  intros opt price. destruct (pumps_runs opt price) as (out & H). destruct (efficient_runs opt price) as (out' & H').
  destruct (has_size (r_done out) (20, 0)%Z) as (d & I & Ed); [rewrite (pumps_sizes _ _ _ H); right; left; reflexivity|]. destruct (has_size (r_done out') (20, 0)%Z) as (d' & I' & Ed'); [rewrite (efficient_sizes _ _ _ H'); right; left; reflexivity|].
  assert (R : ran calm sun (fun _ _ _ _ _ => 3%Q) opt price pumps "Fixed order control" out d) by (split; [exact pumps_plain|split; [exact pumps_big|split; [exists (list_ascii_of_string "Fixed order control"); split; reflexivity|split; assumption]]]).
  assert (R' : ran calm sun (fun _ _ _ _ _ => 3%Q) opt price efficient "Fixed order control" out' d') by (split; [exact efficient_plain|split; [exact efficient_big|split; [exists (list_ascii_of_string "Fixed order control"); split; reflexivity|split; assumption]]]).
  set (r := {| M_Kpi.rhi_type := "Domestic"; M_Kpi.rhi_tariff := "Fixed"; M_Kpi.rhi_fixed := 713; M_Kpi.rhi_tier_1 := 813; M_Kpi.rhi_tier_2 := 913 |}%Q).
  assert (IN : incentive pumps r) by (unfold incentive, r; cbv zeta; cbn [M_Kpi.rhi_type M_Kpi.rhi_tariff M_Kpi.rhi_fixed M_Kpi.rhi_tier_1 M_Kpi.rhi_tier_2]; split; [eexists; split; reflexivity|]; split; [eexists; split; reflexivity|]; repeat match goal with |- _ /\ _ => split end; reflexivity).
  assert (IN' : incentive efficient r) by (unfold incentive, r; cbv zeta; cbn [M_Kpi.rhi_type M_Kpi.rhi_tariff M_Kpi.rhi_fixed M_Kpi.rhi_tier_1 M_Kpi.rhi_tier_2]; split; [eexists; split; reflexivity|]; split; [eexists; split; reflexivity|]; repeat match goal with |- _ /\ _ => split end; reflexivity).
  destruct (calcs_ok _ _ _ _ _ _ _ _ _ R IN) as (K & EK). destruct (calcs_ok _ _ _ _ _ _ _ _ _ R' IN') as (K' & EK'). exists d, d', K, K'. split; [|split; [exact Ed|exact pumps_electric]].
  unfold efficient_in_tables. split; [exact efficient_cop|]. split; [congruence|]. split; [rewrite Ed; reflexivity|]. split; [rewrite Ed; apply pumps_sensible; lia|]. split; [rewrite Ed; apply efficient_sensible; lia|].
  split; [|split; [|split; [|split; [exact EK|split; [exact EK'|exists out, out'; split; assumption]]]]].
  - split; intros l ps E M; vm_compute in E; injection E as <-; vm_compute in M; injection M as <-; (split; [intros l1 l2 X; refine (proj1 (nab_spec _ _ _ false _ l1 l2 X)); reflexivity|]);
      intros l1 l2 X; exfalso; (assert (Y : In ES_to_HP_to_demand (l1 ++ ES_to_HP_to_demand :: l2)) by (apply in_or_app; right; left; reflexivity)); rewrite <- X in Y; cbn in Y; repeat (destruct Y as [Y|Y]; [discriminate Y|]); contradiction.
  - intros r0 x X. assert (Z : all_in pumps "Electrical storage" "I" any_row (fun x => x == 0)%Q); [|exact (Z r0 x Logic.I X)]. apply (by_cells _ _ 9 5 (battery_at 0)); [reflexivity|vm_compute; lia|].
    intros r1 y _ _ E. unfold battery_at in E. destruct (Nat.eqb (r1 - 2) 4); [|discriminate]. cbn in E. injection E as <-. reflexivity.
  - split; [eexists; split; reflexivity|]. split; intros r0 x <- X; vm_compute in X; injection X as <-; discriminate.
Qed.
