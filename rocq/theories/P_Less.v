(** C126: what less demand in the workbook does to the published tables. *)
From Coq Require Import String Ascii.
From Verif Require Import Base BaseL M_Battery S_Battery M_HeatPump M_Tools S_HeatPump M_FixedOrder S_FixedOrder S_Easier P_Easier L_Tank
  M_Excel S_Excel L_Excel P_Excel M_Init S_Init L_Init P_Init P_InitReady M_Program S_Program L_Program L_ProgramRuns L_ProgramOk P_Program P_ProgramOk P_ProgramCases S_Sensible L_Sensible P_Sensible
  M_Kpi S_Kpi L_Kpi L_KpiSums L_KpiCost S_Ranking S_Books P_Books S_Rows P_Rows L_FixedOrderRun S_Less L_Less.
From Verif Require M_Sweep.
Local Open Scope nat_scope.
Local Open Scope string_scope.
Local Open Scope list_scope.

(** Two completed runs under fixed order control, of workbooks of which the second has less demand; a combination of the same sizes and without a heat store in both, as it is loaded for the tables *)
Definition less_in_tables L run_pv lc opt price (wb wb' : workbook) (d d' : done) (K K' : run) : Prop :=
  less_demand wb wb' /\ d_sizes d = d_sizes d' /\ snd (d_sizes d) = 0%Z /\ sensible L lc wb (d_sizes d) /\ sensible L lc wb' (d_sizes d) /\ simple_battery_cells wb /\ no_leak_cell wb /\ flat_prices wb /\
  calcs L d = Ok K /\ calcs L d' = Ok K' /\ exists out out', ran L run_pv lc opt price wb "Fixed order control" out d /\ ran L run_pv lc opt price wb' "Fixed order control" out' d'.
Lemma sum_less P l l' f : Forall2 (better P) l l' -> (forall rc rc', better P rc rc' -> f (rf rc') <= f (rf rc))%Q -> (total f l' <= total f l)%Q.
Proof. intros F Hf. induction F as [|rc rc' l l' E F IH]; [apply Qle_refl|]. rewrite !total_cons. pose proof (Hf _ _ E). lra. Qed.
Lemma sum_more P l l' f : Forall2 (better P) l l' -> (forall rc rc', better P rc rc' -> f (rf rc) <= f (rf rc'))%Q -> (total f l <= total f l')%Q.
Proof. intros F Hf. induction F as [|rc rc' l l' E F IH]; [apply Qle_refl|]. rewrite !total_cons. pose proof (Hf _ _ E). lra. Qed.

(** ** C126.  The full statement: lowering the demand for heat or electricity in any hours of the workbook and running the program again gives tables with no more electricity bought, no less sold and no higher
    operating cost.  It holds without a heat store, for a battery that does not lose charge, in orders in which the battery serves the demand before it is filled from the grid and drives the heat pump only after
    the grid; the operating cost for an electric back-up and a flat rate.  C108 refutes it for other
    orders, for a battery that loses charge and, for the fuel of the back-up, with a minimum output; a heat store is not covered. *)
Theorem C126_purchases_partial : forall L run_pv lc opt price wb wb' d d' K K' h, less_in_tables L run_pv lc opt price wb wb' d d' K K' ->
  In h ["sum_import"; "sum_ed_import"] -> exists x x', entry price K h = Ok (Fin x) /\ entry price K' h = Ok (Fin x') /\ (x' <= x)%Q.
Proof.
  intros L run_pv lc opt price wb wb' d d' K K' h (LD & ES & Z & SE & SE' & SB & NL & FP & C & C' & out & out' & R & R') I.
  destruct (less _ _ _ _ _ _ _ _ _ _ _ _ _ LD R R' ES Z SE SE' SB NL FP C C') as (P & P' & year & year' & s & n & RO & RO' & F & _).
  assert (N : forall k, (forall rc rc', better P rc rc' -> rf rc' k <= rf rc k)%Q -> exists x x', fin (sum_of K (fun r => r k)) = Ok (Fin x) /\ fin (sum_of K' (fun r => r k)) = Ok (Fin x') /\ (x' <= x)%Q).
  { intros k Hk. rewrite (sum_of_ok K (run_complete _ _ _ _ _ RO)), (sum_of_ok K' (run_complete _ _ _ _ _ RO')). eexists. eexists. split; [reflexivity|]. split; [reflexivity|]. exact (sum_less P _ _ (fun r => r k) F Hk). }
  cbn in I. destruct I as [<-|[<-|[]]]; [apply (N GRID_total_import)|apply (N GRID_import_for_elec_demand)]; intros rc rc' (B & _); unfold buys_less in B; tauto.
Qed.
Print Assumptions C126_purchases_partial.
Theorem C126_sales_partial : forall L run_pv lc opt price wb wb' d d' K K', less_in_tables L run_pv lc opt price wb wb' d d' K K' ->
  exists x x', entry price K "sum_export" = Ok (Fin x) /\ entry price K' "sum_export" = Ok (Fin x') /\ (x <= x')%Q.
Proof.
  intros L run_pv lc opt price wb wb' d d' K K' (LD & ES & Z & SE & SE' & SB & NL & FP & C & C' & out & out' & R & R').
  destruct (less _ _ _ _ _ _ _ _ _ _ _ _ _ LD R R' ES Z SE SE' SB NL FP C C') as (P & P' & year & year' & s & n & RO & RO' & F & _).
  change (entry price K "sum_export") with (fin (sum_of K (fun r => r GRID_total_export))). change (entry price K' "sum_export") with (fin (sum_of K' (fun r => r GRID_total_export))).
  rewrite (sum_of_ok K (run_complete _ _ _ _ _ RO)), (sum_of_ok K' (run_complete _ _ _ _ _ RO')). eexists. eexists. split; [reflexivity|]. split; [reflexivity|].
  apply (sum_more P _ _ _ F). intros rc rc' (B & _). unfold buys_less in B. tauto.
Qed.
Print Assumptions C126_sales_partial.
Theorem C126_costs_partial : forall L run_pv lc opt price wb wb' d d' K K' h, less_in_tables L run_pv lc opt price wb wb' d d' K K' ->
  h = "cost_elec" \/ h = "opex" /\ electric_backup wb -> exists x x', entry price K h = Ok (Fin x) /\ entry price K' h = Ok (Fin x') /\ (x' <= x)%Q.
Proof.
  intros L run_pv lc opt price wb wb' d d' K K' h (LD & ES & Z & SE & SE' & SB & NL & FP & C & C' & out & out' & R & R') I.
  destruct (less _ _ _ _ _ _ _ _ _ _ _ _ _ LD R R' ES Z SE SE' SB NL FP C C') as (P & P' & year & year' & s & n & RO & RO' & F & PE & EF & EL).
  assert (Hc : (cash K <= cash K')%Q) by (apply (sum_more P _ _ _ F); intros rc rc' (_ & _ & B); destruct (B PE) as (_ & _ & X); exact X).
  assert (TH : forall a b, (a <= b -> a / 1000 <= b / 1000)%Q) by (intros a b X; unfold Qdiv; apply Qmult_le_compat_r; [exact X|discriminate]).
  destruct I as [->|(-> & EB)].
  - change (entry price K "cost_elec") with (fin (cost_elec K)). change (entry price K' "cost_elec") with (fin (cost_elec K')). unfold cost_elec.
    rewrite (sum_of_ok K (run_complete _ _ _ _ _ RO)), (sum_of_ok K' (run_complete _ _ _ _ _ RO')). eexists. eexists. split; [reflexivity|]. split; [reflexivity|].
    apply (sum_less P _ _ _ F). intros rc rc' (_ & _ & B). destruct (B PE) as (_ & _ & X). apply TH. lra.
  - change (entry price K "opex") with (fin (operating_cost K)). change (entry price K' "opex") with (fin (operating_cost K')).
    destruct (operating_cost_ok K (run_complete _ _ _ _ _ RO)) as (o & -> & Eo). destruct (operating_cost_ok K' (run_complete _ _ _ _ _ RO')) as (o' & -> & Eo'). eexists. eexists. split; [reflexivity|]. split; [reflexivity|].
    rewrite Eo, Eo', <- EF, (EL EB). cbn [fuel_eqb]. apply TH. lra.
Qed.
Print Assumptions C126_costs_partial.

(** ** Case: the sweep of C124_case, and the same with 1 kWh of heat and of electricity in every hour *)
Definition frugal : workbook := fun name =>
  if String.eqb name "Demand input" then Some (sheet_by 9 (Z.to_nat 8764) (fun r c => if Nat.eqb c 3 || Nat.eqb c 4 then P_Excel.num 1 else number_at r c)) else pumps name.
Lemma frugal_elsewhere N : N <> "Demand input" -> frugal N = pumps N.
Proof. intro E. unfold frugal. apply String.eqb_neq in E. rewrite E. reflexivity. Qed.
Lemma pumps_demand : pumps "Demand input" = Some (sheet_by 9 (Z.to_nat 8764) number_at).
Proof. reflexivity. Qed.
Lemma frugal_demand : frugal "Demand input" = Some (sheet_by 9 (Z.to_nat 8764) (fun r c => if Nat.eqb c 3 || Nat.eqb c 4 then P_Excel.num 1 else number_at r c)).
Proof. reflexivity. Qed.
Lemma frugal_plain : plain frugal.
Proof. intros name sh H. unfold frugal in H. destruct (String.eqb name "Demand input"); [injection H as <-; apply sheet_by_plain|]. exact (pumps_plain name sh H). Qed.
Lemma frugal_big : big_enough frugal.
Proof.
  unfold big_enough. repeat match goal with |- _ /\ _ => split end;
    (eapply reaches_by; [reflexivity|vm_compute; reflexivity|first [apply Nat.leb_le; lia|vm_compute; reflexivity]]).
Qed.
Ltac elsewhere2 := unfold weather_filled, demand_filled, PV_filled_in, wind_filled, battery_filled, backup_filled, tank_filled, heat_pump_filled, tariff_filled, readable, evaluable, priced, ordered, swept, without_store,
  periods_filled, market_filled, rows_of, wordless, worded, numeric, chooses, counts, holds, says, first_complete, complete, test_result, tested_at, xl, last_row, width; cbv zeta;
  repeat match goal with |- context [frugal ?N] => rewrite (frugal_elsewhere N) by discriminate end.
Ltac carry_2 H := let K := fresh in pose proof H as K; revert K; elsewhere2; intro K; exact K.
Lemma frugal_numeric c r : letter c < 9 -> 2 <= r <= Z.to_nat 8764 + 1 -> numeric frugal "Demand input" c r.
Proof. intros Hc Hr. unfold numeric, holds. rewrite (xl_by _ _ _ _ _ _ _ frugal_demand Hc Hr). destruct (_ || _); eexists; reflexivity. Qed.
Lemma frugal_filled : filled_in calm frugal.
Proof.
  destruct pumps_filled as (_ & _ & _ & A & _ & C & D & E & F & G & H & I & J).
  unfold filled_in. split; [exact frugal_plain|]. split; [exact frugal_big|].
  split; [unfold readable, readable_fuel; repeat match goal with |- _ /\ _ => split end; (eexists; vm_compute; reflexivity)|].
  split; [carry_2 A|]. split; [|split; [carry_2 C|split; [exact D|split; [carry_2 E|split; [carry_2 F|split; [carry_2 G|split; [carry_2 H|split; [carry_2 I|carry_2 J]]]]]]]].
  unfold demand_filled. cbv zeta. rewrite (last_by _ _ _ _ _ frugal_demand). split; [lia|]. split; [intros r X; unfold rows_of in X; rewrite (last_by _ _ _ _ _ frugal_demand) in X|]; (apply frugal_numeric; [vm_compute; lia|lia]).
Qed.
Lemma frugal_runs opt price : exists out, program calm sun (fun _ _ _ _ _ => 3%Q) opt price frugal = Ok out.
Proof.
  destruct (batteried_runnable) as (_ & _ & R3 & _ & R5 & _).
  apply C98_completes_without_store; [apply frugal_filled| | | | |apply calm_answers].
  - split; [|split; [apply frugal_numeric; [vm_compute; lia|lia]|split; [eexists; reflexivity|split; [left; choose_it|split; [left; eexists; split; reflexivity|intros e E; vm_compute in E; injection E as <-; discriminate]]]]].
    unfold covers_the_year. cbv zeta. rewrite (last_by _ _ _ _ _ frugal_demand). split; [lia|]. intros r H. unfold rows_of in H. rewrite (last_by _ _ _ _ _ frugal_demand) in H. repeat match goal with |- _ /\ _ => split end; (apply frugal_numeric; [vm_compute; lia|lia]).
  - split; [exists (list_ascii_of_string "Fixed order control"); split; reflexivity|]. split; [eexists; reflexivity|]. split; [exists 100%Z, 24%Z; split; [eexists; split; reflexivity|]; split; [eexists; split; reflexivity|]; lia|].
    split; intros l E; vm_compute in E; injection E as <-; eexists; reflexivity.
  - assert (K : swept pumps) by (carry_on batteried_swept). carry_2 K.
  - assert (K : without_store pumps) by (carry_on batteried_without). carry_2 K.
Qed.
Lemma frugal_sizes opt price out : program calm sun (fun _ _ _ _ _ => 3%Q) opt price frugal = Ok out -> map d_sizes (r_done out) = [(10, 0); (20, 0); (30, 0)]%Z.
Proof.
  intro H. destruct (C97_combinations _ _ _ _ _ _ _ frugal_plain H) as (p & A1 & A2 & A3 & A4 & A5 & A6 & C & _). cbv zeta in *.
  assert (E : forall N cc r v z, xl frugal N cc r = P_Excel.num v -> counts frugal N cc r z -> z = v).
  { intros N cc r v z Ev Ez. refine (counts_one _ _ _ _ _ _ Ez _). exists (inject_Z v). split; [exact Ev|reflexivity]. }
  apply (E "Parametric" "E"%char 6%nat 10%Z _ eq_refl) in A1. apply (E "Parametric" "D"%char 6%nat 30%Z _ eq_refl) in A2. apply (E "Parametric" "F"%char 6%nat 10%Z _ eq_refl) in A3.
  apply (E "Parametric" "E"%char 7%nat 0%Z _ eq_refl) in A4. apply (E "Parametric" "D"%char 7%nat 0%Z _ eq_refl) in A5. apply (E "Parametric" "F"%char 7%nat 1%Z _ eq_refl) in A6.
  destruct p. cbn in *. subst. vm_compute in C. injection C as C. symmetry. exact C.
Qed.
Ltac carry_cells2 H := let K := fresh in pose proof H as K; revert K; unfold battery_sensible, turbines_sensible, backup_sensible, heat_pump_sensible, orders_sensible, all_in; elsewhere2; intro K; exact K.
Lemma frugal_sensible h : (0 <= h)%Z -> sensible calm (fun _ _ _ _ _ => 3%Q) frugal (h, 0%Z).
Proof.
  intro H0. destruct (pumps_sensible h H0) as (A & B & _ & D & _ & _ & G & _ & _).
  unfold sensible. split; [exact A|]. split; [carry_cells2 B|]. split; [|split; [carry_cells2 D|split; [|split; [|split; [carry_cells2 G|split; [exact H0|left; reflexivity]]]]]].
  - split; [intros r x <- X; vm_compute in X; injection X as <-; reflexivity|]. intros r I. cbn in I. split; intros r' x <- X; repeat (destruct I as [<-|I]; [vm_compute in X; injection X as <-; discriminate|]); contradiction.
  - split; (eapply by_cells; [exact frugal_demand|vm_compute; lia|]; intros r x _ _ E; cbn [letter] in E; vm_compute in E; injection E as <-; discriminate).
  - split; [intros r x <- X; vm_compute in X; injection X as <-; discriminate|]. split; [intros r x <- X; vm_compute in X; injection X as <-; discriminate|].
    left. split; [choose_it|]. intros r x <- X. vm_compute in X. injection X as <-. reflexivity.
Qed.
Lemma frugal_less : less_demand pumps frugal.
Proof.
  split; [intros M E; symmetry; exact (frugal_elsewhere M E)|].
  assert (N : forall f c r, letter c < 9 -> nth (letter c) (nth (r - 2) (s_cells (sheet_by 9 (Z.to_nat 8764) f)) []) None = if Nat.ltb (r - 2) (Z.to_nat 8764) then f (r - 2) (letter c) else None).
  { intros f c r Hc. unfold sheet_by. cbn [s_cells]. destruct (Nat.ltb_spec (r - 2) (Z.to_nat 8764)) as [K|K].
    - rewrite (nth_indep _ [] (map (f 0) (seq 0 9))) by (rewrite map_length, seq_length; exact K). rewrite (map_nth (fun r => map (f r) (seq 0 9))), seq_nth by exact K. cbn [Nat.add].
      rewrite (nth_indep _ None (f (r - 2) 0)) by (rewrite map_length, seq_length; exact Hc). rewrite (map_nth (f (r - 2))), seq_nth by exact Hc. reflexivity.
    - rewrite (nth_overflow (map (fun r => map (f r) (seq 0 9)) (seq 0 (Z.to_nat 8764)))) by (rewrite map_length, seq_length; exact K). destruct (letter c); reflexivity. }
  split.
  - intros c r I. unfold xl. rewrite pumps_demand, frugal_demand. cbn in I. repeat (destruct I as [<-|I]; [rewrite !N by (vm_compute; lia); reflexivity|]). contradiction.
  - intros c r x x' I X X'. unfold holds, xl in X, X'. rewrite pumps_demand in X. rewrite frugal_demand in X'.
    assert (Lc : letter c < 9) by (cbn in I; destruct I as [<-|[<-|[]]]; vm_compute; lia). rewrite N in X, X' by exact Lc. destruct (Nat.ltb _ _); [|discriminate X].
    assert (Y : (Nat.eqb (letter c) 3 || Nat.eqb (letter c) 4)%bool = true) by (cbn in I; destruct I as [<-|[<-|[]]]; reflexivity). rewrite Y in X'. clear - X X'.
    unfold number_at, P_Excel.num in X, X'. assert (E : x = inject_Z (100 * Z.of_nat (r - 2 + 2) + Z.of_nat (letter c))) by congruence. assert (E' : x' = inject_Z 1) by congruence. rewrite E, E', <- Zle_Qle. lia.
Qed.
Example C126_case : forall opt price, exists d d' K K', less_in_tables calm sun (fun _ _ _ _ _ => 3%Q) opt price pumps frugal d d' K K' /\ d_sizes d = (20, 0)%Z /\ electric_backup pumps.
Proof.
  intros opt price. destruct (pumps_runs opt price) as (out & H). destruct (frugal_runs opt price) as (out' & H').
  destruct (has_size (r_done out) (20, 0)%Z) as (d & I & Ed); [rewrite (pumps_sizes _ _ _ H); right; left; reflexivity|]. destruct (has_size (r_done out') (20, 0)%Z) as (d' & I' & Ed'); [rewrite (frugal_sizes _ _ _ H'); right; left; reflexivity|].
  assert (R : ran calm sun (fun _ _ _ _ _ => 3%Q) opt price pumps "Fixed order control" out d) by (split; [exact pumps_plain|split; [exact pumps_big|split; [exists (list_ascii_of_string "Fixed order control"); split; reflexivity|split; assumption]]]).
  assert (R' : ran calm sun (fun _ _ _ _ _ => 3%Q) opt price frugal "Fixed order control" out' d') by (split; [exact frugal_plain|split; [exact frugal_big|split; [exists (list_ascii_of_string "Fixed order control"); split; reflexivity|split; assumption]]]).
  set (r := {| M_Kpi.rhi_type := "Domestic"; M_Kpi.rhi_tariff := "Fixed"; M_Kpi.rhi_fixed := 713; M_Kpi.rhi_tier_1 := 813; M_Kpi.rhi_tier_2 := 913 |}%Q).
  assert (IN : incentive pumps r) by (unfold incentive, r; cbv zeta; cbn [M_Kpi.rhi_type M_Kpi.rhi_tariff M_Kpi.rhi_fixed M_Kpi.rhi_tier_1 M_Kpi.rhi_tier_2]; split; [eexists; split; reflexivity|]; split; [eexists; split; reflexivity|]; repeat match goal with |- _ /\ _ => split end; reflexivity).
  assert (IN' : incentive frugal r) by (unfold incentive, r; cbv zeta; cbn [M_Kpi.rhi_type M_Kpi.rhi_tariff M_Kpi.rhi_fixed M_Kpi.rhi_tier_1 M_Kpi.rhi_tier_2]; split; [eexists; split; reflexivity|]; split; [eexists; split; reflexivity|]; repeat match goal with |- _ /\ _ => split end; reflexivity).
  destruct (calcs_ok _ _ _ _ _ _ _ _ _ R IN) as (K & EK). destruct (calcs_ok _ _ _ _ _ _ _ _ _ R' IN') as (K' & EK'). exists d, d', K, K'. split; [|split; [exact Ed|exact pumps_electric]].
  unfold less_in_tables. split; [exact frugal_less|]. split; [congruence|]. split; [rewrite Ed; reflexivity|]. split; [rewrite Ed; apply pumps_sensible; lia|]. split; [rewrite Ed; apply frugal_sensible; lia|].
  split; [|split; [|split; [|split; [exact EK|split; [exact EK'|exists out, out'; split; assumption]]]]].
  - split; intros l ps E M; vm_compute in E; injection E as <-; vm_compute in M; injection M as <-; (split; [intros l1 l2 X; refine (proj1 (nab_spec _ _ _ false _ l1 l2 X)); reflexivity|]);
      intros l1 l2 X; exfalso; (assert (Y : In ES_to_HP_to_demand (l1 ++ ES_to_HP_to_demand :: l2)) by (apply in_or_app; right; left; reflexivity)); rewrite <- X in Y; cbn in Y; repeat (destruct Y as [Y|Y]; [discriminate Y|]); contradiction.
  - intros r0 x X. assert (Z : all_in pumps "Electrical storage" "I" any_row (fun x => x == 0)%Q); [|exact (Z r0 x Logic.I X)]. apply (by_cells _ _ 9 5 (battery_at 0)); [reflexivity|vm_compute; lia|].
    intros r1 y _ _ E. unfold battery_at in E. destruct (Nat.eqb (r1 - 2) 4); [|discriminate]. cbn in E. injection E as <-. reflexivity.
  - split; [eexists; split; reflexivity|]. split; intros r0 x <- X; vm_compute in X; injection X as <-; discriminate.
Qed.
