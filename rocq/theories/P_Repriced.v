(** C127: what another price of electricity in the workbook does to the published tables. *)
From Coq Require Import String Ascii.
From Verif Require Import Base BaseL M_Battery S_Battery M_HeatPump M_Tools S_HeatPump M_FixedOrder S_FixedOrder S_Prices L_Tank
  M_Excel S_Excel L_Excel P_Excel M_Init S_Init L_Init P_Init P_InitReady M_Program S_Program L_Program L_ProgramRuns L_ProgramOk P_Program P_ProgramOk P_ProgramCases S_Sensible L_Sensible P_Sensible
  M_Kpi S_Kpi L_Kpi L_KpiSums L_KpiCost S_Ranking S_Books P_Books S_Rows P_Rows P_Figures L_FixedOrderRun S_Repriced L_Repriced.
From Verif Require M_Sweep P_Sweep.
Local Open Scope nat_scope.
Local Open Scope string_scope.
Local Open Scope list_scope.

(** A combination of a completed run under fixed order control at a flat rate, as it is loaded for the tables *)
Definition flat_row L run_pv lc opt price (wb : workbook) (d : done) (K : run) : Prop :=
  says wb "Grid" "D" 5 "Flat rates" /\ calcs L d = Ok K /\ exists out, ran L run_pv lc opt price wb "Fixed order control" out d.
(** Two such runs, of workbooks that differ in the prices only, and a combination of the same sizes of both *)
Definition repriced_rows L run_pv lc opt price (wb wb' : workbook) (d d' : done) (K K' : run) : Prop :=
  repriced wb wb' /\ d_sizes d = d_sizes d' /\ flat_row L run_pv lc opt price wb d K /\ flat_row L run_pv lc opt price wb' d' K'.

Lemma same_values l l' (f : fields -> Q) : Forall2 same_energy l l' -> (forall rc rc', same_energy rc rc' -> f (rf rc) = f (rf rc')) -> map (fun rc => f (rf rc)) l = map (fun rc => f (rf rc)) l'.
Proof. intros F Hf. induction F as [|rc rc' l l' E F IH]; [reflexivity|]. cbn [map]. rewrite IH, (Hf _ _ E). reflexivity. Qed.
Lemma same_array K K' f : complete_run K -> complete_run K' -> Forall2 same_energy (k_results K) (k_results K') -> (forall rc rc', same_energy rc rc' -> f (rf rc) = f (rf rc')) -> array K f = array K' f.
Proof. intros H H' F Hf. rewrite (array_ok K H), (array_ok K' H'). f_equal. exact (same_values _ _ f F Hf). Qed.

(** ** C127: in the tables only the columns of money change, and the cost of electricity is what the two prices make of the purchases and sales *)
Theorem C127_energy_columns : forall L run_pv lc opt price wb wb' d d' K K' h, repriced_rows L run_pv lc opt price wb wb' d d' K K' -> In h energy_columns ->
  entry price K h = entry price K' h /\ ((0 <= fst (d_sizes d))%Z -> (0 <= snd (d_sizes d))%Z -> exists x, entry price K h = Ok x).
Proof.
  intros L run_pv lc opt price wb wb' d d' K K' h (RP & ES & (F1 & C & out & R) & (F1' & C' & out' & R')) I.
  destruct (reprice _ _ _ _ _ _ _ _ _ _ _ _ _ RP R R' ES C C') as (N & T & RH & G & G' & F).
  destruct (charged _ _ _ _ _ _ _ _ _ R F1 C) as (_ & _ & _ & _ & H & NF & _). destruct (charged _ _ _ _ _ _ _ _ _ R' F1' C') as (_ & _ & _ & _ & H' & _).
  assert (A : forall f, (forall rc rc', same_energy rc rc' -> f (rf rc) = f (rf rc')) -> array K f = array K' f) by (intros f Hf; exact (same_array K K' f H H' F Hf)).
  assert (W : forall f, windy_sum K f = Ok 0%Q) by (intro f; apply windy_sum_plain; rewrite G; left; reflexivity). assert (W' : forall f, windy_sum K' f = Ok 0%Q) by (intro f; apply windy_sum_plain; rewrite G'; left; reflexivity).
  split.
  - cbn in I. repeat (destruct I as [<-|I]; [unfold entry, indicators; cbn [find fst snd String.eqb Ascii.eqb Bool.eqb];
      unfold RES_self_consumption, total_RES_used, total_RES_self_consumption, grid_RES_used, HP_size_ratio, HP_utilisation, capital_cost, calc_scop, demand_met_RES, HP_met_RES, heat_met_RES, days_storage_content,
        total_RES_used, total_RES_self_consumption, grid_RES_used, heat_from_local_RES, HP_from_local_RES, HP_from_grid_RES, heat_from_grid_RES,
        max_heat_pump_output, max_heat_demand, sum_hp_output, sum_hp_usage, sum_aux_output, sum_ed_import, sum_ed, sum_hd, sum_RES, sum_import, sum_export, max_of, sum_of; rewrite ?W, ?W', ?N, ?T;
      rewrite ?A by (intros rc rc' (E & _); rewrite ?E by reflexivity; reflexivity); reflexivity|]). contradiction.
  - intros P1 P2. destruct (d_sizes d) as (hz & tz). cbn [fst snd] in P1, P2. destruct (P_Sweep.C34_sizes_read_back hz tz P1 P2) as (_ & A1 & A2).
    assert (MX : forall f, exists x, max_of K f = Ok x).
    { intro f. unfold max_of. rewrite (array_ok K H). cbn [bind]. destruct H as (H1 & H2). destruct (k_results K); [cbn in H2; lia|]. eexists. reflexivity. }
    destruct (MX (fun r => r HP_heat_total_output)) as (m1 & M1). destruct (MX (fun r => r HD_heat_demand)) as (m2 & M2).
    assert (X0 : (k_timesteps K =? 0)%Z = false) by (destruct H; apply Z.eqb_neq; lia).
    cbn in I. repeat (destruct I as [<-|I]; [unfold entry, indicators; cbn [find fst snd String.eqb Ascii.eqb Bool.eqb];
      unfold RES_self_consumption, total_RES_used, total_RES_self_consumption, grid_RES_used, HP_size_ratio, HP_utilisation, capital_cost, calc_scop, demand_met_RES, HP_met_RES, heat_met_RES, days_storage_content,
        total_RES_used, total_RES_self_consumption, grid_RES_used, heat_from_local_RES, HP_from_local_RES, HP_from_grid_RES, heat_from_grid_RES,
        max_heat_pump_output, max_heat_demand, sum_hp_output, sum_hp_usage, sum_aux_output, sum_ed_import, sum_ed, sum_hd, sum_RES, sum_import, sum_export; rewrite ?W, ?NF, ?A1, ?A2, ?M1, ?M2, ?X0, ?(sum_of_ok K H); cbn [bind fin]; rewrite ?X0; eexists; reflexivity|]). contradiction.
Qed.
Print Assumptions C127_energy_columns.
(** The cost of electricity, for any flat rate and export price *)
Theorem C127_bill : forall L run_pv lc opt price wb d K h, flat_row L run_pv lc opt price wb d K -> h = "cost_elec" \/ h = "opex" /\ electric_backup wb ->
  exists p e i o x, holds wb "Grid" "C" 9 p /\ holds wb "Grid" "D" 9 e /\ entry price K "sum_import" = Ok (Fin i) /\ entry price K "sum_export" = Ok (Fin o) /\ entry price K h = Ok (Fin x) /\
    (x == (p * i - e * o) / 1000 / 1000)%Q.
Proof.
  intros L run_pv lc opt price wb d K h (F1 & C & out & R) I. destruct (charged _ _ _ _ _ _ _ _ _ R F1 C) as (p & e & Hp & He & H & _ & EL & CF).
  assert (TC : (cash K == (e * total (fun r => r GRID_total_export) (k_results K) - p * total (fun r => r GRID_total_import) (k_results K)) / 1000)%Q).
  { unfold cash. clear - CF. induction CF as [|rc l X CF IH]; [cbn; field|]. rewrite !total_cons, IH, X. field. }
  exists p, e, (total (fun r => r GRID_total_import) (k_results K)), (total (fun r => r GRID_total_export) (k_results K)).
  change (entry price K "sum_import") with (fin (sum_of K (fun r => r GRID_total_import))). change (entry price K "sum_export") with (fin (sum_of K (fun r => r GRID_total_export))). rewrite !(sum_of_ok K H).
  destruct I as [->|(-> & EB)].
  - change (entry price K "cost_elec") with (fin (sum_of K (fun r => - r GRID_cashflow / 1000)%Q)). rewrite (sum_of_ok K H). eexists. do 4 (split; [assumption || reflexivity|]). split; [reflexivity|].
    assert (S1 : (total (fun r => - r GRID_cashflow / 1000) (k_results K) == - cash K / 1000)%Q) by (unfold cash; clear; induction (k_results K) as [|rc l IH]; [reflexivity|]; rewrite !total_cons, IH; field).
    rewrite S1, TC. field.
  - change (entry price K "opex") with (fin (operating_cost K)). destruct (operating_cost_ok K H) as (o & -> & Eo). eexists. do 4 (split; [assumption || reflexivity|]). split; [reflexivity|].
    rewrite Eo, (EL EB). cbn [fuel_eqb]. rewrite TC. field.
Qed.
Print Assumptions C127_bill.
(** A higher price for what is bought and a lower one for what is sold never make the supply cheaper; the difference is exactly that of the prices times the quantities. *)
Theorem C127_dearer : forall L run_pv lc opt price wb wb' d d' K K' h p p' e e', repriced_rows L run_pv lc opt price wb wb' d d' K K' -> h = "cost_elec" \/ h = "opex" /\ electric_backup wb ->
  holds wb "Grid" "C" 9 p -> holds wb' "Grid" "C" 9 p' -> holds wb "Grid" "D" 9 e -> holds wb' "Grid" "D" 9 e' ->
  exists i o x x', entry price K "sum_import" = Ok (Fin i) /\ entry price K "sum_export" = Ok (Fin o) /\ entry price K h = Ok (Fin x) /\ entry price K' h = Ok (Fin x') /\
    (x' - x == ((p' - p) * i - (e' - e) * o) / 1000 / 1000)%Q /\ (sensible L lc wb (d_sizes d) -> p <= p' -> e' <= e -> x <= x')%Q.
Proof.
  intros L run_pv lc opt price wb wb' d d' K K' h p p' e e' RR I Hp Hp' He He'. pose proof RR as (RP & ES & FR & FR').
  assert (I' : h = "cost_elec" \/ h = "opex" /\ electric_backup wb').
  { destruct I as [I|(I & EB)]; [left; exact I|]. right. split; [exact I|]. unfold electric_backup, chooses, says, xl in *. destruct RP as (E & _). rewrite <- (E "Aux heat") by discriminate. exact EB. }
  destruct (C127_bill _ _ _ _ _ _ _ _ h FR I) as (p1 & e1 & i & o & x & Hp1 & He1 & Ei & Eo & Ex & X). destruct (C127_bill _ _ _ _ _ _ _ _ h FR' I') as (p2 & e2 & i' & o' & x' & Hp2 & He2 & Ei' & Eo' & Ex' & X').
  assert (p1 = p) by (unfold holds in *; congruence). assert (e1 = e) by (unfold holds in *; congruence). assert (p2 = p') by (unfold holds in *; congruence). assert (e2 = e') by (unfold holds in *; congruence). subst p1 e1 p2 e2.
  destruct (C127_energy_columns _ _ _ _ _ _ _ _ _ _ _ "sum_import" RR) as (Si & _); [cbn; tauto|]. destruct (C127_energy_columns _ _ _ _ _ _ _ _ _ _ _ "sum_export" RR) as (So & _); [cbn; tauto|].
  assert (i' = i) by congruence. assert (o' = o) by congruence. subst i' o'. exists i, o, x, x'. do 4 (split; [assumption|]).
  assert (D : (x' - x == ((p' - p) * i - (e' - e) * o) / 1000 / 1000)%Q) by (rewrite X, X'; field). split; [exact D|]. intros SE Lp Le.
  assert (OR : one_row L run_pv lc opt price wb d K) by (destruct FR as (_ & C & R); split; [exact SE|]; split; assumption).
  destruct (C125_totals _ _ _ _ _ _ _ _ "sum_import" OR) as (i1 & Ei1 & Ni); [cbn; tauto|]. destruct (C125_totals _ _ _ _ _ _ _ _ "sum_export" OR) as (o1 & Eo1 & No); [cbn; tauto|].
  assert (i1 = i) by congruence. assert (o1 = o) by congruence. subst i1 o1.
  assert (B1 : (0 <= (p' - p) * i)%Q) by (apply Qmult_le_0_compat; lra). assert (B2 : (0 <= (e - e') * o)%Q) by (apply Qmult_le_0_compat; lra).
  assert (B3 : (0 <= x' - x)%Q). { rewrite D. unfold Qdiv. repeat (apply Qmult_le_0_compat; [|discriminate]). lra. } lra.
Qed.
Print Assumptions C127_dearer.

(** ** Case: the sweep of C124_case, and the same with a higher price for what is bought and a lower one for what is sold *)
Definition dearer_at (r c : nat) : value := if Nat.eqb c 2 && Nat.eqb r 7 then P_Excel.num 1000 else if Nat.eqb c 3 && Nat.eqb r 7 then P_Excel.num 4 else tariff_at r c.
Definition dearer : workbook := fun name => if String.eqb name "Grid" then Some (sheet_by 23 50 dearer_at) else pumps name.
Lemma dearer_elsewhere N : N <> "Grid" -> dearer N = pumps N.
Proof. intro E. unfold dearer. apply String.eqb_neq in E. rewrite E. reflexivity. Qed.
Lemma dearer_plain : plain dearer.
Proof. intros name sh H. unfold dearer in H. destruct (String.eqb name "Grid"); [injection H as <-; apply sheet_by_plain|]. exact (pumps_plain name sh H). Qed.
Lemma dearer_big : big_enough dearer.
Proof.
  unfold big_enough. repeat match goal with |- _ /\ _ => split end;
    (eapply reaches_by; [reflexivity|vm_compute; reflexivity|first [apply Nat.leb_le; lia|vm_compute; reflexivity]]).
Qed.
Ltac elsewhere3 := unfold weather_filled, demand_filled, PV_filled_in, wind_filled, battery_filled, backup_filled, tank_filled, heat_pump_filled, readable, covers_the_year, evaluable, priced, ordered, swept, without_store,
  periods_filled, market_filled, rows_of, wordless, worded, numeric, chooses, counts, holds, says, first_complete, complete, test_result, tested_at, xl, last_row, width; cbv zeta;
  repeat match goal with |- context [dearer ?N] => rewrite (dearer_elsewhere N) by discriminate end.
Ltac carry_3 H := let K := fresh in pose proof H as K; revert K; elsewhere3; intro K; exact K.
Lemma dearer_flat : says dearer "Grid" "D" 5 "Flat rates".
Proof. eexists; split; reflexivity. Qed.
Lemma dearer_electric : electric_backup dearer.
Proof. unfold electric_backup. choose_it. Qed.
Lemma dearer_filled : filled_in calm dearer.
Proof.
  destruct pumps_filled as (_ & _ & _ & A & B & C & D & E & F & G & H & I & J).
  unfold filled_in. split; [exact dearer_plain|]. split; [exact dearer_big|].
  split; [unfold readable, readable_fuel; repeat match goal with |- _ /\ _ => split end; (eexists; vm_compute; reflexivity)|].
  split; [carry_3 A|]. split; [carry_3 B|]. split; [carry_3 C|]. split; [exact D|]. split; [carry_3 E|]. split; [carry_3 F|]. split; [carry_3 G|]. split; [carry_3 H|]. split; [carry_3 I|].
  left. split; [exact dearer_flat|]. eexists. reflexivity.
Qed.
Lemma dearer_runs opt price : exists out, program calm sun (fun _ _ _ _ _ => 3%Q) opt price dearer = Ok out.
Proof.
  destruct (batteried_runnable) as (R1 & R2 & _).
  apply C98_completes_without_store; [apply dearer_filled| | | | |apply calm_answers].
  - split; [assert (K : covers_the_year pumps) by (carry_on R1); carry_3 K|]. split; [assert (K : numeric pumps "Demand input" "I" 8) by (carry_on R2); carry_3 K|].
    split; [eexists; reflexivity|]. split; [left; choose_it|]. split; [left; exact dearer_flat|]. intros e E. vm_compute in E. injection E as <-. discriminate.
  - split; [exists (list_ascii_of_string "Fixed order control"); split; reflexivity|]. split; [eexists; reflexivity|]. split; [exists 100%Z, 24%Z; split; [eexists; split; reflexivity|]; split; [eexists; split; reflexivity|]; lia|].
    split; intros l E; vm_compute in E; injection E as <-; eexists; reflexivity.
  - assert (K : swept pumps) by (carry_on batteried_swept). carry_3 K.
  - assert (K : without_store pumps) by (carry_on batteried_without). carry_3 K.
Qed.
Lemma dearer_sizes opt price out : program calm sun (fun _ _ _ _ _ => 3%Q) opt price dearer = Ok out -> map d_sizes (r_done out) = [(10, 0); (20, 0); (30, 0)]%Z.
Proof.
  intro H. destruct (C97_combinations _ _ _ _ _ _ _ dearer_plain H) as (p & A1 & A2 & A3 & A4 & A5 & A6 & C & _). cbv zeta in *.
  assert (E : forall N cc r v z, xl dearer N cc r = P_Excel.num v -> counts dearer N cc r z -> z = v).
  { intros N cc r v z Ev Ez. refine (counts_one _ _ _ _ _ _ Ez _). exists (inject_Z v). split; [exact Ev|reflexivity]. }
  apply (E "Parametric" "E"%char 6%nat 10%Z _ eq_refl) in A1. apply (E "Parametric" "D"%char 6%nat 30%Z _ eq_refl) in A2. apply (E "Parametric" "F"%char 6%nat 10%Z _ eq_refl) in A3.
  apply (E "Parametric" "E"%char 7%nat 0%Z _ eq_refl) in A4. apply (E "Parametric" "D"%char 7%nat 0%Z _ eq_refl) in A5. apply (E "Parametric" "F"%char 7%nat 1%Z _ eq_refl) in A6.
  destruct p. cbn in *. subst. vm_compute in C. injection C as C. symmetry. exact C.
Qed.
Lemma dearer_repriced : repriced pumps dearer.
Proof.
  split; [intros N E; symmetry; exact (dearer_elsewhere N E)|]. split; [eexists; split; reflexivity|]. split; [exact dearer_flat|].
  intros x p p' X Y Y'. vm_compute in X, Y, Y'. injection X as <-. injection Y as <-. injection Y' as <-. split; intros _; reflexivity.
Qed.
Example C127_case : forall opt price, exists d d' K K', repriced_rows calm sun (fun _ _ _ _ _ => 3%Q) opt price pumps dearer d d' K K' /\ d_sizes d = (20, 0)%Z /\ electric_backup pumps /\
  sensible calm (fun _ _ _ _ _ => 3%Q) pumps (d_sizes d) /\ holds pumps "Grid" "C" 9 902 /\ holds dearer "Grid" "C" 9 1000 /\ holds pumps "Grid" "D" 9 5 /\ holds dearer "Grid" "D" 9 4.
Proof.
  intros opt price. destruct (pumps_runs opt price) as (out & H). destruct (dearer_runs opt price) as (out' & H').
  destruct (has_size (r_done out) (20, 0)%Z) as (d & I & Ed); [rewrite (pumps_sizes _ _ _ H); right; left; reflexivity|]. destruct (has_size (r_done out') (20, 0)%Z) as (d' & I' & Ed'); [rewrite (dearer_sizes _ _ _ H'); right; left; reflexivity|].
  assert (R : ran calm sun (fun _ _ _ _ _ => 3%Q) opt price pumps "Fixed order control" out d) by (split; [exact pumps_plain|split; [exact pumps_big|split; [exists (list_ascii_of_string "Fixed order control"); split; reflexivity|split; assumption]]]).
  assert (R' : ran calm sun (fun _ _ _ _ _ => 3%Q) opt price dearer "Fixed order control" out' d') by (split; [exact dearer_plain|split; [exact dearer_big|split; [exists (list_ascii_of_string "Fixed order control"); split; reflexivity|split; assumption]]]).
  set (r := {| M_Kpi.rhi_type := "Domestic"; M_Kpi.rhi_tariff := "Fixed"; M_Kpi.rhi_fixed := 713; M_Kpi.rhi_tier_1 := 813; M_Kpi.rhi_tier_2 := 913 |}%Q).
  assert (IN : incentive pumps r) by (unfold incentive, r; cbv zeta; cbn [M_Kpi.rhi_type M_Kpi.rhi_tariff M_Kpi.rhi_fixed M_Kpi.rhi_tier_1 M_Kpi.rhi_tier_2]; split; [eexists; split; reflexivity|]; split; [eexists; split; reflexivity|]; repeat match goal with |- _ /\ _ => split end; reflexivity).
  assert (IN' : incentive dearer r) by (unfold incentive, r; cbv zeta; cbn [M_Kpi.rhi_type M_Kpi.rhi_tariff M_Kpi.rhi_fixed M_Kpi.rhi_tier_1 M_Kpi.rhi_tier_2]; split; [eexists; split; reflexivity|]; split; [eexists; split; reflexivity|]; repeat match goal with |- _ /\ _ => split end; reflexivity).
  destruct (calcs_ok _ _ _ _ _ _ _ _ _ R IN) as (K & EK). destruct (calcs_ok _ _ _ _ _ _ _ _ _ R' IN') as (K' & EK'). exists d, d', K, K'.
  split; [|split; [exact Ed|split; [exact pumps_electric|split; [rewrite Ed; apply pumps_sensible; lia|repeat match goal with |- _ /\ _ => split end; reflexivity]]]].
  split; [exact dearer_repriced|]. split; [congruence|]. split; (split; [eexists; split; reflexivity|]); (split; [assumption|]); eexists; eassumption.
Qed.
