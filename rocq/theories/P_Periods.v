(** C129: the tables of a period simulated as a whole and in two parts. *)
From Coq Require Import String Ascii.
From Verif Require Import Base BaseL M_Battery S_Battery M_HeatPump M_Tools S_HeatPump M_FixedOrder S_FixedOrder L_FixedOrderProps L_FixedOrderMore L_FixedOrderRun L_Tank S_Window
  M_Excel S_Excel L_Excel P_Excel M_Init S_Init L_Init P_Init P_InitReady M_Program S_Program L_Program L_ProgramRuns L_ProgramOk P_Program P_ProgramOk P_ProgramCases S_Sensible L_Sensible P_Sensible
  M_Kpi S_Kpi L_Kpi L_KpiSums L_KpiCost P_Kpi S_Ranking S_Books P_Books S_Rows P_Rows S_Figures L_Figures P_Figures S_Periods L_Periods.
From Verif Require M_Sweep.
Local Open Scope nat_scope.
Local Open Scope string_scope.
Local Open Scope list_scope.

(** Three completed runs under fixed order control, of a period and of its two parts, and a combination of the same sizes of each *)
Definition three_rows L run_pv lc opt price (wb wb1 wb2 : workbook) (d d1 d2 : done) (K K1 K2 : run) (m k : Z) : Prop :=
  split_period wb wb1 wb2 m k /\ d_sizes d = d_sizes d1 /\ d_sizes d = d_sizes d2 /\ calcs L d = Ok K /\ calcs L d1 = Ok K1 /\ calcs L d2 = Ok K2 /\
  exists out out1 out2, ran L run_pv lc opt price wb "Fixed order control" out d /\ ran L run_pv lc opt price wb1 "Fixed order control" out1 d1 /\ ran L run_pv lc opt price wb2 "Fixed order control" out2 d2.
Lemma total_app f l l' : (total f (l ++ l') == total f l + total f l')%Q.
Proof. induction l as [|rc l IH]; [cbn [app]; assert (E : (total f [] == 0)%Q) by reflexivity; rewrite E; ring|]. cbn [app]. rewrite !total_cons, IH. ring. Qed.
Lemma total_same f l l' : Forall2 same_record l l' -> (forall rc rc', same_record rc rc' -> f (rf rc) == f (rf rc'))%Q -> (total f l == total f l')%Q.
Proof. intros F Hf. induction F as [|rc rc' l l' E F IH]; [reflexivity|]. rewrite !total_cons, IH, (Hf _ _ E). reflexivity. Qed.

(** ** C129.  The full statement: the totals and costs in the tables of a period are the sums of those of its two parts.  It holds for every tariff and order when nothing is stored; a battery makes it false, since the
    later part begins with its initial level (C116_window_refuted).  The hours of the first part are the same in any case. *)
Theorem C129_add_up_partial : forall L run_pv lc opt price wb wb1 wb2 d d1 d2 K K1 K2 m k h, three_rows L run_pv lc opt price wb wb1 wb2 d d1 d2 K K1 K2 m k -> no_battery wb -> snd (d_sizes d) = 0%Z ->
  In h ["sum_hp_output"; "sum_hp_usage"; "sum_aux_output"; "sum_ed_import"; "sum_RES"; "sum_import"; "sum_export"; "total_RES_self_consumption"; "opex"; "cost_elec"] ->
  exists x x1 x2, entry price K h = Ok (Fin x) /\ entry price K1 h = Ok (Fin x1) /\ entry price K2 h = Ok (Fin x2) /\ (x == x1 + x2)%Q.
Proof.
  intros L run_pv lc opt price wb wb1 wb2 d d1 d2 K K1 K2 m k h (SP & E1 & E2 & C & C1 & C2 & out & out1 & out2 & R & R1 & R2) NB Z0 I.
  destruct (parts _ _ _ _ _ _ _ _ _ _ _ _ _ _ _ _ _ _ _ SP R R1 R2 E1 E2 C C1 C2) as (H & H1 & H2 & _ & _ & F1 & F2 & later & EL & SR). specialize (SR NB Z0).
  assert (A : forall f, (forall rc rc', same_record rc rc' -> f (rf rc) == f (rf rc'))%Q -> (total f (k_results K) == total f (k_results K1) + total f (k_results K2))%Q).
  { intros f Hf. rewrite EL, total_app, (total_same f _ _ SR Hf). reflexivity. }
  assert (N : forall f, (forall rc rc', same_record rc rc' -> f (rf rc) == f (rf rc'))%Q -> exists x x1 x2, fin (sum_of K f) = Ok (Fin x) /\ fin (sum_of K1 f) = Ok (Fin x1) /\ fin (sum_of K2 f) = Ok (Fin x2) /\ (x == x1 + x2)%Q).
  { intros f Hf. rewrite (sum_of_ok K H), (sum_of_ok K1 H1), (sum_of_ok K2 H2). do 3 eexists. do 3 (split; [reflexivity|]). exact (A f Hf). }
  cbn in I. do 7 (destruct I as [<-|I]; [apply N; intros rc rc' (E & _); apply E|]). destruct I as [<-|[<-|[<-|[]]]].
  - unfold entry, indicators; cbn [find fst snd String.eqb Ascii.eqb Bool.eqb]. unfold total_RES_self_consumption, sum_RES, sum_export. rewrite !(sum_of_ok K H), !(sum_of_ok K1 H1), !(sum_of_ok K2 H2). cbn [bind fin].
    do 3 eexists. do 3 (split; [reflexivity|]). rewrite (A (fun r => r RES_generation_total)) by (intros rc rc' (E & _); apply E). rewrite (A (fun r => r GRID_total_export)) by (intros rc rc' (E & _); apply E). ring.
  - change (entry price K "opex") with (fin (operating_cost K)). change (entry price K1 "opex") with (fin (operating_cost K1)). change (entry price K2 "opex") with (fin (operating_cost K2)).
    destruct (operating_cost_ok K H) as (o & -> & Eo). destruct (operating_cost_ok K1 H1) as (o1 & -> & Eo1). destruct (operating_cost_ok K2 H2) as (o2 & -> & Eo2).
    do 3 eexists. do 3 (split; [reflexivity|]). rewrite Eo, Eo1, Eo2, <- F1, <- F2. unfold cash, fuel_cost.
    assert (B : (total (fun r => r GRID_cashflow) (k_results K) == total (fun r => r GRID_cashflow) (k_results K1) + total (fun r => r GRID_cashflow) (k_results K2))%Q) by (apply A; intros rc rc' (E & _); apply E).
    assert (D : (total (fun r => r AUX_cost) (k_results K) == total (fun r => r AUX_cost) (k_results K1) + total (fun r => r AUX_cost) (k_results K2))%Q) by (apply A; intros rc rc' (E & _); apply E).
    destruct (fuel_eqb _ _); [|rewrite D]; rewrite B; field.
  - apply (N (fun r => - r GRID_cashflow / 1000)%Q). intros rc rc' (E & _). rewrite (E GRID_cashflow). reflexivity.
Qed.
Print Assumptions C129_add_up_partial.
(** The sizes are paid for once: the capital cost is the same in all three. *)
Theorem C129_capital_cost : forall L run_pv lc opt price wb wb1 wb2 d d1 d2 K K1 K2 m k, three_rows L run_pv lc opt price wb wb1 wb2 d d1 d2 K K1 K2 m k ->
  entry price K "capital_cost" = entry price K1 "capital_cost" /\ entry price K "capital_cost" = entry price K2 "capital_cost".
Proof.
  intros L run_pv lc opt price wb wb1 wb2 d d1 d2 K K1 K2 m k (SP & E1 & E2 & C & C1 & C2 & out & out1 & out2 & R & R1 & R2).
  destruct (parts _ _ _ _ _ _ _ _ _ _ _ _ _ _ _ _ _ _ _ SP R R1 R2 E1 E2 C C1 C2) as (_ & _ & _ & N1 & N2 & _).
  unfold entry, indicators; cbn [find fst snd String.eqb Ascii.eqb Bool.eqb]. unfold capital_cost. rewrite <- N1, <- N2. split; reflexivity.
Qed.
Print Assumptions C129_capital_cost.
(** Whatever is stored: the first part gives the first hours of the whole, hour by hour, *)
Theorem C129_first_part : forall L run_pv lc opt price wb wb1 wb2 d d1 d2 K K1 K2 m k, three_rows L run_pv lc opt price wb wb1 wb2 d d1 d2 K K1 K2 m k -> d_records d1 = firstn (Z.to_nat m) (d_records d).
Proof.
  intros L run_pv lc opt price wb wb1 wb2 d d1 d2 K K1 K2 m k (SP & E1 & E2 & C & C1 & C2 & out & out1 & out2 & R & R1 & R2).
  destruct (parts _ _ _ _ _ _ _ _ _ _ _ _ _ _ _ _ _ _ _ SP R R1 R2 E1 E2 C C1 C2) as (_ & (_ & H1) & _ & _ & _ & _ & _ & later & EL & _).
  assert (EK : k_results K = d_records d) by (unfold calcs in C; cbv zeta in C; inv_bind C; apply Ok_inj in C; subst K; reflexivity).
  assert (EK1 : k_results K1 = d_records d1) by (unfold calcs in C1; cbv zeta in C1; inv_bind C1; apply Ok_inj in C1; subst K1; reflexivity).
  assert (T1 : k_timesteps K1 = m).
  { destruct SP as (_ & _ & s & _ & _ & _ & A6 & _). pose proof (C95_hours_needed _ _ _ _ _ _ _ _ R1) as (_ & s0 & n0 & _ & N0 & _ & _ & LE). assert (n0 = m) by exact (counts_one _ _ _ _ _ _ N0 A6). subst n0. rewrite <- H1, EK1. lia. }
  rewrite <- EK, <- EK1, EL. replace (Z.to_nat m) with (length (k_results K1)) by lia. rewrite firstn_app, firstn_all, Nat.sub_diag, firstn_O, app_nil_r. reflexivity.
Qed.
Print Assumptions C129_first_part.
(** so no total of a sensible workbook falls when the period is made longer. *)
Theorem C129_longer : forall L run_pv lc opt price wb wb1 wb2 d d1 d2 K K1 K2 m k h, three_rows L run_pv lc opt price wb wb1 wb2 d d1 d2 K K1 K2 m k -> sensible L lc wb (d_sizes d) ->
  In h ["sum_hp_output"; "sum_hp_usage"; "sum_aux_output"; "sum_ed_import"; "sum_RES"; "sum_import"; "sum_export"] ->
  exists x x1, entry price K h = Ok (Fin x) /\ entry price K1 h = Ok (Fin x1) /\ (x1 <= x)%Q.
Proof.
  intros L run_pv lc opt price wb wb1 wb2 d d1 d2 K K1 K2 m k h (SP & E1 & E2 & C & C1 & C2 & out & out1 & out2 & R & R1 & R2) SE I.
  destruct (parts _ _ _ _ _ _ _ _ _ _ _ _ _ _ _ _ _ _ _ SP R R1 R2 E1 E2 C C1 C2) as (H & H1 & _ & _ & _ & _ & _ & later & EL & _).
  destruct (behind _ _ _ _ _ _ _ _ _ R SE C) as (P & year & s & n & G & RO & _).
  assert (N : forall f, In f flow_fields -> exists x x1, fin (sum_of K (fun r => r f)) = Ok (Fin x) /\ fin (sum_of K1 (fun r => r f)) = Ok (Fin x1) /\ (x1 <= x)%Q).
  { intros f Hf. rewrite (sum_of_ok K H), (sum_of_ok K1 H1). eexists. eexists. split; [reflexivity|]. split; [reflexivity|].
    assert (A : Forall (fun rc => 0 <= rf rc f)%Q (k_results K)).
    { apply (run_hours P year s n K _ RO). intros i rc Hi. destruct RO as (HR & _).
      destruct (good_run_hour P year s n _ i rc G HR Hi) as (J & nd & soc & Hst & Gh & _). pose proof (flows_nonneg P J _ nd soc rc Gh Hst) as F. rewrite Forall_forall in F. exact (F f Hf). }
    rewrite EL in A |- *. apply Forall_app in A as (_ & A). rewrite total_app. pose proof (total_nonneg (fun r => r f) later A). lra. }
  cbn in I. repeat (destruct I as [<-|I]; [apply N; cbn; tauto|]). contradiction.
Qed.
Print Assumptions C129_longer.

(** ** Case: the sweep of C124_case, hours 100 to 123, in parts of 10 and 14 hours *)
Definition span (s n : Z) : workbook := fun name =>
  if String.eqb name "Controller" then Some (sheet_by 7 8 (fun r c =>
    if Nat.eqb c 3 && Nat.eqb r 3 then txt "Fixed order control" else if Nat.eqb c 3 && Nat.eqb r 6 then txt "1,4,5,3,8,9,13" else if Nat.eqb c 3 && Nat.eqb r 7 then txt "1,4,5,2,6,9,15"
    else if Nat.eqb c 6 && Nat.eqb r 3 then P_Excel.num s else if Nat.eqb c 6 && Nat.eqb r 4 then P_Excel.num n else number_at r c))
  else pumps name.
Lemma span_elsewhere s n N : N <> "Controller" -> span s n N = pumps N.
Proof. intro E. unfold span. apply String.eqb_neq in E. rewrite E. reflexivity. Qed.
Lemma span_plain s n : plain (span s n).
Proof. intros name sh H. unfold span in H. destruct (String.eqb name "Controller"); [injection H as <-; apply sheet_by_plain|]. exact (pumps_plain name sh H). Qed.
Lemma span_big s n : big_enough (span s n).
Proof.
  unfold big_enough. repeat match goal with |- _ /\ _ => split end;
    (eapply reaches_by; [reflexivity|vm_compute; reflexivity|first [apply Nat.leb_le; lia|vm_compute; reflexivity]]).
Qed.
Ltac elsewhere5 := unfold weather_filled, demand_filled, PV_filled_in, wind_filled, battery_filled, backup_filled, tank_filled, heat_pump_filled, tariff_filled, covers_the_year, evaluable, priced, swept, without_store,
  periods_filled, market_filled, rows_of, wordless, worded, numeric, chooses, counts, holds, says, first_complete, complete, test_result, tested_at, xl, last_row, width; cbv zeta;
  repeat match goal with |- context [span ?s ?n ?N] => rewrite (span_elsewhere s n N) by discriminate end.
Ltac carry_5 H := let K := fresh in pose proof H as K; revert K; elsewhere5; intro K; exact K.
Lemma span_filled s n : filled_in calm (span s n).
Proof.
  destruct pumps_filled as (_ & _ & _ & A & B & C & D & E & F & G & H & I & J).
  unfold filled_in. split; [exact (span_plain s n)|]. split; [exact (span_big s n)|].
  split; [unfold readable, readable_fuel; repeat match goal with |- _ /\ _ => split end; (eexists; vm_compute; reflexivity)|].
  split; [carry_5 A|]. split; [carry_5 B|]. split; [carry_5 C|]. split; [exact D|]. split; [carry_5 E|]. split; [carry_5 F|]. split; [carry_5 G|]. split; [carry_5 H|]. split; [carry_5 I|carry_5 J].
Qed.
Lemma span_fixed s n : says (span s n) "Controller" "D" 5 "Fixed order control".
Proof. exists (list_ascii_of_string "Fixed order control"). split; reflexivity. Qed.
Lemma span_first s n : counts (span s n) "Controller" "G" 5 s.
Proof. exists (inject_Z s). split; reflexivity. Qed.
Lemma span_length s n : counts (span s n) "Controller" "G" 6 n.
Proof. exists (inject_Z n). split; reflexivity. Qed.
Lemma span_runs s n opt price : (0 <= s)%Z -> (0 < n)%Z -> (s + n <= 8760)%Z -> exists out, program calm sun (fun _ _ _ _ _ => 3%Q) opt price (span s n) = Ok out.
Proof.
  intros H0 H1 H2. destruct (batteried_runnable) as (R1 & R2 & R3 & _ & R5 & _).
  apply C98_completes_without_store; [apply span_filled| | | | |apply calm_answers].
  - split; [assert (K : covers_the_year pumps) by (carry_on R1); carry_5 K|]. split; [assert (K : numeric pumps "Demand input" "I" 8) by (carry_on R2); carry_5 K|].
    split; [eexists; reflexivity|]. split; [left; choose_it|]. split; [left; eexists; split; reflexivity|]. intros e E. vm_compute in E. injection E as <-. discriminate.
  - split; [apply span_fixed|]. split; [eexists; reflexivity|]. split; [exists s, n; split; [apply span_first|]; split; [apply span_length|]; lia|].
    split; intros l E; vm_compute in E; injection E as <-; eexists; reflexivity.
  - assert (K : swept pumps) by (carry_on batteried_swept). carry_5 K.
  - assert (K : without_store pumps) by (carry_on batteried_without). carry_5 K.
Qed.
Lemma span_sizes s n opt price out : program calm sun (fun _ _ _ _ _ => 3%Q) opt price (span s n) = Ok out -> map d_sizes (r_done out) = [(10, 0); (20, 0); (30, 0)]%Z.
Proof.
  intro H. destruct (C97_combinations _ _ _ _ _ _ _ (span_plain s n) H) as (p & A1 & A2 & A3 & A4 & A5 & A6 & C & _). cbv zeta in *.
  assert (E : forall N cc r v z, xl (span s n) N cc r = P_Excel.num v -> counts (span s n) N cc r z -> z = v).
  { intros N cc r v z Ev Ez. refine (counts_one _ _ _ _ _ _ Ez _). exists (inject_Z v). split; [exact Ev|reflexivity]. }
  apply (E "Parametric" "E"%char 6%nat 10%Z _ eq_refl) in A1. apply (E "Parametric" "D"%char 6%nat 30%Z _ eq_refl) in A2. apply (E "Parametric" "F"%char 6%nat 10%Z _ eq_refl) in A3.
  apply (E "Parametric" "E"%char 7%nat 0%Z _ eq_refl) in A4. apply (E "Parametric" "D"%char 7%nat 0%Z _ eq_refl) in A5. apply (E "Parametric" "F"%char 7%nat 1%Z _ eq_refl) in A6.
  destruct p. cbn in *. subst. vm_compute in C. injection C as C. symmetry. exact C.
Qed.
Lemma span_row s n opt price : (0 <= s)%Z -> (0 < n)%Z -> (s + n <= 8760)%Z -> exists out d K, ran calm sun (fun _ _ _ _ _ => 3%Q) opt price (span s n) "Fixed order control" out d /\ d_sizes d = (20, 0)%Z /\ calcs calm d = Ok K.
Proof.
  intros H0 H1 H2. destruct (span_runs s n opt price H0 H1 H2) as (out & H). destruct (has_size (r_done out) (20, 0)%Z) as (d & I & Ed); [rewrite (span_sizes _ _ _ _ _ H); right; left; reflexivity|].
  assert (R : ran calm sun (fun _ _ _ _ _ => 3%Q) opt price (span s n) "Fixed order control" out d) by (split; [exact (span_plain s n)|split; [exact (span_big s n)|split; [apply span_fixed|split; assumption]]]).
  set (r := {| M_Kpi.rhi_type := "Domestic"; M_Kpi.rhi_tariff := "Fixed"; M_Kpi.rhi_fixed := 713; M_Kpi.rhi_tier_1 := 813; M_Kpi.rhi_tier_2 := 913 |}%Q).
  assert (IN : incentive (span s n) r) by (unfold incentive, r; cbv zeta; cbn [M_Kpi.rhi_type M_Kpi.rhi_tariff M_Kpi.rhi_fixed M_Kpi.rhi_tier_1 M_Kpi.rhi_tier_2]; split; [eexists; split; reflexivity|]; split; [eexists; split; reflexivity|]; repeat match goal with |- _ /\ _ => split end; reflexivity).
  destruct (calcs_ok _ _ _ _ _ _ _ _ _ R IN) as (K & EK). exists out, d, K. split; [exact R|]. split; assumption.
Qed.
Lemma span_period s n s' n' : other_period (span s n) (span s' n').
Proof. split; [intros N E; rewrite !span_elsewhere by exact E; reflexivity|]. intros r I. cbn in I. repeat (destruct I as [<-|I]; [reflexivity|]). contradiction. Qed.
Ltac carry_cells5 H := let K := fresh in pose proof H as K; revert K; unfold battery_sensible, demand_sensible, turbines_sensible, backup_sensible, all_in; elsewhere5; intro K; exact K.
Lemma span_sensible s n h : (0 <= h)%Z -> sensible calm (fun _ _ _ _ _ => 3%Q) (span s n) (h, 0%Z).
Proof.
  intro H0. destruct (pumps_sensible h H0) as (A & B & C & D & E & _ & (G1 & G2) & _ & _).
  unfold sensible. split; [exact A|]. split; [carry_cells5 B|]. split; [carry_cells5 C|]. split; [carry_cells5 D|]. split; [carry_cells5 E|].
  split; [|split; [|split; [exact H0|left; reflexivity]]].
  - split; [intros r x <- X; vm_compute in X; injection X as <-; discriminate|]. split; [intros r x <- X; vm_compute in X; injection X as <-; discriminate|].
    left. split; [choose_it|]. intros r x <- X. vm_compute in X. injection X as <-. reflexivity.
  - assert (E8 : xl (span s n) "Controller" "D" 8 = xl pumps "Controller" "D" 8) by (vm_compute; reflexivity). assert (E9 : xl (span s n) "Controller" "D" 9 = xl pumps "Controller" "D" 9) by (vm_compute; reflexivity).
    split; [rewrite E8; exact G1|rewrite E9; exact G2].
Qed.
Example C129_case : forall opt price, exists d d1 d2 K K1 K2, three_rows calm sun (fun _ _ _ _ _ => 3%Q) opt price (span 100 24) (span 100 10) (span 110 14) d d1 d2 K K1 K2 10 14 /\
  no_battery (span 100 24) /\ d_sizes d = (20, 0)%Z /\ sensible calm (fun _ _ _ _ _ => 3%Q) (span 100 24) (d_sizes d).
Proof.
  intros opt price. destruct (span_row 100 24 opt price ltac:(lia) ltac:(lia) ltac:(lia)) as (out & d & K & R & Ed & EK).
  destruct (span_row 100 10 opt price ltac:(lia) ltac:(lia) ltac:(lia)) as (out1 & d1 & K1 & R1 & Ed1 & EK1). destruct (span_row 110 14 opt price ltac:(lia) ltac:(lia) ltac:(lia)) as (out2 & d2 & K2 & R2 & Ed2 & EK2).
  exists d, d1, d2, K, K1, K2. split; [|split; [|split; [exact Ed|rewrite Ed; apply span_sensible; lia]]].
  - split; [|split; [congruence|split; [congruence|split; [exact EK|split; [exact EK1|split; [exact EK2|]]]]]]; [|exists out, out1, out2; split; [exact R|split; [exact R1|exact R2]]].
    split; [apply span_period|]. split; [apply span_period|]. exists 100%Z. split; [apply span_first|]. split; [apply (span_length 100 24)|]. split; [apply span_first|]. split; [apply span_length|]. split; [apply (span_first 110 14)|apply span_length].
  - apply (by_cells _ _ 9 5 (battery_at 0)); [reflexivity|vm_compute; lia|]. intros r1 y _ _ E. unfold battery_at in E. destruct (Nat.eqb (r1 - 2) 4); [|discriminate]. cbn in E. injection E as <-. reflexivity.
Qed.
