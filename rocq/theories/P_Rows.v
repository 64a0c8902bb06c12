(** C124: two rows of the published tables, for heat pumps of different sizes. *)
From Coq Require Import String Ascii.
From Verif Require Import Base BaseL M_Battery S_Battery M_HeatPump M_Tools S_HeatPump M_FixedOrder S_FixedOrder S_HeatPumpSize L_Tank
  M_Excel S_Excel L_Excel P_Excel M_Init S_Init L_Init P_Init P_InitReady M_Program S_Program L_Program L_ProgramRuns L_ProgramOk P_Program P_ProgramOk P_ProgramCases S_Sensible L_Sensible P_Sensible
  M_Kpi S_Kpi L_Kpi L_KpiSums S_Ranking P_Books S_Rows L_Rows L_FixedOrderRun.
From Verif Require M_Sweep P_Sweep.
Local Open Scope nat_scope.
Local Open Scope string_scope.
Local Open Scope list_scope.

(** Two combinations without a heat store of one completed run under fixed order control, as they are loaded for the tables: the second has the bigger heat pump *)
Definition two_rows L run_pv lc opt price (wb : workbook) (h h' : Z) (K K' : run) : Prop :=
  (h < h')%Z /\ plain_heat_pump wb /\ surplus_first_cells wb /\ exists out d d', d_sizes d = (h, 0%Z) /\ d_sizes d' = (h', 0%Z) /\ calcs L d = Ok K /\ calcs L d' = Ok K' /\
  sensible L lc wb (d_sizes d) /\ sensible L lc wb (d_sizes d') /\ ran L run_pv lc opt price wb "Fixed order control" out d /\ ran L run_pv lc opt price wb "Fixed order control" out d'.
Lemma totals_less P l l' f : Forall2 (easier_heat P) l l' -> (forall rc rc', easier_heat P rc rc' -> f (rf rc') <= f (rf rc))%Q -> (total f l' <= total f l)%Q.
Proof. intros F Hf. induction F as [|rc rc' l l' E F IH]; [apply Qle_refl|]. rewrite !total_cons. pose proof (Hf _ _ E). lra. Qed.
Lemma totals_more P l l' f : Forall2 (easier_heat P) l l' -> (forall rc rc', easier_heat P rc rc' -> f (rf rc) <= f (rf rc'))%Q -> (total f l <= total f l')%Q.
Proof. intros F Hf. induction F as [|rc rc' l l' E F IH]; [apply Qle_refl|]. rewrite !total_cons. pose proof (Hf _ _ E). lra. Qed.

(** ** C124.  The full statement: down the tables, a combination with a bigger heat pump and the same heat store shows no less heat from the heat pump, no more from the back-up, no more electricity bought, and the
    capital cost of the difference in size.  It holds without a heat store for a heat pump of constant COP without a minimum output, in orders that use surplus for heat first; the electricity bought for an electric
    back-up that both orders use, without a battery.  C107 refutes it for the conditions left out. *)
Theorem C124_back_up_heat_partial : forall L run_pv lc opt price wb h h' K K', two_rows L run_pv lc opt price wb h h' K K' ->
  exists x x', entry price K "sum_aux_output" = Ok (Fin x) /\ entry price K' "sum_aux_output" = Ok (Fin x') /\ (x' <= x)%Q.
Proof.
  intros L run_pv lc opt price wb h h' K K' (LT & PP & SC & out & d & d' & E & E' & C & C' & SE & SE' & R & R').
  destruct (rows _ _ _ _ _ _ _ _ _ _ _ _ _ R R' E E' LT SE SE' PP SC C C') as (P & year & year' & s & n & P' & RO & RO' & F & _).
  change (entry price K "sum_aux_output") with (fin (sum_aux_output K)). change (entry price K' "sum_aux_output") with (fin (sum_aux_output K')). unfold sum_aux_output.
  rewrite (sum_of_ok K (run_complete _ _ _ _ _ RO)), (sum_of_ok K' (run_complete _ _ _ _ _ RO')). eexists. eexists. split; [reflexivity|]. split; [reflexivity|].
  apply (totals_less P _ _ _ F). intros rc rc' ((_ & A & _) & _). exact A.
Qed.
Print Assumptions C124_back_up_heat_partial.
Theorem C124_heat_pump_heat_partial : forall L run_pv lc opt price wb h h' K K', two_rows L run_pv lc opt price wb h h' K K' ->
  exists x x', entry price K "sum_hp_output" = Ok (Fin x) /\ entry price K' "sum_hp_output" = Ok (Fin x') /\ (x <= x')%Q.
Proof.
  intros L run_pv lc opt price wb h h' K K' (LT & PP & SC & out & d & d' & E & E' & C & C' & SE & SE' & R & R').
  destruct (rows _ _ _ _ _ _ _ _ _ _ _ _ _ R R' E E' LT SE SE' PP SC C C') as (P & year & year' & s & n & P' & RO & RO' & F & _).
  change (entry price K "sum_hp_output") with (fin (sum_hp_output K)). change (entry price K' "sum_hp_output") with (fin (sum_hp_output K')). unfold sum_hp_output.
  rewrite (sum_of_ok K (run_complete _ _ _ _ _ RO)), (sum_of_ok K' (run_complete _ _ _ _ _ RO')). eexists. eexists. split; [reflexivity|]. split; [reflexivity|].
  apply (totals_more P _ _ _ F). intros rc rc' ((A & _) & _). exact A.
Qed.
Print Assumptions C124_heat_pump_heat_partial.
Theorem C124_purchases_partial : forall L run_pv lc opt price wb h h' K K', two_rows L run_pv lc opt price wb h h' K K' -> backup_listed wb -> electric_backup wb -> no_battery wb ->
  exists x x', entry price K "sum_import" = Ok (Fin x) /\ entry price K' "sum_import" = Ok (Fin x') /\ (x' <= x)%Q.
Proof.
  intros L run_pv lc opt price wb h h' K K' (LT & PP & SC & out & d & d' & E & E' & C & C' & SE & SE' & R & R') BL EB NB.
  destruct (rows _ _ _ _ _ _ _ _ _ _ _ _ _ R R' E E' LT SE SE' PP SC C C') as (P & year & year' & s & n & P' & RO & RO' & F & _ & _ & G1 & G2 & G3).
  change (entry price K "sum_import") with (fin (sum_import K)). change (entry price K' "sum_import") with (fin (sum_import K')). unfold sum_import.
  rewrite (sum_of_ok K (run_complete _ _ _ _ _ RO)), (sum_of_ok K' (run_complete _ _ _ _ _ RO')). eexists. eexists. split; [reflexivity|]. split; [reflexivity|].
  apply (totals_less P _ _ _ F). intros rc rc' (_ & _ & A). exact (A (G1 BL) (G2 EB) (G3 NB)).
Qed.
Print Assumptions C124_purchases_partial.
(** The capital cost is higher by 600 pounds for each kW of difference, in thousand pounds. *)
Theorem C124_capital_cost_partial : forall L run_pv lc opt price wb h h' K K', two_rows L run_pv lc opt price wb h h' K K' ->
  exists x x', entry price K "capital_cost" = Ok (Fin x) /\ entry price K' "capital_cost" = Ok (Fin x') /\ (x' - x == inject_Z (h' - h) * 600 / 1000)%Q.
Proof.
  intros L run_pv lc opt price wb h h' K K' (LT & PP & SC & out & d & d' & E & E' & C & C' & SE & SE' & R & R').
  destruct (rows _ _ _ _ _ _ _ _ _ _ _ _ _ R R' E E' LT SE SE' PP SC C C') as (P & year & year' & s & n & P' & _ & _ & _ & N & N' & _).
  assert (H0 : (0 <= h)%Z) by (destruct SE as (_ & _ & _ & _ & _ & _ & _ & X & _); rewrite E in X; cbn [fst] in X; exact X).
  change (entry price K "capital_cost") with (fin (capital_cost price K)). change (entry price K' "capital_cost") with (fin (capital_cost price K')). unfold capital_cost. rewrite N, N'.
  destruct (P_Sweep.C34_sizes_read_back h 0 H0 ltac:(lia)) as (_ & A1 & A2). destruct (P_Sweep.C34_sizes_read_back h' 0 ltac:(lia) ltac:(lia)) as (_ & B1 & B2). rewrite A1, A2, B1, B2. cbn [bind fin].
  eexists. eexists. split; [reflexivity|]. split; [reflexivity|]. unfold Zminus. rewrite inject_Z_plus, inject_Z_opp. change (inject_Z 0) with 0%Q. field.
Qed.
Print Assumptions C124_capital_cost_partial.

(** ** Case: heat pumps of 10, 20 and 30 kW that can run at any part of their output, no battery, an electric back-up *)
Definition pumps : workbook := fun name =>
  if String.eqb name "Controller" then Some (sheet_by 7 8 (fun r c =>
    if Nat.eqb c 3 && Nat.eqb r 3 then txt "Fixed order control" else if Nat.eqb c 3 && Nat.eqb r 6 then txt "1,4,5,3,8,9,13" else if Nat.eqb c 3 && Nat.eqb r 7 then txt "1,4,5,2,6,9,15"
    else if Nat.eqb c 6 && Nat.eqb r 3 then P_Excel.num 100 else if Nat.eqb c 6 && Nat.eqb r 4 then P_Excel.num 24 else number_at r c))
  else if String.eqb name "Heat pump" then Some (sheet_by 19 47 (at_cells [(3, 3, "ASHP"%string); (4, 3, "SIMPLE"%string); (9, 3, "PEAK PERFORMANCE"%string); (5, 13, "Domestic"%string); (6, 13, "Fixed"%string)]
    (fun r c => if Nat.eqb c 3 && Nat.eqb r 6 then P_Excel.num 0 else if Nat.eqb c 3 && Nat.eqb r 10 then P_Excel.num 3 else number_at r c)))
  else if String.eqb name "Aux heat" then Some (sheet_by 5 10 (fun r c =>
    if Nat.eqb c 2 then (if Nat.eqb r 7 then txt "Gas" else if Nat.eqb r 8 then txt "Wood chips" else txt "Electric") else number_at r c))
  else batteried 0 100 24 (10, 30, 10)%Z name.
Lemma pumps_elsewhere N : N <> "Controller" -> N <> "Heat pump" -> N <> "Aux heat" -> pumps N = batteried 0 100 24 (10, 30, 10)%Z N.
Proof. intros E F G. unfold pumps. apply String.eqb_neq in E, F, G. rewrite E, F, G. reflexivity. Qed.
Lemma pumps_plain : plain pumps.
Proof. intros name sh H. unfold pumps in H. destruct (String.eqb name "Controller"); [injection H as <-; apply sheet_by_plain|]. destruct (String.eqb name "Heat pump"); [injection H as <-; apply sheet_by_plain|]. destruct (String.eqb name "Aux heat"); [injection H as <-; apply sheet_by_plain|]. exact (batteried_plain _ _ _ _ name sh H). Qed.
Lemma pumps_big : big_enough pumps.
Proof.
  unfold big_enough. repeat match goal with |- _ /\ _ => split end;
    (eapply reaches_by; [reflexivity|vm_compute; reflexivity|first [apply Nat.leb_le; lia|vm_compute; reflexivity]]).
Qed.
Ltac elsewhere1 := unfold weather_filled, demand_filled, PV_filled_in, wind_filled, battery_filled, backup_filled, tank_filled, heat_pump_filled, tariff_filled, readable, covers_the_year, evaluable, priced, ordered, swept, without_store,
  periods_filled, market_filled, rows_of, wordless, worded, numeric, chooses, counts, holds, says, first_complete, complete, test_result, tested_at, xl, last_row, width; cbv zeta;
  repeat match goal with |- context [pumps ?N] => rewrite (pumps_elsewhere N) by discriminate end.
Ltac carry_on H := let K := fresh in pose proof H as K; revert K; elsewhere1; intro K; exact K.
Lemma pumps_heat_pump tr : heat_pump_filled pumps tr.
Proof.
  split; [exists ASHP; choose_it|]. split; [exists PEAK; choose_it|].
  split; [intros r I; cbn in I; repeat (destruct I as [<-|I]; [cell|]); contradiction|]. split; [|exists SIMPLE; split; [choose_it|cell]].
  intros x r I J (w & t & T & _). erewrite xl_by in T; [|reflexivity|cbn in I; repeat (destruct I as [<-|I]; [vm_compute; lia|]); contradiction|lia].
  unfold at_cells in T. destruct (find _ _) as [y|] eqn:F; [|destruct (_ && _) in T; [discriminate|]; destruct (_ && _) in T; discriminate]. apply find_some in F as [Ix F]. apply andb_prop in F as [F _]. apply Nat.eqb_eq in F.
  cbn in Ix. repeat (destruct Ix as [<-|Ix]; [cbn in F; lia|]). contradiction.
Qed.
Lemma pumps_electric : electric_backup pumps.
Proof. unfold electric_backup. choose_it. Qed.
Lemma pumps_backup : backup_filled pumps.
Proof. split; [cell|]. split; [|left; exact pumps_electric]. intros r I. cbn in I. repeat (destruct I as [<-|I]; [split; cell|]). contradiction. Qed.
Lemma pumps_filled : filled_in calm pumps.
Proof.
  destruct (batteried_filled 0 100 24 (10, 30, 10)%Z) as (_ & _ & _ & A & B & C & D & E & F & G & H & I & J).
  unfold filled_in. split; [exact pumps_plain|]. split; [exact pumps_big|].
  split; [unfold readable, readable_fuel; repeat match goal with |- _ /\ _ => split end; (eexists; vm_compute; reflexivity)|].
  split; [carry_on A|]. split; [carry_on B|]. split; [carry_on C|]. split; [exact D|]. split; [carry_on E|]. split; [carry_on F|]. split; [apply pumps_backup|]. split; [carry_on H|]. split; [apply pumps_heat_pump|carry_on J].
Qed.
Lemma batteried_runnable : runnable (batteried 0 100 24 (10, 30, 10)%Z).
Proof.
  destruct (scenario_runnable "Fixed order control" 100 24 (10, 30, 10)%Z (0, 0, 1)%Z) as (R1 & R2 & _ & R4 & _ & R6).
  split; [carry_over R1|]. split; [carry_over R2|]. split; [eexists; reflexivity|]. split; [carry_over R4|]. split; [left; apply batteried_flat|carry_over R6].
Qed.
Lemma batteried_swept : swept (batteried 0 100 24 (10, 30, 10)%Z).
Proof. assert (X : (10 = 30 \/ 10 < 30 /\ 0 < 10)%Z) by lia. carry_over (scenario_swept "Fixed order control" 100 24 10 30 10 0 0 1 X (or_introl eq_refl)). Qed.
Lemma batteried_without : without_store (batteried 0 100 24 (10, 30, 10)%Z).
Proof. carry_over (scenario_without "Fixed order control" 100 24 (10, 30, 10)%Z 1). Qed.
Lemma pumps_runs opt price : exists out, program calm sun (fun _ _ _ _ _ => 3%Q) opt price pumps = Ok out.
Proof.
  destruct (batteried_runnable) as (R1 & R2 & R3 & _ & R5 & _).
  apply C98_completes_without_store; [apply pumps_filled| | |carry_on batteried_swept|carry_on batteried_without|apply calm_answers].
  - split; [carry_on R1|]. split; [carry_on R2|]. split; [carry_on R3|]. split; [left; choose_it|]. split; [carry_on R5|]. intros e E. vm_compute in E. injection E as <-. discriminate.
  - split; [exists (list_ascii_of_string "Fixed order control"); split; reflexivity|]. split; [cell|]. split; [exists 100%Z, 24%Z; split; [eexists; split; reflexivity|]; split; [eexists; split; reflexivity|]; lia|].
    split; intros l E; vm_compute in E; injection E as <-; eexists; reflexivity.
Qed.
Lemma pumps_sizes opt price out : program calm sun (fun _ _ _ _ _ => 3%Q) opt price pumps = Ok out -> map d_sizes (r_done out) = [(10, 0); (20, 0); (30, 0)]%Z.
Proof.
  intro H. destruct (C97_combinations _ _ _ _ _ _ _ pumps_plain H) as (p & A1 & A2 & A3 & A4 & A5 & A6 & C & _). cbv zeta in *.
  assert (E : forall N cc r v z, xl pumps N cc r = P_Excel.num v -> counts pumps N cc r z -> z = v).
  { intros N cc r v z Ev Ez. refine (counts_one _ _ _ _ _ _ Ez _). exists (inject_Z v). split; [exact Ev|reflexivity]. }
  apply (E "Parametric" "E"%char 6%nat 10%Z _ eq_refl) in A1. apply (E "Parametric" "D"%char 6%nat 30%Z _ eq_refl) in A2. apply (E "Parametric" "F"%char 6%nat 10%Z _ eq_refl) in A3.
  apply (E "Parametric" "E"%char 7%nat 0%Z _ eq_refl) in A4. apply (E "Parametric" "D"%char 7%nat 0%Z _ eq_refl) in A5. apply (E "Parametric" "F"%char 7%nat 1%Z _ eq_refl) in A6.
  destruct p. cbn in *. subst. vm_compute in C. injection C as C. symmetry. exact C.
Qed.
Lemma pumps_orders : surplus_first_cells pumps /\ backup_listed pumps /\ orders_sensible pumps.
Proof.
  split; [|split].
  - split; intros l ps E M; vm_compute in E; injection E as <-; vm_compute in M; injection M as <-; (split; [intro X; cbn in X; repeat (destruct X as [X|X]; [discriminate X|]); contradiction|]);
      intros p I; cbn in I; destruct I as [<-|[<-|[]]]; split; intros l1 l2 X; refine (proj1 (nab_spec _ _ _ false _ l1 l2 X)); reflexivity.
  - split; intros l ps E M; vm_compute in E; injection E as <-; vm_compute in M; injection M as <-; cbn; tauto.
  - split; intros l ps E M; vm_compute in E; injection E as <-; vm_compute in M; injection M as <-; apply order_okb_spec; reflexivity.
Qed.
Lemma pumps_pump : plain_heat_pump pumps.
Proof. split; [choose_it|]. split; intros r x <- E; vm_compute in E; injection E as <-; [discriminate|reflexivity]. Qed.
Ltac carry_cells H := let K := fresh in pose proof H as K; revert K; unfold battery_sensible, turbines_sensible, demand_sensible, all_in; elsewhere1; intro K; exact K.
Lemma pumps_sensible h : (0 <= h)%Z -> sensible calm (fun _ _ _ _ _ => 3%Q) pumps (h, 0%Z).
Proof.
  intro H0. destruct (batteried_sensible 0 100 24 (10, 30, 10)%Z (h, 0%Z) ltac:(discriminate) H0 eq_refl) as (A & B & _ & D & E & _ & _ & _ & _).
  unfold sensible. split; [exact A|]. split; [carry_cells B|]. split; [|split; [carry_cells D|split; [carry_cells E|split; [|split; [exact (proj2 (proj2 pumps_orders))|split; [exact H0|left; reflexivity]]]]]].
  - split; [intros r x <- X; vm_compute in X; injection X as <-; reflexivity|]. intros r I. cbn in I. split; intros r' x <- X; repeat (destruct I as [<-|I]; [vm_compute in X; injection X as <-; discriminate|]); contradiction.
  - split; [intros r x <- X; vm_compute in X; injection X as <-; discriminate|]. split; [intros r x <- X; vm_compute in X; injection X as <-; discriminate|].
    left. split; [choose_it|]. intros r x <- X. vm_compute in X. injection X as <-. reflexivity.
Qed.
Example C124_case : forall opt price, exists K K', two_rows calm sun (fun _ _ _ _ _ => 3%Q) opt price pumps 10 30 K K' /\ backup_listed pumps /\ electric_backup pumps /\ no_battery pumps.
Proof.
  intros opt price. destruct (pumps_runs opt price) as (out & H). pose proof (pumps_sizes _ _ _ H) as M.
  destruct (has_size (r_done out) (10, 0)%Z) as (d & I & Ed); [rewrite M; left; reflexivity|]. destruct (has_size (r_done out) (30, 0)%Z) as (d' & I' & Ed'); [rewrite M; right; right; left; reflexivity|].
  assert (SA : says pumps "Controller" "D" 5 "Fixed order control") by (exists (list_ascii_of_string "Fixed order control"); split; reflexivity).
  assert (R : ran calm sun (fun _ _ _ _ _ => 3%Q) opt price pumps "Fixed order control" out d) by (split; [exact pumps_plain|split; [exact pumps_big|split; [exact SA|split; assumption]]]).
  assert (R' : ran calm sun (fun _ _ _ _ _ => 3%Q) opt price pumps "Fixed order control" out d') by (split; [exact pumps_plain|split; [exact pumps_big|split; [exact SA|split; assumption]]]).
  assert (IN : incentive pumps {| M_Kpi.rhi_type := "Domestic"; M_Kpi.rhi_tariff := "Fixed"; M_Kpi.rhi_fixed := 713; M_Kpi.rhi_tier_1 := 813; M_Kpi.rhi_tier_2 := 913 |}%Q).
  { unfold incentive. cbv zeta. cbn [M_Kpi.rhi_type M_Kpi.rhi_tariff M_Kpi.rhi_fixed M_Kpi.rhi_tier_1 M_Kpi.rhi_tier_2].
    split; [eexists; split; reflexivity|]. split; [eexists; split; reflexivity|]. split; [reflexivity|]. split; reflexivity. }
  destruct (calcs_ok _ _ _ _ _ _ _ _ _ R IN) as (K & EK). destruct (calcs_ok _ _ _ _ _ _ _ _ _ R' IN) as (K' & EK'). exists K, K'.
  split; [|split; [exact (proj1 (proj2 pumps_orders))|split; [exact pumps_electric|]]].
  - split; [lia|]. split; [exact pumps_pump|]. split; [exact (proj1 pumps_orders)|]. exists out, d, d'. rewrite Ed, Ed'. split; [reflexivity|]. split; [reflexivity|]. split; [exact EK|]. split; [exact EK'|].
    split; [apply pumps_sensible; lia|]. split; [apply pumps_sensible; lia|]. split; assumption.
  - apply (by_cells _ _ 9 5 (battery_at 0)); [reflexivity|vm_compute; lia|]. intros r1 y _ _ E. unfold battery_at in E. destruct (Nat.eqb (r1 - 2) 4); [|discriminate]. cbn in E. injection E as <-. reflexivity.
Qed.
