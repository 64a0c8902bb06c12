(** A workbook that is run from end to end: cases for C94 to C98. *)
From Coq Require Import String Ascii.
From Verif Require Import Base BaseL M_Battery M_HeatPump S_HeatPump L_HeatPump L_Renewables M_FixedOrder S_FixedOrder L_FixedOrderRun P_FixedOrder
  M_Excel S_Excel L_Excel L_ExcelSheets P_Excel M_Init S_Init L_Init P_Init P_InitReady M_Program S_Program L_Program L_ProgramRuns L_ProgramOk P_Program P_ProgramOk.
From Verif Require M_Tank M_Grid M_Renewables S_Renewables M_Mpc L_MpcRun P_Mpc M_Sweep P_Sweep M_Kpi M_Plots.
Local Open Scope nat_scope.
Local Open Scope list_scope.

(** The workbook [ready] with the controller, the first hour and the number of hours, and the sizes to be tried *)
Definition scenario (controller : string) (first hours : Z) (hp ts : Z * Z * Z) : workbook := fun name =>
  if String.eqb name "Controller" then Some (sheet_by 7 8 (fun r c =>
    if Nat.eqb c 3 && Nat.eqb r 3 then txt controller else if Nat.eqb c 3 && Nat.eqb r 6 then txt "3,1" else if Nat.eqb c 3 && Nat.eqb r 7 then txt "1, 3,2"
    else if Nat.eqb c 6 && Nat.eqb r 3 then num first else if Nat.eqb c 6 && Nat.eqb r 4 then num hours else if Nat.eqb c 6 && Nat.eqb r 7 then num 24 else number_at r c))
  else if String.eqb name "Parametric" then Some (sheet_by 6 6 (fun r c =>
    let '(lo, hi, step) := if Nat.eqb r 4 then hp else ts in
    if Nat.eqb c 4 then num lo else if Nat.eqb c 3 then num hi else if Nat.eqb c 5 then num step else None))
  else if String.eqb name "Heat pump" then Some (sheet_by 19 47 (at_cells [(3, 3, "ASHP"%string); (4, 3, "SIMPLE"%string); (9, 3, "PEAK PERFORMANCE"%string); (5, 13, "Domestic"%string); (6, 13, "Fixed"%string)] number_at))
  else ready "ASHP" "SIMPLE" "PEAK PERFORMANCE" "Flat rates" name.
Definition calm : libraries := {| lib_module := unit; lib_inverter := unit; lib_cec := lib_cec small_libraries;
  lib_sandia := fun _ => None; lib_inverters := fun _ => Some tt; lib_wind := fun _ _ => Ok (repeat (Some 1) (Z.to_nat 8760)); lib_fit := lib_fit small_libraries;
  lib_width := fun c => c; lib_pi := 3; lib_cp := fun _ => Some 4200 |}%Q.
Definition sun : M_Renewables.pvlib_model unit unit := fun _ _ _ _ _ _ _ => Ok (repeat (Some 2%Q) (Z.to_nat 8760)).
Lemma scenario_plain c s n hp ts : plain (scenario c s n hp ts).
Proof.
  intros name sh H. unfold scenario in H. destruct (String.eqb name "Controller"); [injection H as <-; apply sheet_by_plain|].
  destruct (String.eqb name "Parametric"); [injection H as <-; apply sheet_by_plain|].
  destruct (String.eqb name "Heat pump"); [injection H as <-; apply sheet_by_plain|]. exact (ready_plain _ _ _ _ name sh H).
Qed.
Lemma scenario_big c s n hp ts : big_enough (scenario c s n hp ts).
Proof.
  unfold big_enough. repeat match goal with |- _ /\ _ => split end;
    (eapply reaches_by; [reflexivity|vm_compute; reflexivity|first [apply Nat.leb_le; lia|vm_compute; reflexivity]]).
Qed.
Ltac as_ready := match goal with |- context [scenario ?c ?s ?n ?hp ?ts ?N] => change (scenario c s n hp ts N) with (ready "ASHP" "SIMPLE" "PEAK PERFORMANCE" "Flat rates" N) end.
Ltac open H := unfold weather_filled, demand_filled, PV_filled_in, wind_filled, battery_filled, backup_filled, tank_filled, heat_pump_filled, tariff_filled,
  periods_filled, market_filled, rows_of, wordless, worded, numeric, chooses, counts, holds, says, first_complete, complete, test_result, tested_at, xl, last_row, width in H; cbv zeta in H.
Ltac carry H := open H; unfold weather_filled, demand_filled, PV_filled_in, wind_filled, battery_filled, backup_filled, tank_filled, heat_pump_filled, tariff_filled,
  periods_filled, market_filled, rows_of, wordless, worded, numeric, chooses, counts, holds, says, first_complete, complete, test_result, tested_at, xl, last_row, width; cbv zeta; as_ready; exact H.
Lemma scenario_readable c s n hp ts : readable (scenario c s n hp ts).
Proof.
  destruct (ready_readable "ASHP" "SIMPLE" "PEAK PERFORMANCE" "Flat rates") as (_ & _ & A & B & C & D). unfold readable.
  split; [exists [1; 3; 2]%Z; vm_compute; reflexivity|]. split; [exists [3; 1]%Z; vm_compute; reflexivity|].
  unfold xl in *. as_ready. split; [exact A|]. split; [exact B|]. split; [exact C|exact D].
Qed.
Lemma scenario_heat_pump c s n hp ts tr : heat_pump_filled (scenario c s n hp ts) tr.
Proof.
  split; [exists ASHP; choose_it|]. split; [exists PEAK; choose_it|].
  split; [intros r I; cbn in I; repeat (destruct I as [<-|I]; [cell|]); contradiction|]. split; [|exists SIMPLE; split; [choose_it|cell]].
  intros x r I J (w & t & T & _). erewrite xl_by in T; [|reflexivity|cbn in I; repeat (destruct I as [<-|I]; [vm_compute; lia|]); contradiction|lia].
  unfold at_cells in T. destruct (find _ _) as [y|] eqn:F; [|discriminate]. apply find_some in F as [Ix F]. apply andb_prop in F as [F _]. apply Nat.eqb_eq in F.
  cbn in Ix. repeat (destruct Ix as [<-|Ix]; [cbn in F; lia|]). contradiction.
Qed.
Lemma scenario_filled c s n hp ts : filled_in calm (scenario c s n hp ts).
Proof.
  destruct (ready_filled ASHP SIMPLE PEAK "Flat rates" ltac:(discriminate) ltac:(left; reflexivity)) as (_ & _ & _ & A & B & C & D & E & F & G & H & I & J).
  cbn [hp_kind_value model_name_value data_input_value] in *.
  unfold filled_in. split; [apply scenario_plain|]. split; [apply scenario_big|]. split; [apply scenario_readable|].
  split; [carry A|]. split; [carry B|]. split; [carry C|]. split; [exact D|]. split; [carry E|]. split; [carry F|]. split; [carry G|]. split; [carry H|]. split; [apply scenario_heat_pump|carry J].
Qed.
Lemma calm_answers : answers calm sun.
Proof.
  assert (LN : forall (A : Type) (x : A), length (repeat x (Z.to_nat 8760)) = S_Renewables.hours_in_year) by (intros; rewrite repeat_length; reflexivity).
  unfold answers. split; [intros m f p X; apply Ok_inj in X; subst p; apply LN|]. split.
  { intros m f p X I. apply Ok_inj in X. subst p. apply repeat_spec in I. discriminate. }
  split; [intros m f; eexists; reflexivity|]. split; [intros lat lon ti az m v f ac X; apply Ok_inj in X; subst ac; apply LN|].
  intros. eexists. reflexivity.
Qed.
Lemma scenario_covers c s n hp ts : covers_the_year (scenario c s n hp ts).
Proof.
  assert (E : scenario c s n hp ts "Demand input"%string = Some (sheet_by 9 (Z.to_nat 8764) number_at)) by reflexivity.
  unfold covers_the_year. cbv zeta. rewrite (last_by _ _ _ _ _ E). split; [lia|]. intros r H. unfold rows_of in H. rewrite (last_by _ _ _ _ _ E) in H.
  split; [|split; [|split]]; (eapply numeric_by; [exact E|vm_compute; lia|lia]).
Qed.
Lemma scenario_runnable c s n hp ts : runnable (scenario c s n hp ts).
Proof.
  split; [apply scenario_covers|]. split; [eapply numeric_by; [reflexivity|vm_compute; lia|lia]|].
  split; [eexists; unfold holds, xl; as_ready; vm_compute; reflexivity|]. split.
  { left. choose_it. }
  split; [left; unfold says, xl; as_ready; eexists; split; vm_compute; reflexivity|].
  intros e H. unfold holds, xl in H. change (scenario c s n hp ts "Aux heat"%string) with (ready "ASHP" "SIMPLE" "PEAK PERFORMANCE" "Flat rates" "Aux heat"%string) in H.
  vm_compute in H. injection H as <-. discriminate.
Qed.
Lemma scenario_hours c s n hp ts : counts (scenario c s n hp ts) "Controller" "G" 5 s /\ counts (scenario c s n hp ts) "Controller" "G" 6 n.
Proof. split; (eexists; split; [reflexivity|reflexivity]). Qed.
Lemma scenario_says c s n hp ts : says (scenario c s n hp ts) "Controller" "D" 5 c.
Proof. exists (list_ascii_of_string c). split; [reflexivity|]. symmetry. apply string_of_list_ascii_of_string. Qed.
Lemma scenario_ordered s n hp ts : (0 <= s)%Z -> (0 < n)%Z -> (s + n <= 8760)%Z -> ordered (scenario "Fixed order control" s n hp ts).
Proof.
  intros A B C. split; [apply scenario_says|]. split; [eexists; reflexivity|]. split; [exists s, n; destruct (scenario_hours "Fixed order control" s n hp ts); tauto|].
  split; intros l H; vm_compute in H; injection H as <-; eexists; reflexivity.
Qed.
Lemma scenario_swept c s n a b x d e f : (a = b \/ a < b /\ 0 < x)%Z -> (d = e \/ d < e /\ 0 < f /\ 0 <= x)%Z -> swept (scenario c s n (a, b, x) (d, e, f)).
Proof.
  intros A B. exists a, b, x, d, e, f. do 6 (split; [eexists; split; [reflexivity|reflexivity]|]). split; assumption.
Qed.
Lemma scenario_incentive c s n hp ts : exists r, incentive (scenario c s n hp ts) r /\ incentive_known r.
Proof.
  exists {| M_Kpi.rhi_type := "Domestic"; M_Kpi.rhi_tariff := "Fixed"; M_Kpi.rhi_fixed := 713; M_Kpi.rhi_tier_1 := 813; M_Kpi.rhi_tier_2 := 913 |}%Q.
  split; [|split; left; reflexivity]. unfold incentive. cbv zeta. cbn [M_Kpi.rhi_type M_Kpi.rhi_tariff M_Kpi.rhi_fixed M_Kpi.rhi_tier_1 M_Kpi.rhi_tier_2].
  split; [eexists; split; reflexivity|]. split; [eexists; split; reflexivity|]. split; [reflexivity|]. split; reflexivity.
Qed.
Lemma scenario_predicted s n hp ts : (0 <= s)%Z -> (2 <= n)%Z -> (s + n < 8711)%Z -> predicted (scenario "Model predictive control" s n hp ts).
Proof.
  intros A B C. split; [apply scenario_says|]. destruct (scenario_hours "Model predictive control" s n hp ts) as (X & Y).
  exists s, n, 24%Z. split; [exact X|]. split; [exact Y|]. split; [eexists; split; reflexivity|]. lia.
Qed.
Lemma scenario_without c s n hp x : without_store (scenario c s n hp (0, 0, x)%Z).
Proof. split; (eexists; split; [reflexivity|reflexivity]). Qed.
Lemma scenario_runs opt price s n a b x : (0 <= s)%Z -> (0 < n)%Z -> (s + n <= 8760)%Z -> (a = b \/ a < b /\ 0 < x)%Z ->
  exists out, program calm sun (fun _ _ _ _ _ => 3%Q) opt price (scenario "Fixed order control" s n (a, b, x) (0, 0, 1)%Z) = Ok out.
Proof.
  intros A B C D. apply C98_completes_without_store; [apply scenario_filled|apply scenario_runnable|apply scenario_ordered; assumption|
    apply scenario_swept; [exact D|left; reflexivity]|apply scenario_without|apply calm_answers].
Qed.
Lemma scenario_sizes L run_pv lc opt price c s n a b x d e f out : program L run_pv lc opt price (scenario c s n (a, b, x) (d, e, f)) = Ok out ->
  M_Sweep.combos {| M_Sweep.hp_min := a; M_Sweep.hp_max := b; M_Sweep.hp_step := x; M_Sweep.ts_min := d; M_Sweep.ts_max := e; M_Sweep.ts_step := f |} = Ok (map d_sizes (r_done out)).
Proof.
  intro H. destruct (C97_combinations _ _ _ _ _ _ _ (scenario_plain _ _ _ _ _) H) as (p & A1 & A2 & A3 & A4 & A5 & A6 & C & _). cbv zeta in *.
  assert (E : forall N cc r v z, xl (scenario c s n (a, b, x) (d, e, f)) N cc r = num v -> counts (scenario c s n (a, b, x) (d, e, f)) N cc r z -> z = v).
  { intros N cc r v z Ev Ez. refine (counts_one _ _ _ _ _ _ Ez _). exists (inject_Z v). split; [exact Ev|reflexivity]. }
  apply (E "Parametric"%string "E"%char 6%nat a _ eq_refl) in A1. apply (E "Parametric"%string "D"%char 6%nat b _ eq_refl) in A2. apply (E "Parametric"%string "F"%char 6%nat x _ eq_refl) in A3. apply (E "Parametric"%string "E"%char 7%nat d _ eq_refl) in A4. apply (E "Parametric"%string "D"%char 7%nat e _ eq_refl) in A5. apply (E "Parametric"%string "F"%char 7%nat f _ eq_refl) in A6.
  destruct p. cbn in *. subst. exact C.
Qed.
Lemma has_size (l : list done) c : In c (map d_sizes l) -> exists d, In d l /\ d_sizes d = c.
Proof. intro I. apply in_map_iff in I as (d & E & I). exists d. split; assumption. Qed.

(** Three heat pumps and no store, 24 hours from hour 100 *)
Definition three_pumps (hours : Z) : workbook := scenario "Fixed order control" 100 hours (10, 30, 10)%Z (0, 0, 1)%Z.
Lemma three_pumps_run opt price hours : (0 < hours <= 8660)%Z -> exists out, program calm sun (fun _ _ _ _ _ => 3%Q) opt price (three_pumps hours) = Ok out /\
  map d_sizes (r_done out) = [(10, 0); (20, 0); (30, 0)]%Z /\
  forall d, In d (r_done out) -> ran calm sun (fun _ _ _ _ _ => 3%Q) opt price (three_pumps hours) "Fixed order control" out d /\ Z.of_nat (length (d_records d)) = hours.
Proof.
  intro H. destruct (scenario_runs opt price 100 hours 10 30 10) as [out E]; try lia. exists out. split; [exact E|].
  split; [pose proof (scenario_sizes _ _ _ _ _ _ _ _ _ _ _ _ _ _ _ E) as C; vm_compute in C; injection C as C; symmetry; exact C|].
  intros d I. assert (R : ran calm sun (fun _ _ _ _ _ => 3%Q) opt price (three_pumps hours) "Fixed order control" out d).
  { split; [apply scenario_plain|]. split; [apply scenario_big|]. split; [apply scenario_says|]. split; assumption. }
  split; [exact R|]. destruct (C95_hours_needed _ _ _ _ _ _ _ _ R) as (_ & s & n & _ & N & _ & _ & _ & LN). rewrite LN. refine (counts_one _ _ _ _ _ _ N _). apply scenario_hours.
Qed.
(** C94, C95: the record of hour 105 shows row 111 of the demand sheet, and all hypotheses are met. *)
Example C94_case : forall opt price, exists out d rc, ran calm sun (fun _ _ _ _ _ => 3%Q) opt price (three_pumps 24) "Fixed order control" out d /\ d_sizes d = (20, 0)%Z /\
  nth_error (d_records d) 5 = Some rc /\ (rf rc ED_elec_demand == 11104 /\ rf rc HD_heat_demand == 11103 /\ rf rc GRID_import_price == 902)%Q /\
  (rf rc ED_RES + rf rc ED_ES + rf rc ED_import == 11104)%Q /\
  sensible_order above_key (xl (three_pumps 24) "Controller" "D" 8) /\ sensible_order below_key (xl (three_pumps 24) "Controller" "D" 9).
Proof.
  intros opt price. destruct (three_pumps_run opt price 24 ltac:(lia)) as (out & _ & C & A).
  destruct (has_size (r_done out) (20, 0)%Z) as (d & I & E); [rewrite C; right; left; reflexivity|]. destruct (A d I) as (R & LN). exists out, d.
  destruct (nth_error (d_records d) 5) as [rc|] eqn:ER; [|apply nth_error_None in ER; lia]. exists rc. split; [exact R|]. split; [exact E|]. split; [reflexivity|].
  assert (T : forall t, hour_number (three_pumps 24) 5 t -> t = 105%Z).
  { intros t (s & CS & -> & _). pose proof (counts_one _ _ _ _ _ _ CS (proj1 (scenario_hours _ _ _ _ _))). lia. }
  assert (SO : sensible_order above_key (xl (three_pumps 24) "Controller" "D" 8) /\ sensible_order below_key (xl (three_pumps 24) "Controller" "D" 9)).
  { split; intros l ps OL ML; vm_compute in OL; injection OL as <-; cbn in ML; injection ML as <-.
    - split; [repeat constructor; cbn; intuition discriminate|]. split; [left; reflexivity|]. intros l1 l2 X. destruct l1 as [|? [|? [|]]]; discriminate X.
    - split; [repeat constructor; cbn; intuition discriminate|]. split; [right; right; left; reflexivity|]. intros l1 l2 X. destruct l1 as [|? [|? [|? [|]]]]; try discriminate X. injection X as <- _. cbn. intuition discriminate. }
  destruct SO as (SA & SB). destruct (C94_own_row _ _ _ _ _ _ _ _ _ _ R ER) as (t & HT & (e & E1 & E2) & (h & H1 & H2)). pose proof (T t HT). subst t.
  destruct (C94_price _ _ _ _ _ _ _ _ _ _ R ER) as (PF & _). cbv zeta in PF.
  assert (DE : scenario "Fixed order control" 100 24 (10, 30, 10)%Z (0, 0, 1)%Z "Demand input"%string = Some (sheet_by 9 (Z.to_nat 8764) number_at)) by reflexivity.
  destruct (C94_demand_met _ _ _ _ _ _ _ _ _ _ R ER SA SB) as (t' & e' & HT' & E' & EQ). pose proof (T t' HT'). subst t'.
  assert (VE : forall q, holds (three_pumps 24) "Demand input" "E" (6 + Z.to_nat 105) q -> q = 11104%Q).
  { intros q Q. unfold holds, three_pumps in Q. rewrite (xl_by _ _ _ _ _ "E"%char (6 + Z.to_nat 105) DE) in Q; [|vm_compute; lia|lia]. vm_compute in Q. injection Q as <-. reflexivity. }
  assert (VH : forall q, holds (three_pumps 24) "Demand input" "D" (6 + Z.to_nat 105) q -> q = 11103%Q).
  { intros q Q. unfold holds, three_pumps in Q. rewrite (xl_by _ _ _ _ _ "D"%char (6 + Z.to_nat 105) DE) in Q; [|vm_compute; lia|lia]. vm_compute in Q. injection Q as <-. reflexivity. }
  rewrite (VE _ E1) in E2. rewrite (VH _ H1) in H2. rewrite (VE _ E') in EQ. split; [split; [exact E2|split; [exact H2|]]|split; [exact EQ|split; assumption]].
  assert (FR : says (three_pumps 24) "Grid" "D" 5 "Flat rates") by (unfold says, xl, three_pumps; as_ready; eexists; split; vm_compute; reflexivity). specialize (PF FR).
  unfold holds, xl, three_pumps in PF. change (scenario "Fixed order control" 100 24 (10, 30, 10)%Z (0, 0, 1)%Z "Grid"%string) with (ready "ASHP" "SIMPLE" "PEAK PERFORMANCE" "Flat rates" "Grid"%string) in PF.
  match type of PF with ?l = _ => let v := eval vm_compute in l in change l with v in PF end. injection PF as PF. rewrite <- PF. reflexivity.
Qed.
(** C96: the combination (20, 0) of a sweep over three sizes and of a sweep over one; 24 and 48 hours *)
Example C96_sweep_case : forall opt price, let one := scenario "Fixed order control" 100 24 (20, 20, 1)%Z (0, 0, 1)%Z in exists out out' d d', same_but_sizes (three_pumps 24) one /\
  program calm sun (fun _ _ _ _ _ => 3%Q) opt price (three_pumps 24) = Ok out /\ program calm sun (fun _ _ _ _ _ => 3%Q) opt price one = Ok out' /\
  In d (r_done out) /\ In d' (r_done out') /\ d_sizes d = (20, 0)%Z /\ d_sizes d' = (20, 0)%Z /\ d_records d <> [] /\ map d_sizes (r_done out) <> map d_sizes (r_done out').
Proof.
  intros opt price one. destruct (three_pumps_run opt price 24 ltac:(lia)) as (out & H & C & A). destruct (scenario_runs opt price 100 24 20 20 1) as [out' H']; try lia.
  pose proof (scenario_sizes _ _ _ _ _ _ _ _ _ _ _ _ _ _ _ H') as C'. cbn in C'. apply Ok_inj in C'. symmetry in C'.
  destruct (has_size (r_done out) (20, 0)%Z) as (d & I & E); [rewrite C; right; left; reflexivity|]. destruct (has_size (r_done out') (20, 0)%Z) as (d' & I' & E'); [rewrite C'; left; reflexivity|].
  exists out, out', d, d'. split.
  { intros N HN. unfold three_pumps, one, scenario. destruct (String.eqb N "Controller"); [reflexivity|]. destruct (String.eqb_spec N "Parametric") as [E0|_]; [contradiction|]. reflexivity. }
  split; [exact H|]. split; [exact H'|]. split; [exact I|]. split; [exact I'|]. split; [exact E|]. split; [exact E'|].
  destruct (A d I) as (_ & LN). split; [intro Z; rewrite Z in LN; discriminate LN|]. rewrite C, C'. discriminate.
Qed.
Example C96_hours_case : forall opt price, exists out out' d d', same_but_hours (three_pumps 24) (three_pumps 48) /\
  ran calm sun (fun _ _ _ _ _ => 3%Q) opt price (three_pumps 24) "Fixed order control" out d /\ ran calm sun (fun _ _ _ _ _ => 3%Q) opt price (three_pumps 48) "Fixed order control" out' d' /\
  d_sizes d = d_sizes d' /\ Z.of_nat (length (d_records d)) = 24%Z /\ Z.of_nat (length (d_records d')) = 48%Z.
Proof.
  intros opt price. destruct (three_pumps_run opt price 24 ltac:(lia)) as (out & H & C & A). destruct (three_pumps_run opt price 48 ltac:(lia)) as (out' & H' & C' & A').
  destruct (has_size (r_done out) (20, 0)%Z) as (d & I & E); [rewrite C; right; left; reflexivity|]. destruct (has_size (r_done out') (20, 0)%Z) as (d' & I' & E'); [rewrite C'; right; left; reflexivity|].
  exists out, out', d, d'. destruct (A d I) as (R & LN). destruct (A' d' I') as (R' & LN'). split; [|rewrite E, E'; tauto]. split.
  - intros N HN. unfold three_pumps, scenario. destruct (String.eqb_spec N "Controller") as [E0|_]; [contradiction|]. reflexivity.
  - intros c r HN. unfold xl, three_pumps, scenario. cbn [String.eqb Ascii.eqb Bool.eqb]. unfold sheet_by. cbn [s_cells map seq Nat.eqb andb].
    destruct (Nat.eq_dec r 6) as [->|Hr].
    + cbn [nth Nat.sub]. destruct (letter c) as [|[|[|[|[|[|[|k]]]]]]] eqn:EL; try reflexivity. exfalso. apply HN. f_equal.
      unfold letter in EL. rewrite <- (ascii_nat_embedding c). replace (nat_of_ascii c) with 71 by lia. reflexivity.
    + destruct (r - 2) as [|[|[|[|[|k]]]]] eqn:EK; try reflexivity; lia.
Qed.
(** C97, C98: three rows in every table, no surface because only one of the sizes varies *)
Example C97_C98_case : forall opt price, exists out tables r, program calm sun (fun _ _ _ _ _ => 3%Q) opt price (three_pumps 24) = Ok out /\
  swept (three_pumps 24) /\ no_negative_sizes (three_pumps 24) /\ plainly_priced (three_pumps 24) /\ incentive (three_pumps 24) r /\ incentive_known r /\
  r_kpis out = [M_Plots.KpiTables tables] /\ length (r_done out) = 3 /\ exists e, r_end out = Err e.
Proof.
  intros opt price. destruct (three_pumps_run opt price 24 ltac:(lia)) as (out & H & C & A). destruct (scenario_incentive "Fixed order control" 100 24 (10, 30, 10)%Z (0, 0, 1)%Z) as (r & IR & KR).
  assert (SW : swept (three_pumps 24)) by (apply scenario_swept; [right; lia|left; reflexivity]).
  assert (NN : no_negative_sizes (three_pumps 24)) by (split; intros z Hz; [rewrite (counts_one _ _ _ _ _ 10%Z Hz); [lia|]|rewrite (counts_one _ _ _ _ _ 0%Z Hz); [lia|]]; (eexists; split; [reflexivity|reflexivity])).
  assert (PP : plainly_priced (three_pumps 24)).
  { exists "Flat rates"%string. split; [|left; reflexivity]. unfold says, xl, three_pumps. as_ready. eexists; split; vm_compute; reflexivity. }
  destruct (C98_tables _ _ _ _ _ _ _ _ (scenario_plain _ _ _ _ _) (scenario_big _ _ _ _ _) H SW NN PP IR KR) as (tables & surfaces & K & _ & Z).
  destruct Z as (-> & e & Ee).
  { rewrite C. intros (_ & c & c' & I & I' & N). apply N. cbn in I, I'. repeat (destruct I as [<-|I]; [repeat (destruct I' as [<-|I']; [reflexivity|]); contradiction|]). contradiction. }
  exists out, tables, r. split; [exact H|]. split; [exact SW|]. split; [exact NN|]. split; [exact PP|]. split; [exact IR|]. split; [exact KR|]. split; [exact K|].
  split; [rewrite <- (map_length d_sizes), C; reflexivity|exists e; exact Ee].
Qed.
(** Predictive control with an optimiser that always answers *)
Definition planned_pumps : workbook := scenario "Model predictive control" 100 24 (10, 30, 10)%Z (0, 0, 1)%Z.
Lemma planned_run price : exists out d, ran calm sun (fun _ _ _ _ _ => 3%Q) (P_Mpc.answer_with P_Mpc.plain_plan) price planned_pumps "Model predictive control" out d /\ d_sizes d = (20, 0)%Z.
Proof.
  destruct (C98_predictive_completes_without_store calm sun (fun _ _ _ _ _ => 3%Q) (P_Mpc.answer_with P_Mpc.plain_plan) price planned_pumps) as [out H].
  - apply scenario_filled.
  - apply scenario_runnable.
  - apply scenario_predicted; lia.
  - apply scenario_swept; [right; lia|left; reflexivity].
  - apply scenario_without.
  - apply calm_answers.
  - intro X. apply P_Mpc.always_from_initial, P_Mpc.answer_with_always.
  - pose proof (scenario_sizes _ _ _ _ _ _ _ _ _ _ _ _ _ _ _ H) as C. cbn in C. apply Ok_inj in C. symmetry in C.
    destruct (has_size (r_done out) (20, 0)%Z) as (d & I & E); [rewrite C; right; left; reflexivity|].
    exists out, d. split; [|exact E]. split; [apply scenario_plain|]. split; [apply scenario_big|]. split; [apply scenario_says|]. split; assumption.
Qed.
(** C94 under predictive control: record 5 is about row 111, and the first record shows no demand although row 106 has one. *)
Example C94_predictive_case : forall price, exists out d rc, ran calm sun (fun _ _ _ _ _ => 3%Q) (P_Mpc.answer_with P_Mpc.plain_plan) price planned_pumps "Model predictive control" out d /\
  nth_error (d_records d) 5 = Some rc /\ hour_number planned_pumps 5 105.
Proof.
  intro price. destruct (planned_run price) as (out & d & R & _). exists out, d. destruct (C95_predictive_hours_needed _ _ _ _ _ _ _ _ R) as (_ & s & n & S & N & S0 & _ & SN & LN).
  pose proof (counts_one _ _ _ _ _ _ S (proj1 (scenario_hours _ _ _ _ _))) as Es. pose proof (counts_one _ _ _ _ _ _ N (proj2 (scenario_hours _ _ _ _ _))) as En. subst s n.
  destruct (nth_error (d_records d) 5) as [rc|] eqn:ER; [|apply nth_error_None in ER; lia]. exists rc. split; [exact R|]. split; [reflexivity|]. exists 100%Z. split; [exact S|]. lia.
Qed.
Theorem C94_predictive_refuted : exists L run_pv lc opt price wb out d rc,
  ran L run_pv lc opt price wb "Model predictive control" out d /\ nth_error (d_records d) 0 = Some rc /\
  (forall t, hour_number wb 0 t -> t = 100%Z) /\ ~ shows_row wb (6 + Z.to_nat 100) (rf rc).
Proof.
  exists calm, sun, (fun _ _ _ _ _ => 3%Q), (P_Mpc.answer_with P_Mpc.plain_plan), (fun _ => 0%Q), planned_pumps. destruct (planned_run (fun _ => 0%Q)) as (out & d & R & _). exists out, d.
  destruct (C94_predictive_first _ _ _ _ _ _ _ _ R) as (rc & E & Z & _). exists rc. split; [exact R|]. split; [exact E|]. split.
  - intros t (s & CS & -> & _). pose proof (counts_one _ _ _ _ _ _ CS (proj1 (scenario_hours _ _ _ _ _))). lia.
  - intros ((e & H & Q) & _). unfold holds, planned_pumps in H.
    assert (DE : scenario "Model predictive control" 100 24 (10, 30, 10)%Z (0, 0, 1)%Z "Demand input"%string = Some (sheet_by 9 (Z.to_nat 8764) number_at)) by reflexivity.
    rewrite (xl_by _ _ _ _ _ "E"%char (6 + Z.to_nat 100) DE) in H; [|vm_compute; lia|lia]. vm_compute in H. injection H as <-. rewrite Z in Q. discriminate Q.
Qed.
Print Assumptions C94_predictive_refuted.
(** C98: a filled-in workbook in which the tank size is fixed ends in an exception after the tables. *)
Theorem C98_end_refuted : exists L run_pv lc opt price wb out, filled_in L wb /\ runnable wb /\ ordered wb /\ swept wb /\ answers L run_pv /\
  program L run_pv lc opt price wb = Ok out /\ exists e, r_end out = Err e.
Proof.
  destruct (C97_C98_case (P_Mpc.answer_with P_Mpc.plain_plan) (fun _ => 0%Q)) as (out & tables & r & H & SW & _ & _ & _ & _ & _ & _ & E).
  exists calm, sun, (fun _ _ _ _ _ => 3%Q), (P_Mpc.answer_with P_Mpc.plain_plan), (fun _ => 0%Q), (three_pumps 24), out.
  split; [apply scenario_filled|]. split; [apply scenario_runnable|]. split; [apply scenario_ordered; lia|]. split; [exact SW|]. split; [apply calm_answers|]. split; [exact H|exact E].
Qed.
Print Assumptions C98_end_refuted.
