(** C122: a sensibly filled-in workbook gives sensible results. *)
From Coq Require Import String Ascii.
From Verif Require Import Base BaseL M_Battery S_Battery M_HeatPump M_Tools S_HeatPump M_FixedOrder S_FixedOrder L_FixedOrderHour L_FixedOrderRun P_FixedOrder
  M_Excel S_Excel L_Excel L_ExcelSheets P_Excel M_Init S_Init L_Init P_Init P_InitReady M_Program S_Program L_Program L_ProgramRuns L_ProgramOk P_Program P_ProgramOk P_ProgramCases S_Sensible L_Sensible.
From Verif Require M_Tank M_Renewables S_Renewables M_Mpc M_Sweep.
Local Open Scope nat_scope.
Local Open Scope string_scope.
Local Open Scope list_scope.

(** An hour of a run of a sensible workbook is a good hour of a good plant. *)
Lemma sensible_hour L run_pv lc opt price wb out d i rc : ran L run_pv lc opt price wb "Fixed order control" out d -> sensible L lc wb (d_sizes d) -> nth_error (d_records d) i = Some rc ->
  exists P I t nodes soc ab be, good_hour P I soc /\ hour_step P I t nodes soc = Ok rc /\ order_of (xl wb "Controller" "D" 8) = Ok ab /\ order_of (xl wb "Controller" "D" 9) = Ok be /\
    p_order_above P = ab /\ p_order_below P = be.
Proof.
  intros (PL & B & SC & H & J) SE E.
  destruct (fixed_simulated L run_pv lc opt price wb out d PL B SC H J) as (q & s & n & x & ab & be & year & A & _ & Ha & Hb & Y & R).
  destruct (sensible_plant L run_pv lc wb out d q s n x ab be year PL B SE A Ha Hb Y) as (KP & KI & KH & KO).
  destruct (C15_hours_are_chained _ _ _ _ _ i rc R E) as (I & _ & NI & St).
  set (P := plant_of L q x ab be) in *. exists P, I, (s + Z.of_nat i)%Z, (fst (state_before P (d_records d) i)), (snd (state_before P (d_records d) i)), ab, be.
  split; [|split; [exact St|]; split; [exact Ha|]; split; [exact Hb|]; split; reflexivity].
  split; [exact KP|]. split; [rewrite Forall_forall in KH; apply KH; eapply nth_error_In, NI|]. split; [|intros ps K; exact (KO I ps K)].
  assert (KC : (0 <= b_capacity (p_battery P))%Q) by (destruct KP as (KB & _); destruct KB as (KC & _); exact KC).
  unfold state_before. destruct i as [|i]; cbn [snd].
  - unfold level_ok, init_state. split; [nra|]. nra.
  - destruct (nth_error (d_records d) i) as [r0|] eqn:E0.
    + cbn [snd]. pose proof (C15_charge_in_range_after_every_hour _ _ _ _ _ KC R) as F. rewrite Forall_forall in F. exact (F r0 (nth_error_In _ _ E0)).
    + exfalso. apply nth_error_None in E0. assert (S i < length (d_records d)) by (apply nth_error_Some; congruence). lia.
Qed.
(** No flow of energy, no fuel use and no battery level in any record is negative. *)
Theorem C122_no_negative_flows : forall L run_pv lc opt price wb out d i rc,
  ran L run_pv lc opt price wb "Fixed order control" out d -> sensible L lc wb (d_sizes d) -> nth_error (d_records d) i = Some rc -> Forall (fun k => (0 <= rf rc k)%Q) flow_fields.
Proof.
  intros L run_pv lc opt price wb out d i rc R SE E. destruct (sensible_hour _ _ _ _ _ _ _ _ _ _ R SE E) as (P & I & t & nodes & soc & _ & _ & G & St & _).
  exact (C12_flows_nonnegative_partial _ _ _ _ _ _ G St).
Qed.
Print Assumptions C122_no_negative_flows.
(** The battery never holds more than the capacity in its cell. *)
Theorem C122_battery_level : forall L run_pv lc opt price wb out d i rc,
  ran L run_pv lc opt price wb "Fixed order control" out d -> sensible L lc wb (d_sizes d) -> nth_error (d_records d) i = Some rc ->
  exists r c, first_complete wb "Electrical storage" 2 [] [5] r /\ holds wb "Electrical storage" "C" r c /\ (0 <= rf rc ES_final_soc <= c)%Q.
Proof.
  intros L run_pv lc opt price wb out d i rc (PL & B & SC & H & J) SE E.
  destruct (fixed_simulated L run_pv lc opt price wb out d PL B SC H J) as (q & s & n & x & ab & be & year & A & _ & Ha & Hb & Y & R).
  destruct (sensible_plant L run_pv lc wb out d q s n x ab be year PL B SE A Ha Hb Y) as (KP & _).
  destruct A as (U & _). destruct (C85_battery L wb _ _ _ PL B U) as (r & F & HC & _). exists r, (b_capacity (o_battery (q_parts q))). split; [exact F|]. split; [exact HC|].
  destruct KP as (KB & _). destruct KB as (KC & _). pose proof (C15_charge_in_range_after_every_hour _ _ _ _ _ KC R) as K. rewrite Forall_forall in K. exact (K rc (nth_error_In _ _ E)).
Qed.
Print Assumptions C122_battery_level.
(** What is generated is not used twice. *)
Theorem C122_generation : forall L run_pv lc opt price wb out d i rc,
  ran L run_pv lc opt price wb "Fixed order control" out d -> sensible L lc wb (d_sizes d) -> nth_error (d_records d) i = Some rc ->
  (rf rc RES_elec_demand + rf rc RES_HP + rf rc RES_aux + rf rc RES_ES + rf rc RES_export <= rf rc RES_generation_total)%Q.
Proof.
  intros L run_pv lc opt price wb out d i rc R SE E. destruct (sensible_hour _ _ _ _ _ _ _ _ _ _ R SE E) as (P & I & t & nodes & soc & _ & _ & G & St & _).
  exact (C10_renewables_not_used_twice _ _ _ _ _ _ G St).
Qed.
Print Assumptions C122_generation.
(** With an order that imports: the electrical demand is met exactly. *)
Theorem C122_electrical_demand : forall L run_pv lc opt price wb out d i rc,
  ran L run_pv lc opt price wb "Fixed order control" out d -> sensible L lc wb (d_sizes d) -> imports_listed wb -> nth_error (d_records d) i = Some rc ->
  (rf rc ED_RES + rf rc ED_ES + rf rc ED_import == rf rc ED_elec_demand)%Q.
Proof.
  intros L run_pv lc opt price wb out d i rc R SE (IA & IB) E. destruct (sensible_hour _ _ _ _ _ _ _ _ _ _ R SE E) as (P & I & t & nodes & soc & ab & be & G & St & Ha & Hb & <- & <-).
  refine (proj1 (C08_electrical_demand_met _ _ _ _ _ _ G _ St)). intros ps [(_ & K)|(_ & K)]; [exact (IA _ _ Ha K)|exact (IB _ _ Hb K)].
Qed.
Print Assumptions C122_electrical_demand.

(** ** A case: the workbook of C94 with a battery *)
Definition battery_at (capacity : Q) (r c : nat) : value :=
  if Nat.eqb r 4 then nth c [None; None; Some (M_Sweep.Number capacity); Some (M_Sweep.Number (1 # 2)); Some (M_Sweep.Number 10); Some (M_Sweep.Number 10); Some (M_Sweep.Number (9 # 10)); Some (M_Sweep.Number (9 # 10)); Some (M_Sweep.Number 0)] None else None.
(** Electricity at 902 a MWh, sold at 5 *)
Definition tariff_at (r c : nat) : value := if Nat.eqb c 3 && Nat.eqb r 3 then txt "Flat rates" else if Nat.eqb c 3 && Nat.eqb r 7 then num 5 else number_at r c.
Definition with_battery (capacity : Q) (wb : workbook) : workbook := fun name =>
  if String.eqb name "Electrical storage" then Some (sheet_by 9 5 (battery_at capacity)) else if String.eqb name "Grid" then Some (sheet_by 23 50 tariff_at) else wb name.
Definition batteried (capacity : Q) (s n : Z) (hp : Z * Z * Z) : workbook := with_battery capacity (scenario "Fixed order control" s n hp (0, 0, 1)%Z).
Lemma batteried_elsewhere c s n hp N : N <> "Electrical storage" -> N <> "Grid" -> batteried c s n hp N = scenario "Fixed order control" s n hp (0, 0, 1)%Z N.
Proof. intros E F. unfold batteried, with_battery. apply String.eqb_neq in E, F. rewrite E, F. reflexivity. Qed.
Lemma batteried_plain c s n hp : plain (batteried c s n hp).
Proof. intros name sh H. unfold batteried, with_battery in H. destruct (String.eqb name "Electrical storage"); [injection H as <-; apply sheet_by_plain|]. destruct (String.eqb name "Grid"); [injection H as <-; apply sheet_by_plain|]. exact (scenario_plain _ _ _ _ _ name sh H). Qed.
Lemma batteried_big c s n hp : big_enough (batteried c s n hp).
Proof.
  unfold big_enough. repeat match goal with |- _ /\ _ => split end;
    (eapply reaches_by; [reflexivity|vm_compute; reflexivity|first [apply Nat.leb_le; lia|vm_compute; reflexivity]]).
Qed.
Ltac elsewhere := unfold weather_filled, demand_filled, PV_filled_in, wind_filled, battery_filled, backup_filled, tank_filled, heat_pump_filled, tariff_filled, readable, covers_the_year, evaluable, priced, ordered, swept, without_store,
  periods_filled, market_filled, rows_of, wordless, worded, numeric, chooses, counts, holds, says, first_complete, complete, test_result, tested_at, xl, last_row, width; cbv zeta;
  repeat match goal with |- context [batteried ?c ?s ?n ?hp ?N] => rewrite (batteried_elsewhere c s n hp N) by discriminate end.
Ltac carry_over H := let K := fresh in pose proof H as K; revert K; elsewhere; intro K; exact K.
Lemma batteried_here c s n hp : batteried c s n hp "Electrical storage" = Some (sheet_by 9 5 (battery_at c)).
Proof. reflexivity. Qed.
Lemma battery_row c s n hp : first_complete (batteried c s n hp) "Electrical storage" 2 [] [5] 6.
Proof.
  unfold first_complete, complete, last_row, width. rewrite batteried_here. cbn [sheet_by s_header s_cells]. rewrite !map_length, !seq_length. split; [|split; [cbn; lia|]].
  - split; [lia|]. intros k (K1 & K2) _. do 2 (destruct k as [|k]; [exfalso; lia|]). do 7 (destruct k as [|k]; [discriminate|]). exfalso. lia.
  - intros r' Hr Hn ((Hl & _) & Hc). specialize (Hc 2 ltac:(lia) ltac:(intros [])). apply Hc.
    do 2 (destruct r' as [|r']; [exfalso; lia|]). do 3 (destruct r' as [|r']; [reflexivity|]). destruct r' as [|r']; [contradiction Hn; left; reflexivity|]. exfalso. lia.
Qed.
Lemma batteried_battery c s n hp : battery_filled (batteried c s n hp).
Proof.
  exists 6. split; [apply battery_row|]. intros x I. cbn in I. repeat (destruct I as [<-|I]; [eexists; unfold holds, xl; rewrite batteried_here; reflexivity|]). contradiction.
Qed.
Lemma batteried_flat c s n hp : says (batteried c s n hp) "Grid" "D" 5 "Flat rates".
Proof. eexists; split; reflexivity. Qed.
Lemma batteried_tariff c s n hp : tariff_filled (batteried c s n hp).
Proof. left. split; [apply batteried_flat|]. eexists. reflexivity. Qed.
Lemma batteried_filled c s n hp : filled_in calm (batteried c s n hp).
Proof.
  destruct (scenario_filled "Fixed order control" s n hp (0, 0, 1)%Z) as (_ & _ & R & A & B & C & D & E & F & G & H & I & J).
  unfold filled_in. split; [apply batteried_plain|]. split; [apply batteried_big|]. split; [carry_over R|]. split; [carry_over A|]. split; [carry_over B|]. split; [carry_over C|]. split; [exact D|]. split; [carry_over E|].
  split; [apply batteried_battery|]. split; [carry_over G|]. split; [carry_over H|]. split; [carry_over I|]. apply batteried_tariff.
Qed.
Lemma batteried_runs opt price c s n a b x : (0 <= s)%Z -> (0 < n)%Z -> (s + n <= 8760)%Z -> (a = b \/ a < b /\ 0 < x)%Z ->
  exists out, program calm sun (fun _ _ _ _ _ => 3%Q) opt price (batteried c s n (a, b, x)) = Ok out.
Proof.
  intros A B C D. apply C98_completes_without_store; [apply batteried_filled| |carry_over (scenario_ordered s n (a, b, x) (0, 0, 1)%Z A B C)|
    carry_over (scenario_swept "Fixed order control" s n a b x 0 0 1 D (or_introl eq_refl))|carry_over (scenario_without "Fixed order control" s n (a, b, x) 1)|apply calm_answers].
  destruct (scenario_runnable "Fixed order control" s n (a, b, x) (0, 0, 1)%Z) as (R1 & R2 & _ & R4 & _ & R6).
  split; [carry_over R1|]. split; [carry_over R2|]. split; [eexists; reflexivity|]. split; [carry_over R4|]. split; [left; apply batteried_flat|carry_over R6].
Qed.
Lemma by_cells wb N w n f c (rows : nat -> Prop) (kind : Q -> Prop) : wb N = Some (sheet_by w n f) -> letter c < w ->
  (forall r x, rows r -> r - 2 < n -> f (r - 2) (letter c) = Some (M_Sweep.Number x) -> kind x) -> all_in wb N c rows kind.
Proof.
  intros E Hc H r x R X. unfold holds, xl in X. rewrite E in X. unfold sheet_by in X. cbn [s_cells] in X. destruct (Nat.lt_ge_cases (r - 2) n) as [K|K].
  - rewrite (nth_indep _ [] (map (f 0) (seq 0 w))) in X by (rewrite map_length, seq_length; exact K).
    rewrite (map_nth (fun r => map (f r) (seq 0 w))), seq_nth in X by exact K. cbn [Nat.add] in X.
    rewrite (nth_indep _ None (f (r - 2) 0)) in X by (rewrite map_length, seq_length; exact Hc). rewrite (map_nth (f (r - 2))), seq_nth in X by exact Hc. exact (H r x R K X).
  - rewrite nth_overflow in X by (rewrite nth_overflow; [cbn; lia|rewrite map_length, seq_length; exact K]). discriminate.
Qed.
Lemma number_sign r c x : number_at r c = Some (M_Sweep.Number x) -> (0 < x)%Q.
Proof. unfold number_at, num. intro E. assert (K : x = inject_Z (100 * Z.of_nat (r + 2) + Z.of_nat c)) by congruence. rewrite K. change 0%Q with (inject_Z 0). rewrite <- Zlt_Qlt. lia. Qed.
Lemma rows_sign rs a b r c x : rows_at rs a b r c = Some (M_Sweep.Number x) -> (0 < x)%Q.
Proof. unfold rows_at. destruct (_ && _ && _); [apply number_sign|discriminate]. Qed.
Lemma at_cells_number l f r c x : at_cells l f r c = Some (M_Sweep.Number x) -> f r c = Some (M_Sweep.Number x).
Proof. unfold at_cells. destruct (find _ _); [discriminate|]. intro E; exact E. Qed.
Lemma batteried_sensible c s n hp sizes : (0 <= c)%Q -> (0 <= fst sizes)%Z -> snd sizes = 0%Z -> sensible calm (fun _ _ _ _ _ => 3%Q) (batteried c s n hp) sizes.
Proof.
  intros Hc H0 H1. unfold sensible. split; [|split; [|split; [|split; [|split; [|split; [|split; [|split; [exact H0|left; exact H1]]]]]]]].
  - split; [intros t f p x E I; apply L_Tank.Ok_inj in E; subst p; apply repeat_spec in I; injection I as ->; discriminate|]. intros d k E. cbn in E. injection E as <-. reflexivity.
  - unfold battery_sensible. cbv zeta. repeat match goal with |- _ /\ _ => split end; (apply (by_cells _ _ 9 5 (battery_at c)); [reflexivity|vm_compute; lia|]; intros r x _ Hr E; unfold battery_at in E;
      destruct (Nat.eqb_spec (r - 2) 4) as [K|K]; [|discriminate]; cbn in E; injection E as <-; unfold not_negative, share; first [exact Hc|split; lra|lra]).
  - split; [intros r x <- E; vm_compute in E; injection E as <-; reflexivity|]. intros r I. cbn in I. split; intros r' x <- E; repeat (destruct I as [<-|I]; [vm_compute in E; injection E as <-; discriminate|]); contradiction.
  - eapply by_cells; [reflexivity|vm_compute; lia|]. intros r x _ _ E. apply at_cells_number in E. unfold not_negative. apply Qlt_le_weak.
    destruct (r - 2 <? 17)%nat; [exact (rows_sign _ _ _ _ _ _ E)|]. destruct (r - 2 <? 20)%nat; exact (rows_sign _ _ _ _ _ _ E).
  - split; (eapply by_cells; [reflexivity|vm_compute; lia|]; intros r x _ _ E; apply Qlt_le_weak, (number_sign _ _ _ E)).
  - split; [intros r x <- E; vm_compute in E; injection E as <-; discriminate|]. split; [intros r x <- E; vm_compute in E; injection E as <-; discriminate|].
    left. split; [choose_it|]. intros r x <- E. vm_compute in E. injection E as <-. reflexivity.
  - split; intros l ps E M; vm_compute in E; injection E as <-; vm_compute in M; injection M as <-; apply order_okb_spec; reflexivity.
Qed.
Lemma batteried_sizes opt price c s n a b x out : program calm sun (fun _ _ _ _ _ => 3%Q) opt price (batteried c s n (a, b, x)) = Ok out ->
  M_Sweep.combos {| M_Sweep.hp_min := a; M_Sweep.hp_max := b; M_Sweep.hp_step := x; M_Sweep.ts_min := 0; M_Sweep.ts_max := 0; M_Sweep.ts_step := 1 |} = Ok (map d_sizes (r_done out)).
Proof.
  intro H. destruct (C97_combinations _ _ _ _ _ _ _ (batteried_plain _ _ _ _) H) as (p & A1 & A2 & A3 & A4 & A5 & A6 & C & _). cbv zeta in *.
  assert (E : forall N cc r v z, xl (batteried c s n (a, b, x)) N cc r = num v -> counts (batteried c s n (a, b, x)) N cc r z -> z = v).
  { intros N cc r v z Ev Ez. refine (counts_one _ _ _ _ _ _ Ez _). exists (inject_Z v). split; [exact Ev|reflexivity]. }
  apply (E "Parametric" "E"%char 6%nat a _ eq_refl) in A1. apply (E "Parametric" "D"%char 6%nat b _ eq_refl) in A2. apply (E "Parametric" "F"%char 6%nat x _ eq_refl) in A3.
  apply (E "Parametric" "E"%char 7%nat 0%Z _ eq_refl) in A4. apply (E "Parametric" "D"%char 7%nat 0%Z _ eq_refl) in A5. apply (E "Parametric" "F"%char 7%nat 1%Z _ eq_refl) in A6.
  destruct p. cbn in *. subst. exact C.
Qed.
(** Three heat pumps and a battery, 24 hours from hour 100 *)
Lemma batteried_run opt price c : exists out d, ran calm sun (fun _ _ _ _ _ => 3%Q) opt price (batteried c 100 24 (10, 30, 10)%Z) "Fixed order control" out d /\ d_sizes d = (20, 0)%Z.
Proof.
  destruct (batteried_runs opt price c 100 24 10 30 10) as [out E]; try lia. pose proof (batteried_sizes _ _ _ _ _ _ _ _ _ E) as C. assert (M : map d_sizes (r_done out) = [(10, 0); (20, 0); (30, 0)]%Z) by (vm_compute in C; injection C as C; symmetry; exact C).
  destruct (has_size (r_done out) (20, 0)%Z) as (d & I & Ed); [rewrite M; right; left; reflexivity|]. exists out, d. split; [|exact Ed].
  split; [apply batteried_plain|]. split; [apply batteried_big|]. split; [carry_over (scenario_says "Fixed order control" 100 24 (10, 30, 10)%Z (0, 0, 1)%Z)|]. split; [exact E|exact I].
Qed.
Example C122_case : forall opt price, let wb := batteried 8 100 24 (10, 30, 10)%Z in
  exists out d rc, ran calm sun (fun _ _ _ _ _ => 3%Q) opt price wb "Fixed order control" out d /\ sensible calm (fun _ _ _ _ _ => 3%Q) wb (d_sizes d) /\ imports_listed wb /\ nth_error (d_records d) 23 = Some rc.
Proof.
  intros opt price wb. destruct (batteried_run opt price 8) as (out & d & R & Ed). destruct (C95_hours_needed _ _ _ _ _ _ _ _ R) as (_ & s & n & _ & N & _ & _ & _ & Ln).
  assert (n = 24%Z) by (refine (counts_one _ _ _ _ _ _ N _); eexists; split; reflexivity). subst n.
  destruct (nth_error (d_records d) 23) as [rc|] eqn:E; [|apply nth_error_None in E; lia]. exists out, d, rc. split; [exact R|]. split; [rewrite Ed; apply batteried_sensible; [discriminate|cbn; lia|reflexivity]|]. split; [|exact E].
  split; intros l ps Ho M; vm_compute in Ho; injection Ho as <-; vm_compute in M; injection M as <-; cbn; tauto.
Qed.
