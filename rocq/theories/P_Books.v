(** C123: what a bigger number in the capacity cell of the battery does to the published tables. *)
From Coq Require Import String Ascii.
From Verif Require Import Base BaseL M_Battery S_Battery M_HeatPump M_Tools S_HeatPump M_FixedOrder S_FixedOrder S_Account S_Sizing S_Bill L_Tank
  M_Excel S_Excel L_Excel P_Excel M_Init S_Init L_Init P_Init M_Program S_Program L_Program L_ProgramRuns L_ProgramOk P_Program P_ProgramOk P_ProgramCases S_Sensible L_Sensible P_Sensible
  M_Kpi S_Kpi S_Ranking P_Ranking S_Books L_Books L_Battery L_FixedOrder L_FixedOrderHour L_FixedOrderProps L_FixedOrderRun P_FixedOrder.
From Verif Require M_Grid P_Grid S_Grid M_Sweep.
Local Open Scope nat_scope.
Local Open Scope string_scope.
Local Open Scope list_scope.

(** Two completed runs under fixed order control, of workbooks that differ in the capacity of the battery only; a combination of the same sizes in both, as it is loaded for the tables *)
Definition two_runs L run_pv lc opt price (wb wb' : workbook) (d d' : done) (K K' : run) : Prop :=
  bigger_battery_cell wb wb' /\ d_sizes d = d_sizes d' /\ sensible L lc wb (d_sizes d) /\ battery_last_cells wb /\ calcs L d = Ok K /\ calcs L d' = Ok K' /\
  exists out out', ran L run_pv lc opt price wb "Fixed order control" out d /\ ran L run_pv lc opt price wb' "Fixed order control" out' d'.

(** ** C123.  The full statement: raising the capacity of the battery in the workbook and running the program again changes nothing about heat in the tables, and no purchases, sales or costs get bigger
    and no share of renewables smaller.  It holds for orders that use the battery last; the share of renewables without a wind farm agreement; the costs under the conditions of C120, here read off the cells. *)
Theorem C123_heat_partial : forall L run_pv lc opt price wb wb' d d' K K' h, two_runs L run_pv lc opt price wb wb' d d' K K' ->
  In h ["HP_size_ratio"; "HP_utilisation"; "capital_cost"; "sum_hp_output"; "sum_hp_usage"; "scop"; "sum_aux_output"; "sum_RES"; "HP_met_RES"; "days_storage_content"; "heat_met_RES"] ->
  entry price K h = entry price K' h.
Proof.
  intros L run_pv lc opt price wb wb' d d' K K' h (BB & ES & SE & LC & C & C' & out & out' & R & R') Ih.
  destruct (books _ _ _ _ _ _ _ _ _ _ _ _ _ BB R R' ES SE LC C C') as (q & q' & x & ab & be & year & s & n & B & _). exact (C121_heat_partial price _ _ _ _ _ _ _ h B Ih).
Qed.
Print Assumptions C123_heat_partial.
Theorem C123_trade_partial : forall L run_pv lc opt price wb wb' d d' K K' h x, two_runs L run_pv lc opt price wb wb' d d' K K' ->
  In h ["sum_import"; "sum_export"; "sum_ed_import"; "grid_RES_used"] -> entry price K h = Ok x -> exists x', entry price K' h = Ok x' /\ num_le x' x.
Proof.
  intros L run_pv lc opt price wb wb' d d' K K' h v (BB & ES & SE & LC & C & C' & out & out' & R & R') Ih E.
  destruct (books _ _ _ _ _ _ _ _ _ _ _ _ _ BB R R' ES SE LC C C') as (q & q' & x & ab & be & year & s & n & B & _). exact (C121_trade_partial price _ _ _ _ _ _ _ h v B Ih E).
Qed.
Print Assumptions C123_trade_partial.
Theorem C123_own_use_partial : forall L run_pv lc opt price wb wb' d d' K K' h, two_runs L run_pv lc opt price wb wb' d d' K K' ->
  In h ["local_RES_used"; "total_RES_self_consumption"] -> exists x x', entry price K h = Ok x /\ entry price K' h = Ok x' /\ num_le x x'.
Proof.
  intros L run_pv lc opt price wb wb' d d' K K' h (BB & ES & SE & LC & C & C' & out & out' & R & R') Ih.
  destruct (books _ _ _ _ _ _ _ _ _ _ _ _ _ BB R R' ES SE LC C C') as (q & q' & x & ab & be & year & s & n & B & _). exact (C121_own_use_partial price _ _ _ _ _ _ _ h B Ih).
Qed.
Print Assumptions C123_own_use_partial.
Theorem C123_demand_met_partial : forall L run_pv lc opt price wb wb' d d' K K' h w, two_runs L run_pv lc opt price wb wb' d d' K K' ->
  says wb "Grid" "D" 5 w -> In w ["Flat rates"; "Variable periods"; "Time of use - WM"] ->
  In h ["total_RES_used"; "demand_met_RES"] -> exists x x', entry price K h = Ok x /\ entry price K' h = Ok x' /\ num_le x x'.
Proof.
  intros L run_pv lc opt price wb wb' d d' K K' h w (BB & ES & SE & LC & C & C' & out & out' & R & R') W Iw Ih.
  destruct (books _ _ _ _ _ _ _ _ _ _ _ _ _ BB R R' ES SE LC C C') as (q & q' & x & ab & be & year & s & n & B & U & _ & _ & _ & _ & _ & _ & _ & _ & G).
  refine (C121_demand_met_partial price _ _ _ _ _ _ _ h B _ Ih). rewrite G. destruct (C85_tariff _ _ _ _ _ (proj1 R) (proj1 (proj2 R)) U) as (T & _). apply says_name in T, W.
  assert (E : M_Grid.g_tariff (o_grid (q_parts q)) = w) by congruence. rewrite E. exact Iw.
Qed.
Print Assumptions C123_demand_met_partial.
Theorem C123_costs_partial : forall L run_pv lc opt price wb wb' d d' K K' h x, two_runs L run_pv lc opt price wb wb' d d' K K' ->
  no_leak_cell wb -> imports_listed wb -> selling_pays_less_cells wb -> ends_no_emptier wb d -> ends_no_fuller wb' d' ->
  In h ["opex"; "cost_elec"; "lifetime_cost"; "levelised_cost_of_energy"] -> entry price K h = Ok x -> exists x', entry price K' h = Ok x' /\ num_le x' x.
Proof.
  intros L run_pv lc opt price wb wb' d d' K K' h v (BB & ES & SE & LC & C & C' & out & out' & R & R') NL (IA & IB) (WF & WP) NE NF Ih E.
  destruct (books _ _ _ _ _ _ _ _ _ _ _ _ _ BB R R' ES SE LC C C') as (q & q' & x & ab & be & year & s & n & B & U & U' & HX & HS & Y & Ha & Hb & RK & RK' & G).
  pose proof (proj1 R) as PL. pose proof (proj1 (proj2 R)) as BG. pose proof (proj1 R') as PL'. pose proof (proj1 (proj2 R')) as BG'.
  destruct (C85_battery _ _ _ _ _ PL BG U) as (r & F & H1 & H2 & _ & _ & _ & _ & H7). destruct (C85_battery _ _ _ _ _ PL' BG' U') as (r' & F' & G1 & G2 & _).
  assert (LE : forall (P : plant) rs, rs <> [] -> exists rc, nth_error rs (length rs - 1) = Some rc /\ level_after P rs = rf rc ES_final_soc).
  { intros P rs H. destruct rs as [|a l] using rev_ind; [contradiction|]. exists a. rewrite app_length. cbn [length]. replace (length l + 1 - 1) with (length l) by lia.
    rewrite nth_error_app2, Nat.sub_diag by lia. split; [reflexivity|]. unfold level_after, state_before. rewrite app_length. cbn [length]. rewrite Nat.add_1_r. rewrite nth_error_app2, Nat.sub_diag by lia. reflexivity. }
  assert (NO : d_records d <> []) by (destruct (C95_hours_needed _ _ _ _ _ _ _ _ R) as (_ & ? & ? & _ & _ & _ & ? & _ & LN); intro Z; rewrite Z in LN; cbn in LN; lia).
  assert (NO' : d_records d' <> []) by (destruct (C95_hours_needed _ _ _ _ _ _ _ _ R') as (_ & ? & ? & _ & _ & _ & ? & _ & LN); intro Z; rewrite Z in LN; cbn in LN; lia).
  refine (C121_costs_partial price _ _ _ _ _ _ _ h v B _ _ _ _ _ Ih E).
  - exact (NL r _ H7).
  - intros J _ ps [(_ & Hp)|(_ & Hp)]; [exact (IA _ _ Ha Hp)|exact (IB _ _ Hb Hp)].
  - destruct (C85_tariff _ _ _ _ _ PL BG U) as (T & _ & TF & _). cbv zeta in T, TF. apply says_name in T, WF. assert (E0 : M_Grid.g_tariff (o_grid (q_parts q)) = "Flat rates") by congruence.
    rewrite E0 in TF. specialize (TF (or_introl eq_refl)). pose proof (WP _ _ TF HX) as (W1 & W2). split; [exact W1|]. intros J IJ. cbn [plant_of p_export_price].
    destruct (year_of_inv _ _ _ _ _ Y) as (g & tot & wind & hp & _ & _ & _ & _ & _ & _ & FY & G8). apply In_nth_error in IJ as (i & Ni). pose proof (G8 i J Ni) as (_ & _ & _ & _ & _ & _ & E7 & _).
    assert (Hi : (0 <= Z.of_nat i < 8760)%Z) by (assert (i < length year) by (apply nth_error_Some; congruence); unfold full_year in FY; lia).
    pose proof (P_Grid.C30_flat_constant _ _ E0 HS _ Hi) as X. unfold S_Grid.price_at in X. rewrite Nat2Z.id, E7 in X. injection X as ->. exact W2.
  - rewrite RK. destruct (LE (plant_of L q x ab be) _ NO) as (rc & N1 & ->). apply (NE _ _); [|exact N1]. exists r, (b_capacity (o_battery (q_parts q))), (b_initial_state (o_battery (q_parts q))). split; [exact F|]; split; [exact H1|]; split; [exact H2|reflexivity].
  - rewrite RK'. destruct (LE (plant_of L q' x ab be) _ NO') as (rc & N1 & ->). apply (NF _ _); [|exact N1]. exists r', (b_capacity (o_battery (q_parts q'))), (b_initial_state (o_battery (q_parts q'))). split; [exact F'|]; split; [exact G1|]; split; [exact G2|reflexivity].
Qed.
Print Assumptions C123_costs_partial.

(** ** A case: no battery and a half full one of 20 kWh, for the three heat pumps of C122 *)
Lemma no_charge P I t n soc rc : good_hour P I soc -> hour_step P I t n soc = Ok rc -> lacks P I RES_to_ES -> lacks P I Import_to_ES -> (rf rc ES_final_soc <= soc)%Q.
Proof.
  intros G H L1 L2. destruct (hour_open P I t n soc rc G H) as (ps & c & r & u & pr & de & rc0 & rc1 & Hps & Ho & Hf & A & Sg & W & Z & Hu & Hpr & Hrf & Hun & Hco & ->).
  rewrite (settled_corrected P I t n c rc0 rc1 ES_final_soc Hco) by (unfold settled; cbn [In]; tauto). rewrite Hrf.
  assert (Z1 : r ES_charging_from_RES = 0%Q). { apply (acc_zero _ _ _ _ _ A RES_to_ES); [|cbn; tauto]. intro X. apply in_rev in X. exact (L1 ps Hps X). }
  assert (Z2 : r ES_charging_from_import = 0%Q). { apply (acc_zero _ _ _ _ _ A Import_to_ES); [|cbn; tauto]. intro X. apply in_rev in X. exact (L2 ps Hps X). }
  assert (D1 : (0 <= r ES_discharging_to_demand)%Q) by (apply (W ES_to_demand); cbn; tauto). assert (D2 : (0 <= r ES_discharging_to_HP)%Q) by (apply (W ES_to_HP_to_demand); cbn; tauto).
  destruct G as ((Hb & _) & _ & Hs & _). 
  assert (K : forall x, (x <= 0)%Q -> (new_soc (p_battery P) x soc <= soc)%Q).
  { intros x Hx. destruct (Qlt_le_dec x 0) as [Y|Y]; [destruct (discharge_limits _ x soc Hb Hs Y) as (Q1 & _)|destruct (charge_limits _ x soc Hb Hs Y) as (Q1 & _)]; cbv zeta in Q1; lra. }
  clear A W Z Hf. unfold finish_fields. destruct (hi P I); fld; apply K; rewrite Z1, Z2; lra.
Qed.
Lemma never_fuller P year s n rs : plant_ok P -> (0 <= b_initial_state (p_battery P) <= 1)%Q -> Forall (hour_ok P) year -> (forall I ps, processes_of P I ps -> order_ok ps) ->
  (forall I, lacks P I RES_to_ES) -> (forall I, lacks P I Import_to_ES) -> run_timesteps P year s n = Ok rs -> forall i rc, nth_error rs i = Some rc -> (rf rc ES_final_soc <= init_state (p_battery P))%Q.
Proof.
  intros KP KI KH KO L1 L2 R.
  assert (KC : (0 <= b_capacity (p_battery P))%Q) by (destruct KP as (KB & _); destruct KB as (KC & _); exact KC).
  assert (KL : level_ok (p_battery P) (init_state (p_battery P))) by (unfold level_ok, init_state; split; nra).
  induction i as [|i IH]; intros rc E; destruct (C15_hours_are_chained _ _ _ _ _ _ rc R E) as (I & _ & NI & St).
  - unfold state_before in St. cbn [snd fst] in St. refine (no_charge P I _ _ _ rc _ St (L1 I) (L2 I)).
    split; [exact KP|]. split; [rewrite Forall_forall in KH; apply KH; eapply nth_error_In, NI|]. split; [exact KL|intros ps K; exact (KO I ps K)].
  - unfold state_before in St. destruct (nth_error rs i) as [r0|] eqn:E0; [|exfalso; apply nth_error_None in E0; assert (S i < length rs) by (apply nth_error_Some; congruence); lia].
    cbn [snd fst] in St. refine (Qle_trans _ _ _ (no_charge P I _ _ _ rc _ St (L1 I) (L2 I)) (IH r0 eq_refl)).
    split; [exact KP|]. split; [rewrite Forall_forall in KH; apply KH; eapply nth_error_In, NI|]. split; [|intros ps K; exact (KO I ps K)].
    pose proof (C15_charge_in_range_after_every_hour _ _ _ _ _ KC R) as F. rewrite Forall_forall in F. exact (F r0 (nth_error_In _ _ E0)).
Qed.
Lemma calcs_ok L run_pv lc opt price wb out d r : ran L run_pv lc opt price wb "Fixed order control" out d -> incentive wb r -> exists K, calcs L d = Ok K.
Proof.
  intros R IR. destruct (fixed_held _ _ _ _ _ _ _ _ R) as (k & q & s & n & x & year & RI & CO & _ & SI & _). destruct R as (PL & B & _ & PR & I).
  pose proof (done_set_up _ _ _ _ _ _ _ _ PR I) as (o & U & GO & FU). destruct SI as (_ & _ & _ & _ & _ & _ & _ & _ & _ & S10 & S11 & _).
  pose proof (combination_rhi _ _ _ _ CO) as AR. pose proof CO as CC. apply combination_parts in CC as ((CC & _) & _). destruct (C81_controller wb k PL RI) as (_ & Q1 & Q2 & _).
  unfold calcs. cbv zeta. rewrite CC, Q1, Q2, (counts_is _ _ _ _ _ S10), (counts_is _ _ _ _ _ S11), GO, AR. cbn [bind]. rewrite (proj2 (rhi_cells wb k r PL B RI) IR). cbn [bind]. eexists. reflexivity.
Qed.
Lemma bigger_cell c c' s n hp : (c <= c')%Q -> bigger_battery_cell (batteried c s n hp) (batteried c' s n hp).
Proof.
  intro Hc. split; [intros N E; unfold batteried, with_battery; apply String.eqb_neq in E; rewrite E; reflexivity|].
  exists (sheet_by 9 5 (battery_at c)), (sheet_by 9 5 (battery_at c')). split; [apply batteried_here|]. split; [apply batteried_here|]. split; [reflexivity|]. split; [reflexivity|].
  split.
  - intros r k E. unfold content_at. cbn [sheet_by s_cells seq map]. do 5 (destruct r as [|r]; [do 2 (destruct k as [|k]; [reflexivity|]); destruct k as [|k]; [exfalso; apply E; reflexivity|]; do 6 (destruct k as [|k]; [reflexivity|]); destruct k; reflexivity|]).
    destruct r; reflexivity.
  - intro r. unfold content_at, no_smaller. change (letter "C") with 2. cbn [sheet_by s_cells seq map]. do 4 (destruct r as [|r]; [left; reflexivity|]). destruct r as [|r]; [right; exists c, c'; split; [reflexivity|split; [reflexivity|exact Hc]]|left; destruct r; reflexivity].
Qed.
Lemma batteried_orders c s n hp : battery_last_cells (batteried c s n hp) /\ imports_listed (batteried c s n hp) /\
  (forall l ps, order_of (xl (batteried c s n hp) "Controller" "D" 8) = Ok l -> mapM above_key l = Ok ps -> ~ In RES_to_ES ps /\ ~ In Import_to_ES ps) /\
  (forall l ps, order_of (xl (batteried c s n hp) "Controller" "D" 9) = Ok l -> mapM below_key l = Ok ps -> ~ In RES_to_ES ps /\ ~ In Import_to_ES ps).
Proof.
  assert (A : forall l ps, order_of (xl (batteried c s n hp) "Controller" "D" 8) = Ok l -> mapM above_key l = Ok ps -> ps = [Import_to_demand; RES_to_demand]) by (intros l ps E M; vm_compute in E; injection E as <-; vm_compute in M; injection M as <-; reflexivity).
  assert (B : forall l ps, order_of (xl (batteried c s n hp) "Controller" "D" 9) = Ok l -> mapM below_key l = Ok ps -> ps = [RES_to_demand; ES_to_demand; Import_to_demand]) by (intros l ps E M; vm_compute in E; injection E as <-; vm_compute in M; injection M as <-; reflexivity).
  assert (K : forall ps, ~ In RES_to_ES ps -> forall p, never_after ps p RES_to_ES).
  { intros ps N p l1 l2 E X. apply N. rewrite E. apply in_or_app. left. exact X. }
  split; [|split; [|split]].
  - split; intros l ps E M; [rewrite (A l ps E M)|rewrite (B l ps E M)]; (split; [cbn; intuition discriminate|split; [cbn; intuition discriminate|]]; intros p _; apply K; cbn; intuition discriminate).
  - split; intros l ps E M; [rewrite (A l ps E M)|rewrite (B l ps E M)]; cbn; tauto.
  - intros l ps E M. rewrite (A l ps E M). split; cbn; intuition discriminate.
  - intros l ps E M. rewrite (B l ps E M). split; cbn; intuition discriminate.
Qed.
Example C123_case : forall opt price, let wb := batteried 0 100 24 (10, 30, 10)%Z in let wb' := batteried 20 100 24 (10, 30, 10)%Z in
  exists d d' K K', two_runs calm sun (fun _ _ _ _ _ => 3%Q) opt price wb wb' d d' K K' /\ d_sizes d = (20, 0)%Z /\ says wb "Grid" "D" 5 "Flat rates" /\
    no_leak_cell wb /\ imports_listed wb /\ selling_pays_less_cells wb /\ ends_no_emptier wb d /\ ends_no_fuller wb' d' /\ content_at_start wb' 10.
Proof.
  intros opt price wb wb'. destruct (batteried_run opt price 0) as (out & d & R & Ed). destruct (batteried_run opt price 20) as (out' & d' & R' & Ed'). fold wb in R. fold wb' in R'.
  destruct (scenario_incentive "Fixed order control" 100 24 (10, 30, 10)%Z (0, 0, 1)%Z) as (r & IR & _).
  assert (IW : incentive wb r) by (revert IR; unfold incentive, wb; elsewhere; intro IR; exact IR). assert (IW' : incentive wb' r) by (revert IR; unfold incentive, wb'; elsewhere; intro IR; exact IR).
  destruct (calcs_ok _ _ _ _ _ _ _ _ _ R IW) as (K & EK). destruct (calcs_ok _ _ _ _ _ _ _ _ _ R' IW') as (K' & EK').
  destruct (batteried_orders 0 100 24 (10, 30, 10)%Z) as (O1 & O2 & _). destruct (batteried_orders 20 100 24 (10, 30, 10)%Z) as (_ & _ & O3 & O4).
  assert (SE : sensible calm (fun _ _ _ _ _ => 3%Q) wb (d_sizes d)) by (rewrite Ed; apply batteried_sensible; [discriminate|cbn; lia|reflexivity]).
  assert (SE' : sensible calm (fun _ _ _ _ _ => 3%Q) wb' (d_sizes d')) by (rewrite Ed'; apply batteried_sensible; [discriminate|cbn; lia|reflexivity]).
  assert (CS : forall c e, content_at_start (batteried c 100 24 (10, 30, 10)%Z) e -> (e == (1 # 2) * c)%Q).
  { intros c e (r0 & x & f & F & Hx & Hf & Ee). rewrite (first_one _ _ _ F (battery_row c 100 24 (10, 30, 10)%Z)) in Hx, Hf. unfold holds, xl in Hx, Hf. rewrite batteried_here in Hx, Hf. 
    assert (Some (M_Sweep.Number c) = Some (M_Sweep.Number x)) by exact Hx. assert (Some (M_Sweep.Number (1 # 2)) = Some (M_Sweep.Number f)) by exact Hf. assert (x = c) by congruence. assert (f = 1 # 2)%Q by congruence. subst. exact Ee. }
  exists d, d', K, K'. split; [|split; [exact Ed|split; [apply batteried_flat|split; [|split; [exact O2|split; [|split; [|split]]]]]]].
  - unfold two_runs. split; [apply bigger_cell; discriminate|]. split; [congruence|]. split; [exact SE|]. split; [exact O1|]. split; [exact EK|]. split; [exact EK'|]. exists out, out'. split; assumption.
  - intros r0 x H. assert (Z : all_in wb "Electrical storage" "I" any_row (fun x => x == 0)%Q); [|exact (Z r0 x I H)]. apply (by_cells _ _ 9 5 (battery_at 0)); [reflexivity|vm_compute; lia|]. intros r1 y _ _ E. unfold battery_at in E.
    destruct (Nat.eqb (r1 - 2) 4); [|discriminate]. cbn in E. injection E as <-. reflexivity.
  - split; [apply batteried_flat|]. intros p x Hp Hx. vm_compute in Hp, Hx. injection Hp as <-. injection Hx as <-. split; discriminate.
  - intros e rc Hc E. rewrite (CS _ _ Hc). pose proof (C122_no_negative_flows _ _ _ _ _ _ _ _ _ _ R SE E) as F. rewrite Forall_forall in F. assert (X : (0 <= rf rc ES_final_soc)%Q); [apply F; unfold flow_fields; cbn; tauto|lra].
  - intros e rc Hc E. rewrite (CS _ _ Hc). destruct R' as (PL & B & SC & H & J).
    destruct (fixed_simulated _ _ _ _ _ _ _ _ PL B SC H J) as (q & s & n & x & ab & be & year & A & _ & Ha & Hb & Y & T).
    destruct (sensible_plant _ _ _ _ _ _ _ _ _ x ab be year PL B SE' A Ha Hb Y) as (KP & KI & KH & KO).
    refine (Qle_trans _ _ _ (never_fuller _ _ _ _ _ KP KI KH KO _ _ T _ rc E) _); [intros I ps [(_ & M)|(_ & M)]; [exact (proj1 (O3 _ _ Ha M))|exact (proj1 (O4 _ _ Hb M))]|intros I ps [(_ & M)|(_ & M)]; [exact (proj2 (O3 _ _ Ha M))|exact (proj2 (O4 _ _ Hb M))]|].
    destruct A as (U & _). destruct (C85_battery _ _ _ _ _ PL B U) as (r0 & F & H1 & H2 & _). cbn [plant_of p_battery]. unfold init_state.
    assert (C0 : content_at_start wb' (b_initial_state (o_battery (q_parts q)) * b_capacity (o_battery (q_parts q)))%Q) by (exists r0, (b_capacity (o_battery (q_parts q))), (b_initial_state (o_battery (q_parts q))); split; [exact F|split; [exact H1|split; [exact H2|reflexivity]]]).
    rewrite (CS _ _ C0). apply Qle_refl.
  - exists 6, 20%Q, (1 # 2)%Q. split; [apply battery_row|]. unfold wb', holds, xl. rewrite batteried_here. split; [reflexivity|]. split; [reflexivity|]. reflexivity.
Qed.
