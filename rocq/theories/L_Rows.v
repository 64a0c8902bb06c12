(** Two combinations of one run of the program that differ in the size of the heat pump only. *)
From Coq Require Import String Ascii.
From Verif Require Import Base BaseL M_Battery S_Battery M_HeatPump M_Tools S_HeatPump M_FixedOrder S_FixedOrder S_HeatPumpSize L_FixedOrderHour L_FixedOrderRun P_FixedOrder P_HeatPumpSize L_Tank
  M_Excel S_Excel L_Excel P_Excel M_Init S_Init L_Init P_Init M_Program S_Program L_Program L_ProgramRuns L_ProgramOk P_Program P_ProgramOk S_Sensible L_Sensible L_Books M_Kpi S_Kpi L_Kpi S_Rows.
From Verif Require M_Tank P_Tank M_Renewables M_Sweep.
Local Open Scope nat_scope.
Local Open Scope string_scope.
Local Open Scope list_scope.

(** The hours of two runs, with what is bought *)
Definition easier_heat (P : plant) (rc rc' : record) : Prop :=
  relieved rc rc' /\ ((forall I, contains P I AUX_to_demand) -> (bought_for_heat rc' <= bought_for_heat rc)%Q) /\
  ((forall I, contains P I AUX_to_demand) -> a_fuel (p_aux P) = ELECTRIC -> (b_capacity (p_battery P) == 0)%Q -> (rf rc' GRID_total_import <= rf rc GRID_total_import)%Q).
Lemma loops_easier P P' year year' : bigger_heat_pump P P' -> plant_ok P -> no_store P -> surplus_first_orders P -> (p_min_output P == 0)%Q -> Forall2 (hours_ok P P') year year' ->
  forall ts n n' soc soc' l l', level_ok (p_battery P) soc -> level_ok (p_battery P') soc' ->
  run_loop P year ts (n, soc) = Ok l -> run_loop P' year' ts (n', soc') = Ok l' -> Forall2 (easier_heat P) l l'.
Proof.
  intros B HP NS SF M F. pose proof (same_plant_ok P P' B HP) as HP'.
  assert (M' : (p_min_output P' == 0)%Q) by (destruct B as (_ & _ & _ & E & _); rewrite <- E; exact M).
  induction ts as [|t ts IH]; intros n n' soc soc' l l' L L'; cbn [run_loop].
  - intros H H'. injection H as <-. injection H' as <-. constructor.
  - destruct (M_FixedOrder.label year t) as [I|e] eqn:La; cbn [bind]; [|discriminate]. destruct (M_FixedOrder.label year' t) as [I'|e] eqn:La'; cbn [bind]; [|discriminate]. cbn [fst snd].
    destruct (hour_step P I t n soc) as [rc|e] eqn:H; cbn [bind]; [|discriminate]. destruct (hour_step P' I' t n' soc') as [rc'|e] eqn:H'; cbn [bind]; [|discriminate].
    destruct (run_loop P year ts _) as [l1|e] eqn:R; cbn [bind]; [|discriminate]. destruct (run_loop P' year' ts _) as [l1'|e] eqn:R'; cbn [bind]; [|discriminate].
    intros E E'. injection E as <-. injection E' as <-. destruct (label_pair _ _ _ _ _ _ F La La') as (D & HI & HI' & K).
    assert (G : good_hour P I soc). { split; [exact HP|]. split; [exact HI|]. split; [exact L|]. intros ps Hps. apply (SF I ps Hps). }
    assert (SF' : surplus_first_orders P').
    { intros J ps Hps. apply (SF J ps). destruct B as (_ & _ & _ & _ & _ & _ & _ & E1 & E2 & E3 & _). unfold processes_of, high_tariff in *. rewrite E1, E2, E3. exact Hps. }
    assert (G' : good_hour P' I' soc'). { split; [exact HP'|]. split; [exact HI'|]. split; [exact L'|]. intros ps Hps. apply (SF' I' ps Hps). }
    destruct (hours_relieved P P' I I' t n n' soc soc' rc rc' B D HP HI HI' NS K SF L L' (P_HeatPumpSize.no_minimum_quiet _ _ _ _ _ G M) (P_HeatPumpSize.no_minimum_quiet _ _ _ _ _ G' M') H H') as (A1 & A2 & A3).
    constructor; [split; [exact A1|split; [intro C; exact (A2 (C I))|intro C; exact (A3 (C I))]]|].
    refine (IH _ _ _ _ l1 l1' _ _ R R'); [exact (final_soc_range P I t n soc rc (proj1 (proj1 HP)) H)|exact (final_soc_range P' I' t n' soc' rc' (proj1 (proj1 HP')) H')].
Qed.

Definition with_pump (k : container) (f : heat_pump_inputs) : container :=
  {| c_parametric := c_parametric k; c_controller := c_controller k; c_resources := c_resources k; c_hot_water := c_hot_water k; c_heating := c_heating k; c_temp_return := c_temp_return k;
     c_source_delta_t := c_source_delta_t k; c_demand := c_demand k; c_PV_location := c_PV_location k; c_PV_spec := c_PV_spec k; c_wind_database := c_wind_database k; c_wind_user := c_wind_user k;
     c_power_curve := c_power_curve k; c_wind_farm := c_wind_farm k; c_battery := c_battery k; c_grid := c_grid k; c_aux := c_aux k; c_tank := c_tank k; c_heat_pump := f |}.
Definition repumped {L} (q : held L) (p : heat_pump) : held L :=
  let o := q_parts q in
  {| q_parts := {| o_user := o_user o; o_database := o_database o; o_PV := o_PV o; o_tank := o_tank o; o_heat_pump := p; o_battery := o_battery o; o_aux := o_aux o; o_grid := o_grid o |};
     q_source := q_source q; q_flow := q_flow q; q_elec := q_elec q; q_heat := q_heat q; q_return := q_return q; q_delta := q_delta q; q_import := q_import q; q_export := q_export q |}.
Lemma combination_but_pump h h' t k j j' : combination h t k = Ok j -> combination h' t k = Ok j' -> j' = with_pump j (c_heat_pump j').
Proof.
  unfold combination, with_pump. cbn. intros C C'. revert C'. inv_bind C. apply Ok_inj in C. subst j. intro C'. inv_bind C'. apply Ok_inj in C'. subst j'. reflexivity.
Qed.
Lemma hold_but_pump L k f (q q' : held L) : hold L k = Ok q -> hold L (with_pump k f) = Ok q' -> q' = repumped q (o_heat_pump (q_parts q')).
Proof.
  unfold hold, init. intros H H'. revert H H'. generalize (heat_pump_of (lib_fit L) (with_pump k f)). intro b'.
  change (tank_of (lib_width L) (lib_pi L) (lib_cp L) (with_pump k f)) with (tank_of (lib_width L) (lib_pi L) (lib_cp L) k).
  change (battery_of (with_pump k f)) with (battery_of k). change (aux_of (with_pump k f)) with (aux_of k). change (grid_of (lib_wind L) (with_pump k f)) with (grid_of (lib_wind L) k).
  change (user_turbine (with_pump k f)) with (user_turbine k). change (database_turbine (with_pump k f)) with (database_turbine k). change (pv_of (with_pump k f)) with (pv_of k).
  cbn [with_pump c_resources c_demand c_temp_return c_source_delta_t c_grid].
  destruct (weather_rows (c_resources k) true) as [w|]; cbn [bind]; [|discriminate].
  destruct (numbers (c_resources k) "air_temperature") as [air|]; cbn [bind]; [|discriminate].
  destruct (numbers (c_resources k) "water_temperature") as [water|]; cbn [bind]; [|discriminate].
  generalize (b' air water). clear b'. intro b'. destruct b' as [b'|e].
  - repeat (match goal with
    | |- bind (bind ?x _) _ = _ -> _ => destruct x as [?|?]; cbn [bind o_grid]; [|discriminate]
    | |- bind ?x _ = _ -> _ => destruct x as [?|?]; cbn [bind o_grid]; [|discriminate] end).
    intros H H'. apply Ok_inj in H, H'. subst. reflexivity.
  - intros _. repeat (match goal with
    | |- bind (bind ?x _) _ = _ -> _ => destruct x as [?|?]; cbn [bind o_grid]; [|discriminate] end).
    discriminate.
Qed.
(** The performance of a heat pump of constant COP *)
Lemma simple_perfs L lc wb h t o hp : plain wb -> big_enough wb -> plain_heat_pump wb -> set_up L wb h t = Ok o -> performance lc (o_heat_pump o) = Ok hp ->
  exists c, holds wb "Heat pump" "D" 12 c /\ (1 <= c)%Q /\ (h_minimum_output (o_heat_pump o) == 0)%Q /\ h_capacity (o_heat_pump o) = inject_Z h /\
    (h = 0%Z -> Forall (fun p => duty p = 0%Q) hp) /\ (h <> 0%Z -> Forall (fun p => cop p = c /\ duty p = inject_Z h) hp).
Proof.
  intros P B (S1 & S2 & S3) U F. destruct (C85_heat_pump L wb h t o P B U) as (_ & K & _ & _ & H2 & _ & _ & _ & _ & _ & _ & ap & HA & HM). cbv zeta in *.
  assert (UU : forall a b, In a model_names -> In b model_names -> model_name_value a = model_name_value b -> a = b) by (intros [] [] _ _; discriminate || reflexivity).
  rewrite (chooses_one _ _ _ _ _ _ _ _ UU HA S1) in HM. destruct HM as (c & Hc & M). exists c. split; [exact Hc|]. split; [exact (S2 12 _ eq_refl Hc)|]. split; [exact (S3 8 _ eq_refl H2)|]. split; [exact K|].
  unfold performance in F. rewrite K in F. destruct (qeq_spec (inject_Z h) 0) as [Z|Z].
  - assert (h = 0%Z) by (unfold Qeq in Z; cbn in Z; lia). subst h. split; [|intro X; contradiction]. intros _. apply constant_perfs in F. refine (Forall_impl _ _ F). intros p (_ & X). exact X.
  - split; [intros ->; exfalso; apply Z; reflexivity|]. intros _. cbv zeta in F. rewrite M in F. apply constant_perfs in F. exact F.
Qed.
Lemma Forall2_nth {A B} (R : A -> B -> Prop) l : forall l', length l = length l' -> (forall i x y, nth_error l i = Some x -> nth_error l' i = Some y -> R x y) -> Forall2 R l l'.
Proof.
  induction l as [|a l IH]; intros [|b l'] E H; try discriminate; [constructor|]. constructor; [exact (H 0 a b eq_refl eq_refl)|]. apply IH; [cbn in E; lia|]. intros i x y X Y. exact (H (S i) x y X Y).
Qed.

(** Two combinations of one run, without a store *)
Lemma rows L run_pv lc opt price wb out d d' h h' K K' :
  ran L run_pv lc opt price wb "Fixed order control" out d -> ran L run_pv lc opt price wb "Fixed order control" out d' -> d_sizes d = (h, 0%Z) -> d_sizes d' = (h', 0%Z) -> (h < h')%Z ->
  sensible L lc wb (d_sizes d) -> sensible L lc wb (d_sizes d') -> plain_heat_pump wb -> surplus_first_cells wb -> calcs L d = Ok K -> calcs L d' = Ok K' ->
  exists P year year' s n P', run_of P year s n K /\ run_of P' year' s n K' /\ Forall2 (easier_heat P) (k_results K) (k_results K') /\ k_name K = M_Sweep.folder_name (h, 0%Z) /\ k_name K' = M_Sweep.folder_name (h', 0%Z) /\
    (backup_listed wb -> forall I, contains P I AUX_to_demand) /\ (electric_backup wb -> a_fuel (p_aux P) = ELECTRIC) /\ (no_battery wb -> (b_capacity (p_battery P) == 0)%Q).
Proof.
  intros R R' ES ES' LT SE SE' PP (LA & LB) C C'. pose proof (C95_hours_needed _ _ _ _ _ _ _ _ R) as (_ & s0 & n0 & _ & N0 & _ & N1 & _).
  destruct (fixed_held _ _ _ _ _ _ _ _ R) as (k & q & s & n & x & year & RI & CO & HO & SI & Hx & Ha & Hb & Y & T).
  destruct (fixed_held _ _ _ _ _ _ _ _ R') as (k' & q' & s' & n' & x' & year' & RI' & CO' & HO' & SI' & Hx' & Ha' & Hb' & Y' & T').
  assert (k' = k) by congruence. subst k'. assert (x' = x) by exact (holds_same _ _ _ _ _ _ Hx' Hx). subst x'.
  destruct R as (PL & B & _ & PR & I). destruct R' as (_ & _ & _ & PR' & I').
  pose proof (done_set_up _ _ _ _ _ _ _ _ PR I) as (o & U & GO & FU). pose proof (done_set_up _ _ _ _ _ _ _ _ PR' I') as (o' & U' & GO' & FU').
  pose proof (sensible_plant L run_pv lc wb out d q s n x _ _ year PL B SE SI Ha Hb Y) as (KP & KI & KH & KO).
  pose proof (sensible_plant L run_pv lc wb out d' q' s' n' x _ _ year' PL B SE' SI' Ha' Hb' Y') as (KP' & KI' & KH' & _).
  rewrite ES in *. rewrite ES' in *. cbn [fst snd] in *.
  pose proof (combination_but_pump _ _ _ _ _ _ CO CO') as ED. rewrite ED in HO'. pose proof (hold_but_pump L _ _ q q' HO HO') as EQ.
  destruct SI as (S1 & _ & _ & _ & _ & _ & _ & S8 & S9 & S10 & S11 & _). destruct SI' as (S1' & _ & _ & _ & _ & _ & _ & _ & _ & S10' & S11' & _). rewrite ES in S1. rewrite ES' in S1'. cbn [fst snd] in S1, S1'.
  assert (s' = s) by exact (counts_one _ _ _ _ _ _ S10' S10). assert (n' = n) by exact (counts_one _ _ _ _ _ _ S11' S11). assert (n0 = n) by exact (counts_one _ _ _ _ _ _ N0 S11). subst s' n' n0.
  assert (o = q_parts q) by congruence. assert (o' = q_parts q') by congruence. subst o o'.
  destruct (year_of_inv _ _ _ _ _ Y) as (g & tot & wind & hp & Y1 & _ & Y3 & _ & _ & Y6 & FY & G8). destruct (year_of_inv _ _ _ _ _ Y') as (g' & tot' & wind' & hp' & Y1' & _ & Y3' & _ & _ & Y6' & FY' & G8').
  destruct (simple_perfs _ _ _ _ _ _ _ PL B PP S1 Y6) as (c & Hc & C1 & MO & HC & Z0 & ZN). destruct (simple_perfs _ _ _ _ _ _ _ PL B PP S1' Y6') as (c' & Hc' & _ & MO' & HC' & _ & ZN').
  assert (c' = c) by exact (holds_same _ _ _ _ _ _ Hc' Hc). subst c'.
  assert (H0 : (0 <= h)%Z) by (destruct SE as (_ & _ & _ & _ & _ & _ & _ & X & _); cbn [fst] in X; exact X). specialize (ZN' ltac:(lia)).
  set (ab := k_above (c_controller k)) in *. set (be := k_below (c_controller k)) in *. set (P := plant_of L q x ab be) in *. set (P' := plant_of L q' x ab be) in *.
  set (hq := o_heat_pump (q_parts q')) in *. assert (EQ' : q' = repumped q hq) by exact EQ. clearbody hq.
  assert (BP : bigger_heat_pump P P').
  { subst P P'. rewrite EQ' in *. unfold bigger_heat_pump. cbn [plant_of repumped q_parts o_heat_pump o_battery o_aux o_tank q_return q_delta q_export q_heat p_battery p_hp_capacity p_min_runtime p_min_output p_aux p_tank p_export_price p_setpoint p_order_above p_order_below p_max_heat].
    cbn [repumped q_parts o_heat_pump] in HC'. rewrite HC, HC'. split; [rewrite <- Zle_Qle; lia|]. split; [reflexivity|].
    destruct (C85_heat_pump L wb _ _ _ PL B S1) as (_ & _ & _ & M1 & M2 & _). destruct (C85_heat_pump L wb _ _ _ PL B S1') as (_ & _ & _ & M1' & M2' & _). cbn [repumped q_parts o_heat_pump] in M1', M2'.
    split; [exact (holds_same _ _ _ _ _ _ M1 M1')|]. split; [exact (holds_same _ _ _ _ _ _ M2 M2')|]. repeat split. }
  assert (HF : Forall2 (hours_ok P P') year year').
  { apply Forall2_nth; [unfold full_year in *; lia|]. intros i J J' NJ NJ'. pose proof (G8 i J NJ) as (E1 & E2 & E3 & E4 & E5 & E6 & E7 & E8). pose proof (G8' i J' NJ') as (E1' & E2' & E3' & E4' & E5' & E6' & E7' & E8').
    rewrite EQ' in Y1', E3', E4', E5', E6', E7'. cbn [repumped q_parts o_user o_database o_PV q_elec q_heat q_source q_flow q_import] in Y1', E3', E4', E5', E6', E7'.
    assert (g' = g) by congruence. subst g'. assert (wind' = wind) by (rewrite Y3 in Y3'; clear - Y3'; revert wind Y3'; induction wind' as [|a l IH]; intros [|b m] E; try discriminate; [reflexivity|cbn in E; injection E as E1 E2; subst; f_equal; apply IH; exact E2]). subst wind'.
    rewrite Forall_forall in KH, KH'. split; [|split; [exact (KH _ (nth_error_In _ _ NJ))|split; [exact (KH' _ (nth_error_In _ _ NJ'))|]]].
    - unfold bigger_duty. repeat match goal with |- _ /\ _ => split end; try congruence.
      + destruct (Z.eq_dec h 0) as [->|Hn]; [left; specialize (Z0 eq_refl); rewrite Forall_forall in Z0; rewrite (Z0 _ (nth_error_In _ _ E8)); reflexivity|right].
        specialize (ZN Hn). rewrite Forall_forall in ZN, ZN'. rewrite (proj1 (ZN _ (nth_error_In _ _ E8))), (proj1 (ZN' _ (nth_error_In _ _ E8'))). reflexivity.
      + rewrite Forall_forall in ZN'. rewrite (proj2 (ZN' _ (nth_error_In _ _ E8'))). destruct (Z.eq_dec h 0) as [->|Hn].
        * specialize (Z0 eq_refl). rewrite Forall_forall in Z0. rewrite (Z0 _ (nth_error_In _ _ E8)). change 0%Q with (inject_Z 0). rewrite <- Zle_Qle. lia.
        * specialize (ZN Hn). rewrite Forall_forall in ZN. rewrite (proj2 (ZN _ (nth_error_In _ _ E8))). rewrite <- Zle_Qle. lia.
    - rewrite Forall_forall in ZN'. rewrite (proj1 (ZN' _ (nth_error_In _ _ E8'))). exact C1. }
  assert (NS : no_store P).
  { intros st nodes src flow t m Hm. cbn [P plant_of p_tank] in Hm. destruct (C85_tank L wb _ _ _ PL B S1) as (T1 & _). rewrite P_Tank.C26_zero_size in Hm by (rewrite T1; reflexivity). apply Ok_inj in Hm. subst m. reflexivity. }
  assert (SO : surplus_first_orders P).
  { intros J ps HJ. split; [exact (KO J ps HJ)|]. destruct HJ as [(_ & HJ)|(_ & HJ)]; [exact (LA _ _ Ha HJ)|exact (LB _ _ Hb HJ)]. }
  assert (KC : (0 <= b_capacity (p_battery P))%Q) by (destruct KP as (KB & _); destruct KB as (KC & _); exact KC).
  assert (KL : level_ok (p_battery P) (init_state (p_battery P))) by (unfold level_ok, init_state; split; nra).
  assert (EA : Forall2 (easier_heat P) (d_records d) (d_records d')).
  { pose proof T as RT. pose proof T' as RT'. unfold run_timesteps in RT, RT'. destruct (surplus_deficit_year _ _) in RT; cbn [bind] in RT; [|discriminate]. destruct (surplus_deficit_year _ _) in RT'; cbn [bind] in RT'; [|discriminate].
    cbv zeta in RT, RT'. destruct (8760 <? s + n)%Z; [discriminate|].
    refine (loops_easier P P' year year' BP KP NS SO MO HF _ _ _ _ _ _ _ KL _ RT RT'). destruct BP as (_ & Eb & _). rewrite <- Eb. exact KL. }
  unfold calcs in C, C'. cbv zeta in C, C'.
  pose proof CO as CC. apply combination_parts in CC as ((CC & _) & _). pose proof CO' as CC'. apply combination_parts in CC' as ((CC' & _) & _). destruct (C81_controller wb k PL RI) as (_ & Q1 & Q2 & _).
  rewrite CC, Q1, Q2, (counts_is _ _ _ _ _ S10), (counts_is _ _ _ _ _ S11), GO in C. rewrite CC', Q1, Q2, (counts_is _ _ _ _ _ S10), (counts_is _ _ _ _ _ S11), GO' in C'. cbn [bind] in C, C'.
  destruct (rhi_of (c_heat_pump (d_inputs d))) as [rh|]; cbn [bind] in C; [|discriminate]. destruct (rhi_of (c_heat_pump (d_inputs d'))) as [rh'|]; cbn [bind] in C'; [|discriminate]. apply Ok_inj in C, C'. subst K K'.
  exists P, year, year', s, n, P'. unfold run_of. cbn [k_results k_timesteps k_first_hour k_fuel k_name k_grid k_rhi]. rewrite FU, FU', ES, ES'.
  split; [split; [exact T|repeat split; lia]|]. split; [split; [exact T'|repeat split; lia]|]. split; [exact EA|]. split; [reflexivity|]. split; [reflexivity|]. split; [|split].
  - intros (IA & IB) J ps HJ. destruct HJ as [(_ & HJ)|(_ & HJ)]; [exact (IA _ _ Ha HJ)|exact (IB _ _ Hb HJ)].
  - intro EB. destruct (C85_backup L wb _ _ _ PL B S1) as (F1 & _). assert (UU : forall a b, In a fuels -> In b fuels -> fuel_value a = fuel_value b -> a = b) by (intros [] [] _ _; discriminate || reflexivity). exact (chooses_one _ _ _ _ _ _ _ _ UU F1 EB).
  - intro NB. destruct (C85_battery L wb _ _ _ PL B S1) as (r & _ & H1 & _). exact (NB r _ Logic.I H1).
Qed.
