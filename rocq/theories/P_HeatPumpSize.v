(** C107: a bigger heat pump never means more back-up heat, unless the store or the minimum output come in between. *)
From Verif Require Import Base BaseL M_Battery S_Battery M_HeatPump M_Tools M_FixedOrder S_FixedOrder L_FixedOrder L_FixedOrderSign L_FixedOrderHour L_FixedOrderProps L_FixedOrderRun P_FixedOrder S_HeatPumpSize L_HeatPumpSize.
Require Import Sorting.Sorted.

Lemma same_processes P P' I I' ps : bigger_heat_pump P P' -> bigger_duty I I' -> processes_of P I ps -> processes_of P' I' ps.
Proof.
  intros (_ & _ & _ & _ & _ & _ & _ & E1 & E2 & E3 & _) (_ & _ & _ & _ & _ & _ & E4 & _). unfold processes_of, high_tariff. rewrite E1, E2, E3, E4. tauto.
Qed.
Lemma same_plant_ok P P' : bigger_heat_pump P P' -> plant_ok P -> plant_ok P'.
Proof. intros (_ & E1 & E2 & E3 & E4 & _). unfold plant_ok. rewrite E1, E2, E3, E4. tauto. Qed.
Lemma processes_same P I ps ps' : processes_of P I ps -> processes_of P I ps' -> ps = ps'.
Proof. intros [(H & A)|(H & A)] [(H' & B)|(H' & B)]; try contradiction; congruence. Qed.
Lemma fuel_mono e x y u v : 0 < e -> fuel_usage e x = Ok u -> fuel_usage e y = Ok v -> x <= y -> u <= v.
Proof.
  intros E A B L. unfold fuel_usage in *. destruct (qeq_spec e 0); [discriminate|]. injection A as <-. injection B as <-.
  apply Qle_shift_div_l; [exact E|]. setoid_replace (x / e * e) with x by (field; lra). exact L.
Qed.
Lemma hours_relieved P P' I I' t n n' soc soc' rc rc' : bigger_heat_pump P P' -> bigger_duty I I' -> plant_ok P -> hour_ok P I -> hour_ok P' I' -> no_store P -> 1 <= cop (i_perf I') ->
  surplus_first_orders P -> level_ok (p_battery P) soc -> level_ok (p_battery P') soc' -> quiet P I t n soc -> quiet P' I' t n' soc' ->
  hour_step P I t n soc = Ok rc -> hour_step P' I' t n' soc' = Ok rc' ->
  relieved rc rc' /\ (contains P I AUX_to_demand -> bought_for_heat rc' <= bought_for_heat rc) /\
  (contains P I AUX_to_demand -> a_fuel (p_aux P) = ELECTRIC -> b_capacity (p_battery P) == 0 -> rf rc' GRID_total_import <= rf rc GRID_total_import).
Proof.
  intros B D HP HI HI' NS K1 SF L L' Q Q' H H'.
  pose proof (same_plant_ok P P' B HP) as HP'. pose proof B as (_ & Eb & _ & _ & Ea & Et & _ & _ & _ & _ & Em). pose proof D as (D1 & D2 & D3 & D4 & _ & _ & _ & D8 & D9).
  assert (NS' : no_store P') by (unfold no_store in *; rewrite <- Et; exact NS).
  assert (G : good_hour P I soc). { split; [exact HP|]. split; [exact HI|]. split; [exact L|]. intros ps Hps. apply (SF I ps Hps). }
  destruct (quiet_open P I t n soc rc G Q H) as (ps & c & r & u & pr & de & rc0 & Ps & Oo & R & A & Sg & W & Z & U & Rf & ->).
  assert (G' : good_hour P' I' soc').
  { split; [exact HP'|]. split; [exact HI'|]. split; [exact L'|]. intros ps' Hps. rewrite (processes_same P' I' ps' ps Hps (same_processes P P' I I' ps B D Ps)). exact Oo. }
  destruct (quiet_open P' I' t n' soc' rc' G' Q' H') as (ps' & c' & r' & u' & pr' & de' & rc0' & Ps' & Oo' & R' & A' & Sg' & W' & Z' & U' & Rf' & ->).
  assert (ps' = ps) by (apply (processes_same P' I'); [exact Ps'|exact (same_processes P P' I I' ps B D Ps)]). subst ps'.
  pose proof (proj2 (SF I ps Ps)) as SFp.
  assert (El : is_electric P = is_electric P') by (unfold is_electric; rewrite Ea; reflexivity).
  assert (Pr : pair P I I' (rev ps) c r c' r').
  { apply (pair_run P P' I I' t n n' HP HP' HI HI' NS NS' El (f_equal b_capacity Eb) D8 K1 D9 ps Oo SFp ps [] (init_checks P I soc) (start_fields P I) (init_checks P' I' soc') (start_fields P' I')); try assumption; [reflexivity|..].
    - apply pair_init; try assumption; [exact (f_equal b_capacity Eb)|apply start_zero|apply start_zero].
    - apply init_sgn; assumption.
    - apply init_sgn; assumption. }
  assert (NE : ~ In ES_to_HP_to_demand (rev ps)) by (intro C; apply in_rev in C; exact (proj1 SFp C)).
  assert (O : rf (complete I rc0) HP_heat_total_output == hp_usage c).
  { change (rf (complete I rc0) HP_heat_total_output) with (rf rc0 HP_heat_total_output). rewrite Rf, untouched_output.
    rewrite (acc_zero _ _ _ _ _ A ES_to_HP_to_demand HP_heat_from_ES_to_demand NE ltac:(cbn; auto)). rewrite (acc_hp _ _ _ _ _ A). cbn [init_checks hp_usage]. ring. }
  assert (O' : rf (complete I' rc0') HP_heat_total_output == hp_usage c').
  { change (rf (complete I' rc0') HP_heat_total_output) with (rf rc0' HP_heat_total_output). rewrite Rf', untouched_output.
    rewrite (acc_zero _ _ _ _ _ A' ES_to_HP_to_demand HP_heat_from_ES_to_demand NE ltac:(cbn; auto)). rewrite (acc_hp _ _ _ _ _ A'). cbn [init_checks hp_usage]. ring. }
  assert (T : r AUX_RES_to_TS == 0).
  { pose proof (acc_tsc _ _ _ _ _ A) as T. pose proof (proj1 (q_z _ _ _ _ _ _ _ _ Pr)) as T0. rewrite (mir12 _ _ _ _ _ A). cbn [init_checks ts_charge] in T.
    pose proof (W HP_RES_to_TS TS_HP_from_RES_to_TS ltac:(cbn; auto)). pose proof (W HP_import_to_TS TS_HP_from_import_to_TS ltac:(cbn; auto)). pose proof (W EAUX_RES_to_TS TS_aux_to_TS ltac:(cbn; auto)). lra. }
  assert (T' : r' AUX_RES_to_TS == 0).
  { pose proof (acc_tsc _ _ _ _ _ A') as T1. pose proof (proj1 (q_z' _ _ _ _ _ _ _ _ Pr)) as T0. rewrite (mir12 _ _ _ _ _ A'). cbn [init_checks ts_charge] in T1.
    pose proof (W' HP_RES_to_TS TS_HP_from_RES_to_TS ltac:(cbn; auto)). pose proof (W' HP_import_to_TS TS_HP_from_import_to_TS ltac:(cbn; auto)). pose proof (W' EAUX_RES_to_TS TS_aux_to_TS ltac:(cbn; auto)). lra. }
  pose proof (q_b _ _ _ _ _ _ _ _ Pr) as Qb.
  assert (X : total_aux r' <= total_aux r) by (unfold total_aux; lra).
  split; [split; [|split]|].
  - rewrite O, O'. exact (q_s _ _ _ _ _ _ _ _ Pr).
  - change (rf rc0' AUX_demand <= rf rc0 AUX_demand). rewrite Rf, Rf', !untouched_aux. exact X.
  - change (rf rc0' AUX_usage <= rf rc0 AUX_usage). rewrite Rf, Rf', !untouched_usage. rewrite <- Ea in U'. apply (fuel_mono (a_efficiency (p_aux P)) (total_aux r') (total_aux r)); try assumption. apply HP.
  - assert (J : contains P I AUX_to_demand -> r' GRID_import_for_heat_pump_to_heat_demand + r' HD_aux <= r GRID_import_for_heat_pump_to_heat_demand + r HD_aux).
    { intro C. pose proof (in_rev ps AUX_to_demand) as (C1 & _). pose proof (C1 (C ps Ps)) as C2. pose proof (proj1 (proj2 Z) C2) as Z0. pose proof (proj1 (proj2 Z') C2) as Z0'.
      pose proof (q_j _ _ _ _ _ _ _ _ Pr). lra. }
    destruct (q_z _ _ _ _ _ _ _ _ Pr) as (_ & _ & Y). destruct (q_z' _ _ _ _ _ _ _ _ Pr) as (_ & _ & Y'). split.
    + intro C. specialize (J C). unfold bought_for_heat.
      change (rf rc0' GRID_import_for_heat_pump_total + (rf rc0' AUX_demand - rf rc0' AUX_RES_to_demand) <= rf rc0 GRID_import_for_heat_pump_total + (rf rc0 AUX_demand - rf rc0 AUX_RES_to_demand)).
      rewrite Rf, Rf', !untouched_aux, !untouched_heat_pump, !untouched_surplus. unfold total_aux. lra.
    + intros C F Bz. specialize (J C). change (rf rc0' GRID_total_import <= rf rc0 GRID_total_import).
      assert (Fe : is_electric P = true) by (unfold is_electric; rewrite F; reflexivity).
      destruct (q_g _ _ _ _ _ _ _ _ Pr Bz) as (_ & _ & _ & G4 & G5 & G6).
      rewrite Rf, Rf', untouched_import, untouched_import by congruence. lra.
Qed.
(** One hour: the heat pump delivers at least as much, the back-up no more *)
Theorem C107_hour_partial : forall P P' I I' t n n' soc soc' rc rc', bigger_heat_pump P P' -> bigger_duty I I' -> plant_ok P -> hour_ok P I -> hour_ok P' I' -> no_store P -> 1 <= cop (i_perf I') ->
  surplus_first_orders P -> level_ok (p_battery P) soc -> level_ok (p_battery P') soc' -> quiet P I t n soc -> quiet P' I' t n' soc' ->
  hour_step P I t n soc = Ok rc -> hour_step P' I' t n' soc' = Ok rc' -> relieved rc rc'.
Proof. intros. eapply hours_relieved; eassumption. Qed.
Print Assumptions C107_hour_partial.
(** With a back-up in the order, the electricity bought for the heat pump and the heat from the back-up together do not rise. *)
Theorem C107_bought_partial : forall P P' I I' t n n' soc soc' rc rc', bigger_heat_pump P P' -> bigger_duty I I' -> plant_ok P -> hour_ok P I -> hour_ok P' I' -> no_store P -> 1 <= cop (i_perf I') ->
  surplus_first_orders P -> level_ok (p_battery P) soc -> level_ok (p_battery P') soc' -> quiet P I t n soc -> quiet P' I' t n' soc' -> contains P I AUX_to_demand ->
  hour_step P I t n soc = Ok rc -> hour_step P' I' t n' soc' = Ok rc' -> bought_for_heat rc' <= bought_for_heat rc.
Proof. intros. eapply hours_relieved; eassumption. Qed.
Print Assumptions C107_bought_partial.
(** So with an electric back-up and without a battery the whole import does not rise. *)
Theorem C107_import_partial : forall P P' I I' t n n' soc soc' rc rc', bigger_heat_pump P P' -> bigger_duty I I' -> plant_ok P -> hour_ok P I -> hour_ok P' I' -> no_store P -> 1 <= cop (i_perf I') ->
  surplus_first_orders P -> level_ok (p_battery P) soc -> level_ok (p_battery P') soc' -> quiet P I t n soc -> quiet P' I' t n' soc' -> contains P I AUX_to_demand ->
  a_fuel (p_aux P) = ELECTRIC -> b_capacity (p_battery P) == 0 ->
  hour_step P I t n soc = Ok rc -> hour_step P' I' t n' soc' = Ok rc' -> rf rc' GRID_total_import <= rf rc GRID_total_import.
Proof.
  intros P P' I I' t n n' soc soc' rc rc' H1 H2 H3 H4 H5 H6 H7 H8 H9 H10 H11 H12 C F Bz H13 H14.
  destruct (hours_relieved P P' I I' t n n' soc soc' rc rc' H1 H2 H3 H4 H5 H6 H7 H8 H9 H10 H11 H12 H13 H14) as (_ & _ & K). exact (K C F Bz).
Qed.
Print Assumptions C107_import_partial.
(** ** Whole runs *)
Lemma no_minimum_quiet P I t n soc : good_hour P I soc -> p_min_output P == 0 -> quiet P I t n soc.
Proof.
  intros (HP & HI & HS & HO) M c rc U. left. pose proof (uncorrected_inv P I t n soc c rc U) as (ps & r & u & pr & de & Ps & R & _ & _ & Rf & _).
  destruct (run_full P I t n HP HI soc HS ps (start_fields P I) c r (HO ps Ps) (start_zero P I) R) as (_ & _ & W & _).
  rewrite Rf, untouched_output. setoid_replace (minimum_heat P I) with 0 by (unfold minimum_heat; rewrite M; field).
  pose proof (W HP_RES_to_demand HP_heat_from_RES_to_demand ltac:(cbn; auto)). pose proof (W HP_import_to_demand HP_heat_from_import_to_demand ltac:(cbn; auto)).
  pose proof (W ES_to_HP_to_demand HP_heat_from_ES_to_demand ltac:(cbn; auto)). pose proof (W HP_RES_to_TS HP_heat_from_RES_to_TS ltac:(cbn; auto)). pose proof (W HP_import_to_TS HP_heat_from_import_to_TS ltac:(cbn; auto)). lra.
Qed.
Definition hours_ok (P P' : plant) (I I' : hour_in) : Prop := bigger_duty I I' /\ hour_ok P I /\ hour_ok P' I' /\ 1 <= cop (i_perf I').
Lemma label_pair {A} (R : A -> A -> Prop) l l' t x x' : Forall2 R l l' -> label l t = Ok x -> label l' t = Ok x' -> R x x'.
Proof.
  intros F H H'. apply label_inv in H as (_ & H). apply label_inv in H' as (_ & H'). revert H H'. generalize (Z.to_nat t).
  induction F as [|a b l l' E F IH]; intros [|m] H H'; cbn in H, H'; try discriminate; [injection H as <-; injection H' as <-; exact E|exact (IH m H H')].
Qed.
Lemma loops_relieved P P' year year' : bigger_heat_pump P P' -> plant_ok P -> no_store P -> surplus_first_orders P -> p_min_output P == 0 -> Forall2 (hours_ok P P') year year' ->
  forall ts n n' soc soc' l l', level_ok (p_battery P) soc -> level_ok (p_battery P') soc' ->
  run_loop P year ts (n, soc) = Ok l -> run_loop P' year' ts (n', soc') = Ok l' ->
  Forall2 (fun rc rc' => relieved rc rc' /\ ((forall I, contains P I AUX_to_demand) -> bought_for_heat rc' <= bought_for_heat rc)) l l'.
Proof.
  intros B HP NS SF M F. pose proof (same_plant_ok P P' B HP) as HP'.
  assert (M' : p_min_output P' == 0) by (destruct B as (_ & _ & _ & E & _); rewrite <- E; exact M).
  induction ts as [|t ts IH]; intros n n' soc soc' l l' L L'; cbn [run_loop].
  - intros H H'. injection H as <-. injection H' as <-. constructor.
  - destruct (label year t) as [I|e] eqn:La; cbn [bind]; [|discriminate]. destruct (label year' t) as [I'|e] eqn:La'; cbn [bind]; [|discriminate]. cbn [fst snd].
    destruct (hour_step P I t n soc) as [rc|e] eqn:H; cbn [bind]; [|discriminate]. destruct (hour_step P' I' t n' soc') as [rc'|e] eqn:H'; cbn [bind]; [|discriminate].
    destruct (run_loop P year ts _) as [l1|e] eqn:R; cbn [bind]; [|discriminate]. destruct (run_loop P' year' ts _) as [l1'|e] eqn:R'; cbn [bind]; [|discriminate].
    intros E E'. injection E as <-. injection E' as <-. destruct (label_pair _ _ _ _ _ _ F La La') as (D & HI & HI' & K).
    assert (G : good_hour P I soc). { split; [exact HP|]. split; [exact HI|]. split; [exact L|]. intros ps Hps. apply (SF I ps Hps). }
    assert (SF' : surplus_first_orders P').
    { intros J ps Hps. apply (SF J ps). destruct B as (_ & _ & _ & _ & _ & _ & _ & E1 & E2 & E3 & _). unfold processes_of, high_tariff in *. rewrite E1, E2, E3. exact Hps. }
    assert (G' : good_hour P' I' soc'). { split; [exact HP'|]. split; [exact HI'|]. split; [exact L'|]. intros ps Hps. apply (SF' I' ps Hps). }
    destruct (hours_relieved P P' I I' t n n' soc soc' rc rc' B D HP HI HI' NS K SF L L' (no_minimum_quiet _ _ _ _ _ G M) (no_minimum_quiet _ _ _ _ _ G' M') H H') as (A1 & A2 & _).
    constructor; [split; [exact A1|intro C; exact (A2 (C I))]|].
    refine (IH _ _ _ _ l1 l1' _ _ R R'); [exact (final_soc_range P I t n soc rc (proj1 (proj1 HP)) H)|exact (final_soc_range P' I' t n' soc' rc' (proj1 (proj1 HP')) H')].
Qed.
(** A whole run without a minimum output, hour by hour *)
Theorem C107_run_partial : forall P P' year year' first n l l', bigger_heat_pump P P' -> plant_ok P -> 0 <= b_initial_state (p_battery P) <= 1 -> no_store P -> surplus_first_orders P -> p_min_output P == 0 ->
  Forall2 (hours_ok P P') year year' -> run_timesteps P year first n = Ok l -> run_timesteps P' year' first n = Ok l' ->
  Forall2 (fun rc rc' => relieved rc rc' /\ ((forall I, contains P I AUX_to_demand) -> bought_for_heat rc' <= bought_for_heat rc)) l l'.
Proof.
  intros P P' year year' first n l l' B HP Hi NS SF M F H H'. unfold run_timesteps in H, H'.
  destruct (surplus_deficit_year (map (fun i => i_wind i + i_PV i) year) _) as [s|e]; cbn [bind] in H; [|discriminate].
  destruct (surplus_deficit_year (map (fun i => i_wind i + i_PV i) year') _) as [s'|e]; cbn [bind] in H'; [|discriminate].
  cbv zeta in H, H'. destruct (8760 <? first + n)%Z; [discriminate|].
  assert (Bc := proj1 (proj1 HP)). assert (Eb : p_battery P = p_battery P') by (destruct B as (_ & E & _); exact E).
  assert (L : level_ok (p_battery P) (init_state (p_battery P))) by (unfold level_ok, init_state; nra).
  assert (L' : level_ok (p_battery P') (init_state (p_battery P'))) by (rewrite <- Eb; exact L).
  apply (loops_relieved P P' year year' B HP NS SF M F _ _ _ _ _ _ _ L L' H H').
Qed.
Print Assumptions C107_run_partial.
(** So the heat of the back-up and its fuel over the period do not rise, and the heat of the heat pump does not fall. *)
Theorem C107_year_partial : forall P P' year year' first n l l', bigger_heat_pump P P' -> plant_ok P -> 0 <= b_initial_state (p_battery P) <= 1 -> no_store P -> surplus_first_orders P -> p_min_output P == 0 ->
  Forall2 (hours_ok P P') year year' -> run_timesteps P year first n = Ok l -> run_timesteps P' year' first n = Ok l' ->
  length l = length l' /\
  qsum (map (fun rc => rf rc AUX_demand) l') <= qsum (map (fun rc => rf rc AUX_demand) l) /\
  qsum (map (fun rc => rf rc AUX_usage) l') <= qsum (map (fun rc => rf rc AUX_usage) l) /\
  qsum (map (fun rc => rf rc HP_heat_total_output) l) <= qsum (map (fun rc => rf rc HP_heat_total_output) l').
Proof.
  intros P P' year year' first n l l' B HP Hi NS SF M F H H'. pose proof (C107_run_partial P P' year year' first n l l' B HP Hi NS SF M F H H') as A. clear - A.
  induction A as [|x y l l' E A IH]; cbn [map length]; [repeat split; apply Qle_refl|]. destruct IH as (I0 & I1 & I2 & I3). destruct E as ((E1 & E2 & E3) & _).
  split; [congruence|]. rewrite !qsum_cons. repeat split; lra.
Qed.
Print Assumptions C107_year_partial.
(** ** Which orders, which heat pumps *)
Lemma sorted_surplus_first (above : bool) order ps : StronglySorted Z.lt order -> ~ In (rank above ES_to_HP_to_demand) order ->
  mapM (if above then above_key else below_key) order = Ok ps -> order_ok ps /\ surplus_first ps.
Proof.
  intros Hs N1 H. split; [exact (sorted_order_ok above order ps Hs H)|]. apply mapM_rank in H. subst order.
  assert (Hna : forall p q, (rank above p < rank above q)%Z -> never_after ps p q).
  { intros p q Hr l1 l2 E Hin. subst ps. apply in_split in Hin. destruct Hin as (l3 & l4 & ->).
    rewrite !map_app in Hs. cbn [map] in Hs. rewrite <- app_assoc in Hs. cbn [app] in Hs. clear N1.
    induction (map (rank above) l3) as [|z l IH]; cbn [app] in Hs.
    - inversion Hs as [|? ? _ F]; subst. rewrite Forall_forall in F.
      specialize (F (rank above p)). assert (rank above q < rank above p)%Z; [|lia].
      apply F. apply in_or_app. right. left. reflexivity.
    - inversion Hs. apply IH. assumption. }
  split; [intro K; apply N1, in_map, K|].
  intros p Hp. cbn [In] in Hp. repeat (destruct Hp as [<-|Hp]; [split; apply Hna; destruct above; reflexivity|]). destruct Hp.
Qed.
(** Increasing numbers without 7 above the setpoint and 8 below *)
Theorem C107_increasing_orders : forall P, StronglySorted Z.lt (p_order_above P) -> StronglySorted Z.lt (p_order_below P) ->
  ~ In 7%Z (p_order_above P) -> ~ In 8%Z (p_order_below P) -> surplus_first_orders P.
Proof.
  intros P S1 S2 N1 N2 I ps [(_ & H)|(_ & H)]; [exact (sorted_surplus_first true _ ps S1 N1 H)|exact (sorted_surplus_first false _ ps S2 N2 H)].
Qed.
Print Assumptions C107_increasing_orders.
(** Two heat pumps that differ in their capacity only are as [bigger_duty] asks in every hour, for all four models of the performance. *)
Lemma zip2_nth {A B C} (f : A -> B -> C) a b i c : nth_error (zip2 f a b) i = Some c -> exists x y, nth_error a i = Some x /\ nth_error b i = Some y /\ c = f x y.
Proof.
  revert b i. induction a as [|x a IH]; intros [|y b] [|i] H; cbn in H; try discriminate.
  - injection H as <-. exists x, y. auto.
  - destruct (IH b i H) as (x0 & y0 & K). exists x0, y0. exact K.
Qed.
Lemma array_nth a b l i p : perf_array a b = Ok l -> nth_error l i = Some p -> nth_error a i = Some (cop p) /\ nth_error b i = Some (duty p).
Proof.
  unfold perf_array. destruct (length a =? length b)%nat; [|discriminate]. intros H K. assert (E : l = zip2 (fun c d => {| cop := c; duty := d |}) a b) by congruence. rewrite E in K. clear H E.
  apply zip2_nth in K as (x & y & H1 & H2 & ->). auto.
Qed.
Lemma repeat_value {A} (x y : A) m i : nth_error (repeat x m) i = Some y -> y = x.
Proof. intro H. apply nth_error_In in H. apply repeat_spec in H. exact H. Qed.
Theorem C107_sizes : forall lorentz h h' l l' i p p',
  h_capacity h <= h_capacity h' -> h_type h = h_type h' -> h_ambient_delta_t h = h_ambient_delta_t h' -> h_data_input h = h_data_input h' -> h_flow h = h_flow h' -> h_return h = h_return h' ->
  h_air h = h_air h' -> h_water h = h_water h' -> h_model h = h_model h' -> 0 <= h_capacity h ->
  performance lorentz h = Ok l -> performance lorentz h' = Ok l' -> nth_error l i = Some p -> nth_error l' i = Some p' -> 0 <= duty p' ->
  (duty p == 0 \/ cop p == cop p') /\ duty p <= duty p'.
Proof.
  intros lorentz h h' l l' i p p' C E1 E2 E3 E4 E5 E6 E7 E8 C0 H H' N N' D.
  unfold performance in H, H'. destruct (qeq_spec (h_capacity h) 0) as [Z|Z].
  - destruct (array_nth _ _ _ _ _ H N) as (_ & A). apply repeat_value in A. rewrite A. split; [left; reflexivity|exact D].
  - destruct (qeq_spec (h_capacity h') 0) as [Z'|Z']; [exfalso; apply Z; lra|].
    unfold heat_resource in *. rewrite <- E1, <- E2, <- E3, <- E4, <- E5, <- E6, <- E7, <- E8 in H'.
    destruct (h_model h) as [c|s| |o].
    + destruct (array_nth _ _ _ _ _ H N) as (A1 & A2). destruct (array_nth _ _ _ _ _ H' N') as (B1 & B2). apply repeat_value in A1, A2, B1, B2.
      rewrite A1, A2, B1, B2. split; [right; reflexivity|exact C].
    + destruct (dot_values (h_flow h)) as [fl|]; cbn [bind] in H, H'; [|discriminate]. destruct (dot_values (h_return h)) as [re|]; cbn [bind] in H, H'; [|discriminate].
      destruct (array_nth _ _ _ _ _ H N) as (A1 & A2). destruct (array_nth _ _ _ _ _ H' N') as (B1 & B2). apply repeat_value in A2, B2. rewrite A1 in B1. injection B1 as B1.
      rewrite B1, A2, B2. split; [right; reflexivity|]. unfold lorentz_duty, pmin. qcases; lra.
    + destruct (dot_values (h_flow h)) as [fl|]; cbn [bind] in H, H'; [|discriminate].
      destruct (array_nth _ _ _ _ _ H N) as (A1 & A2). destruct (array_nth _ _ _ _ _ H' N') as (B1 & B2). apply repeat_value in A2, B2. rewrite A1 in B1. injection B1 as B1.
      rewrite B1, A2, B2. split; [right; reflexivity|exact C].
    + assert (l = l'). { destruct (dot_values (h_flow h)) as [fl|]; cbn [bind] in H, H'; [|discriminate]. rewrite H in H'. congruence. }
      subst l'. rewrite N in N'. injection N' as <-. split; [right; reflexivity|apply Qle_refl].
Qed.
Print Assumptions C107_sizes.

(** ** Where it fails *)
(** A plant without a store, with electric back-up and a battery of 10 kWh *)
Definition pumped (size min_output : Q) (above : list Z) : plant := demo (demo_battery 10 (9 # 10)) size min_output (simple_tank 0 0 0) above [].
Lemma pumped_bigger s s' m above : s <= s' -> bigger_heat_pump (pumped s m above) (pumped s' m above).
Proof. intro H. repeat split. exact H. Qed.
Lemma pumped_ok s m above : 0 <= m -> plant_ok (pumped s m above).
Proof.
  intro C. unfold plant_ok, pumped, demo. cbn [p_battery p_min_runtime p_min_output p_aux electric_aux a_efficiency a_cost a_energy_density].
  split; [apply demo_battery_ok; lra|]. repeat split; try lra; discriminate.
Qed.
Lemma pumped_store s m above : no_store (pumped s m above).
Proof. intros x n src fl t q H. cbn in H. injection H as <-. destruct x; reflexivity. Qed.
Lemma pumped_hour pv el he pr c s m above : 0 <= pv -> 0 <= el -> 0 <= he <= 30 -> 0 < c -> 0 < s -> hour_ok (pumped s m above) (demo_hour pv el he pr c s).
Proof. intros A B C D E. unfold hour_ok, pumped, demo, demo_hour. cbn. repeat split; try lra. intros x _ _ q H. injection H as <-. destruct x; lra. Qed.
Definition without_battery_heat : list Z := [1; 2; 3; 4; 5; 6; 8; 9; 10; 11; 12; 13]%Z.
Lemma pumped_orders s m : surplus_first_orders (pumped s m without_battery_heat).
Proof. apply C107_increasing_orders; [repeat (constructor; [|repeat (constructor; try reflexivity)]); constructor|constructor|cbn; intuition discriminate|cbn; tauto]. Qed.
Lemma pumped_level s m above : level_ok (p_battery (pumped s m above)) 5.
Proof. split; cbn; lra. Qed.
(** A heat pump of 100 kW must deliver at least 20 kW, is switched off at 10 kW of demand, and leaves everything to the back-up; one of 5 kW delivers its half. *)
Theorem C107_minimum_output_refuted : exists P P' I I' rc rc', bigger_heat_pump P P' /\ bigger_duty I I' /\ plant_ok P /\ hour_ok P I /\ hour_ok P' I' /\ no_store P /\ 1 <= cop (i_perf I') /\ surplus_first_orders P /\ level_ok (p_battery P) 5 /\
  hour_step P I 0 [60; 50; 40] 5 = Ok rc /\ hour_step P' I' 0 [60; 50; 40] 5 = Ok rc' /\
  rf rc AUX_demand < rf rc' AUX_demand /\ rf rc' HP_heat_total_output < rf rc HP_heat_total_output.
Proof.
  exists (pumped 5 20 without_battery_heat), (pumped 100 20 without_battery_heat), (demo_hour 0 3 10 120 3 5), (demo_hour 0 3 10 120 3 100).
  assert (K : match hour_step (pumped 5 20 without_battery_heat) (demo_hour 0 3 10 120 3 5) 0 [60; 50; 40] 5, hour_step (pumped 100 20 without_battery_heat) (demo_hour 0 3 10 120 3 100) 0 [60; 50; 40] 5 with
    Ok r, Ok r' => qlt (rf r AUX_demand) (rf r' AUX_demand) && qlt (rf r' HP_heat_total_output) (rf r HP_heat_total_output) | _, _ => false end = true) by (vm_compute; reflexivity).
  destruct (hour_step (pumped 5 20 _) _ _ _ _) as [r|]; [|discriminate K]. destruct (hour_step (pumped 100 20 _) _ _ _ _) as [r'|]; [|discriminate K]. apply andb_prop in K as (K1 & K2).
  exists r, r'. split; [apply pumped_bigger; lra|]. split; [split; [reflexivity|]; split; [reflexivity|]; split; [reflexivity|]; split; [reflexivity|]; split; [reflexivity|]; split; [reflexivity|]; split; [reflexivity|]; split; [right; reflexivity|cbn; lra]|].
  split; [apply pumped_ok; lra|]. split; [apply pumped_hour; lra|]. split; [apply pumped_hour; lra|]. split; [apply pumped_store|]. split; [cbn; lra|]. split; [apply pumped_orders|]. split; [apply pumped_level|].
  split; [reflexivity|]. split; [reflexivity|]. split; apply qlt_true; assumption.
Qed.
Print Assumptions C107_minimum_output_refuted.
(** With the heat pump on bought electricity before the surplus, a bigger one buys although there is a surplus for the back-up. *)
Definition import_first : list Z := [1; 2; 3; 8; 4; 5; 6; 9; 12; 13]%Z.
Theorem C107_order_refuted : exists P P' I I' rc rc', bigger_heat_pump P P' /\ bigger_duty I I' /\ plant_ok P /\ hour_ok P I /\ hour_ok P' I' /\ no_store P /\ 1 <= cop (i_perf I') /\
  (forall ps, processes_of P I ps -> order_ok ps /\ ~ In ES_to_HP_to_demand ps /\ In AUX_to_demand ps) /\
  hour_step P I 0 [60; 50; 40] 5 = Ok rc /\ hour_step P' I' 0 [60; 50; 40] 5 = Ok rc' /\ bought_for_heat rc < bought_for_heat rc'.
Proof.
  exists (pumped 2 0 import_first), (pumped 8 0 import_first), (demo_hour 12 3 8 120 3 2), (demo_hour 12 3 8 120 3 8).
  assert (K : match hour_step (pumped 2 0 import_first) (demo_hour 12 3 8 120 3 2) 0 [60; 50; 40] 5, hour_step (pumped 8 0 import_first) (demo_hour 12 3 8 120 3 8) 0 [60; 50; 40] 5 with
    Ok r, Ok r' => qlt (bought_for_heat r) (bought_for_heat r') | _, _ => false end = true) by (vm_compute; reflexivity).
  destruct (hour_step (pumped 2 0 _) _ _ _ _) as [r|]; [|discriminate K]. destruct (hour_step (pumped 8 0 _) _ _ _ _) as [r'|]; [|discriminate K].
  exists r, r'. split; [apply pumped_bigger; lra|]. split; [split; [reflexivity|]; split; [reflexivity|]; split; [reflexivity|]; split; [reflexivity|]; split; [reflexivity|]; split; [reflexivity|]; split; [reflexivity|]; split; [right; reflexivity|cbn; lra]|].
  split; [apply pumped_ok; lra|]. split; [apply pumped_hour; lra|]. split; [apply pumped_hour; lra|]. split; [apply pumped_store|]. split; [cbn; lra|].
  split. { intros ps [(_ & H)|(H & _)]; [|exfalso; apply H; reflexivity]. injection H as <-. split; [apply order_okb_spec; reflexivity|]. cbn. split; [intuition discriminate|tauto]. }
  split; [reflexivity|]. split; [reflexivity|]. apply qlt_true, K.
Qed.
Print Assumptions C107_order_refuted.
(** 8 kW instead of 4 kW for a demand of 10 kWh: all hypotheses of the theorems hold, and the back-up does 2 kWh instead of 6. *)
Example C107_case : bigger_heat_pump (pumped 4 0 without_battery_heat) (pumped 8 0 without_battery_heat) /\ plant_ok (pumped 4 0 without_battery_heat) /\ no_store (pumped 4 0 without_battery_heat) /\
  surplus_first_orders (pumped 4 0 without_battery_heat) /\ hours_ok (pumped 4 0 without_battery_heat) (pumped 8 0 without_battery_heat) (demo_hour 4 3 10 120 3 4) (demo_hour 4 3 10 120 3 8) /\
  contains (pumped 4 0 without_battery_heat) (demo_hour 4 3 10 120 3 4) AUX_to_demand /\
  quiet (pumped 4 0 without_battery_heat) (demo_hour 4 3 10 120 3 4) 0 [60; 50; 40] 5 /\ quiet (pumped 8 0 without_battery_heat) (demo_hour 4 3 10 120 3 8) 0 [60; 50; 40] 5 /\
  exists rc rc', hour_step (pumped 4 0 without_battery_heat) (demo_hour 4 3 10 120 3 4) 0 [60; 50; 40] 5 = Ok rc /\ hour_step (pumped 8 0 without_battery_heat) (demo_hour 4 3 10 120 3 8) 0 [60; 50; 40] 5 = Ok rc' /\
    rf rc AUX_demand == 6 /\ rf rc' AUX_demand == 2 /\ bought_for_heat rc' < bought_for_heat rc.
Proof.
  split; [apply pumped_bigger; lra|]. split; [apply pumped_ok; lra|]. split; [apply pumped_store|]. split; [apply pumped_orders|].
  split. { split; [split; [reflexivity|]; split; [reflexivity|]; split; [reflexivity|]; split; [reflexivity|]; split; [reflexivity|]; split; [reflexivity|]; split; [reflexivity|]; split; [right; reflexivity|cbn; lra]|].
           split; [apply pumped_hour; lra|]. split; [apply pumped_hour; lra|cbn; lra]. }
  split. { intros ps [(_ & H)|(H & _)]; [|exfalso; apply H; reflexivity]. injection H as <-. cbn. tauto. }
  split; [apply quietb_true; vm_compute; reflexivity|]. split; [apply quietb_true; vm_compute; reflexivity|].
  assert (K : match hour_step (pumped 4 0 without_battery_heat) (demo_hour 4 3 10 120 3 4) 0 [60; 50; 40] 5, hour_step (pumped 8 0 without_battery_heat) (demo_hour 4 3 10 120 3 8) 0 [60; 50; 40] 5 with
    Ok r, Ok r' => qeq (rf r AUX_demand) 6 && (qeq (rf r' AUX_demand) 2 && qlt (bought_for_heat r') (bought_for_heat r)) | _, _ => false end = true) by (vm_compute; reflexivity).
  destruct (hour_step (pumped 4 0 _) _ _ _ _) as [r|]; [|discriminate K]. destruct (hour_step (pumped 8 0 _) _ _ _ _) as [r'|]; [|discriminate K].
  apply andb_prop in K as (K1 & K). apply andb_prop in K as (K2 & K3). exists r, r'. split; [reflexivity|]. split; [reflexivity|]. split; [apply qeq_true_inv, K1|]. split; [apply qeq_true_inv, K2|apply qlt_true, K3].
Qed.
