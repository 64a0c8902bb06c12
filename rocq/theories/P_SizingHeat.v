(** C104, continued: a bigger battery that also drives the heat pump, in a plant without a heat store. *)
From Verif Require Import Base BaseL M_Battery S_Battery M_HeatPump M_Tools M_FixedOrder S_FixedOrder L_FixedOrder L_FixedOrderSign L_FixedOrderHour L_FixedOrderProps L_FixedOrderRun P_FixedOrder S_HeatPumpSize L_HeatPumpSize P_HeatPumpSize S_Easier L_Easier P_Easier S_Sizing S_SizingHeat.
From Verif Require L_Sizing L_SizingHeat.
Require Import Sorting.Sorted.

Lemma bigger_plant_ok P P' : bigger_battery P P' -> plant_ok P -> plant_ok P'.
Proof.
  intros (G1 & _ & G2 & G3 & G4 & G5 & G6 & _ & E1 & E2 & E3 & _) ((B1 & B2 & B3 & B4 & B5 & B6) & R). split; [|rewrite <- E1, <- E2, <- E3; exact R].
  unfold battery_ok. rewrite <- G2, <- G3, <- G4, <- G5, <- G6. split; [lra|]. tauto.
Qed.
Lemma bigger_hour_ok P P' I : bigger_battery P P' -> hour_ok P I -> hour_ok P' I.
Proof. intros (_ & _ & _ & _ & _ & _ & _ & E1 & _ & _ & _ & E2 & _ & _ & _ & _ & E3). unfold hour_ok. rewrite <- E1, <- E2, <- E3. tauto. Qed.
Lemma bigger_processes P P' I ps : bigger_battery P P' -> processes_of P I ps -> processes_of P' I ps.
Proof. intros (_ & _ & _ & _ & _ & _ & _ & _ & _ & _ & _ & _ & _ & E1 & E2 & E3 & _). unfold processes_of, high_tariff. rewrite E1, E2, E3. tauto. Qed.
Lemma sides_start Q I s (r0 : fields) : hour_ok Q I -> (forall f, In f (flat_map writes all_processes) -> r0 f = 0) -> L_SizingHeat.side I [] (init_checks Q I s) r0.
Proof.
  intros HI Z. destruct HI as (_ & _ & _ & _ & Hm & _ & Hd & _).
  assert (V : forall f, In f (flat_map writes all_processes) -> r0 f == 0) by (intros f Hf; rewrite (Z f Hf); reflexivity). clear Z.
  constructor; unfold init_checks; cbn [elec_unmet heat_unmet RES_left hp_usage ts_discharge ts_charge c_soc aux_left].
  - exact Hd.
  - exact Hm.
  - split; [reflexivity|]. split; [reflexivity|]. apply V. cbn. auto 60.
  - intros [].
  - intros [].
  - unfold surplus_deficit_hour. qcases; cbn [bal_surplus bal_deficit]; first [left; lra|right; lra].
  - intros _. apply V. cbn. auto 60.
  - intros _. apply V. cbn. auto 60.
  - intros _. apply V. cbn. auto 60.
  - split; apply V; cbn; auto 60.
  - rewrite !V by (cbn; auto 60). split; apply Qle_refl.
  - right. split; apply V; cbn; auto 60.
Qed.
Lemma pairs_start P P' I s s' (r0 r0' : fields) : plant_ok P -> 0 <= s -> s <= s' -> p_max_heat P = p_max_heat P' -> (forall f, In f (flat_map writes all_processes) -> r0 f = 0) -> (forall f, In f (flat_map writes all_processes) -> r0' f = 0) ->
  L_SizingHeat.pair P P' s s' [] (init_checks P I s) r0 (init_checks P' I s') r0'.
Proof.
  intros HP S0 Ls _ Z Z'.
  assert (V : forall f, In f (flat_map writes all_processes) -> r0 f == 0) by (intros f Hf; rewrite (Z f Hf); reflexivity). assert (V' : forall f, In f (flat_map writes all_processes) -> r0' f == 0) by (intros f Hf; rewrite (Z' f Hf); reflexivity). clear Z Z'.
  assert (D1 : r0 ES_discharging_to_demand + r0 ES_discharging_to_HP == 0) by (rewrite !V by (cbn; auto 60); ring).
  assert (D2 : r0' ES_discharging_to_demand + r0' ES_discharging_to_HP == 0) by (rewrite !V' by (cbn; auto 60); ring).
  assert (W : forall f, In f (flat_map writes all_processes) -> r0 f <= r0' f /\ r0' f <= r0 f) by (intros f Hf; rewrite (V f Hf), (V' f Hf); split; apply Qle_refl).
  constructor; unfold init_checks; cbn [elec_unmet heat_unmet RES_left hp_usage ts_discharge ts_charge c_soc aux_left]; intros; try reflexivity; try apply Qle_refl; try (apply W; cbn; auto 60).
  - clear V V' W. repeat match goal with |- _ /\ _ => split end; lra.
  - clear V V' W. split; lra.
  - exists 0. split; [split; [apply Qle_refl|apply (proj1 HP)]|]. intros [].
Qed.
Lemma charged_both b b' s s' d d' x x' w : x == Qmin w (b_capacity b - (s - d)) -> x' == Qmin w (b_capacity b' - (s' - d')) -> 0 <= s' - s <= b_capacity b' - b_capacity b -> d <= d' -> d' - d <= s' - s -> x <= x'.
Proof. intros -> -> G D1 D2. apply Q.min_le_compat_l. lra. Qed.

Lemma hours_served P P' I t n n' soc soc' rc rc' : bigger_battery P P' -> plant_ok P -> hour_ok P I -> no_store P -> surplus_before_battery_orders P ->
  level_ok (p_battery P) soc -> 0 <= soc' - soc <= b_capacity (p_battery P') - b_capacity (p_battery P) -> hour_step P I t n soc = Ok rc -> hour_step P' I t n' soc' = Ok rc' ->
  served rc rc' /\ rf rc' ES_final_soc - rf rc ES_final_soc <= b_capacity (p_battery P') - b_capacity (p_battery P) /\ (quiet P I t n soc -> quiet P' I t n' soc' -> bought_back_up rc' <= bought_back_up rc).
Proof.
  intros B HP HI NS SB L Gap H H'. pose proof (bigger_plant_ok P P' B HP) as HP'. pose proof (bigger_hour_ok P P' I B HI) as HI'. pose proof B as (G1 & _ & G2 & G3 & G4 & G5 & G6 & _ & _ & _ & Ea & Et & _ & _ & _ & _ & Em).
  assert (L' : level_ok (p_battery P') soc') by (destruct L as (L1 & L2); split; lra).
  assert (NS' : no_store P') by (unfold no_store in *; rewrite <- Et; exact NS).
  assert (G : good_hour P I soc). { split; [exact HP|]. split; [exact HI|]. split; [exact L|]. intros ps Hps. apply (SB I ps Hps). }
  destruct (hour_open P I t n soc rc G H) as (ps & c & r & u & pr & de & rc0 & rc1 & Ps & Oo & R & A & Sg & W & Z & U & _ & Rf & Un & C & ->).
  assert (G' : good_hour P' I soc').
  { split; [exact HP'|]. split; [exact HI'|]. split; [exact L'|]. intros ps' Hps. rewrite (processes_same P' I ps' ps Hps (bigger_processes P P' I ps B Ps)). exact Oo. }
  destruct (hour_open P' I t n' soc' rc' G' H') as (ps' & c' & r' & u' & pr' & de' & rc0' & rc1' & Ps' & Oo' & R' & A' & Sg' & W' & Z' & U' & _ & Rf' & Un' & C' & ->).
  assert (ps' = ps) by (apply (processes_same P' I); [exact Ps'|exact (bigger_processes P P' I ps B Ps)]). subst ps'.
  assert (El : is_electric P = is_electric P') by (unfold is_electric; rewrite Ea; reflexivity).
  assert (Pr : L_SizingHeat.pair P P' soc soc' (rev ps) c r c' r' /\ L_SizingHeat.side I (rev ps) c r /\ L_SizingHeat.side I (rev ps) c' r').
  { apply (L_SizingHeat.pair_run P P' I t n n' soc soc' B HP HP' HI HI' NS NS' Gap ps Oo (proj2 (SB I ps Ps)) ps [] (init_checks P I soc) (start_fields P I) (init_checks P' I soc') (start_fields P' I)); try assumption; [reflexivity|..].
    - apply pairs_start; try assumption; [apply L|lra|apply start_zero|apply start_zero].
    - apply sides_start; [assumption|apply start_zero].
    - apply sides_start; [assumption|apply start_zero].
    - apply init_sgn; assumption.
    - apply init_sgn; assumption. }
  destruct Pr as (Y & Sd & Sd'). destruct (L_SizingHeat.z_ts _ _ _ _ Sd) as (_ & _ & T). destruct (L_SizingHeat.z_ts _ _ _ _ Sd') as (_ & _ & T'). destruct (L_SizingHeat.z_ni _ _ _ _ Sd) as (I1 & I2). destruct (L_SizingHeat.z_ni _ _ _ _ Sd') as (I1' & I2').
  pose proof (L_SizingHeat.y_ie _ _ _ _ _ _ _ _ _ Y) as Y1. pose proof (L_SizingHeat.y_ih _ _ _ _ _ _ _ _ _ Y) as Y2. pose proof (L_SizingHeat.y_ax _ _ _ _ _ _ _ _ _ Y) as Y3. pose proof (L_SizingHeat.y_ex _ _ _ _ _ _ _ _ _ Y) as Y4. pose proof (L_SizingHeat.y_de _ _ _ _ _ _ _ _ _ Y) as Y5. pose proof (L_SizingHeat.y_dh _ _ _ _ _ _ _ _ _ Y) as Y6.
  assert (Im : rf rc0' GRID_total_import <= rf rc0 GRID_total_import).
  { rewrite Rf, Rf', !shown_import, <- El. destruct (is_electric P); lra. }
  assert (Gr : forall f, In f grid_entries \/ f = ED_ES \/ f = ES_discharging_to_HP -> rf (complete I rc1) f = rf rc0 f).
  { intros f [Hf|Hf]; [exact (corrected_grid _ _ _ _ _ _ _ f C Hf)|]. destruct C as [-> _|m x _ _ _ _ _ _ E1|m m' x _ _ _ _ _ _ _ E1|m _ _ _ _ E1]; destruct Hf as [->| ->]; fld; rewrite ?E1; fld; reflexivity. }
  assert (Gr' : forall f, In f grid_entries \/ f = ED_ES \/ f = ES_discharging_to_HP -> rf (complete I rc1') f = rf rc0' f).
  { intros f [Hf|Hf]; [exact (corrected_grid _ _ _ _ _ _ _ f C' Hf)|]. destruct C' as [-> _|m x _ _ _ _ _ _ E1|m m' x _ _ _ _ _ _ _ E1|m _ _ _ _ E1]; destruct Hf as [->| ->]; fld; rewrite ?E1; fld; reflexivity. }
  assert (Sh : forall Q J s v q g f, f ED_ES = f ED_ES -> finish_fields Q J s v q g f ED_ES = f ED_ES /\ finish_fields Q J s v q g f ES_discharging_to_HP = f ES_discharging_to_HP).
  { intros. unfold finish_fields. destruct (hi Q J); split; fld; reflexivity. }
  destruct (L_SizingHeat.y_dis _ _ _ _ _ _ _ _ _ Y) as (D1 & D2 & D3 & D4 & D5 & D6). destruct (L_SizingHeat.y_chg _ _ _ _ _ _ _ _ _ Y) as (w & W1 & W2).
  pose proof (L_SizingHeat.z_x _ _ _ _ Sd) as X. pose proof (L_SizingHeat.z_x _ _ _ _ Sd') as X'. pose proof (L_SizingHeat.z_nx _ _ _ _ Sd) as Nx. pose proof (L_SizingHeat.z_nx _ _ _ _ Sd') as Nx'.
  assert (Lv : 0 <= rf rc0' ES_final_soc - rf rc0 ES_final_soc <= b_capacity (p_battery P') - b_capacity (p_battery P)).
  { rewrite Rf, Rf', !shown_level. set (x := r ES_charging_from_RES) in *. set (x' := r' ES_charging_from_RES) in *. set (d := r ES_discharging_to_demand + r ES_discharging_to_HP) in *. set (d' := r' ES_discharging_to_demand + r' ES_discharging_to_HP) in *.
    rewrite (L_SizingHeat.new_soc_compat (p_battery P) (x + r ES_charging_from_import - d) (x - d) soc (proj1 HP) L) by lra. rewrite (L_SizingHeat.new_soc_compat (p_battery P') (x' + r' ES_charging_from_import - d') (x' - d') soc' (proj1 HP') L') by lra.
    assert (Xd : forall r0 : fields, r0 ES_discharging_to_demand == 0 /\ r0 ES_discharging_to_HP == 0 -> r0 ES_discharging_to_demand + r0 ES_discharging_to_HP == 0) by (intros r0 (E1 & E2); lra).
    apply (L_SizingHeat.levels_both _ _ soc soc' d d' x x' w); try assumption; [exact (proj1 HP)|exact (proj1 HP')|].
    destruct (in_dec L_SizingHeat.Process_dec RES_to_ES (rev ps)) as [In0|In0]; [|left; split; [exact (Nx In0)|exact (Nx' In0)]].
    destruct (W2 In0) as (W3 & W4). fold x d in W3. fold x' d' in W4.
    assert (Both : d' == 0 -> (x == 0 /\ x' == 0) \/ (d == 0 /\ d' == 0 /\ x == Qmin w (b_capacity (p_battery P) - soc) /\ x' == Qmin w (b_capacity (p_battery P') - soc'))).
    { intro E. right. assert (E0 : d == 0) by lra. split; [exact E0|]. split; [exact E|]. clear - W3 W4 E E0. split; [rewrite W3|rewrite W4]; apply L_Sizing.min_compat; try reflexivity; lra. }
    destruct X' as [(X' & _)|X']; [|apply Both, (Xd r'), X'].
    left. split; [|exact X']. destruct X as [(X & _)|X]; [exact X|]. apply Xd in X. fold d in X.
    pose proof (charged_both _ _ _ _ _ _ _ _ _ W3 W4 Gap D2 D3) as M. assert (N : 0 <= x); [|lra]. rewrite W3. destruct L as (L1 & L2). apply Q.min_glb; lra. }
  split; [|split].
  - unfold served. rewrite !Gr, !Gr' by (clear; cbn; tauto). split; [exact Im|]. destruct (Sh P I soc u pr de r eq_refl) as (E1 & E2). destruct (Sh P' I soc' u' pr' de' r' eq_refl) as (E1' & E2').
    split; [rewrite Rf, Rf', !shown_demand; exact Y1|]. split; [rewrite Rf, Rf', !untouched_heat_pump; lra|]. split; [rewrite Rf, Rf', !shown_export; exact Y4|].
    split; [rewrite Rf, Rf', E1, E1'; exact Y5|]. split; [rewrite Rf, Rf', E2, E2'; exact Y6|]. lra.
  - rewrite !Gr, !Gr' by (clear; cbn; tauto). apply Lv.
  - intros Q Q'. pose proof (quiet_corrected P I t n soc c rc0 rc1 Q Un C). pose proof (quiet_corrected P' I t n' soc' c' rc0' rc1' Q' Un' C'). subst rc1 rc1'.
    unfold bought_back_up.
    change (rf rc0' AUX_demand - rf rc0' AUX_RES_to_demand - rf rc0' AUX_RES_to_TS <= rf rc0 AUX_demand - rf rc0 AUX_RES_to_demand - rf rc0 AUX_RES_to_TS).
    rewrite Rf, Rf', !shown_back_up. exact Y3.
Qed.
(** One hour *)
Theorem C104_heat_hour_partial : forall P P' I t n n' soc soc' rc rc', bigger_battery P P' -> plant_ok P -> hour_ok P I -> no_store P -> surplus_before_battery_orders P ->
  level_ok (p_battery P) soc -> 0 <= soc' - soc <= b_capacity (p_battery P') - b_capacity (p_battery P) -> hour_step P I t n soc = Ok rc -> hour_step P' I t n' soc' = Ok rc' -> served rc rc'.
Proof. intros P P' I t n n' soc soc' rc rc' H1 H2 H3 H4 H5 H6 H7 H H'. exact (proj1 (hours_served P P' I t n n' soc soc' rc rc' H1 H2 H3 H4 H5 H6 H7 H H')). Qed.
Print Assumptions C104_heat_hour_partial.
(** The back-up has no more to do, apart from what it does with surplus, in hours that the minimum output rule leaves alone. *)
Theorem C104_heat_back_up_partial : forall P P' I t n n' soc soc' rc rc', bigger_battery P P' -> plant_ok P -> hour_ok P I -> no_store P -> surplus_before_battery_orders P ->
  level_ok (p_battery P) soc -> 0 <= soc' - soc <= b_capacity (p_battery P') - b_capacity (p_battery P) -> quiet P I t n soc -> quiet P' I t n' soc' -> hour_step P I t n soc = Ok rc -> hour_step P' I t n' soc' = Ok rc' ->
  bought_back_up rc' <= bought_back_up rc.
Proof. intros P P' I t n n' soc soc' rc rc' H1 H2 H3 H4 H5 H6 H7 Q Q' H H'. destruct (hours_served P P' I t n n' soc soc' rc rc' H1 H2 H3 H4 H5 H6 H7 H H') as (_ & _ & K). exact (K Q Q'). Qed.
Print Assumptions C104_heat_back_up_partial.
Lemma loops_served P P' year : bigger_battery P P' -> plant_ok P -> Forall (hour_ok P) year -> no_store P -> surplus_before_battery_orders P -> forall ts n n' soc soc' l l',
  level_ok (p_battery P) soc -> 0 <= soc' - soc <= b_capacity (p_battery P') - b_capacity (p_battery P) ->
  run_loop P year ts (n, soc) = Ok l -> run_loop P' year ts (n', soc') = Ok l' -> Forall2 served l l'.
Proof.
  intros B HP HI NS SB. rewrite Forall_forall in HI. induction ts as [|t ts IH]; intros n n' soc soc' l l' L Gap; cbn [run_loop].
  - intros H H'. injection H as <-. injection H' as <-. constructor.
  - destruct (label year t) as [I|e] eqn:La; cbn [bind]; [|discriminate]. cbn [fst snd].
    destruct (hour_step P I t n soc) as [rc|e] eqn:H; cbn [bind]; [|discriminate]. destruct (hour_step P' I t n' soc') as [rc'|e] eqn:H'; cbn [bind]; [|discriminate].
    destruct (run_loop P year ts _) as [l1|e] eqn:R; cbn [bind]; [|discriminate]. destruct (run_loop P' year ts _) as [l1'|e] eqn:R'; cbn [bind]; [|discriminate].
    intros E E'. injection E as <-. injection E' as <-. apply label_inv in La as (_ & La). apply nth_error_In in La.
    destruct (hours_served P P' I t n n' soc soc' rc rc' B HP (HI I La) NS SB L Gap H H') as (A1 & A2 & _).
    constructor; [exact A1|]. refine (IH _ _ _ _ l1 l1' (final_soc_range P I t n soc rc (proj1 (proj1 HP)) H) _ R R').
    destruct A1 as (_ & _ & _ & _ & _ & _ & A1). split; lra.
Qed.
(** A whole run, hour by hour *)
Theorem C104_heat_run_partial : forall P P' year first n l l', bigger_battery P P' -> plant_ok P -> 0 <= b_initial_state (p_battery P) <= 1 -> Forall (hour_ok P) year -> no_store P -> surplus_before_battery_orders P ->
  run_timesteps P year first n = Ok l -> run_timesteps P' year first n = Ok l' -> Forall2 served l l'.
Proof.
  intros P P' year first n l l' B HP Hi HI NS SB H H'. unfold run_timesteps in H, H'.
  destruct (surplus_deficit_year _ _) as [s|e]; cbn [bind] in H, H'; [|discriminate]. cbv zeta in H, H'. destruct (8760 <? first + n)%Z; [discriminate|].
  assert (Bc := proj1 (proj1 HP)). pose proof B as (Bk & Ei & _).
  refine (loops_served P P' year B HP HI NS SB _ _ _ _ _ _ _ _ _ H H'); [unfold level_ok, init_state; nra|unfold init_state; rewrite <- Ei; nra].
Qed.
Print Assumptions C104_heat_run_partial.
(** So over the whole period no more is bought and no more is sold. *)
Theorem C104_heat_year_partial : forall P P' year first n l l', bigger_battery P P' -> plant_ok P -> 0 <= b_initial_state (p_battery P) <= 1 -> Forall (hour_ok P) year -> no_store P -> surplus_before_battery_orders P ->
  run_timesteps P year first n = Ok l -> run_timesteps P' year first n = Ok l' ->
  length l = length l' /\
  qsum (map (fun rc => rf rc GRID_total_import) l') <= qsum (map (fun rc => rf rc GRID_total_import) l) /\
  qsum (map (fun rc => rf rc GRID_total_export) l') <= qsum (map (fun rc => rf rc GRID_total_export) l) /\
  qsum (map (fun rc => rf rc ES_discharging_to_HP) l) <= qsum (map (fun rc => rf rc ES_discharging_to_HP) l').
Proof.
  intros P P' year first n l l' B HP Hi HI NS SB H H'. pose proof (C104_heat_run_partial P P' year first n l l' B HP Hi HI NS SB H H') as A. clear - A.
  induction A as [|x y l l' E A IH]; cbn [map length]; [split; [reflexivity|]; repeat match goal with |- _ /\ _ => split end; apply Qle_refl|].
  destruct IH as (I0 & I1 & I2 & I3). destruct E as (E1 & _ & _ & E2 & _ & E3 & _). split; [congruence|]. rewrite !qsum_cons. split; [lra|]. split; lra.
Qed.
Print Assumptions C104_heat_year_partial.

(** ** Which orders *)
Lemma sorted_surplus_before (above : bool) order ps : StronglySorted Z.lt order -> (In (rank above ES_to_HP_to_demand) order -> In 4%Z order) -> ~ In (rank above Import_to_ES) order ->
  mapM (if above then above_key else below_key) order = Ok ps -> order_ok ps /\ surplus_before_battery ps.
Proof.
  intros Hs N1 N2 H. split; [exact (sorted_order_ok above order ps Hs H)|]. pose proof (mapM_rank above _ _ H) as E.
  split; [intro K; apply N2; rewrite <- E; exact (in_map _ _ _ K)|].
  split; [intros p Hp; apply (sorted_never_after above order ps p _ Hs H); cbn [In] in Hp; repeat (destruct Hp as [<-|Hp]; [destruct above; reflexivity|]); destruct Hp|].
  split; [intros p Hp; apply (sorted_never_after above order ps p _ Hs H); cbn [In] in Hp; repeat (destruct Hp as [<-|Hp]; [destruct above; reflexivity|]); destruct Hp|].
  intro K. assert (F : In 4%Z order) by (apply N1; rewrite <- E; exact (in_map _ _ _ K)). rewrite <- E in F. apply in_map_iff in F as (p & Rp & Ip).
  assert (p = HP_RES_to_demand) by (destruct above, p; cbn in Rp; try discriminate Rp; reflexivity). subst p. exact Ip.
Qed.
(** Increasing numbers, with 7 above the setpoint and 8 below it only together with 4, and without 14 below: all other processes may be there. *)
Theorem C104_heat_increasing_orders : forall P, StronglySorted Z.lt (p_order_above P) -> StronglySorted Z.lt (p_order_below P) ->
  (In 7%Z (p_order_above P) -> In 4%Z (p_order_above P)) -> (In 8%Z (p_order_below P) -> In 4%Z (p_order_below P)) -> ~ In 14%Z (p_order_below P) -> surplus_before_battery_orders P.
Proof.
  intros P S1 S2 N1 N2 N3 I ps [(_ & H)|(_ & H)].
  - assert (N : ~ In 99%Z (p_order_above P)).
    { intro K. clear - K H. revert ps H. induction (p_order_above P) as [|n o IH]; intros ps H; [destruct K|]. cbn [mapM] in H. destruct K as [->|K]; [discriminate H|].
      destruct (above_key n); cbn [bind] in H; [|discriminate]. destruct (mapM above_key o) as [q|] eqn:E; cbn [bind] in H; [|discriminate]. exact (IH K q eq_refl). }
    exact (sorted_surplus_before true _ ps S1 N1 N H).
  - exact (sorted_surplus_before false _ ps S2 N2 N3 H).
Qed.
Print Assumptions C104_heat_increasing_orders.

(** ** Where it fails, and a case *)
Definition stored (capacity leak size : Q) (above below : list Z) : plant :=
  demo {| b_capacity := capacity; b_initial_state := 1 # 2; b_charge_max := 100; b_discharge_max := 100; b_charge_eff := 1; b_discharge_eff := 1; b_self_discharge := leak |} size 0 (simple_tank 0 0 0) above below.
Lemma stored_ok c s above below : 0 <= c -> plant_ok (stored c (1 # 10) s above below).
Proof. intro C. unfold plant_ok, battery_ok, stored, demo. cbn. repeat split; try lra; discriminate. Qed.
Lemma stored_none c l s above below : no_store (stored c l s above below).
Proof. intros x n src fl t q H. cbn in H. injection H as <-. destruct x; reflexivity. Qed.
Lemma stored_hour pv el he pr c cap l s above below : 0 <= pv -> 0 <= el -> 0 <= he <= 30 -> 0 < c -> 0 < s -> hour_ok (stored cap l s above below) (demo_hour pv el he pr c s).
Proof. intros A B C D E. unfold hour_ok, stored, demo, demo_hour. cbn. repeat split; try lra. intros x _ _ q H. injection H as <-. destruct x; lra. Qed.
Definition below_without14 : list Z := [1; 2; 3; 4; 5; 6; 7; 8; 9; 10; 11; 12; 13; 15]%Z.
Lemma stored_orders c l s : surplus_before_battery_orders (stored c l s all13 below_without14).
Proof. apply C104_heat_increasing_orders; [repeat (constructor; [|repeat (constructor; try reflexivity)]); constructor|repeat (constructor; [|repeat (constructor; try reflexivity)]); constructor|..]; cbn; intuition discriminate. Qed.
(** The heat pump runs from the battery and not from the surplus. A full-size battery is emptied into the heat pump and then charged; having lost a tenth of what it held at the start of the hour, it ends with less than a small one. *)
Definition without4 : list Z := [1; 2; 3; 6; 7; 8; 9; 12; 13]%Z.
Theorem C104_heat_order_refuted : exists P P' I rc rc', bigger_battery P P' /\ plant_ok P /\ hour_ok P I /\ no_store P /\ StronglySorted Z.lt (p_order_above P) /\ p_order_below P = [] /\
  hour_step P I 0 [60; 50; 40] (init_state (p_battery P)) = Ok rc /\ hour_step P' I 0 [60; 50; 40] (init_state (p_battery P')) = Ok rc' /\
  rf rc' ES_final_soc < rf rc ES_final_soc.
Proof.
  exists (stored 2 (1 # 10) 40 without4 []), (stored 20 (1 # 10) 40 without4 []), (demo_hour (3 # 2) 0 30 120 3 40).
  assert (K : match hour_step (stored 2 (1 # 10) 40 without4 []) (demo_hour (3 # 2) 0 30 120 3 40) 0 [60; 50; 40] (init_state (p_battery (stored 2 (1 # 10) 40 without4 []))), hour_step (stored 20 (1 # 10) 40 without4 []) (demo_hour (3 # 2) 0 30 120 3 40) 0 [60; 50; 40] (init_state (p_battery (stored 20 (1 # 10) 40 without4 []))) with
    Ok r, Ok r' => qlt (rf r' ES_final_soc) (rf r ES_final_soc) | _, _ => false end = true) by (vm_compute; reflexivity).
  destruct (hour_step (stored 2 _ _ _ _) _ _ _ _) as [r|]; [|discriminate K]. destruct (hour_step (stored 20 _ _ _ _) _ _ _ _) as [r'|]; [|discriminate K].
  exists r, r'. split; [repeat split; cbn; lra|]. split; [apply stored_ok; lra|]. split; [apply stored_hour; lra|]. split; [apply stored_none|].
  split; [repeat (constructor; [|repeat (constructor; try reflexivity)]); constructor|]. split; [reflexivity|]. split; [reflexivity|]. split; [reflexivity|]. exact (qlt_true _ _ K).
Qed.
Print Assumptions C104_heat_order_refuted.
(** All processes, a battery of 4 and one of 20 kWh, both half full and both leaking, in a dull hour: the big one serves the demand of 3 kWh and drives the heat pump with 7 kWh, and nothing is bought for either. *)
Example C104_heat_case : bigger_battery (stored 4 (1 # 10) 40 all13 below_without14) (stored 20 (1 # 10) 40 all13 below_without14) /\ plant_ok (stored 4 (1 # 10) 40 all13 below_without14) /\ no_store (stored 4 (1 # 10) 40 all13 below_without14) /\
  surplus_before_battery_orders (stored 4 (1 # 10) 40 all13 below_without14) /\ hour_ok (stored 4 (1 # 10) 40 all13 below_without14) (demo_hour 1 4 21 120 3 40) /\
  level_ok (p_battery (stored 4 (1 # 10) 40 all13 below_without14)) 2 /\ 0 <= 10 - 2 <= b_capacity (p_battery (stored 20 (1 # 10) 40 all13 below_without14)) - b_capacity (p_battery (stored 4 (1 # 10) 40 all13 below_without14)) /\
  quiet (stored 4 (1 # 10) 40 all13 below_without14) (demo_hour 1 4 21 120 3 40) 0 [60; 50; 40] 2 /\ quiet (stored 20 (1 # 10) 40 all13 below_without14) (demo_hour 1 4 21 120 3 40) 0 [60; 50; 40] 10 /\
  exists rc rc', hour_step (stored 4 (1 # 10) 40 all13 below_without14) (demo_hour 1 4 21 120 3 40) 0 [60; 50; 40] 2 = Ok rc /\ hour_step (stored 20 (1 # 10) 40 all13 below_without14) (demo_hour 1 4 21 120 3 40) 0 [60; 50; 40] 10 = Ok rc' /\
    rf rc GRID_total_import == 8 /\ rf rc' GRID_total_import == 0 /\ rf rc ES_discharging_to_HP == 0 /\ rf rc' ES_discharging_to_HP == 7.
Proof.
  split; [repeat split; cbn; lra|]. split; [apply stored_ok; lra|]. split; [apply stored_none|]. split; [apply stored_orders|]. split; [apply stored_hour; lra|]. split; [split; cbn; lra|]. split; [cbn; lra|].
  split; [apply quietb_true; vm_compute; reflexivity|]. split; [apply quietb_true; vm_compute; reflexivity|].
  assert (K : match hour_step (stored 4 (1 # 10) 40 all13 below_without14) (demo_hour 1 4 21 120 3 40) 0 [60; 50; 40] 2, hour_step (stored 20 (1 # 10) 40 all13 below_without14) (demo_hour 1 4 21 120 3 40) 0 [60; 50; 40] 10 with
    Ok r, Ok r' => (qeq (rf r GRID_total_import) 8 && qeq (rf r' GRID_total_import) 0) && (qeq (rf r ES_discharging_to_HP) 0 && qeq (rf r' ES_discharging_to_HP) 7) | _, _ => false end = true) by (vm_compute; reflexivity).
  destruct (hour_step (stored 4 _ _ _ _) _ _ _ _) as [r|]; [|discriminate K]. destruct (hour_step (stored 20 _ _ _ _) _ _ _ _) as [r'|]; [|discriminate K].
  apply andb_prop in K as (K1 & K2). apply andb_prop in K1 as (K1 & K3). apply andb_prop in K2 as (K2 & K4). exists r, r'. split; [reflexivity|]. split; [reflexivity|].
  split; [apply qeq_true_inv, K1|]. split; [apply qeq_true_inv, K3|]. split; apply qeq_true_inv; assumption.
Qed.
