(** C108: more wind or sun and less demand never make the plant buy more. *)
From Verif Require Import Base BaseL M_Battery S_Battery M_HeatPump M_Tools M_FixedOrder S_FixedOrder L_FixedOrder L_FixedOrderSign L_FixedOrderHour L_FixedOrderProps L_FixedOrderRun P_FixedOrder S_HeatPumpSize L_HeatPumpSize P_HeatPumpSize S_Easier L_Easier.
Require Import Sorting.Sorted.

(** ** What the records show of the loop over the order *)
Section Shown.
Variables (P : plant) (I : hour_in) (soc u pr de : Q) (r : fields).
Let f := finish_fields P I soc u pr de r.
Lemma shown_import : f GRID_total_import == r GRID_import_for_elec_demand + (r GRID_import_for_heat_pump_to_heat_demand + r GRID_import_for_heat_pump_to_TS) + r GRID_import_for_ES + (if is_electric P then r HD_aux else 0).
Proof. unfold f, finish_fields, above_rec, below_rec, grid_totals. destruct (is_electric P); destruct (hi P I); fld; ring. Qed.
Lemma shown_demand : f GRID_import_for_elec_demand = r GRID_import_for_elec_demand.
Proof. unfold f, finish_fields, above_rec, below_rec. destruct (hi P I); reflexivity. Qed.
Lemma shown_battery : f GRID_import_for_ES = r GRID_import_for_ES.
Proof. unfold f, finish_fields, above_rec, below_rec. destruct (hi P I); reflexivity. Qed.
Lemma shown_export : f GRID_total_export = r GRID_total_export.
Proof. unfold f, finish_fields, above_rec, below_rec. destruct (hi P I); reflexivity. Qed.
Lemma shown_back_up : f AUX_demand - f AUX_RES_to_demand - f AUX_RES_to_TS == r HD_aux.
Proof. unfold f, finish_fields, above_rec, below_rec. destruct (hi P I); fld; unfold total_aux; ring. Qed.
Lemma shown_level : f ES_final_soc = new_soc (p_battery P) (r ES_charging_from_RES + r ES_charging_from_import - (r ES_discharging_to_demand + r ES_discharging_to_HP)) soc.
Proof. unfold f, finish_fields. destruct (hi P I); fld; reflexivity. Qed.
End Shown.
Definition grid_entries : list field := [GRID_total_import; GRID_import_for_elec_demand; GRID_import_for_heat_pump_total; GRID_import_for_ES; GRID_total_export; GRID_import_costs; GRID_export_income; GRID_cashflow; ES_final_soc].
Lemma corrected_grid P I t n c rc0 rc1 f : corrected P I t n c rc0 rc1 -> In f grid_entries -> rf (complete I rc1) f = rf rc0 f.
Proof.
  intros C Hf. cbn [In grid_entries] in Hf. destruct C as [-> _|m x _ _ _ _ _ _ E1|m m' x _ _ _ _ _ _ _ E1|m _ _ _ _ E1];
    repeat (destruct Hf as [<-|Hf]; [fld; rewrite ?E1; fld; reflexivity|]); destruct Hf.
Qed.
Lemma same_processes P P' I I' ps : same_plant P P' -> i_import_price I = i_import_price I' -> processes_of P I ps -> processes_of P' I' ps.
Proof. intros (_ & _ & _ & _ & _ & _ & _ & E1 & E2 & E3) E4. unfold processes_of, high_tariff. rewrite E1, E2, E3, E4. tauto. Qed.
Lemma same_plant_ok P P' : same_plant P P' -> plant_ok P -> plant_ok P'.
Proof. intros (E1 & _ & E2 & E3 & E4 & _). unfold plant_ok. rewrite E1, E2, E3, E4. tauto. Qed.

Lemma easier_eased I I' : easier_hour I I' -> eased_hour I I'.
Proof. intros (E1 & E2 & E3 & _ & _ & E4 & E5). unfold eased_hour. rewrite <- E5. repeat match goal with |- _ /\ _ => split end; try assumption; try reflexivity; apply Qle_refl. Qed.
Lemma hours_easier P P' I I' t n n' soc soc' rc rc' : same_plant P P' -> eased_hour I I' -> plant_ok P -> hour_ok P I -> hour_ok P' I' -> no_store P -> simple_battery_orders P ->
  level_ok (p_battery P) soc -> level_ok (p_battery P) soc' -> soc <= soc' -> hour_step P I t n soc = Ok rc -> hour_step P' I' t n' soc' = Ok rc' ->
  buys_less rc rc' /\ (0 <= i_import_price I -> 0 <= p_export_price P -> costs_less rc rc') /\
  (soc' * b_self_discharge (p_battery P) == soc * b_self_discharge (p_battery P) -> rf rc ES_final_soc <= rf rc' ES_final_soc) /\
  (quiet P I t n soc -> quiet P' I' t n' soc' -> bought_back_up rc' <= bought_back_up rc).
Proof.
  intros B E HP HI HI' NS SB L L' Ls H H'. pose proof (same_plant_ok P P' B HP) as HP'. pose proof B as (Eb & _ & _ & _ & Ea & Et & Ex & _). pose proof E as (_ & _ & _ & Epr & Ed & Ek).
  assert (NS' : no_store P') by (unfold no_store in *; rewrite <- Et; exact NS).
  assert (G : good_hour P I soc). { split; [exact HP|]. split; [exact HI|]. split; [exact L|]. intros ps Hps. apply (SB I ps Hps). }
  destruct (hour_open P I t n soc rc G H) as (ps & c & r & u & pr & de & rc0 & rc1 & Ps & Oo & R & A & Sg & W & Z & U & _ & Rf & Un & C & ->).
  assert (G' : good_hour P' I' soc').
  { split; [exact HP'|]. split; [exact HI'|]. split; [rewrite <- Eb; exact L'|]. intros ps' Hps. rewrite (processes_same P' I' ps' ps Hps (same_processes P P' I I' ps B Epr Ps)). exact Oo. }
  destruct (hour_open P' I' t n' soc' rc' G' H') as (ps' & c' & r' & u' & pr' & de' & rc0' & rc1' & Ps' & Oo' & R' & A' & Sg' & W' & Z' & U' & _ & Rf' & Un' & C' & ->).
  assert (ps' = ps) by (apply (processes_same P' I'); [exact Ps'|exact (same_processes P P' I I' ps B Epr Ps)]). subst ps'.
  pose proof (proj2 (SB I ps Ps)) as SBp.
  assert (El : is_electric P = is_electric P') by (unfold is_electric; rewrite Ea; reflexivity).
  assert (Dp : 0 <= duty (i_perf I)) by apply HI.
  assert (Pr : pair P I (rev ps) c r c' r' /\ side I (rev ps) c r /\ side I (rev ps) c' r').
  { apply (pair_run P P' I I' t n n' HP HP' HI HI' NS NS' El Eb Ed Ek ps Oo SBp ps [] (init_checks P I soc) (start_fields P I) (init_checks P' I' soc') (start_fields P' I')); try assumption; [reflexivity|..].
    - apply pair_init; try assumption; apply start_zero.
    - apply side_init; [assumption|reflexivity|apply start_zero].
    - apply side_init; [assumption|symmetry; assumption|apply start_zero].
    - apply init_sgn; assumption.
    - apply init_sgn; try assumption. rewrite <- Eb. exact L'. }
  destruct Pr as (Pr & Sd & Sd'). destruct (z_ts _ _ _ _ Sd) as (_ & _ & T). destruct (z_ts _ _ _ _ Sd') as (_ & _ & T').
  destruct Pr as [Y1 Y2 Y3 Y4 Y5 Yf Y6 Y7 Yi Y8 Y9].
  assert (Im : rf rc0' GRID_total_import <= rf rc0 GRID_total_import).
  { rewrite Rf, Rf', !shown_import, <- El. destruct (is_electric P); lra. }
  assert (Exp : rf rc0 GRID_total_export <= rf rc0' GRID_total_export) by (rewrite Rf, Rf', !shown_export; exact Y9).
  assert (Gr : forall f, In f grid_entries -> rf (complete I rc1) f = rf rc0 f) by (intros f Hf; exact (corrected_grid _ _ _ _ _ _ _ f C Hf)).
  assert (Gr' : forall f, In f grid_entries -> rf (complete I' rc1') f = rf rc0' f) by (intros f Hf; exact (corrected_grid _ _ _ _ _ _ _ f C' Hf)).
  split; [|split; [|split]].
  - unfold buys_less. rewrite !Gr, !Gr' by (cbn; auto 12). split; [exact Im|]. rewrite Rf, Rf', !shown_demand, !untouched_heat_pump, !shown_battery, !shown_export.
    split; [exact Y6|]. split; [lra|]. split; [exact Yi|exact Y9].
  - intros Pi Pe. destruct (grid_costs P I t n soc (complete I rc1) H) as (_ & K1 & K2 & K3). destruct (grid_costs P' I' t n' soc' (complete I' rc1') H') as (_ & K1' & K2' & K3').
    rewrite <- Epr in K1'. rewrite <- Ex in K2'. rewrite !Gr in K1, K2, K3 by (cbn; auto 12). rewrite !Gr' in K1', K2', K3' by (cbn; auto 12).
    rewrite (Gr GRID_import_costs) in K3 by (cbn; auto 12). rewrite (Gr' GRID_import_costs) in K3' by (cbn; auto 12).
    unfold costs_less. rewrite !Gr, !Gr' by (cbn; auto 12). clear - K1 K2 K3 K1' K2' K3' Im Exp Pi Pe.
    assert (M1 : 0 <= (rf rc0 GRID_total_import - rf rc0' GRID_total_import) * i_import_price I) by (apply Qmult_le_0_compat; lra).
    assert (M2 : 0 <= (rf rc0' GRID_total_export - rf rc0 GRID_total_export) * p_export_price P) by (apply Qmult_le_0_compat; lra).
    unfold Qdiv in *. change (/ 1000) with (1 # 1000) in *. repeat match goal with |- _ /\ _ => split end; lra.
  - intro Lo. rewrite !Gr, !Gr' by (cbn; auto 12). rewrite Rf, Rf', !shown_level, <- Eb. apply level_easier; try assumption; [exact (proj1 HP)|].
    pose proof (acc_soc _ _ _ _ _ A) as K. pose proof (acc_soc _ _ _ _ _ A') as K'. cbn [init_checks c_soc] in K, K'. destruct Yf as [Yf|Yf]; [left|right]; lra.
  - intros Q Q'. pose proof (quiet_corrected P I t n soc c rc0 rc1 Q Un C). pose proof (quiet_corrected P' I' t n' soc' c' rc0' rc1' Q' Un' C'). subst rc1 rc1'.
    unfold bought_back_up.
    change (rf rc0' AUX_demand - rf rc0' AUX_RES_to_demand - rf rc0' AUX_RES_to_TS <= rf rc0 AUX_demand - rf rc0 AUX_RES_to_demand - rf rc0 AUX_RES_to_TS).
    rewrite Rf, Rf', !shown_back_up. exact Y8.
Qed.
(** One hour, whatever the minimum output rule does: no more is bought, for any purpose, and no less is sold. *)
Theorem C108_hour_partial : forall P P' I I' t n n' soc soc' rc rc', same_plant P P' -> easier_hour I I' -> plant_ok P -> hour_ok P I -> hour_ok P' I' -> no_store P -> simple_battery_orders P ->
  level_ok (p_battery P) soc -> level_ok (p_battery P) soc' -> soc <= soc' -> hour_step P I t n soc = Ok rc -> hour_step P' I' t n' soc' = Ok rc' -> buys_less rc rc'.
Proof.
  intros P P' I I' t n n' soc soc' rc rc' H1 H2 H3 H4 H5 H6 H7 H8 H9 H10 H H'.
  exact (proj1 (hours_easier P P' I I' t n n' soc soc' rc rc' H1 (easier_eased _ _ H2) H3 H4 H5 H6 H7 H8 H9 H10 H H')).
Qed.
Print Assumptions C108_hour_partial.
(** So the grid costs no more and pays no less. *)
Theorem C108_money_partial : forall P P' I I' t n n' soc soc' rc rc', same_plant P P' -> easier_hour I I' -> plant_ok P -> hour_ok P I -> hour_ok P' I' -> no_store P -> simple_battery_orders P ->
  level_ok (p_battery P) soc -> level_ok (p_battery P) soc' -> soc <= soc' -> 0 <= i_import_price I -> 0 <= p_export_price P ->
  hour_step P I t n soc = Ok rc -> hour_step P' I' t n' soc' = Ok rc' -> costs_less rc rc'.
Proof.
  intros P P' I I' t n n' soc soc' rc rc' H1 H2 H3 H4 H5 H6 H7 H8 H9 H10 Pi Pe H H'.
  destruct (hours_easier P P' I I' t n n' soc soc' rc rc' H1 (easier_eased _ _ H2) H3 H4 H5 H6 H7 H8 H9 H10 H H') as (_ & K & _). exact (K Pi Pe).
Qed.
Print Assumptions C108_money_partial.
(** The battery ends at least as full, if it starts the same or does not discharge by itself. *)
Theorem C108_level_partial : forall P P' I I' t n n' soc soc' rc rc', same_plant P P' -> easier_hour I I' -> plant_ok P -> hour_ok P I -> hour_ok P' I' -> no_store P -> simple_battery_orders P ->
  level_ok (p_battery P) soc -> level_ok (p_battery P) soc' -> soc <= soc' -> soc == soc' \/ b_self_discharge (p_battery P) == 0 ->
  hour_step P I t n soc = Ok rc -> hour_step P' I' t n' soc' = Ok rc' -> rf rc ES_final_soc <= rf rc' ES_final_soc.
Proof.
  intros P P' I I' t n n' soc soc' rc rc' H1 H2 H3 H4 H5 H6 H7 H8 H9 H10 Lo H H'.
  destruct (hours_easier P P' I I' t n n' soc soc' rc rc' H1 (easier_eased _ _ H2) H3 H4 H5 H6 H7 H8 H9 H10 H H') as (_ & _ & K & _). apply K. destruct Lo as [->|Lo]; [reflexivity|rewrite Lo; ring].
Qed.
Print Assumptions C108_level_partial.
(** The back-up has no more to do, apart from what it does with surplus, in hours that the minimum output rule leaves alone. *)
Theorem C108_back_up_partial : forall P P' I I' t n n' soc soc' rc rc', same_plant P P' -> easier_hour I I' -> plant_ok P -> hour_ok P I -> hour_ok P' I' -> no_store P -> simple_battery_orders P ->
  level_ok (p_battery P) soc -> level_ok (p_battery P) soc' -> soc <= soc' -> quiet P I t n soc -> quiet P' I' t n' soc' ->
  hour_step P I t n soc = Ok rc -> hour_step P' I' t n' soc' = Ok rc' -> bought_back_up rc' <= bought_back_up rc.
Proof.
  intros P P' I I' t n n' soc soc' rc rc' H1 H2 H3 H4 H5 H6 H7 H8 H9 H10 Q Q' H H'.
  destruct (hours_easier P P' I I' t n n' soc soc' rc rc' H1 (easier_eased _ _ H2) H3 H4 H5 H6 H7 H8 H9 H10 H H') as (_ & _ & _ & K). exact (K Q Q').
Qed.
Print Assumptions C108_back_up_partial.

(** ** Whole runs *)
Definition hours_better (P P' : plant) (I I' : hour_in) : Prop := eased_hour I I' /\ hour_ok P I /\ hour_ok P' I' /\ 0 <= i_import_price I.
Definition hours_eased (P P' : plant) (I I' : hour_in) : Prop := easier_hour I I' /\ hour_ok P I /\ hour_ok P' I' /\ 0 <= i_import_price I.
Definition better (P : plant) (rc rc' : record) : Prop := buys_less rc rc' /\ rf rc ES_final_soc <= rf rc' ES_final_soc /\ (0 <= p_export_price P -> costs_less rc rc').
Lemma loops_easier P P' year year' : same_plant P P' -> plant_ok P -> no_store P -> simple_battery_orders P -> b_self_discharge (p_battery P) == 0 -> Forall2 (hours_better P P') year year' ->
  forall ts n n' soc soc' l l', level_ok (p_battery P) soc -> level_ok (p_battery P) soc' -> soc <= soc' ->
  run_loop P year ts (n, soc) = Ok l -> run_loop P' year' ts (n', soc') = Ok l' -> Forall2 (better P) l l'.
Proof.
  intros B HP NS SB Sd F. pose proof (same_plant_ok P P' B HP) as HP'. pose proof (proj1 B) as Eb.
  induction ts as [|t ts IH]; intros n n' soc soc' l l' L L' Ls; cbn [run_loop].
  - intros H H'. injection H as <-. injection H' as <-. constructor.
  - destruct (label year t) as [I|e] eqn:La; cbn [bind]; [|discriminate]. destruct (label year' t) as [I'|e] eqn:La'; cbn [bind]; [|discriminate]. cbn [fst snd].
    destruct (hour_step P I t n soc) as [rc|e] eqn:H; cbn [bind]; [|discriminate]. destruct (hour_step P' I' t n' soc') as [rc'|e] eqn:H'; cbn [bind]; [|discriminate].
    destruct (run_loop P year ts _) as [l1|e] eqn:R; cbn [bind]; [|discriminate]. destruct (run_loop P' year' ts _) as [l1'|e] eqn:R'; cbn [bind]; [|discriminate].
    intros E E'. injection E as <-. injection E' as <-. destruct (label_pair _ _ _ _ _ _ F La La') as (D & HI & HI' & Pi).
    destruct (hours_easier P P' I I' t n n' soc soc' rc rc' B D HP HI HI' NS SB L L' Ls H H') as (A1 & A2 & A3 & _).
    assert (A4 : rf rc ES_final_soc <= rf rc' ES_final_soc) by (apply A3; rewrite Sd; ring).
    constructor; [split; [exact A1|]; split; [exact A4|exact (A2 Pi)]|].
    refine (IH _ _ _ _ l1 l1' _ _ A4 R R'); [exact (final_soc_range P I t n soc rc (proj1 (proj1 HP)) H)|rewrite Eb; exact (final_soc_range P' I' t n' soc' rc' (proj1 (proj1 HP')) H')].
Qed.
Lemma runs_easier : forall P P' year year' first n l l', same_plant P P' -> plant_ok P -> 0 <= b_initial_state (p_battery P) <= 1 -> no_store P -> simple_battery_orders P -> b_self_discharge (p_battery P) == 0 ->
  Forall2 (hours_better P P') year year' -> run_timesteps P year first n = Ok l -> run_timesteps P' year' first n = Ok l' -> Forall2 (better P) l l'.
Proof.
  intros P P' year year' first n l l' B HP Hi NS SB Sd F H H'. unfold run_timesteps in H, H'.
  destruct (surplus_deficit_year (map (fun i => i_wind i + i_PV i) year) _) as [s|e]; cbn [bind] in H; [|discriminate].
  destruct (surplus_deficit_year (map (fun i => i_wind i + i_PV i) year') _) as [s'|e]; cbn [bind] in H'; [|discriminate].
  cbv zeta in H, H'. destruct (8760 <? first + n)%Z; [discriminate|].
  assert (Bc := proj1 (proj1 HP)). rewrite <- (proj1 B) in H'.
  assert (L : level_ok (p_battery P) (init_state (p_battery P))) by (unfold level_ok, init_state; nra).
  exact (loops_easier P P' year year' B HP NS SB Sd F _ _ _ _ _ _ _ L L (Qle_refl _) H H').
Qed.
Lemma hours_alright P P' year year' : Forall2 (hours_eased P P') year year' -> Forall2 (hours_better P P') year year'.
Proof. intro F. induction F as [|I I' l l' (E & H) F IH]; constructor; [split; [apply easier_eased, E|exact H]|exact IH]. Qed.
(** A whole run, hour by hour *)
Theorem C108_run_partial : forall P P' year year' first n l l', same_plant P P' -> plant_ok P -> 0 <= b_initial_state (p_battery P) <= 1 -> no_store P -> simple_battery_orders P -> b_self_discharge (p_battery P) == 0 ->
  Forall2 (hours_eased P P') year year' -> run_timesteps P year first n = Ok l -> run_timesteps P' year' first n = Ok l' -> Forall2 (better P) l l'.
Proof.
  intros P P' year year' first n l l' B HP Hi NS SB Sd F. exact (runs_easier P P' year year' first n l l' B HP Hi NS SB Sd (hours_alright _ _ _ _ F)).
Qed.
Print Assumptions C108_run_partial.
Lemma summed P l l' : 0 <= p_export_price P -> Forall2 (better P) l l' -> length l = length l' /\
  qsum (map (fun rc => rf rc GRID_total_import) l') <= qsum (map (fun rc => rf rc GRID_total_import) l) /\
  qsum (map (fun rc => rf rc GRID_total_export) l) <= qsum (map (fun rc => rf rc GRID_total_export) l') /\
  qsum (map (fun rc => rf rc GRID_cashflow) l) <= qsum (map (fun rc => rf rc GRID_cashflow) l').
Proof.
  intros Pe A.
  induction A as [|x y l l' E A IH]; cbn [map length]; [repeat split; apply Qle_refl|]. destruct IH as (I0 & I1 & I2 & I3). destruct E as ((E1 & _ & _ & _ & E2) & _ & E3). destruct (E3 Pe) as (_ & _ & E4).
  split; [congruence|]. rewrite !qsum_cons. repeat split; lra.
Qed.
(** So over the whole period no more is bought, no less is sold, and the cash flow is no worse. *)
Theorem C108_year_partial : forall P P' year year' first n l l', same_plant P P' -> plant_ok P -> 0 <= b_initial_state (p_battery P) <= 1 -> no_store P -> simple_battery_orders P -> b_self_discharge (p_battery P) == 0 ->
  Forall2 (hours_eased P P') year year' -> 0 <= p_export_price P -> run_timesteps P year first n = Ok l -> run_timesteps P' year' first n = Ok l' ->
  length l = length l' /\
  qsum (map (fun rc => rf rc GRID_total_import) l') <= qsum (map (fun rc => rf rc GRID_total_import) l) /\
  qsum (map (fun rc => rf rc GRID_total_export) l) <= qsum (map (fun rc => rf rc GRID_total_export) l') /\
  qsum (map (fun rc => rf rc GRID_cashflow) l) <= qsum (map (fun rc => rf rc GRID_cashflow) l').
Proof.
  intros P P' year year' first n l l' B HP Hi NS SB Sd F Pe H H'. exact (summed P l l' Pe (C108_run_partial P P' year year' first n l l' B HP Hi NS SB Sd F H H')).
Qed.
Print Assumptions C108_year_partial.

(** ** Which orders *)
Lemma sorted_never_after (above : bool) order ps p q : StronglySorted Z.lt order -> mapM (if above then above_key else below_key) order = Ok ps -> (rank above p < rank above q)%Z -> never_after ps p q.
Proof.
  intros Hs H Hr l1 l2 E Hin. apply mapM_rank in H. subst order ps. apply in_split in Hin. destruct Hin as (l3 & l4 & ->).
  rewrite !map_app in Hs. cbn [map] in Hs. rewrite <- app_assoc in Hs. cbn [app] in Hs.
  induction (map (rank above) l3) as [|z l IH]; cbn [app] in Hs.
  - inversion Hs as [|? ? _ F]; subst. rewrite Forall_forall in F. specialize (F (rank above p)). assert (rank above q < rank above p)%Z; [|lia]. apply F. apply in_or_app. right. left. reflexivity.
  - inversion Hs. apply IH. assumption.
Qed.
(** Increasing numbers without 7 above the setpoint, and below it 8 only together with 6: all other processes may be there. *)
Theorem C108_increasing_orders : forall P, StronglySorted Z.lt (p_order_above P) -> StronglySorted Z.lt (p_order_below P) ->
  ~ In 7%Z (p_order_above P) -> (In 8%Z (p_order_below P) -> In 6%Z (p_order_below P)) -> simple_battery_orders P.
Proof.
  intros P S1 S2 N1 N2 I ps [(_ & H)|(_ & H)].
  - split; [exact (sorted_order_ok true _ ps S1 H)|]. pose proof (mapM_rank true _ _ H) as E. split; [apply (sorted_never_after true _ ps _ _ S1 H); reflexivity|].
    intros l1 l2 Es. exfalso. apply N1. rewrite <- E, Es, map_app. apply in_or_app. right. left. reflexivity.
  - split; [exact (sorted_order_ok false _ ps S2 H)|]. pose proof (mapM_rank false _ _ H) as E. split; [apply (sorted_never_after false _ ps _ _ S2 H); reflexivity|].
    intros l1 l2 Es. assert (K : In 8%Z (p_order_below P)) by (rewrite <- E, Es, map_app; apply in_or_app; right; left; reflexivity).
    apply N2 in K. rewrite <- E in K. apply in_map_iff in K as (p & Rp & Ip). assert (p = HP_import_to_demand) by (destruct p; cbn in Rp; try discriminate Rp; reflexivity). subst p.
    rewrite Es in Ip. apply in_app_or in Ip as [Ip|[Ip|Ip]]; [exact Ip|discriminate Ip|]. exfalso. apply in_split in Ip as (l3 & l4 & El).
    apply (sorted_never_after false _ ps HP_import_to_demand ES_to_HP_to_demand S2 H eq_refl (l1 ++ ES_to_HP_to_demand :: l3) l4).
    + rewrite Es, El, <- app_assoc. reflexivity.
    + apply in_or_app. right. left. reflexivity.
Qed.
Print Assumptions C108_increasing_orders.

(** ** Where it fails *)
Lemma pumped_same s m above : same_plant (pumped s m above) (pumped s m above).
Proof. repeat split. Qed.
Lemma pumped_simple s m : simple_battery_orders (pumped s m without_battery_heat).
Proof. apply C108_increasing_orders; [repeat (constructor; [|repeat (constructor; try reflexivity)]); constructor|constructor|cbn; intuition discriminate|cbn; tauto]. Qed.
Lemma demo_easier pv pv' el el' he he' pr c d : pv <= pv' -> el' <= el -> he' <= he -> easier_hour (demo_hour pv el he pr c d) (demo_hour pv' el' he' pr c d).
Proof. intros. unfold easier_hour, demo_hour. cbn. repeat split; lra. Qed.
(** 10 kWh of heat less: the heat pump would run below its minimum of 20 kW, is switched off, and the back-up does it all. *)
Theorem C108_minimum_output_refuted : exists P I I' rc rc', easier_hour I I' /\ plant_ok P /\ hour_ok P I /\ hour_ok P I' /\ no_store P /\ simple_battery_orders P /\ level_ok (p_battery P) 5 /\
  hour_step P I 0 [60; 50; 40] 5 = Ok rc /\ hour_step P I' 0 [60; 50; 40] 5 = Ok rc' /\ bought_back_up rc < bought_back_up rc'.
Proof.
  exists (pumped 100 20 without_battery_heat), (demo_hour 0 3 20 120 3 100), (demo_hour 0 3 10 120 3 100).
  assert (K : match hour_step (pumped 100 20 without_battery_heat) (demo_hour 0 3 20 120 3 100) 0 [60; 50; 40] 5, hour_step (pumped 100 20 without_battery_heat) (demo_hour 0 3 10 120 3 100) 0 [60; 50; 40] 5 with
    Ok r, Ok r' => qlt (bought_back_up r) (bought_back_up r') | _, _ => false end = true) by (vm_compute; reflexivity).
  destruct (hour_step _ (demo_hour 0 3 20 120 3 100) _ _ _) as [r|]; [|discriminate K]. destruct (hour_step _ (demo_hour 0 3 10 120 3 100) _ _ _) as [r'|]; [|discriminate K].
  exists r, r'. split; [apply demo_easier; lra|]. split; [apply pumped_ok; lra|]. split; [apply pumped_hour; lra|]. split; [apply pumped_hour; lra|]. split; [apply pumped_store|]. split; [apply pumped_simple|]. split; [apply pumped_level|].
  split; [reflexivity|]. split; [reflexivity|]. apply qlt_true, K.
Qed.
Print Assumptions C108_minimum_output_refuted.
(** The battery drives the heat pump, then the grid does: the limit of the heat pump does not count what the battery drove. With 2.5 kWh of surplus the count is right, and the plant buys more. *)
Theorem C108_order_refuted : exists P I I' rc rc', easier_hour I I' /\ plant_ok P /\ hour_ok P I /\ hour_ok P I' /\ no_store P /\ p_order_above P = all13 /\ level_ok (p_battery P) 5 /\
  hour_step P I 0 [60; 50; 40] 5 = Ok rc /\ hour_step P I' 0 [60; 50; 40] 5 = Ok rc' /\ rf rc GRID_total_import < rf rc' GRID_total_import.
Proof.
  exists (pumped 5 0 all13), (demo_hour 0 0 10 120 2 5), (demo_hour (5 # 2) 0 10 120 2 5).
  assert (K : match hour_step (pumped 5 0 all13) (demo_hour 0 0 10 120 2 5) 0 [60; 50; 40] 5, hour_step (pumped 5 0 all13) (demo_hour (5 # 2) 0 10 120 2 5) 0 [60; 50; 40] 5 with
    Ok r, Ok r' => qlt (rf r GRID_total_import) (rf r' GRID_total_import) | _, _ => false end = true) by (vm_compute; reflexivity).
  destruct (hour_step _ (demo_hour 0 0 10 120 2 5) _ _ _) as [r|]; [|discriminate K]. destruct (hour_step _ (demo_hour (5 # 2) 0 10 120 2 5) _ _ _) as [r'|]; [|discriminate K].
  exists r, r'. split; [apply demo_easier; lra|]. split; [apply pumped_ok; lra|]. split; [apply pumped_hour; lra|]. split; [apply pumped_hour; lra|]. split; [apply pumped_store|]. split; [reflexivity|]. split; [apply pumped_level|].
  split; [reflexivity|]. split; [reflexivity|]. apply qlt_true, K.
Qed.
Print Assumptions C108_order_refuted.
(** A battery that loses a tenth of its initial level in every hour: it was filled with 5 kWh more in the first hour, both are filled up in the second, and the fuller one has lost more when the third hour needs it. *)
Definition leaky_battery : battery := {| b_capacity := 10; b_initial_state := 1 # 2; b_charge_max := 100; b_discharge_max := 100; b_charge_eff := 1; b_discharge_eff := 1; b_self_discharge := 1 # 10 |}.
Definition leaky : plant := demo leaky_battery 5 0 (simple_tank 0 0 0) without_battery_heat [].
Definition leaky_year (pv : Q) : list hour_in := [demo_hour pv 0 0 120 3 5; demo_hour 100 0 0 120 3 5; demo_hour 0 10 0 120 3 5].
Lemma leaky_ok : plant_ok leaky /\ no_store leaky /\ simple_battery_orders leaky /\ 0 <= b_initial_state (p_battery leaky) <= 1 /\ 0 <= p_export_price leaky.
Proof.
  split. { unfold plant_ok, battery_ok, leaky, demo, leaky_battery. cbn. repeat split; try lra; discriminate. }
  split. { intros x n src fl t q H. cbn in H. injection H as <-. destruct x; reflexivity. }
  split. { apply C108_increasing_orders; [repeat (constructor; [|repeat (constructor; try reflexivity)]); constructor|constructor|cbn; intuition discriminate|cbn; tauto]. }
  split; cbn; lra.
Qed.
Lemma leaky_hour pv el : 0 <= pv -> 0 <= el -> hour_ok leaky (demo_hour pv el 0 120 3 5).
Proof. intros A B. unfold hour_ok, leaky, demo, demo_hour. cbn. repeat split; try lra. intros x _ _ q H. injection H as <-. destruct x; lra. Qed.
Lemma leaky_hours : Forall2 (hours_eased leaky leaky) (leaky_year 0) (leaky_year 5).
Proof.
  repeat apply Forall2_cons; try apply Forall2_nil; (split; [apply demo_easier; lra|]; split; [apply leaky_hour; lra|]; split; [apply leaky_hour; lra|cbn; lra]).
Qed.
Definition three_worse (x y : res (list record)) : bool :=
  match x, y with
  | Ok [a; b; c], Ok [a'; b'; c'] => qlt (rf b' ES_final_soc) (rf b ES_final_soc) && (qlt (rf c GRID_total_import) (rf c' GRID_total_import) &&
      qlt (qsum (map (fun rc => rf rc GRID_total_import) [a; b; c])) (qsum (map (fun rc => rf rc GRID_total_import) [a'; b'; c'])))
  | _, _ => false
  end.
Lemma three_hours x y : three_worse x y = true -> exists a b c a' b' c', x = Ok [a; b; c] /\ y = Ok [a'; b'; c'] /\ rf b' ES_final_soc < rf b ES_final_soc /\ rf c GRID_total_import < rf c' GRID_total_import /\
  qsum (map (fun rc => rf rc GRID_total_import) [a; b; c]) < qsum (map (fun rc => rf rc GRID_total_import) [a'; b'; c']).
Proof.
  destruct x as [[|a [|b [|c [|? ?]]]]|]; try discriminate. destruct y as [[|a' [|b' [|c' [|? ?]]]]|]; try discriminate. intro K. cbn [three_worse] in K.
  apply andb_prop in K as (K1 & K). apply andb_prop in K as (K2 & K3). apply qlt_true in K1, K2, K3. exists a, b, c, a', b', c'. auto 10.
Qed.
Lemma leaky_runs : three_worse (run_loop leaky (leaky_year 0) (zrange 0 3) (t_init (p_tank leaky), init_state (p_battery leaky))) (run_loop leaky (leaky_year 5) (zrange 0 3) (t_init (p_tank leaky), init_state (p_battery leaky))) = true.
Proof. vm_compute. reflexivity. Qed.
Theorem C108_self_discharge_refuted : exists P year year' l l', plant_ok P /\ 0 <= b_initial_state (p_battery P) <= 1 /\ no_store P /\ simple_battery_orders P /\ Forall2 (hours_eased P P) year year' /\
  run_loop P year (zrange 0 3) (t_init (p_tank P), init_state (p_battery P)) = Ok l /\ run_loop P year' (zrange 0 3) (t_init (p_tank P), init_state (p_battery P)) = Ok l' /\
  (exists a b c a' b' c', l = [a; b; c] /\ l' = [a'; b'; c'] /\ rf b' ES_final_soc < rf b ES_final_soc /\ rf c GRID_total_import < rf c' GRID_total_import) /\
  qsum (map (fun rc => rf rc GRID_total_import) l) < qsum (map (fun rc => rf rc GRID_total_import) l').
Proof.
  destruct (three_hours _ _ leaky_runs) as (a & b & c & a' & b' & c' & R & R' & K1 & K2 & K3).
  exists leaky, (leaky_year 0), (leaky_year 5), [a; b; c], [a'; b'; c']. destruct leaky_ok as (A1 & A2 & A3 & A4 & _). split; [exact A1|]. split; [exact A4|]. split; [exact A2|]. split; [exact A3|]. split; [exact leaky_hours|].
  split; [exact R|]. split; [exact R'|]. split; [|exact K3]. exists a, b, c, a', b', c'. split; [reflexivity|]. split; [reflexivity|]. split; assumption.
Qed.
Print Assumptions C108_self_discharge_refuted.
(** 4 kWh more of sun, and less of both demands: all hypotheses of the theorems hold, and the plant buys less, sells more and has less for the back-up to do. *)
Example C108_case : same_plant (pumped 4 0 without_battery_heat) (pumped 4 0 without_battery_heat) /\ plant_ok (pumped 4 0 without_battery_heat) /\ no_store (pumped 4 0 without_battery_heat) /\ simple_battery_orders (pumped 4 0 without_battery_heat) /\
  hours_eased (pumped 4 0 without_battery_heat) (pumped 4 0 without_battery_heat) (demo_hour 1 20 10 120 3 4) (demo_hour 5 18 7 120 3 4) /\ b_self_discharge (p_battery (pumped 4 0 without_battery_heat)) == 0 /\
  level_ok (p_battery (pumped 4 0 without_battery_heat)) 5 /\
  quiet (pumped 4 0 without_battery_heat) (demo_hour 1 20 10 120 3 4) 0 [60; 50; 40] 5 /\ quiet (pumped 4 0 without_battery_heat) (demo_hour 5 18 7 120 3 4) 0 [60; 50; 40] 5 /\
  exists rc rc', hour_step (pumped 4 0 without_battery_heat) (demo_hour 1 20 10 120 3 4) 0 [60; 50; 40] 5 = Ok rc /\ hour_step (pumped 4 0 without_battery_heat) (demo_hour 5 18 7 120 3 4) 0 [60; 50; 40] 5 = Ok rc' /\
    rf rc' GRID_total_import < rf rc GRID_total_import /\ bought_back_up rc == 6 /\ bought_back_up rc' == 3.
Proof.
  split; [apply pumped_same|]. split; [apply pumped_ok; lra|]. split; [apply pumped_store|]. split; [apply pumped_simple|].
  split. { split; [apply demo_easier; lra|]. split; [apply pumped_hour; lra|]. split; [apply pumped_hour; lra|cbn; lra]. }
  split; [reflexivity|]. split; [apply pumped_level|]. split; [apply quietb_true; vm_compute; reflexivity|]. split; [apply quietb_true; vm_compute; reflexivity|].
  assert (K : match hour_step (pumped 4 0 without_battery_heat) (demo_hour 1 20 10 120 3 4) 0 [60; 50; 40] 5, hour_step (pumped 4 0 without_battery_heat) (demo_hour 5 18 7 120 3 4) 0 [60; 50; 40] 5 with
    Ok r, Ok r' => qlt (rf r' GRID_total_import) (rf r GRID_total_import) && (qeq (bought_back_up r) 6 && qeq (bought_back_up r') 3) | _, _ => false end = true) by (vm_compute; reflexivity).
  destruct (hour_step _ (demo_hour 1 20 10 120 3 4) _ _ _) as [r|]; [|discriminate K]. destruct (hour_step _ (demo_hour 5 18 7 120 3 4) _ _ _) as [r'|]; [|discriminate K].
  apply andb_prop in K as (K1 & K). apply andb_prop in K as (K2 & K3). exists r, r'. split; [reflexivity|]. split; [reflexivity|]. split; [apply qlt_true, K1|]. split; apply qeq_true_inv; assumption.
Qed.
