(** C104: a bigger battery never makes an hour worse, if the battery comes last. *)
From Verif Require Import Base BaseL M_Battery S_Battery M_HeatPump M_Tools M_FixedOrder S_FixedOrder L_FixedOrder L_FixedOrderHour L_FixedOrderRun L_Tank P_FixedOrder S_Sizing L_Sizing.
Require Import Sorting.Sorted.

Lemma hour_processes P I t T soc rc : hour_step P I t T soc = Ok rc -> exists ps, processes_of P I ps.
Proof.
  intro H. apply hour_inv in H as (c & rc0 & rc1 & U & _). apply uncorrected_inv in U as (ps & r & u & pr & de & K & _). exists ps. exact K.
Qed.
Lemma hours_eased P P' I t T soc soc' rc : bigger_battery P P' -> plant_ok P -> hour_ok P I -> battery_last_orders P -> level_ok (p_battery P) soc ->
  0 <= soc' - soc <= b_capacity (p_battery P') - b_capacity (p_battery P) -> hour_step P I t T soc = Ok rc ->
  exists rc', hour_step P' I t T soc' = Ok rc' /\ eased rc rc' /\ rf rc' ES_final_soc - rf rc ES_final_soc <= b_capacity (p_battery P') - b_capacity (p_battery P).
Proof.
  intros B HP HI HO HS HL H. destruct (hour_processes _ _ _ _ _ _ H) as (ps & Hps).
  assert (K : relr (p_battery P) (p_battery P') (hour_step P I t T soc) (hour_step P' I t T soc')).
  { revert H. destruct P as [b h mr mo ax tk ep sp oa ob mh], P' as [b' h' mr' mo' ax' tk' ep' sp' oa' ob' mh']. intros _.
    assert (B0 := B). destruct B0 as (_ & _ & _ & _ & _ & _ & _ & E1 & E2 & E3 & E4 & E5 & E6 & E7 & E8 & E9 & E10). cbn in E1, E2, E3, E4, E5, E6, E7, E8, E9, E10. subst.
    cbn [p_battery] in *. apply rel_hour; try assumption; [exact (HO I)|exists ps; exact Hps]. }
  rewrite H in K. destruct (hour_step P' I t T soc') as [rc'|e]; [|contradiction]. exists rc'. split; [reflexivity|]. destruct K as (K1 & K2). auto.
Qed.
(** One hour that starts with at least the same charge and at least the same room *)
Theorem C104_hour_partial : forall P P' I t T soc soc' rc, bigger_battery P P' -> plant_ok P -> hour_ok P I -> battery_last_orders P -> level_ok (p_battery P) soc ->
  soc <= soc' -> b_capacity (p_battery P) - soc <= b_capacity (p_battery P') - soc' -> hour_step P I t T soc = Ok rc ->
  exists rc', hour_step P' I t T soc' = Ok rc' /\ eased rc rc' /\ b_capacity (p_battery P) - rf rc ES_final_soc <= b_capacity (p_battery P') - rf rc' ES_final_soc.
Proof.
  intros P P' I t T soc soc' rc B HP HI HO HS L1 L2 H.
  destruct (hours_eased P P' I t T soc soc' rc B HP HI HO HS ltac:(split; lra) H) as (rc' & H' & E & F). exists rc'. split; [exact H'|]. split; [exact E|lra].
Qed.
Print Assumptions C104_hour_partial.
Lemma loops_eased P P' year : bigger_battery P P' -> plant_ok P -> Forall (hour_ok P) year -> battery_last_orders P -> forall ts T soc soc' l,
  level_ok (p_battery P) soc -> 0 <= soc' - soc <= b_capacity (p_battery P') - b_capacity (p_battery P) ->
  run_loop P year ts (T, soc) = Ok l -> exists l', run_loop P' year ts (T, soc') = Ok l' /\ Forall2 eased l l'.
Proof.
  intros B HP HI HO. induction ts as [|t ts IH]; intros T soc soc' l HS HL; cbn [run_loop].
  - intro H. apply Ok_inj in H. subst. exists []. split; [reflexivity|constructor].
  - destruct (label year t) as [I|e] eqn:La; cbn [bind]; [|discriminate]. cbn [fst snd].
    destruct (hour_step P I t T soc) as [rc|e] eqn:H; cbn [bind]; [|discriminate].
    apply label_inv in La as (_ & La). apply nth_error_In in La. rewrite Forall_forall in HI.
    destruct (hours_eased P P' I t T soc soc' rc B HP (HI I La) HO HS HL H) as (rc' & -> & E & F). cbn [bind].
    pose proof (final_soc_range P I t T soc rc (proj1 (proj1 HP)) H) as Rg.
    destruct (run_loop P year ts (r_nodes rc, rf rc ES_final_soc)) as [l1|e] eqn:L1; cbn [bind]; [|discriminate].
    assert (E0 := E). destruct E0 as (_ & En & _ & _ & _ & _ & _ & _ & Es).
    destruct (IH (r_nodes rc) (rf rc ES_final_soc) (rf rc' ES_final_soc) l1 Rg ltac:(split; lra) L1) as (l1' & L1' & Fa).
    rewrite En in L1'. rewrite L1'. cbn [bind]. intro K. apply Ok_inj in K. subst. exists (rc' :: l1'). split; [reflexivity|constructor; assumption].
Qed.
(** A whole run *)
Theorem C104_run_partial : forall P P' year first n l, bigger_battery P P' -> plant_ok P -> 0 <= b_initial_state (p_battery P) <= 1 -> Forall (hour_ok P) year -> battery_last_orders P ->
  run_timesteps P year first n = Ok l -> exists l', run_timesteps P' year first n = Ok l' /\ Forall2 eased l l'.
Proof.
  intros P P' year first n l B HP Hi HI HO. unfold run_timesteps. destruct (surplus_deficit_year _ _) as [s|e]; cbn [bind]; [|discriminate].
  cbv zeta. destruct (8760 <? first + n)%Z; [discriminate|]. intro H.
  assert (Et : p_tank P = p_tank P') by (unfold bigger_battery in B; tauto). rewrite <- Et.
  assert (Bc := proj1 (proj1 HP)). assert (Ei : b_initial_state (p_battery P) = b_initial_state (p_battery P')) by (unfold bigger_battery in B; tauto).
  assert (Bk : b_capacity (p_battery P) <= b_capacity (p_battery P')) by (unfold bigger_battery in B; tauto).
  apply (loops_eased P P' year B HP HI HO _ _ (init_state (p_battery P))); [unfold level_ok, init_state; nra|unfold init_state; rewrite <- Ei; nra|exact H].
Qed.
Print Assumptions C104_run_partial.
Lemma sums_eased (k : field) l l' : (forall rc rc', eased rc rc' -> rf rc' k <= rf rc k) -> Forall2 eased l l' -> qsum (map (fun rc => rf rc k) l') <= qsum (map (fun rc => rf rc k) l).
Proof. intros H F. induction F as [|x y l l' E F IH]; cbn [map]; [apply Qle_refl|]. specialize (H x y E). rewrite !qsum_cons. lra. Qed.
(** So the import of the year, the export of the year and the electricity bought for the demand do not rise, and the heat side does not change. *)
Theorem C104_year_partial : forall P P' year first n l, bigger_battery P P' -> plant_ok P -> 0 <= b_initial_state (p_battery P) <= 1 -> Forall (hour_ok P) year -> battery_last_orders P ->
  run_timesteps P year first n = Ok l -> exists l', run_timesteps P' year first n = Ok l' /\
    qsum (map (fun rc => rf rc GRID_total_import) l') <= qsum (map (fun rc => rf rc GRID_total_import) l) /\
    qsum (map (fun rc => rf rc GRID_total_export) l') <= qsum (map (fun rc => rf rc GRID_total_export) l) /\
    map (fun rc => rf rc HP_heat_total_output) l' = map (fun rc => rf rc HP_heat_total_output) l /\
    map (fun rc => rf rc AUX_demand) l' = map (fun rc => rf rc AUX_demand) l /\ map r_nodes l' = map r_nodes l.
Proof.
  intros P P' year first n l B HP Hi HI HO H. destruct (C104_run_partial P P' year first n l B HP Hi HI HO H) as (l' & H' & F). exists l'. split; [exact H'|].
  split; [apply sums_eased; [unfold eased; tauto|exact F]|]. split; [apply sums_eased; [unfold eased; tauto|exact F]|].
  assert (M : forall (A : Type) (f : record -> A), (forall rc rc', eased rc rc' -> f rc' = f rc) -> map f l' = map f l).
  { clear - F. intros A f H. induction F as [|x y l l' E F IH]; cbn [map]; [reflexivity|]. f_equal; [apply H, E|exact IH]. }
  split; [|split]; apply M; intros rc rc' E; destruct E as (E & En & _); [symmetry; apply E; reflexivity|symmetry; apply E; reflexivity|symmetry; exact En].
Qed.
Print Assumptions C104_year_partial.
(** Increasing numbers without 7 above the setpoint, without 8 and 14 below, are such orders. *)
Lemma sorted_battery_last (above : bool) order ps : StronglySorted Z.lt order -> ~ In (rank above ES_to_HP_to_demand) order -> ~ In (rank above Import_to_ES) order ->
  mapM (if above then above_key else below_key) order = Ok ps -> order_ok ps /\ battery_last ps.
Proof.
  intros Hs N1 N2 H. split; [exact (sorted_order_ok above order ps Hs H)|]. apply mapM_rank in H. subst order.
  assert (Hna : forall p q, (rank above p < rank above q)%Z -> never_after ps p q).
  { intros p q Hr l1 l2 E Hin. subst ps. apply in_split in Hin. destruct Hin as (l3 & l4 & ->).
    rewrite !map_app in Hs. cbn [map] in Hs. rewrite <- app_assoc in Hs. cbn [app] in Hs. clear N1 N2.
    induction (map (rank above) l3) as [|z l IH]; cbn [app] in Hs.
    - inversion Hs as [|? ? _ F]; subst. rewrite Forall_forall in F.
      specialize (F (rank above p)). assert (rank above q < rank above p)%Z; [|lia].
      apply F. apply in_or_app. right. left. reflexivity.
    - inversion Hs. apply IH. assumption. }
  split; [intro K; apply N1, in_map, K|]. split; [intro K; apply N2, in_map, K|].
  intros p Hp. apply Hna. cbn [In] in Hp. repeat (destruct Hp as [<-|Hp]; [destruct above; reflexivity|]). destruct Hp.
Qed.
Theorem C104_increasing_orders : forall P, StronglySorted Z.lt (p_order_above P) -> StronglySorted Z.lt (p_order_below P) ->
  ~ In 7%Z (p_order_above P) -> ~ In 8%Z (p_order_below P) -> ~ In 14%Z (p_order_below P) -> battery_last_orders P.
Proof.
  intros P S1 S2 N1 N2 N3 I ps [(_ & H)|(_ & H)].
  - assert (N : ~ In 99%Z (p_order_above P)).
    { intro K. clear - K H. revert ps H. induction (p_order_above P) as [|n o IH]; intros ps H; [destruct K|]. cbn [mapM] in H. destruct K as [->|K]; [discriminate H|].
      destruct (above_key n); cbn [bind] in H; [|discriminate]. destruct (mapM above_key o) as [q|] eqn:E; cbn [bind] in H; [|discriminate]. exact (IH K q eq_refl). }
    exact (sorted_battery_last true _ ps S1 N1 N H).
  - exact (sorted_battery_last false _ ps S2 N2 N3 H).
Qed.
Print Assumptions C104_increasing_orders.
(** Not in general: a bigger battery buys more at a low price, and a battery that comes before the heat pump takes its electricity. *)
Definition sized (capacity : Q) (above below : list Z) : plant := demo (demo_battery capacity (9 # 10)) 8 20 (simple_tank 1000 20 10) above below.
Lemma sized_ok capacity above below : 0 <= capacity -> plant_ok (sized capacity above below).
Proof.
  intro C. unfold plant_ok, sized, demo. cbn [p_battery p_min_runtime p_min_output p_aux electric_aux a_efficiency a_cost a_energy_density].
  split; [apply demo_battery_ok; lra|]. repeat split; try lra; discriminate.
Qed.
Lemma sized_hour pv el he pr : 0 <= pv -> 0 <= el -> 0 <= he <= 30 -> forall capacity above below, hour_ok (sized capacity above below) (demo_hour pv el he pr 3 8).
Proof. intros A B C capacity above below. unfold hour_ok, sized, demo, demo_hour. cbn. repeat split; try lra. intros s _ _ m H. injection H as <-. destruct s; lra. Qed.
Theorem C104_buying_refuted : exists P P' I rc rc', bigger_battery P P' /\ plant_ok P /\ hour_ok P I /\ StronglySorted Z.lt (p_order_above P) /\ StronglySorted Z.lt (p_order_below P) /\
  hour_step P I 0 [60; 50; 40] (init_state (p_battery P)) = Ok rc /\ hour_step P' I 0 [60; 50; 40] (init_state (p_battery P')) = Ok rc' /\
  rf rc GRID_total_import < rf rc' GRID_total_import.
Proof.
  exists (sized 10 all13 all15), (sized 20 all13 all15), (demo_hour 2 9 25 80 3 8).
  assert (K : match hour_step (sized 10 all13 all15) (demo_hour 2 9 25 80 3 8) 0 [60; 50; 40] (init_state (p_battery (sized 10 all13 all15))), hour_step (sized 20 all13 all15) (demo_hour 2 9 25 80 3 8) 0 [60; 50; 40] (init_state (p_battery (sized 20 all13 all15))) with
    Ok r, Ok r' => qlt (rf r GRID_total_import) (rf r' GRID_total_import) | _, _ => false end = true) by (vm_compute; reflexivity).
  destruct (hour_step (sized 10 all13 all15) _ _ _ _) as [r|]; [|discriminate K]. destruct (hour_step (sized 20 all13 all15) _ _ _ _) as [r'|]; [|discriminate K].
  exists r, r'. split; [repeat split; cbn; lra|]. split; [apply sized_ok; lra|]. split; [apply sized_hour; lra|].
  split; [repeat (constructor; [|repeat (constructor; try reflexivity)]); constructor|]. split; [repeat (constructor; [|repeat (constructor; try reflexivity)]); constructor|].
  split; [reflexivity|]. split; [reflexivity|]. exact (qlt_true _ _ K).
Qed.
Print Assumptions C104_buying_refuted.
Definition battery_first : list Z := [1; 2; 3; 12; 4; 5; 6; 8; 9; 10; 11; 13]%Z.
Theorem C104_battery_first_refuted : exists P P' I rc rc', bigger_battery P P' /\ plant_ok P /\ hour_ok P I /\ (forall ps, processes_of P I ps -> order_ok ps) /\ lacks P I Import_to_ES /\ lacks P I ES_to_HP_to_demand /\
  hour_step P I 0 [60; 50; 40] (init_state (p_battery P)) = Ok rc /\ hour_step P' I 0 [60; 50; 40] (init_state (p_battery P')) = Ok rc' /\
  rf rc GRID_total_import < rf rc' GRID_total_import.
Proof.
  exists (sized 2 battery_first all15), (sized 20 battery_first all15), (demo_hour 6 3 20 120 3 8).
  assert (K : match hour_step (sized 2 battery_first all15) (demo_hour 6 3 20 120 3 8) 0 [60; 50; 40] (init_state (p_battery (sized 2 battery_first all15))), hour_step (sized 20 battery_first all15) (demo_hour 6 3 20 120 3 8) 0 [60; 50; 40] (init_state (p_battery (sized 20 battery_first all15))) with
    Ok r, Ok r' => qlt (rf r GRID_total_import) (rf r' GRID_total_import) | _, _ => false end = true) by (vm_compute; reflexivity).
  destruct (hour_step (sized 2 battery_first all15) _ _ _ _) as [r|]; [|discriminate K]. destruct (hour_step (sized 20 battery_first all15) _ _ _ _) as [r'|]; [|discriminate K].
  assert (Q : forall ps, processes_of (sized 2 battery_first all15) (demo_hour 6 3 20 120 3 8) ps -> mapM above_key battery_first = Ok ps).
  { intros ps [(_ & H)|(H & _)]; [exact H|]. exfalso. apply H. reflexivity. }
  exists r, r'. split; [repeat split; cbn; lra|]. split; [apply sized_ok; lra|]. split; [apply sized_hour; lra|].
  split; [intros ps H; apply Q in H; apply order_okb_spec; injection H as <-; reflexivity|].
  split; [intros ps H; apply Q in H; injection H as <-; cbn; intuition discriminate|]. split; [intros ps H; apply Q in H; injection H as <-; cbn; intuition discriminate|].
  split; [reflexivity|]. split; [reflexivity|]. exact (qlt_true _ _ K).
Qed.
Print Assumptions C104_battery_first_refuted.
(** With orders as in the theorem a battery of 20 kWh instead of 4 saves the purchase of 6 kWh in a dull hour after a sunny one. *)
Definition without7 : list Z := [1; 2; 3; 4; 5; 6; 8; 9; 10; 11; 12; 13]%Z.
Definition without814 : list Z := [1; 2; 3; 4; 5; 6; 7; 9; 10; 11; 12; 13; 15]%Z.
Example C104_case : bigger_battery (sized 4 without7 without814) (sized 20 without7 without814) /\ plant_ok (sized 4 without7 without814) /\ battery_last_orders (sized 4 without7 without814) /\
  hour_ok (sized 4 without7 without814) (demo_hour 2 12 5 120 3 8) /\
  exists rc rc', hour_step (sized 4 without7 without814) (demo_hour 2 12 5 120 3 8) 0 [60; 50; 40] 4 = Ok rc /\ hour_step (sized 20 without7 without814) (demo_hour 2 12 5 120 3 8) 0 [60; 50; 40] 12 = Ok rc' /\
    rf rc GRID_total_import == 6 /\ rf rc' GRID_total_import == 0.
Proof.
  split; [repeat split; cbn; lra|]. split; [apply sized_ok; lra|]. split.
  { apply C104_increasing_orders; [repeat (constructor; [|repeat (constructor; try reflexivity)]); constructor|repeat (constructor; [|repeat (constructor; try reflexivity)]); constructor|..]; cbn; intuition discriminate. }
  split; [apply sized_hour; lra|].
  assert (K : match hour_step (sized 4 without7 without814) (demo_hour 2 12 5 120 3 8) 0 [60; 50; 40] 4, hour_step (sized 20 without7 without814) (demo_hour 2 12 5 120 3 8) 0 [60; 50; 40] 12 with
    Ok r, Ok r' => qeq (rf r GRID_total_import) 6 && qeq (rf r' GRID_total_import) 0 | _, _ => false end = true) by (vm_compute; reflexivity).
  destruct (hour_step (sized 4 _ _) _ _ _ _) as [r|]; [|discriminate K]. destruct (hour_step (sized 20 _ _) _ _ _ _) as [r'|]; [|discriminate K].
  apply andb_prop in K as (K1 & K2). exists r, r'. split; [reflexivity|]. split; [reflexivity|]. split; apply qeq_true_inv; assumption.
Qed.
