(** C118: what the charge of the battery at the start of a run can change. *)
From Coq Require Import Qabs.
From Verif Require Import Base BaseL M_Battery S_Battery M_HeatPump S_HeatPump M_Tools M_FixedOrder S_FixedOrder L_FixedOrder L_FixedOrderHour L_FixedOrderRun L_Tank L_TankHour P_FixedOrder S_Sizing S_Start.
From Verif Require L_Sizing P_Sizing L_Start.

Lemma apart_le x y d : x - y <= d -> y - x <= d -> apart x y <= d.
Proof. intros A B. unfold apart. apply Qabs_Qle_condition. split; lra. Qed.
Lemma apart_case x y : (x <= y /\ apart x y == y - x) \/ (y <= x /\ apart x y == x - y).
Proof.
  unfold apart. destruct (Qlt_le_dec x y) as [A|A]; [left|right]; (split; [lra|]).
  - rewrite Qabs_neg by lra. ring.
  - rewrite Qabs_pos by lra. reflexivity.
Qed.
Lemma apart_sym x y : apart x y == apart y x.
Proof. unfold apart. rewrite <- (Qabs_opp (y - x)). apply Qabs_wd. ring. Qed.
(** The bound on purchases, sales and the level together *)
Definition budget (b : battery) (d : Q) (rc rc' : record) : Prop :=
  b_discharge_eff b * apart (rf rc GRID_total_import) (rf rc' GRID_total_import) + (1 - b_self_discharge b) * apart (rf rc GRID_total_export) (rf rc' GRID_total_export)
  + apart (rf rc ES_final_soc) (rf rc' ES_final_soc) <= d.
Lemma near_close P soc soc' rc rc' : battery_ok (p_battery P) -> soc <= soc' -> L_Start.near P soc soc' rc rc' -> close_by (soc' - soc) rc rc' /\ (fast_battery (p_battery P) -> budget (p_battery P) (soc' - soc) rc rc').
Proof.
  intros B L N. destruct N as [N1 N2 N3 N4 N5 N6 N7 N8 N9]. destruct B as (_ & _ & _ & _ & B5 & B6). split.
  - split; [exact N1|]. split; [exact N2|]. repeat match goal with |- _ /\ _ => split end; apply apart_le; lra.
  - intro F. destruct (N9 F) as (F1 & F2). unfold budget. clear N9 F N1 N2.
    set (x := rf rc GRID_total_import) in *. set (x' := rf rc' GRID_total_import) in *. set (y := rf rc GRID_total_export) in *. set (y' := rf rc' GRID_total_export) in *.
    set (u := rf rc' ED_ES - rf rc ED_ES) in *. set (v := rf rc RES_ES - rf rc' RES_ES) in *. clearbody x x' y y' u v.
    assert (E1 : apart x x' <= u) by (apply apart_le; lra). assert (E2 : apart y y' <= v) by (apply apart_le; lra).
    assert (M1 : b_discharge_eff (p_battery P) * apart x x' <= b_discharge_eff (p_battery P) * u) by nra.
    assert (M2 : (1 - b_self_discharge (p_battery P)) * apart y y' <= (1 - b_self_discharge (p_battery P)) * v) by nra.
    destruct (apart_case (rf rc ES_final_soc) (rf rc' ES_final_soc)) as [(_ & ->)|(_ & ->)]; lra.
Qed.
Lemma close_sym d rc rc' : close_by d rc rc' -> close_by d rc' rc.
Proof.
  intros (A1 & A2 & A3 & A4 & A5 & A6 & A7). split; [intros k K; symmetry; apply A1, K|]. split; [symmetry; exact A2|].
  rewrite apart_sym in A3, A4, A5, A6, A7. auto.
Qed.
Lemma budget_sym b d rc rc' : budget b d rc rc' -> budget b d rc' rc.
Proof. unfold budget. rewrite (apart_sym (rf rc _)), (apart_sym (rf rc GRID_total_export)), (apart_sym (rf rc ES_final_soc)). tauto. Qed.
Lemma close_eq d d' rc rc' : d == d' -> close_by d rc rc' -> close_by d' rc rc'.
Proof. intros E (A1 & A2 & A3 & A4 & A5 & A6 & A7). rewrite E in A3, A4, A5, A6, A7. split; [exact A1|]. split; [exact A2|]. auto. Qed.
Lemma hours_close P I t T soc soc' rc : plant_ok P -> hour_ok P I -> battery_last_orders P -> level_ok (p_battery P) soc -> level_ok (p_battery P) soc' -> hour_step P I t T soc = Ok rc ->
  exists rc', hour_step P I t T soc' = Ok rc' /\ close_by (apart soc soc') rc rc' /\ (fast_battery (p_battery P) -> budget (p_battery P) (apart soc soc') rc rc').
Proof.
  intros HP HI HO L L' H. destruct (P_Sizing.hour_processes _ _ _ _ _ _ H) as (ps & Hps).
  destruct (apart_case soc soc') as [(Le & E)|(Le & E)].
  - pose proof (L_Start.rel_hour P HP I HI t T soc soc' L L' Le (HO I) (ex_intro _ ps Hps)) as K. rewrite H in K. destruct (hour_step P I t T soc') as [rc'|e]; [|contradiction].
    exists rc'. split; [reflexivity|]. destruct (near_close P soc soc' rc rc' (proj1 HP) Le K) as (K1 & K2). symmetry in E. split; [exact (close_eq _ _ _ _ E K1)|]. intro F. unfold budget in *. rewrite <- E. exact (K2 F).
  - pose proof (L_Start.rel_hour P HP I HI t T soc' soc L' L Le (HO I) (ex_intro _ ps Hps)) as K. rewrite H in K. destruct (hour_step P I t T soc') as [rc'|e]; [|contradiction].
    exists rc'. split; [reflexivity|]. destruct (near_close P soc' soc rc' rc (proj1 HP) Le K) as (K1 & K2). symmetry in E. split; [exact (close_sym _ _ _ (close_eq _ _ _ _ E K1))|]. intro F. apply budget_sym. unfold budget in *. rewrite <- E. exact (K2 F).
Qed.
(** One hour, from any two levels *)
Theorem C118_hour_partial : forall P I t T soc soc' rc, plant_ok P -> hour_ok P I -> battery_last_orders P -> level_ok (p_battery P) soc -> level_ok (p_battery P) soc' -> hour_step P I t T soc = Ok rc ->
  exists rc', hour_step P I t T soc' = Ok rc' /\ close_by (apart soc soc') rc rc'.
Proof. intros P I t T soc soc' rc H1 H2 H3 H4 H5 H. destruct (hours_close P I t T soc soc' rc H1 H2 H3 H4 H5 H) as (rc' & K1 & K2 & _). exists rc'. auto. Qed.
Print Assumptions C118_hour_partial.

(** A whole run *)
Definition spent (b : battery) (l l' : list record) : Q :=
  b_discharge_eff b * qsum (map (fun p => apart (rf (fst p) GRID_total_import) (rf (snd p) GRID_total_import)) (combine l l')) +
  (1 - b_self_discharge b) * qsum (map (fun p => apart (rf (fst p) GRID_total_export) (rf (snd p) GRID_total_export)) (combine l l')).
Lemma apart_nonneg x y : 0 <= apart x y.
Proof. apply Qabs_nonneg. Qed.
Lemma loops_close P year : plant_ok P -> Forall (hour_ok P) year -> battery_last_orders P -> forall ts T soc soc' l, level_ok (p_battery P) soc -> level_ok (p_battery P) soc' ->
  run_loop P year ts (T, soc) = Ok l -> exists l', run_loop P year ts (T, soc') = Ok l' /\ fading (apart soc soc') l l' /\ (fast_battery (p_battery P) -> spent (p_battery P) l l' <= apart soc soc').
Proof.
  intros HP HI HO. rewrite Forall_forall in HI. induction ts as [|t ts IH]; intros T soc soc' l L L'; cbn [run_loop].
  - intro H. apply Ok_inj in H. subst. exists []. split; [reflexivity|]. split; [constructor|]. intros _. unfold spent. cbn [combine map]. change (qsum []) with 0. pose proof (apart_nonneg soc soc'). lra.
  - destruct (label year t) as [I|e] eqn:La; cbn [bind]; [|discriminate]. cbn [fst snd].
    destruct (hour_step P I t T soc) as [rc|e] eqn:H; cbn [bind]; [|discriminate].
    apply label_inv in La as (_ & La). apply nth_error_In in La.
    destruct (hours_close P I t T soc soc' rc HP (HI I La) HO L L' H) as (rc' & H' & E & F). rewrite H'. cbn [bind].
    pose proof (final_soc_range P I t T soc rc (proj1 (proj1 HP)) H) as Rg. pose proof (final_soc_range P I t T soc' rc' (proj1 (proj1 HP)) H') as Rg'.
    destruct (run_loop P year ts (r_nodes rc, rf rc ES_final_soc)) as [l1|e] eqn:L1; cbn [bind]; [|discriminate].
    destruct (IH (r_nodes rc) (rf rc ES_final_soc) (rf rc' ES_final_soc) l1 Rg Rg' L1) as (l1' & L1' & Fa & Fb).
    rewrite (proj1 (proj2 E)) in L1'. rewrite L1'. cbn [bind]. intro K. apply Ok_inj in K. subst. exists (rc' :: l1'). split; [reflexivity|]. split; [constructor; assumption|].
    intro Q. specialize (F Q). specialize (Fb Q). unfold spent, budget in *. cbn [combine map fst snd]. rewrite !qsum_cons. lra.
Qed.
Section OTHER.
Variables (k i i' cm dm ce de sd hpc mr mo : Q) (ax : aux) (tank_ : tank_ops) (ep sp : Q) (oa ob : list Z) (mh : Q).
Let b0 := {| b_capacity := k; b_initial_state := i; b_charge_max := cm; b_discharge_max := dm; b_charge_eff := ce; b_discharge_eff := de; b_self_discharge := sd |}.
Let b1 := {| b_capacity := k; b_initial_state := i'; b_charge_max := cm; b_discharge_max := dm; b_charge_eff := ce; b_discharge_eff := de; b_self_discharge := sd |}.
Let P := {| p_battery := b0; p_hp_capacity := hpc; p_min_runtime := mr; p_min_output := mo; p_aux := ax;
  p_tank := tank_; p_export_price := ep; p_setpoint := sp; p_order_above := oa; p_order_below := ob; p_max_heat := mh |}.
Let P' := {| p_battery := b1; p_hp_capacity := hpc; p_min_runtime := mr; p_min_output := mo; p_aux := ax;
  p_tank := tank_; p_export_price := ep; p_setpoint := sp; p_order_above := oa; p_order_below := ob; p_max_heat := mh |}.
Lemma same_process I t T cr p : run_process P I t T cr p = run_process P' I t T cr p.
Proof. destruct cr as (c, r), p; cbn [run_process amount]; reflexivity. Qed.
Lemma same_order I t T key order cr : run_order P I t T key order cr = run_order P' I t T key order cr.
Proof.
  unfold run_order. revert cr. induction order as [|n order IH]; intro cr; cbn [foldM]; [reflexivity|]. unfold run_number at 1 3. destruct (key n) as [p|e]; cbn [bind]; [|reflexivity].
  rewrite same_process. destruct (run_process P' I t T cr p) as [cr1|e]; cbn [bind]; [apply IH|reflexivity].
Qed.
Lemma same_hour I t T soc : hour_step P I t T soc = hour_step P' I t T soc.
Proof.
  assert (E0 : init_checks P I soc = init_checks P' I soc) by reflexivity. assert (E1 : p_order_above P = p_order_above P') by reflexivity. assert (E2 : p_order_below P = p_order_below P') by reflexivity. assert (E3 : init_below P I = init_below P' I) by reflexivity. assert (E4 : aux_accounts P = aux_accounts P') by reflexivity. assert (E5 : tank_step P I t T = tank_step P' I t T) by reflexivity. assert (E6 : es_totals P soc = es_totals P' soc) by reflexivity. assert (E7 : grid_totals P = grid_totals P') by reflexivity. assert (E8 : p_setpoint P = p_setpoint P') by reflexivity. assert (E9 : correct P I t T = correct P' I t T) by reflexivity. assert (E10 : switch_off_above P I t T = switch_off_above P' I t T) by reflexivity. assert (E11 : switch_off_below P I t T = switch_off_below P' I t T) by reflexivity.
  assert (A : above_uncorrected P I t T soc = above_uncorrected P' I t T soc).
  { unfold above_uncorrected. rewrite same_order. rewrite E0. rewrite E1.
    destruct (run_order P' I t T _ _ _) as [[c r]|e]; cbn [bind]; [|reflexivity]. rewrite E4.
    cbv zeta. destruct (aux_accounts P' _) as [r1|e]; cbn [bind]; [|reflexivity]. rewrite E5. rewrite E6. rewrite E7. reflexivity. }
  assert (B : below_uncorrected P I t T soc = below_uncorrected P' I t T soc).
  { unfold below_uncorrected. rewrite same_order. rewrite E0. rewrite E2. rewrite E3.
    destruct (run_order P' I t T _ _ _) as [[c r]|e]; cbn [bind]; [|reflexivity]. rewrite E4.
    cbv zeta. destruct (aux_accounts P' _) as [r1|e]; cbn [bind]; [|reflexivity]. rewrite E5. rewrite E6. rewrite E7. reflexivity. }
  unfold hour_step, above_setpoint, below_setpoint. rewrite A, B. rewrite E8.
  rewrite E9. rewrite E10. rewrite E11. reflexivity.
Qed.
End OTHER.
Lemma same_hours P P' I t T soc : other_start P P' -> hour_step P I t T soc = hour_step P' I t T soc.
Proof.
  destruct P as [b h mr mo ax tk ep sp oa ob mh], P' as [b' h' mr' mo' ax' tk' ep' sp' oa' ob' mh']. destruct b as [k i cm dm ce de sd], b' as [k' i' cm' dm' ce' de' sd'].
  unfold other_start. cbn [p_battery p_hp_capacity p_min_runtime p_min_output p_aux p_tank p_export_price p_setpoint p_order_above p_order_below p_max_heat b_capacity b_initial_state b_charge_max b_discharge_max b_charge_eff b_discharge_eff b_self_discharge].
  intros (E1 & E2 & E3 & E4 & E5 & E6 & E7 & E8 & E9 & E10 & E11 & E12 & E13 & E14 & E15 & E16). subst. apply same_hour.
Qed.
Lemma same_loops P P' year : other_start P P' -> forall ts st, run_loop P year ts st = run_loop P' year ts st.
Proof.
  intro O. induction ts as [|t ts IH]; intros st; cbn [run_loop]; [reflexivity|]. destruct (label year t) as [I|e]; cbn [bind]; [|reflexivity].
  rewrite (same_hours P P' I t _ _ O). destruct (hour_step P' I t (fst st) (snd st)) as [rc|e]; cbn [bind]; [|reflexivity]. rewrite IH. reflexivity.
Qed.
Lemma runs_close P P' year first n l : other_start P P' -> plant_ok P -> 0 <= b_initial_state (p_battery P) <= 1 -> 0 <= b_initial_state (p_battery P') <= 1 -> Forall (hour_ok P) year -> battery_last_orders P ->
  run_timesteps P year first n = Ok l -> exists l', run_timesteps P' year first n = Ok l' /\ fading (apart (init_state (p_battery P)) (init_state (p_battery P'))) l l' /\
    (fast_battery (p_battery P) -> spent (p_battery P) l l' <= apart (init_state (p_battery P)) (init_state (p_battery P'))).
Proof.
  intros O HP Hi Hi' HI HO. unfold run_timesteps. destruct (surplus_deficit_year _ _) as [s|e]; cbn [bind]; [|discriminate].
  cbv zeta. destruct (8760 <? first + n)%Z; [discriminate|]. intro H.
  assert (Et : p_tank P = p_tank P') by (unfold other_start in O; tauto). rewrite <- Et.
  assert (Bc := proj1 (proj1 HP)). assert (Ek : b_capacity (p_battery P) = b_capacity (p_battery P')) by (unfold other_start in O; tauto).
  rewrite <- (same_loops P P' year O). apply (loops_close P year HP HI HO); [unfold level_ok, init_state; nra|unfold level_ok, init_state; rewrite <- Ek; nra|exact H].
Qed.
Theorem C118_run_partial : forall P P' year first n l, other_start P P' -> plant_ok P -> 0 <= b_initial_state (p_battery P) <= 1 -> 0 <= b_initial_state (p_battery P') <= 1 ->
  Forall (hour_ok P) year -> battery_last_orders P -> run_timesteps P year first n = Ok l ->
  exists l', run_timesteps P' year first n = Ok l' /\ fading (b_capacity (p_battery P) * apart (b_initial_state (p_battery P)) (b_initial_state (p_battery P'))) l l'.
Proof.
  intros P P' year first n l O HP Hi Hi' HI HO H. destruct (runs_close P P' year first n l O HP Hi Hi' HI HO H) as (l' & H' & F & _). exists l'. split; [exact H'|].
  assert (Ek : b_capacity (p_battery P) = b_capacity (p_battery P')) by (unfold other_start in O; tauto). assert (Bc := proj1 (proj1 HP)).
  assert (E : apart (init_state (p_battery P)) (init_state (p_battery P')) == b_capacity (p_battery P) * apart (b_initial_state (p_battery P)) (b_initial_state (p_battery P'))).
  { unfold apart, init_state. rewrite <- Ek. rewrite <- (Qabs_pos (b_capacity (p_battery P))) at 3 by exact Bc. rewrite <- Qabs_Qmult. apply Qabs_wd. ring. }
  destruct F as [|d rc rc' l1 l2 C F]; constructor; [exact (close_eq _ _ _ _ E C)|exact F].
Qed.
Print Assumptions C118_run_partial.
(** The levels of the two runs never move apart again. *)
Lemma fading_levels d l l' : fading d l l' -> forall i rc rc', nth_error l i = Some rc -> nth_error l' i = Some rc' -> close_by d rc rc'.
Proof.
  intro F. induction F as [d|d rc rc' l l' C F IH]; intros i x x' H H'; [destruct i; discriminate H|].
  destruct i as [|i]; cbn in H, H'; [injection H as <-; injection H' as <-; exact C|]. destruct (IH i x x' H H') as (A1 & A2 & A3 & A4 & A5 & A6 & A7). destruct C as (_ & _ & _ & _ & _ & _ & C).
  split; [exact A1|]. split; [exact A2|]. repeat match goal with |- _ /\ _ => split end; (eapply Qle_trans; [eassumption|exact C]).
Qed.
Theorem C118_every_hour_partial : forall P P' year first n l, other_start P P' -> plant_ok P -> 0 <= b_initial_state (p_battery P) <= 1 -> 0 <= b_initial_state (p_battery P') <= 1 ->
  Forall (hour_ok P) year -> battery_last_orders P -> run_timesteps P year first n = Ok l ->
  exists l', run_timesteps P' year first n = Ok l' /\ length l' = length l /\ forall i rc rc', nth_error l i = Some rc -> nth_error l' i = Some rc' ->
    close_by (b_capacity (p_battery P) * apart (b_initial_state (p_battery P)) (b_initial_state (p_battery P'))) rc rc'.
Proof.
  intros P P' year first n l O HP Hi Hi' HI HO H. destruct (C118_run_partial P P' year first n l O HP Hi Hi' HI HO H) as (l' & H' & F). exists l'. split; [exact H'|].
  split; [|exact (fading_levels _ _ _ F)]. clear - F. induction F; cbn [length]; congruence.
Qed.
Print Assumptions C118_every_hour_partial.
Lemma sums_apart (f : record -> Q) l l' : length l' = length l -> apart (qsum (map f l)) (qsum (map f l')) <= qsum (map (fun p => apart (f (fst p)) (f (snd p))) (combine l l')).
Proof.
  revert l'. induction l as [|x l IH]; intros [|x' l'] E; try discriminate E; cbn [map combine]; [unfold apart; cbn; lra|]. rewrite !qsum_cons. cbn [fst snd].
  injection E as E. specialize (IH l' E). unfold apart in *.
  assert (K : f x + qsum (map f l) - (f x' + qsum (map f l')) == f x - f x' + (qsum (map f l) - qsum (map f l'))) by ring. rewrite K.
  eapply Qle_trans; [apply Qabs_triangle|]. lra.
Qed.
(** In total the run buys and sells no more and no less than the charge at the start accounts for, if the battery can give up all it holds within an hour. *)
Theorem C118_total_partial : forall P P' year first n l, other_start P P' -> plant_ok P -> 0 <= b_initial_state (p_battery P) <= 1 -> 0 <= b_initial_state (p_battery P') <= 1 ->
  Forall (hour_ok P) year -> battery_last_orders P -> fast_battery (p_battery P) -> run_timesteps P year first n = Ok l ->
  exists l', run_timesteps P' year first n = Ok l' /\
    b_discharge_eff (p_battery P) * apart (qsum (map (fun rc => rf rc GRID_total_import) l)) (qsum (map (fun rc => rf rc GRID_total_import) l')) +
    (1 - b_self_discharge (p_battery P)) * apart (qsum (map (fun rc => rf rc GRID_total_export) l)) (qsum (map (fun rc => rf rc GRID_total_export) l'))
      <= b_capacity (p_battery P) * apart (b_initial_state (p_battery P)) (b_initial_state (p_battery P')).
Proof.
  intros P P' year first n l O HP Hi Hi' HI HO FB H. destruct (runs_close P P' year first n l O HP Hi Hi' HI HO H) as (l' & H' & F & B). exists l'. split; [exact H'|]. specialize (B FB).
  assert (Ek : b_capacity (p_battery P) = b_capacity (p_battery P')) by (unfold other_start in O; tauto). assert (Bc := proj1 (proj1 HP)).
  assert (E : apart (init_state (p_battery P)) (init_state (p_battery P')) == b_capacity (p_battery P) * apart (b_initial_state (p_battery P)) (b_initial_state (p_battery P'))).
  { unfold apart, init_state. rewrite <- Ek. rewrite <- (Qabs_pos (b_capacity (p_battery P))) at 3 by exact Bc. rewrite <- Qabs_Qmult. apply Qabs_wd. ring. }
  rewrite <- E. eapply Qle_trans; [|exact B]. assert (Le : length l' = length l) by (clear - F; induction F; cbn [length]; congruence).
  pose proof (sums_apart (fun rc => rf rc GRID_total_import) l l' Le) as S1. pose proof (sums_apart (fun rc => rf rc GRID_total_export) l l' Le) as S2. unfold spent. cbv beta in S1, S2.
  destruct (proj1 HP) as (_ & _ & _ & _ & (B5 & _) & (_ & B6)). revert S1 S2. match goal with |- ?a <= ?p -> ?c <= ?q -> _ => generalize a p c q end. intros a p c q S1 S2.
  clear - B5 B6 S1 S2. nra.
Qed.
Print Assumptions C118_total_partial.

Definition year_from (l : list hour_in) (I : hour_in) : list hour_in := l ++ repeat I (ANNUAL_HOURS - length l).
Lemma first_three P a b c I : run_timesteps P (year_from [a; b; c] I) 0 3 = run_loop P [a; b; c] (zrange 0 3) (t_init (p_tank P), init_state (p_battery P)).
Proof.
  assert (F : full_year (year_from [a; b; c] I)) by (unfold full_year, year_from; rewrite app_length, repeat_length; reflexivity).
  unfold year_from in *. cbn [app] in *. rewrite (run_unfold _ _ 0 3 F) by lia. reflexivity.
Qed.
Lemma year_all (Pr : hour_in -> Prop) l I : Forall Pr l -> Pr I -> Forall Pr (year_from l I).
Proof. intros A B. unfold year_from. apply Forall_app. split; [exact A|]. apply Forall_forall. intros x Hx. apply repeat_spec in Hx. subst. exact B. Qed.
(** Not without a limit on what is lost: a battery that may give 1 kWh in an hour delivers all it holds and loses 1 kWh only, so the 1 kWh it held more at
    the start is delivered again in every hour. *)
Definition slow (start : Q) : plant := demo {| b_capacity := 10; b_initial_state := start; b_charge_max := 1; b_discharge_max := 1; b_charge_eff := 1; b_discharge_eff := 1; b_self_discharge := 0 |} 5 0 (simple_tank 0 0 0) P_Sizing.without7 P_Sizing.without814.
Definition dark_hour : hour_in := demo_hour 0 8 0 120 3 5.
Definition dark_year : list hour_in := year_from [dark_hour; dark_hour; dark_hour] dark_hour.
Lemma slow_ok : other_start (slow (1 # 2)) (slow (6 # 10)) /\ plant_ok (slow (1 # 2)) /\ Forall (hour_ok (slow (1 # 2))) dark_year /\ battery_last_orders (slow (1 # 2)).
Proof.
  split; [unfold other_start; repeat match goal with |- _ /\ _ => split end; reflexivity|]. split.
  { unfold plant_ok, battery_ok, slow, demo. cbn. repeat split; try lra; discriminate. }
  assert (H1 : hour_ok (slow (1 # 2)) dark_hour) by (unfold hour_ok, slow, demo, dark_hour, demo_hour; cbn; repeat split; try lra; intros x _ _ q H; injection H as <-; destruct x; lra).
  split; [apply year_all; [repeat (constructor; [exact H1|]); constructor|exact H1]|].
  apply P_Sizing.C104_increasing_orders; [repeat (constructor; [|repeat (constructor; try reflexivity)]); constructor|repeat (constructor; [|repeat (constructor; try reflexivity)]); constructor|..]; cbn; intuition discriminate.
Qed.
Theorem C118_limit_refuted : exists P P' year l l', other_start P P' /\ plant_ok P /\ 0 <= b_initial_state (p_battery P) <= 1 /\ 0 <= b_initial_state (p_battery P') <= 1 /\ Forall (hour_ok P) year /\ battery_last_orders P /\
  b_discharge_eff (p_battery P) == 1 /\ run_timesteps P year 0 3 = Ok l /\ run_timesteps P' year 0 3 = Ok l' /\
  apart (qsum (map (fun rc => rf rc GRID_total_import) l)) (qsum (map (fun rc => rf rc GRID_total_import) l')) == 3 * (b_capacity (p_battery P) * apart (b_initial_state (p_battery P)) (b_initial_state (p_battery P'))) /\
  0 < b_capacity (p_battery P) * apart (b_initial_state (p_battery P)) (b_initial_state (p_battery P')).
Proof.
  exists (slow (1 # 2)), (slow (6 # 10)), dark_year. unfold dark_year. rewrite !first_three.
  assert (K : match run_loop (slow (1 # 2)) [dark_hour; dark_hour; dark_hour] (zrange 0 3) (t_init (p_tank (slow (1 # 2))), init_state (p_battery (slow (1 # 2)))),
    run_loop (slow (6 # 10)) [dark_hour; dark_hour; dark_hour] (zrange 0 3) (t_init (p_tank (slow (6 # 10))), init_state (p_battery (slow (6 # 10)))) with
    Ok l, Ok l' => qeq (apart (qsum (map (fun rc => rf rc GRID_total_import) l)) (qsum (map (fun rc => rf rc GRID_total_import) l'))) 3 | _, _ => false end = true) by (vm_compute; reflexivity).
  destruct (run_loop (slow (1 # 2)) _ _ _) as [l|] eqn:E; [|discriminate K]. destruct (run_loop (slow (6 # 10)) _ _ _) as [l'|] eqn:E'; [|discriminate K].
  exists l, l'. destruct slow_ok as (A1 & A2 & A3 & A4). split; [exact A1|]. split; [exact A2|]. split; [cbn; lra|]. split; [cbn; lra|]. split; [exact A3|]. split; [exact A4|].
  split; [reflexivity|]. split; [reflexivity|]. split; [reflexivity|]. apply qeq_true_inv in K. split; [rewrite K; reflexivity|reflexivity].
Qed.
Print Assumptions C118_limit_refuted.
(** Nor when the battery is filled from the grid: what is missing is bought together with what is lost in charging. *)
Theorem C118_order_refuted : exists P I soc soc' rc rc', plant_ok P /\ hour_ok P I /\ (forall ps, processes_of P I ps -> order_ok ps) /\ level_ok (p_battery P) soc /\ level_ok (p_battery P) soc' /\ fast_battery (p_battery P) /\
  hour_step P I 0 [60; 50; 40] soc = Ok rc /\ hour_step P I 0 [60; 50; 40] soc' = Ok rc' /\ apart soc soc' < apart (rf rc GRID_total_import) (rf rc' GRID_total_import).
Proof.
  exists (P_Sizing.sized 20 all13 all15), (demo_hour 0 2 0 20 3 8), 5, 6.
  assert (K : match hour_step (P_Sizing.sized 20 all13 all15) (demo_hour 0 2 0 20 3 8) 0 [60; 50; 40] 5, hour_step (P_Sizing.sized 20 all13 all15) (demo_hour 0 2 0 20 3 8) 0 [60; 50; 40] 6 with
    Ok r, Ok r' => qlt 1 (apart (rf r GRID_total_import) (rf r' GRID_total_import)) | _, _ => false end = true) by (vm_compute; reflexivity).
  destruct (hour_step (P_Sizing.sized 20 all13 all15) _ _ _ 5) as [r|]; [|discriminate K]. destruct (hour_step (P_Sizing.sized 20 all13 all15) _ _ _ 6) as [r'|]; [|discriminate K].
  exists r, r'. split; [apply P_Sizing.sized_ok; lra|]. split; [apply P_Sizing.sized_hour; lra|].
  split. { intros ps [(K1 & H)|(K1 & H)]; apply order_okb_spec; injection H as <-; reflexivity. }
  split; [split; cbn; lra|]. split; [split; cbn; lra|]. split; [unfold fast_battery; cbn; lra|]. split; [reflexivity|]. split; [reflexivity|]. exact (qlt_true _ _ K).
Qed.
Print Assumptions C118_order_refuted.
(** 6 kWh more in a battery of 20 kWh that gives up 0.9 kWh of its charge for a kWh of demand: the plant buys 6.54 kWh less in three hours; the bound is 6.67 kWh. *)
Definition charged (start : Q) : plant := demo {| b_capacity := 20; b_initial_state := start; b_charge_max := 100; b_discharge_max := 100; b_charge_eff := 9 # 10; b_discharge_eff := 9 # 10; b_self_discharge := 1 # 100 |} 8 20 (simple_tank 1000 20 10) P_Sizing.without7 P_Sizing.without814.
Definition evening : list hour_in := [demo_hour 2 12 5 120 3 8; demo_hour 0 9 5 120 3 8; demo_hour 30 1 5 120 3 8].
Definition evenings : list hour_in := year_from evening (demo_hour 0 9 5 120 3 8).
Example C118_case : other_start (charged (1 # 10)) (charged (4 # 10)) /\ plant_ok (charged (1 # 10)) /\ Forall (hour_ok (charged (1 # 10))) evenings /\ battery_last_orders (charged (1 # 10)) /\
  0 <= b_initial_state (p_battery (charged (1 # 10))) <= 1 /\ 0 <= b_initial_state (p_battery (charged (4 # 10))) <= 1 /\ fast_battery (p_battery (charged (1 # 10))) /\
  exists l l', run_timesteps (charged (1 # 10)) evenings 0 3 = Ok l /\ run_timesteps (charged (4 # 10)) evenings 0 3 = Ok l' /\
    qsum (map (fun rc => rf rc GRID_total_import) l) - qsum (map (fun rc => rf rc GRID_total_import) l') == 327 # 50.
Proof.
  split; [unfold other_start; repeat match goal with |- _ /\ _ => split end; reflexivity|]. split.
  { unfold plant_ok, battery_ok, charged, demo. cbn. repeat split; try lra; discriminate. }
  assert (HH : forall pv el, 0 <= pv -> 0 <= el -> hour_ok (charged (1 # 10)) (demo_hour pv el 5 120 3 8)) by (intros pv el A B; unfold hour_ok, charged, demo, demo_hour; cbn; repeat split; try lra; intros x _ _ q H; injection H as <-; destruct x; lra).
  split; [apply year_all; [repeat (constructor; [apply HH; lra|]); constructor|apply HH; lra]|].
  split. { apply P_Sizing.C104_increasing_orders; [repeat (constructor; [|repeat (constructor; try reflexivity)]); constructor|repeat (constructor; [|repeat (constructor; try reflexivity)]); constructor|..]; cbn; intuition discriminate. }
  split; [cbn; lra|]. split; [cbn; lra|]. split; [unfold fast_battery; cbn; lra|].
  assert (K : match run_loop (charged (1 # 10)) evening (zrange 0 3) (t_init (p_tank (charged (1 # 10))), init_state (p_battery (charged (1 # 10)))),
    run_loop (charged (4 # 10)) evening (zrange 0 3) (t_init (p_tank (charged (4 # 10))), init_state (p_battery (charged (4 # 10)))) with
    Ok l, Ok l' => qeq (qsum (map (fun rc => rf rc GRID_total_import) l) - qsum (map (fun rc => rf rc GRID_total_import) l')) (327 # 50) | _, _ => false end = true) by (vm_compute; reflexivity).
  unfold evenings, evening in *. rewrite !first_three. destruct (run_loop (charged (1 # 10)) _ _ _) as [l|] eqn:E; [|discriminate K]. destruct (run_loop (charged (4 # 10)) _ _ _) as [l'|] eqn:E'; [|discriminate K].
  exists l, l'. split; [reflexivity|]. split; [reflexivity|]. exact (qeq_true_inv _ _ K).
Qed.
