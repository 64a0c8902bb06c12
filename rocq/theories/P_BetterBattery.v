(** C119: a battery that is faster, more efficient or less leaky. *)
From Verif Require Import Base BaseL M_Battery S_Battery M_HeatPump M_Tools M_FixedOrder S_FixedOrder L_FixedOrder L_FixedOrderHour L_FixedOrderRun L_Tank P_FixedOrder S_Sizing S_BetterBattery.
From Verif Require L_BetterBattery P_Sizing P_Start.

(** A battery that holds its charge, is no smaller, no slower in charging and gives up no more charge for a kWh of demand *)
Definition holds_more (b b' : battery) : Prop :=
  b_capacity b <= b_capacity b' /\ b_charge_max b <= b_charge_max b' /\ b_discharge_max b' <= b_discharge_max b /\ b_discharge_eff b' <= b_discharge_eff b /\ b_self_discharge b' == 0 /\ battery_ok b'.
Lemma hours_relieved P P' I t T soc soc' rc : other_battery P P' -> holds_more (p_battery P) (p_battery P') -> plant_ok P -> hour_ok P I -> battery_last_orders P -> level_ok (p_battery P) soc -> level_ok (p_battery P') soc' ->
  soc <= soc' -> hour_step P I t T soc = Ok rc -> exists rc', hour_step P' I t T soc' = Ok rc' /\ relieved rc rc'.
Proof.
  intros B (M1 & M2 & M3 & M4 & M5 & M6) HP HI HO HS HS' HL H. destruct (P_Sizing.hour_processes _ _ _ _ _ _ H) as (ps & Hps).
  assert (K : L_BetterBattery.relr (hour_step P I t T soc) (hour_step P' I t T soc')).
  { revert H. destruct P as [b h mr mo ax tk ep sp oa ob mh], P' as [b' h' mr' mo' ax' tk' ep' sp' oa' ob' mh']. intros _.
    destruct B as (E1 & E2 & E3 & E4 & E5 & E6 & E7 & E8 & E9 & E10). cbn in E1, E2, E3, E4, E5, E6, E7, E8, E9, E10. subst.
    cbn [p_battery] in *. apply L_BetterBattery.rel_hour; try assumption; [exact (HO I)|exists ps; exact Hps]. }
  rewrite H in K. destruct (hour_step P' I t T soc') as [rc'|e]; [|contradiction]. exists rc'. split; [reflexivity|]. exact (proj1 K).
Qed.
Lemma loops_relieved P P' year : other_battery P P' -> holds_more (p_battery P) (p_battery P') -> plant_ok P -> Forall (hour_ok P) year -> battery_last_orders P -> forall ts T soc soc' l,
  level_ok (p_battery P) soc -> level_ok (p_battery P') soc' -> soc <= soc' -> run_loop P year ts (T, soc) = Ok l -> exists l', run_loop P' year ts (T, soc') = Ok l' /\ Forall2 relieved l l'.
Proof.
  intros B M HP HI HO. induction ts as [|t ts IH]; intros T soc soc' l HS HS' HL; cbn [run_loop].
  - intro H. apply Ok_inj in H. subst. exists []. split; [reflexivity|constructor].
  - destruct (label year t) as [I|e] eqn:La; cbn [bind]; [|discriminate]. cbn [fst snd].
    destruct (hour_step P I t T soc) as [rc|e] eqn:H; cbn [bind]; [|discriminate].
    apply label_inv in La as (_ & La). apply nth_error_In in La. rewrite Forall_forall in HI.
    destruct (hours_relieved P P' I t T soc soc' rc B M HP (HI I La) HO HS HS' HL H) as (rc' & H' & E). rewrite H'. cbn [bind].
    pose proof (final_soc_range P I t T soc rc (proj1 (proj1 HP)) H) as Rg.
    assert (Bc' : 0 <= b_capacity (p_battery P')) by (destruct M as (_ & _ & _ & _ & _ & M); exact (proj1 M)). pose proof (final_soc_range P' I t T soc' rc' Bc' H') as Rg'.
    destruct (run_loop P year ts (r_nodes rc, rf rc ES_final_soc)) as [l1|e] eqn:L1; cbn [bind]; [|discriminate].
    assert (E0 := E). destruct E0 as (_ & En & _ & _ & _ & Es).
    destruct (IH (r_nodes rc) (rf rc ES_final_soc) (rf rc' ES_final_soc) l1 Rg Rg' Es L1) as (l1' & L1' & Fa).
    rewrite En in L1'. rewrite L1'. cbn [bind]. intro K. apply Ok_inj in K. subst. exists (rc' :: l1'). split; [reflexivity|constructor; assumption].
Qed.
Lemma runs_relieved P P' year first n l : other_battery P P' -> holds_more (p_battery P) (p_battery P') -> plant_ok P -> 0 <= b_initial_state (p_battery P) -> b_initial_state (p_battery P) <= b_initial_state (p_battery P') -> b_initial_state (p_battery P') <= 1 ->
  Forall (hour_ok P) year -> battery_last_orders P -> run_timesteps P year first n = Ok l -> exists l', run_timesteps P' year first n = Ok l' /\ Forall2 relieved l l'.
Proof.
  intros B M HP H0 H1 H2 HI HO. unfold run_timesteps. destruct (surplus_deficit_year _ _) as [s|e]; cbn [bind]; [|discriminate].
  cbv zeta. destruct (8760 <? first + n)%Z; [discriminate|]. intro H.
  assert (Et : p_tank P = p_tank P') by (unfold other_battery in B; tauto). rewrite <- Et.
  assert (Bc := proj1 (proj1 HP)). assert (Bk := proj1 M).
  apply (loops_relieved P P' year B M HP HI HO _ _ (init_state (p_battery P))); [unfold level_ok, init_state; nra|unfold level_ok, init_state; nra|unfold init_state; nra|exact H].
Qed.
Lemma better_holds P P' : better_battery (p_battery P) (p_battery P') -> plant_ok P' -> b_discharge_max (p_battery P') = b_discharge_max (p_battery P) -> b_discharge_eff (p_battery P') = b_discharge_eff (p_battery P) -> b_self_discharge (p_battery P') == 0 ->
  holds_more (p_battery P) (p_battery P').
Proof. intros (A1 & A2 & A3 & A4 & A5 & A6 & A7) HP' E1 E2 E3. unfold holds_more. rewrite E1, E2. repeat match goal with |- _ /\ _ => split end; try assumption; try apply Qle_refl. apply HP'. Qed.
(** One hour from no lower level, with a better battery that discharges alike and does not leak *)
Theorem C119_hour_partial : forall P P' I t T soc soc' rc, other_battery P P' -> better_battery (p_battery P) (p_battery P') -> b_discharge_max (p_battery P') = b_discharge_max (p_battery P) -> b_discharge_eff (p_battery P') = b_discharge_eff (p_battery P) -> b_self_discharge (p_battery P') == 0 ->
  plant_ok P -> plant_ok P' -> hour_ok P I -> battery_last_orders P -> level_ok (p_battery P) soc -> level_ok (p_battery P') soc' -> soc <= soc' -> hour_step P I t T soc = Ok rc ->
  exists rc', hour_step P' I t T soc' = Ok rc' /\ relieved rc rc'.
Proof. intros P P' I t T soc soc' rc O B E1 E2 E3 HP HP' HI HO L L' Le H. exact (hours_relieved P P' I t T soc soc' rc O (better_holds P P' B HP' E1 E2 E3) HP HI HO L L' Le H). Qed.
Print Assumptions C119_hour_partial.
(** A whole run *)
Theorem C119_run_partial : forall P P' year first n l, other_battery P P' -> better_battery (p_battery P) (p_battery P') -> b_discharge_max (p_battery P') = b_discharge_max (p_battery P) -> b_discharge_eff (p_battery P') = b_discharge_eff (p_battery P) -> b_self_discharge (p_battery P') == 0 ->
  plant_ok P -> plant_ok P' -> 0 <= b_initial_state (p_battery P) -> b_initial_state (p_battery P') <= 1 -> Forall (hour_ok P) year -> battery_last_orders P -> run_timesteps P year first n = Ok l ->
  exists l', run_timesteps P' year first n = Ok l' /\ Forall2 relieved l l'.
Proof. intros P P' year first n l O B E1 E2 E3 HP HP' H0 H1 HI HO H. exact (runs_relieved P P' year first n l O (better_holds P P' B HP' E1 E2 E3) HP H0 (proj1 (proj2 B)) H1 HI HO H). Qed.
Print Assumptions C119_run_partial.
Lemma bought_less l l' : Forall2 relieved l l' -> bought l' <= bought l.
Proof. unfold bought. intro F. induction F as [|x y l l' E F IH]; cbn [map]; [apply Qle_refl|]. rewrite !qsum_cons. destruct E as (_ & _ & E & _). lra. Qed.
Theorem C119_year_partial : forall P P' year first n l, other_battery P P' -> better_battery (p_battery P) (p_battery P') -> b_discharge_max (p_battery P') = b_discharge_max (p_battery P) -> b_discharge_eff (p_battery P') = b_discharge_eff (p_battery P) -> b_self_discharge (p_battery P') == 0 ->
  plant_ok P -> plant_ok P' -> 0 <= b_initial_state (p_battery P) -> b_initial_state (p_battery P') <= 1 -> Forall (hour_ok P) year -> battery_last_orders P -> run_timesteps P year first n = Ok l ->
  exists l', run_timesteps P' year first n = Ok l' /\ bought l' <= bought l.
Proof. intros P P' year first n l O B E1 E2 E3 HP HP' H0 H1 HI HO H. destruct (C119_run_partial P P' year first n l O B E1 E2 E3 HP HP' H0 H1 HI HO H) as (l' & H' & F). exists l'. split; [exact H'|exact (bought_less _ _ F)]. Qed.
Print Assumptions C119_year_partial.
(** For discharging the claim holds the wrong way round: a battery that may give less, or that is less efficient in giving, never makes the plant buy more, as
    the demand is served from what is held and these figures only bound what is taken off the level. *)
Theorem C119_discharging_reversed : forall P year first n l lim eff, plant_ok P -> 0 <= lim -> lim <= b_discharge_max (p_battery P) -> 0 <= eff -> eff <= b_discharge_eff (p_battery P) -> b_self_discharge (p_battery P) == 0 ->
  0 <= b_initial_state (p_battery P) <= 1 -> Forall (hour_ok P) year -> battery_last_orders P -> run_timesteps P year first n = Ok l ->
  exists l', run_timesteps (with_battery P (discharging_efficiency (discharging_limit (p_battery P) lim) eff)) year first n = Ok l' /\ Forall2 relieved l l' /\ bought l' <= bought l.
Proof.
  intros P year first n l lim eff HP L0 L E0 E S0 (I0 & I1) HI HO H.
  destruct (runs_relieved P (with_battery P (discharging_efficiency (discharging_limit (p_battery P) lim) eff)) year first n l) as (l' & H' & F); try assumption.
  - unfold other_battery, with_battery. repeat match goal with |- _ /\ _ => split end; reflexivity.
  - destruct HP as ((B1 & B2 & B3 & B4 & B5 & B6) & _). unfold holds_more, battery_ok, with_battery. cbn [p_battery discharging_efficiency discharging_limit b_capacity b_charge_max b_discharge_max b_charge_eff b_discharge_eff b_self_discharge].
    repeat match goal with |- _ /\ _ => split end; try assumption; try apply Qle_refl; try tauto; lra.
  - apply Qle_refl.
  - exists l'. split; [exact H'|]. split; [exact F|exact (bought_less _ _ F)].
Qed.
Print Assumptions C119_discharging_reversed.
(** ** One figure better, and the plant buys more *)
Definition battery_of (start cmax dmax ceff deff leak : Q) : battery := {| b_capacity := 8; b_initial_state := start; b_charge_max := cmax; b_discharge_max := dmax; b_charge_eff := ceff; b_discharge_eff := deff; b_self_discharge := leak |}.
Definition house (b : battery) (below : list Z) : plant := demo b 5 0 (simple_tank 0 0 0) P_Sizing.without7 below.
Definition quiet_hour : hour_in := demo_hour 0 0 0 120 3 5.
Definition sunny (x : Q) : hour_in := demo_hour x 0 0 120 3 5.
Definition evening (x : Q) : hour_in := demo_hour 0 x 0 120 3 5.
Ltac figures := unfold plant_ok, battery_ok, better_battery, house, demo, battery_of; cbn; repeat match goal with |- _ /\ _ => split end; try lra; try discriminate; try (intros; lra).
Lemma house_orders b I ps : processes_of (house b P_Sizing.without814) I ps -> order_ok ps.
Proof. intros [(_ & H)|(_ & H)]; apply order_okb_spec; injection H as <-; reflexivity. Qed.
Lemma house_hour b below h : In h [quiet_hour; sunny 4; sunny 6; sunny 20; evening 4; evening 6; evening 8; demo_hour 0 0 0 20 3 5] -> hour_ok (house b below) h.
Proof.
  intro K. cbn [In] in K. repeat (destruct K as [<-|K]; [unfold hour_ok, house, demo, quiet_hour, sunny, evening, demo_hour; cbn; repeat split; try lra; intros x _ _ q H; injection H as <-; destruct x; lra|]). destruct K.
Qed.
Lemma less_from P P' a b c : plant_ok P -> plant_ok P' -> 0 <= b_initial_state (p_battery P) <= 1 -> better_battery (p_battery P) (p_battery P') -> (forall I ps, processes_of P I ps -> order_ok ps) ->
  hour_ok P a -> hour_ok P b -> hour_ok P c ->
  match run_loop P [a; b; c] (zrange 0 3) (t_init (p_tank P), init_state (p_battery P)), run_loop P' [a; b; c] (zrange 0 3) (t_init (p_tank P'), init_state (p_battery P')) with
  | Ok l, Ok l' => qlt (bought l) (bought l') | _, _ => false end = true -> buys_less P P'.
Proof.
  intros A1 A2 A3 A4 A5 Ha Hb Hc K. unfold buys_less. split; [exact A1|]. split; [exact A2|]. split; [exact A3|]. split; [exact A4|]. split; [exact A5|].
  destruct (run_loop P [a; b; c] _ _) as [l|] eqn:E; [|discriminate K]. destruct (run_loop P' [a; b; c] _ _) as [l'|] eqn:E'; [|discriminate K].
  exists (P_Start.year_from [a; b; c] a), l, l'. rewrite !P_Start.first_three. split; [apply P_Start.year_all; [constructor; [exact Ha|constructor; [exact Hb|constructor; [exact Hc|constructor]]]|exact Ha]|]. split; [exact E|]. split; [exact E'|exact (qlt_true _ _ K)].
Qed.
Ltac increasing := apply P_Sizing.C104_increasing_orders; [repeat (constructor; [|repeat (constructor; try reflexivity)]); constructor|repeat (constructor; [|repeat (constructor; try reflexivity)]); constructor|..]; cbn; intuition discriminate.
Ltac three a b c := apply (less_from _ _ a b c); [figures|figures|cbn; lra|figures|exact (house_orders _)|apply house_hour; cbn [In]; tauto|apply house_hour; cbn [In]; tauto|apply house_hour; cbn [In]; tauto|vm_compute; reflexivity].
(** Losing half its charge in an hour instead of nine tenths: what is left at noon leaves less room for the sun, and the loss is taken after that. *)
Theorem C119_self_discharge_refuted : exists P x, battery_last_orders P /\ buys_less P (with_battery P (leak (p_battery P) x)).
Proof. exists (house (battery_of 1 20 20 1 1 (9 # 10)) P_Sizing.without814), (1 # 2). split; [increasing|three quiet_hour (sunny 20) (evening 8)]. Qed.
Print Assumptions C119_self_discharge_refuted.
(** Charging 6 instead of 4 kWh an hour, for the same reason *)
Theorem C119_charging_limit_refuted : exists P x, battery_last_orders P /\ buys_less P (with_battery P (charging_limit (p_battery P) x)).
Proof. exists (house (battery_of 0 4 20 1 1 (1 # 2)) P_Sizing.without814), 6. split; [increasing|three (sunny 20) (sunny 20) (evening 8)]. Qed.
Print Assumptions C119_charging_limit_refuted.
(** Discharging 8 instead of 2 kWh an hour: 4 kWh are delivered in both cases, but only 2 kWh are taken off the level in one of them. *)
Theorem C119_discharging_limit_refuted : exists P x, battery_last_orders P /\ b_self_discharge (p_battery P) == 0 /\ buys_less P (with_battery P (discharging_limit (p_battery P) x)).
Proof. exists (house (battery_of 1 20 2 1 1 0) P_Sizing.without814), 8. split; [increasing|]. split; [reflexivity|three (evening 4) (evening 6) quiet_hour]. Qed.
Print Assumptions C119_discharging_limit_refuted.
(** The efficiency of discharging multiplies what is taken off the level. *)
Theorem C119_discharging_efficiency_refuted : exists P x, battery_last_orders P /\ b_self_discharge (p_battery P) == 0 /\ buys_less P (with_battery P (discharging_efficiency (p_battery P) x)).
Proof. exists (house (battery_of 1 20 20 1 (1 # 2) 0) P_Sizing.without814), 1. split; [increasing|]. split; [reflexivity|three (evening 4) (evening 6) quiet_hour]. Qed.
Print Assumptions C119_discharging_efficiency_refuted.
(** When the battery is filled from the grid, the efficiency of charging is bought on top as if it were the loss. *)
Theorem C119_charging_efficiency_refuted : exists P x, b_self_discharge (p_battery P) == 0 /\ buys_less P (with_battery P (charging_efficiency (p_battery P) x)).
Proof.
  exists (house (battery_of 0 100 20 (1 # 2) 1 0) all15), 1. split; [reflexivity|].
  apply (less_from _ _ (demo_hour 0 0 0 20 3 5) (demo_hour 0 0 0 20 3 5) (demo_hour 0 0 0 20 3 5)); [figures|figures|cbn; lra|figures| |apply house_hour; cbn [In]; tauto|apply house_hour; cbn [In]; tauto|apply house_hour; cbn [In]; tauto|vm_compute; reflexivity].
  intros I ps [(_ & H)|(_ & H)]; apply order_okb_spec; injection H as <-; reflexivity.
Qed.
Print Assumptions C119_charging_efficiency_refuted.
(** A battery of 8 kWh that leaks a tenth in an hour and charges 4 kWh an hour, and one that does not leak, charges 6 kWh and is better at charging: the plant buys nothing instead of 2.78 kWh in three hours. *)
Example C119_case : let P := house (battery_of (1 # 4) 4 20 (9 # 10) 1 (1 # 10)) P_Sizing.without814 in let P' := house (battery_of (1 # 4) 6 20 1 1 0) P_Sizing.without814 in
  other_battery P P' /\ better_battery (p_battery P) (p_battery P') /\ b_discharge_max (p_battery P') = b_discharge_max (p_battery P) /\ b_discharge_eff (p_battery P') = b_discharge_eff (p_battery P) /\ b_self_discharge (p_battery P') == 0 /\
  plant_ok P /\ plant_ok P' /\ 0 <= b_initial_state (p_battery P) /\ b_initial_state (p_battery P') <= 1 /\ battery_last_orders P /\
  exists year l l', Forall (hour_ok P) year /\ run_timesteps P year 0 3 = Ok l /\ run_timesteps P' year 0 3 = Ok l' /\ bought l - bought l' == 139 # 50.
Proof.
  cbv zeta. set (P := house (battery_of (1 # 4) 4 20 (9 # 10) 1 (1 # 10)) P_Sizing.without814). set (P' := house (battery_of (1 # 4) 6 20 1 1 0) P_Sizing.without814).
  split; [unfold other_battery; repeat match goal with |- _ /\ _ => split end; reflexivity|]. split; [unfold P, P'; figures|]. split; [reflexivity|]. split; [reflexivity|]. split; [reflexivity|].
  split; [unfold P; figures|]. split; [unfold P'; figures|]. split; [cbn; lra|]. split; [cbn; lra|]. split; [unfold P; increasing|].
  assert (K : match run_loop P [sunny 20; quiet_hour; evening 8] (zrange 0 3) (t_init (p_tank P), init_state (p_battery P)), run_loop P' [sunny 20; quiet_hour; evening 8] (zrange 0 3) (t_init (p_tank P'), init_state (p_battery P')) with
    Ok l, Ok l' => qeq (bought l - bought l') (139 # 50) | _, _ => false end = true) by (vm_compute; reflexivity).
  destruct (run_loop P [sunny 20; quiet_hour; evening 8] _ _) as [l|] eqn:E; [|discriminate K]. destruct (run_loop P' [sunny 20; quiet_hour; evening 8] _ _) as [l'|] eqn:E'; [|discriminate K].
  exists (P_Start.year_from [sunny 20; quiet_hour; evening 8] quiet_hour), l, l'. rewrite !P_Start.first_three.
  split; [apply P_Start.year_all; [repeat (constructor; [apply house_hour; cbn [In]; tauto|]); constructor|apply house_hour; cbn [In]; tauto]|].
  split; [exact E|]. split; [exact E'|exact (qeq_true_inv _ _ K)].
Qed.
