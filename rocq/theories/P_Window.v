(** A run over part of a period: property C116. *)
From Verif Require Import Base BaseL M_Battery S_Battery L_Battery M_HeatPump S_HeatPump L_HeatPump M_Tools L_Tools M_FixedOrder S_FixedOrder L_FixedOrder L_FixedOrderHour L_FixedOrderProps L_FixedOrderRun P_FixedOrder
  S_Scale L_Scale P_Scale M_Mpc S_Mpc L_MpcRun P_Mpc S_Compare P_Compare S_Window.

Lemma run_loop_app P year a b st rs : run_loop P year (a ++ b) st = Ok rs ->
  exists rs1 rs2, rs = rs1 ++ rs2 /\ length rs1 = length a /\ run_loop P year a st = Ok rs1 /\ run_loop P year b (next_state st rs (length a)) = Ok rs2.
Proof.
  revert st rs. induction a as [|t a IH]; intros st rs H; cbn [app] in H.
  - exists [], rs. repeat split; auto.
  - cbn [run_loop] in H |- *. destruct (label year t) as [I|]; cbn [bind] in H |- *; [|discriminate].
    destruct (hour_step P I t (fst st) (snd st)) as [rc|]; cbn [bind] in H |- *; [|discriminate].
    destruct (run_loop P year (a ++ b) _) as [rest|] eqn:R; cbn [bind] in H; [|discriminate]. injection H as <-.
    destruct (IH _ _ R) as (rs1 & rs2 & -> & L & R1 & R2). exists (rc :: rs1), rs2. split; [reflexivity|]. split; [cbn; lia|]. split; [rewrite R1; reflexivity|].
    rewrite <- R2. f_equal. cbn [length next_state nth_error]. destruct (length a) as [|j] eqn:E; [reflexivity|]. cbn [next_state nth_error].
    destruct (nth_error (rs1 ++ rs2) j) eqn:N; [reflexivity|]. apply nth_error_None in N. rewrite app_length in N. lia.
Qed.
(** The run over the later hours, from the state the longer run has reached *)
Lemma window_state P year first m k rs : (0 <= m)%Z -> (0 <= k)%Z -> run_timesteps P year first (m + k) = Ok rs ->
  run_loop P year (zrange (first + m) (first + m + k)) (state_before P rs (Z.to_nat m)) = Ok (skipn (Z.to_nat m) rs) /\
  (forall x, run_loop P year (zrange (first + m) (first + m + k)) (t_init (p_tank P), init_state (p_battery P)) = x -> run_timesteps P year (first + m) k = x).
Proof.
  intros Hm Hk H. destruct (run_inv _ _ _ _ _ H) as (Y & W & R). replace (first + (m + k))%Z with (first + m + k)%Z in * by lia.
  rewrite (zrange_split first (first + m) (first + m + k)) in R by lia. destruct (run_loop_app _ _ _ _ _ _ R) as (rs1 & rs2 & -> & L & _ & R2).
  assert (Lz : length (zrange first (first + m)) = Z.to_nat m). { unfold zrange. rewrite map_length, seq_length. lia. }
  rewrite Lz in *. split.
  - rewrite skipn_app, <- L, skipn_all, Nat.sub_diag. cbn [app skipn]. rewrite L. exact R2.
  - intros x E. pose proof (surplus_deficit_year_spec (map (fun i => i_wind i + i_PV i) year) (map i_elec_demand year)) as S0. unfold run_timesteps in H |- *.
    destruct (surplus_deficit_year _ _); cbn [bind] in H |- *; [|discriminate]. destruct (Z.ltb_spec 8760 (first + m + k)); [lia|]. exact E.
Qed.
(** A run that has come back to the initial state goes on as one that begins there. *)
Theorem C116_restart_partial : forall P year first m k rs, (0 <= m)%Z -> (0 <= k)%Z -> run_timesteps P year first (m + k) = Ok rs ->
  state_before P rs (Z.to_nat m) = (t_init (p_tank P), init_state (p_battery P)) ->
  run_timesteps P year (first + m) k = Ok (skipn (Z.to_nat m) rs).
Proof.
  intros P year first m k rs Hm Hk H E. destruct (window_state _ _ _ _ _ _ Hm Hk H) as (R & W). apply W. rewrite <- E. exact R.
Qed.
Print Assumptions C116_restart_partial.

Lemma nodes_kept P I t n soc rc : t_capacity (p_tank P) == 0 -> hour_step P I t n soc = Ok rc -> r_nodes rc = n.
Proof.
  intros Z H. assert (Q0 : qeq (t_capacity (p_tank P)) 0 = true) by (destruct (qeq_spec (t_capacity (p_tank P)) 0); [reflexivity|contradiction]).
  assert (C : forall th off m c rc0 rc1, (forall r, off r = Ok rc1 -> r_nodes rc1 = r_nodes r) -> correct P I t n th off m c rc0 = Ok rc1 -> r_nodes rc1 = r_nodes rc0).
  { intros th off m c rc0 rc1 HO HC. unfold correct in HC. destruct (_ && _)%bool; [|injection HC as <-; reflexivity].
    destruct (t_max _ _ _ _ _ _); cbn [bind] in HC; [|discriminate]. destruct (qlt _ _); [apply HO; exact HC|]. unfold top_up in HC. rewrite Q0 in HC. injection HC as <-. reflexivity. }
  unfold hour_step in H. destruct (qlt (p_setpoint P) (i_import_price I)).
  - destruct (above_setpoint P I t n soc) as [r1|] eqn:E; cbn [bind] in H; [|discriminate]. injection H as <-. cbn [complete r_nodes].
    unfold above_setpoint in E. destruct (above_uncorrected P I t n soc) as [(c, r0)|] eqn:U; cbn [bind] in E; [|discriminate].
    apply C in E; [rewrite E|].
    + unfold above_uncorrected in U. destruct (run_order _ _ _ _ _ _ _) as [(c', r')|]; cbn [bind] in U; [|discriminate]. cbv zeta in U. destruct (aux_accounts _ _) as [r2|]; cbn [bind] in U; [|discriminate].
      unfold tank_step in U. rewrite Q0 in U. cbn [bind] in U. injection U as _ <-. reflexivity.
    + intros r HO. unfold switch_off_above in HO. rewrite Q0 in HO. cbn [bind] in HO. injection HO as <-. reflexivity.
  - destruct (below_setpoint P I t n soc) as [r1|] eqn:E; cbn [bind] in H; [|discriminate]. injection H as <-. cbn [complete r_nodes].
    unfold below_setpoint in E. destruct (below_uncorrected P I t n soc) as [(c, r0)|] eqn:U; cbn [bind] in E; [|discriminate].
    apply C in E; [rewrite E|].
    + unfold below_uncorrected in U. destruct (run_order _ _ _ _ _ _ _) as [(c', r')|]; cbn [bind] in U; [|discriminate]. cbv zeta in U. destruct (aux_accounts _ _) as [r2|]; cbn [bind] in U; [|discriminate].
      unfold tank_step in U. rewrite Q0 in U. cbn [bind] in U. injection U as _ <-. reflexivity.
    + intros r HO. unfold switch_off_below in HO. destruct (t_max _ _ _ _ _ _); cbn [bind] in HO; [|discriminate]. rewrite Q0 in HO. cbn [bind] in HO. injection HO as <-. reflexivity.
Qed.
Lemma same_generation_refl I : same_generation I I.
Proof. unfold same_generation. repeat match goal with |- _ /\ _ => split end; reflexivity. Qed.
Lemma hours_alike P I t n soc soc' : tank_respects_numbers (p_tank P) -> soc == soc' -> alike same_record (hour_step P I t n soc) (hour_step P I t n soc').
Proof.
  intros T E. pose proof (hours_same P I I t n soc soc' T (same_generation_refl I) E) as A.
  destruct (hour_step P I t n soc) as [rc|] eqn:H, (hour_step P I t n soc') as [rc'|] eqn:H'; cbn [alike] in *; try assumption. destruct A as (A & N). split; [|exact N].
  pose proof (hour_demands _ _ _ _ _ _ H) as (_ & _ & W & V & _). pose proof (hour_demands _ _ _ _ _ _ H') as (_ & _ & W' & V' & _).
  intro f. assert (D : {f = RES_wind} + {f = RES_PV} + {f <> RES_wind /\ f <> RES_PV}) by (destruct f; (left; left; reflexivity) || (left; right; reflexivity) || (right; split; discriminate)).
  destruct D as [[->| ->]|(F1 & F2)]; [rewrite W, W'; reflexivity|rewrite V, V'; reflexivity|apply A; assumption].
Qed.
Lemma loops_alike P year : tank_respects_numbers (p_tank P) -> forall ts n soc soc', soc == soc' ->
  alike (Forall2 same_record) (run_loop P year ts (n, soc)) (run_loop P year ts (n, soc')).
Proof.
  intros T. induction ts as [|t ts IH]; intros n soc soc' E; cbn [run_loop]; [constructor|].
  destruct (label year t) as [I|]; cbn [bind]; [|reflexivity]. cbn [fst snd].
  apply (alike_bind same_record); [apply hours_alike; assumption|]. intros rc rc' (R & N). rewrite <- N.
  apply (alike_bind (Forall2 same_record)); [apply IH, R|]. intros l l' F. constructor; [split|]; assumption.
Qed.
(** Without stores every part of the period can be run alone. *)
Theorem C116_window_partial : forall P year first m k, tank_respects_numbers (p_tank P) -> nothing_stored P -> (0 <= m)%Z -> (0 <= k)%Z -> window_agrees P year first m k.
Proof.
  intros P year first m k T (B & Z) Hm Hk rs H. destruct (window_state _ _ _ _ _ _ Hm Hk H) as (R & W). rewrite (W _ eq_refl). rewrite <- R.
  assert (K : forall i, fst (state_before P rs i) = t_init (p_tank P) /\ snd (state_before P rs i) == init_state (p_battery P)).
  { assert (I0 : init_state (p_battery P) == 0) by (unfold init_state; rewrite B; ring).
    induction i as [|i (IH & _)]; [split; reflexivity|]. cbn [state_before]. destruct (nth_error rs i) as [rc|] eqn:E; [|split; reflexivity]. cbn [fst snd].
    destruct (run_steps _ _ _ _ _ _ _ H E) as (I & _ & _ & HS). split; [rewrite (nodes_kept _ _ _ _ _ _ Z HS); exact IH|].
    pose proof (final_soc_range _ _ _ _ _ _ ltac:(rewrite B; lra) HS). lra. }
  destruct (K (Z.to_nat m)) as (K1 & K2). destruct (state_before P rs (Z.to_nat m)) as (n, s). cbn [fst snd] in *. subst n. apply loops_alike; assumption.
Qed.
Print Assumptions C116_window_partial.

(** With a battery it cannot: the part run alone begins with the initial level. *)
Theorem C116_window_refuted : exists P year rs rs1 rc rc1, full_year year /\ plant_ok P /\ t_capacity (p_tank P) == 0 /\
  run_timesteps P year 0 2 = Ok rs /\ run_timesteps P year 1 1 = Ok rs1 /\ nth_error rs 1 = Some rc /\ nth_error rs1 0 = Some rc1 /\
  rf rc GRID_total_import == 0 /\ rf rc1 GRID_total_import == 5 /\ ~ window_agrees P year 0 1 1.
Proof.
  set (P := plain_plant 20 0). set (year := short_year sun_hour demand_hour demand_hour).
  destruct (run_total P year 0 2 (plain_total 20 0) (short_year_ok _ _ _)) as (rs & E); [lia|lia|].
  destruct (run_total P year 1 1 (plain_total 20 0) (short_year_ok _ _ _)) as (rs1 & E1); [lia|lia|].
  assert (C : forall x y f g, x = Ok y -> match x with Ok l => match nth_error l f with Some rc => qeq (rf rc GRID_total_import) g | None => false end | Err _ => false end = true -> exists rc : record, nth_error y f = Some rc /\ rf rc GRID_total_import == g).
  { intros x y f g -> HH. destruct (nth_error y f) as [rc|]; [|discriminate]. exists rc. split; [reflexivity|]. apply qeq_true_inv. exact HH. }
  destruct (run_inv _ _ _ _ _ E) as (_ & _ & L). destruct (run_inv _ _ _ _ _ E1) as (_ & _ & L1).
  destruct (C _ _ 1%nat 0 L) as (rc & N & V); [vm_compute; reflexivity|]. destruct (C _ _ 0%nat 5 L1) as (rc1 & N1 & V1); [vm_compute; reflexivity|].
  exists P, year, rs, rs1, rc, rc1. split; [apply short_year_ok|]. split; [split; [apply plain_battery_ok; lra|]; cbn; repeat split; try lra; discriminate|]. split; [reflexivity|].
  split; [exact E|]. split; [exact E1|]. split; [exact N|]. split; [exact N1|]. split; [exact V|]. split; [exact V1|].
  intro W. specialize (W rs E). change (0 + 1)%Z with 1%Z in W. rewrite E1 in W. cbn [alike] in W. change (Z.to_nat 1) with 1%nat in W. clear - N N1 V V1 W.
  destruct rs as [|a [|b rs]]; try discriminate N. cbn in N, W. destruct rs1 as [|c rs1]; [discriminate N1|]. cbn in N1. inversion W as [|? ? ? ? (F & _) _]. subst. specialize (F GRID_total_import).
  assert (b = rc) by congruence. assert (c = rc1) by congruence. subst. lra.
Qed.
Print Assumptions C116_window_refuted.
(** A case without stores *)
Example C116_case : exists rs, run_timesteps (plain_plant 0 8) (short_year cheap_hour sun_hour demand_hour) 0 3 = Ok rs /\ nothing_stored (plain_plant 0 8) /\ tank_respects_numbers (p_tank (plain_plant 0 8)) /\ length rs = 3%nat.
Proof.
  destruct (run_total (plain_plant 0 8) (short_year cheap_hour sun_hour demand_hour) 0 3 (plain_total 0 8) (short_year_ok _ _ _)) as (rs & E); [lia|lia|].
  exists rs. split; [exact E|]. split; [split; reflexivity|]. split; [intros s n src flow h d h' d' t _ _; reflexivity|]. apply (run_length _ _ _ _ _ E).
Qed.
(** Under predictive control a part run alone never agrees in its first hour, when there is a demand: that record is made up. *)
Theorem C116_planned_first_hour : forall X opt year first m k rs rs1 I, (1 <= m)%Z -> (2 <= k)%Z ->
  mpc_run X opt year first (m + k) = Ok rs -> mpc_run X opt year (first + m) k = Ok rs1 -> label year (first + m) = Ok I -> ~ i_elec_demand I == 0 ->
  (first + m < 8759)%Z ->
  exists rc rc1, nth_error rs (Z.to_nat m) = Some rc /\ nth_error rs1 0 = Some rc1 /\ rf rc ED_elec_demand == i_elec_demand I /\ rf rc1 ED_elec_demand == 0 /\
    ~ Forall2 same_record (skipn (Z.to_nat m) rs) rs1.
Proof.
  intros X opt year first m k rs rs1 I Hm Hk H H1 HI D L. destruct (C64_first_hour _ _ _ _ _ _ H1 Hk) as (rc1 & N1 & E1 & _).
  pose proof (C27_one_record_per_hour X opt year first (m + k) rs ltac:(lia) H) as Len.
  destruct (nth_error rs (Z.to_nat m)) as [rc|] eqn:N; [|apply nth_error_None in N; lia].
  assert (V : rf rc ED_elec_demand == i_elec_demand I).
  { pose proof N as N'. replace (Z.to_nat m) with (S (Z.to_nat (m - 1))) in N' by lia. destruct (C64_own_hour_partial _ _ _ _ _ _ _ _ H N' ltac:(lia)) as (I' & HI' & Ds).
    replace (first + Z.of_nat (S (Z.to_nat (m - 1))))%Z with (first + m)%Z in HI' by lia. assert (I' = I) by congruence. subst I'. apply Ds. }
  exists rc, rc1. split; [reflexivity|]. split; [exact N1|]. split; [exact V|]. split; [exact E1|]. intro F.
  destruct rs1 as [|x rs1]; [discriminate N1|]. cbn in N1. assert (x = rc1) by congruence. subst x.
  assert (HD : nth_error (skipn (Z.to_nat m) rs) 0 = Some rc). { rewrite <- N. clear. generalize (Z.to_nat m) as j. induction rs as [|r rs IH]; intros [|j]; try reflexivity. cbn. apply IH. }
  destruct (skipn (Z.to_nat m) rs) as [|y l]; [discriminate HD|]. cbn in HD. assert (y = rc) by congruence. subst y. inversion F as [|? ? ? ? (A & _) _]. specialize (A ED_elec_demand). rewrite V, E1 in A. contradiction.
Qed.
Print Assumptions C116_planned_first_hour.
Example C116_planned_case : exists rs rs1, let X := demo_mpc in
  mpc_run X (answer_with plain_plan) demo_year 100 (20 + 28) = Ok rs /\ mpc_run X (answer_with plain_plan) demo_year (100 + 20) 28 = Ok rs1 /\
  label demo_year (100 + 20) = Ok sunny /\ ~ i_elec_demand sunny == 0.
Proof.
  destruct C27_case as (rs & E & _).
  destruct (mpc_run_completes demo_mpc (answer_with plain_plan) demo_year (100 + 20) 28) as (rs1 & E1 & _); try (cbn; lia); [exact demo_year_ok|exact demo_tank_total|exact demo_backup|left; reflexivity|apply always_from_initial, answer_with_always|].
  exists rs, rs1. cbv zeta. split; [exact E|]. split; [exact E1|]. split; [apply demo_year_row; lia|]. intro H. vm_compute in H. discriminate H.
Qed.
