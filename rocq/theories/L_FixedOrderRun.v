(** Runs of the fixed-order controller over many hours; order numbers. *)
From Verif Require Import Base BaseL M_Battery S_Battery L_Battery M_HeatPump S_HeatPump L_HeatPump
  M_Tools L_Tools M_FixedOrder S_FixedOrder L_FixedOrder L_FixedOrderHour L_FixedOrderProps.

Lemma final_soc_range P I t n soc rc :
  0 <= b_capacity (p_battery P) -> hour_step P I t n soc = Ok rc ->
  0 <= rf rc ES_final_soc <= b_capacity (p_battery P).
Proof.
  intros Hb H. apply hour_inv in H. destruct H as (c & rc0 & rc1 & Hu & Hc & ->).
  apply uncorrected_inv in Hu. destruct Hu as (ps & r & u & pr & de & H1 & H2 & H3 & H4 & H5 & _).
  apply corrected_intro in Hc.
  rewrite (settled_corrected P I t n c rc0 rc1 ES_final_soc Hc) by (unfold settled; cbn [In]; tauto).
  rewrite H5. unfold finish_fields.
  destruct (hi P I); fld; apply new_soc_range; assumption.
Qed.

Lemma run_loop_length P year ts st rs : run_loop P year ts st = Ok rs -> length rs = length ts.
Proof.
  revert st rs. induction ts as [|t ts IH]; intros st rs H; cbn [run_loop] in H.
  - injection H as <-. reflexivity.
  - destruct (label year t) as [I|]; cbn [bind] in H; [|discriminate].
    destruct (hour_step P I t (fst st) (snd st)) as [rc|]; cbn [bind] in H; [|discriminate].
    destruct (run_loop P year ts _) as [rest|] eqn:R; cbn [bind] in H; [|discriminate].
    injection H as <-. cbn [length]. rewrite (IH _ _ R). reflexivity.
Qed.

Lemma label_inv {A} (l : list A) t x : label l t = Ok x -> (0 <= t)%Z /\ nth_error l (Z.to_nat t) = Some x.
Proof.
  unfold label. destruct (Z.ltb_spec t 0); [discriminate|].
  destruct (nth_error l (Z.to_nat t)); [|discriminate]. intro E. injection E as <-. auto.
Qed.

Definition next_state (st : nodes * Q) (rs : list record) (i : nat) : nodes * Q :=
  match i with
  | O => st
  | S j => match nth_error rs j with Some rc => (r_nodes rc, rf rc ES_final_soc) | None => st end
  end.

Lemma run_loop_steps P year ts st rs i t rc :
  run_loop P year ts st = Ok rs -> nth_error ts i = Some t -> nth_error rs i = Some rc ->
  exists I, (0 <= t)%Z /\ nth_error year (Z.to_nat t) = Some I /\
    hour_step P I t (fst (next_state st rs i)) (snd (next_state st rs i)) = Ok rc.
Proof.
  revert st rs i. induction ts as [|t0 ts IH]; intros st rs i H Ht Hr; [destruct i; discriminate|].
  cbn [run_loop] in H.
  destruct (label year t0) as [I|] eqn:L; cbn [bind] in H; [|discriminate].
  destruct (hour_step P I t0 (fst st) (snd st)) as [rc0|] eqn:HS; cbn [bind] in H; [|discriminate].
  destruct (run_loop P year ts _) as [rest|] eqn:R; cbn [bind] in H; [|discriminate].
  injection H as <-. destruct i as [|i]; cbn [nth_error] in Ht, Hr.
  - injection Ht as <-. injection Hr as <-. apply label_inv in L. destruct L. exists I. auto.
  - destruct (IH _ _ i R Ht Hr) as (I' & A & B & C). exists I'. split; [exact A|]. split; [exact B|].
    rewrite <- C. cbn [next_state nth_error]. destruct i as [|i]; cbn [next_state nth_error fst snd]; [reflexivity|].
    destruct (nth_error rest i) eqn:E; [reflexivity|]. exfalso.
    apply nth_error_None in E. assert (nth_error rest (S i) = None) by (apply nth_error_None; lia). congruence.
Qed.

Lemma run_inv P year s n rs :
  run_timesteps P year s n = Ok rs ->
  full_year year /\ (s + n <= 8760)%Z /\
  run_loop P year (zrange s (s + n)) (t_init (p_tank P), init_state (p_battery P)) = Ok rs.
Proof.
  unfold run_timesteps. intro H.
  pose proof (surplus_deficit_year_spec (map (fun i => i_wind i + i_PV i) year) (map i_elec_demand year)) as Y.
  destruct (surplus_deficit_year _ _) as [l|]; cbn [bind] in H; [|discriminate].
  destruct Y as (Y & _). unfold full_year in *. rewrite map_length in Y.
  destruct (Z.ltb_spec 8760 (s + n)); [discriminate|]. auto.
Qed.

Lemma nth_zrange a b i : (i < Z.to_nat (b - a))%nat -> nth_error (zrange a b) i = Some (a + Z.of_nat i)%Z.
Proof.
  intro H. unfold zrange. rewrite nth_error_map.
  rewrite (nth_error_nth' (seq 0 (Z.to_nat (b - a))) 0%nat) by (rewrite seq_length; exact H).
  rewrite seq_nth by exact H. cbn. reflexivity.
Qed.

Lemma run_length P year s n rs : run_timesteps P year s n = Ok rs -> length rs = Z.to_nat n.
Proof.
  intro H. apply run_inv in H. destruct H as (_ & _ & H). apply run_loop_length in H. rewrite H, zrange_length.
  f_equal. lia.
Qed.

Lemma run_steps P year s n rs i rc :
  run_timesteps P year s n = Ok rs -> nth_error rs i = Some rc ->
  exists I, (0 <= s + Z.of_nat i)%Z /\ nth_error year (Z.to_nat (s + Z.of_nat i)) = Some I /\
    hour_step P I (s + Z.of_nat i) (fst (state_before P rs i)) (snd (state_before P rs i)) = Ok rc.
Proof.
  intros H Hr. pose proof (run_length _ _ _ _ _ H) as L. apply run_inv in H. destruct H as (_ & _ & H).
  assert (Hi : (i < Z.to_nat n)%nat) by (rewrite <- L; apply nth_error_Some; congruence).
  apply (run_loop_steps P year _ _ rs i (s + Z.of_nat i)%Z rc H); [|exact Hr].
  apply nth_zrange. lia.
Qed.

Lemma run_soc_range P year s n rs :
  0 <= b_capacity (p_battery P) -> run_timesteps P year s n = Ok rs ->
  Forall (fun rc => 0 <= rf rc ES_final_soc <= b_capacity (p_battery P)) rs.
Proof.
  intros Hb H. apply Forall_forall. intros rc Hin. apply In_nth_error in Hin. destruct Hin as [i Hi].
  destruct (run_steps _ _ _ _ _ _ _ H Hi) as (I & _ & _ & E). apply (final_soc_range _ _ _ _ _ _ Hb E).
Qed.

Lemma hour_demands P I t n soc rc : hour_step P I t n soc = Ok rc ->
  rf rc ED_elec_demand = i_elec_demand I /\ rf rc HD_heat_demand = i_heat_demand I /\
  rf rc RES_wind = i_wind I /\ rf rc RES_PV = i_PV I /\ rf rc GRID_import_price = i_import_price I.
Proof.
  intro H. destruct (grid_costs _ _ _ _ _ _ H) as (E & _).
  apply hour_inv in H. destruct H as (c & rc0 & rc1 & Hu & Hc & ->). repeat split; exact E.
Qed.

Lemma run_records P year s n rs :
  run_timesteps P year s n = Ok rs ->
  (s + n <= 8760)%Z /\ length rs = Z.to_nat n /\
  forall i rc, nth_error rs i = Some rc ->
    exists I, nth_error year (Z.to_nat (s + Z.of_nat i)) = Some I /\
      rf rc ED_elec_demand = i_elec_demand I /\ rf rc HD_heat_demand = i_heat_demand I /\
      rf rc RES_wind = i_wind I /\ rf rc RES_PV = i_PV I /\ rf rc GRID_import_price = i_import_price I.
Proof.
  intro H. split; [apply (run_inv _ _ _ _ _ H)|]. split; [apply (run_length _ _ _ _ _ H)|].
  intros i rc Hi. destruct (run_steps _ _ _ _ _ _ _ H Hi) as (I & _ & E & S). exists I. split; [exact E|].
  apply (hour_demands _ _ _ _ _ _ S).
Qed.

Lemma run_too_long P year s n :
  full_year year -> (8760 < s + n)%Z -> run_timesteps P year s n = Err ValueError.
Proof.
  intros Hy H. unfold run_timesteps.
  pose proof (surplus_deficit_year_spec (map (fun i => i_wind i + i_PV i) year) (map i_elec_demand year)) as Y.
  unfold full_year in *. 
  destruct (surplus_deficit_year _ _) as [l|e]; cbn [bind].
  - destruct (Z.ltb_spec 8760 (s + n)); [reflexivity|lia].
  - exfalso. destruct e; rewrite ?map_length in Y; lia || assumption.
Qed.

Lemma run_negative_start P year s n :
  full_year year -> (s < 0)%Z -> (0 < n)%Z -> (s + n <= 8760)%Z -> run_timesteps P year s n = Err KeyError.
Proof.
  intros Hy H Hn Hs. unfold run_timesteps.
  pose proof (surplus_deficit_year_spec (map (fun i => i_wind i + i_PV i) year) (map i_elec_demand year)) as Y.
  unfold full_year in *.
  destruct (surplus_deficit_year _ _) as [l|e]; cbn [bind].
  - destruct (Z.ltb_spec 8760 (s + n)); [lia|].
    unfold zrange. replace (s + n - s)%Z with n by lia.
    destruct (Z.to_nat n) as [|k] eqn:E; [lia|]. cbn [seq map run_loop].
    unfold label. destruct (Z.ltb_spec (s + Z.of_nat 0) 0); [reflexivity|lia].
  - exfalso. destruct e; rewrite ?map_length in Y; lia || assumption.
Qed.

(** ** Totality *)
Lemma amount_total P I t n p c : tank_total (p_tank P) -> exists he, amount P I t n p c = Ok he.
Proof.
  intros [H1 _]. destruct (H1 Charging n (i_source_temp I) (i_flow_temp I) t) as [m1 E1].
  destruct (H1 Discharging n (i_source_temp I) (i_flow_temp I) t) as [m2 E2].
  destruct p; cbn [amount]; rewrite ?E1, ?E2; cbn [bind];
    try (eexists; reflexivity); destruct (is_electric P); cbn [bind]; eexists; reflexivity.
Qed.

Lemma run_order_total P I t n key order ps cr :
  tank_total (p_tank P) -> mapM key order = Ok ps -> exists cr', run_order P I t n key order cr = Ok cr'.
Proof.
  intros HT H. rewrite (processes_run_order _ _ _ _ _ _ _ cr H). clear H. revert cr.
  induction ps as [|p ps IH]; intros [c r]; [eexists; reflexivity|].
  cbn [foldM]. unfold run_process at 1. destruct (amount_total P I t n p c HT) as [he E]. rewrite E. cbn [bind]. apply IH.
Qed.

Lemma aux_accounts_total P r :
  ~ a_efficiency (p_aux P) == 0 ->
  (a_fuel (p_aux P) <> ELECTRIC -> a_cost (p_aux P) <> None /\ a_energy_density (p_aux P) <> None) ->
  exists r', aux_accounts P r = Ok r'.
Proof.
  intros He Hf. unfold aux_accounts.
  destruct (proj2 (fuel_usage_spec (a_efficiency (p_aux P)) (r AUX_demand)) He) as (u & E & _). rewrite E. cbn [bind].
  unfold is_electric. destruct (fuel_eqb (a_fuel (p_aux P)) ELECTRIC) eqn:Ef; cbn [bind]; [eexists; reflexivity|].
  destruct Hf as [H1 H2].
  { intro X. apply fuel_eqb_eq in X. congruence. }
  destruct (a_cost (p_aux P)); [|congruence]. destruct (a_energy_density (p_aux P)); [|congruence].
  cbn [bind]. eexists; reflexivity.
Qed.

Lemma tank_step_total P I t n x r : tank_total (p_tank P) -> exists nn, tank_step P I t n x r = Ok nn.
Proof.
  intros [_ H]. unfold tank_step. destruct (qeq_spec (t_capacity (p_tank P)) 0) as [Z|Z]; [eexists; reflexivity|]. apply H, Z.
Qed.

Lemma correct_total P I t n th off tsm c rc :
  tank_total (p_tank P) -> (forall x, exists y, off x = Ok y) -> exists y, correct P I t n th off tsm c rc = Ok y.
Proof.
  intros [H1 H2] Ho. unfold correct. destruct (_ && _); [|eexists; reflexivity].
  destruct (H1 Charging n (i_source_temp I) (i_flow_temp I) t) as [m1 E1]. rewrite E1. cbn [bind].
  destruct (qlt _ _); [apply Ho|]. unfold top_up. destruct (qeq_spec (t_capacity (p_tank P)) 0) as [Z|Z]; [eexists; reflexivity|].
  match goal with |- context [t_new ?T ?s ?a ?b ?c ?d ?e ?f] => destruct (H2 Z s a b c d e f) as [n' E2]; rewrite E2 end.
  cbn [bind]. eexists; reflexivity.
Qed.

Lemma hour_total P I t n soc : plant_total P -> exists rc, hour_step P I t n soc = Ok rc.
Proof.
  intros (HT & He & Hf & [pa Ha] & [pb Hb]). unfold hour_step.
  destruct (qlt (p_setpoint P) (i_import_price I)).
  - unfold above_setpoint, above_uncorrected.
    destruct (run_order_total P I t n above_key (p_order_above P) pa (init_checks P I soc, init_above I) HT Ha) as [[c r] E].
    rewrite E. cbn [bind]. cbv zeta.
    match goal with |- context [aux_accounts P ?x] => destruct (aux_accounts_total P x He Hf) as [r' E']; rewrite E' end. cbn [bind].
    match goal with |- context [tank_step P I t n ?x ?y] => destruct (tank_step_total P I t n x y HT) as [nn E'']; rewrite E'' end. cbn [bind].
    match goal with |- context [correct P I t n ?th ?off ?x c ?rc] => destruct (correct_total P I t n th off x c rc HT) as [y E3]; [|rewrite E3] end.
    + intro x. unfold switch_off_above. destruct (qeq_spec (t_capacity (p_tank P)) 0) as [Z|Z]; cbn [bind]; [eexists; reflexivity|].
      destruct HT as [_ H2].
      match goal with |- context [t_new ?T ?s ?a ?b ?c ?d ?e ?f] => destruct (H2 Z s a b c d e f) as [n' E2]; rewrite E2 end.
      cbn [bind]. eexists; reflexivity.
    + cbn [bind]. eexists; reflexivity.
  - unfold below_setpoint, below_uncorrected.
    destruct (run_order_total P I t n below_key (p_order_below P) pb (init_checks P I soc, init_below P I) HT Hb) as [[c r] E].
    rewrite E. cbn [bind]. cbv zeta.
    match goal with |- context [aux_accounts P ?x] => destruct (aux_accounts_total P x He Hf) as [r' E']; rewrite E' end. cbn [bind].
    match goal with |- context [tank_step P I t n ?x ?y] => destruct (tank_step_total P I t n x y HT) as [nn E'']; rewrite E'' end. cbn [bind].
    match goal with |- context [correct P I t n ?th ?off ?x c ?rc] => destruct (correct_total P I t n th off x c rc HT) as [y E3]; [|rewrite E3] end.
    + intro x. unfold switch_off_below. destruct HT as [H1 H2].
      destruct (H1 Discharging n (i_source_temp I) (i_flow_temp I) t) as [m1 E1]. rewrite E1. cbn [bind].
      destruct (qeq_spec (t_capacity (p_tank P)) 0) as [Z|Z]; cbn [bind]; [eexists; reflexivity|].
      match goal with |- context [t_new ?T ?s ?a ?b ?c ?d ?e ?f] => destruct (H2 Z s a b c d e f) as [n' E2]; rewrite E2 end.
      cbn [bind]. eexists; reflexivity.
    + cbn [bind]. eexists; reflexivity.
Qed.

Lemma run_loop_total P year ts st :
  plant_total P -> Forall (fun t => (0 <= t < Z.of_nat (length year))%Z) ts ->
  exists rs, run_loop P year ts st = Ok rs.
Proof.
  intros HP. revert st. induction ts as [|t ts IH]; intros st F; [eexists; reflexivity|].
  inversion F as [|? ? F1 F2]; subst. cbn [run_loop].
  assert (L : exists I, label year t = Ok I).
  { unfold label. destruct (Z.ltb_spec t 0); [lia|]. destruct (nth_error year (Z.to_nat t)) eqn:E; [eexists; reflexivity|].
    apply nth_error_None in E. lia. }
  destruct L as [I L]. rewrite L. cbn [bind].
  destruct (hour_total P I t (fst st) (snd st) HP) as [rc E]. rewrite E. cbn [bind].
  destruct (IH (r_nodes rc, rf rc ES_final_soc) F2) as [rs E']. rewrite E'. cbn [bind]. eexists; reflexivity.
Qed.

Lemma run_total P year s n :
  plant_total P -> full_year year -> (0 <= s)%Z -> (s + n <= 8760)%Z ->
  exists rs, run_timesteps P year s n = Ok rs.
Proof.
  intros HP Hy Hs Hn. unfold run_timesteps.
  pose proof (surplus_deficit_year_spec (map (fun i => i_wind i + i_PV i) year) (map i_elec_demand year)) as Y.
  unfold full_year in *.
  destruct (surplus_deficit_year _ _) as [l|e]; cbn [bind].
  - destruct (Z.ltb_spec 8760 (s + n)); [lia|]. apply run_loop_total; [exact HP|].
    apply Forall_forall. intros t Ht. apply zrange_In in Ht. lia.
  - exfalso. destruct e; rewrite ?map_length in Y; lia || assumption.
Qed.

(** ** C17: causality *)
Lemma run_loop_causal P y1 y2 ts1 ts2 ts st rs1 rs2 :
  run_loop P y1 (ts ++ ts1) st = Ok rs1 -> run_loop P y2 (ts ++ ts2) st = Ok rs2 ->
  (forall t, In t ts -> (0 <= t)%Z -> nth_error y1 (Z.to_nat t) = nth_error y2 (Z.to_nat t)) ->
  firstn (length ts) rs1 = firstn (length ts) rs2.
Proof.
  revert st rs1 rs2. induction ts as [|t ts IH]; intros st rs1 rs2 H1 H2 Hy; [reflexivity|].
  cbn [app run_loop] in H1, H2.
  destruct (label y1 t) as [I1|] eqn:L1; cbn [bind] in H1; [|discriminate].
  destruct (label y2 t) as [I2|] eqn:L2; cbn [bind] in H2; [|discriminate].
  apply label_inv in L1. apply label_inv in L2. destruct L1 as [L0 L1]. destruct L2 as [_ L2].
  rewrite <- (Hy t (or_introl eq_refl) L0), L1 in L2. injection L2 as <-.
  destruct (hour_step P I1 t (fst st) (snd st)) as [rc|]; cbn [bind] in H1, H2; [|discriminate].
  destruct (run_loop P y1 (ts ++ ts1) _) as [r1|] eqn:R1; cbn [bind] in H1; [|discriminate].
  destruct (run_loop P y2 (ts ++ ts2) _) as [r2|] eqn:R2; cbn [bind] in H2; [|discriminate].
  injection H1 as <-. injection H2 as <-. cbn [length firstn]. f_equal.
  apply (IH _ _ _ R1 R2). intros t' Ht. apply Hy. right. exact Ht.
Qed.

Lemma zrange_split a b c : (a <= b)%Z -> (b <= c)%Z -> zrange a c = zrange a b ++ zrange b c.
Proof.
  intros H1 H2. unfold zrange.
  replace (Z.to_nat (c - a)) with (Z.to_nat (b - a) + Z.to_nat (c - b))%nat by lia.
  rewrite seq_app, map_app. f_equal. cbn [plus].
  rewrite <- (map_id (seq (Z.to_nat (b - a)) _)).
  assert (E : forall k m, map (fun i => (a + Z.of_nat i)%Z) (seq (k + m) (Z.to_nat (c - b))) = map (fun i => (a + Z.of_nat m + Z.of_nat i)%Z) (seq k (Z.to_nat (c - b)))).
  { generalize (Z.to_nat (c - b)) as l. induction l as [|l IH]; intros k m; [reflexivity|].
    cbn [seq map]. rewrite <- (IH (S k) m). f_equal. lia. }
  rewrite map_id. specialize (E 0%nat (Z.to_nat (b - a))). cbn [plus] in E. rewrite E.
  apply map_ext. intro i. lia.
Qed.

Lemma run_causal P y1 y2 s n1 n2 k rs1 rs2 :
  run_timesteps P y1 s n1 = Ok rs1 -> run_timesteps P y2 s n2 = Ok rs2 ->
  (0 <= k)%Z -> (k <= n1)%Z -> (k <= n2)%Z ->
  (forall t, (0 <= t < s + k)%Z -> nth_error y1 (Z.to_nat t) = nth_error y2 (Z.to_nat t)) ->
  firstn (Z.to_nat k) rs1 = firstn (Z.to_nat k) rs2.
Proof.
  intros H1 H2 Hk K1 K2 Hy. apply run_inv in H1. apply run_inv in H2.
  destruct H1 as (_ & _ & H1). destruct H2 as (_ & _ & H2).
  rewrite (zrange_split s (s + k)) in H1 by lia. rewrite (zrange_split s (s + k)) in H2 by lia.
  pose proof (run_loop_causal P y1 y2 _ _ _ _ rs1 rs2 H1 H2) as E.
  rewrite zrange_length in E. replace (s + k - s)%Z with k in E by lia. apply E.
  intros t Ht Ht0. apply zrange_In in Ht. apply Hy. lia.
Qed.

(** ** C18: order numbers *)
Lemma key_error above n e : (if above : bool then above_key n else below_key n) = Err e -> e = KeyError.
Proof.
  destruct above; [unfold above_key|unfold below_key]; intro H;
    repeat match type of H with context [match ?x with _ => _ end] => destruct x; try discriminate H end; congruence.
Qed.

Lemma above_key_range n : (exists p, above_key n = Ok p) <-> (1 <= n <= 13)%Z.
Proof.
  split.
  - intros [p H]. unfold above_key in H.
    repeat match type of H with context [match ?x with _ => _ end] => destruct x; try discriminate H end; lia.
  - intro H. assert (E : (n = 1 \/ n = 2 \/ n = 3 \/ n = 4 \/ n = 5 \/ n = 6 \/ n = 7 \/ n = 8 \/ n = 9 \/ n = 10 \/ n = 11 \/ n = 12 \/ n = 13)%Z) by lia.
    repeat (destruct E as [->|E]; [eexists; reflexivity|]). subst. eexists; reflexivity.
Qed.
Lemma below_key_range n : (exists p, below_key n = Ok p) <-> (1 <= n <= 15)%Z.
Proof.
  split.
  - intros [p H]. unfold below_key in H.
    repeat match type of H with context [match ?x with _ => _ end] => destruct x; try discriminate H end; lia.
  - intro H. assert (E : (n = 1 \/ n = 2 \/ n = 3 \/ n = 4 \/ n = 5 \/ n = 6 \/ n = 7 \/ n = 8 \/ n = 9 \/ n = 10 \/ n = 11 \/ n = 12 \/ n = 13 \/ n = 14 \/ n = 15)%Z) by lia.
    repeat (destruct E as [->|E]; [eexists; reflexivity|]). subst. eexists; reflexivity.
Qed.

Lemma run_order_bad P I t n key order cr k :
  tank_total (p_tank P) -> (forall n e, key n = Err e -> e = KeyError) ->
  In k order -> key k = Err KeyError -> run_order P I t n key order cr = Err KeyError.
Proof.
  intros HT Hk Hin Hbad. unfold run_order. revert cr. induction order as [|a order IH]; intros [c r]; [destruct Hin|].
  cbn [foldM]. unfold run_number at 1. destruct (key a) as [p|e] eqn:E; cbn [bind].
  - destruct Hin as [->|Hin]; [congruence|].
    unfold run_process. destruct (amount_total P I t n p c HT) as [he E2]. rewrite E2. cbn [bind]. apply IH. exact Hin.
  - rewrite (Hk a e E). reflexivity.
Qed.

Lemma not_Ok_key above n : ~ (exists p, (if above : bool then above_key n else below_key n) = Ok p) ->
  (if above then above_key n else below_key n) = Err KeyError.
Proof.
  intro H. destruct (if above then above_key n else below_key n) as [p|e] eqn:E.
  - exfalso. apply H. exists p. reflexivity.
  - rewrite (key_error above n e E). reflexivity.
Qed.

Lemma bad_number_above P I t n soc k :
  tank_total (p_tank P) -> high_tariff P I -> In k (p_order_above P) -> ~ (1 <= k <= 13)%Z ->
  hour_step P I t n soc = Err KeyError.
Proof.
  intros HT Hh Hin Hk. unfold hour_step. unfold high_tariff in Hh.
  destruct (qlt_spec (p_setpoint P) (i_import_price I)); [|lra].
  unfold above_setpoint, above_uncorrected.
  rewrite (run_order_bad P I t n above_key (p_order_above P) _ k HT (key_error true) Hin); [reflexivity|].
  apply (not_Ok_key true). rewrite above_key_range. exact Hk.
Qed.
Lemma bad_number_below P I t n soc k :
  tank_total (p_tank P) -> ~ high_tariff P I -> In k (p_order_below P) -> ~ (1 <= k <= 15)%Z ->
  hour_step P I t n soc = Err KeyError.
Proof.
  intros HT Hh Hin Hk. unfold hour_step. unfold high_tariff in Hh.
  destruct (qlt_spec (p_setpoint P) (i_import_price I)); [lra|].
  unfold below_setpoint, below_uncorrected.
  rewrite (run_order_bad P I t n below_key (p_order_below P) _ k HT (key_error false) Hin); [reflexivity|].
  apply (not_Ok_key false). rewrite below_key_range. exact Hk.
Qed.


Lemma run_process_one P I t n c r :
  run_process P I t n (c, r) RES_to_demand = Ok (update RES_to_demand (0, 0) c, r).
Proof. reflexivity. Qed.

Lemma update_one c : update RES_to_demand (0, 0) c = c.
Proof. destruct c. reflexivity. Qed.

Lemma run_order_skip_one P I t n (above : bool) l1 l2 cr :
  let key := if above then above_key else below_key in
  run_order P I t n key (l1 ++ 1%Z :: l2) cr = run_order P I t n key (l1 ++ l2) cr.
Proof.
  cbv zeta. unfold run_order. rewrite !foldM_app.
  destruct (foldM _ l1 cr) as [[c r]|]; cbn [bind]; [|reflexivity].
  cbn [foldM]. unfold run_number at 1. destruct above; cbn [above_key below_key bind];
    rewrite run_process_one, update_one; reflexivity.
Qed.

Lemma run_order_plant P a b I t n key order cr :
  run_order (with_orders P a b) I t n key order cr = run_order P I t n key order cr.
Proof. reflexivity. Qed.

Lemma skip_one_above P a1 a2 b I t n soc :
  hour_step (with_orders P (a1 ++ 1%Z :: a2) b) I t n soc = hour_step (with_orders P (a1 ++ a2) b) I t n soc.
Proof.
  unfold hour_step. cbn [with_orders p_setpoint]. destruct (qlt _ _); [|reflexivity].
  f_equal. unfold above_setpoint, above_uncorrected. cbn [with_orders p_order_above].
  rewrite !run_order_plant.
  rewrite (run_order_skip_one P I t n true a1 a2). reflexivity.
Qed.
Lemma skip_one_below P a b1 b2 I t n soc :
  hour_step (with_orders P a (b1 ++ 1%Z :: b2)) I t n soc = hour_step (with_orders P a (b1 ++ b2)) I t n soc.
Proof.
  unfold hour_step. cbn [with_orders p_setpoint]. destruct (qlt _ _); [reflexivity|].
  f_equal. unfold below_setpoint, below_uncorrected. cbn [with_orders p_order_below].
  rewrite !run_order_plant.
  rewrite (run_order_skip_one P I t n false b1 b2). reflexivity.
Qed.

Lemma select_above P a b b' I t n soc :
  high_tariff P I -> hour_step (with_orders P a b) I t n soc = hour_step (with_orders P a b') I t n soc.
Proof.
  intro H. unfold high_tariff in H. unfold hour_step. cbn [with_orders p_setpoint].
  destruct (qlt_spec (p_setpoint P) (i_import_price I)); [reflexivity|lra].
Qed.
Lemma select_below P a a' b I t n soc :
  i_import_price I <= p_setpoint P -> hour_step (with_orders P a b) I t n soc = hour_step (with_orders P a' b) I t n soc.
Proof.
  intro H. unfold hour_step. cbn [with_orders p_setpoint].
  destruct (qlt_spec (p_setpoint P) (i_import_price I)); [lra|reflexivity].
Qed.

(** ** Increasing orders are fine *)
Definition rank (above : bool) (p : process) : Z :=
  match p with
  | RES_to_demand => 1 | ES_to_demand => if above then 2 else 3 | Import_to_demand => if above then 3 else 2
  | HP_RES_to_demand => 4 | EAUX_RES_to_demand => 5
  | TS_to_demand => if above then 6 else 7 | ES_to_HP_to_demand => if above then 7 else 8
  | HP_import_to_demand => if above then 8 else 6 | AUX_to_demand => 9
  | HP_RES_to_TS => 10 | EAUX_RES_to_TS => 11 | HP_import_to_TS => if above then 99 else 12
  | RES_to_ES => if above then 12 else 13 | Import_to_ES => if above then 99 else 14
  | RES_to_export => if above then 13 else 15
  end.

Lemma key_rank above n p : (if above : bool then above_key n else below_key n) = Ok p -> n = rank above p.
Proof.
  destruct above; unfold above_key, below_key; intro H;
    repeat match type of H with context [match ?x with _ => _ end] => destruct x; try discriminate H end;
    injection H as <-; reflexivity.
Qed.

Lemma mapM_rank above order ps :
  mapM (if above : bool then above_key else below_key) order = Ok ps -> map (rank above) ps = order.
Proof.
  revert ps. induction order as [|n order IH]; intros ps H; cbn [mapM] in H.
  - injection H as <-. reflexivity.
  - destruct ((if above then above_key else below_key) n) as [p|] eqn:E; cbn [bind] in H; [|discriminate].
    destruct (mapM _ order) as [ps'|]; cbn [bind] in H; [|discriminate]. injection H as <-.
    cbn [map]. rewrite (IH ps' eq_refl). f_equal. symmetry. apply key_rank.
    destruct above; exact E.
Qed.

Require Import Sorting.Sorted.
Lemma sorted_order_ok above order ps :
  StronglySorted Z.lt order -> mapM (if above : bool then above_key else below_key) order = Ok ps -> order_ok ps.
Proof.
  intros Hs H. apply mapM_rank in H. subst order.
  assert (Hnd : NoDup ps).
  { induction ps as [|p ps IH]; [constructor|]. inversion Hs as [|? ? S F]; subst. constructor; [|apply IH; exact S].
    intro Hin. rewrite Forall_forall in F. specialize (F (rank above p) (in_map _ _ _ Hin)). lia. }
  assert (Hna : forall p q, (rank above p < rank above q)%Z -> never_after ps p q).
  { intros p q Hr l1 l2 E Hin. subst ps. apply in_split in Hin. destruct Hin as (l3 & l4 & ->).
    rewrite !map_app in Hs. cbn [map] in Hs.
    clear Hnd. rewrite <- app_assoc in Hs. cbn [app] in Hs.
    induction (map (rank above) l3) as [|z l IH]; cbn [app] in Hs.
    - inversion Hs as [|? ? _ F]; subst. rewrite Forall_forall in F.
      specialize (F (rank above p)). assert (rank above q < rank above p)%Z; [|lia].
      apply F. apply in_or_app. right. left. reflexivity.
    - inversion Hs. apply IH. assumption. }
  split; [exact Hnd|]. split; [apply Hna; destruct above; reflexivity|]. split.
  - intros p Hp. apply Hna. cbn [In] in Hp.
    repeat (destruct Hp as [<-|Hp]; [destruct above; reflexivity|]). destruct Hp.
  - apply Hna. destruct above; reflexivity.
Qed.

(** ** Deciding the order condition for a given list *)
Definition peq (p q : process) : bool := if process_eq_dec p q then true else false.
Fixpoint nab (ps : list process) (p q : process) (seen : bool) : bool :=
  match ps with
  | [] => true
  | x :: xs => (if peq x p then negb seen else true) && nab xs p q (seen || peq x q)
  end.
Lemma nab_spec ps p q seen : nab ps p q seen = true ->
  forall l1 l2, ps = l1 ++ p :: l2 -> ~ In q l1 /\ seen = false.
Proof.
  revert seen. induction ps as [|x xs IH]; intros seen H l1 l2 E; [destruct l1; discriminate|].
  cbn [nab] in H. apply andb_prop in H. destruct H as [H1 H2].
  destruct l1 as [|y l1]; cbn [app] in E; injection E as -> ->.
  - unfold peq in H1. destruct (process_eq_dec p p); [|congruence]. destruct seen; [discriminate|].
    split; [intros []|reflexivity].
  - destruct (IH _ H2 l1 l2 eq_refl) as [A B]. apply orb_false_elim in B. destruct B as [B1 B2]. split; [|exact B1].
    intros [->|C]; [|contradiction]. unfold peq in B2. destruct (process_eq_dec q q); congruence.
Qed.
Fixpoint nodupb (ps : list process) : bool :=
  match ps with [] => true | x :: xs => negb (existsb (peq x) xs) && nodupb xs end.
Lemma nodupb_spec ps : nodupb ps = true -> NoDup ps.
Proof.
  induction ps as [|x xs IH]; intro H; [constructor|]. cbn [nodupb] in H. apply andb_prop in H. destruct H as [H1 H2].
  constructor; [|apply IH; exact H2]. intro Hin. apply negb_true_iff in H1.
  assert (existsb (peq x) xs = true); [|congruence]. apply existsb_exists. exists x. split; [exact Hin|].
  unfold peq. destruct (process_eq_dec x x); congruence.
Qed.
Definition order_okb (ps : list process) : bool :=
  nodupb ps && nab ps RES_to_ES Import_to_ES false &&
  forallb (fun p => nab ps p HP_import_to_TS false)
    [HP_RES_to_demand; HP_import_to_demand; ES_to_HP_to_demand; HP_RES_to_TS; EAUX_RES_to_TS] &&
  nab ps EAUX_RES_to_demand AUX_to_demand false.
Lemma order_okb_spec ps : order_okb ps = true -> order_ok ps.
Proof.
  unfold order_okb. intro H. apply andb_prop in H. destruct H as [H H4]. apply andb_prop in H. destruct H as [H H3].
  apply andb_prop in H. destruct H as [H1 H2]. repeat split.
  - apply nodupb_spec; exact H1.
  - intros l1 l2 E. apply (proj1 (nab_spec _ _ _ _ H2 l1 l2 E)).
  - rewrite forallb_forall in H3. intros p Hp l1 l2 E. apply (proj1 (nab_spec _ _ _ _ (H3 p Hp) l1 l2 E)).
  - intros l1 l2 E. apply (proj1 (nab_spec _ _ _ _ H4 l1 l2 E)).
Qed.

(** Both orders of a plant pass the check. *)
Lemma plant_orders_ok P I :
  (match mapM above_key (p_order_above P) with Ok ps => order_okb ps | Err _ => false end) = true ->
  (match mapM below_key (p_order_below P) with Ok ps => order_okb ps | Err _ => false end) = true ->
  forall ps, processes_of P I ps -> order_ok ps.
Proof.
  intros H1 H2 ps [[_ E]|[_ E]]; rewrite E in *; apply order_okb_spec; assumption.
Qed.
Lemma plant_contains P I p :
  (match mapM above_key (p_order_above P) with Ok ps => existsb (peq p) ps | Err _ => false end) = true ->
  (match mapM below_key (p_order_below P) with Ok ps => existsb (peq p) ps | Err _ => false end) = true ->
  contains P I p.
Proof.
  intros H1 H2 ps [[_ E]|[_ E]]; rewrite E in *; [apply existsb_exists in H1; destruct H1 as (q & Hq & Eq)|apply existsb_exists in H2; destruct H2 as (q & Hq & Eq)];
    unfold peq in Eq; destruct (process_eq_dec p q); congruence.
Qed.

(** Reading off a computed record. *)
Definition observe (x : res record) (f : fields -> bool) : bool :=
  match x with Ok rc => f (rf rc) | Err _ => false end.
Lemma observe_ok x f : observe x f = true -> exists rc, x = Ok rc /\ f (rf rc) = true.
Proof. destruct x as [rc|]; [|discriminate]. intro H. exists rc. auto. Qed.
Lemma qlt_true a b : qlt a b = true -> a < b.
Proof. intro H. destruct (qlt_spec a b); [assumption|discriminate]. Qed.
Lemma qle_true a b : qle a b = true -> a <= b.
Proof. intro H. destruct (qle_spec a b); [assumption|discriminate]. Qed.
Lemma qeq_true_inv a b : qeq a b = true -> a == b.
Proof. intro H. destruct (qeq_spec a b); [assumption|discriminate]. Qed.
Lemma qneq_true a b : negb (qeq a b) = true -> ~ a == b.
Proof. intro H. destruct (qeq_spec a b); [discriminate|assumption]. Qed.

(** Is the hour quiet? (computed) *)
Definition quietb (P : plant) (I : hour_in) t n soc : bool :=
  match uncorrected P I t n soc with
  | Ok (c, rc) => qle (minimum_heat P I) (rf rc HP_heat_total_output) || qle (rf rc HP_heat_total_output) (threshold P I)
  | Err _ => true
  end.
Lemma quietb_true P I t n soc : quietb P I t n soc = true -> quiet P I t n soc.
Proof.
  unfold quietb, quiet. intros H c rc E. rewrite E in H. apply orb_prop in H.
  destruct H as [H|H]; apply qle_true in H; auto.
Qed.
Lemma quietb_false P I t n soc : quietb P I t n soc = false -> ~ quiet P I t n soc.
Proof.
  unfold quietb, quiet. intros H Hq. destruct (uncorrected P I t n soc) as [[c rc]|]; [|discriminate].
  specialize (Hq c rc eq_refl). apply orb_false_elim in H. destruct H as [H1 H2].
  destruct Hq as [Hq|Hq].
  - destruct (qle_spec (minimum_heat P I) (rf rc HP_heat_total_output)); [discriminate|lra].
  - destruct (qle_spec (rf rc HP_heat_total_output) (threshold P I)); [discriminate|lra].
Qed.
