(** A sensible workbook describes a sensible plant and year. *)
From Coq Require Import String Ascii.
From Verif Require Import Base BaseL M_Battery S_Battery M_HeatPump M_Tools S_HeatPump L_HeatPump P_HeatPump M_FixedOrder S_FixedOrder L_FixedOrderHour L_FixedOrderRun P_FixedOrder
  M_Excel S_Excel M_Init S_Init L_Init P_Init M_Program S_Program L_Program L_ProgramRuns L_ProgramOk P_Program S_Sensible.
From Verif Require M_Tank S_Tank P_Tank M_Demand L_Demand M_Renewables S_Renewables L_Renewables P_Renewables.
Local Open Scope nat_scope.
Local Open Scope string_scope.
Local Open Scope list_scope.

Section SENSIBLE.
Variable L : libraries.
Variable run_pv : M_Renewables.pvlib_model (lib_module L) (lib_inverter L).
Variable lc : lorentz_spec -> Q -> Q -> Q -> Q -> Q.

Lemma sensible_battery wb h t o : plain wb -> big_enough wb -> battery_sensible wb -> set_up L wb h t = Ok o -> battery_ok (o_battery o) /\ (0 <= b_initial_state (o_battery o) <= 1)%Q.
Proof.
  intros P B (S1 & S2 & S3 & S4 & S5 & S6 & S7) E. destruct (C85_battery L wb h t o P B E) as (r & _ & H1 & H2 & H3 & H4 & H5 & H6 & H7).
  apply (S1 r _ I) in H1. apply (S2 r _ I) in H2. apply (S3 r _ I) in H3. apply (S4 r _ I) in H4. apply (S5 r _ I) in H5. apply (S6 r _ I) in H6. apply (S7 r _ I) in H7.
  unfold battery_ok, not_negative, share in *. tauto.
Qed.
Lemma sensible_backup wb h t o : plain wb -> big_enough wb -> backup_sensible wb -> set_up L wb h t = Ok o ->
  (0 < a_efficiency (o_aux o))%Q /\ (forall c, a_cost (o_aux o) = Some c -> (0 <= c)%Q) /\ (forall d, a_energy_density (o_aux o) = Some d -> (0 <= d)%Q).
Proof.
  intros P B (S1 & S2) E. destruct (C85_backup L wb h t o P B E) as (_ & H1 & H2 & H3).
  apply (S1 6 _ eq_refl) in H1. split; [exact H1|]. destruct (fuel_eqb (a_fuel (o_aux o)) ELECTRIC) eqn:F.
  - assert (X : a_fuel (o_aux o) = ELECTRIC) by (destruct (a_fuel (o_aux o)); try discriminate; reflexivity). destruct (H2 X) as (-> & ->). split; discriminate.
  - assert (X : a_fuel (o_aux o) <> ELECTRIC) by (intro X; rewrite X in F; discriminate). destruct (H3 X) as (r & d & c & Ir & _ & _ & Hd & Ed & Hc & Ec). rewrite Ed, Ec.
    destruct (S2 r Ir) as (Sd & Sc). apply (Sd r _ eq_refl) in Hd. apply (Sc r _ eq_refl) in Hc. split; intros x X'; injection X' as <-; assumption.
Qed.
Lemma in_add_series a b x : In (Some x) (M_Renewables.add_series a b) -> exists y z, In (Some y) a /\ In (Some z) b /\ x = (y + z)%Q.
Proof.
  unfold M_Renewables.add_series. intro H. apply in_map_iff in H as (k & E & _). unfold M_Renewables.add_opt in E.
  destruct (nth k a None) as [y|] eqn:A; [|discriminate]. destruct (nth k b None) as [z|] eqn:B; [|discriminate]. injection E as <-. exists y, z.
  assert (G : forall l (v : Q), nth k l None = Some v -> In (Some v) l).
  { intros l v E. destruct (Nat.lt_ge_cases k (length l)) as [K|K]; [rewrite <- E; apply nth_In, K|rewrite nth_overflow in E by exact K; discriminate]. }
  split; [exact (G a y A)|]. split; [exact (G b z B)|reflexivity].
Qed.
Lemma sensible_wind wb h t o g w : plain wb -> big_enough wb -> S_Renewables.nonneg_model (lib_wind L) -> turbines_sensible wb -> set_up L wb h t = Ok o ->
  M_Renewables.renewable_generation (lib_wind L) run_pv (o_user o) (o_database o) (o_PV o) = Ok g -> In (Some w) (M_Renewables.g_wind g) -> (0 <= w)%Q.
Proof.
  intros P B N S E G H. destruct (C85_turbines L wb h t o P B E) as ((r & _ & _ & _ & _ & Hd & _) & (r' & _ & _ & _ & _ & Hu & _) & _). apply (S r _ I) in Hd. apply (S r' _ I) in Hu.
  destruct (P_Renewables.generation_inv _ _ _ _ _ _ G) as (cu & cd & Eu & Ed & _ & Gw & _). rewrite Gw in H. apply in_add_series in H as (y & z & Iy & Iz & ->).
  apply In_nth_error in Iy as (i & Ni). apply In_nth_error in Iz as (j & Nj).
  pose proof (P_Renewables.C73_nonneg _ _ _ _ _ N Hu (or_introl Eu) Ni). pose proof (P_Renewables.C73_nonneg _ _ _ _ _ N Hd (or_intror (or_introl Ed)) Nj). lra.
Qed.
Lemma constant_perfs c d hp : perf_array (repeat c ANNUAL_HOURS) (repeat d ANNUAL_HOURS) = Ok hp -> Forall (fun p => cop p = c /\ duty p = d) hp.
Proof.
  unfold perf_array. rewrite !repeat_length, Nat.eqb_refl. intro H. apply L_Tank.Ok_inj in H. subst hp. generalize ANNUAL_HOURS as k. induction k as [|k IH]; [constructor|].
  cbn [repeat zip2]. constructor; [split; reflexivity|exact IH].
Qed.
Lemma sensible_heat_pump wb h t o hp : plain wb -> big_enough wb -> (0 <= h)%Z -> heat_pump_sensible L lc wb (h, t) -> set_up L wb h t = Ok o -> performance lc (o_heat_pump o) = Ok hp ->
  (0 <= h_minimum_runtime (o_heat_pump o))%Q /\ (0 <= h_minimum_output (o_heat_pump o))%Q /\ Forall perf_ok hp /\ ((h_capacity (o_heat_pump o) == 0)%Q -> Forall (fun p => (duty p == 0)%Q) hp).
Proof.
  intros P B Hh (S1 & S2 & S3) E F. destruct (C85_heat_pump L wb h t o P B E) as (_ & K & _ & H1 & H2 & _ & _ & _ & _ & _ & _ & ap & HA & HM).
  split; [exact (S1 7 _ eq_refl H1)|]. split; [exact (S2 8 _ eq_refl H2)|]. assert (Z0 : (h_capacity (o_heat_pump o) == 0)%Q -> Forall (fun p => cop p = (1 # 2)%Q /\ duty p = 0%Q) hp).
  { intro Z. unfold performance in F. destruct (qeq_spec (h_capacity (o_heat_pump o)) 0) as [_|Q]; [|contradiction]. apply constant_perfs in F. exact F. }
  split; [|intro Z; refine (Forall_impl _ _ (Z0 Z)); intros p (_ & ->); reflexivity].
  destruct (Qeq_dec (h_capacity (o_heat_pump o)) 0) as [Z|Z]; [refine (Forall_impl _ _ (Z0 Z)); intros p (A1 & A2); unfold perf_ok; rewrite A1, A2; split; reflexivity || (intro; discriminate)|].
  destruct S3 as [(SA & SC)|S3]; [|exact (S3 o hp E F)].
  assert (U : forall a b, In a model_names -> In b model_names -> model_name_value a = model_name_value b -> a = b) by (intros [] [] _ _; discriminate || reflexivity).
  rewrite (chooses_one _ _ _ _ _ _ _ _ U HA SA) in HM. destruct HM as (c & Hc & M). apply (SC 12 _ eq_refl) in Hc. unfold performance in F.
  destruct (qeq_spec (h_capacity (o_heat_pump o)) 0) as [Q|_]; [contradiction|]. cbv zeta in F. rewrite M in F. apply constant_perfs in F.
  refine (Forall_impl _ _ F). intros p (A1 & A2). unfold perf_ok. rewrite A1, A2, K. split; [exact Hc|]. change 0%Q with (inject_Z 0). rewrite <- Zle_Qle. exact Hh.
Qed.
Lemma sensible_plant wb out d q s n x ab be year : plain wb -> big_enough wb -> sensible L lc wb (d_sizes d) -> simulated L wb out d q s n ->
  order_of (xl wb "Controller" "D" 8) = Ok ab -> order_of (xl wb "Controller" "D" 9) = Ok be -> year_of L run_pv lc q = Ok year ->
  let P := plant_of L q x ab be in plant_ok P /\ (0 <= b_initial_state (p_battery P) <= 1)%Q /\ Forall (hour_ok P) year /\ (forall I ps, processes_of P I ps -> order_ok ps).
Proof.
  intros PL B (SL & SB & SX & ST & SD & SH & SO & S0 & SS) A Ha Hb Y P. destruct A as (U & A1 & A2 & A3 & A4 & A5 & A6 & A7 & _).
  destruct (year_of_inv L run_pv lc q year Y) as (g & total & wind & hp & G1 & _ & G3 & _ & _ & G6 & FY & G8).
  destruct (sensible_battery wb _ _ _ PL B SB U) as (KB & KI). destruct (sensible_backup wb _ _ _ PL B SX U) as (X1 & X2 & X3).
  rewrite (surjective_pairing (d_sizes d)) in SH. destruct (sensible_heat_pump wb _ _ _ hp PL B S0 SH U G6) as (R1 & R2 & R3 & R4).
  split; [unfold plant_ok; cbn [plant_of P p_battery p_min_runtime p_min_output p_aux]; tauto|]. split; [exact KI|]. split.
  - apply Forall_forall. intros I II. apply In_nth_error in II as (i & Ni). pose proof (G8 i I Ni) as (E1 & E2 & E3 & E4 & E5 & E6 & E7 & E8).
    assert (Hi : (i < S_Renewables.hours_in_year)) by (assert (i < length year) by (apply nth_error_Some; congruence); unfold full_year in FY; change S_Renewables.hours_in_year with (Z.to_nat 8760); lia).
    unfold hour_ok. split; [|split; [|split; [|split; [|split; [|split; [|split; [|split]]]]]]].
    + refine (sensible_wind wb _ _ _ g _ PL B (proj1 SL) ST U G1 _). rewrite G3. apply in_map. eapply nth_error_In, E1.
    + destruct (P_Renewables.generation_inv _ _ _ _ _ _ G1) as (_ & _ & _ & _ & Ep & _). destruct (P_Renewables.C72_nonneg _ _ _ _ _ i Ep Hi) as (v & Nv & Hv). rewrite E2 in Nv. injection Nv as <-. exact Hv.
    + exact (proj2 SD (6 + i) _ ltac:(lia) (down_at _ _ _ _ _ _ _ A2 E3)).
    + exact (proj1 SD (6 + i) _ ltac:(lia) (down_at _ _ _ _ _ _ _ A1 E4)).
    + cbn [plant_of P p_max_heat]. destruct (q_heat q) as [|y l] eqn:Q; [destruct i; discriminate|]. cbn [hd tl].
      assert (M : M_Demand.amax (y :: l) = Ok (pmax_list y l)) by reflexivity. apply L_Demand.amax_spec in M as (M1 & _). apply M1. eapply nth_error_In, E4.
    + rewrite Forall_forall in R3. exact (proj1 (R3 _ (nth_error_In _ _ E8))).
    + rewrite Forall_forall in R3. exact (proj2 (R3 _ (nth_error_In _ _ E8))).
    + intro Z. cbn [plant_of P p_hp_capacity] in Z. specialize (R4 Z). rewrite Forall_forall in R4. exact (R4 _ (nth_error_In _ _ E8)).
    + intros st nodes t m Hm. cbn [plant_of P p_tank] in Hm. destruct (C85_tank L wb _ _ _ PL B U) as (T1 & _ & _ & T4 & _). destruct SS as [SS|(SS & SF)].
      * rewrite P_Tank.C26_zero_size in Hm by (rewrite T1, SS; reflexivity). apply L_Tank.Ok_inj in Hm. subst m. apply Qle_refl.
      * refine (P_Tank.C26_nonnegative _ _ _ _ _ _ _ _ _ _ _ _ Hm); [rewrite T1; change 0%Q with (inject_Z 0); rewrite <- Zle_Qle; lia|rewrite T4; exact (proj2 SL)|].
        exact (SF _ A5 (6 + i) _ ltac:(lia) (down_at _ _ _ _ _ _ _ A3 E6)).
  - intros I ps H. unfold processes_of in H. cbn [plant_of P p_setpoint p_order_above p_order_below] in H. destruct SO as (O1 & O2).
    destruct H as [(_ & H)|(_ & H)]; [exact (O1 _ _ Ha H)|exact (O2 _ _ Hb H)].
Qed.
End SENSIBLE.
