(** The run behind the figures of one combination. *)
From Coq Require Import String Ascii.
From Verif Require Import Base BaseL M_Battery S_Battery M_HeatPump M_Tools S_HeatPump M_FixedOrder S_FixedOrder L_FixedOrder L_FixedOrderHour L_FixedOrderProps L_FixedOrderRun P_FixedOrder L_Tank
  M_Excel S_Excel L_Excel P_Excel M_Init S_Init L_Init P_Init M_Program S_Program L_Program L_ProgramRuns L_ProgramOk P_Program P_ProgramOk S_Sensible L_Sensible L_Books M_Kpi S_Kpi L_Kpi L_KpiSums S_Rows L_Rows S_Figures.
From Verif Require M_Sweep.
Local Open Scope nat_scope.
Local Open Scope string_scope.
Local Open Scope list_scope.

Lemma behind L run_pv lc opt price wb out d K : ran L run_pv lc opt price wb "Fixed order control" out d -> sensible L lc wb (d_sizes d) -> calcs L d = Ok K ->
  exists P year s n, good_run P year /\ run_of P year s n K /\ k_name K = M_Sweep.folder_name (d_sizes d) /\
    (forall p, listed wb p -> orders_contain P p) /\ (forall p, unlisted wb p -> orders_lack P p) /\ (no_minimum_cells wb -> no_minimum P) /\
    (forall c, chooses model_names model_name_value wb "Heat pump" "D" 4 SIMPLE -> holds wb "Heat pump" "D" 12 c -> fst (d_sizes d) <> 0%Z -> Forall (fun I => cop (i_perf I) = c) year).
Proof.
  intros R SE C. pose proof (C95_hours_needed _ _ _ _ _ _ _ _ R) as (_ & s0 & n0 & _ & N0 & _ & N1 & _).
  destruct (fixed_held _ _ _ _ _ _ _ _ R) as (k & q & s & n & x & year & RI & CO & HO & SI & Hx & Ha & Hb & Y & T).
  destruct R as (PL & B & _ & PR & I). pose proof (done_set_up _ _ _ _ _ _ _ _ PR I) as (o & U & GO & FU).
  pose proof (sensible_plant L run_pv lc wb out d q s n x _ _ year PL B SE SI Ha Hb Y) as (KP & KI & KH & KO).
  destruct SI as (S1 & _ & _ & _ & _ & _ & _ & S8 & S9 & S10 & S11 & _).
  assert (n0 = n) by exact (counts_one _ _ _ _ _ _ N0 S11). subst n0. assert (o = q_parts q) by congruence. subst o.
  unfold calcs in C. cbv zeta in C. pose proof CO as CC. apply combination_parts in CC as ((CC & _) & _). destruct (C81_controller wb k PL RI) as (_ & Q1 & Q2 & _).
  rewrite CC, Q1, Q2, (counts_is _ _ _ _ _ S10), (counts_is _ _ _ _ _ S11), GO in C. cbn [bind] in C. destruct (rhi_of (c_heat_pump (d_inputs d))) as [rh|]; cbn [bind] in C; [|discriminate]. apply Ok_inj in C. subst K.
  set (P := plant_of L q x (k_above (c_controller k)) (k_below (c_controller k))) in *. destruct SE as (_ & _ & _ & _ & _ & _ & (O1 & O2) & _).
  assert (KC : (0 <= b_capacity (p_battery P))%Q) by (destruct KP as (KB & _); destruct KB as (KC & _); exact KC).
  exists P, year, s, n. split; [|split; [|split; [reflexivity|split; [|split; [|split]]]]].
  - split; [exact KP|]. split; [unfold level_ok, init_state; split; nra|]. split; [exact KH|]. split; [intros ps M; exact (O1 _ _ Ha M)|intros ps M; exact (O2 _ _ Hb M)].
  - unfold run_of. cbn [k_results k_timesteps k_first_hour k_fuel]. rewrite FU. split; [exact T|]. repeat split; lia.
  - intros p (A1 & A2). split; [intros ps M; exact (A1 _ _ Ha M)|intros ps M; exact (A2 _ _ Hb M)].
  - intros p (A1 & A2). split; [intros ps M; exact (A1 _ _ Ha M)|intros ps M; exact (A2 _ _ Hb M)].
  - intro NM. destruct (C85_heat_pump L wb _ _ _ PL B S1) as (_ & _ & _ & M1 & M2 & _). unfold no_minimum. cbn [P plant_of p_min_output p_min_runtime]. rewrite Qmult_comm. exact (NM _ _ M1 M2).
  - intros c CH Hc Hn. destruct (year_of_inv _ _ _ _ _ Y) as (g & tot & wind & hp & _ & _ & _ & _ & _ & Y6 & _ & G8).
    destruct (C85_heat_pump L wb _ _ _ PL B S1) as (_ & HC & _ & _ & _ & _ & _ & _ & _ & _ & _ & ap & HA & HM). cbv zeta in *.
    assert (UU : forall a b, In a model_names -> In b model_names -> model_name_value a = model_name_value b -> a = b) by (intros [] [] _ _; discriminate || reflexivity).
    rewrite (chooses_one _ _ _ _ _ _ _ _ UU HA CH) in HM. destruct HM as (c' & Hc' & M). rewrite (holds_same _ _ _ _ _ _ Hc' Hc) in M.
    unfold performance in Y6. rewrite HC in Y6. destruct (qeq_spec (inject_Z (fst (d_sizes d))) 0) as [Z|Z]; [exfalso; apply Hn; unfold Qeq in Z; cbn in Z; lia|].
    cbv zeta in Y6. rewrite M in Y6. apply constant_perfs in Y6. rewrite Forall_forall in Y6.
    apply Forall_forall. intros J IJ. apply In_nth_error in IJ as (i & IJ). pose proof (G8 i J IJ) as (_ & _ & _ & _ & _ & _ & _ & E8). exact (proj1 (Y6 _ (nth_error_In _ _ E8))).
Qed.
(** Orders that do not charge the battery charge nothing. *)
Lemma uncharged P I t n soc rc : good_hour P I soc -> hour_step P I t n soc = Ok rc -> lacks P I RES_to_ES -> lacks P I Import_to_ES -> rf rc RES_ES = 0%Q /\ rf rc ES_charging_from_import = 0%Q.
Proof.
  intros G H L1 L2. destruct (hour_open P I t n soc rc G H) as (ps & c & r & u & pr & de & rc0 & rc1 & Hps & Ho & Hf & A & Sg & W & Z & Hu & Hpr & Hrf & Hun & Hco & ->).
  split; (rewrite (settled_corrected P I t n c rc0 rc1 _ Hco) by (unfold settled; cbn [In]; tauto)); rewrite Hrf; rewrite finish_written by (cbn; tauto).
  - apply (acc_zero _ _ _ _ _ A RES_to_ES); [|cbn; tauto]. intro X. apply in_rev in X. exact (L1 ps Hps X).
  - apply (acc_zero _ _ _ _ _ A Import_to_ES); [|cbn; tauto]. intro X. apply in_rev in X. exact (L2 ps Hps X).
Qed.
Lemma run_uncharged P year s n K : good_run P year -> orders_contain P RES_to_export -> no_minimum P -> orders_lack P RES_to_ES -> orders_lack P Import_to_ES -> run_of P year s n K ->
  (total (fun r => r ES_charging_total) (k_results K) == 0)%Q.
Proof.
  intros G E M L1 L2 R. pose proof (run_balances P year s n K G E M R) as HB.
  assert (F : Forall (fun rc => (rf rc ES_charging_total == 0)%Q) (k_results K)).
  { apply Forall_forall. intros rc IN. rewrite Forall_forall in HB. rewrite (hb_charging _ _ (HB rc IN)). apply In_nth_error in IN as (i & Hi). destruct R as (H & _).
    destruct (good_run_hour P year s n _ i rc G H Hi) as (I & nd & soc & Hst & Gh & _ & Hl). destruct (uncharged P I _ nd soc rc Gh Hst (Hl _ L1) (Hl _ L2)) as (-> & ->). reflexivity. }
  clear - F. induction F as [|rc l X F IH]; [reflexivity|]. rewrite total_cons, X, IH. reflexivity.
Qed.
(** The COP of every record *)
Lemma run_cop P year s n K c : good_run P year -> run_of P year s n K -> Forall (fun I => cop (i_perf I) = c) year -> Forall (fun rc => (rf rc HP_cop == c)%Q) (k_results K).
Proof.
  intros G R F. apply (run_hours P year s n K _ R). intros i rc Hi. destruct R as (H & _). destruct (run_steps P year s n _ i rc H Hi) as (I & H0 & HI & Hst).
  destruct (hour_cop_duty _ _ _ _ _ _ Hst) as (-> & _). rewrite Forall_forall in F. rewrite (F I (nth_error_In _ _ HI)). reflexivity.
Qed.
