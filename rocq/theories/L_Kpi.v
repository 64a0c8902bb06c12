(** Lemmas for the performance indicators: fixed-order hours satisfy the balances. *)
From Coq Require Import String.
From Verif Require Import Base BaseL M_Battery S_Battery L_Battery M_HeatPump S_HeatPump L_HeatPump
  M_Tools L_Tools M_FixedOrder S_FixedOrder L_FixedOrder L_FixedOrderSign L_FixedOrderHour
  L_FixedOrderProps L_FixedOrderMore L_FixedOrderRun M_Grid L_Grid M_Sweep M_Kpi S_Kpi.

(** ** Electricity and heat of the heat pump *)
Lemma amount_elec P I t n p c h e :
  scalar p = false -> amount P I t n p c = Ok (h, e) -> e = elec_usage (p_hp_capacity P) h (i_perf I).
Proof.
  intros Hs Ha. destruct p; try discriminate Hs; cbn [amount] in Ha; clear Hs;
    try (destruct (t_max _ _ _ _ _ _) as [m|]; cbn [bind] in Ha; [|discriminate]);
    injection Ha as <- <-; reflexivity.
Qed.

Lemma elec_usage_heat cap h p : 0 <= h -> perf_ok p -> elec_usage cap h p * cop p <= h.
Proof.
  intros Hh [Hc Hd]. unfold elec_usage. destruct (qeq_spec cap 0) as [E|E]; [lra|].
  apply Qle_trans with (h / cop p * cop p).
  - apply Qmult_le_compat_r; [apply pmin_le_l|lra].
  - apply Qle_lteq. right. field. lra.
Qed.
Lemma elec_usage_exact cap h p :
  0 <= h -> h <= duty p -> perf_ok p -> (cap == 0 -> duty p == 0) -> elec_usage cap h p * cop p == h.
Proof.
  intros Hh Hd [Hc Hd0] H0. unfold elec_usage. destruct (qeq_spec cap 0) as [E|E]; [specialize (H0 E); lra|].
  assert (L : h / cop p <= duty p / cop p).
  { unfold Qdiv. apply Qmult_le_compat_r; [exact Hd|]. apply Qlt_le_weak, Qinv_lt_0_compat. exact Hc. }
  unfold pmin. destruct (qlt_spec (duty p / cop p) (h / cop p)); [lra|]. field. lra.
Qed.

Definition heat_of (k : field) : field :=
  match k with
  | HP_elec_from_RES_to_demand => HP_heat_from_RES_to_demand
  | HP_elec_from_RES_to_TS => HP_heat_from_RES_to_TS
  | HP_elec_from_import_to_demand => HP_heat_from_import_to_demand
  | HP_elec_from_import_to_TS => HP_heat_from_import_to_TS
  | _ => HP_heat_from_ES_to_demand
  end.
Definition exact_uses : list field :=
  [HP_elec_from_RES_to_demand; HP_elec_from_RES_to_TS; HP_elec_from_import_to_demand; HP_elec_from_ES_to_demand].
Definition cop_inv (x : Q) (don : list process) (c : checks) (r : fields) : Prop :=
  (forall k, In k exact_uses -> r k * x == r (heat_of k)) /\
  r HP_elec_from_import_to_TS * x <= r HP_heat_from_import_to_TS.

Lemma run_cop P I t n soc ps c r :
  plant_ok P -> hour_ok P I -> level_ok (p_battery P) soc -> order_ok ps ->
  foldM (run_process P I t n) ps (init_checks P I soc, start_fields P I) = Ok (c, r) ->
  cop_inv (cop (i_perf I)) (rev ps) c r.
Proof.
  intros HP HI Hs Ho H.
  assert (Hpf : perf_ok (i_perf I)) by (split; apply HI).
  assert (H0 : p_hp_capacity P == 0 -> duty (i_perf I) == 0) by apply HI.
  apply (run_invariant P I t n (cop_inv (cop (i_perf I))) ps [] ps _ _ c r HP HI Ho eq_refl) in H; [exact H| | |].
  - intros q1 p q2 c0 r0 h e E Sg Hal Hn Ha [V1 V2].
    destruct (scalar p) eqn:Es.
    + split.
      * intros k Hk. pose proof (V1 k Hk) as V. cbn [exact_uses In] in Hk.
        destruct Hk as [<-|[<-|[<-|[<-|[]]]]]; cbn [heat_of] in *;
          rewrite !write_other; try exact V; destruct p; try discriminate Es; cbn [writes In]; intuition discriminate.
      * rewrite !write_other; [exact V2| |]; destruct p; try discriminate Es; cbn [writes In]; intuition discriminate.
    + destruct (amount_limits P I t n HP HI _ c0 p h e Sg Hal Hn Ha) as (A1 & A2 & _ & _ & _ & _ & A7 & _).
      pose proof (sg_hp _ _ _ _ _ _ Sg) as Hu.
      pose proof (amount_elec P I t n p c0 h e Es Ha) as He.
      pose proof (elec_usage_heat (p_hp_capacity P) h (i_perf I) A1 Hpf) as Le. rewrite <- He in Le.
      assert (Ex : p <> HP_import_to_TS -> e * cop (i_perf I) == h).
      { intro Np. rewrite He. apply elec_usage_exact; try assumption.
        destruct p; try discriminate Es; try congruence; cbn [in_hp_usage] in A7;
          try (specialize (A7 eq_refl Np); lra).
        cbn [amount] in Ha. injection Ha as Eh _. rewrite <- Eh.
        pose proof (pmin_le_r (fst (thermal_output (p_hp_capacity P) (c_soc c0) (i_perf I) (heat_unmet c0))) (duty (i_perf I) - hp_usage c0)). lra. }
      clear A7 Ha He.
      destruct p; try discriminate Es; cbn [write fst snd]; split;
        try (intros k Hk; pose proof (V1 k Hk) as V; cbn [exact_uses In] in Hk;
             destruct Hk as [<-|[<-|[<-|[<-|[]]]]]; cbn [heat_of] in *; fld;
             first [exact V | apply Ex; discriminate]);
        fld; first [exact V2 | exact Le].
  - apply init_sgn; assumption.
  - split.
    + intros k Hk. cbn [exact_uses In] in Hk.
      destruct Hk as [<-|[<-|[<-|[<-|[]]]]]; cbn [heat_of]; rewrite !start_zero by (cbn; tauto); lra.
    + rewrite !start_zero by (cbn; tauto). lra.
Qed.

(** ** One hour *)
Lemma hour_cop P I t n soc rc :
  good_hour P I soc -> hour_step P I t n soc = Ok rc ->
  rf rc HP_cop = cop (i_perf I) /\
  (rf rc HP_elec_RES_usage + rf rc HP_elec_import_usage) * rf rc HP_cop <= rf rc HP_heat_total_output /\
  rf rc HP_elec_total_usage == rf rc HP_elec_RES_usage + rf rc HP_elec_import_usage /\
  (lacks P I ES_to_HP_to_demand -> lacks P I HP_import_to_TS ->
   rf rc HP_elec_total_usage * rf rc HP_cop == rf rc HP_heat_total_output).
Proof.
  intros G H.
  destruct (hour_open P I t n soc rc G H) as (ps & c & r & u & pr & de & rc0 & rc1 & Hps & Ho & Hf & A & Sg & W & Z & Hu & Hpr & Hrf & Hun & Hco & ->).
  destruct G as (HP & HI & Hs & _).
  assert (Hc0 : 0 < cop (i_perf I)) by apply HI.
  destruct (run_cop P I t n soc ps c r HP HI Hs Ho Hf) as [V1 V2].
  assert (Ec : r HP_cop = cop (i_perf I)).
  { rewrite (run_keeps _ _ _ _ _ _ _ _ _ HP_cop Hf); [|cbn; intuition discriminate].
    unfold start_fields. destruct (hi P I); reflexivity. }
  pose proof (V1 HP_elec_from_RES_to_demand ltac:(cbn; tauto)) as E1.
  pose proof (V1 HP_elec_from_RES_to_TS ltac:(cbn; tauto)) as E2.
  pose proof (V1 HP_elec_from_import_to_demand ltac:(cbn; tauto)) as E3.
  pose proof (V1 HP_elec_from_ES_to_demand ltac:(cbn; tauto)) as E4. cbn [heat_of] in *. clear V1.
  assert (W4 : 0 <= r HP_heat_from_ES_to_demand) by (apply (W ES_to_HP_to_demand); inl).
  assert (L4 : lacks P I ES_to_HP_to_demand -> r HP_heat_from_ES_to_demand = 0).
  { intro L. apply (acc_zero _ _ _ _ _ A ES_to_HP_to_demand); [|inl]. intro X. apply in_rev in X. exact (L ps Hps X). }
  assert (L5 : lacks P I HP_import_to_TS -> r HP_heat_from_import_to_TS = 0 /\ r HP_elec_from_import_to_TS = 0).
  { intro L. split; apply (acc_zero _ _ _ _ _ A HP_import_to_TS); try inl; intro X; apply in_rev in X; exact (L ps Hps X). }
  split.
  { rewrite (settled_corrected P I t n c rc0 rc1 HP_cop Hco) by (unfold settled; inl).
    rewrite Hrf, finish_written by inl. exact Ec. }
  pose proof (min_out_spec P I) as Em.
  clear Sg W Z Hf Hun A Hps.
  assert (D : forall inc, inc / cop (i_perf I) * cop (i_perf I) == inc) by (intro; field; lra).
  destruct Hco as [-> _|m x _ _ _ _ _ _ X1|m m' x _ _ _ _ _ _ _ X1|m Y1 Y2 _ _ X1].
  - fld. rewrite Hrf. unfold finish_fields.
    destruct (hi P I); fld; rewrite Ec; (split; [lra|]; split; [lra|]; intros A1 A2; specialize (L4 A1); destruct (L5 A2) as [B1 B2]; rewrite ?L4, ?B1, ?B2; lra).
  - fld. rewrite X1. fld. split; [lra|]. split; [lra|]. intros. lra.
  - fld. rewrite X1. fld. split; [lra|]. split; [lra|]. intros. lra.
  - fld. rewrite X1. fld.
    set (inc := min_out P I - rf rc0 HP_heat_total_output).
    pose proof (D inc) as Di.
    assert (B : rf rc0 HP_cop = cop (i_perf I)) by (rewrite Hrf, finish_written by inl; exact Ec).
    rewrite B.
    assert (F : (rf rc0 HP_elec_RES_usage + rf rc0 HP_elec_import_usage) * cop (i_perf I) <= rf rc0 HP_heat_total_output /\
      rf rc0 HP_elec_total_usage == rf rc0 HP_elec_RES_usage + rf rc0 HP_elec_import_usage /\
      (lacks P I ES_to_HP_to_demand -> lacks P I HP_import_to_TS ->
       rf rc0 HP_elec_total_usage * cop (i_perf I) == rf rc0 HP_heat_total_output)).
    { rewrite Hrf. unfold finish_fields. destruct (hi P I); fld;
        (split; [lra|]; split; [lra|]; intros A1 A2; specialize (L4 A1); destruct (L5 A2) as [B1 B2]; rewrite ?L4, ?B1, ?B2; lra). }
    destruct F as (F1 & F2 & F3). split; [lra|]. split; [lra|].
    intros A1 A2. specialize (F3 A1 A2). lra.
Qed.

Lemma no_minimum_quiet P I t n soc :
  no_minimum P -> good_hour P I soc -> quiet P I t n soc.
Proof.
  intros Hm G c rc Hu. unfold no_minimum in Hm. left.
  assert (E : minimum_heat P I == 0).
  { unfold minimum_heat. setoid_replace (p_min_output P / 100 * (p_min_runtime P / 60) * duty (i_perf I))
      with ((p_min_output P * p_min_runtime P) * (duty (i_perf I) / 6000)) by field. rewrite Hm. ring. }
  rewrite E.
  apply uncorrected_inv in Hu. destruct Hu as (ps & r & u & pr & de & H1 & H2 & H3 & H4 & H5 & _).
  destruct G as (HP & HI & Hs & Ho).
  destruct (run_full P I t n HP HI soc Hs ps (start_fields P I) c r (Ho ps H1) (start_zero P I) H2) as (_ & _ & W & _).
  rewrite H5, output_uncorrected.
  assert (0 <= r HP_heat_from_RES_to_demand) by (apply (W HP_RES_to_demand); inl).
  assert (0 <= r HP_heat_from_import_to_demand) by (apply (W HP_import_to_demand); inl).
  assert (0 <= r HP_heat_from_ES_to_demand) by (apply (W ES_to_HP_to_demand); inl).
  assert (0 <= r HP_heat_from_RES_to_TS) by (apply (W HP_RES_to_TS); inl).
  assert (0 <= r HP_heat_from_import_to_TS) by (apply (W HP_import_to_TS); inl).
  lra.
Qed.

Lemma quiet_hour_balances P I t n soc rc :
  good_hour P I soc -> contains P I RES_to_export -> quiet P I t n soc -> hour_step P I t n soc = Ok rc ->
  hour_balances (fuel_eqb (a_fuel (p_aux P)) ELECTRIC) (rf rc).
Proof.
  intros G Hx Hq H.
  pose proof (flows_nonneg P I t n soc rc G H) as N.
  pose proof (res_balance P I t n soc rc G Hx H (or_introl Hq)) as B1.
  assert (Hd : duplicate_free P I) by (intros ps Hps; destruct G as (_ & _ & _ & Ho); apply (Ho ps Hps)).
  destruct (grid_consumers P I t n soc rc Hd H Hq) as (C1 & C2 & C3 & C4).
  pose proof (grid_total P I t n soc rc H Hq) as T.
  destruct (hour_cop P I t n soc rc G H) as (K1 & K2 & K3 & _).
  assert (Hcop : 0 < cop (i_perf I)) by apply G.
  rewrite Forall_forall in N.
  constructor.
  - repeat constructor; try (apply N; cbn; tauto). rewrite K1. lra.
  - exact B1.
  - rewrite C4. reflexivity.
  - destruct (hour_open P I t n soc rc G H) as (ps & c & r & u & pr & de & rc0 & rc1 & Hps & Ho & Hf & A & Sg & W & Z & Hu & Hpr & Hrf & Hun & Hco & ->).
    destruct (surplus_deficit_hour_spec (i_wind I + i_PV I) (i_elec_demand I)) as (_ & _ & _ & _ & B & _).
    pose proof (acc_elec _ _ _ _ _ A) as E. cbn [init_checks elec_unmet] in E.
    pose proof (sg_elec _ _ _ _ _ _ Sg) as S0. clear - B E S0 Hco Hrf.
    rewrite (settled_corrected P I t n c rc0 rc1 ED_ES Hco), (settled_corrected P I t n c rc0 rc1 ED_import Hco) by (unfold settled; inl).
    rewrite Hrf, !finish_written by inl. fld. lra.
  - destruct (hour_inv P I t n soc rc H) as (c & rc0 & rc1 & _ & _ & ->). fld. reflexivity.
  - lra.
  - exact K2.
  - destruct (hour_open P I t n soc rc G H) as (ps & c & r & u & pr & de & rc0 & rc1 & Hps & Ho & Hf & A & Sg & W & Z & Hu & Hpr & Hrf & Hun & Hco & ->).
    assert (E1 := quiet_corrected P I t n soc c rc0 rc1 Hq Hun Hco). subst rc1.
    assert (0 <= r HD_aux) by (apply (W AUX_to_demand); inl).
    fld. rewrite Hrf. unfold finish_fields. destruct (hi P I); fld; lra.
  - rewrite T, C1, C2, C3. reflexivity.
  - destruct (hour_open P I t n soc rc G H) as (ps & c & r & u & pr & de & rc0 & rc1 & Hps & Ho & Hf & A & Sg & W & Z & Hu & Hpr & Hrf & Hun & Hco & ->).
    assert (E1 := quiet_corrected P I t n soc c rc0 rc1 Hq Hun Hco). subst rc1.
    pose proof (mir15 _ _ _ _ _ A) as M. clear - M Hrf.
    fld. rewrite Hrf. unfold finish_fields. destruct (hi P I); fld; rewrite M; lra.
Qed.

(** ** From hours to runs *)
Lemma good_run_hour P year s n rs i rc :
  good_run P year -> run_timesteps P year s n = Ok rs -> nth_error rs i = Some rc ->
  exists I nd soc, hour_step P I (s + Z.of_nat i) nd soc = Ok rc /\ good_hour P I soc /\
    (forall p, orders_contain P p -> contains P I p) /\ (forall p, orders_lack P p -> lacks P I p).
Proof.
  intros (HP & Hs & HY & Ha & Hb) H Hn.
  destruct (run_steps P year s n rs i rc H Hn) as (I & H0 & HI & Hst).
  exists I, (fst (state_before P rs i)), (snd (state_before P rs i)). split; [exact Hst|].
  assert (Hc : 0 <= b_capacity (p_battery P)) by (destruct HP as ((B0 & _) & _); exact B0).
  split; [|split].
  - split; [exact HP|]. split; [|split].
    + rewrite Forall_forall in HY. apply HY. apply (nth_error_In _ _ HI).
    + destruct i as [|j]; cbn [state_before]; [exact Hs|].
      destruct (nth_error rs j) as [rc'|] eqn:E; [|exact Hs].
      pose proof (run_soc_range P year s n rs Hc H) as F. rewrite Forall_forall in F.
      apply (F rc'). apply (nth_error_In _ _ E).
    + intros ps [[_ E]|[_ E]]; [apply Ha|apply Hb]; exact E.
  - intros p [O1 O2] ps [[_ E]|[_ E]]; [apply O1|apply O2]; exact E.
  - intros p [O1 O2] ps [[_ E]|[_ E]]; [apply O1|apply O2]; exact E.
Qed.

Lemma run_hours P year s n K (Q : record -> Prop) :
  run_of P year s n K ->
  (forall i rc, nth_error (k_results K) i = Some rc -> Q rc) -> Forall Q (k_results K).
Proof. intros _ H. apply Forall_forall. intros rc Hin. apply In_nth_error in Hin as [i Hi]. exact (H i rc Hi). Qed.

Lemma run_complete P year s n K : run_of P year s n K -> complete_run K.
Proof.
  intros (H & En & _ & _ & Hn). split; [lia|]. rewrite (run_length P year s n _ H), Z2Nat.id by lia. lia.
Qed.

Lemma run_balances P year s n K :
  good_run P year -> orders_contain P RES_to_export -> no_minimum P -> run_of P year s n K ->
  Forall (fun rc => hour_balances (fuel_eqb (k_fuel K) ELECTRIC) (rf rc)) (k_results K).
Proof.
  intros G Hx Hm R. apply (run_hours P year s n K _ R). intros i rc Hi.
  destruct R as (H & _ & _ & Ef & _).
  destruct (good_run_hour P year s n _ i rc G H Hi) as (I & nd & soc & Hst & Gh & Hc & _).
  rewrite Ef. apply (quiet_hour_balances P I (s + Z.of_nat i) nd soc rc Gh (Hc _ Hx)); [|exact Hst].
  apply no_minimum_quiet; assumption.
Qed.

Lemma run_exports P year s n K :
  good_run P year -> run_of P year s n K ->
  Forall (fun rc => 0 <= rf rc GRID_total_export <= rf rc RES_generation_total) (k_results K).
Proof.
  intros G R. apply (run_hours P year s n K _ R). intros i rc Hi.
  destruct R as (H & _).
  destruct (good_run_hour P year s n _ i rc G H Hi) as (I & nd & soc & Hst & Gh & _).
  pose proof (flows_nonneg P I _ nd soc rc Gh Hst) as N. rewrite Forall_forall in N.
  pose proof (res_no_double_use P I _ nd soc rc Gh Hst) as D.
  assert (E : rf rc GRID_total_export = rf rc RES_export).
  { destruct (hour_open P I _ nd soc rc Gh Hst) as (ps & c & r & u & pr & de & rc0 & rc1 & Hps & Ho & Hf & A & Sg & W & Z & Hu & Hpr & Hrf & Hun & Hco & ->).
    rewrite !(settled_corrected P I _ nd c rc0 rc1 _ Hco) by (unfold settled; inl).
    rewrite Hrf, !finish_written by inl. symmetry. apply (mir17 _ _ _ _ _ A). }
  assert (0 <= rf rc RES_elec_demand) by (apply N; cbn; tauto).
  assert (0 <= rf rc RES_HP) by (apply N; cbn; tauto).
  assert (0 <= rf rc RES_aux) by (apply N; cbn; tauto).
  assert (0 <= rf rc RES_ES) by (apply N; cbn; tauto).
  split; [apply N; cbn; tauto|]. rewrite E. lra.
Qed.

Lemma run_cops P year s n K :
  good_run P year -> run_of P year s n K ->
  Forall (fun rc => 0 <= rf rc HP_elec_RES_usage /\ 0 <= rf rc HP_elec_import_usage /\ 0 < rf rc HP_cop /\
    (rf rc HP_elec_RES_usage + rf rc HP_elec_import_usage) * rf rc HP_cop <= rf rc HP_heat_total_output) (k_results K).
Proof.
  intros G R. apply (run_hours P year s n K _ R). intros i rc Hi.
  destruct R as (H & _).
  destruct (good_run_hour P year s n _ i rc G H Hi) as (I & nd & soc & Hst & Gh & _).
  pose proof (flows_nonneg P I _ nd soc rc Gh Hst) as N. rewrite Forall_forall in N.
  destruct (hour_cop P I _ nd soc rc Gh Hst) as (E & L & _).
  split; [apply N; cbn; tauto|]. split; [apply N; cbn; tauto|]. split; [rewrite E; apply Gh|exact L].
Qed.

Lemma run_exact_cops P year s n K :
  good_run P year -> orders_lack P ES_to_HP_to_demand -> orders_lack P HP_import_to_TS -> run_of P year s n K ->
  Forall (fun rc => 0 <= rf rc HP_elec_total_usage /\ 0 < rf rc HP_cop /\
    rf rc HP_elec_total_usage * rf rc HP_cop == rf rc HP_heat_total_output) (k_results K).
Proof.
  intros G L1 L2 R. apply (run_hours P year s n K _ R). intros i rc Hi.
  destruct R as (H & _).
  destruct (good_run_hour P year s n _ i rc G H Hi) as (I & nd & soc & Hst & Gh & _ & Hl).
  pose proof (flows_nonneg P I _ nd soc rc Gh Hst) as N. rewrite Forall_forall in N.
  destruct (hour_cop P I _ nd soc rc Gh Hst) as (E & _ & _ & L).
  split; [apply N; cbn; tauto|]. split; [rewrite E; apply Gh|]. apply L; apply Hl; assumption.
Qed.
