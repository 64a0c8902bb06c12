(** C103: a process that is left out of the order does not happen. *)
From Coq Require Import String.
From Verif Require Import Base BaseL M_Battery M_HeatPump M_Tools M_FixedOrder S_FixedOrder L_FixedOrder L_FixedOrderHour L_FixedOrderProps L_FixedOrderRun P_FixedOrder S_Orders
  M_Tank S_Tank P_SwitchOff.

Lemma run_skips P I t n ps c r c' r' p k : foldM (run_process P I t n) ps (c, r) = Ok (c', r') -> ~ In p ps -> In k (writes p) -> r' k = r k.
Proof.
  revert c r. induction ps as [|q ps IH]; intros c r H Hp Hk.
  - injection H as <- <-. reflexivity.
  - cbn [foldM] in H. unfold run_process at 1 in H. destruct (amount P I t n q c) as [he|]; cbn [bind] in H; [|discriminate].
    rewrite (IH _ _ H (fun F => Hp (or_intror F)) Hk). apply write_other. intro C. apply Hp. left. exact (writes_disjoint _ _ _ C Hk).
Qed.
(** The process behind an entry *)
Definition behind (high : bool) (n : Z) : process :=
  match high, n with
  | true, 2%Z | false, 3%Z => ES_to_demand | true, 3%Z | false, 2%Z => Import_to_demand | _, 4%Z => HP_RES_to_demand | _, 5%Z => EAUX_RES_to_demand
  | true, 6%Z | false, 7%Z => TS_to_demand | true, 7%Z | false, 8%Z => ES_to_HP_to_demand | true, 8%Z | false, 6%Z => HP_import_to_demand
  | _, 10%Z => HP_RES_to_TS | _, 11%Z => EAUX_RES_to_TS | false, 12%Z => HP_import_to_TS | true, 12%Z | false, 13%Z => RES_to_ES
  | false, 14%Z => Import_to_ES | true, 13%Z | false, 15%Z => RES_to_export | _, _ => RES_to_demand end.
Lemma entries_cases high n k : In k (entries high n) -> In k (writes (behind high n)) /\ n = rank high (behind high n) /\
  (forall P I soc u pr de r, finish_fields P I soc u pr de r k = r k) /\
  (forall P I t T c rc0 rc1, corrected P I t T c rc0 rc1 -> rf (complete I rc1) k = rf rc0 k \/ rf (complete I rc1) k = 0).
Proof.
  intro H.
  assert (F : forall P I soc u pr de r, finish_fields P I soc u pr de r k = r k).
  { intros. unfold entries in H. unfold finish_fields.
    destruct high; repeat (match type of H with context[match ?x with _ => _ end] => destruct x end; try (exfalso; exact H));
      cbn [In] in H; repeat (destruct H as [<-|H]; [destruct (hi P I); fld; reflexivity|]); destruct H. }
  assert (K : forall P I t T c rc0 rc1, corrected P I t T c rc0 rc1 -> rf (complete I rc1) k = rf rc0 k \/ rf (complete I rc1) k = 0).
  { intros P I t T c rc0 rc1 Hc. unfold entries in H.
    destruct Hc as [-> _|m x _ _ _ _ _ _ E1|m m' x _ _ _ _ _ _ _ E1|m _ _ _ _ E1];
    destruct high; repeat (match type of H with context[match ?x with _ => _ end] => destruct x end; try (exfalso; exact H));
      cbn [In] in H; repeat (destruct H as [<-|H]; [fld; rewrite ?E1; fld; first [left; reflexivity|right; reflexivity]|]); destruct H. }
  split; [|split; [|split; assumption]]; clear F K; unfold entries in H;
    destruct high; repeat (match type of H with context[match ?x with _ => _ end] => destruct x end; try (exfalso; exact H)); cbn [behind writes rank]; try reflexivity; cbn [In] in *; tauto.
Qed.
Theorem C103_left_out : forall P I t T soc rc high order n k,
  hour_step P I t T soc = Ok rc -> order_for P I high order -> In k (entries high n) -> ~ In n order -> rf rc k = 0.
Proof.
  intros P I t T soc rc high order n k H O Hk Hn. destruct (entries_cases high n k Hk) as (W & R & F & C).
  apply hour_inv in H as (c & rc0 & rc1 & Hu & Hc & ->). apply uncorrected_inv in Hu as (ps & r & u & pr & de & Hps & Hf & _ & _ & Hrf & _).
  pose proof (corrected_intro _ _ _ _ _ _ _ Hc) as Hco. destruct (C _ _ _ _ _ _ _ Hco) as [-> | ->]; [|reflexivity]. rewrite Hrf, F.
  rewrite (run_skips _ _ _ _ _ _ _ _ _ (behind high n) k Hf); [|clear Hf|exact W].
  - apply start_zero. apply in_flat_map. exists (behind high n). split; [apply in_all|exact W].
  - intro B. apply Hn. rewrite R. unfold order_for in O. unfold processes_of, high_tariff in Hps.
    destruct high; destruct O as (O & ->); destruct Hps as [(Q & Hps)|(Q & Hps)]; try (exfalso; lra).
    + rewrite <- (mapM_rank true _ _ Hps). apply in_map, B.
    + rewrite <- (mapM_rank false _ _ Hps). apply in_map, B.
Qed.
Print Assumptions C103_left_out.
(** Nothing is bought for storage when the price is above the setpoint, whatever the order says. *)
Lemma above_key_never n p : above_key n = Ok p -> p <> Import_to_ES /\ p <> HP_import_to_TS.
Proof.
  unfold above_key. intro H. repeat match type of H with context [match ?x with _ => _ end] => destruct x; try discriminate H end; injection H as <-; split; discriminate.
Qed.
Theorem C103_no_purchase_for_storage : forall P I t T soc rc,
  hour_step P I t T soc = Ok rc -> p_setpoint P < i_import_price I -> rf rc GRID_import_for_ES = 0 /\ rf rc ES_charging_from_import = 0 /\ rf rc GRID_import_for_heat_pump_to_TS = 0.
Proof.
  intros P I t T soc rc H Hp. apply hour_inv in H as (c & rc0 & rc1 & Hu & Hc & ->). apply uncorrected_inv in Hu as (ps & r & u & pr & de & Hps & Hf & _ & _ & Hrf & _).
  pose proof (corrected_intro _ _ _ _ _ _ _ Hc) as Hco.
  assert (N : ~ In Import_to_ES ps /\ ~ In HP_import_to_TS ps).
  { destruct Hps as [(_ & M)|(Q & _)]; [|exfalso; apply Q, Hp]. clear - M. revert ps M. induction (p_order_above P) as [|n l IH]; intros ps M; cbn [mapM] in M.
    - injection M as <-. split; intros [].
    - destruct (above_key n) as [p|] eqn:E; cbn [bind] in M; [|discriminate M]. destruct (mapM above_key l) as [qs|]; cbn [bind] in M; [|discriminate M]. injection M as <-.
      apply above_key_never in E as (E1 & E2). destruct (IH qs eq_refl) as (I1 & I2). split; intros [X|X]; congruence || contradiction. }
  destruct N as (N1 & N2).
  split; [|split]; (rewrite (settled_corrected P I t T c rc0 rc1 _ Hco) by (unfold settled; cbn; tauto)); (rewrite Hrf, finish_written by (cbn; tauto)).
  - rewrite (run_skips _ _ _ _ _ _ _ _ _ Import_to_ES _ Hf N1) by (cbn; tauto). unfold start_fields. destruct (hi P I); reflexivity.
  - rewrite (run_skips _ _ _ _ _ _ _ _ _ Import_to_ES _ Hf N1) by (cbn; tauto). unfold start_fields. destruct (hi P I); reflexivity.
  - rewrite (run_skips _ _ _ _ _ _ _ _ _ HP_import_to_TS _ Hf N2) by (cbn; tauto). unfold start_fields. destruct (hi P I); reflexivity.
Qed.
Print Assumptions C103_no_purchase_for_storage.
(** In an hour in which the minimum output is kept anyway, also the remaining two processes: the heat pump charging the store
    from the grid, and the back-up (which may still use surplus generation, numbers 5 and 11). *)
Theorem C103_quiet_partial : forall P I t T soc rc high order,
  hour_step P I t T soc = Ok rc -> order_for P I high order -> quiet P I t T soc ->
  (high = true \/ ~ In 12%Z order -> rf rc HP_heat_from_import_to_TS = 0 /\ rf rc HP_elec_from_import_to_TS = 0 /\ rf rc TS_HP_from_import_to_TS = 0) /\
  (~ In 9%Z order -> rf rc AUX_demand == rf rc AUX_RES_to_demand + rf rc AUX_RES_to_TS).
Proof.
  intros P I t T soc rc high order H O Qu. apply hour_inv in H as (c & rc0 & rc1 & Hu & Hc & ->). pose proof (corrected_intro _ _ _ _ _ _ _ Hc) as Hco.
  rewrite (quiet_corrected _ _ _ _ _ _ _ _ Qu Hu Hco). clear Hc Hco.
  apply uncorrected_inv in Hu as (ps & r & u & pr & de & Hps & Hf & _ & _ & Hrf & _).
  assert (Ranks : map (rank high) ps = order).
  { unfold order_for in O. unfold processes_of, high_tariff in Hps. destruct high; destruct O as (O & ->); destruct Hps as [(Q & Hps)|(Q & Hps)]; try (exfalso; lra); [exact (mapM_rank true _ _ Hps)|exact (mapM_rank false _ _ Hps)]. }
  assert (Never : high = true -> ~ In HP_import_to_TS ps).
  { intros -> B. destruct Hps as [(_ & M)|(Q & _)]; [|exfalso; apply Q, (proj1 O)]. revert M B. clear. generalize (p_order_above P). intro l. revert ps. induction l as [|n l IH]; intros ps M B; cbn [mapM] in M.
    - injection M as <-. destruct B.
    - destruct (above_key n) as [p|] eqn:E; cbn [bind] in M; [|discriminate M]. destruct (mapM above_key l) as [qs|]; cbn [bind] in M; [|discriminate M]. injection M as <-.
      apply above_key_never in E as (E1 & E2). destruct B as [B|B]; [congruence|exact (IH _ eq_refl B)]. }
  split.
  - intro Hn. assert (N : ~ In HP_import_to_TS ps).
    { destruct high; [apply Never; reflexivity|]. destruct Hn as [Hn|Hn]; [discriminate Hn|]. intro B. apply Hn. rewrite <- Ranks. change 12%Z with (rank false HP_import_to_TS). apply in_map, B. }
    assert (Z : forall k, In k (writes HP_import_to_TS) -> r k = 0).
    { intros k Hk. rewrite (run_skips _ _ _ _ _ _ _ _ _ HP_import_to_TS k Hf N Hk). apply start_zero, in_flat_map. exists HP_import_to_TS. split; [apply in_all|exact Hk]. }
    assert (K : forall k, In k [HP_heat_from_import_to_TS; HP_elec_from_import_to_TS; TS_HP_from_import_to_TS] -> rf (complete I rc0) k = r k).
    { intros k Hk. unfold complete. cbn [rf]. rewrite Hrf. unfold finish_fields. cbn [In] in Hk. repeat (destruct Hk as [<-|Hk]; [destruct (hi P I); fld; reflexivity|]). destruct Hk. }
    split; [|split]; (rewrite K by (cbn; tauto)); apply Z; cbn; tauto.
  - intro Hn. assert (N : ~ In AUX_to_demand ps).
    { intro B. apply Hn. rewrite <- Ranks. assert (E : rank high AUX_to_demand = 9%Z) by (destruct high; reflexivity). rewrite <- E. apply in_map, B. }
    assert (Z : r HD_aux = 0).
    { rewrite (run_skips _ _ _ _ _ _ _ _ _ AUX_to_demand HD_aux Hf N) by (cbn; tauto). unfold start_fields. destruct (hi P I); reflexivity. }
    unfold complete; cbn [rf]; rewrite Hrf; unfold finish_fields; destruct (hi P I); fld; rewrite Z; ring.
Qed.
Print Assumptions C103_quiet_partial.
(** Topping up to the minimum output buys electricity for the store at a high price, and switching off starts the back-up that is in no order. *)
Definition without_backup (P : plant) : plant :=
  {| p_battery := p_battery P; p_hp_capacity := p_hp_capacity P; p_min_runtime := p_min_runtime P; p_min_output := p_min_output P; p_aux := p_aux P; p_tank := p_tank P;
     p_export_price := p_export_price P; p_setpoint := p_setpoint P; p_order_above := [1;2;3;4;5;6;7;8;10;11;12;13]%Z; p_order_below := [1;2;3;4;5;6;7;8;10;11;12;13;14;15]%Z; p_max_heat := p_max_heat P |}.
Theorem C103_left_out_refuted : exists P I P' I' T rc rc',
  p_setpoint P < i_import_price I /\ hour_step P I 0 T 0 = Ok rc /\ 0 < rf rc HP_elec_from_import_to_TS /\
  ~ In 9%Z (p_order_above P') /\ hour_step P' I' 0 T 0 = Ok rc' /\ rf rc' AUX_demand == i_heat_demand I' /\ 0 < i_heat_demand I'.
Proof.
  exists (mild_plant 4000), (mild_hour 100), (without_backup (mild_plant 0)), (mild_hour 100), [40;40;40;40].
  assert (K : match hour_step (mild_plant 4000) (mild_hour 100) 0 [40;40;40;40] 0 with Ok r => qlt 0 (rf r HP_elec_from_import_to_TS) | Err _ => false end = true) by (vm_compute; reflexivity).
  assert (K' : match hour_step (without_backup (mild_plant 0)) (mild_hour 100) 0 [40;40;40;40] 0 with Ok r => qeq (rf r AUX_demand) 5 | Err _ => false end = true) by (vm_compute; reflexivity).
  destruct (hour_step (mild_plant 4000) (mild_hour 100) 0 _ 0) as [r|]; [|discriminate K]. destruct (hour_step (without_backup (mild_plant 0)) (mild_hour 100) 0 _ 0) as [r'|]; [|discriminate K'].
  exists r, r'. split; [reflexivity|]. split; [reflexivity|]. split; [exact (qlt_true _ _ K)|]. split; [cbn; intuition discriminate|]. split; [reflexivity|].
  split; [|reflexivity]. destruct (qeq_spec (rf r' AUX_demand) 5); [assumption|discriminate K'].
Qed.
Print Assumptions C103_left_out_refuted.
(** An order without the battery: in the same hour the full order discharges it. *)
Example C103_case :
  let P a := demo (demo_battery 10 1) 0 0 (simple_tank 0 0 0) a a in let I := demo_hour 0 5 0 150 2 0 in
  order_for (P [1;3]%Z) I true [1;3]%Z /\ In ED_ES (entries true 2) /\ ~ In 2%Z [1;3]%Z /\
  observe (hour_step (P [1;3]%Z) I 0 [] 5) (fun r => qeq (r ED_ES) 0 && qeq (r ED_import) 5) = true /\
  observe (hour_step (P [1;2;3]%Z) I 0 [] 5) (fun r => qeq (r ED_ES) 5) = true.
Proof. cbv zeta. split; [split; reflexivity|]. split; [left; reflexivity|]. split; [cbn; intuition discriminate|]. vm_compute. auto. Qed.
