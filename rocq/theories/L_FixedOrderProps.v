(** Balances, limits and signs of the hourly record. *)
From Verif Require Import Base BaseL M_Battery S_Battery L_Battery M_HeatPump S_HeatPump L_HeatPump
  M_Tools L_Tools M_FixedOrder S_FixedOrder L_FixedOrder L_FixedOrderSign L_FixedOrderHour.

Ltac fld :=
  cbn [complete rf r_nodes finish_fields above_rec below_rec grid_totals es_totals fin_aux aux_demand
       ts_totals hp_totals hp_topped_up zero_fields hp_zeroed fold_left upd field_eqb field_id Pos.eqb] in *.

(** What the correction can do to a record, as far as the fields are concerned. *)
Inductive corrected (P : plant) (I : hour_in) (t : Z) (n : nodes) (c : checks) (rc0 rc1 : record) : Prop :=
| Cor_none :
    rc1 = rc0 -> (minimum_heat P I <= rf rc0 HP_heat_total_output \/ rf rc0 HP_heat_total_output <= threshold P I) ->
    corrected P I t n c rc0 rc1
| Cor_off m x :
    threshold P I < rf rc0 HP_heat_total_output -> rf rc0 HP_heat_total_output < minimum_heat P I ->
    t_max (p_tank P) Charging n (i_source_temp I) (i_flow_temp I) t = Ok m ->
    m + ts_discharge c - ts_charge c < min_out P I - rf rc0 HP_heat_total_output ->
    hi P I = true ->
    x = i_heat_demand I - rf rc0 TS_discharging_total ->
    rf rc1 = upd (zero_fields hp_zeroed (rf rc0)) AUX_demand x ->
    corrected P I t n c rc0 rc1
| Cor_off_low m m' x :
    threshold P I < rf rc0 HP_heat_total_output -> rf rc0 HP_heat_total_output < minimum_heat P I ->
    t_max (p_tank P) Charging n (i_source_temp I) (i_flow_temp I) t = Ok m ->
    m + ts_discharge c - ts_charge c < min_out P I - rf rc0 HP_heat_total_output ->
    hi P I = false ->
    t_max (p_tank P) Discharging n (i_source_temp I) (i_flow_temp I) t = Ok m' ->
    x = (if qeq (t_capacity (p_tank P)) 0 then i_heat_demand I else pmin m' (i_heat_demand I)) - pmin m' (i_heat_demand I) ->
    rf rc1 = upd (upd (upd (zero_fields hp_zeroed (rf rc0)) TS_charging_total 0)
               TS_discharging_total (pmin m' (i_heat_demand I))) AUX_demand x ->
    corrected P I t n c rc0 rc1
| Cor_top m :
    threshold P I < rf rc0 HP_heat_total_output -> rf rc0 HP_heat_total_output < minimum_heat P I ->
    t_max (p_tank P) Charging n (i_source_temp I) (i_flow_temp I) t = Ok m ->
    min_out P I - rf rc0 HP_heat_total_output <= m + ts_discharge c - ts_charge c ->
    rf rc1 = hp_topped_up (min_out P I - rf rc0 HP_heat_total_output) (rf rc0) ->
    corrected P I t n c rc0 rc1.

Lemma corrected_intro P I t n c rc0 rc1 :
  correct P I t n (threshold P I) (switch_off P I t n) (net_charge P I c) c rc0 = Ok rc1 ->
  corrected P I t n c rc0 rc1.
Proof.
  intro H. apply correct_inv in H.
  destruct H as [[-> H]|(H1 & H2 & m & Hm & [[H3 H4]|[H3 H4]])].
  - apply Cor_none; auto.
  - unfold switch_off in H4. destruct (hi P I) eqn:E.
    + unfold switch_off_above in H4.
      destruct (if qeq (t_capacity (p_tank P)) 0 then _ else _) as [nn|]; cbn [bind] in H4; [|discriminate].
      injection H4 as <-.
      eapply (Cor_off _ _ _ _ _ _ _ m); try eassumption; reflexivity.
    + unfold switch_off_below in H4.
      destruct (t_max (p_tank P) Discharging n (i_source_temp I) (i_flow_temp I) t) as [m'|] eqn:Em; cbn [bind] in H4; [|discriminate].
      eapply (Cor_off_low _ _ _ _ _ _ _ m m'); try eassumption; [reflexivity|].
      destruct (qeq (t_capacity (p_tank P)) 0); cbn [bind] in H4.
      * injection H4 as <-. reflexivity.
      * destruct (t_new (p_tank P) Discharging n _ _ _ _ _) as [nn|]; cbn [bind] in H4; [|discriminate].
        injection H4 as <-. reflexivity.
  - unfold top_up in H4. apply (Cor_top _ _ _ _ _ _ _ m); try assumption.
    destruct (qeq (t_capacity (p_tank P)) 0); cbn [bind] in H4.
    + injection H4 as <-. reflexivity.
    + destruct (t_new (p_tank P) _ n _ _ _ _ _) as [nn|]; cbn [bind] in H4; [|discriminate].
      injection H4 as <-. reflexivity.
Qed.


(** ** Opening an hour *)
Lemma hour_open P I t n soc rc :
  good_hour P I soc -> hour_step P I t n soc = Ok rc ->
  exists ps c r u pr de rc0 rc1,
    processes_of P I ps /\ order_ok ps /\
    foldM (run_process P I t n) ps (init_checks P I soc, start_fields P I) = Ok (c, r) /\
    Acc (init_checks P I soc) (start_fields P I) (rev ps) c r /\
    Sgn P I t n (rev ps) c /\ written_nonneg r /\ done_zero (rev ps) c /\
    fuel_usage (a_efficiency (p_aux P)) (total_aux r) = Ok u /\
    aux_prices P I pr de /\
    rf rc0 = finish_fields P I soc u pr de r /\
    uncorrected P I t n soc = Ok (c, rc0) /\
    corrected P I t n c rc0 rc1 /\
    rc = complete I rc1.
Proof.
  intros (HP & HI & Hs & Ho) H. apply hour_inv in H. destruct H as (c & rc0 & rc1 & Hu & Hc & ->).
  pose proof Hu as Hu'. apply uncorrected_inv in Hu. destruct Hu as (ps & r & u & pr & de & H1 & H2 & H3 & H4 & H5 & _).
  destruct (run_full P I t n HP HI soc Hs ps (start_fields P I) c r (Ho ps H1) (start_zero P I) H2) as (A & B & C & D).
  apply corrected_intro in Hc.
  exists ps, c, r, u, pr, de, rc0, rc1. auto 14.
Qed.

(** Without assumptions on signs: only the accounting. *)
Lemma hour_open_acc P I t n soc rc :
  duplicate_free P I -> hour_step P I t n soc = Ok rc ->
  exists ps c r u pr de rc0 rc1,
    processes_of P I ps /\ NoDup ps /\
    foldM (run_process P I t n) ps (init_checks P I soc, start_fields P I) = Ok (c, r) /\
    Acc (init_checks P I soc) (start_fields P I) (rev ps) c r /\
    fuel_usage (a_efficiency (p_aux P)) (total_aux r) = Ok u /\
    aux_prices P I pr de /\
    rf rc0 = finish_fields P I soc u pr de r /\
    uncorrected P I t n soc = Ok (c, rc0) /\
    corrected P I t n c rc0 rc1 /\
    rc = complete I rc1.
Proof.
  intros Hd H. apply hour_inv in H. destruct H as (c & rc0 & rc1 & Hu & Hc & ->).
  pose proof Hu as Hu'. apply uncorrected_inv in Hu. destruct Hu as (ps & r & u & pr & de & H1 & H2 & H3 & H4 & H5 & _).
  pose proof (run_acc P I t n (init_checks P I soc) (start_fields P I) ps [] _ _ c r (Hd ps H1)
      (fun p _ F => F) (Acc_init _ _ (start_zero P I)) H2) as A. rewrite app_nil_r in A.
  apply corrected_intro in Hc.
  exists ps, c, r, u, pr, de, rc0, rc1. auto 14.
Qed.

Lemma quiet_corrected P I t n soc c rc0 rc1 :
  quiet P I t n soc -> uncorrected P I t n soc = Ok (c, rc0) ->
  corrected P I t n c rc0 rc1 -> rc1 = rc0.
Proof.
  intros Hq Hu Hc. specialize (Hq c rc0 Hu).
  destruct Hc as [E _|m x E1 E2|m m' x E1 E2|m E1 E2]; [exact E|exfalso; lra..].
Qed.

(** In an hour that is not switched off, a record is either untouched or topped up. *)
Lemma not_off P I t n soc c rc0 rc1 :
  not_switched_off P I t n soc (complete I rc1) -> uncorrected P I t n soc = Ok (c, rc0) ->
  corrected P I t n c rc0 rc1 ->
  rc1 = rc0 \/ exists m, t_max (p_tank P) Charging n (i_source_temp I) (i_flow_temp I) t = Ok m /\
    threshold P I < rf rc0 HP_heat_total_output /\ rf rc0 HP_heat_total_output < minimum_heat P I /\
    min_out P I - rf rc0 HP_heat_total_output <= m + ts_discharge c - ts_charge c /\
    rf rc1 = hp_topped_up (min_out P I - rf rc0 HP_heat_total_output) (rf rc0).
Proof.
  intros [Hq|Hp] Hu Hc.
  - left. apply (quiet_corrected P I t n soc c); assumption.
  - change (rf (complete I rc1) HP_heat_total_output) with (rf rc1 HP_heat_total_output) in Hp.
    destruct Hc as [E _|m x E1 E2 E3 E4 E5 E6 E7|m m' x E1 E2 E3 E4 E5 E6 E7 E8|m E1 E2 E3 E4 E5].
    + left. exact E.
    + exfalso. rewrite E7 in Hp. change (0 < 0) in Hp. lra.
    + exfalso. rewrite E8 in Hp. change (0 < 0) in Hp. lra.
    + right. exists m. auto.
Qed.

(** Fields that neither the correction nor the completion touches. *)
Definition settled (k : field) : Prop :=
  In k [ED_ES; ED_import; HD_TS; HD_aux; RES_ES; RES_export; AUX_RES_to_demand; AUX_RES_to_TS;
        ES_charging_total; ES_discharging_total; ES_final_soc; ES_charging_from_import; TS_aux_to_TS;
        GRID_total_import; GRID_total_export; GRID_import_for_elec_demand; GRID_import_for_heat_pump_total;
        GRID_import_for_heat_pump_to_TS; GRID_import_for_heat_pump_to_heat_demand;
        GRID_import_for_ES; GRID_import_price; GRID_import_costs; GRID_export_income; GRID_cashflow; HP_duty; HP_cop].

Lemma settled_corrected P I t n c rc0 rc1 k :
  corrected P I t n c rc0 rc1 -> settled k -> rf (complete I rc1) k = rf rc0 k.
Proof.
  intros Hc Hk. unfold settled in Hk. cbn [In] in Hk.
  destruct Hc as [-> _|m x _ _ _ _ _ _ E1|m m' x _ _ _ _ _ _ _ E1|m _ _ _ _ E1];
    repeat (destruct Hk as [<-|Hk]; [fld; rewrite ?E1; fld; reflexivity|]); destruct Hk.
Qed.

Lemma finish_written P I soc u pr de r k :
  In k [ED_ES; ED_import; HD_TS; RES_ES; RES_export; AUX_RES_to_demand; AUX_RES_to_TS; ES_charging_from_import;
        ES_charging_from_RES; TS_aux_to_TS; GRID_total_export; GRID_import_for_elec_demand; GRID_import_for_ES;
        GRID_import_price; TS_discharging_total; HP_cop; HP_duty;
        GRID_import_for_heat_pump_to_TS; GRID_import_for_heat_pump_to_heat_demand] ->
  finish_fields P I soc u pr de r k = r k.
Proof.
  intro Hk. cbn [In] in Hk.
  repeat (destruct Hk as [<-|Hk]; [unfold finish_fields; destruct (hi P I); fld; reflexivity|]); destruct Hk.
Qed.

Ltac inl := cbn [In writes]; tauto.

(** ** C08 *)
Lemma elec_balance P I t n soc rc :
  good_hour P I soc -> contains P I Import_to_demand -> hour_step P I t n soc = Ok rc ->
  rf rc ED_RES + rf rc ED_ES + rf rc ED_import == rf rc ED_elec_demand /\ rf rc ED_elec_demand = i_elec_demand I.
Proof.
  intros G Hc H.
  destruct (hour_open P I t n soc rc G H) as (ps & c & r & u & pr & de & rc0 & rc1 & Hps & Ho & Hf & A & S & W & Z & Hu & Hpr & Hrf & Hun & Hco & ->).
  assert (Zi : elec_unmet c == 0) by (apply Z; apply -> in_rev; apply Hc; exact Hps).
  destruct (surplus_deficit_hour_spec (i_wind I + i_PV I) (i_elec_demand I)) as (_ & _ & _ & _ & B & _).
  pose proof (acc_elec _ _ _ _ _ A) as E. cbn [init_checks elec_unmet] in E.
  rewrite (settled_corrected P I t n c rc0 rc1 ED_ES Hco), (settled_corrected P I t n c rc0 rc1 ED_import Hco) by (unfold settled; inl).
  rewrite Hrf, !finish_written by inl. fld. split; [lra|reflexivity].
Qed.

Lemma run_keeps_elec P I t n ps c r c' r' :
  Forall (fun p => in_elec_unmet p = false) ps ->
  foldM (run_process P I t n) ps (c, r) = Ok (c', r') -> elec_unmet c' = elec_unmet c.
Proof.
  revert c r. induction ps as [|p ps IH]; intros c r F H.
  - injection H as <- <-. reflexivity.
  - inversion F as [|? ? F1 F2]; subst. cbn [foldM] in H. unfold run_process at 1 in H.
    destruct (amount P I t n p c) as [he|]; cbn [bind] in H; [|discriminate].
    rewrite (IH _ _ F2 H). cbn [update elec_unmet]. rewrite F1. reflexivity.
Qed.

(** Any order without duplicates in which the battery is not asked after the grid. *)
Lemma elec_balance_any P I t n soc rc :
  duplicate_free P I -> contains P I Import_to_demand ->
  (forall ps, processes_of P I ps -> never_after ps ES_to_demand Import_to_demand) ->
  hour_step P I t n soc = Ok rc ->
  rf rc ED_RES + rf rc ED_ES + rf rc ED_import == rf rc ED_elec_demand /\ rf rc ED_elec_demand = i_elec_demand I.
Proof.
  intros Hd Hc Hn H.
  destruct (hour_open_acc P I t n soc rc Hd H) as (ps & c & r & u & pr & de & rc0 & rc1 & Hps & Hnd & Hf & A & Hu & Hpr & Hrf & Hun & Hco & ->).
  assert (Zi : elec_unmet c == 0).
  { specialize (Hn ps Hps). specialize (Hc ps Hps). apply in_split in Hc. destruct Hc as (l1 & l2 & E). subst ps.
    rewrite foldM_app in Hf.
    destruct (foldM (run_process P I t n) l1 _) as [[c1 r1]|]; cbn [bind] in Hf; [|discriminate].
    cbn [foldM] in Hf. unfold run_process at 1 in Hf. cbn [amount bind] in Hf.
    apply run_keeps_elec in Hf.
    - rewrite Hf. cbn. lra.
    - apply Forall_forall. intros p Hp. destruct p; try reflexivity; exfalso.
      + apply in_split in Hp. destruct Hp as (l3 & l4 & ->).
        apply (Hn (l1 ++ Import_to_demand :: l3) l4); [rewrite <- app_assoc; reflexivity|].
        apply in_or_app. right. left. reflexivity.
      + apply NoDup_remove_2 in Hnd. apply Hnd. apply in_or_app. right. exact Hp. }
  destruct (surplus_deficit_hour_spec (i_wind I + i_PV I) (i_elec_demand I)) as (_ & _ & _ & _ & B & _).
  pose proof (acc_elec _ _ _ _ _ A) as E. cbn [init_checks elec_unmet] in E.
  rewrite (settled_corrected P I t n c rc0 rc1 ED_ES Hco), (settled_corrected P I t n c rc0 rc1 ED_import Hco) by (unfold settled; inl).
  rewrite Hrf, !finish_written by inl. fld. split; [lra|reflexivity].
Qed.

(** ** C09 *)
Lemma heat_balance P I t n soc rc :
  good_hour P I soc -> contains P I AUX_to_demand -> quiet P I t n soc -> hour_step P I t n soc = Ok rc ->
  rf rc HD_heat_demand = i_heat_demand I /\
  (high_tariff P I -> rf rc HD_HP + rf rc HD_TS + rf rc HD_aux == rf rc HD_heat_demand) /\
  (~ high_tariff P I -> rf rc HD_HP + rf rc HD_TS + rf rc HD_aux + rf rc AUX_RES_to_demand == rf rc HD_heat_demand).
Proof.
  intros G Hc Hq H.
  destruct (hour_open P I t n soc rc G H) as (ps & c & r & u & pr & de & rc0 & rc1 & Hps & Ho & Hf & A & S & W & Z & Hu & Hpr & Hrf & Hun & Hco & ->).
  assert (E1 := quiet_corrected P I t n soc c rc0 rc1 Hq Hun Hco). subst rc1.
  assert (Zi : heat_unmet c == 0) by (apply Z; apply -> in_rev; apply Hc; exact Hps).
  pose proof (acc_heat _ _ _ _ _ A) as E. cbn [init_checks heat_unmet] in E.
  pose proof (hi_spec P I) as Hh.
  split; [reflexivity|]. fld. rewrite Hrf. unfold finish_fields.
  destruct (hi P I); fld; split; intro X; try contradiction; lra.
Qed.

(** ** C10 *)
Lemma res_balance P I t n soc rc :
  good_hour P I soc -> contains P I RES_to_export -> hour_step P I t n soc = Ok rc ->
  not_switched_off P I t n soc rc ->
  rf rc RES_generation_total == rf rc RES_elec_demand + rf rc RES_HP + rf rc RES_aux + rf rc RES_ES + rf rc RES_export.
Proof.
  intros G Hc H Hq.
  destruct (hour_open P I t n soc rc G H) as (ps & c & r & u & pr & de & rc0 & rc1 & Hps & Ho & Hf & A & S & W & Z & Hu & Hpr & Hrf & Hun & Hco & ->).
  assert (Zi : RES_left c == 0) by (apply Z; apply -> in_rev; apply Hc; exact Hps).
  pose proof (acc_res _ _ _ _ _ A) as E. cbn [init_checks RES_left] in E.
  destruct (surplus_deficit_hour_spec (i_wind I + i_PV I) (i_elec_demand I)) as (_ & _ & _ & _ & _ & B & _).
  rewrite (mir4 _ _ _ _ _ A), (mir10 _ _ _ _ _ A) in E.
  destruct (not_off P I t n soc c rc0 rc1 Hq Hun Hco) as [->|(m & _ & _ & _ & _ & Et)].
  - fld. rewrite Hrf. unfold finish_fields. destruct (hi P I); fld; lra.
  - fld. rewrite Et. fld. rewrite Hrf. unfold finish_fields. destruct (hi P I); fld; lra.
Qed.

(** Without the export process, and in general: no renewable unit is used twice. *)
Lemma res_no_double_use P I t n soc rc :
  good_hour P I soc -> hour_step P I t n soc = Ok rc ->
  rf rc RES_elec_demand + rf rc RES_HP + rf rc RES_aux + rf rc RES_ES + rf rc RES_export <= rf rc RES_generation_total.
Proof.
  intros G H.
  destruct (hour_open P I t n soc rc G H) as (ps & c & r & u & pr & de & rc0 & rc1 & Hps & Ho & Hf & A & S & W & Z & Hu & Hpr & Hrf & Hun & Hco & ->).
  pose proof (acc_res _ _ _ _ _ A) as E. cbn [init_checks RES_left] in E.
  destruct (surplus_deficit_hour_spec (i_wind I + i_PV I) (i_elec_demand I)) as (_ & _ & _ & _ & _ & B & _).
  rewrite (mir4 _ _ _ _ _ A), (mir10 _ _ _ _ _ A) in E.
  pose proof (sg_res _ _ _ _ _ _ S).
  assert (0 <= r HP_elec_from_RES_to_demand) by (apply (W HP_RES_to_demand); inl).
  assert (0 <= r HP_elec_from_RES_to_TS) by (apply (W HP_RES_to_TS); inl).
  clear S W Hf.
  destruct Hco as [-> _|m x _ _ _ _ _ _ E1|m m' x _ _ _ _ _ _ _ E1|m _ _ _ _ E1];
    fld; rewrite ?E1; fld; rewrite Hrf; unfold finish_fields; destruct (hi P I); fld; lra.
Qed.

(** ** C11 *)
Lemma grid_costs P I t n soc rc :
  hour_step P I t n soc = Ok rc ->
  rf rc GRID_import_price = i_import_price I /\
  rf rc GRID_import_costs == rf rc GRID_total_import * i_import_price I / 1000 /\
  rf rc GRID_export_income == rf rc GRID_total_export * p_export_price P / 1000 /\
  rf rc GRID_cashflow == rf rc GRID_export_income - rf rc GRID_import_costs.
Proof.
  intro H. apply hour_inv in H. destruct H as (c & rc0 & rc1 & Hu & Hc & ->).
  apply uncorrected_inv in Hu. destruct Hu as (ps & r & u & pr & de & H1 & H2 & H3 & H4 & H5 & _).
  apply corrected_intro in Hc.
  assert (Ep : r GRID_import_price = i_import_price I).
  { rewrite (run_keeps _ _ _ _ _ _ _ _ _ GRID_import_price H2); [apply start_price|]. cbn. intuition discriminate. }
  rewrite !(settled_corrected P I t n c rc0 rc1 _ Hc) by (unfold settled; inl).
  rewrite H5. unfold finish_fields. destruct (hi P I); fld; rewrite Ep; repeat split; reflexivity.
Qed.

Lemma grid_total P I t n soc rc :
  hour_step P I t n soc = Ok rc -> quiet P I t n soc ->
  rf rc GRID_total_import ==
    rf rc GRID_import_for_elec_demand + rf rc GRID_import_for_heat_pump_total + rf rc GRID_import_for_ES +
    (if fuel_eqb (a_fuel (p_aux P)) ELECTRIC then rf rc AUX_demand - rf rc RES_aux else 0).
Proof.
  intros H Hq. apply hour_inv in H. destruct H as (c & rc0 & rc1 & Hu & Hc & ->).
  pose proof Hu as Hun.
  apply uncorrected_inv in Hu. destruct Hu as (ps & r & u & pr & de & H1 & H2 & H3 & H4 & H5 & _).
  apply corrected_intro in Hc.
  assert (E1 := quiet_corrected P I t n soc c rc0 rc1 Hq Hun Hc). subst rc1.
  fld. rewrite H5. unfold finish_fields. destruct (hi P I); fld; unfold is_electric;
    destruct (fuel_eqb (a_fuel (p_aux P)) ELECTRIC); fld; lra.
Qed.

(** The amounts booked with the grid are the ones booked with the consumers. *)
Lemma grid_consumers P I t n soc rc :
  duplicate_free P I -> hour_step P I t n soc = Ok rc -> quiet P I t n soc ->
  rf rc GRID_import_for_elec_demand = rf rc ED_import /\
  rf rc GRID_import_for_heat_pump_total == rf rc HP_elec_import_usage /\
  rf rc GRID_import_for_ES = rf rc ES_charging_from_import /\
  rf rc GRID_total_export = rf rc RES_export.
Proof.
  intros Hd H Hq.
  destruct (hour_open_acc P I t n soc rc Hd H) as (ps & c & r & u & pr & de & rc0 & rc1 & Hps & Hnd & Hf & A & Hu & Hpr & Hrf & Hun & Hco & ->).
  assert (E1 := quiet_corrected P I t n soc c rc0 rc1 Hq Hun Hco). subst rc1.
  pose proof (mir2 _ _ _ _ _ A). pose proof (mir6 _ _ _ _ _ A). pose proof (mir13 _ _ _ _ _ A).
  pose proof (mir16 _ _ _ _ _ A). pose proof (mir17 _ _ _ _ _ A). clear A Hf.
  fld. rewrite Hrf. unfold finish_fields. destruct (hi P I); fld; repeat split; try congruence; rewrite H1, H2; reflexivity.
Qed.
