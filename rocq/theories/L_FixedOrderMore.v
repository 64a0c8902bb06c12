(** Signs, limits and the minimum-output rule of the hourly record. *)
From Verif Require Import Base BaseL M_Battery S_Battery L_Battery M_HeatPump S_HeatPump L_HeatPump
  M_Tools L_Tools M_FixedOrder S_FixedOrder L_FixedOrder L_FixedOrderSign L_FixedOrderHour L_FixedOrderProps.

(** ** C12 *)
Definition is_flow (k : field) : bool := existsb (field_eqb k) flow_fields.
Definition nn (r : fields) : Prop := forall k, is_flow k = true -> 0 <= r k.

Lemma is_flow_In k : In k flow_fields -> is_flow k = true.
Proof. intro H. apply existsb_exists. exists k. split; [exact H|]. apply field_eqb_eq. reflexivity. Qed.

Lemma upd_nn r k v : nn r -> 0 <= v -> nn (upd r k v).
Proof. intros H Hv k' Hk. unfold upd. destruct (field_eqb k k'); [exact Hv|apply H; exact Hk]. Qed.
Lemma upd_nn_skip r k v : nn r -> is_flow k = false -> nn (upd r k v).
Proof.
  intros H Hv k' Hk. unfold upd. destruct (field_eqb k k') eqn:E; [|apply H; exact Hk].
  apply field_eqb_eq in E. congruence.
Qed.
Lemma zero_fields_nn ks r : nn r -> nn (zero_fields ks r).
Proof.
  revert r. induction ks as [|k ks IH]; intros r H; [exact H|].
  apply (IH (upd r k 0)). apply upd_nn; [exact H|lra].
Qed.
Lemma add_nn a b : 0 <= a -> 0 <= b -> 0 <= a + b.
Proof. intros. lra. Qed.

Ltac flow := first [assumption | match goal with N : nn ?r |- 0 <= ?r _ => apply N; reflexivity end].
Ltac flows := repeat apply add_nn; flow.
Ltac nnupd := first [apply upd_nn_skip; [assumption|reflexivity] | apply upd_nn; [assumption|flows]].
Ltac nnlet :=
  lazymatch goal with
  | |- nn (let x := ?e in @?b x) =>
      let N := fresh "N" in let y := fresh "r" in
      assert (N : nn e) by nnupd;
      change (nn (b e)); generalize dependent e; intros y N; cbv beta
  end.

Lemma hp_totals_nn r : nn r -> nn (hp_totals r).
Proof. intro N. cbv beta delta [hp_totals]. repeat nnlet. nnupd. Qed.
Lemma ts_totals_nn r : nn r -> nn (ts_totals r).
Proof. intro N. cbv beta delta [ts_totals]. repeat nnlet. nnupd. Qed.
Lemma aux_demand_nn r : nn r -> nn (aux_demand r).
Proof. intro N. unfold aux_demand. nnupd. Qed.
Lemma es_totals_nn P soc r : 0 <= b_capacity (p_battery P) -> nn r -> nn (es_totals P soc r).
Proof.
  intros Hb N. cbv beta delta [es_totals]. repeat nnlet. apply upd_nn; [assumption|].
  apply new_soc_range; assumption.
Qed.
Lemma fin_aux_nn u pr de r : 0 <= u -> 0 <= de -> nn r -> nn (fin_aux u pr de r).
Proof.
  intros Hu Hd N. cbv beta delta [fin_aux]. repeat nnlet. apply upd_nn; [assumption|]. apply Qmult_le_0_compat; assumption.
Qed.
Lemma grid_totals_nn P r :
  nn r -> (is_electric P = true -> 0 <= r AUX_demand - r AUX_RES_to_demand - r AUX_RES_to_TS) -> nn (grid_totals P r).
Proof.
  intros N He. unfold grid_totals.
  set (r1 := upd r GRID_import_for_heat_pump_total _).
  assert (N1 : nn r1) by (unfold r1; nnupd).
  change (is_electric P = true -> 0 <= r1 AUX_demand - r1 AUX_RES_to_demand - r1 AUX_RES_to_TS) in He.
  clearbody r1. cbv beta zeta.
  assert (N2 : nn (upd r1 GRID_total_import
       (if is_electric P
        then r1 GRID_import_for_elec_demand + r1 GRID_import_for_heat_pump_total + r1 GRID_import_for_ES +
             r1 AUX_demand - r1 AUX_RES_to_demand - r1 AUX_RES_to_TS
        else r1 GRID_import_for_elec_demand + r1 GRID_import_for_heat_pump_total + r1 GRID_import_for_ES))).
  { apply upd_nn; [assumption|].
    assert (0 <= r1 GRID_import_for_elec_demand) by flow.
    assert (0 <= r1 GRID_import_for_heat_pump_total) by flow.
    assert (0 <= r1 GRID_import_for_ES) by flow.
    destruct (is_electric P); [specialize (He eq_refl)|]; lra. }
  apply upd_nn_skip; [|reflexivity]. apply upd_nn_skip; [|reflexivity]. apply upd_nn_skip; [|reflexivity].
  exact N2.
Qed.
Lemma hp_topped_up_nn inc r : 0 <= inc -> 0 < r HP_cop -> nn r -> nn (hp_topped_up inc r).
Proof.
  intros Hi Hc N. unfold hp_topped_up.
  assert (Hq : 0 <= inc / r HP_cop) by (apply Qle_shift_div_l; lra).
  set (q := inc / r HP_cop) in *.
  change (nn (
    let r0 := upd r HP_heat_from_import_to_TS (r HP_heat_from_import_to_TS + inc) in
    let r1 := upd r0 HP_heat_to_TS (r0 HP_heat_to_TS + inc) in
    let r2 := upd r1 HP_heat_total_output (r1 HP_heat_total_output + inc) in
    let r3 := upd r2 HP_elec_total_usage (r2 HP_elec_total_usage + q) in
    let r4 := upd r3 HP_elec_import_usage (r3 HP_elec_import_usage + q) in
    let r5 := upd r4 HP_elec_from_import_to_TS (r4 HP_elec_from_import_to_TS + q) in
    let r6 := upd r5 TS_HP_to_TS (r5 TS_HP_to_TS + inc) in
    upd r6 TS_HP_from_import_to_TS (r6 TS_HP_from_import_to_TS + inc))).
  clearbody q. repeat nnlet. nnupd.
Qed.

Lemma start_fields_nn P I : hour_ok P I -> nn (start_fields P I).
Proof.
  intros HI.
  destruct (surplus_deficit_hour_spec (i_wind I + i_PV I) (i_elec_demand I)) as (B1 & B2 & _).
  destruct HI as (_ & _ & _ & _ & _ & _ & Hd & _).
  assert (N0 : nn (init_above I)).
  { cbv beta delta [init_above].
    assert (N : nn set_of_results) by (intros k _; unfold set_of_results; lra).
    cbv zeta. repeat (first [apply upd_nn_skip; [|reflexivity] | apply upd_nn; [|assumption]]). exact N. }
  unfold start_fields. destruct (hi P I); [exact N0|].
  unfold init_below. apply upd_nn_skip; [exact N0|reflexivity].
Qed.


Lemma field_eq_dec (a b : field) : {a = b} + {a <> b}.
Proof. destruct (field_eqb a b) eqn:E; [left|right]; [apply field_eqb_eq; exact E|]. intros ->. assert (field_eqb b b = true) by (apply field_eqb_eq; reflexivity). congruence. Qed.

Lemma acc_nn c0 P I don c r :
  hour_ok P I -> Acc c0 (start_fields P I) don c r -> written_nonneg r -> nn r.
Proof.
  intros HI A W k Hk.
  destruct (in_dec field_eq_dec k (flat_map writes all_processes)) as [H|H].
  - apply in_flat_map in H. destruct H as (p & _ & Hp). apply (W p k Hp).
  - rewrite (acc_other _ _ _ _ _ A k H). apply (start_fields_nn P I HI k Hk).
Qed.

Lemma finish_nn P I soc u pr de r :
  plant_ok P -> aux_prices P I pr de -> 0 <= u -> nn r -> nn (finish_fields P I soc u pr de r).
Proof.
  intros (Hb & _ & _ & _ & _ & Hden ) Hpr Hu N.
  assert (Hde : 0 <= de).
  { destruct Hpr as [(_ & _ & ->)|(_ & _ & H)]; [lra|apply Hden; exact H]. }
  assert (Hcap : 0 <= b_capacity (p_battery P)) by apply Hb.
  assert (Ha : 0 <= r HD_aux) by (apply N; reflexivity).
  unfold finish_fields. destruct (hi P I).
  - unfold above_rec. cbv zeta. apply grid_totals_nn.
    + apply es_totals_nn; [assumption|]. apply fin_aux_nn; [assumption|assumption|].
      pose proof (aux_demand_nn _ (ts_totals_nn _ (hp_totals_nn _ N))). apply upd_nn; [assumption|flows].
    + intros _. fld. lra.
  - unfold below_rec. cbv zeta.
    assert (N' : nn (grid_totals P (es_totals P soc (ts_totals (fin_aux u pr de (aux_demand (hp_totals r))))))).
    { apply grid_totals_nn.
      + apply es_totals_nn; [assumption|]. apply ts_totals_nn. apply fin_aux_nn; [assumption|assumption|].
        apply aux_demand_nn, hp_totals_nn; assumption.
      + intros _. fld. lra. }
    apply upd_nn; [assumption|]. apply N'. reflexivity.
Qed.

Lemma complete_nn P I rc : hour_ok P I -> nn (rf rc) -> nn (rf (complete I rc)).
Proof.
  intros (Hw & Hp & He & Hh & _) N. unfold complete. cbn [rf].
  destruct (surplus_deficit_hour_spec (i_wind I + i_PV I) (i_elec_demand I)) as (B1 & B2 & _ & _ & B3 & _).
  assert (B4 : 0 <= bal_RES_used (surplus_deficit_hour (i_wind I + i_PV I) (i_elec_demand I))).
  { destruct (surplus_deficit_hour_values (i_wind I + i_PV I) (i_elec_demand I)) as (_ & _ & E). rewrite E.
    apply Q.min_glb; lra. }
  set (b := bal_RES_used _) in *. clearbody b.
  repeat (apply upd_nn; [|first [assumption | apply add_nn; assumption | fld; repeat apply add_nn; flow]]).
  exact N.
Qed.

Lemma pmin_nonneg a b : 0 <= a -> 0 <= b -> 0 <= pmin a b.
Proof. apply pmin_glb. Qed.

Lemma flows_nonneg P I t n soc rc :
  good_hour P I soc -> hour_step P I t n soc = Ok rc -> Forall (fun k => 0 <= rf rc k) flow_fields.
Proof.
  intros G H.
  destruct (hour_open P I t n soc rc G H) as (ps & c & r & u & pr & de & rc0 & rc1 & Hps & Ho & Hf & A & S & W & Z & Hu & Hpr & Hrf & Hun & Hco & ->).
  destruct G as (HP & HI & _).
  apply Forall_forall. intros k Hk. apply (complete_nn P); [exact HI| |apply is_flow_In; exact Hk]. clear k Hk.
  pose proof (acc_nn _ P I _ _ _ HI A W) as N.
  assert (Hu0 : 0 <= u).
  { destruct HP as (_ & _ & _ & Heff & _). destruct (fuel_usage_spec (a_efficiency (p_aux P)) (total_aux r)) as [_ E].
    destruct E as (u' & E & E'); [lra|]. rewrite Hu in E. injection E as <-.
    assert (0 <= total_aux r) by (unfold total_aux; flows). 
    destruct (Qlt_le_dec u 0); [|assumption]. exfalso. nra. }
  pose proof (finish_nn P I soc u pr de r HP Hpr Hu0 N) as N0. rewrite <- Hrf in N0.
  destruct HI as (_ & _ & _ & Hh & _ & Hcop & _ & _ & Hmax).
  destruct Hco as [-> _|m x _ _ _ _ _ Ex E1|m m' x _ _ _ _ _ Hm Ex E1|m L1 L2 Hm L3 E1].
  - exact N0.
  - rewrite E1. apply upd_nn; [apply zero_fields_nn; exact N0|]. rewrite Ex, Hrf, finish_written by inl.
    pose proof (acc_heat _ _ _ _ _ A) as E. cbn [init_checks heat_unmet] in E.
    rewrite (mir7 _ _ _ _ _ A) in E.
    assert (0 <= r HD_HP_RES) by flow. assert (0 <= r HD_HP_import) by flow. assert (0 <= r HD_HP_ES) by flow.
    assert (0 <= r HD_aux) by flow. assert (0 <= r AUX_RES_to_demand) by flow.
    pose proof (sg_heat _ _ _ _ _ _ S). lra.
  - assert (0 <= m') by (apply (Hmax _ _ _ _ Hm)).
    pose proof (pmin_nonneg m' (i_heat_demand I) H0 Hh). pose proof (pmin_le_r m' (i_heat_demand I)).
    rewrite E1. apply upd_nn; [apply upd_nn; [apply upd_nn; [apply zero_fields_nn; exact N0|lra]|lra]|].
    rewrite Ex. destruct (qeq (t_capacity (p_tank P)) 0); lra.
  - rewrite E1. pose proof (min_out_spec P I). apply hp_topped_up_nn; [lra| |exact N0].
    rewrite Hrf, finish_written by inl.
    assert (Ec : r HP_cop = cop (i_perf I)).
    { rewrite (acc_other _ _ _ _ _ A); [unfold start_fields; destruct (hi P I); reflexivity|]. cbn. intuition discriminate. }
    rewrite Ec. exact Hcop.
Qed.

(** ** Induction over the processes of an hour *)
Lemma run_invariant P I t n (Inv : list process -> checks -> fields -> Prop) ps l1 l2 c r c' r' :
  plant_ok P -> hour_ok P I -> order_ok ps -> ps = l1 ++ l2 ->
  (forall q1 p q2 c r h e, ps = q1 ++ p :: q2 -> Sgn P I t n (rev q1) c -> allowed (rev q1) p -> ~ In p (rev q1) ->
     amount P I t n p c = Ok (h, e) -> Inv (rev q1) c r -> Inv (p :: rev q1) (update p (h, e) c) (write p (h, e) r)) ->
  Sgn P I t n (rev l1) c -> Inv (rev l1) c r ->
  foldM (run_process P I t n) l2 (c, r) = Ok (c', r') ->
  Inv (rev ps) c' r'.
Proof.
  intros HP HI Ho. revert l1 c r. induction l2 as [|p l2 IH]; intros l1 c r E St S V H.
  - injection H as <- <-. rewrite app_nil_r in E. subst. exact V.
  - cbn [foldM] in H. unfold run_process at 1 in H.
    destruct (amount P I t n p c) as [[h e]|] eqn:A; cbn [bind] in H; [|discriminate].
    destruct (order_ok_allowed ps l1 p l2 Ho E) as [Hal Hn].
    assert (E' : ps = (l1 ++ [p]) ++ l2) by (rewrite <- app_assoc; exact E).
    apply (IH (l1 ++ [p]) (update p (h, e) c) (write p (h, e) r) E' St); [| |exact H]; rewrite rev_unit.
    + apply sgn_step; assumption.
    + apply (St l1 p l2); assumption.
Qed.

(** ** C13 *)
Definition es_heat (d : Q) (don : list process) (c : checks) (r : fields) : Prop :=
  r HP_heat_from_ES_to_demand <= d.

Lemma run_es_heat P I t n soc ps c r :
  plant_ok P -> hour_ok P I -> level_ok (p_battery P) soc -> order_ok ps ->
  foldM (run_process P I t n) ps (init_checks P I soc, start_fields P I) = Ok (c, r) ->
  r HP_heat_from_ES_to_demand <= duty (i_perf I).
Proof.
  intros HP HI Hs Ho H.
  assert (Hd : 0 <= duty (i_perf I)) by apply HI.
  apply (run_invariant P I t n (es_heat (duty (i_perf I))) ps [] ps _ _ c r HP HI Ho eq_refl) in H; [exact H| | |].
  - intros q1 p q2 c0 r0 h e E S Hal Hn Ha V. unfold es_heat in *.
    destruct (process_eq_dec p ES_to_HP_to_demand) as [->|Hp].
    + cbn [write fst snd]. fld. cbn [amount] in Ha. injection Ha as <- <-.
      pose proof (pmin_le_r (fst (thermal_output (p_hp_capacity P) (c_soc c0) (i_perf I) (heat_unmet c0))) (duty (i_perf I) - hp_usage c0)).
      pose proof (sg_hp _ _ _ _ _ _ S). lra.
    + rewrite write_other; [exact V|]. destruct p; cbn [writes In]; (intuition (discriminate || congruence)).
  - apply init_sgn; assumption.
  - unfold es_heat. rewrite start_zero; [exact Hd|]. cbn. tauto.
Qed.

Definition es_counted (d : Q) (don : list process) (c : checks) (r : fields) : Prop :=
  (In ES_to_HP_to_demand don -> hp_usage c + r HP_heat_from_ES_to_demand <= d) /\
  (~ In ES_to_HP_to_demand don -> r HP_heat_from_ES_to_demand == 0).

Lemma run_es_counted P I t n soc ps c r :
  plant_ok P -> hour_ok P I -> level_ok (p_battery P) soc -> order_ok ps -> hp_last ps ->
  foldM (run_process P I t n) ps (init_checks P I soc, start_fields P I) = Ok (c, r) ->
  es_counted (duty (i_perf I)) (rev ps) c r.
Proof.
  intros HP HI Hs Ho Hl H.
  apply (run_invariant P I t n (es_counted (duty (i_perf I))) ps [] ps _ _ c r HP HI Ho eq_refl) in H; [exact H| | |].
  - intros q1 p q2 c0 r0 h e E S Hal Hn Ha [V1 V2]. unfold es_counted.
    destruct (process_eq_dec p ES_to_HP_to_demand) as [->|Hp].
    + split; [|intro X; exfalso; apply X; left; reflexivity]. intros _.
      cbn [write fst snd update hp_usage in_hp_usage]. fld. cbn [amount] in Ha. injection Ha as <- <-.
      pose proof (pmin_le_r (fst (thermal_output (p_hp_capacity P) (c_soc c0) (i_perf I) (heat_unmet c0))) (duty (i_perf I) - hp_usage c0)).
      lra.
    + assert (Er : write p (h, e) r0 HP_heat_from_ES_to_demand = r0 HP_heat_from_ES_to_demand).
      { apply write_other. destruct p; cbn [writes In]; (intuition (discriminate || congruence)). }
      rewrite Er. split.
      * intros [X|X]; [congruence|]. specialize (V1 X). cbn [update hp_usage fst snd].
        destruct (in_hp_usage p) eqn:Ei; [|exact V1]. exfalso.
        refine (Hl p _ q1 q2 E _); [destruct p; try discriminate Ei; cbn; tauto|]. apply in_rev. exact X.
      * intro X. apply V2. intro C. apply X. right. exact C.
  - apply init_sgn; assumption.
  - split; [intros []|]. intros _. rewrite start_zero; [reflexivity|]. cbn. tauto.
Qed.

(** Heat pump output of the uncorrected record. *)
Lemma output_uncorrected P I soc u pr de r :
  finish_fields P I soc u pr de r HP_heat_total_output ==
  r HP_heat_from_RES_to_demand + r HP_heat_from_import_to_demand + r HP_heat_from_ES_to_demand +
  (r HP_heat_from_RES_to_TS + r HP_heat_from_import_to_TS).
Proof. unfold finish_fields. destruct (hi P I); fld; reflexivity. Qed.

Lemma output_corrected P I t n c rc0 rc1 d :
  corrected P I t n c rc0 rc1 -> 0 <= d -> minimum_heat P I <= d -> rf rc0 HP_heat_total_output <= d ->
  rf (complete I rc1) HP_heat_total_output <= d.
Proof.
  intros Hc H0 Hm Hr. pose proof (min_out_spec P I).
  destruct Hc as [-> _|m x _ _ _ _ _ _ E1|m m' x _ _ _ _ _ _ _ E1|m _ _ _ _ E1]; fld; rewrite ?E1; fld; lra.
Qed.

Lemma hp_output_bound P I t n soc rc :
  good_hour P I soc -> hour_step P I t n soc = Ok rc ->
  minimum_heat P I <= duty (i_perf I) ->
  rf rc HP_heat_total_output <= 2 * duty (i_perf I) + (1#200).
Proof.
  intros G H Hm.
  destruct (hour_open P I t n soc rc G H) as (ps & c & r & u & pr & de & rc0 & rc1 & Hps & Ho & Hf & A & S & W & Z & Hu & Hpr & Hrf & Hun & Hco & ->).
  destruct G as (HP & HI & Hs & _). assert (Hd : 0 <= duty (i_perf I)) by apply HI.
  pose proof (run_es_heat P I t n soc ps c r HP HI Hs Ho Hf) as He.
  pose proof (acc_hp _ _ _ _ _ A) as E. cbn [init_checks hp_usage] in E. pose proof (sg_hp_duty' _ _ _ _ _ _ S).
  apply (output_corrected P I t n c rc0); [exact Hco|lra|lra|].
  rewrite Hrf. rewrite (output_uncorrected P I soc u pr de r). lra.
Qed.

Lemma hp_output_bound_no_ES P I t n soc rc :
  good_hour P I soc -> hour_step P I t n soc = Ok rc ->
  minimum_heat P I <= duty (i_perf I) -> lacks P I ES_to_HP_to_demand ->
  rf rc HP_heat_total_output <= duty (i_perf I) + (1#200) /\
  (lacks P I HP_import_to_TS -> rf rc HP_heat_total_output <= duty (i_perf I)).
Proof.
  intros G H Hm Hl.
  destruct (hour_open P I t n soc rc G H) as (ps & c & r & u & pr & de & rc0 & rc1 & Hps & Ho & Hf & A & S & W & Z & Hu & Hpr & Hrf & Hun & Hco & ->).
  destruct G as (HP & HI & Hs & _). assert (Hd : 0 <= duty (i_perf I)) by apply HI.
  assert (He : r HP_heat_from_ES_to_demand = 0).
  { apply (acc_zero _ _ _ _ _ A ES_to_HP_to_demand); [|inl]. intro X. apply in_rev in X. apply (Hl ps Hps X). }
  pose proof (acc_hp _ _ _ _ _ A) as E. cbn [init_checks hp_usage] in E.
  pose proof (output_uncorrected P I soc u pr de r) as Eo. rewrite He, <- Hrf in Eo.
  split.
  - pose proof (sg_hp_duty' _ _ _ _ _ _ S). apply (output_corrected P I t n c rc0); [exact Hco|lra|lra|lra].
  - intro Hl2. assert (X : ~ In HP_import_to_TS (rev ps)) by (intro X; apply in_rev in X; apply (Hl2 ps Hps X)).
    pose proof (sg_hp_duty _ _ _ _ _ _ S X). apply (output_corrected P I t n c rc0); [exact Hco|lra|lra|lra].
Qed.

Lemma hp_output_bound_last P I t n soc rc :
  good_hour P I soc -> hour_step P I t n soc = Ok rc ->
  minimum_heat P I <= duty (i_perf I) -> (forall ps, processes_of P I ps -> hp_last ps) -> lacks P I HP_import_to_TS ->
  rf rc HP_heat_total_output <= duty (i_perf I).
Proof.
  intros G H Hm Hl Hl2.
  destruct (hour_open P I t n soc rc G H) as (ps & c & r & u & pr & de & rc0 & rc1 & Hps & Ho & Hf & A & S & W & Z & Hu & Hpr & Hrf & Hun & Hco & ->).
  destruct G as (HP & HI & Hs & _). assert (Hd : 0 <= duty (i_perf I)) by apply HI.
  destruct (run_es_counted P I t n soc ps c r HP HI Hs Ho (Hl ps Hps) Hf) as [V1 V2].
  pose proof (acc_hp _ _ _ _ _ A) as E. cbn [init_checks hp_usage] in E.
  pose proof (output_uncorrected P I soc u pr de r) as Eo. rewrite <- Hrf in Eo.
  assert (X : ~ In HP_import_to_TS (rev ps)) by (intro X; apply in_rev in X; apply (Hl2 ps Hps X)).
  pose proof (sg_hp_duty _ _ _ _ _ _ S X).
  apply (output_corrected P I t n c rc0); [exact Hco|lra|lra|].
  destruct (in_dec process_eq_dec ES_to_HP_to_demand (rev ps)) as [Y|Y]; [specialize (V1 Y)|specialize (V2 Y)]; lra.
Qed.

(** ** C14 *)
Lemma minimum_output_rule P I t n soc rc :
  hour_step P I t n soc = Ok rc ->
  minimum_heat P I <= rf rc HP_heat_total_output \/ rf rc HP_heat_total_output == 0 \/
  rf rc HP_heat_total_output <= threshold P I.
Proof.
  intro H. apply hour_inv in H. destruct H as (c & rc0 & rc1 & Hu & Hc & ->).
  apply corrected_intro in Hc. pose proof (min_out_spec P I).
  destruct Hc as [-> C|m x _ _ _ _ _ _ E1|m m' x _ _ _ _ _ _ _ E1|m _ _ _ _ E1]; fld; rewrite ?E1; fld.
  - destruct C; auto.
  - right; left; reflexivity.
  - right; left; reflexivity.
  - left. lra.
Qed.

(** What a switched-off hour looks like. *)
Lemma switched_off_hour P I t n soc rc :
  hour_step P I t n soc = Ok rc -> ~ quiet P I t n soc -> rf rc HP_heat_total_output == 0 ->
  0 < minimum_heat P I ->
  rf rc HD_heat_demand = i_heat_demand I /\ rf rc HP_elec_total_usage == 0 /\
  (high_tariff P I \/ t_capacity (p_tank P) == 0 ->
     rf rc TS_discharging_total + rf rc AUX_demand == rf rc HD_heat_demand) /\
  (~ high_tariff P I -> ~ t_capacity (p_tank P) == 0 -> rf rc AUX_demand == 0).
Proof.
  intros H Hq H0 Hmin. apply hour_inv in H. destruct H as (c & rc0 & rc1 & Hu & Hc & ->).
  apply corrected_intro in Hc. pose proof (min_out_spec P I) as Em. pose proof (hi_spec P I) as Hhi.
  split; [reflexivity|].
  destruct Hc as [-> C|m x L1 L2 _ _ Hh Ex E1|m m' x L1 L2 _ _ Hh _ Ex E1|m L1 L2 _ _ E1]; fld.
  - exfalso. apply Hq. intros c' rc' Hu'. rewrite Hu in Hu'. injection Hu' as <- <-. exact C.
  - rewrite Hh in Hhi. rewrite E1. fld. rewrite Ex. split; [reflexivity|]. split; [intros _; lra|].
    intros X; contradiction.
  - rewrite Hh in Hhi. rewrite E1. fld. rewrite Ex. split; [reflexivity|].
    destruct (qeq_spec (t_capacity (p_tank P)) 0) as [Y|Y]; split.
    + intros _. lra.
    + intros; contradiction.
    + intros [X|X]; contradiction.
    + intros. lra.
  - exfalso. rewrite E1 in H0. fld. lra.
Qed.

(** The electricity of a topped-up hour and what of it the grid account sees. *)
Lemma topped_up_hour P I t n soc rc :
  duplicate_free P I -> hour_step P I t n soc = Ok rc -> ~ quiet P I t n soc ->
  0 < rf rc HP_heat_total_output ->
  exists extra, 0 < extra /\
    rf rc HP_heat_total_output == minimum_heat P I /\
    rf rc HP_elec_import_usage == rf rc GRID_import_for_heat_pump_total + extra / cop (i_perf I).
Proof.
  intros Hd H Hq H0.
  destruct (hour_open_acc P I t n soc rc Hd H) as (ps & c & r & u & pr & de & rc0 & rc1 & Hps & Hnd & Hf & A & Hu & Hpr & Hrf & Hun & Hco & ->).
  pose proof (min_out_spec P I) as Em.
  assert (Ec : r HP_cop = cop (i_perf I)).
  { rewrite (acc_other _ _ _ _ _ A); [unfold start_fields; destruct (hi P I); reflexivity|]. cbn. intuition discriminate. }
  pose proof (mir6 _ _ _ _ _ A) as M6. pose proof (mir13 _ _ _ _ _ A) as M13. clear A Hf.
  destruct Hco as [-> C|m x L1 L2 _ _ Hh Ex E1|m m' x L1 L2 _ _ Hh _ Ex E1|m L1 L2 _ _ E1]; fld.
  - exfalso. apply Hq. intros c' rc' Hu'. rewrite Hun in Hu'. injection Hu' as <- <-. exact C.
  - exfalso. rewrite E1 in H0. fld. lra.
  - exfalso. rewrite E1 in H0. fld. lra.
  - exists (min_out P I - rf rc0 HP_heat_total_output).
    assert (Eo : rf rc1 HP_elec_import_usage = rf rc0 HP_elec_import_usage + (min_out P I - rf rc0 HP_heat_total_output) / rf rc0 HP_cop) by (rewrite E1; reflexivity).
    assert (Eh : rf rc1 HP_heat_total_output = rf rc0 HP_heat_total_output + (min_out P I - rf rc0 HP_heat_total_output)) by (rewrite E1; reflexivity).
    assert (Eg : rf rc1 GRID_import_for_heat_pump_total = rf rc0 GRID_import_for_heat_pump_total) by (rewrite E1; reflexivity).
    assert (Ei : rf rc0 HP_elec_import_usage = rf rc0 GRID_import_for_heat_pump_total).
    { rewrite Hrf. unfold finish_fields. destruct (hi P I); fld; congruence. }
    assert (Ek : rf rc0 HP_cop = cop (i_perf I)) by (rewrite Hrf, finish_written by inl; exact Ec).
    rewrite Eo, Eh, Eg, Ei, Ek. split; [lra|]. split; [lra|reflexivity].
Qed.

(** ** C19 *)
Lemma no_diversion P I t n soc rc :
  good_hour P I soc -> hour_step P I t n soc = Ok rc ->
  0 < rf rc ED_ES + rf rc ED_import ->
  rf rc RES_export == 0 /\ rf rc RES_ES == 0 /\ rf rc RES_HP == 0 /\ rf rc RES_aux == 0.
Proof.
  intros G H Hd.
  destruct (hour_open P I t n soc rc G H) as (ps & c & r & u & pr & de & rc0 & rc1 & Hps & Ho & Hf & A & S & W & Z & Hu & Hpr & Hrf & Hun & Hco & ->).
  destruct (surplus_deficit_hour_spec (i_wind I + i_PV I) (i_elec_demand I)) as (B1 & B2 & B3 & _).
  pose proof (acc_elec _ _ _ _ _ A) as E. cbn [init_checks elec_unmet] in E.
  pose proof (acc_res _ _ _ _ _ A) as E'. cbn [init_checks RES_left] in E'.
  pose proof (sg_elec _ _ _ _ _ _ S). pose proof (sg_res _ _ _ _ _ _ S).
  rewrite (settled_corrected P I t n c rc0 rc1 ED_ES Hco), (settled_corrected P I t n c rc0 rc1 ED_import Hco) in Hd by (unfold settled; inl).
  rewrite Hrf, !finish_written in Hd by inl.
  assert (Zr : bal_surplus (surplus_deficit_hour (i_wind I + i_PV I) (i_elec_demand I)) == 0) by (destruct B3; [assumption|lra]).
  assert (0 <= r RES_HP_to_heat_demand) by (apply (W HP_RES_to_demand); inl).
  assert (0 <= r RES_HP_to_TS) by (apply (W HP_RES_to_TS); inl).
  assert (0 <= r RES_ES) by (apply (W RES_to_ES); inl).
  assert (0 <= r RES_export) by (apply (W RES_to_export); inl).
  assert (0 <= r AUX_RES_to_demand) by (apply (W EAUX_RES_to_demand); inl).
  assert (0 <= r AUX_RES_to_TS) by (apply (W EAUX_RES_to_TS); inl).
  rewrite (settled_corrected P I t n c rc0 rc1 RES_export Hco), (settled_corrected P I t n c rc0 rc1 RES_ES Hco) by (unfold settled; inl).
  rewrite Hrf, !finish_written by inl. split; [lra|]. split; [lra|].
  assert (Ea : r HP_elec_from_RES_to_demand == 0) by (rewrite <- (mir4 _ _ _ _ _ A); lra).
  assert (Eb : r HP_elec_from_RES_to_TS == 0) by (rewrite <- (mir10 _ _ _ _ _ A); lra).
  clear A S W Z Hf G.
  destruct Hco as [-> _|m x _ _ _ _ _ _ E1|m m' x _ _ _ _ _ _ _ E1|m _ _ _ _ E1];
    fld; rewrite ?E1; fld; rewrite Hrf; unfold finish_fields; destruct (hi P I); fld; split; lra.
Qed.

(** ** C20 *)
Lemma tank_limits P I t n soc rc m m' :
  good_hour P I soc -> hour_step P I t n soc = Ok rc -> not_switched_off P I t n soc rc ->
  t_max (p_tank P) Charging n (i_source_temp I) (i_flow_temp I) t = Ok m ->
  t_max (p_tank P) Discharging n (i_source_temp I) (i_flow_temp I) t = Ok m' ->
  rf rc TS_HP_to_TS + rf rc TS_aux_to_TS <= m + rf rc TS_discharging_total + (1#200) /\
  (lacks P I HP_import_to_TS -> rf rc TS_HP_to_TS + rf rc TS_aux_to_TS <= m + rf rc TS_discharging_total) /\
  rf rc TS_discharging_total <= m' + rf rc TS_HP_to_TS + rf rc TS_aux_to_TS.
Proof.
  intros G H Hq Hm Hm'.
  destruct (hour_open P I t n soc rc G H) as (ps & c & r & u & pr & de & rc0 & rc1 & Hps & Ho & Hf & A & S & W & Z & Hu & Hpr & Hrf & Hun & Hco & ->).
  pose proof (acc_tsd _ _ _ _ _ A) as Ed. pose proof (acc_tsc _ _ _ _ _ A) as Ec. cbn [init_checks ts_discharge ts_charge] in Ed, Ec.
  pose proof (sg_charge' _ _ _ _ _ _ S m Hm) as S1. pose proof (sg_discharge _ _ _ _ _ _ S m' Hm') as S2.
  assert (S3 : lacks P I HP_import_to_TS -> ts_charge c <= ts_discharge c + m).
  { intro Hl2. assert (X : ~ In HP_import_to_TS (rev ps)) by (intro X; apply in_rev in X; apply (Hl2 ps Hps X)).
    apply (sg_charge _ _ _ _ _ _ S m Hm X). }
  pose proof (min_out_spec P I) as Em.
  destruct (not_off P I t n soc c rc0 rc1 Hq Hun Hco) as [->|(m0 & Hm0 & L1 & L2 & L3 & Et)]; clear A S W Z Hf G Hq Hco.
  - fld. rewrite Hrf. unfold finish_fields. destruct (hi P I); fld; (split; [lra|split; [intro X; specialize (S3 X); lra|lra]]).
  - rewrite Hm in Hm0. injection Hm0 as <-.
    assert (E1 : rf rc1 TS_HP_to_TS = rf rc0 TS_HP_to_TS + (min_out P I - rf rc0 HP_heat_total_output)) by (rewrite Et; reflexivity).
    assert (E2 : rf rc1 TS_aux_to_TS = rf rc0 TS_aux_to_TS) by (rewrite Et; reflexivity).
    assert (E3 : rf rc1 TS_discharging_total = rf rc0 TS_discharging_total) by (rewrite Et; reflexivity).
    assert (E4 : rf rc0 TS_HP_to_TS == r TS_HP_from_RES_to_TS + r TS_HP_from_import_to_TS) by (rewrite Hrf; unfold finish_fields; destruct (hi P I); fld; reflexivity).
    assert (E5 : rf rc0 TS_aux_to_TS = r TS_aux_to_TS) by (rewrite Hrf, finish_written by inl; reflexivity).
    assert (E6 : rf rc0 TS_discharging_total = r TS_discharging_total) by (rewrite Hrf, finish_written by inl; reflexivity).
    fld. rewrite E1, E2, E3, E5, E6. split; [lra|split; [intro X; specialize (S3 X); lra|lra]].
Qed.

(** ** C21 *)
Lemma battery_delivery P I t n soc rc :
  good_hour P I soc -> hour_step P I t n soc = Ok rc ->
  b_discharge_eff (p_battery P) == 1 ->
  rf rc ES_discharging_total - rf rc ES_charging_total <= b_discharge_max (p_battery P) ->
  rf rc ES_discharging_total <= (soc - rf rc ES_final_soc) + rf rc ES_charging_total.
Proof.
  intros G H He Hd.
  destruct (hour_open P I t n soc rc G H) as (ps & c & r & u & pr & de & rc0 & rc1 & Hps & Ho & Hf & A & S & W & Z & Hu & Hpr & Hrf & Hun & Hco & ->).
  rewrite (settled_corrected P I t n c rc0 rc1 ES_discharging_total Hco), (settled_corrected P I t n c rc0 rc1 ES_charging_total Hco) in Hd by (unfold settled; inl).
  rewrite (settled_corrected P I t n c rc0 rc1 ES_discharging_total Hco), (settled_corrected P I t n c rc0 rc1 ES_charging_total Hco), (settled_corrected P I t n c rc0 rc1 ES_final_soc Hco) by (unfold settled; inl).
  destruct G as ((Hb & _) & _ & Hs & _).
  pose proof (acc_soc _ _ _ _ _ A) as E. cbn [init_checks c_soc] in E. pose proof (sg_soc _ _ _ _ _ _ S) as S0.
  assert (X : exists x, rf rc0 ES_discharging_total - rf rc0 ES_charging_total == - x /\ rf rc0 ES_final_soc = new_soc (p_battery P) x soc /\ - x <= soc).
  { exists (rf rc0 ES_charging_total - rf rc0 ES_discharging_total). split; [lra|].
    rewrite Hrf. unfold finish_fields. destruct (hi P I); fld; (split; [reflexivity|lra]). }
  destruct X as (x & X1 & X2 & X3). rewrite X2. clear A S W Z Hf.
  destruct (Qlt_le_dec x 0) as [L|L].
  - rewrite (new_soc_spec _ x soc Hb Hs). unfold spec_next. destruct (Qlt_le_dec x 0); [|lra].
    destruct Hb as (_ & _ & _ & _ & _ & Hsd). destruct Hs as [Hs0 Hs1].
    assert (0 <= soc * b_self_discharge (p_battery P)) by nra.
    assert (Em : - x * b_discharge_eff (p_battery P) == - x) by (rewrite He; lra).
    rewrite Em, (Q.min_l (- x)) by lra.
    destruct (Q.max_spec 0 (soc - - x - soc * b_self_discharge (p_battery P))) as [[_ Y]|[_ Y]]; rewrite Y; lra.
  - destruct (charge_limits _ x soc Hb Hs L) as (Y & _). lra.
Qed.
