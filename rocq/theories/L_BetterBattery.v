(** Lemmas: an hour with a battery and with one that holds its charge. *)
From Verif Require Import Base BaseL M_Battery S_Battery L_Battery M_HeatPump M_Tools L_Tools M_FixedOrder S_FixedOrder S_Sizing S_BetterBattery L_FixedOrder L_FixedOrderSign L_FixedOrderHour L_Tank.
From Verif Require Import L_Sizing.

(** ** The charge level *)
Lemma charged_more s s' cap cap' w w' sg : 0 <= sg <= 1 -> 0 <= s -> s <= s' -> cap <= cap' -> w <= w' ->
  s * (1 - sg) + Qmin w (cap - s) <= s' + Qmin w' (cap' - s').
Proof.
  intros G S0 L C W. assert (X : s * (1 - sg) <= s) by nra.
  destruct (Q.min_spec w (cap - s)) as [[A ->]|[A ->]]; destruct (Q.min_spec w' (cap' - s')) as [[B ->]|[B ->]]; lra.
Qed.
Lemma discharged_more s s' u e e' dm dm' sg : 0 <= sg <= 1 -> 0 <= e' -> e' <= e -> e <= 1 -> 0 <= dm' -> dm' <= dm -> 0 <= s -> s <= s' -> 0 <= u ->
  Qmax 0 (s - Qmin (Qmin u s * e) dm - s * sg) <= Qmax 0 (s' - Qmin (Qmin u s' * e') dm').
Proof.
  intros G E0 E E1 D0 D S0 L U. set (d := Qmin u s). set (d' := Qmin u s').
  assert (Dd : 0 <= d /\ 0 <= d' - d /\ d' - d <= s' - s) by (unfold d, d'; destruct (Q.min_spec u s) as [[A ->]|[A ->]]; destruct (Q.min_spec u s') as [[B ->]|[B ->]]; repeat split; lra).
  clearbody d d'. destruct Dd as (Z & Z1 & Z2). assert (X : 0 <= s * sg) by nra. assert (Y : (d' - d) * e' <= d' - d) by nra. assert (V : d * e' <= d * e) by nra.
  assert (Y0 : 0 <= d * e') by nra.
  assert (W : Qmin (d' * e') dm' <= Qmin (d * e) dm + (s' - s)).
  { destruct (Q.min_spec (d' * e') dm') as [[A ->]|[A ->]]; destruct (Q.min_spec (d * e) dm) as [[B ->]|[B ->]]; nra. }
  destruct (Q.max_spec 0 (s - Qmin (d * e) dm - s * sg)) as [[A ->]|[A ->]]; destruct (Q.max_spec 0 (s' - Qmin (d' * e') dm')) as [[B ->]|[B ->]]; lra.
Qed.

Section TWO.
Variables (b b' : battery) (hpc mr mo : Q) (ax : aux) (tank_ : tank_ops) (ep sp : Q) (oa ob : list Z) (mh : Q).
Let P := {| p_battery := b; p_hp_capacity := hpc; p_min_runtime := mr; p_min_output := mo; p_aux := ax;
  p_tank := tank_; p_export_price := ep; p_setpoint := sp; p_order_above := oa; p_order_below := ob; p_max_heat := mh |}.
Let P' := {| p_battery := b'; p_hp_capacity := hpc; p_min_runtime := mr; p_min_output := mo; p_aux := ax;
  p_tank := tank_; p_export_price := ep; p_setpoint := sp; p_order_above := oa; p_order_below := ob; p_max_heat := mh |}.
Hypothesis Hcap : b_capacity b <= b_capacity b'.
Hypothesis Hch : b_charge_max b <= b_charge_max b'.
Hypothesis Hdis : b_discharge_max b' <= b_discharge_max b.
Hypothesis Heff : b_discharge_eff b' <= b_discharge_eff b.
Hypothesis Hkeep : b_self_discharge b' == 0.
Hypothesis Hok' : battery_ok b'.
Hypothesis HP : plant_ok P.
Variable I : hour_in.
Hypothesis HI : hour_ok P I.
Variables (t : Z) (T : nodes) (soc soc' : Q).
Hypothesis Hsoc : level_ok b soc.
Hypothesis Hsoc' : level_ok b' soc'.
Hypothesis Hlev : soc <= soc'.

Lemma HP' : plant_ok P'.
Proof. split; [exact Hok'|exact (proj2 HP)]. Qed.
Lemma HI' : hour_ok P' I.
Proof. exact HI. Qed.

(** The two runs after the same processes: [e], the battery has been discharged; [x], it has been charged *)
Record pair (e x : bool) (c : checks) (r : fields) (c' : checks) (r' : fields) : Prop := {
  pr_heat : heat_unmet c = heat_unmet c';
  pr_hp : hp_usage c = hp_usage c';
  pr_tsd : ts_discharge c = ts_discharge c';
  pr_tsc : ts_charge c = ts_charge c';
  pr_aux : aux_left c = aux_left c';
  pr_res : x = false -> RES_left c = RES_left c';
  pr_elec : if e then elec_unmet c' <= elec_unmet c else elec_unmet c = elec_unmet c';
  pr_soc : x = false -> c_soc c = (if e then soc + - r ES_discharging_to_demand else soc) /\ c_soc c' = (if e then soc' + - r' ES_discharging_to_demand else soc');
  pr_out : if e then exists u, r ES_discharging_to_demand = pmin u soc /\ r' ES_discharging_to_demand = pmin u soc'
           else r ES_discharging_to_demand = 0 /\ r' ES_discharging_to_demand = 0;
  pr_in : if x then exists R, r ES_charging_from_RES = max_charging b R (if e then soc + - r ES_discharging_to_demand else soc) /\
                              r' ES_charging_from_RES = max_charging b' R (if e then soc' + - r' ES_discharging_to_demand else soc')
          else r ES_charging_from_RES = 0 /\ r' ES_charging_from_RES = 0;
  pr_imp : r' GRID_import_for_elec_demand <= r GRID_import_for_elec_demand;
  pr_rel : rel r r' }.
Lemma out_mono u : pmin u soc <= pmin u soc' /\ pmin u soc' - pmin u soc <= soc' - soc.
Proof. destruct (pmin_cases u soc) as [[-> A]|[-> A]]; destruct (pmin_cases u soc') as [[-> B]|[-> B]]; lra. Qed.
Definition p_is (q p : process) : bool := match q, p with ES_to_demand, ES_to_demand | RES_to_ES, RES_to_ES => true | _, _ => false end.
Lemma pair_step e x c r c' r' p : pair e x c r c' r' -> p <> ES_to_HP_to_demand -> p <> Import_to_ES ->
  (p = ES_to_demand -> e = false /\ x = false) -> (p = RES_to_ES -> x = false) ->
  (In p [HP_RES_to_demand; EAUX_RES_to_demand; HP_RES_to_TS; EAUX_RES_to_TS] -> x = false) ->
  match run_process P I t T (c, r) p, run_process P' I t T (c', r') p with
  | Ok (c1, r1), Ok (c1', r1') => pair (e || p_is ES_to_demand p) (x || p_is RES_to_ES p) c1 r1 c1' r1'
  | Err a, Err a' => a = a'
  | _, _ => False
  end.
Proof.
  intros R N1 N2 N3 N4 N5. destruct R.
  destruct (p_is ES_to_demand p) eqn:Pe.
  { destruct p; try discriminate Pe. destruct (N3 eq_refl) as (-> & ->). cbn [run_process amount bind].
    destruct (pr_soc0 eq_refl) as (S1 & S2). rewrite <- pr_elec0, S1, S2. cbn [orb p_is].
    destruct (out_mono (elec_unmet c)) as (O1 & O2).
    constructor; cbn [update write fst snd in_heat_unmet in_hp_usage in_ts_discharge in_ts_charge in_aux in_RES_left in_elec_unmet heat_unmet hp_usage ts_discharge ts_charge aux_left RES_left elec_unmet c_soc]; try assumption.
    - rewrite <- pr_elec0. lra.
    - intros _. rewrite S1, S2. split; reflexivity.
    - exists (elec_unmet c). split; reflexivity.
    - apply rel_loose; [|reflexivity]. apply rel_loose; [assumption|reflexivity]. }
  destruct (p_is RES_to_ES p) eqn:Px.
  { destruct p; try discriminate Px. specialize (N4 eq_refl). subst x. cbn [run_process amount bind p_battery P P'].
    destruct (pr_soc0 eq_refl) as (S1 & S2). rewrite <- (pr_res0 eq_refl), S1, S2. rewrite orb_false_r. cbn [orb p_is].
    set (s := if e then soc + - r ES_discharging_to_demand else soc). set (s' := if e then soc' + - r' ES_discharging_to_demand else soc').
    constructor; cbn [update write fst snd in_heat_unmet in_hp_usage in_ts_discharge in_ts_charge in_aux in_RES_left in_elec_unmet heat_unmet hp_usage ts_discharge ts_charge aux_left RES_left elec_unmet c_soc]; try assumption.
    - discriminate.
    - discriminate.
    - exists (RES_left c). split; reflexivity.
    - apply rel_loose; [|reflexivity]. apply rel_loose; [assumption|reflexivity]. }
  rewrite !orb_false_r.
  assert (X : in_RES_left p = true -> p <> RES_to_export -> RES_left c = RES_left c').
  { intros A B. destruct p; try discriminate A; try (exfalso; exact (B eq_refl)); try discriminate Px; exact (pr_res0 (N5 ltac:(cbn; tauto))). }
  assert (E : p = Import_to_demand \/ p <> Import_to_demand) by (destruct (process_eq_dec p Import_to_demand); tauto).
  destruct E as [->|E].
  { cbn [run_process amount bind].
    constructor; cbn [update write fst snd in_heat_unmet in_hp_usage in_ts_discharge in_ts_charge in_aux in_RES_left in_elec_unmet heat_unmet hp_usage ts_discharge ts_charge aux_left RES_left elec_unmet c_soc]; try assumption.
    - destruct e; [lra|rewrite pr_elec0; reflexivity].
    - change (elec_unmet c' <= elec_unmet c). destruct e; [lra|rewrite pr_elec0; lra].
    - apply rel_loose; [|reflexivity]. apply rel_loose; [assumption|reflexivity]. }
  assert (F : p = RES_to_export \/ p <> RES_to_export) by (destruct (process_eq_dec p RES_to_export); tauto).
  destruct F as [->|F].
  { cbn [run_process amount bind].
    constructor; cbn [update write fst snd in_heat_unmet in_hp_usage in_ts_discharge in_ts_charge in_aux in_RES_left in_elec_unmet heat_unmet hp_usage ts_discharge ts_charge aux_left RES_left elec_unmet c_soc]; try assumption.
    - intro X0. rewrite (pr_res0 X0). reflexivity.
    - apply rel_loose; [|reflexivity]. apply rel_loose; [assumption|reflexivity]. }
  assert (A : amount P' I t T p c' = amount P I t T p c).
  { destruct p; try (exfalso; exact (N1 eq_refl)); try (exfalso; exact (N2 eq_refl)); try (exfalso; exact (E eq_refl)); try (exfalso; exact (F eq_refl)); try discriminate Pe; try discriminate Px;
      try (specialize (X eq_refl ltac:(discriminate)));
      cbn [amount P P' p_battery p_hp_capacity p_tank]; unfold is_electric; cbn [p_aux]; rewrite ?pr_heat0, ?pr_hp0, ?pr_tsd0, ?pr_tsc0, ?pr_aux0, ?X; reflexivity. }
  unfold run_process. rewrite A. destruct (amount P I t T p c) as [he|er]; cbn [bind]; [|reflexivity].
  destruct p; try (exfalso; exact (N1 eq_refl)); try (exfalso; exact (N2 eq_refl)); try (exfalso; exact (E eq_refl)); try (exfalso; exact (F eq_refl)); try discriminate Pe; try discriminate Px;
  constructor; cbn [update in_heat_unmet in_hp_usage in_ts_discharge in_ts_charge in_aux in_RES_left in_elec_unmet heat_unmet hp_usage ts_discharge ts_charge aux_left RES_left elec_unmet c_soc];
    rewrite ?pr_heat0, ?pr_hp0, ?pr_tsd0, ?pr_tsc0, ?pr_aux0; try reflexivity; try assumption; try (cbn [write]; relupd);
  (intro X0; rewrite (pr_res0 X0); reflexivity).
Qed.

Definition has (q : process) (l : list process) : bool := existsb (p_is q) l.
Lemma has_false q l : (q = ES_to_demand \/ q = RES_to_ES) -> ~ In q l -> has q l = false.
Proof.
  intros Q N. unfold has. induction l as [|p l IH]; [reflexivity|]. cbn [existsb]. rewrite IH by (intro; apply N; right; assumption). rewrite orb_false_r.
  destruct Q; subst q; destruct p; try reflexivity; exfalso; apply N; left; reflexivity.
Qed.
Lemma has_snoc q l p : has q (l ++ [p]) = has q l || p_is q p.
Proof. unfold has. rewrite existsb_app. cbn [existsb]. rewrite orb_false_r. reflexivity. Qed.
Lemma pair_run ps : NoDup ps -> battery_last ps -> forall l2 l1 c r c' r', ps = l1 ++ l2 -> pair (has ES_to_demand l1) (has RES_to_ES l1) c r c' r' ->
  match foldM (run_process P I t T) l2 (c, r), foldM (run_process P' I t T) l2 (c', r') with
  | Ok (c1, r1), Ok (c1', r1') => pair (has ES_to_demand ps) (has RES_to_ES ps) c1 r1 c1' r1'
  | Err a, Err a' => a = a'
  | _, _ => False
  end.
Proof.
  intros ND (B1 & B2 & B3). induction l2 as [|p l2 IH]; intros l1 c r c' r' E R; cbn [foldM].
  - rewrite app_nil_r in E. subst. exact R.
  - assert (Ip : In p ps) by (rewrite E; apply in_or_app; right; left; reflexivity).
    assert (Np : ~ In p l1) by (intro K; rewrite E in ND; apply NoDup_remove_2 in ND; apply ND, in_or_app; left; exact K).
    assert (BX : In p [ES_to_demand; HP_RES_to_demand; EAUX_RES_to_demand; HP_RES_to_TS; EAUX_RES_to_TS] -> has RES_to_ES l1 = false)
      by (intro K; apply has_false; [tauto|exact (B3 p K l1 l2 E)]).
    pose proof (pair_step _ _ c r c' r' p R) as K.
    specialize (K ltac:(intros ->; exact (B1 Ip)) ltac:(intros ->; exact (B2 Ip))).
    specialize (K ltac:(intros ->; split; [apply has_false; tauto|apply BX; cbn; tauto]) ltac:(intros ->; apply has_false; tauto) ltac:(intro F; apply BX; right; exact F)).
    destruct (run_process P I t T (c, r) p) as [[c1 r1]|a], (run_process P' I t T (c', r') p) as [[c1' r1']|a']; try contradiction; cbn [bind]; [|exact K].
    apply (IH (l1 ++ [p])); [rewrite <- app_assoc; exact E|]. rewrite !has_snoc. exact K.
Qed.
Lemma levels e x c r c' r' m m' : pair e x c r c' r' ->
  let d := r ES_discharging_to_demand in let d' := r' ES_discharging_to_demand in let a := r ES_charging_from_RES in let a' := r' ES_charging_from_RES in
  0 <= d -> 0 <= d' -> 0 <= a -> 0 <= a' -> (d == 0 /\ d' == 0) \/ (a == 0 /\ a' == 0) -> m == a - d -> m' == a' - d' ->
  new_soc b m soc <= new_soc b' m' soc'.
Proof.
  cbv zeta. intros R D D' A A' Z M M'. destruct R.
  pose proof (proj1 HP) as Bo. cbn [P p_battery] in Bo. assert (Bo' := Hok'). assert (Ls' := Hsoc').
  assert (B := Bo). destruct B as (_ & C2 & C3 & C4 & C5 & C6). assert (B := Bo'). destruct B as (_ & C2' & C3' & C4' & C5' & C6').
  assert (Zc : (r ES_charging_from_RES == 0 /\ r' ES_charging_from_RES == 0) \/ (x = true /\ r ES_discharging_to_demand == 0 /\ r' ES_discharging_to_demand == 0)).
  { destruct Z as [(Z1 & Z2)|Z]; [|left; exact Z]. destruct x; [right; auto|left]. destruct pr_in0 as (-> & ->). split; reflexivity. }
  destruct Zc as [(Z1 & Z2)|(-> & Z1 & Z2)].
  - assert (E1 : new_soc b m soc == Qmax 0 (soc - Qmin (r ES_discharging_to_demand * b_discharge_eff b) (b_discharge_max b) - soc * b_self_discharge b)).
    { rewrite <- (level_discharged b _ soc Bo Hsoc D). rewrite !new_soc_spec by assumption. apply spec_next_compat. lra. }
    assert (E2 : new_soc b' m' soc' == Qmax 0 (soc' - Qmin (r' ES_discharging_to_demand * b_discharge_eff b') (b_discharge_max b') - soc' * b_self_discharge b')).
    { rewrite <- (level_discharged b' _ soc' Bo' Ls' D'). rewrite !new_soc_spec by assumption. apply spec_next_compat. lra. }
    assert (E3 : soc' - Qmin (r' ES_discharging_to_demand * b_discharge_eff b') (b_discharge_max b') - soc' * b_self_discharge b' == soc' - Qmin (r' ES_discharging_to_demand * b_discharge_eff b') (b_discharge_max b')) by (rewrite Hkeep; ring).
    rewrite E1, E2, E3.
    assert (O : exists u, 0 <= u /\ r ES_discharging_to_demand == Qmin u soc /\ r' ES_discharging_to_demand == Qmin u soc').
    { destruct e.
      - destruct pr_out0 as (u & U1 & U2). exists u. rewrite <- !pmin_Qmin, <- U1, <- U2. split; [|split; reflexivity]. rewrite U1 in D. pose proof (pmin_le_l u soc). lra.
      - destruct pr_out0 as (U1 & U2). destruct Hsoc as (S1 & S2). exists 0. rewrite U1, U2. split; [lra|]. split; symmetry; apply Q.min_l; lra. }
    destruct O as (u & U0 & U1 & U2). rewrite U1, U2. destruct Hsoc as (S1 & S2). apply discharged_more; try assumption; try tauto.
  - destruct pr_in0 as (R & R1 & R2). destruct Hsoc as (S1 & S2), Ls' as (S1' & S2').
    set (w := Qmin (Qmax R 0) (b_charge_max b)). set (w' := Qmin (Qmax R 0) (b_charge_max b')).
    assert (F1 : r ES_charging_from_RES == Qmin w (b_capacity b - soc)).
    { rewrite R1, max_charging_min; [|exact C2|destruct e; lra]. fold w. apply min_compat; [reflexivity|destruct e; lra]. }
    assert (F2 : r' ES_charging_from_RES == Qmin w' (b_capacity b' - soc')).
    { rewrite R2, max_charging_min; [|exact C2'|destruct e; lra]. fold w'. apply min_compat; [reflexivity|destruct e; lra]. }
    assert (W : w <= w') by (unfold w, w'; apply Q.min_le_compat_l; exact Hch).
    assert (Ba : forall z, Qmin w z <= b_charge_max b) by (intro z; pose proof (Q.le_min_l w z); assert (w <= b_charge_max b) by apply Q.le_min_r; lra).
    assert (Ba' : forall z, Qmin w' z <= b_charge_max b') by (intro z; pose proof (Q.le_min_l w' z); assert (w' <= b_charge_max b') by apply Q.le_min_r; lra).
    assert (E1 : new_soc b m soc == soc * (1 - b_self_discharge b) + Qmin w (b_capacity b - soc)).
    { rewrite <- F1. rewrite <- (level_charged b _ soc Bo (conj S1 S2) A); [|rewrite F1; apply Ba|rewrite F1; apply Q.le_min_r].
      rewrite !new_soc_spec by (assumption || (split; assumption)). apply spec_next_compat. lra. }
    assert (E2 : new_soc b' m' soc' == soc' * (1 - b_self_discharge b') + Qmin w' (b_capacity b' - soc')).
    { rewrite <- F2. rewrite <- (level_charged b' _ soc' Bo' (conj S1' S2') A'); [|rewrite F2; apply Ba'|rewrite F2; apply Q.le_min_r].
      rewrite !new_soc_spec by (assumption || (split; assumption)). apply spec_next_compat. lra. }
    assert (E3 : soc' * (1 - b_self_discharge b') + Qmin w' (b_capacity b' - soc') == soc' + Qmin w' (b_capacity b' - soc')) by (rewrite Hkeep; ring).
    rewrite E1, E2, E3. apply charged_more; assumption.
Qed.

(** ** From the runs to the records *)
Definition relf (x y : res fields) : Prop := match x, y with Ok r, Ok r' => rel r r' | Err e, Err e' => e = e' | _, _ => False end.
(** What the electricity side of the two runs says, kept apart from [rel] *)
Record ineqs (r r' : fields) : Prop := {
  iq_imp : r' GRID_import_for_elec_demand <= r GRID_import_for_elec_demand;
  iq_ed : r' ED_import <= r ED_import;
  iq_es : r ED_ES <= r' ED_ES;
  iq_lev : new_soc b (r ES_charging_from_RES + r ES_charging_from_import - (r ES_discharging_to_demand + r ES_discharging_to_HP)) soc <=
    new_soc b' (r' ES_charging_from_RES + r' ES_charging_from_import - (r' ES_discharging_to_demand + r' ES_discharging_to_HP)) soc' }.
Lemma start_pair r0 : (forall k, In k (flat_map writes all_processes) -> r0 k = 0) -> pair false false (init_checks P I soc) r0 (init_checks P' I soc') r0.
Proof.
  intro Z. constructor; try reflexivity; try (intros _; split; reflexivity); try (split; apply Z; cbn; tauto); try lra.
Qed.
Lemma runs_ineqs ps r0 c r c' r' : order_ok ps -> battery_last ps -> (forall k, In k (flat_map writes all_processes) -> r0 k = 0) ->
  foldM (run_process P I t T) ps (init_checks P I soc, r0) = Ok (c, r) -> foldM (run_process P' I t T) ps (init_checks P' I soc', r0) = Ok (c', r') ->
  pair (has ES_to_demand ps) (has RES_to_ES ps) c r c' r' -> ineqs r r'.
Proof.
  intros O BL Z F F' R.
  destruct (run_full P I t T HP HI soc Hsoc ps r0 c r O Z F) as (A & Sg & W & _).
  destruct (run_full P' I t T HP' HI' soc' Hsoc' ps r0 c' r' O Z F') as (A' & Sg' & W' & _).
  assert (Zi : r ES_charging_from_import = 0 /\ r' ES_charging_from_import = 0 /\ r ES_discharging_to_HP = 0 /\ r' ES_discharging_to_HP = 0).
  { destruct BL as (B1 & B2 & _). repeat split;
    [apply (acc_zero _ _ _ _ _ A Import_to_ES)|apply (acc_zero _ _ _ _ _ A' Import_to_ES)|apply (acc_zero _ _ _ _ _ A ES_to_HP_to_demand)|apply (acc_zero _ _ _ _ _ A' ES_to_HP_to_demand)];
    try (rewrite <- in_rev; assumption); cbn; tauto. }
  destruct Zi as (Z1 & Z2 & Z3 & Z4).
  assert (Nn : forall k, In k (flat_map writes all_processes) -> 0 <= r k /\ 0 <= r' k).
  { intros k K. apply in_flat_map in K as (p & _ & K). split; [exact (W p k K)|exact (W' p k K)]. }
  assert (Ex : (r ES_discharging_to_demand == 0 /\ r' ES_discharging_to_demand == 0) \/ (r ES_charging_from_RES == 0 /\ r' ES_charging_from_RES == 0)).
  { destruct (surplus_deficit_hour_spec (i_wind I + i_PV I) (i_elec_demand I)) as (_ & _ & [E|E] & _).
    - right. split; apply Qle_antisym.
      + pose proof (acc_res _ _ _ _ _ A) as K. cbn [init_checks RES_left] in K. pose proof (sg_res _ _ _ _ _ _ Sg). rewrite (mir15 _ _ _ _ _ A) in K.
        destruct (Nn RES_HP_to_heat_demand ltac:(cbn; tauto)), (Nn RES_HP_to_TS ltac:(cbn; tauto)), (Nn RES_export ltac:(cbn; tauto)), (Nn AUX_RES_to_demand ltac:(cbn; tauto)), (Nn AUX_RES_to_TS ltac:(cbn; tauto)). lra.
      + apply Nn. cbn; tauto.
      + pose proof (acc_res _ _ _ _ _ A') as K. cbn [init_checks RES_left] in K. pose proof (sg_res _ _ _ _ _ _ Sg'). rewrite (mir15 _ _ _ _ _ A') in K.
        destruct (Nn RES_HP_to_heat_demand ltac:(cbn; tauto)), (Nn RES_HP_to_TS ltac:(cbn; tauto)), (Nn RES_export ltac:(cbn; tauto)), (Nn AUX_RES_to_demand ltac:(cbn; tauto)), (Nn AUX_RES_to_TS ltac:(cbn; tauto)). lra.
      + apply Nn. cbn; tauto.
    - left. split; apply Qle_antisym.
      + pose proof (acc_elec _ _ _ _ _ A) as K. cbn [init_checks elec_unmet] in K. pose proof (sg_elec _ _ _ _ _ _ Sg). rewrite (mir1 _ _ _ _ _ A) in K. destruct (Nn ED_import ltac:(cbn; tauto)). lra.
      + apply Nn. cbn; tauto.
      + pose proof (acc_elec _ _ _ _ _ A') as K. cbn [init_checks elec_unmet] in K. pose proof (sg_elec _ _ _ _ _ _ Sg'). rewrite (mir1 _ _ _ _ _ A') in K. destruct (Nn ED_import ltac:(cbn; tauto)). lra.
      + apply Nn. cbn; tauto. }
  pose proof (levels _ _ _ _ _ _ (r ES_charging_from_RES + r ES_charging_from_import - (r ES_discharging_to_demand + r ES_discharging_to_HP)) (r' ES_charging_from_RES + r' ES_charging_from_import - (r' ES_discharging_to_demand + r' ES_discharging_to_HP)) R) as L. cbv zeta in L.
  specialize (L ltac:(apply Nn; cbn; tauto) ltac:(apply Nn; cbn; tauto) ltac:(apply Nn; cbn; tauto) ltac:(apply Nn; cbn; tauto) Ex).
  rewrite Z1, Z2, Z3, Z4 in *.
  specialize (L ltac:(ring) ltac:(ring)).
  assert (Ou : r ES_discharging_to_demand <= r' ES_discharging_to_demand).
  { pose proof (pr_out _ _ _ _ _ _ R) as K. destruct (has ES_to_demand ps); [destruct K as (u & -> & ->); apply out_mono|destruct K as (-> & ->); lra]. }
  constructor.
  - exact (pr_imp _ _ _ _ _ _ R).
  - rewrite (mir2 _ _ _ _ _ A), (mir2 _ _ _ _ _ A'). exact (pr_imp _ _ _ _ _ _ R).
  - rewrite (mir1 _ _ _ _ _ A), (mir1 _ _ _ _ _ A'). exact Ou.
  - rewrite Z1, Z2, Z3, Z4. exact L.
Qed.

Definition kept (k : field) : Prop := In k [GRID_import_for_elec_demand; ED_import; ED_ES; ES_charging_from_RES; ES_charging_from_import; ES_discharging_to_demand; ES_discharging_to_HP].
Lemma ineqs_kept r r' s s' : ineqs r r' -> (forall k, kept k -> s k = r k /\ s' k = r' k) -> ineqs s s'.
Proof.
  intros Q K. destruct Q.
  assert (K2 : forall k, kept k -> s k = r k) by (intros k H; apply K, H). assert (K3 : forall k, kept k -> s' k = r' k) by (intros k H; apply K, H).
  constructor; rewrite ?K2, ?K3 by (unfold kept; cbn; tauto); assumption.
Qed.
Lemma rel_accounts r r' : rel r r' -> relf (aux_accounts P r) (aux_accounts P' r').
Proof.
  intro H. unfold aux_accounts. change (p_aux P') with ax. change (p_aux P) with ax. rewrite <- (H AUX_demand eq_refl).
  destruct (fuel_usage (a_efficiency ax) (r AUX_demand)) as [u|e]; cbn [bind relf]; [|reflexivity].
  assert (N : rel (upd r AUX_usage u) (upd r' AUX_usage u)) by relupd. cbv zeta. revert N. generalize (upd r AUX_usage u) (upd r' AUX_usage u). intros r1 r1' N.
  unfold is_electric. change (p_aux P') with ax. change (p_aux P) with ax. destruct (fuel_eqb (a_fuel ax) ELECTRIC); cbn [bind].
  - cbn [relf]. relupd.
  - destruct (a_cost ax) as [x|], (a_energy_density ax) as [y|]; cbn [bind relf]; try reflexivity; relupd.
Qed.
Lemma accounts_kept Z r r1 k : aux_accounts Z r = Ok r1 -> kept k -> r1 k = r k.
Proof.
  unfold aux_accounts. destruct (fuel_usage _ _) as [u|e]; cbn [bind]; [|discriminate].
  destruct (if is_electric Z then _ else _) as [[x y]|e]; cbn [bind]; [|discriminate]. intro H. apply Ok_inj in H. subst r1. unfold kept. cbn [In].
  intro K. repeat (destruct K as [<-|K]; [reflexivity|]). destruct K.
Qed.
(** The last steps of an hour *)
Definition near (rc rc' : record) : Prop := relieved rc rc' /\ True.
Lemma finish r r' n : rel r r' -> ineqs r r' -> near {| rf := grid_totals P (es_totals P soc r); r_nodes := n |} {| rf := grid_totals P' (es_totals P' soc' r'); r_nodes := n |}.
Proof.
  intros R Q. destruct Q. unfold near, relieved. cbn [rf r_nodes].
  assert (E : rel (es_totals P soc r) (es_totals P' soc' r')).
  { cbv beta delta [es_totals]. repeat rellet. apply rel_loose; [assumption|reflexivity]. }
  assert (G : rel (grid_totals P (es_totals P soc r)) (grid_totals P' (es_totals P' soc' r'))).
  { revert E. generalize (es_totals P soc r) (es_totals P' soc' r'). intros q q' E. cbv beta delta [grid_totals]. rellet. cbv zeta. relupd. }
  assert (I1 : grid_totals P' (es_totals P' soc' r') GRID_total_import <= grid_totals P (es_totals P soc r) GRID_total_import).
  { cbn [grid_totals es_totals upd field_eqb field_id Pos.eqb]. change (is_electric P') with (is_electric P).
    rewrite <- (R GRID_import_for_heat_pump_to_heat_demand eq_refl), <- (R GRID_import_for_heat_pump_to_TS eq_refl), <- (R GRID_import_for_ES eq_refl), <- (R AUX_demand eq_refl), <- (R AUX_RES_to_demand eq_refl), <- (R AUX_RES_to_TS eq_refl).
    destruct (is_electric P); lra. }
  repeat split; try assumption; try exact G; try (cbn [grid_totals es_totals upd field_eqb field_id Pos.eqb]; assumption); cbn [grid_totals es_totals upd field_eqb field_id Pos.eqb p_battery P P']; lra.
Qed.

Definition relu (x y : res (checks * record)) : Prop :=
  match x, y with Ok (c, r), Ok (c', r') => ts_charge c = ts_charge c' /\ ts_discharge c = ts_discharge c' /\ near r r' | Err e, Err e' => e = e' | _, _ => False end.
Definition relr (x y : res record) : Prop := match x, y with Ok r, Ok r' => near r r' | Err e, Err e' => e = e' | _, _ => False end.
Lemma rel_step x r r' : rel r r' -> tank_step P I t T x r = tank_step P' I t T x r'.
Proof. intro H. unfold tank_step. rewrite (H HP_heat_total_output eq_refl), (H AUX_demand eq_refl). reflexivity. Qed.
Lemma start_zero_above k : In k (flat_map writes all_processes) -> init_above I k = 0.
Proof. cbn. intro K. repeat (destruct K as [<-|K]; [reflexivity|]). destruct K. Qed.
Lemma start_zero_below Z k : In k (flat_map writes all_processes) -> init_below Z I k = 0.
Proof. cbn. intro K. repeat (destruct K as [<-|K]; [reflexivity|]). destruct K. Qed.
Lemma rel_above ps : order_ok ps -> battery_last ps -> mapM above_key oa = Ok ps -> relu (above_uncorrected P I t T soc) (above_uncorrected P' I t T soc').
Proof.
  intros O BL M. unfold above_uncorrected. cbn [P P' p_order_above]. fold P P'. rewrite !(processes_run_order _ _ _ _ _ _ ps _ M).
  pose proof (pair_run ps (proj1 O) BL ps [] _ _ _ _ eq_refl (start_pair _ start_zero_above)) as K.
  destruct (foldM (run_process P I t T) ps _) as [[c r]|e] eqn:F, (foldM (run_process P' I t T) ps _) as [[c' r']|e'] eqn:F'; try contradiction; cbn [bind]; [|exact K].
  pose proof (runs_ineqs ps _ c r c' r' O BL start_zero_above F F' K) as Q. destruct K. rewrite <- pr_tsc0, <- pr_tsd0.
  apply rel_hp, rel_ts, rel_aux in pr_rel0.
  assert (Q1 : ineqs (aux_demand (ts_totals (hp_totals r))) (aux_demand (ts_totals (hp_totals r')))).
  { apply (ineqs_kept r r'); [exact Q|]. unfold kept. cbn [In]. intros k H. repeat (destruct H as [<-|H]; [split; reflexivity|]). destruct H. }
  cbv zeta. revert pr_rel0 Q1. generalize (aux_demand (ts_totals (hp_totals r))) (aux_demand (ts_totals (hp_totals r'))). intros q q' N Q1.
  assert (N2 : rel (upd q HD_aux (q HD_aux + q AUX_RES_to_demand)) (upd q' HD_aux (q' HD_aux + q' AUX_RES_to_demand))) by relupd.
  assert (Q2 : ineqs (upd q HD_aux (q HD_aux + q AUX_RES_to_demand)) (upd q' HD_aux (q' HD_aux + q' AUX_RES_to_demand))).
  { apply (ineqs_kept q q'); [exact Q1|]. unfold kept. cbn [In]. intros k H. repeat (destruct H as [<-|H]; [split; reflexivity|]). destruct H. }
  revert N2 Q2. generalize (upd q HD_aux (q HD_aux + q AUX_RES_to_demand)) (upd q' HD_aux (q' HD_aux + q' AUX_RES_to_demand)). intros y y' N2 Q2.
  apply rel_accounts in N2. destruct (aux_accounts P y) as [y1|e] eqn:A, (aux_accounts P' y') as [y1'|e'] eqn:A'; cbn [relf] in N2; try contradiction; cbn [bind]; [|exact N2].
  assert (Q3 : ineqs y1 y1') by (apply (ineqs_kept y y'); [exact Q2|]; intros k H; split; [exact (accounts_kept _ _ _ _ A H)|exact (accounts_kept _ _ _ _ A' H)]).
  rewrite (rel_step _ _ _ N2). destruct (tank_step P' I t T _ y1') as [n|e]; cbn [bind relu]; [|reflexivity]. rewrite pr_tsc0, pr_tsd0. split; [reflexivity|]. split; [reflexivity|]. apply finish; assumption.
Qed.
Lemma rel_below ps : order_ok ps -> battery_last ps -> mapM below_key ob = Ok ps -> relu (below_uncorrected P I t T soc) (below_uncorrected P' I t T soc').
Proof.
  intros O BL M. unfold below_uncorrected. cbn [P P' p_order_below]. fold P P'. rewrite !(processes_run_order _ _ _ _ _ _ ps _ M).
  change (init_below P' I) with (init_below P I).
  pose proof (pair_run ps (proj1 O) BL ps [] _ _ _ _ eq_refl (start_pair _ (start_zero_below P))) as K.
  destruct (foldM (run_process P I t T) ps _) as [[c r]|e] eqn:F, (foldM (run_process P' I t T) ps _) as [[c' r']|e'] eqn:F'; try contradiction; cbn [bind]; [|exact K].
  pose proof (runs_ineqs ps _ c r c' r' O BL (start_zero_below P) F F' K) as Q. destruct K. rewrite <- pr_tsc0, <- pr_tsd0.
  apply rel_hp, rel_aux in pr_rel0.
  assert (Q1 : ineqs (aux_demand (hp_totals r)) (aux_demand (hp_totals r'))).
  { apply (ineqs_kept r r'); [exact Q|]. unfold kept. cbn [In]. intros k H. repeat (destruct H as [<-|H]; [split; reflexivity|]). destruct H. }
  cbv zeta. revert pr_rel0 Q1. generalize (aux_demand (hp_totals r)) (aux_demand (hp_totals r')). intros y y' N2 Q2.
  apply rel_accounts in N2. destruct (aux_accounts P y) as [y1|e] eqn:A, (aux_accounts P' y') as [y1'|e'] eqn:A'; cbn [relf] in N2; try contradiction; cbn [bind]; [|exact N2].
  assert (Q3 : ineqs (ts_totals y1) (ts_totals y1')).
  { apply (ineqs_kept y y'); [exact Q2|]. intros k H. rewrite <- (accounts_kept _ _ _ _ A H), <- (accounts_kept _ _ _ _ A' H). clear - H. unfold kept in H. cbn [In] in H. repeat (destruct H as [<-|H]; [split; reflexivity|]). destruct H. }
  apply rel_ts in N2. rewrite (rel_step _ _ _ N2). destruct (tank_step P' I t T _ _) as [n|e]; cbn [bind relu]; [|reflexivity]. rewrite pr_tsc0, pr_tsd0. split; [reflexivity|]. split; [reflexivity|].
  pose proof (finish _ _ n N2 Q3) as K. revert K. generalize (grid_totals P (es_totals P soc (ts_totals y1))) (grid_totals P' (es_totals P' soc' (ts_totals y1'))). intros z z' ((K1 & K2 & K3 & K4 & K5 & K6) & K10). cbn [rf r_nodes] in *.
  split; [|exact K10]. split; [apply rel_loose; [exact K1|reflexivity]|]. repeat split; assumption.
Qed.
(** What the correction leaves alone *)
Definition shown (k : field) : Prop := In k [GRID_total_import; ED_import; ED_ES; ES_final_soc].
Lemma near_shown rc rc' s s' : near rc rc' -> rel (rf s) (rf s') -> r_nodes s = r_nodes s' -> (forall k, shown k -> rf s k = rf rc k /\ rf s' k = rf rc' k) -> near s s'.
Proof.
  intros ((K1 & K2 & K3 & K4 & K5 & K6) & K10) R N K.
  assert (A : forall k, shown k -> rf s k = rf rc k) by (intros k H; apply K, H). assert (B : forall k, shown k -> rf s' k = rf rc' k) by (intros k H; apply K, H).
  split; [split; [exact R|split; [exact N|]]; repeat split|]; rewrite ?A, ?B by (unfold shown; cbn; tauto); assumption.
Qed.
Lemma rel_correct th off off' x c c' rc rc' : (forall a d, near a d -> relr (off a) (off' d)) -> ts_charge c = ts_charge c' -> ts_discharge c = ts_discharge c' -> near rc rc' ->
  relr (correct P I t T th off x c rc) (correct P' I t T th off' x c' rc').
Proof.
  intros O Tc Td R. unfold correct. change (min_out P' I) with (min_out P I). rewrite <- (proj1 (proj1 R) HP_heat_total_output eq_refl), <- Tc, <- Td. cbv zeta.
  destruct (_ && _); [|exact R].
  cbn [P P' p_tank]. destruct (t_max tank_ Charging T _ _ t) as [m|e]; cbn [bind]; [|reflexivity].
  destruct (qlt _ _); [apply O, R|]. unfold top_up. cbn [P P' p_tank]. cbv zeta.
  set (inc := _ - _). assert (N : rel (hp_topped_up inc (rf rc)) (hp_topped_up inc (rf rc'))) by (exact (rel_topped _ _ _ (proj1 (proj1 R)))).
  assert (K : forall k, shown k -> hp_topped_up inc (rf rc) k = rf rc k /\ hp_topped_up inc (rf rc') k = rf rc' k).
  { unfold shown. cbn [In]. intros k H. repeat (destruct H as [<-|H]; [split; reflexivity|]). destruct H. }
  rewrite (N HP_heat_total_output eq_refl).
  destruct (qeq _ 0); [exact (near_shown rc rc' {| rf := _; r_nodes := _ |} {| rf := _; r_nodes := _ |} R N (proj1 (proj2 (proj1 R))) K)|].
  destruct (t_new _ _ _ _ _ _ _ _) as [n|e]; cbn [bind relr]; [|reflexivity]. exact (near_shown rc rc' {| rf := _; r_nodes := _ |} {| rf := _; r_nodes := _ |} R N eq_refl K).
Qed.
Lemma zero_shown ks r k : (forall j, In j ks -> ~ shown j) -> shown k -> zero_fields ks r k = r k.
Proof.
  unfold zero_fields. revert r. induction ks as [|j ks IH]; intros r H Sk; [reflexivity|]. cbn [fold_left]. rewrite IH; [|intros i Hi; apply H; right; exact Hi|exact Sk].
  apply upd_other. intros ->. exact (H k (or_introl eq_refl) Sk).
Qed.
Lemma zeroed_not_shown j : In j hp_zeroed -> ~ shown j.
Proof. unfold hp_zeroed, shown. cbn [In]. intros H. repeat (destruct H as [<-|H]; [intuition discriminate|]). destruct H. Qed.
Lemma rel_off_above a d : near a d -> relr (switch_off_above P I t T a) (switch_off_above P' I t T d).
Proof.
  intros R. unfold switch_off_above. cbn [P P' p_tank]. cbv zeta. rewrite (proj1 (proj2 (proj1 R))).
  assert (N : rel (zero_fields hp_zeroed (rf a)) (zero_fields hp_zeroed (rf d))) by (exact (rel_zero _ _ _ (proj1 (proj1 R)))).
  assert (K : forall k, shown k -> zero_fields hp_zeroed (rf a) k = rf a k /\ zero_fields hp_zeroed (rf d) k = rf d k) by (intros k H; split; apply zero_shown; try assumption; apply zeroed_not_shown).
  revert N K. generalize (zero_fields hp_zeroed (rf a)) (zero_fields hp_zeroed (rf d)). intros z z' N K.
  destruct (if qeq (t_capacity tank_) 0 then _ else _) as [n|e]; cbn [bind relr]; [|reflexivity].
  apply (near_shown a d); [exact R|cbn [rf]; relupd|reflexivity|]. cbn [rf]. intros k H. specialize (K k H). unfold shown in H. cbn [In] in H. repeat (destruct H as [<-|H]; [exact K|]). destruct H.
Qed.
Lemma rel_off_below a d : near a d -> relr (switch_off_below P I t T a) (switch_off_below P' I t T d).
Proof.
  intros R. unfold switch_off_below. cbn [P P' p_tank]. cbv zeta. rewrite (proj1 (proj2 (proj1 R))).
  assert (N : rel (zero_fields hp_zeroed (rf a)) (zero_fields hp_zeroed (rf d))) by (exact (rel_zero _ _ _ (proj1 (proj1 R)))).
  assert (K : forall k, shown k -> zero_fields hp_zeroed (rf a) k = rf a k /\ zero_fields hp_zeroed (rf d) k = rf d k) by (intros k H; split; apply zero_shown; try assumption; apply zeroed_not_shown).
  revert N K. generalize (zero_fields hp_zeroed (rf a)) (zero_fields hp_zeroed (rf d)). intros z z' N K.
  destruct (t_max _ _ _ _ _ _) as [m|e]; cbn [bind relr]; [|reflexivity].
  set (hd := i_heat_demand I).
  assert (N2 : rel (upd (upd z TS_charging_total 0) TS_discharging_total (pmin m hd)) (upd (upd z' TS_charging_total 0) TS_discharging_total (pmin m hd))) by relupd.
  assert (K2 : forall k, shown k -> upd (upd z TS_charging_total 0) TS_discharging_total (pmin m hd) k = rf a k /\ upd (upd z' TS_charging_total 0) TS_discharging_total (pmin m hd) k = rf d k).
  { intros k H. specialize (K k H). unfold shown in H. cbn [In] in H. repeat (destruct H as [<-|H]; [exact K|]). destruct H. }
  revert N2 K2. generalize (upd (upd z TS_charging_total 0) TS_discharging_total (pmin m hd)) (upd (upd z' TS_charging_total 0) TS_discharging_total (pmin m hd)). intros y y' N2 K2.
  rewrite (N2 TS_discharging_total eq_refl).
  destruct (if qeq (t_capacity tank_) 0 then _ else _) as [[n h]|e]; cbn [bind relr]; [|reflexivity].
  apply (near_shown a d); [exact R|cbn [rf]; relupd|reflexivity|]. cbn [rf]. intros k H. specialize (K2 k H). unfold shown in H. cbn [In] in H. repeat (destruct H as [<-|H]; [exact K2|]). destruct H.
Qed.
Lemma rel_hour : (forall ps, processes_of P I ps -> order_ok ps /\ battery_last ps) -> (exists ps, processes_of P I ps) -> relr (hour_step P I t T soc) (hour_step P' I t T soc').
Proof.
  intros BL (ps & H). unfold hour_step. cbn [P P' p_setpoint]. fold P P'. destruct (BL ps H) as (O & B).
  assert (K : relr (if qlt sp (i_import_price I) then above_setpoint P I t T soc else below_setpoint P I t T soc) (if qlt sp (i_import_price I) then above_setpoint P' I t T soc' else below_setpoint P' I t T soc')).
  { destruct (qlt_spec sp (i_import_price I)) as [L|L]; (destruct H as [(H1 & H2)|(H1 & H2)]; [|]; unfold high_tariff in H1; cbn [P p_setpoint] in H1; try (exfalso; lra)).
    - unfold above_setpoint. pose proof (rel_above ps O B H2) as U. destruct (above_uncorrected P I t T soc) as [[c rc]|e], (above_uncorrected P' I t T soc') as [[c' rc']|e']; cbn [relu] in U; try contradiction; cbn [bind]; [|exact U].
      destruct U as (U1 & U2 & U). rewrite <- U1, <- U2. apply rel_correct; [exact rel_off_above|exact U1|exact U2|exact U].
    - unfold below_setpoint. pose proof (rel_below ps O B H2) as U. destruct (below_uncorrected P I t T soc) as [[c rc]|e], (below_uncorrected P' I t T soc') as [[c' rc']|e']; cbn [relu] in U; try contradiction; cbn [bind]; [|exact U].
      destruct U as (U1 & U2 & U). rewrite <- U1, <- U2. apply rel_correct; [exact rel_off_below|exact U1|exact U2|exact U]. }
  destruct (if qlt sp (i_import_price I) then above_setpoint P I t T soc else below_setpoint P I t T soc) as [rc|e], (if qlt sp (i_import_price I) then above_setpoint P' I t T soc' else below_setpoint P' I t T soc') as [rc'|e']; cbn [relr] in K; try contradiction; cbn [bind relr]; [|exact K].
  apply (near_shown rc rc'); [exact K| |exact (proj1 (proj2 (proj1 K)))|].
  - unfold complete. cbv zeta. cbn [rf]. pose proof (proj1 (proj1 K) : rel (rf rc) (rf rc')) as N. relupd.
  - unfold shown. cbn [In]. intros k Hk. repeat (destruct Hk as [<-|Hk]; [split; reflexivity|]). destruct Hk.
Qed.
End TWO.
