(** Lemmas: an hour that starts with a fuller and with an emptier battery. *)
From Verif Require Import Base BaseL M_Battery S_Battery L_Battery M_HeatPump M_Tools L_Tools M_FixedOrder S_FixedOrder S_Sizing L_FixedOrder L_FixedOrderSign L_FixedOrderHour L_Tank L_Sizing.

Ltac fld := cbn [rf upd field_eqb field_id Pos.eqb].
(** ** The charge level *)
Lemma charged_apart s s' cap w sg : 0 <= sg <= 1 -> s <= s' -> let a := Qmin w (cap - s) in let a' := Qmin w (cap - s') in
  let f := s * (1 - sg) + a in let f' := s' * (1 - sg) + a' in
  0 <= a - a' /\ a - a' <= s' - s /\ f' - f <= s' - s /\ f - f' <= s' - s /\ (1 - sg) * (a - a') + (f' - f) <= s' - s /\ (1 - sg) * (a - a') + (f - f') <= s' - s.
Proof.
  intros G L. cbv zeta. set (x := s' - s) in *. assert (X0 : 0 <= x) by (unfold x; lra). assert (E : s' * (1 - sg) == s * (1 - sg) + x * (1 - sg)) by (unfold x; ring).
  assert (Y : 0 <= Qmin w (cap - s) - Qmin w (cap - s') /\ Qmin w (cap - s) - Qmin w (cap - s') <= x).
  { unfold x. destruct (Q.min_spec w (cap - s)) as [[A ->]|[A ->]]; destruct (Q.min_spec w (cap - s')) as [[B ->]|[B ->]]; split; lra. }
  revert Y E. generalize (Qmin w (cap - s)) (Qmin w (cap - s')) (s' * (1 - sg)) (s * (1 - sg)). clearbody x. clear L. intros a a' p q (Y1 & Y2) E. set (y := a - a') in *.
  assert (X1 : 0 <= x * (1 - sg) <= x) by nra. assert (Y3 : 0 <= (1 - sg) * y <= y) by nra. assert (Z : (1 - sg) * y <= x * (1 - sg)) by nra.
  assert (Dd : p + a' - (q + a) == x * (1 - sg) - y) by (unfold y; lra). clearbody y.
  repeat match goal with |- _ /\ _ => split end; lra.
Qed.
Lemma discharged_apart s s' u e dm sg : 0 <= sg <= 1 -> 0 <= e <= 1 -> 0 <= dm -> 0 <= s -> s <= s' -> 0 <= u -> let d := Qmin u s in let d' := Qmin u s' in
  let f := Qmax 0 (s - Qmin (d * e) dm - s * sg) in let f' := Qmax 0 (s' - Qmin (d' * e) dm - s' * sg) in
  0 <= d' - d /\ d' - d <= s' - s /\ 0 <= f' - f /\ f' - f <= s' - s /\ (s' * e <= dm -> e * (d' - d) + (f' - f) <= s' - s).
Proof.
  intros G E D S0 L U. cbv zeta. pose proof (discharge_part s s' u e dm sg G E D S0 L U) as K. cbv beta zeta in K. destruct K as (K1 & K2).
  set (d := Qmin u s) in *. set (d' := Qmin u s') in *.
  assert (Dd : 0 <= d /\ 0 <= d' - d /\ d' - d <= s' - s /\ d <= s /\ d' <= s').
  { unfold d, d'. destruct (Q.min_spec u s) as [[A ->]|[A ->]]; destruct (Q.min_spec u s') as [[B ->]|[B ->]]; repeat split; lra. }
  clearbody d d'. destruct Dd as (D0 & D1 & D2 & D3 & D4). split; [exact D1|]. split; [exact D2|]. split; [exact K1|]. split; [exact K2|].
  intro F. clear K2. assert (F1 : d' * e <= dm) by nra. assert (F2 : d * e <= dm) by nra.
  destruct (Q.min_spec (d * e) dm) as [[A1 A2]|[A1 A2]]; destruct (Q.min_spec (d' * e) dm) as [[B1 B2]|[B1 B2]]; rewrite A2, B2 in *;
  (assert (T1 : 0 <= (s' - s) * sg) by nra; assert (T2 : e * (d' - d) <= d' - d) by nra; assert (T3 : e * (d' - d) == d' * e - d * e) by ring;
  match goal with |- _ + (Qmax 0 ?p - Qmax 0 ?q) <= _ => destruct (Q.max_spec 0 p) as [[M1 M1']|[M1 M1']]; destruct (Q.max_spec 0 q) as [[M2 M2']|[M2 M2']]; rewrite M1', M2' in *; lra end).
Qed.

Section TWO.
Variable P : plant.
Let b := p_battery P.
Hypothesis HP : plant_ok P.
Variable I : hour_in.
Hypothesis HI : hour_ok P I.
Variables (t : Z) (T : nodes) (soc soc' : Q).
Hypothesis Hsoc : level_ok b soc.
Hypothesis Hsoc' : level_ok b soc'.
Hypothesis Hlev : soc <= soc'.

(** The two runs after the same processes: [e], the battery has been discharged; [x], it has been charged *)
Record pair (e x : bool) (c : checks) (r : fields) (c' : checks) (r' : fields) : Prop := {
  pr_heat : heat_unmet c = heat_unmet c';
  pr_hp : hp_usage c = hp_usage c';
  pr_tsd : ts_discharge c = ts_discharge c';
  pr_tsc : ts_charge c = ts_charge c';
  pr_aux : aux_left c = aux_left c';
  pr_res : if x then 0 <= RES_left c' - RES_left c <= r ES_charging_from_RES - r' ES_charging_from_RES else RES_left c = RES_left c';
  pr_elec : if e then 0 <= elec_unmet c - elec_unmet c' <= r' ES_discharging_to_demand - r ES_discharging_to_demand else elec_unmet c = elec_unmet c';
  pr_soc : x = false -> c_soc c = (if e then soc + - r ES_discharging_to_demand else soc) /\ c_soc c' = (if e then soc' + - r' ES_discharging_to_demand else soc');
  pr_out : if e then exists u, r ES_discharging_to_demand = pmin u soc /\ r' ES_discharging_to_demand = pmin u soc'
           else r ES_discharging_to_demand = 0 /\ r' ES_discharging_to_demand = 0;
  pr_in : if x then exists R, r ES_charging_from_RES = max_charging b R (if e then soc + - r ES_discharging_to_demand else soc) /\
                              r' ES_charging_from_RES = max_charging b R (if e then soc' + - r' ES_discharging_to_demand else soc')
          else r ES_charging_from_RES = 0 /\ r' ES_charging_from_RES = 0;
  pr_imp : 0 <= r GRID_import_for_elec_demand - r' GRID_import_for_elec_demand <= r' ES_discharging_to_demand - r ES_discharging_to_demand;
  pr_exp : 0 <= r' GRID_total_export - r GRID_total_export <= r ES_charging_from_RES - r' ES_charging_from_RES;
  pr_rel : rel r r' }.
Lemma out_mono u : 0 <= pmin u soc' - pmin u soc /\ pmin u soc' - pmin u soc <= soc' - soc.
Proof. destruct (pmin_cases u soc) as [[-> A]|[-> A]]; destruct (pmin_cases u soc') as [[-> B]|[-> B]]; lra. Qed.
Lemma in_mono R s s' : s <= s' -> 0 <= max_charging b R s - max_charging b R s' /\ max_charging b R s - max_charging b R s' <= s' - s.
Proof.
  intro D. unfold max_charging. match goal with |- 0 <= pmin ?q _ - _ /\ _ => generalize q end. intro q.
  destruct (pmin_cases q (b_capacity b - s)) as [[-> A]|[-> A]]; destruct (pmin_cases q (b_capacity b - s')) as [[-> B]|[-> B]]; lra.
Qed.
Lemma left_mono (e : bool) (r r' : fields) : (if e then exists u, r ES_discharging_to_demand = pmin u soc /\ r' ES_discharging_to_demand = pmin u soc'
           else r ES_discharging_to_demand = 0 /\ r' ES_discharging_to_demand = 0) ->
  (if e then soc + - r ES_discharging_to_demand else soc) <= (if e then soc' + - r' ES_discharging_to_demand else soc').
Proof. destruct e; [|intros _; exact Hlev]. intros (u & -> & ->). pose proof (out_mono u). lra. Qed.
Lemma pair_step e x c r c' r' p : pair e x c r c' r' -> p <> ES_to_HP_to_demand -> p <> Import_to_ES ->
  (p = ES_to_demand -> e = false /\ x = false) -> (p = RES_to_ES -> x = false) ->
  (In p [HP_RES_to_demand; EAUX_RES_to_demand; HP_RES_to_TS; EAUX_RES_to_TS] -> x = false) ->
  match run_process P I t T (c, r) p, run_process P I t T (c', r') p with
  | Ok (c1, r1), Ok (c1', r1') => pair (e || p_is ES_to_demand p) (x || p_is RES_to_ES p) c1 r1 c1' r1'
  | Err a, Err a' => a = a'
  | _, _ => False
  end.
Proof.
  intros R N1 N2 N3 N4 N5. destruct R.
  destruct (p_is ES_to_demand p) eqn:Pe.
  { destruct p; try discriminate Pe. destruct (N3 eq_refl) as (-> & ->). cbn [run_process amount bind].
    destruct (pr_soc0 eq_refl) as (S1 & S2). rewrite <- pr_elec0, S1, S2. cbn [orb p_is].
    destruct (out_mono (elec_unmet c)) as (O1 & O2). destruct pr_out0 as (Z1 & Z2). rewrite Z1, Z2 in pr_imp0.
    constructor; cbn [update write fst snd in_heat_unmet in_hp_usage in_ts_discharge in_ts_charge in_aux in_RES_left in_elec_unmet heat_unmet hp_usage ts_discharge ts_charge aux_left RES_left elec_unmet c_soc]; try assumption.
    - fld. rewrite <- pr_elec0. lra.
    - intros _. rewrite S1, S2. split; reflexivity.
    - exists (elec_unmet c). split; reflexivity.
    - fld. lra.
    - apply rel_loose; [|reflexivity]. apply rel_loose; [assumption|reflexivity]. }
  destruct (p_is RES_to_ES p) eqn:Px.
  { destruct p; try discriminate Px. specialize (N4 eq_refl). subst x. cbn [run_process amount bind].
    destruct (pr_soc0 eq_refl) as (S1 & S2). rewrite <- pr_res0, S1, S2. rewrite orb_false_r. cbn [orb p_is]. fold b.
    pose proof (left_mono e r r' pr_out0) as D. set (s := if e then soc + - r ES_discharging_to_demand else soc) in *. set (s' := if e then soc' + - r' ES_discharging_to_demand else soc') in *.
    destruct (in_mono (RES_left c) s s' D) as (M1 & M2). destruct pr_in0 as (Z1 & Z2). rewrite Z1, Z2 in pr_exp0.
    constructor; cbn [update write fst snd in_heat_unmet in_hp_usage in_ts_discharge in_ts_charge in_aux in_RES_left in_elec_unmet heat_unmet hp_usage ts_discharge ts_charge aux_left RES_left elec_unmet c_soc]; try assumption.
    - fld. rewrite <- pr_res0. lra.
    - discriminate.
    - exists (RES_left c). split; reflexivity.
    - fld. lra.
    - apply rel_loose; [|reflexivity]. apply rel_loose; [assumption|reflexivity]. }
  rewrite !orb_false_r.
  assert (X : in_RES_left p = true -> p <> RES_to_export -> RES_left c = RES_left c').
  { intros A B. destruct p; try discriminate A; try (exfalso; exact (B eq_refl)); try discriminate Px; (rewrite (N5 ltac:(cbn; tauto)) in pr_res0; exact pr_res0). }
  assert (E : p = Import_to_demand \/ p <> Import_to_demand) by (destruct (process_eq_dec p Import_to_demand); tauto).
  destruct E as [->|E].
  { cbn [run_process amount bind].
    constructor; cbn [update write fst snd in_heat_unmet in_hp_usage in_ts_discharge in_ts_charge in_aux in_RES_left in_elec_unmet heat_unmet hp_usage ts_discharge ts_charge aux_left RES_left elec_unmet c_soc]; try assumption.
    - fld. destruct e; [lra|rewrite pr_elec0; reflexivity].
    - fld. destruct e; [lra|]. destruct pr_out0 as (-> & ->). rewrite pr_elec0; lra.
    - apply rel_loose; [|reflexivity]. apply rel_loose; [assumption|reflexivity]. }
  assert (F : p = RES_to_export \/ p <> RES_to_export) by (destruct (process_eq_dec p RES_to_export); tauto).
  destruct F as [->|F].
  { cbn [run_process amount bind].
    constructor; cbn [update write fst snd in_heat_unmet in_hp_usage in_ts_discharge in_ts_charge in_aux in_RES_left in_elec_unmet heat_unmet hp_usage ts_discharge ts_charge aux_left RES_left elec_unmet c_soc]; try assumption.
    - fld. destruct x; [lra|rewrite pr_res0; reflexivity].
    - fld. destruct x; [lra|]. destruct pr_in0 as (-> & ->). rewrite pr_res0; lra.
    - apply rel_loose; [|reflexivity]. apply rel_loose; [assumption|reflexivity]. }
  assert (A : amount P I t T p c' = amount P I t T p c).
  { destruct p; try (exfalso; exact (N1 eq_refl)); try (exfalso; exact (N2 eq_refl)); try (exfalso; exact (E eq_refl)); try (exfalso; exact (F eq_refl)); try discriminate Pe; try discriminate Px;
      try (specialize (X eq_refl ltac:(discriminate)));
      cbn [amount]; rewrite ?pr_heat0, ?pr_hp0, ?pr_tsd0, ?pr_tsc0, ?pr_aux0, ?X; reflexivity. }
  unfold run_process. rewrite A. destruct (amount P I t T p c) as [he|er]; cbn [bind]; [|reflexivity].
  destruct p; try (exfalso; exact (N1 eq_refl)); try (exfalso; exact (N2 eq_refl)); try (exfalso; exact (E eq_refl)); try (exfalso; exact (F eq_refl)); try discriminate Pe; try discriminate Px;
  constructor; cbn [update in_heat_unmet in_hp_usage in_ts_discharge in_ts_charge in_aux in_RES_left in_elec_unmet heat_unmet hp_usage ts_discharge ts_charge aux_left RES_left elec_unmet c_soc];
    rewrite ?pr_heat0, ?pr_hp0, ?pr_tsd0, ?pr_tsc0, ?pr_aux0; try reflexivity; try assumption; try (cbn [write]; relupd);
  (cbn [write]; fld; destruct x; [lra|rewrite pr_res0; reflexivity]).
Qed.
Lemma pair_run ps : NoDup ps -> battery_last ps -> forall l2 l1 c r c' r', ps = l1 ++ l2 -> pair (has ES_to_demand l1) (has RES_to_ES l1) c r c' r' ->
  match foldM (run_process P I t T) l2 (c, r), foldM (run_process P I t T) l2 (c', r') with
  | Ok (c1, r1), Ok (c1', r1') => pair (has ES_to_demand ps) (has RES_to_ES ps) c1 r1 c1' r1'
  | Err a, Err a' => a = a'
  | _, _ => False
  end.
Proof.
  intros ND (B1 & B2 & B3). induction l2 as [|p l2 IH]; intros l1 c r c' r' E R; cbn [foldM].
  - rewrite app_nil_r in E. subst. exact R.
  - assert (Ip : In p ps) by (rewrite E; apply in_or_app; right; left; reflexivity).
    assert (Np : ~ In p l1) by (intro K; rewrite E in ND; apply NoDup_remove_2 in ND; apply ND, in_or_app; left; exact K).
    assert (BX : In p [ES_to_demand; HP_RES_to_demand; EAUX_RES_to_demand; HP_RES_to_TS; EAUX_RES_to_TS] -> has RES_to_ES l1 = false)
      by (intro K; apply has_false; [tauto|exact (B3 p K l1 l2 E)]).
    pose proof (pair_step _ _ c r c' r' p R) as K.
    specialize (K ltac:(intros ->; exact (B1 Ip)) ltac:(intros ->; exact (B2 Ip))).
    specialize (K ltac:(intros ->; split; [apply has_false; tauto|apply BX; cbn; tauto]) ltac:(intros ->; apply has_false; tauto) ltac:(intro F; apply BX; right; exact F)).
    destruct (run_process P I t T (c, r) p) as [[c1 r1]|a], (run_process P I t T (c', r') p) as [[c1' r1']|a']; try contradiction; cbn [bind]; [|exact K].
    apply (IH (l1 ++ [p])); [rewrite <- app_assoc; exact E|]. rewrite !has_snoc. exact K.
Qed.
Lemma levels e x c r c' r' m m' : pair e x c r c' r' ->
  let d := r ES_discharging_to_demand in let d' := r' ES_discharging_to_demand in let a := r ES_charging_from_RES in let a' := r' ES_charging_from_RES in let f := new_soc b m soc in let f' := new_soc b m' soc' in
  0 <= d -> 0 <= d' -> 0 <= a -> 0 <= a' -> (d == 0 /\ d' == 0) \/ (a == 0 /\ a' == 0) -> m == a - d -> m' == a' - d' ->
  f' - f <= soc' - soc /\ f - f' <= soc' - soc /\
  (b_capacity b * b_discharge_eff b <= b_discharge_max b -> b_discharge_eff b * (d' - d) + (1 - b_self_discharge b) * (a - a') + (f' - f) <= soc' - soc /\ b_discharge_eff b * (d' - d) + (1 - b_self_discharge b) * (a - a') + (f - f') <= soc' - soc).
Proof.
  cbv zeta. intros R D D' A A' Z M M'. destruct R.
  pose proof (proj1 HP) as Bo. fold b in Bo.
  assert (B := Bo). destruct B as (_ & C2 & C3 & C4 & C5 & C6).
  assert (Zc : (r ES_charging_from_RES == 0 /\ r' ES_charging_from_RES == 0) \/ (x = true /\ r ES_discharging_to_demand == 0 /\ r' ES_discharging_to_demand == 0)).
  { destruct Z as [(Z1 & Z2)|Z]; [|left; exact Z]. destruct x; [right; auto|left]. destruct pr_in0 as (-> & ->). split; reflexivity. }
  destruct Zc as [(Z1 & Z2)|(-> & Z1 & Z2)].
  - assert (E1 : new_soc b m soc == Qmax 0 (soc - Qmin (r ES_discharging_to_demand * b_discharge_eff b) (b_discharge_max b) - soc * b_self_discharge b)).
    { rewrite <- (level_discharged b _ soc Bo Hsoc D). rewrite !new_soc_spec by assumption. apply spec_next_compat. lra. }
    assert (E2 : new_soc b m' soc' == Qmax 0 (soc' - Qmin (r' ES_discharging_to_demand * b_discharge_eff b) (b_discharge_max b) - soc' * b_self_discharge b)).
    { rewrite <- (level_discharged b _ soc' Bo Hsoc' D'). rewrite !new_soc_spec by assumption. apply spec_next_compat. lra. }
    assert (O : exists u, 0 <= u /\ r ES_discharging_to_demand == Qmin u soc /\ r' ES_discharging_to_demand == Qmin u soc').
    { destruct e.
      - destruct pr_out0 as (u & U1 & U2). exists u. rewrite <- !pmin_Qmin, <- U1, <- U2. split; [|split; reflexivity]. rewrite U1 in D. pose proof (pmin_le_l u soc). lra.
      - destruct pr_out0 as (U1 & U2). destruct Hsoc as (S1 & S2). exists 0. rewrite U1, U2. split; [lra|]. split; symmetry; apply Q.min_l; lra. }
    destruct O as (u & U0 & U1 & U2). rewrite U1 in E1. rewrite U2 in E2.
    assert (Za : (1 - b_self_discharge b) * (r ES_charging_from_RES - r' ES_charging_from_RES) == 0) by (rewrite Z1, Z2; ring).
    rewrite Za, E1, E2, U1, U2. clear E1 E2 U1 U2 Za Z1 Z2.
    destruct Hsoc as (S1 & S2), Hsoc' as (S3 & S4). pose proof (discharged_apart soc soc' u (b_discharge_eff b) (b_discharge_max b) (b_self_discharge b) C6 C5 C3 S1 Hlev U0) as K. cbv zeta in K. destruct K as (K1 & K2 & K3 & K4 & K5).
    split; [lra|]. split; [lra|]. intro Fa. assert (Fb : soc' * b_discharge_eff b <= b_discharge_max b) by nra. specialize (K5 Fb).
    split; [lra|]. clear - K1 K2 K3 K5. lra.
  - destruct pr_in0 as (R & R1 & R2). destruct Hsoc as (S1 & S2), Hsoc' as (S1' & S2').
    set (w := Qmin (Qmax R 0) (b_charge_max b)).
    assert (F1 : r ES_charging_from_RES == Qmin w (b_capacity b - soc)).
    { rewrite R1, max_charging_min; [|exact C2|destruct e; lra]. fold w. apply min_compat; [reflexivity|destruct e; lra]. }
    assert (F2 : r' ES_charging_from_RES == Qmin w (b_capacity b - soc')).
    { rewrite R2, max_charging_min; [|exact C2|destruct e; lra]. fold w. apply min_compat; [reflexivity|destruct e; lra]. }
    assert (W : w <= b_charge_max b) by apply Q.le_min_r.
    assert (Ba : forall z, Qmin w z <= b_charge_max b) by (intro z; pose proof (Q.le_min_l w z); lra).
    assert (E1 : new_soc b m soc == soc * (1 - b_self_discharge b) + Qmin w (b_capacity b - soc)).
    { rewrite <- F1. rewrite <- (level_charged b _ soc Bo (conj S1 S2) A); [|rewrite F1; apply Ba|rewrite F1; apply Q.le_min_r].
      rewrite !new_soc_spec by (assumption || (split; assumption)). apply spec_next_compat. lra. }
    assert (E2 : new_soc b m' soc' == soc' * (1 - b_self_discharge b) + Qmin w (b_capacity b - soc')).
    { rewrite <- F2. rewrite <- (level_charged b _ soc' Bo (conj S1' S2') A'); [|rewrite F2; apply Ba|rewrite F2; apply Q.le_min_r].
      rewrite !new_soc_spec by (assumption || (split; assumption)). apply spec_next_compat. lra. }
    assert (Zd : b_discharge_eff b * (r' ES_discharging_to_demand - r ES_discharging_to_demand) == 0) by (rewrite Z1, Z2; ring).
    rewrite Zd, E1, E2, F1, F2. pose proof (charged_apart soc soc' (b_capacity b) w (b_self_discharge b) C6 Hlev) as K. cbv zeta in K. destruct K as (K1 & K2 & K3 & K4 & K5 & K6).
    split; [exact K3|]. split; [exact K4|]. intros _. split; lra.
Qed.

(** ** From the runs to the records *)
Definition relf (x y : res fields) : Prop := match x, y with Ok r, Ok r' => rel r r' | Err e, Err e' => e = e' | _, _ => False end.
(** What the electricity side of the two runs says, kept apart from [rel] *)
Definition level_after (r : fields) (s : Q) : Q := new_soc b (r ES_charging_from_RES + r ES_charging_from_import - (r ES_discharging_to_demand + r ES_discharging_to_HP)) s.
Record ineqs (r r' : fields) : Prop := {
  iq_imp : 0 <= r GRID_import_for_elec_demand - r' GRID_import_for_elec_demand <= r' ED_ES - r ED_ES;
  iq_exp : 0 <= r' GRID_total_export - r GRID_total_export <= r RES_ES - r' RES_ES;
  iq_es : r' ED_ES - r ED_ES <= soc' - soc;
  iq_rs : r RES_ES - r' RES_ES <= soc' - soc;
  iq_up : level_after r' soc' - level_after r soc <= soc' - soc;
  iq_dn : level_after r soc - level_after r' soc' <= soc' - soc;
  iq_all : b_capacity b * b_discharge_eff b <= b_discharge_max b ->
    b_discharge_eff b * (r' ED_ES - r ED_ES) + (1 - b_self_discharge b) * (r RES_ES - r' RES_ES) + (level_after r' soc' - level_after r soc) <= soc' - soc /\
    b_discharge_eff b * (r' ED_ES - r ED_ES) + (1 - b_self_discharge b) * (r RES_ES - r' RES_ES) + (level_after r soc - level_after r' soc') <= soc' - soc }.
Lemma start_pair r0 : (forall k, In k (flat_map writes all_processes) -> r0 k = 0) -> pair false false (init_checks P I soc) r0 (init_checks P I soc') r0.
Proof.
  intro Z. constructor; try reflexivity; try (intros _; split; reflexivity); try (split; apply Z; cbn; tauto); try lra.
Qed.
Lemma runs_ineqs ps r0 c r c' r' : order_ok ps -> battery_last ps -> (forall k, In k (flat_map writes all_processes) -> r0 k = 0) ->
  foldM (run_process P I t T) ps (init_checks P I soc, r0) = Ok (c, r) -> foldM (run_process P I t T) ps (init_checks P I soc', r0) = Ok (c', r') ->
  pair (has ES_to_demand ps) (has RES_to_ES ps) c r c' r' -> ineqs r r'.
Proof.
  intros O BL Z F F' R.
  destruct (run_full P I t T HP HI soc Hsoc ps r0 c r O Z F) as (A & Sg & W & _).
  destruct (run_full P I t T HP HI soc' Hsoc' ps r0 c' r' O Z F') as (A' & Sg' & W' & _).
  assert (Zi : r ES_charging_from_import = 0 /\ r' ES_charging_from_import = 0 /\ r ES_discharging_to_HP = 0 /\ r' ES_discharging_to_HP = 0).
  { destruct BL as (B1 & B2 & _). repeat split;
    [apply (acc_zero _ _ _ _ _ A Import_to_ES)|apply (acc_zero _ _ _ _ _ A' Import_to_ES)|apply (acc_zero _ _ _ _ _ A ES_to_HP_to_demand)|apply (acc_zero _ _ _ _ _ A' ES_to_HP_to_demand)];
    try (rewrite <- in_rev; assumption); cbn; tauto. }
  destruct Zi as (Z1 & Z2 & Z3 & Z4).
  assert (Nn : forall k, In k (flat_map writes all_processes) -> 0 <= r k /\ 0 <= r' k).
  { intros k K. apply in_flat_map in K as (p & _ & K). split; [exact (W p k K)|exact (W' p k K)]. }
  assert (Ex : (r ES_discharging_to_demand == 0 /\ r' ES_discharging_to_demand == 0) \/ (r ES_charging_from_RES == 0 /\ r' ES_charging_from_RES == 0)).
  { destruct (surplus_deficit_hour_spec (i_wind I + i_PV I) (i_elec_demand I)) as (_ & _ & [E|E] & _).
    - right. split; apply Qle_antisym.
      + pose proof (acc_res _ _ _ _ _ A) as K. cbn [init_checks RES_left] in K. pose proof (sg_res _ _ _ _ _ _ Sg). rewrite (mir15 _ _ _ _ _ A) in K.
        destruct (Nn RES_HP_to_heat_demand ltac:(cbn; tauto)), (Nn RES_HP_to_TS ltac:(cbn; tauto)), (Nn RES_export ltac:(cbn; tauto)), (Nn AUX_RES_to_demand ltac:(cbn; tauto)), (Nn AUX_RES_to_TS ltac:(cbn; tauto)). lra.
      + apply Nn. cbn; tauto.
      + pose proof (acc_res _ _ _ _ _ A') as K. cbn [init_checks RES_left] in K. pose proof (sg_res _ _ _ _ _ _ Sg'). rewrite (mir15 _ _ _ _ _ A') in K.
        destruct (Nn RES_HP_to_heat_demand ltac:(cbn; tauto)), (Nn RES_HP_to_TS ltac:(cbn; tauto)), (Nn RES_export ltac:(cbn; tauto)), (Nn AUX_RES_to_demand ltac:(cbn; tauto)), (Nn AUX_RES_to_TS ltac:(cbn; tauto)). lra.
      + apply Nn. cbn; tauto.
    - left. split; apply Qle_antisym.
      + pose proof (acc_elec _ _ _ _ _ A) as K. cbn [init_checks elec_unmet] in K. pose proof (sg_elec _ _ _ _ _ _ Sg). rewrite (mir1 _ _ _ _ _ A) in K. destruct (Nn ED_import ltac:(cbn; tauto)). lra.
      + apply Nn. cbn; tauto.
      + pose proof (acc_elec _ _ _ _ _ A') as K. cbn [init_checks elec_unmet] in K. pose proof (sg_elec _ _ _ _ _ _ Sg'). rewrite (mir1 _ _ _ _ _ A') in K. destruct (Nn ED_import ltac:(cbn; tauto)). lra.
      + apply Nn. cbn; tauto. }
  pose proof (levels _ _ _ _ _ _ (r ES_charging_from_RES + r ES_charging_from_import - (r ES_discharging_to_demand + r ES_discharging_to_HP)) (r' ES_charging_from_RES + r' ES_charging_from_import - (r' ES_discharging_to_demand + r' ES_discharging_to_HP)) R) as L. cbv zeta in L.
  specialize (L ltac:(apply Nn; cbn; tauto) ltac:(apply Nn; cbn; tauto) ltac:(apply Nn; cbn; tauto) ltac:(apply Nn; cbn; tauto) Ex).
  fold (level_after r soc) (level_after r' soc') in L.
  specialize (L ltac:(rewrite Z1, Z3; ring) ltac:(rewrite Z2, Z4; ring)). destruct L as (L1 & L2 & L3).
  assert (Ou : r' ES_discharging_to_demand - r ES_discharging_to_demand <= soc' - soc).
  { pose proof (pr_out _ _ _ _ _ _ R) as K. destruct (has ES_to_demand ps); [destruct K as (u & -> & ->); apply out_mono|destruct K as (-> & ->); lra]. }
  assert (In0 : r ES_charging_from_RES - r' ES_charging_from_RES <= soc' - soc).
  { pose proof (pr_in _ _ _ _ _ _ R) as K. destruct (has RES_to_ES ps); [|destruct K as (-> & ->); lra].
    destruct K as (R0 & -> & ->). pose proof (left_mono (has ES_to_demand ps) r r' (pr_out _ _ _ _ _ _ R)) as D. pose proof (in_mono R0 _ _ D) as (_ & M).
    apply Qle_trans with (1 := M). pose proof (pr_out _ _ _ _ _ _ R) as K. destruct (has ES_to_demand ps); [|lra]. destruct K as (u & -> & ->). pose proof (out_mono u). lra. }
  constructor; rewrite ?(mir1 _ _ _ _ _ A), ?(mir1 _ _ _ _ _ A'), ?(mir15 _ _ _ _ _ A), ?(mir15 _ _ _ _ _ A'); try assumption; [exact (pr_imp _ _ _ _ _ _ R)|exact (pr_exp _ _ _ _ _ _ R)].
Qed.

Definition kept (k : field) : Prop := In k [GRID_import_for_elec_demand; ED_import; GRID_total_export; RES_export; ED_ES; RES_ES; ES_charging_from_RES; ES_charging_from_import; ES_discharging_to_demand; ES_discharging_to_HP].
Lemma ineqs_kept r r' s s' : ineqs r r' -> (forall k, kept k -> s k = r k /\ s' k = r' k) -> ineqs s s'.
Proof.
  intros Q K. destruct Q. unfold level_after in *.
  assert (K2 : forall k, kept k -> s k = r k) by (intros k H; apply K, H). assert (K3 : forall k, kept k -> s' k = r' k) by (intros k H; apply K, H).
  constructor; unfold level_after; rewrite ?K2, ?K3 by (unfold kept; cbn; tauto); assumption.
Qed.
Lemma rel_accounts r r' : rel r r' -> relf (aux_accounts P r) (aux_accounts P r').
Proof.
  intro H. unfold aux_accounts. set (ax := p_aux P). rewrite <- (H AUX_demand eq_refl).
  destruct (fuel_usage (a_efficiency ax) (r AUX_demand)) as [u|e]; cbn [bind relf]; [|reflexivity].
  assert (N : rel (upd r AUX_usage u) (upd r' AUX_usage u)) by relupd. cbv zeta. revert N. generalize (upd r AUX_usage u) (upd r' AUX_usage u). intros r1 r1' N.
  unfold is_electric. fold ax. destruct (fuel_eqb (a_fuel ax) ELECTRIC); cbn [bind].
  - cbn [relf]. relupd.
  - destruct (a_cost ax) as [x|], (a_energy_density ax) as [y|]; cbn [bind relf]; try reflexivity; relupd.
Qed.
Lemma accounts_kept Z r r1 k : aux_accounts Z r = Ok r1 -> kept k -> r1 k = r k.
Proof.
  unfold aux_accounts. destruct (fuel_usage _ _) as [u|e]; cbn [bind]; [|discriminate].
  destruct (if is_electric Z then _ else _) as [[x y]|e]; cbn [bind]; [|discriminate]. intro H. apply Ok_inj in H. subst r1. unfold kept. cbn [In].
  intro K. repeat (destruct K as [<-|K]; [reflexivity|]). destruct K.
Qed.
(** The last steps of an hour *)
Record near (rc rc' : record) : Prop := {
  nr_rel : rel (rf rc) (rf rc');
  nr_nodes : r_nodes rc = r_nodes rc';
  nr_imp : 0 <= rf rc GRID_total_import - rf rc' GRID_total_import <= rf rc' ED_ES - rf rc ED_ES;
  nr_exp : 0 <= rf rc' GRID_total_export - rf rc GRID_total_export <= rf rc RES_ES - rf rc' RES_ES;
  nr_es : rf rc' ED_ES - rf rc ED_ES <= soc' - soc;
  nr_rs : rf rc RES_ES - rf rc' RES_ES <= soc' - soc;
  nr_up : rf rc' ES_final_soc - rf rc ES_final_soc <= soc' - soc;
  nr_dn : rf rc ES_final_soc - rf rc' ES_final_soc <= soc' - soc;
  nr_all : b_capacity b * b_discharge_eff b <= b_discharge_max b ->
    b_discharge_eff b * (rf rc' ED_ES - rf rc ED_ES) + (1 - b_self_discharge b) * (rf rc RES_ES - rf rc' RES_ES) + (rf rc' ES_final_soc - rf rc ES_final_soc) <= soc' - soc /\
    b_discharge_eff b * (rf rc' ED_ES - rf rc ED_ES) + (1 - b_self_discharge b) * (rf rc RES_ES - rf rc' RES_ES) + (rf rc ES_final_soc - rf rc' ES_final_soc) <= soc' - soc }.
Lemma finish r r' n : rel r r' -> ineqs r r' -> near {| rf := grid_totals P (es_totals P soc r); r_nodes := n |} {| rf := grid_totals P (es_totals P soc' r'); r_nodes := n |}.
Proof.
  intros R Q. destruct Q.
  assert (E : rel (es_totals P soc r) (es_totals P soc' r')).
  { cbv beta delta [es_totals]. repeat rellet. apply rel_loose; [assumption|reflexivity]. }
  assert (G : rel (grid_totals P (es_totals P soc r)) (grid_totals P (es_totals P soc' r'))).
  { revert E. generalize (es_totals P soc r) (es_totals P soc' r'). intros q q' E. cbv beta delta [grid_totals]. rellet. cbv zeta. relupd. }
  assert (I1 : grid_totals P (es_totals P soc r) GRID_total_import - grid_totals P (es_totals P soc' r') GRID_total_import == r GRID_import_for_elec_demand - r' GRID_import_for_elec_demand).
  { cbn [grid_totals es_totals upd field_eqb field_id Pos.eqb].
    rewrite <- (R GRID_import_for_heat_pump_to_heat_demand eq_refl), <- (R GRID_import_for_heat_pump_to_TS eq_refl), <- (R GRID_import_for_ES eq_refl), <- (R AUX_demand eq_refl), <- (R AUX_RES_to_demand eq_refl), <- (R AUX_RES_to_TS eq_refl).
    destruct (is_electric P); lra. }
  constructor; cbn [rf r_nodes].
  - exact G.
  - reflexivity.
  - rewrite I1. cbn [grid_totals es_totals upd field_eqb field_id Pos.eqb]. exact iq_imp0.
  - cbn [grid_totals es_totals upd field_eqb field_id Pos.eqb]. exact iq_exp0.
  - cbn [grid_totals es_totals upd field_eqb field_id Pos.eqb]. exact iq_es0.
  - cbn [grid_totals es_totals upd field_eqb field_id Pos.eqb]. exact iq_rs0.
  - cbn [grid_totals es_totals upd field_eqb field_id Pos.eqb]. exact iq_up0.
  - cbn [grid_totals es_totals upd field_eqb field_id Pos.eqb]. exact iq_dn0.
  - cbn [grid_totals es_totals upd field_eqb field_id Pos.eqb]. exact iq_all0.
Qed.

Definition relu (x y : res (checks * record)) : Prop :=
  match x, y with Ok (c, r), Ok (c', r') => ts_charge c = ts_charge c' /\ ts_discharge c = ts_discharge c' /\ near r r' | Err e, Err e' => e = e' | _, _ => False end.
Definition relr (x y : res record) : Prop := match x, y with Ok r, Ok r' => near r r' | Err e, Err e' => e = e' | _, _ => False end.
Lemma rel_step x r r' : rel r r' -> tank_step P I t T x r = tank_step P I t T x r'.
Proof. intro H. unfold tank_step. rewrite (H HP_heat_total_output eq_refl), (H AUX_demand eq_refl). reflexivity. Qed.
Lemma start_zero_above k : In k (flat_map writes all_processes) -> init_above I k = 0.
Proof. cbn. intro K. repeat (destruct K as [<-|K]; [reflexivity|]). destruct K. Qed.
Lemma start_zero_below Z k : In k (flat_map writes all_processes) -> init_below Z I k = 0.
Proof. cbn. intro K. repeat (destruct K as [<-|K]; [reflexivity|]). destruct K. Qed.
Lemma rel_above ps : order_ok ps -> battery_last ps -> mapM above_key (p_order_above P) = Ok ps -> relu (above_uncorrected P I t T soc) (above_uncorrected P I t T soc').
Proof.
  intros O BL M. unfold above_uncorrected. rewrite !(processes_run_order _ _ _ _ _ _ ps _ M).
  pose proof (pair_run ps (proj1 O) BL ps [] _ _ _ _ eq_refl (start_pair _ start_zero_above)) as K.
  destruct (foldM (run_process P I t T) ps (init_checks P I soc, _)) as [[c r]|e] eqn:F, (foldM (run_process P I t T) ps (init_checks P I soc', _)) as [[c' r']|e'] eqn:F'; try contradiction; cbn [bind]; [|exact K].
  pose proof (runs_ineqs ps _ c r c' r' O BL start_zero_above F F' K) as Q. destruct K. rewrite <- pr_tsc0, <- pr_tsd0.
  apply rel_hp, rel_ts, rel_aux in pr_rel0.
  assert (Q1 : ineqs (aux_demand (ts_totals (hp_totals r))) (aux_demand (ts_totals (hp_totals r')))).
  { apply (ineqs_kept r r'); [exact Q|]. unfold kept. cbn [In]. intros k H. repeat (destruct H as [<-|H]; [split; reflexivity|]). destruct H. }
  cbv zeta. revert pr_rel0 Q1. generalize (aux_demand (ts_totals (hp_totals r))) (aux_demand (ts_totals (hp_totals r'))). intros q q' N Q1.
  assert (N2 : rel (upd q HD_aux (q HD_aux + q AUX_RES_to_demand)) (upd q' HD_aux (q' HD_aux + q' AUX_RES_to_demand))) by relupd.
  assert (Q2 : ineqs (upd q HD_aux (q HD_aux + q AUX_RES_to_demand)) (upd q' HD_aux (q' HD_aux + q' AUX_RES_to_demand))).
  { apply (ineqs_kept q q'); [exact Q1|]. unfold kept. cbn [In]. intros k H. repeat (destruct H as [<-|H]; [split; reflexivity|]). destruct H. }
  revert N2 Q2. generalize (upd q HD_aux (q HD_aux + q AUX_RES_to_demand)) (upd q' HD_aux (q' HD_aux + q' AUX_RES_to_demand)). intros y y' N2 Q2.
  apply rel_accounts in N2. destruct (aux_accounts P y) as [y1|e] eqn:A, (aux_accounts P y') as [y1'|e'] eqn:A'; cbn [relf] in N2; try contradiction; cbn [bind]; [|exact N2].
  assert (Q3 : ineqs y1 y1') by (apply (ineqs_kept y y'); [exact Q2|]; intros k H; split; [exact (accounts_kept _ _ _ _ A H)|exact (accounts_kept _ _ _ _ A' H)]).
  rewrite (rel_step _ _ _ N2). destruct (tank_step P I t T _ y1') as [n|e]; cbn [bind relu]; [|reflexivity]. rewrite pr_tsc0, pr_tsd0. split; [reflexivity|]. split; [reflexivity|]. apply finish; assumption.
Qed.
Lemma rel_below ps : order_ok ps -> battery_last ps -> mapM below_key (p_order_below P) = Ok ps -> relu (below_uncorrected P I t T soc) (below_uncorrected P I t T soc').
Proof.
  intros O BL M. unfold below_uncorrected. rewrite !(processes_run_order _ _ _ _ _ _ ps _ M).
  pose proof (pair_run ps (proj1 O) BL ps [] _ _ _ _ eq_refl (start_pair _ (start_zero_below P))) as K.
  destruct (foldM (run_process P I t T) ps (init_checks P I soc, _)) as [[c r]|e] eqn:F, (foldM (run_process P I t T) ps (init_checks P I soc', _)) as [[c' r']|e'] eqn:F'; try contradiction; cbn [bind]; [|exact K].
  pose proof (runs_ineqs ps _ c r c' r' O BL (start_zero_below P) F F' K) as Q. destruct K. rewrite <- pr_tsc0, <- pr_tsd0.
  apply rel_hp, rel_aux in pr_rel0.
  assert (Q1 : ineqs (aux_demand (hp_totals r)) (aux_demand (hp_totals r'))).
  { apply (ineqs_kept r r'); [exact Q|]. unfold kept. cbn [In]. intros k H. repeat (destruct H as [<-|H]; [split; reflexivity|]). destruct H. }
  cbv zeta. revert pr_rel0 Q1. generalize (aux_demand (hp_totals r)) (aux_demand (hp_totals r')). intros y y' N2 Q2.
  apply rel_accounts in N2. destruct (aux_accounts P y) as [y1|e] eqn:A, (aux_accounts P y') as [y1'|e'] eqn:A'; cbn [relf] in N2; try contradiction; cbn [bind]; [|exact N2].
  assert (Q3 : ineqs (ts_totals y1) (ts_totals y1')).
  { apply (ineqs_kept y y'); [exact Q2|]. intros k H. rewrite <- (accounts_kept _ _ _ _ A H), <- (accounts_kept _ _ _ _ A' H). clear - H. unfold kept in H. cbn [In] in H. repeat (destruct H as [<-|H]; [split; reflexivity|]). destruct H. }
  apply rel_ts in N2. rewrite (rel_step _ _ _ N2). destruct (tank_step P I t T _ _) as [n|e]; cbn [bind relu]; [|reflexivity]. rewrite pr_tsc0, pr_tsd0. split; [reflexivity|]. split; [reflexivity|].
  pose proof (finish _ _ n N2 Q3) as K. revert K. generalize (grid_totals P (es_totals P soc (ts_totals y1))) (grid_totals P (es_totals P soc' (ts_totals y1'))). intros z z' K. destruct K. cbn [rf r_nodes] in *.
  constructor; cbn [rf r_nodes]; try assumption. apply rel_loose; [assumption|reflexivity].
Qed.
(** What the correction leaves alone *)
Definition shown (k : field) : Prop := In k [GRID_total_import; GRID_total_export; ED_ES; RES_ES; ES_final_soc].
Lemma near_shown rc rc' s s' : near rc rc' -> rel (rf s) (rf s') -> r_nodes s = r_nodes s' -> (forall k, shown k -> rf s k = rf rc k /\ rf s' k = rf rc' k) -> near s s'.
Proof.
  intros K0 R N K. destruct K0.
  assert (A : forall k, shown k -> rf s k = rf rc k) by (intros k H; apply K, H). assert (B : forall k, shown k -> rf s' k = rf rc' k) by (intros k H; apply K, H).
  constructor; try assumption; rewrite ?A, ?B by (unfold shown; cbn; tauto); assumption.
Qed.
Lemma rel_correct th off off' x c c' rc rc' : (forall a d, near a d -> relr (off a) (off' d)) -> ts_charge c = ts_charge c' -> ts_discharge c = ts_discharge c' -> near rc rc' ->
  relr (correct P I t T th off x c rc) (correct P I t T th off' x c' rc').
Proof.
  intros O Tc Td R. unfold correct. rewrite <- (nr_rel _ _ R HP_heat_total_output eq_refl), <- Tc, <- Td. cbv zeta.
  destruct (_ && _); [|exact R].
  destruct (t_max (p_tank P) Charging T _ _ t) as [m|e]; cbn [bind]; [|reflexivity].
  destruct (qlt _ _); [apply O, R|]. unfold top_up. cbv zeta.
  set (inc := _ - _). assert (N : rel (hp_topped_up inc (rf rc)) (hp_topped_up inc (rf rc'))) by (exact (rel_topped _ _ _ (nr_rel _ _ R))).
  assert (K : forall k, shown k -> hp_topped_up inc (rf rc) k = rf rc k /\ hp_topped_up inc (rf rc') k = rf rc' k).
  { unfold shown. cbn [In]. intros k H. repeat (destruct H as [<-|H]; [split; reflexivity|]). destruct H. }
  rewrite (N HP_heat_total_output eq_refl).
  destruct (qeq _ 0); [exact (near_shown rc rc' {| rf := _; r_nodes := _ |} {| rf := _; r_nodes := _ |} R N (nr_nodes _ _ R) K)|].
  destruct (t_new _ _ _ _ _ _ _ _) as [n|e]; cbn [bind relr]; [|reflexivity]. exact (near_shown rc rc' {| rf := _; r_nodes := _ |} {| rf := _; r_nodes := _ |} R N eq_refl K).
Qed.
Lemma zero_shown ks r k : (forall j, In j ks -> ~ shown j) -> shown k -> zero_fields ks r k = r k.
Proof.
  unfold zero_fields. revert r. induction ks as [|j ks IH]; intros r H Sk; [reflexivity|]. cbn [fold_left]. rewrite IH; [|intros i Hi; apply H; right; exact Hi|exact Sk].
  apply upd_other. intros ->. exact (H k (or_introl eq_refl) Sk).
Qed.
Lemma zeroed_not_shown j : In j hp_zeroed -> ~ shown j.
Proof. unfold hp_zeroed, shown. cbn [In]. intros H. repeat (destruct H as [<-|H]; [intuition discriminate|]). destruct H. Qed.
Lemma rel_off_above a d : near a d -> relr (switch_off_above P I t T a) (switch_off_above P I t T d).
Proof.
  intros R. unfold switch_off_above. cbv zeta. rewrite (nr_nodes _ _ R).
  assert (N : rel (zero_fields hp_zeroed (rf a)) (zero_fields hp_zeroed (rf d))) by (exact (rel_zero _ _ _ (nr_rel _ _ R))).
  assert (K : forall k, shown k -> zero_fields hp_zeroed (rf a) k = rf a k /\ zero_fields hp_zeroed (rf d) k = rf d k) by (intros k H; split; apply zero_shown; try assumption; apply zeroed_not_shown).
  revert N K. generalize (zero_fields hp_zeroed (rf a)) (zero_fields hp_zeroed (rf d)). intros z z' N K.
  destruct (if qeq (t_capacity (p_tank P)) 0 then _ else _) as [n|e]; cbn [bind relr]; [|reflexivity].
  apply (near_shown a d); [exact R|cbn [rf]; relupd|reflexivity|]. cbn [rf]. intros k H. specialize (K k H). unfold shown in H. cbn [In] in H. repeat (destruct H as [<-|H]; [exact K|]). destruct H.
Qed.
Lemma rel_off_below a d : near a d -> relr (switch_off_below P I t T a) (switch_off_below P I t T d).
Proof.
  intros R. unfold switch_off_below. cbv zeta. rewrite (nr_nodes _ _ R).
  assert (N : rel (zero_fields hp_zeroed (rf a)) (zero_fields hp_zeroed (rf d))) by (exact (rel_zero _ _ _ (nr_rel _ _ R))).
  assert (K : forall k, shown k -> zero_fields hp_zeroed (rf a) k = rf a k /\ zero_fields hp_zeroed (rf d) k = rf d k) by (intros k H; split; apply zero_shown; try assumption; apply zeroed_not_shown).
  revert N K. generalize (zero_fields hp_zeroed (rf a)) (zero_fields hp_zeroed (rf d)). intros z z' N K.
  destruct (t_max _ _ _ _ _ _) as [m|e]; cbn [bind relr]; [|reflexivity].
  set (hd := i_heat_demand I).
  assert (N2 : rel (upd (upd z TS_charging_total 0) TS_discharging_total (pmin m hd)) (upd (upd z' TS_charging_total 0) TS_discharging_total (pmin m hd))) by relupd.
  assert (K2 : forall k, shown k -> upd (upd z TS_charging_total 0) TS_discharging_total (pmin m hd) k = rf a k /\ upd (upd z' TS_charging_total 0) TS_discharging_total (pmin m hd) k = rf d k).
  { intros k H. specialize (K k H). unfold shown in H. cbn [In] in H. repeat (destruct H as [<-|H]; [exact K|]). destruct H. }
  revert N2 K2. generalize (upd (upd z TS_charging_total 0) TS_discharging_total (pmin m hd)) (upd (upd z' TS_charging_total 0) TS_discharging_total (pmin m hd)). intros y y' N2 K2.
  rewrite (N2 TS_discharging_total eq_refl).
  destruct (if qeq (t_capacity (p_tank P)) 0 then _ else _) as [[n h]|e]; cbn [bind relr]; [|reflexivity].
  apply (near_shown a d); [exact R|cbn [rf]; relupd|reflexivity|]. cbn [rf]. intros k H. specialize (K2 k H). unfold shown in H. cbn [In] in H. repeat (destruct H as [<-|H]; [exact K2|]). destruct H.
Qed.
Lemma rel_hour : (forall ps, processes_of P I ps -> order_ok ps /\ battery_last ps) -> (exists ps, processes_of P I ps) -> relr (hour_step P I t T soc) (hour_step P I t T soc').
Proof.
  intros BL (ps & H). unfold hour_step. destruct (BL ps H) as (O & B).
  assert (K : relr (if qlt (p_setpoint P) (i_import_price I) then above_setpoint P I t T soc else below_setpoint P I t T soc) (if qlt (p_setpoint P) (i_import_price I) then above_setpoint P I t T soc' else below_setpoint P I t T soc')).
  { destruct (qlt_spec (p_setpoint P) (i_import_price I)) as [L|L]; (destruct H as [(H1 & H2)|(H1 & H2)]; [|]; unfold high_tariff in H1; try (exfalso; lra)).
    - unfold above_setpoint. pose proof (rel_above ps O B H2) as U. destruct (above_uncorrected P I t T soc) as [[c rc]|e], (above_uncorrected P I t T soc') as [[c' rc']|e']; cbn [relu] in U; try contradiction; cbn [bind]; [|exact U].
      destruct U as (U1 & U2 & U). rewrite <- U1, <- U2. apply rel_correct; [exact rel_off_above|exact U1|exact U2|exact U].
    - unfold below_setpoint. pose proof (rel_below ps O B H2) as U. destruct (below_uncorrected P I t T soc) as [[c rc]|e], (below_uncorrected P I t T soc') as [[c' rc']|e']; cbn [relu] in U; try contradiction; cbn [bind]; [|exact U].
      destruct U as (U1 & U2 & U). rewrite <- U1, <- U2. apply rel_correct; [exact rel_off_below|exact U1|exact U2|exact U]. }
  destruct (if qlt (p_setpoint P) (i_import_price I) then above_setpoint P I t T soc else below_setpoint P I t T soc) as [rc|e], (if qlt (p_setpoint P) (i_import_price I) then above_setpoint P I t T soc' else below_setpoint P I t T soc') as [rc'|e']; cbn [relr] in K; try contradiction; cbn [bind relr]; [|exact K].
  apply (near_shown rc rc'); [exact K| |exact (nr_nodes _ _ K)|].
  - unfold complete. cbv zeta. cbn [rf]. pose proof (nr_rel _ _ K) as N. relupd.
  - unfold shown. cbn [In]. intros k Hk. repeat (destruct Hk as [<-|Hk]; [split; reflexivity|]). destruct Hk.
Qed.
End TWO.
