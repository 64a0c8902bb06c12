(** Signs and capacity limits along an hour of the fixed-order controller. *)
From Verif Require Import Base BaseL M_Battery S_Battery L_Battery M_HeatPump S_HeatPump L_HeatPump
  M_Tools L_Tools M_FixedOrder S_FixedOrder L_FixedOrder.

Lemma elec_usage_nonneg cap h p : 0 <= h -> perf_ok p -> 0 <= elec_usage cap h p.
Proof.
  intros Hh [Hc Hd]. unfold elec_usage. destruct (qeq_spec cap 0); [lra|].
  apply pmin_glb; apply Qle_shift_div_l; lra.
Qed.
Lemma elec_usage_le cap h p x : 0 <= x -> 0 < cop p -> h <= x * cop p -> elec_usage cap h p <= x.
Proof.
  intros Hx Hc Hh. unfold elec_usage. destruct (qeq_spec cap 0); [exact Hx|].
  eapply Qle_trans; [apply pmin_le_l|]. apply Qle_shift_div_r; assumption.
Qed.
Lemma thermal_output_le cap e p d : 0 <= e -> 0 <= d -> 0 < cop p -> 
  fst (thermal_output cap e p d) <= e * cop p /\ fst (thermal_output cap e p d) <= d.
Proof.
  intros He Hd Hc. unfold thermal_output. destruct (qeq_spec cap 0); cbn [fst].
  - split; [nra|lra].
  - pose proof (pmin_le_l (pmin (e * cop p) d) (duty p)). pose proof (pmin_le_l (e * cop p) d).
    pose proof (pmin_le_r (e * cop p) d). split; lra.
Qed.

Lemma max_charging_bounds b m soc :
  0 <= m -> 0 <= b_charge_max b -> soc <= b_capacity b ->
  0 <= max_charging b m soc /\ max_charging b m soc <= m /\ max_charging b m soc <= b_capacity b - soc.
Proof. intros. unfold max_charging, pmin. qcases; lra. Qed.

Lemma charge_to_capacity_bounds b soc :
  battery_ok b -> level_ok b soc -> 0 <= charge_to_capacity b soc.
Proof. intros Hb Hl. destruct (fill_request b soc Hb Hl) as [[H _] _]. exact H. Qed.

Section Sign.
Variables (P : plant) (I : hour_in) (t : Z) (n : nodes).
Hypothesis HP : plant_ok P.
Hypothesis HI : hour_ok P I.

Let d := duty (i_perf I).
Let mc := t_max (p_tank P) Charging n (i_source_temp I) (i_flow_temp I) t.
Let md := t_max (p_tank P) Discharging n (i_source_temp I) (i_flow_temp I) t.

Record Sgn (don : list process) (c : checks) : Prop := {
  sg_elec : 0 <= elec_unmet c;
  sg_heat : 0 <= heat_unmet c;
  sg_res : 0 <= RES_left c;
  sg_hp : 0 <= hp_usage c;
  sg_tsd : 0 <= ts_discharge c;
  sg_tsc : 0 <= ts_charge c;
  sg_soc : 0 <= c_soc c;
  sg_soc_cap : ~ In Import_to_ES don -> c_soc c <= b_capacity (p_battery P);
  sg_hp_duty : ~ In HP_import_to_TS don -> hp_usage c <= d;
  sg_hp_duty' : hp_usage c <= d + (1#200);
  sg_charge : forall m, mc = Ok m -> ~ In HP_import_to_TS don -> ts_charge c <= ts_discharge c + m;
  sg_charge' : forall m, mc = Ok m -> ts_charge c <= ts_discharge c + m + (1#200);
  sg_discharge : forall m, md = Ok m -> ts_discharge c <= ts_charge c + m;
  sg_auxA : ~ In EAUX_RES_to_TS don -> heat_unmet c <= aux_left c;
  sg_auxB : ~ In AUX_to_demand don -> 0 <= aux_left c;
  sg_tsd0 : ~ In TS_to_demand don -> ts_discharge c == 0 }.

(** May [p] run after the processes [don]? *)
Definition allowed (don : list process) (p : process) : Prop :=
  (p = RES_to_ES -> ~ In Import_to_ES don) /\
  (In p [HP_RES_to_demand; HP_import_to_demand; ES_to_HP_to_demand; HP_RES_to_TS; EAUX_RES_to_TS] ->
     ~ In HP_import_to_TS don) /\
  (p = EAUX_RES_to_demand -> ~ In AUX_to_demand don).

Ltac pmins :=
  repeat match goal with
  | |- context [pmin ?a ?b] =>
      lazymatch goal with
      | _ : pmin a b <= a |- _ => fail
      | _ => pose proof (pmin_le_l a b); pose proof (pmin_le_r a b)
      end
  end.

(** What each process can deliver. *)
Lemma amount_limits don c p h e :
  Sgn don c -> allowed don p -> ~ In p don -> amount P I t n p c = Ok (h, e) ->
  0 <= h /\ 0 <= e /\
  (in_elec_unmet p = true -> h <= elec_unmet c) /\
  (in_heat_unmet p = true -> h <= heat_unmet c) /\
  (in_RES_left p = true -> e <= RES_left c) /\
  (in_hp_usage p = true -> h <= d - hp_usage c + (1#200)) /\
  (in_hp_usage p = true -> p <> HP_import_to_TS -> h <= d - hp_usage c) /\
  (in_ts_charge p = true -> forall m, mc = Ok m -> h <= m + ts_discharge c - ts_charge c + (1#200)) /\
  (in_ts_charge p = true -> p <> HP_import_to_TS -> forall m, mc = Ok m -> h <= m + ts_discharge c - ts_charge c) /\
  (p = TS_to_demand -> forall m, md = Ok m -> h <= m + ts_charge c - ts_discharge c) /\
  (p = ES_to_demand -> h <= c_soc c) /\
  (p = ES_to_HP_to_demand -> e <= c_soc c) /\
  (p = RES_to_ES -> h <= b_capacity (p_battery P) - c_soc c) /\
  (p = EAUX_RES_to_demand \/ p = EAUX_RES_to_TS -> h <= aux_left c \/ h == 0).
Proof.
  intros S Hal Hn Ha. destruct S. destruct Hal as (Hal1 & Hal2 & Hal3).
  destruct HI as (_ & _ & _ & Hh0 & Hhmax & Hcop & Hduty & Hcap0 & Hmax).
  destruct HP as (Hbat & _).
  assert (Hpf : perf_ok (i_perf I)) by (split; assumption).
  fold d in Hduty, Hcap0.
  assert (Hmc : forall m, mc = Ok m -> 0 <= m) by (intros m Hm; apply (Hmax _ _ _ _ Hm)).
  assert (Hmd : forall m, md = Ok m -> 0 <= m) by (intros m Hm; apply (Hmax _ _ _ _ Hm)).
  destruct p; cbn [in_elec_unmet in_heat_unmet in_RES_left in_hp_usage in_ts_charge];
    cbn [amount] in Ha.
  - (* RES to demand *) injection Ha as <- <-. repeat split; intros; try lra; try discriminate; try (destruct H; discriminate).
  - (* ES to demand *)
    injection Ha as <- <-.
    pose proof (pmin_glb (elec_unmet c) (c_soc c) 0 sg_elec0 sg_soc0).
    pmins. repeat split; intros; try lra; try discriminate; try (destruct H2; discriminate).
  - injection Ha as <- <-. repeat split; intros; try lra; try discriminate; try (destruct H; discriminate).
  - (* HP RES to demand *)
    fold d in Ha. injection Ha as <- <-.
    set (th := thermal_output _ _ _ _).
    assert (Hndon : ~ In HP_import_to_TS don) by (apply Hal2; cbn; auto 10).
    specialize (sg_hp_duty0 Hndon).
    destruct (thermal_output_nonneg (p_hp_capacity P) (RES_left c) (i_perf I) (heat_unmet c) sg_res0 sg_heat0 Hpf) as [T1 _].
    destruct (thermal_output_le (p_hp_capacity P) (RES_left c) (i_perf I) (heat_unmet c) sg_res0 sg_heat0 Hcop) as [T2 T3].
    fold th in T1, T2, T3.
    set (hh := pmin (fst th) (d - hp_usage c)).
    assert (0 <= hh) by (apply pmin_glb; lra).
    assert (hh <= fst th) by apply pmin_le_l. assert (hh <= d - hp_usage c) by apply pmin_le_r.
    pose proof (elec_usage_nonneg (p_hp_capacity P) hh (i_perf I) H Hpf).
    assert (elec_usage (p_hp_capacity P) hh (i_perf I) <= RES_left c) by (apply elec_usage_le; lra).
    repeat split; intros; try lra; try discriminate; try (destruct H4; discriminate).
  - (* EAUX RES to demand *)
    specialize (sg_auxB0 (Hal3 eq_refl)).
    destruct (is_electric P); injection Ha as <- <-.
    + assert (0 <= pmin (pmin (aux_left c) (RES_left c)) (heat_unmet c)) by (repeat apply pmin_glb; lra).
      pmins. repeat split; intros; try lra; try discriminate.
    + repeat split; intros; try lra; try discriminate. 
  - (* TS to demand *)
    change (t_max (p_tank P) Discharging n (i_source_temp I) (i_flow_temp I) t) with md in Ha.
    destruct md as [m|] eqn:Em; cbn [bind] in Ha; [|discriminate]. injection Ha as <- <-.
    specialize (sg_discharge0 m eq_refl).
    assert (0 <= pmin (heat_unmet c) (m - ts_discharge c + ts_charge c)) by (apply pmin_glb; lra).
    pmins. repeat split; intros; try lra; try discriminate; try (destruct H2; discriminate).
    injection H3 as <-. lra.
  - (* ES to HP to demand *)
    fold d in Ha. injection Ha as <- <-.
    set (th := thermal_output _ _ _ _).
    assert (Hndon : ~ In HP_import_to_TS don) by (apply Hal2; cbn; auto 10).
    specialize (sg_hp_duty0 Hndon).
    destruct (thermal_output_nonneg (p_hp_capacity P) (c_soc c) (i_perf I) (heat_unmet c) sg_soc0 sg_heat0 Hpf) as [T1 _].
    destruct (thermal_output_le (p_hp_capacity P) (c_soc c) (i_perf I) (heat_unmet c) sg_soc0 sg_heat0 Hcop) as [T2 T3].
    fold th in T1, T2, T3.
    set (hh := pmin (fst th) (d - hp_usage c)).
    assert (0 <= hh) by (apply pmin_glb; lra).
    assert (hh <= fst th) by apply pmin_le_l. assert (hh <= d - hp_usage c) by apply pmin_le_r.
    pose proof (elec_usage_nonneg (p_hp_capacity P) hh (i_perf I) H Hpf).
    assert (elec_usage (p_hp_capacity P) hh (i_perf I) <= c_soc c) by (apply elec_usage_le; lra).
    repeat split; intros; try lra; try discriminate; try (destruct H4; discriminate).
  - (* HP import to demand *)
    fold d in Ha. injection Ha as <- <-.
    assert (Hndon : ~ In HP_import_to_TS don) by (apply Hal2; cbn; auto 10).
    specialize (sg_hp_duty0 Hndon).
    set (hh := if qeq (p_hp_capacity P) 0 then 0 else pmin (heat_unmet c) (d - hp_usage c)).
    assert (Hhh : 0 <= hh /\ hh <= heat_unmet c /\ hh <= d - hp_usage c).
    { unfold hh. destruct (qeq_spec (p_hp_capacity P) 0); [lra|].
      pose proof (pmin_glb (heat_unmet c) (d - hp_usage c) 0 ltac:(lra) ltac:(lra)). pmins. lra. }
    destruct Hhh as (A1 & A2 & A3).
    pose proof (elec_usage_nonneg (p_hp_capacity P) hh (i_perf I) A1 Hpf).
    repeat split; intros; try lra; try discriminate; try (destruct H0; discriminate).
  - injection Ha as <- <-. repeat split; intros; try lra; try discriminate; try (destruct H; discriminate).
  - (* HP RES to TS *)
    fold d in Ha.
    change (t_max (p_tank P) Charging n (i_source_temp I) (i_flow_temp I) t) with mc in Ha.
    destruct mc as [m|] eqn:Em; cbn [bind] in Ha; [|discriminate]. injection Ha as <- <-.
    assert (Hndon : ~ In HP_import_to_TS don) by (apply Hal2; cbn; auto 10).
    specialize (sg_hp_duty0 Hndon). specialize (sg_charge0 m eq_refl Hndon).
    set (hh := pmin (pmin (d - hp_usage c) (RES_left c * cop (i_perf I))) (m + ts_discharge c - ts_charge c)).
    assert (0 <= hh) by (unfold hh; repeat apply pmin_glb; try lra; nra).
    assert (hh <= m + ts_discharge c - ts_charge c) by apply pmin_le_r.
    assert (hh <= RES_left c * cop (i_perf I)) by (unfold hh; eapply Qle_trans; [apply pmin_le_l|apply pmin_le_r]).
    assert (hh <= d - hp_usage c) by (unfold hh; eapply Qle_trans; [apply pmin_le_l|apply pmin_le_l]).
    pose proof (elec_usage_nonneg (p_hp_capacity P) hh (i_perf I) H Hpf).
    assert (elec_usage (p_hp_capacity P) hh (i_perf I) <= RES_left c) by (apply elec_usage_le; lra).
    repeat split; intros; try lra; try discriminate; try (destruct H5; discriminate);
      match goal with E : Ok _ = Ok _ |- _ => injection E as <- end; lra.
  - (* EAUX RES to TS *)
    assert (Hndon : ~ In HP_import_to_TS don) by (apply Hal2; cbn; auto 10).
    specialize (sg_auxA0 Hn). assert (Haux : 0 <= aux_left c) by lra.
    change (t_max (p_tank P) Charging n (i_source_temp I) (i_flow_temp I) t) with mc in Ha.
    destruct (is_electric P).
    + destruct mc as [m|] eqn:Em; cbn [bind] in Ha; [|discriminate]. injection Ha as <- <-.
      specialize (sg_charge0 m eq_refl Hndon).
      assert (0 <= pmin (pmin (aux_left c) (RES_left c)) (m + ts_discharge c - ts_charge c)) by (repeat apply pmin_glb; lra).
      pmins. repeat split; intros; try lra; try discriminate;
        try (match goal with E : Ok _ = Ok _ |- _ => injection E as <- end); lra.
    + injection Ha as <- <-. 
      repeat split; intros; try lra; try discriminate;
        match goal with E : mc = Ok _ |- _ => specialize (sg_charge0 _ E Hndon) end; lra.
  - (* HP import to TS *)
    fold d in Ha.
    change (t_max (p_tank P) Charging n (i_source_temp I) (i_flow_temp I) t) with mc in Ha.
    destruct mc as [m|] eqn:Em; cbn [bind] in Ha; [|discriminate]. injection Ha as <- <-.
    specialize (sg_hp_duty0 Hn). specialize (sg_charge0 m eq_refl Hn).
    set (x := pmin (d - hp_usage c) (m + ts_discharge c - ts_charge c)).
    assert (X0 : 0 <= x) by (apply pmin_glb; lra).
    assert (X1 : x <= d - hp_usage c) by apply pmin_le_l.
    assert (X2 : x <= m + ts_discharge c - ts_charge c) by apply pmin_le_r.
    set (hh := if qeq (p_hp_capacity P) 0 then 0 else round2 x).
    assert (Hhh : 0 <= hh /\ hh <= x + (1#200)).
    { unfold hh. pose proof (round2_bounds x). pose proof (pround_nonneg 100 x X0).
      change (pround 100 x) with (round2 x) in *. destruct (qeq_spec (p_hp_capacity P) 0); lra. }
    destruct Hhh as [A1 A2].
    pose proof (elec_usage_nonneg (p_hp_capacity P) hh (i_perf I) A1 Hpf).
    repeat split; intros; try lra; try discriminate; try congruence; try (destruct H0; discriminate).
    match goal with E : Ok _ = Ok _ |- _ => injection E as <- end; lra.
  - (* RES to ES *)
    injection Ha as <- <-. specialize (sg_soc_cap0 (Hal1 eq_refl)).
    destruct Hbat as (_ & Hcm & _).
    destruct (max_charging_bounds (p_battery P) (RES_left c) (c_soc c) sg_res0 Hcm sg_soc_cap0) as (A1 & A2 & A3).
    repeat split; intros; try lra; try discriminate; try (destruct H; discriminate).
  - (* Import to ES *)
    injection Ha as <- <-. specialize (sg_soc_cap0 Hn).
    pose proof (charge_to_capacity_bounds (p_battery P) (c_soc c) Hbat (conj sg_soc0 sg_soc_cap0)).
    repeat split; intros; try lra; try discriminate; try (destruct H0; discriminate).
  - injection Ha as <- <-. repeat split; intros; try lra; try discriminate; try (destruct H; discriminate).
Qed.

Lemma sgn_step don c p h e :
  Sgn don c -> allowed don p -> ~ In p don -> amount P I t n p c = Ok (h, e) ->
  Sgn (p :: don) (update p (h, e) c).
Proof.
  intros S Hal Hn Ha.
  destruct (amount_limits don c p h e S Hal Hn Ha)
    as (A1 & A2 & A3 & A4 & A5 & A6 & A7 & A8 & A9 & A10 & A11 & A12 & A13 & A14).
  destruct S. clear Hal Ha.
  constructor; cbn [update fst snd elec_unmet heat_unmet RES_left hp_usage ts_discharge ts_charge c_soc aux_left In].
  - clear - A3 sg_elec0. destruct (in_elec_unmet p); [specialize (A3 eq_refl)|]; lra.
  - clear - A4 sg_heat0. destruct (in_heat_unmet p); [specialize (A4 eq_refl)|]; lra.
  - clear - A5 sg_res0. destruct (in_RES_left p); [specialize (A5 eq_refl)|]; lra.
  - clear - A1 sg_hp0. destruct (in_hp_usage p); lra.
  - clear - A1 sg_tsd1. destruct (in_ts_discharge p); lra.
  - clear - A1 sg_tsc0. destruct (in_ts_charge p); lra.
  - clear - A1 A11 A12 sg_soc0.
    destruct p; try specialize (A11 eq_refl); try specialize (A12 eq_refl); lra.
  - intro Hin. apply Decidable.not_or in Hin. destruct Hin as [Hp Hd]. specialize (sg_soc_cap0 Hd).
    clear - A1 A2 A13 sg_soc_cap0 Hp.
    destruct p; try specialize (A13 eq_refl); try lra. congruence.
  - intro Hin. apply Decidable.not_or in Hin. destruct Hin as [Hp Hd]. specialize (sg_hp_duty0 Hd).
    clear - A7 sg_hp_duty0 Hp. destruct (in_hp_usage p); [specialize (A7 eq_refl Hp)|]; lra.
  - clear - A6 sg_hp_duty'0. destruct (in_hp_usage p); [specialize (A6 eq_refl)|]; lra.
  - intros m Hm Hin. apply Decidable.not_or in Hin. destruct Hin as [Hp Hd]. specialize (sg_charge0 m Hm Hd).
    assert (X : in_ts_charge p = true -> h <= m + ts_discharge c - ts_charge c) by (intro Y; apply (A9 Y Hp m Hm)).
    clear - X A1 sg_charge0. destruct p; cbn [in_ts_charge in_ts_discharge] in *; try specialize (X eq_refl); lra.
  - intros m Hm. specialize (sg_charge'0 m Hm).
    assert (X : in_ts_charge p = true -> h <= m + ts_discharge c - ts_charge c + (1#200)) by (intro Y; apply (A8 Y m Hm)).
    clear - X A1 sg_charge'0. destruct p; cbn [in_ts_charge in_ts_discharge] in *; try specialize (X eq_refl); lra.
  - intros m Hm. specialize (sg_discharge0 m Hm).
    assert (X : p = TS_to_demand -> h <= m + ts_charge c - ts_discharge c) by (intro Y; apply (A10 Y m Hm)).
    clear - X A1 sg_discharge0. destruct p; cbn [in_ts_charge in_ts_discharge] in *; try specialize (X eq_refl); lra.
  - intro Hin. apply Decidable.not_or in Hin. destruct Hin as [Hp Hd]. specialize (sg_auxA0 Hd).
    clear - A1 A4 sg_auxA0 Hp. destruct p; cbn [in_heat_unmet in_aux] in *; try specialize (A4 eq_refl); try lra. congruence.
  - intro Hin. apply Decidable.not_or in Hin. destruct Hin as [Hp Hd]. specialize (sg_auxB0 Hd).
    clear - A1 A14 sg_auxB0 Hp.
    destruct p; cbn [in_aux]; try lra; try congruence.
    + destruct (A14 (or_introl eq_refl)); lra.
    + destruct (A14 (or_intror eq_refl)); lra.
  - intro Hin. apply Decidable.not_or in Hin. destruct Hin as [Hp Hd]. specialize (sg_tsd2 Hd).
    clear - sg_tsd2 Hp. destruct p; cbn [in_ts_discharge]; try lra. congruence.
Qed.
End Sign.
