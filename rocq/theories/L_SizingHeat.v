(** Lemmas: an hour with a small and with a big battery that may drive the heat pump. *)
From Verif Require Import Base BaseL M_Battery S_Battery L_Battery M_HeatPump M_Tools L_Tools M_FixedOrder S_FixedOrder S_HeatPumpSize S_Sizing S_SizingHeat L_FixedOrder L_FixedOrderSign L_FixedOrderHour L_FixedOrderProps L_HeatPumpSize.
From Verif Require L_Sizing.

(** ** The charge level *)
Lemma discharge_both s s' d d' e dm sg : 0 <= sg <= 1 -> 0 <= e <= 1 -> 0 <= dm -> 0 <= s -> s <= s' -> 0 <= d -> d <= d' -> d' - d <= s' - s -> d <= s -> d' <= s' -> d == s \/ d' == d ->
  0 <= Qmax 0 (s' - Qmin (d' * e) dm - s' * sg) - Qmax 0 (s - Qmin (d * e) dm - s * sg) <= s' - s.
Proof.
  intros G E D S0 L D0 D1 D2 Ds Ds' D3.
  assert (T1 : 0 <= (s' - s) * sg <= s' - s) by nra. assert (T2 : 0 <= (d' - d) * e) by nra. assert (T3 : 0 <= s * sg <= s) by nra.
  assert (T4 : (d' - d) * e <= (s' - s) * e) by nra.
  assert (T5 : e <= 1 - sg -> (s' - s) * e <= (s' - s) * (1 - sg)) by (intro; nra).
  assert (T6 : 1 - sg < e -> s * (1 - sg) <= s * e) by (intro; nra).
  assert (C : e <= 1 - sg \/ 1 - sg < e) by (destruct (Qlt_le_dec (1 - sg) e); [right|left]; assumption).
  assert (H3 : d == s -> d * e == s * e) by (intros ->; reflexivity).
  assert (H4 : d' == d -> d' * e == d * e) by (intros ->; reflexivity).
  assert (W : 0 <= Qmin (d' * e) dm - Qmin (d * e) dm <= (d' - d) * e /\ (Qmin (d * e) dm == d * e \/ Qmin (d' * e) dm == Qmin (d * e) dm) /\ (d' * e == d * e -> Qmin (d' * e) dm == Qmin (d * e) dm)).
  { destruct (Q.min_spec (d * e) dm) as [[A1 A2]|[A1 A2]]; destruct (Q.min_spec (d' * e) dm) as [[B1 B2]|[B1 B2]]; rewrite A2, B2; repeat split; try lra; ((left; lra) || (right; lra)). }
  revert W. generalize (Qmin (d' * e) dm) (Qmin (d * e) dm). intros m' m (W1 & W2 & W3).
  destruct (Q.max_spec 0 (s' - m' - s' * sg)) as [[M1 M1']|[M1 M1']]; destruct (Q.max_spec 0 (s - m - s * sg)) as [[M2 M2']|[M2 M2']]; rewrite M1', M2';
  (split; [|lra]); destruct C as [C|C]; try (specialize (T5 C)); try (specialize (T6 C)); try lra;
  destruct D3 as [D3|D3]; try (specialize (H3 D3)); try (specialize (W3 (H4 D3))); destruct W2 as [W2|W2]; lra.
Qed.
Lemma new_soc_compat b m m' s : battery_ok b -> level_ok b s -> m == m' -> new_soc b m s == new_soc b m' s.
Proof. intros B L E. rewrite !new_soc_spec by assumption. apply L_Sizing.spec_next_compat, E. Qed.
(** The new levels: either both were charged, or both were discharged. *)
Lemma levels_both b b' s s' d d' x x' w : battery_ok b -> battery_ok b' -> level_ok b s -> level_ok b' s' ->
  b_charge_max b = b_charge_max b' -> b_discharge_max b = b_discharge_max b' -> b_discharge_eff b = b_discharge_eff b' -> b_self_discharge b = b_self_discharge b' ->
  0 <= s' - s <= b_capacity b' - b_capacity b -> 0 <= d -> d <= d' -> d' - d <= s' - s -> d <= s -> d' <= s' -> d == s \/ d' == d ->
  0 <= w <= b_charge_max b -> (x == 0 /\ x' == 0) \/ (d == 0 /\ d' == 0 /\ x == Qmin w (b_capacity b - s) /\ x' == Qmin w (b_capacity b' - s')) ->
  0 <= new_soc b' (x' - d') s' - new_soc b (x - d) s <= b_capacity b' - b_capacity b.
Proof.
  intros B B' L L' G2 G3 G5 G6 Hl D0 D1 D2 D3 D4 D5 W Z. pose proof B as (_ & C2 & C3 & C4 & C5 & C6). destruct Z as [(Z1 & Z2)|(Z1 & Z2 & Z3 & Z4)].
  - rewrite (new_soc_compat b (x - d) (0 - d) s B L), (new_soc_compat b' (x' - d') (0 - d') s' B' L') by lra.
    rewrite (L_Sizing.level_discharged b d s B L D0), (L_Sizing.level_discharged b' d' s' B' L') by lra. rewrite <- G3, <- G5, <- G6.
    pose proof (discharge_both s s' d d' (b_discharge_eff b) (b_discharge_max b) (b_self_discharge b) C6 C5 C3 (proj1 L) ltac:(lra) D0 D1 D2 D3 D4 D5) as K. lra.
  - destruct L as (L1 & L2), L' as (L1' & L2').
    assert (N : 0 <= x /\ x <= b_charge_max b /\ x <= b_capacity b - s) by (rewrite Z3; pose proof (Q.le_min_l w (b_capacity b - s)); pose proof (Q.le_min_r w (b_capacity b - s)); repeat split; try lra; apply Q.min_glb; lra).
    assert (N' : 0 <= x' /\ x' <= b_charge_max b /\ x' <= b_capacity b' - s') by (rewrite Z4; pose proof (Q.le_min_l w (b_capacity b' - s')); pose proof (Q.le_min_r w (b_capacity b' - s')); repeat split; try lra; apply Q.min_glb; lra).
    destruct N as (N1 & N2 & N3), N' as (N1' & N2' & N3').
    rewrite (new_soc_compat b (x - d) x s B (conj L1 L2)), (new_soc_compat b' (x' - d') x' s' B' (conj L1' L2')) by lra.
    rewrite (L_Sizing.level_charged b x s B (conj L1 L2) N1 N2 N3). rewrite G2 in N2'. rewrite (L_Sizing.level_charged b' x' s' B' (conj L1' L2') N1' N2' N3'), <- G6, Z3, Z4.
    apply L_Sizing.charge_part; assumption.
Qed.

Lemma Process_dec (p q : process) : {p = q} + {p <> q}.
Proof. decide equality. Qed.
Section Pair.
Variables (P P' : plant) (I : hour_in) (t : Z) (n n' : nodes) (soc soc' : Q).
Hypothesis Hbig : bigger_battery P P'.
Hypothesis HP : plant_ok P.
Hypothesis HP' : plant_ok P'.
Hypothesis HI : hour_ok P I.
Hypothesis HI' : hour_ok P' I.
Hypothesis HS : no_store P.
Hypothesis HS' : no_store P'.
Hypothesis Hl : level_ok (p_battery P) soc.
Hypothesis Hl' : level_ok (p_battery P') soc'.
Let b := p_battery P.
Let b' := p_battery P'.
Hypothesis Hgap : 0 <= soc' - soc <= b_capacity b' - b_capacity b.
Let d := duty (i_perf I).
Let k := cop (i_perf I).
(** What the heat pump could still deliver of the heat demand *)
Let within (c : checks) : Q := pmin (heat_unmet c) (d - hp_usage c).
Let D (r : fields) : Q := r ES_discharging_to_demand + r ES_discharging_to_HP.

(** One side: nothing goes to or comes from the store; surplus is left only when the demand is met, and after the heat pump has had its share only when the heat pump has nothing left to do. *)
Record side (don : list process) (c : checks) (r : fields) : Prop := {
  z_hp : hp_usage c <= d;
  z_aux : heat_unmet c <= aux_left c;
  z_ts : ts_charge c == 0 /\ ts_discharge c == 0 /\ r GRID_import_for_heat_pump_to_TS == 0;
  z_w : In HP_import_to_demand don -> within c == 0;
  z_wr : In HP_RES_to_demand don -> RES_left c == 0 \/ within c == 0;
  z_el : elec_unmet c == 0 \/ RES_left c == 0;
  z_nd : ~ In ES_to_demand don -> r ES_discharging_to_demand == 0;
  z_nh : ~ In ES_to_HP_to_demand don -> r ES_discharging_to_HP == 0;
  z_nx : ~ In RES_to_ES don -> r ES_charging_from_RES == 0;
  z_ni : r GRID_import_for_ES == 0 /\ r ES_charging_from_import == 0;
  z_ps : 0 <= r ES_discharging_to_demand /\ 0 <= r ES_discharging_to_HP;
  z_x : (r ES_charging_from_RES == 0 /\ (RES_left c == 0 \/ In RES_to_ES don)) \/ (r ES_discharging_to_demand == 0 /\ r ES_discharging_to_HP == 0) }.
Record pair (don : list process) (c : checks) (r : fields) (c' : checks) (r' : fields) : Prop := {
  y_res : ~ In RES_to_ES don -> RES_left c == RES_left c';
  y_left : RES_left c' <= RES_left c;
  y_elec : elec_unmet c' <= elec_unmet c;
  y_demand : ~ In ES_to_demand don -> elec_unmet c == elec_unmet c';
  y_same : ~ In ES_to_HP_to_demand don -> heat_unmet c == heat_unmet c';
  y_heat : heat_unmet c' <= heat_unmet c;
  y_use : ~ In HP_import_to_demand don \/ ~ In ES_to_HP_to_demand don -> hp_usage c == hp_usage c';
  y_dis : 0 <= D r /\ D r <= D r' /\ D r' - D r <= soc' - soc /\ D r <= soc /\ D r' <= soc' /\ (D r == soc \/ D r' == D r);
  y_lev : ~ In RES_to_ES don -> c_soc c == soc - D r /\ c_soc c' == soc' - D r';
  y_chg : exists w, 0 <= w <= b_charge_max b /\ (In RES_to_ES don -> r ES_charging_from_RES == Qmin w (b_capacity b - (soc - D r)) /\ r' ES_charging_from_RES == Qmin w (b_capacity b' - (soc' - D r')));
  y_ie : r' GRID_import_for_elec_demand <= r GRID_import_for_elec_demand;
  y_ih : r' GRID_import_for_heat_pump_to_heat_demand <= r GRID_import_for_heat_pump_to_heat_demand;
  y_ax : r' HD_aux <= r HD_aux;
  y_ex : r' GRID_total_export <= r GRID_total_export;
  y_de : r ED_ES <= r' ED_ES;
  y_dh : r ES_discharging_to_HP <= r' ES_discharging_to_HP }.

(** May [p] run after the processes [don]? *)
Definition battery_allowed (don : list process) (p : process) : Prop :=
  p <> Import_to_ES /\ (In p [ES_to_demand; ES_to_HP_to_demand; HP_RES_to_demand; EAUX_RES_to_demand] -> ~ In RES_to_ES don) /\
  (In p [HP_RES_to_demand; EAUX_RES_to_demand] -> ~ In ES_to_HP_to_demand don) /\ (p = ES_to_HP_to_demand -> In HP_RES_to_demand don).
Lemma driven Q J m c h e : hour_ok Q J -> duty (i_perf J) = d -> cop (i_perf J) = k -> 0 <= heat_unmet c -> hp_usage c <= d -> 0 <= hp_usage c -> 0 <= c_soc c ->
  amount Q J t m ES_to_HP_to_demand c = Ok (h, e) -> least2 h (c_soc c * k) (within c) /\ e == h / k.
Proof.
  intros HJ Ep Ek S1 U U0 S3 Ha. cbn [amount] in Ha. apply Ok_eq in Ha. pose proof (f_equal fst Ha) as E1. pose proof (f_equal snd Ha) as E2. cbn [fst snd] in E1, E2. clear Ha.
  pose proof HJ as (_ & _ & _ & _ & _ & Hk & Hd & Hc & _). rewrite Ep in E1, E2, Hd, Hc. rewrite Ek in Hk. assert (M : 0 <= c_soc c * k) by nra.
  assert (L : least2 h (c_soc c * k) (within c)).
  { rewrite <- E1. unfold thermal_output. rewrite Ep, Ek. unfold within, least2. destruct (qeq_spec (p_hp_capacity Q) 0) as [Z|Z]; cbn [fst].
    - specialize (Hc Z). unfold pmin. qcases; repeat split; try lra; right; lra.
    - unfold pmin. qcases; repeat split; try lra; first [left; lra|right; lra]. }
  split; [exact L|]. assert (B : 0 <= h <= d).
  { destruct L as (L1 & L2 & L3). unfold within in *. revert L1 L2 L3. unfold pmin. qcases; intros; destruct L3; lra. }
  rewrite <- E2, E1. rewrite (usage_exact Q J HJ); [rewrite Ek; reflexivity|lra|rewrite Ep; lra].
Qed.
Lemma pmin_least x y : least2 (pmin x y) x y.
Proof. unfold least2, pmin. qcases; repeat split; try lra; first [left; lra|right; lra]. Qed.
Lemma charge_least Q q s : plant_ok Q -> 0 <= q -> s <= b_capacity (p_battery Q) -> least3 (max_charging (p_battery Q) q s) q (b_charge_max (p_battery Q)) (b_capacity (p_battery Q) - s) /\ 0 <= max_charging (p_battery Q) q s.
Proof. intros HQ A B. pose proof (proj1 HQ) as (_ & Hm & _). unfold max_charging, least3, pmin. qcases; repeat split; try lra; first [left; lra|right; left; lra|right; right; lra]. Qed.

Ltac reduce := cbn [update write fst snd elec_unmet heat_unmet RES_left hp_usage ts_discharge ts_charge c_soc aux_left in_elec_unmet in_heat_unmet in_RES_left in_hp_usage in_ts_discharge in_ts_charge in_aux upd field_eqb field_id Pos.eqb].
Ltac mins := repeat match goal with
  | |- context [pmin ?x ?y] => let L := fresh "L" in pose proof (pmin_least x y) as L; generalize dependent (pmin x y); intros
  end.
Ltac ands := repeat match goal with H : _ /\ _ |- _ => destruct H end.
Ltac ors := ands; repeat (match goal with H : _ \/ _ |- _ => destruct H as [H|H] end; ands).
Ltac outs := repeat match goal with H : ~ In ?q (?p :: ?l) |- _ => apply not_in_cons in H; let N := fresh "N" in destruct H as (N & H); first [congruence | clear N] end;
  repeat match goal with H : In ?q (?p :: ?l) |- _ => destruct H as [H|H]; [first [discriminate H | clear H]|] end;
  repeat match goal with K : ?a, H : ?a -> _ |- _ => specialize (H K) end;
  repeat match goal with H : _ -> _ |- _ => clear H | H : ~ _ |- _ => clear H end.

(** No process makes any demand or surplus grow. *)
Lemma moves Q m don c r p h e : plant_ok Q -> hour_ok Q I -> no_store Q -> side don c r -> Sgn Q I t m don c -> allowed don p -> ~ In p don -> p <> Import_to_ES ->
  amount Q I t m p c = Ok (h, e) -> let c1 := update p (h, e) c in
  0 <= h /\ 0 <= e /\ RES_left c1 <= RES_left c /\ elec_unmet c1 <= elec_unmet c /\ heat_unmet c1 <= heat_unmet c /\ hp_usage c <= hp_usage c1 /\ hp_usage c1 <= d.
Proof.
  intros HQ HJ HT Z Sg Al Np B1 Ha. cbv zeta.
  destruct (delivered Q I t m HQ HJ HT don c p h e Sg Al Np (proj1 (z_ts _ _ _ Z)) (proj1 (proj2 (z_ts _ _ _ Z))) (z_aux _ _ _ Z) Ha) as (Hn0 & De).
  pose proof (sg_heat _ _ _ _ _ _ Sg) as S1. pose proof (sg_res _ _ _ _ _ _ Sg) as S2. pose proof (sg_soc _ _ _ _ _ _ Sg) as S3. pose proof (sg_hp _ _ _ _ _ _ Sg) as S5. pose proof (z_hp _ _ _ Z) as Z1.
  assert (K0 : 0 < k) by apply HI. split; [exact Hn0|].
  assert (E0 : e == h / k -> 0 <= e) by (intros ->; apply Qle_shift_div_l; [exact K0|lra]).
  assert (E1 : 0 <= e).
  { destruct p; cbn [delivers] in De; fold k in De; try (apply E0, De); try (destruct De as (De1 & De2); lra); try solve [cbn [amount] in Ha; injection Ha as <- <-; lra].
    destruct (driven Q I m c h e HJ eq_refl eq_refl S1 Z1 S5 S3 Ha) as (_ & De'). apply E0, De'. }
  split; [exact E1|]. clear Ha E0. destruct p; cbn [delivers] in De; fold d in De; unfold least2, least3 in *; reduce; repeat match goal with |- _ /\ _ => split end; try lra.
Qed.
Lemma side_step Q m don c r p h e : plant_ok Q -> hour_ok Q I -> no_store Q ->
  side don c r -> Sgn Q I t m don c -> Sgn Q I t m (p :: don) (update p (h, e) c) -> allowed don p -> ~ In p don -> battery_allowed don p ->
  amount Q I t m p c = Ok (h, e) -> side (p :: don) (update p (h, e) c) (write p (h, e) r).
Proof.
  intros HQ HJ HT Z Sg Sg1 Al Np (B1 & B2 & B3 & B4) Ha.
  destruct (moves Q m don c r p h e HQ HJ HT Z Sg Al Np B1 Ha) as (M0 & M1 & M2 & M3 & M4 & M5 & M6).
  destruct (delivered Q I t m HQ HJ HT don c p h e Sg Al Np (proj1 (z_ts _ _ _ Z)) (proj1 (proj2 (z_ts _ _ _ Z))) (z_aux _ _ _ Z) Ha) as (_ & De).
  pose proof (sg_elec _ _ _ _ _ _ Sg1) as N0. pose proof (sg_heat _ _ _ _ _ _ Sg1) as N1. pose proof (sg_res _ _ _ _ _ _ Sg1) as N2.
  assert (K0 : 0 < k) by apply HI.
  assert (Wm : 0 <= within (update p (h, e) c) <= within c).
  { clear - N1 M4 M5 M6. unfold within. clearbody d. revert N1 M4 M5 M6. generalize (heat_unmet (update p (h, e) c)), (hp_usage (update p (h, e) c)). intros. unfold pmin. qcases; lra. }
  constructor.
  - exact M6.
  - pose proof (z_aux _ _ _ Z) as X. clear - X De M4 N1. destruct p; revert N1 M4; reduce; cbn [delivers] in De; intros; lra.
  - destruct (z_ts _ _ _ Z) as (X1 & X2 & X3). clear - X1 X2 X3 De. destruct p; reduce; cbn [delivers] in De; repeat match goal with |- _ /\ _ => split end; lra.
  - intro C. destruct C as [->|C]; [|pose proof (z_w _ _ _ Z C); lra]. clear - De. cbn [delivers] in De. fold d in De. destruct De as (De & _). unfold within. reduce. clearbody d. unfold least2 in De. unfold pmin. qcases; destruct De as (? & ? & [?|?]); lra.
  - intro C. destruct C as [->|C]; [|destruct (z_wr _ _ _ Z C); [left|right]; lra].
    cbn [delivers] in De. fold d in De. fold k in De. destruct De as ((L1 & L2 & L3 & [E|E]) & De).
    + left. reduce. rewrite De, E. field. lra.
    + right. unfold within. reduce. clear - L2 L3 E. clearbody d. unfold pmin. qcases; destruct E; lra.
  - destruct (z_el _ _ _ Z); [left|right]; lra.
  - intro C. apply not_in_cons in C as (C0 & C). pose proof (z_nd _ _ _ Z C) as X. clear - C0 X. destruct p; try congruence; reduce; exact X.
  - intro C. apply not_in_cons in C as (C0 & C). pose proof (z_nh _ _ _ Z C) as X. clear - C0 X. destruct p; try congruence; reduce; exact X.
  - intro C. apply not_in_cons in C as (C0 & C). pose proof (z_nx _ _ _ Z C) as X. clear - C0 X. destruct p; try congruence; reduce; exact X.
  - pose proof (z_ni _ _ _ Z) as X. clear - B1 X. destruct p; try congruence; reduce; exact X.
  - destruct (z_ps _ _ _ Z) as (X1 & X2). clear - M0 M1 X1 X2. destruct p; reduce; split; lra.
  - pose proof (z_x _ _ _ Z) as X. pose proof (z_nx _ _ _ Z) as Nx. pose proof (z_el _ _ _ Z) as El. pose proof (z_wr _ _ _ Z) as Wr.
    pose proof (sg_res _ _ _ _ _ _ Sg) as S2. pose proof (sg_soc_cap _ _ _ _ _ _ Sg) as S4.
    assert (Gen : p <> ES_to_demand -> p <> ES_to_HP_to_demand -> p <> RES_to_ES -> 
      (write p (h, e) r ES_charging_from_RES == 0 /\ (RES_left (update p (h, e) c) == 0 \/ In RES_to_ES (p :: don))) \/ (write p (h, e) r ES_discharging_to_demand == 0 /\ write p (h, e) r ES_discharging_to_HP == 0)).
    { intros G1 G2 G3. assert (W : write p (h, e) r ES_charging_from_RES = r ES_charging_from_RES /\ write p (h, e) r ES_discharging_to_demand = r ES_discharging_to_demand /\ write p (h, e) r ES_discharging_to_HP = r ES_discharging_to_HP) by (clear - G1 G2 G3; destruct p; try congruence; repeat split; reflexivity).
      destruct W as (-> & -> & ->). destruct X as [(X & [Y|Y])|X]; [left; split; [exact X|left; lra]|left; split; [exact X|right; right; exact Y]|right; exact X]. }
    destruct p; try (apply Gen; discriminate); clear Gen.
    + (* the battery serves the demand *)
      assert (Nd := B2 ltac:(clear; cbn; tauto)). specialize (Nx Nd). assert (Hd : h <= elec_unmet c) by (cbn [amount] in Ha; injection Ha as <- <-; apply pmin_least).
      destruct El as [El|El]; [|left; reduce; split; [exact Nx|left; exact El]].
      destruct X as [(X & [Y|Y])|(X & Y)]; [left; reduce; split; [exact Nx|left; exact Y]|contradiction|]. right. reduce. split; [lra|exact Y].
    + (* it drives the heat pump *)
      assert (Nd := B2 ltac:(clear; cbn; tauto)). specialize (Nx Nd).
      destruct (driven Q I m c h e HJ eq_refl eq_refl (sg_heat _ _ _ _ _ _ Sg) (z_hp _ _ _ Z) (sg_hp _ _ _ _ _ _ Sg) (sg_soc _ _ _ _ _ _ Sg) Ha) as ((_ & Hw & _) & He).
      destruct (Wr (B4 eq_refl)) as [Y|Y]; [left; reduce; split; [exact Nx|left; exact Y]|].
      destruct X as [(X & [Y'|Y'])|(X & Y')]; [left; reduce; split; [exact Nx|left; exact Y']|contradiction|]. right. reduce. split; [exact X|].
      assert (H0 : h == 0) by lra. rewrite He, H0. field. lra.
    + (* it is charged *)
      cbn [amount] in Ha. injection Ha as <- <-. destruct (charge_least Q (RES_left c) (c_soc c) HQ S2 (S4 (proj1 Al eq_refl))) as ((C1 & _) & _).
      destruct X as [(X & [Y|Y])|X]; [|contradiction|right; exact X]. left. reduce. split; [lra|right; left; reflexivity].
Qed.
(** Sharing out the battery: the emptier one gives all it has, or both give the same. *)
Lemma give x x' u : 0 <= x -> x <= x' -> 0 <= u -> pmin u x <= pmin u x' /\ pmin u x' - pmin u x <= x' - x /\ (pmin u x == x \/ pmin u x' == pmin u x).
Proof. intros A B C. unfold pmin. qcases; repeat split; try lra; first [left; lra|right; lra]. Qed.
Lemma least_give e x u : least2 e x u -> e == pmin u x.
Proof. intros (A & B & C). unfold pmin. qcases; destruct C; lra. Qed.
Lemma pair_step don c r c' r' p h e h' e' : pair don c r c' r' -> side don c r -> side don c' r' ->
  Sgn P I t n don c -> Sgn P' I t n' don c' -> Sgn P I t n (p :: don) (update p (h, e) c) -> Sgn P' I t n' (p :: don) (update p (h', e') c') -> allowed don p -> ~ In p don -> battery_allowed don p ->
  amount P I t n p c = Ok (h, e) -> amount P' I t n' p c' = Ok (h', e') ->
  pair (p :: don) (update p (h, e) c) (write p (h, e) r) (update p (h', e') c') (write p (h', e') r').
Proof.
  intros Y Z Z' Sg Sg' Sn Sn' Al Np (B1 & B2 & B3 & B4) Ha Ha'.
  destruct (moves P n don c r p h e HP HI HS Z Sg Al Np B1 Ha) as (M0 & M1 & M2 & M3 & M4 & M5 & M6).
  destruct (moves P' n' don c' r' p h' e' HP' HI' HS' Z' Sg' Al Np B1 Ha') as (M0' & M1' & M2' & M3' & M4' & M5' & M6').
  destruct (delivered P I t n HP HI HS don c p h e Sg Al Np (proj1 (z_ts _ _ _ Z)) (proj1 (proj2 (z_ts _ _ _ Z))) (z_aux _ _ _ Z) Ha) as (_ & De).
  destruct (delivered P' I t n' HP' HI' HS' don c' p h' e' Sg' Al Np (proj1 (z_ts _ _ _ Z')) (proj1 (proj2 (z_ts _ _ _ Z'))) (z_aux _ _ _ Z') Ha') as (_ & De').
  assert (K0 : 0 < k) by apply HI.
  assert (El : is_electric P' = is_electric P) by (unfold is_electric; destruct Hbig as (_ & _ & _ & _ & _ & _ & _ & _ & _ & _ & -> & _); reflexivity).
  pose proof Hbig as (G1 & _ & G2 & _).
  (* the battery serves the demand or drives the heat pump *)
  assert (Ot : p = ES_to_demand \/ p = ES_to_HP_to_demand -> exists u, 0 <= u /\ e == pmin u (c_soc c) /\ e' == pmin u (c_soc c') /\ (p = ES_to_demand -> h = e /\ h' = e' /\ u == elec_unmet c) /\ (p = ES_to_HP_to_demand -> e == h / k /\ e' == h' / k)).
  { intros [->| ->].
    - pose proof (y_demand _ _ _ _ _ Y Np) as Ye. cbn [amount] in Ha, Ha'. injection Ha as <- <-. injection Ha' as <- <-. exists (elec_unmet c). split; [apply Sg|]. split; [reflexivity|]. split; [unfold pmin; qcases; lra|]. split; [intros _; split; [reflexivity|split; reflexivity]|discriminate].
    - destruct (driven P I n c h e HI eq_refl eq_refl (sg_heat _ _ _ _ _ _ Sg) (z_hp _ _ _ Z) (sg_hp _ _ _ _ _ _ Sg) (sg_soc _ _ _ _ _ _ Sg) Ha) as (L & E).
      destruct (driven P' I n' c' h' e' HI' eq_refl eq_refl (sg_heat _ _ _ _ _ _ Sg') (z_hp _ _ _ Z') (sg_hp _ _ _ _ _ _ Sg') (sg_soc _ _ _ _ _ _ Sg') Ha') as (L' & E').
      assert (Ww : within c' == within c). { unfold within. pose proof (y_same _ _ _ _ _ Y Np) as Q1. pose proof (y_use _ _ _ _ _ Y (or_intror Np)) as Q2. clearbody d. unfold pmin. qcases; lra. }
      assert (Wp : 0 <= within c). { unfold within. pose proof (sg_heat _ _ _ _ _ _ Sg). pose proof (z_hp _ _ _ Z). clearbody d. unfold pmin. qcases; lra. }
      assert (Cv : forall x y w, h <= h + 0 -> least2 x (y * k) w -> x / k == pmin (w / k) y).
      { clear - K0. clearbody k. intros x y w _ (L1 & L2 & L3). apply least_give. unfold least2.
        split; [apply Qle_shift_div_r; [exact K0|exact L1]|]. split; [apply Qle_shift_div_r; [exact K0|]; setoid_replace (w / k * k) with w by (field; lra); exact L2|]. destruct L3 as [-> | ->]; [left; field; lra|right; reflexivity]. }
      exists (within c / k). split; [apply Qle_shift_div_l; [exact K0|lra]|]. split; [rewrite E; apply Cv; [lra|exact L]|].
      split; [rewrite E', (Cv h' (c_soc c') (within c')) by (try exact L'; lra); assert (Wk : within c' / k == within c / k) by (rewrite Ww; reflexivity); unfold pmin; qcases; lra|]. split; [discriminate|]. intros _. split; assumption. }
  assert (Gv : p = ES_to_demand \/ p = ES_to_HP_to_demand -> 0 <= e /\ e <= e' /\ e' - e <= c_soc c' - c_soc c /\ e <= c_soc c /\ e' <= c_soc c' /\ (e == c_soc c \/ e' == e)).
  { intro G. destruct (Ot G) as (u & U0 & U1 & U2 & _). assert (Nr : ~ In RES_to_ES don) by (apply B2; destruct G as [-> | ->]; clear; cbn; tauto).
    destruct (y_lev _ _ _ _ _ Y Nr) as (L1 & L2). destruct (y_dis _ _ _ _ _ Y) as (_ & _ & D3 & _).
    destruct (give (c_soc c) (c_soc c') u (sg_soc _ _ _ _ _ _ Sg) ltac:(lra) U0) as (V1 & V2 & V3).
    clear - U1 U2 V1 V2 V3 M1. rewrite U1, U2 in *. repeat match goal with |- _ /\ _ => split end; try assumption; unfold pmin; qcases; lra. }
  assert (Ch : p = RES_to_ES -> exists w, 0 <= w <= b_charge_max b /\ h == Qmin w (b_capacity b - (soc - D r)) /\ h' == Qmin w (b_capacity b' - (soc' - D r')) /\ e = h /\ e' = h').
  { intros ->. pose proof (y_res _ _ _ _ _ Y Np) as R. destruct (y_lev _ _ _ _ _ Y Np) as (L1 & L2).
    pose proof (sg_soc_cap _ _ _ _ _ _ Sg (proj1 Al eq_refl)) as C1. pose proof (sg_soc_cap _ _ _ _ _ _ Sg' (proj1 Al eq_refl)) as C1'.
    pose proof (proj1 HP) as (_ & Cm & _). pose proof (proj1 HP') as (_ & Cm' & _). pose proof (sg_res _ _ _ _ _ _ Sg) as R0.
    cbn [amount] in Ha, Ha'. injection Ha as <- <-. injection Ha' as <- <-.
    exists (Qmin (Qmax (RES_left c) 0) (b_charge_max b)). split; [split; [apply Q.min_glb; [apply Q.le_max_r|exact Cm]|apply Q.le_min_r]|].
    split; [rewrite L_Sizing.max_charging_min by assumption; apply L_Sizing.min_compat; [reflexivity|unfold b; lra]|].
    split; [rewrite L_Sizing.max_charging_min by assumption; rewrite <- G2; apply L_Sizing.min_compat; [apply L_Sizing.min_compat; [rewrite R; reflexivity|reflexivity]|unfold b'; lra]|]. split; reflexivity. }
  assert (Sr : p = HP_RES_to_demand \/ p = EAUX_RES_to_demand -> h == h' /\ e == e').
  { intro G. assert (N1 : ~ In RES_to_ES don) by (apply B2; destruct G as [-> | ->]; clear; cbn; tauto). assert (N2 : ~ In ES_to_HP_to_demand don) by (apply B3; destruct G as [-> | ->]; clear; cbn; tauto).
    pose proof (y_res _ _ _ _ _ Y N1) as Q0. pose proof (y_same _ _ _ _ _ Y N2) as Q1. pose proof (y_use _ _ _ _ _ Y (or_intror N2)) as Q2.
    clear - G De De' Q0 Q1 Q2 El K0 d. unfold delivers in De, De'. rewrite El in De'. fold d in De, De'. fold k in De, De'. unfold least2, least3 in *. destruct G as [-> | ->].
    - assert (Q3 : RES_left c * k == RES_left c' * k) by (rewrite Q0; reflexivity). clearbody d k. destruct De as ((A1 & A2 & A3 & A4) & A5), De' as ((A1' & A2' & A3' & A4') & A5').
      assert (Eh : h == h') by (destruct A4 as [A4|[A4|A4]]; destruct A4' as [A4'|[A4'|A4']]; lra). split; [exact Eh|]. rewrite A5, A5', Eh. reflexivity.
    - destruct De as (A1 & A2), De' as (A1' & A2'). assert (Eh : h == h') by (destruct (is_electric P); [destruct A2 as (? & ? & [?|?]); destruct A2' as (? & ? & [?|?])|]; lra). split; [exact Eh|lra]. }
  assert (Hi : p = HP_import_to_demand -> h' <= h /\ e' <= e /\ heat_unmet c' - h' <= heat_unmet c - h /\ (~ In ES_to_HP_to_demand don -> h == h')).
  { intros ->. pose proof (y_use _ _ _ _ _ Y (or_introl Np)) as Q2. pose proof (y_heat _ _ _ _ _ Y) as Q1. pose proof (y_same _ _ _ _ _ Y) as Q3. clear - De De' Q1 Q2 Q3 K0 d. cbn [delivers] in De, De'. fold d in De, De'. fold k in De, De'. clearbody d k.
    unfold least2 in *. destruct De as ((A1 & A2 & A3) & A5), De' as ((A1' & A2' & A3') & A5').
    assert (Eh : h' <= h) by (destruct A3; lra). split; [exact Eh|]. split; [rewrite A5, A5'; apply Qmult_le_compat_r; [exact Eh|apply Qinv_le_0_compat; lra]|]. split; [destruct A3, A3'; lra|]. intro N. specialize (Q3 N). destruct A3, A3'; lra. }
  assert (Ax : p = AUX_to_demand -> h == heat_unmet c /\ h' == heat_unmet c') by (intros ->; split; [apply De|apply De']).
  assert (Ex : p = RES_to_export -> h == RES_left c /\ e == RES_left c /\ h' == RES_left c' /\ e' == RES_left c') by (intros ->; cbn [delivers] in De, De'; tauto).
  assert (Id : p = Import_to_demand -> h == elec_unmet c /\ h' == elec_unmet c') by (intros ->; split; assumption).
  assert (Ts : In p [TS_to_demand; HP_RES_to_TS; EAUX_RES_to_TS; HP_import_to_TS] -> h == 0 /\ e == 0 /\ h' == 0 /\ e' == 0).
  { intro G. clear - De De' G. cbn [In] in G. repeat (destruct G as [<-|G]; [cbn [delivers] in De, De'; tauto|]). destruct G. }
  clear De De' Ha Ha' Al.
  constructor.
  - intro C. apply not_in_cons in C as (C0 & C). pose proof (y_res _ _ _ _ _ Y C) as R. clear - C0 R Sr Ex Ts. destruct p; reduce; try exact R; try congruence.
    + destruct (Sr (or_introl eq_refl)); lra.
    + destruct (Sr (or_intror eq_refl)); lra.
    + destruct (Ts ltac:(clear; cbn; tauto)) as (? & ? & ? & ?); lra.
    + destruct (Ts ltac:(clear; cbn; tauto)) as (? & ? & ? & ?); lra.
    + destruct (Ex eq_refl) as (? & ? & ? & ?); lra.
  - pose proof (y_left _ _ _ _ _ Y) as R. destruct (y_dis _ _ _ _ _ Y) as (_ & D2 & D3 & _).
    destruct p; reduce; try exact R.
    + destruct (Sr (or_introl eq_refl)); lra.
    + destruct (Sr (or_intror eq_refl)); lra.
    + destruct (Ts ltac:(clear; cbn; tauto)) as (? & ? & ? & ?); lra.
    + destruct (Ts ltac:(clear; cbn; tauto)) as (? & ? & ? & ?); lra.
    + destruct (Ch eq_refl) as (w & _ & W1 & W2 & -> & ->). assert (V : h <= h'); [|lra]. rewrite W1, W2. apply Q.min_le_compat_l. clear - D2 D3 Hgap. lra.
    + destruct (Ex eq_refl) as (? & ? & ? & ?); lra.
  - pose proof (y_elec _ _ _ _ _ Y) as R. destruct p; reduce; try exact R.
    + destruct (Ot (or_introl eq_refl)) as (u & _ & _ & _ & U & _). destruct (U eq_refl) as (-> & -> & _). destruct (Gv (or_introl eq_refl)) as (_ & G & _). lra.
    + destruct (Id eq_refl); lra.
  - intro C. apply not_in_cons in C as (C0 & C). pose proof (y_demand _ _ _ _ _ Y C) as R. clear - C0 R Id. destruct p; reduce; try exact R; try congruence. destruct (Id eq_refl); lra.
  - intro C. apply not_in_cons in C as (C0 & C). pose proof (y_same _ _ _ _ _ Y C) as R. clear - C0 C R Sr Hi Ax Ts. destruct p; reduce; try exact R; try congruence.
    + destruct (Sr (or_introl eq_refl)); lra.
    + destruct (Sr (or_intror eq_refl)); lra.
    + destruct (Ts ltac:(clear; cbn; tauto)) as (? & ? & ? & ?); lra.
    + destruct (Hi eq_refl) as (_ & _ & _ & H). specialize (H C). lra.
    + destruct (Ax eq_refl); lra.
  - pose proof (y_heat _ _ _ _ _ Y) as R. clear - R Sr Hi Ax Ts Ot Gv K0. destruct p; reduce; try exact R.
    + destruct (Sr (or_introl eq_refl)); lra.
    + destruct (Sr (or_intror eq_refl)); lra.
    + destruct (Ts ltac:(clear; cbn; tauto)) as (? & ? & ? & ?); lra.
    + destruct (Ot (or_intror eq_refl)) as (u & _ & _ & _ & _ & U). destruct (U eq_refl) as (U1 & U2). destruct (Gv (or_intror eq_refl)) as (_ & G & _).
      assert (V : h <= h'). { clearbody k. assert (A : h == e * k) by (rewrite U1; field; lra). assert (A' : h' == e' * k) by (rewrite U2; field; lra). rewrite A, A'. apply Qmult_le_compat_r; lra. } lra.
    + apply (Hi eq_refl).
    + destruct (Ax eq_refl); lra.
  - intro C. assert (C1 : ~ In HP_import_to_demand don \/ ~ In ES_to_HP_to_demand don) by (destruct C as [C|C]; apply not_in_cons in C; tauto). pose proof (y_use _ _ _ _ _ Y C1) as R. clear - C R Sr Hi Ts. destruct p; reduce; try exact R.
    + destruct (Sr (or_introl eq_refl)); lra.
    + destruct C as [C|C]; [exfalso; apply C; left; reflexivity|]. apply not_in_cons in C as (_ & C). destruct (Hi eq_refl) as (_ & _ & _ & H). specialize (H C). lra.
    + destruct (Ts ltac:(clear; cbn; tauto)) as (? & ? & ? & ?); lra.
    + destruct (Ts ltac:(clear; cbn; tauto)) as (? & ? & ? & ?); lra.
  - pose proof (y_dis _ _ _ _ _ Y) as R.
    assert (G : (p = ES_to_demand \/ p = ES_to_HP_to_demand) \/ (D (write p (h, e) r) = D r /\ D (write p (h', e') r') = D r')) by (clear; destruct p; first [left; left; reflexivity|left; right; reflexivity|right; split; reflexivity]).
    destruct G as [G|(-> & ->)]; [|exact R]. destruct (Gv G) as (V0 & V1 & V2 & V3 & V4 & V5).
    assert (Nr : ~ In RES_to_ES don) by (apply B2; destruct G as [-> | ->]; clear; cbn; tauto). destruct (y_lev _ _ _ _ _ Y Nr) as (L1 & L2).
    assert (Dn : D (write p (h, e) r) == D r + e /\ D (write p (h', e') r') == D r' + e').
    { unfold D. destruct G as [-> | ->]; reduce.
      - destruct (Ot (or_introl eq_refl)) as (u & _ & _ & _ & U & _). destruct (U eq_refl) as (-> & -> & _). pose proof (z_nd _ _ _ Z Np). pose proof (z_nd _ _ _ Z' Np). split; lra.
      - pose proof (z_nh _ _ _ Z Np). pose proof (z_nh _ _ _ Z' Np). split; lra. }
    destruct Dn as (N1 & N2). clear - R V0 V1 V2 V3 V4 V5 L1 L2 N1 N2 M1. generalize dependent (D (write p (h, e) r)). intros y **. generalize dependent (D (write p (h', e') r')). intros y' **. generalize dependent (D r). intros x **. generalize dependent (D r'). intros x' **.
    destruct R as (R1 & R2 & R3 & R4 & R5 & R6). repeat match goal with |- _ /\ _ => split end; lra.
  - intro C. apply not_in_cons in C as (C0 & C). destruct (y_lev _ _ _ _ _ Y C) as (L1 & L2). pose proof (z_nd _ _ _ Z) as X1. pose proof (z_nd _ _ _ Z') as X1'. pose proof (z_nh _ _ _ Z) as X2. pose proof (z_nh _ _ _ Z') as X2'.
    clear - C0 L1 L2 X1 X1' X2 X2' Np B1 Ot D. unfold D in *. destruct p; reduce; try (split; assumption); try congruence.
    + specialize (X1 Np). specialize (X1' Np). destruct (Ot (or_introl eq_refl)) as (u & _ & _ & _ & U & _). destruct (U eq_refl) as (-> & -> & _). split; lra.
    + specialize (X2 Np). specialize (X2' Np). split; lra.
  - destruct (y_chg _ _ _ _ _ Y) as (w & W1 & W2). destruct (Process_dec p RES_to_ES) as [->|Ne].
    + destruct (Ch eq_refl) as (w' & W3 & W4 & W5 & -> & ->). exists w'. split; [exact W3|]. intros _. unfold D in *. reduce. split; assumption.
    + exists w. split; [exact W1|]. intros [C|C]; [congruence|]. specialize (W2 C).
      assert (Nd : p <> ES_to_demand /\ p <> ES_to_HP_to_demand) by (split; intros ->; apply (B2 ltac:(clear; cbn; tauto)), C).
      assert (E1 : write p (h, e) r ES_charging_from_RES = r ES_charging_from_RES /\ write p (h', e') r' ES_charging_from_RES = r' ES_charging_from_RES /\ D (write p (h, e) r) = D r /\ D (write p (h', e') r') = D r').
      { clear - Ne Nd D. destruct Nd as (N1 & N2). unfold D. destruct p; try congruence; repeat split; reflexivity. }
      destruct E1 as (-> & -> & -> & ->). exact W2.
  - pose proof (y_ie _ _ _ _ _ Y) as R. pose proof (y_elec _ _ _ _ _ Y) as Q1. clear - R Q1 Id. destruct p; reduce; try exact R. destruct (Id eq_refl); lra.
  - pose proof (y_ih _ _ _ _ _ Y) as R. clear - R Hi. destruct p; reduce; try exact R. apply (Hi eq_refl).
  - pose proof (y_ax _ _ _ _ _ Y) as R. pose proof (y_heat _ _ _ _ _ Y) as Q1. clear - R Q1 Ax. destruct p; reduce; try exact R. destruct (Ax eq_refl); lra.
  - pose proof (y_ex _ _ _ _ _ Y) as R. pose proof (y_left _ _ _ _ _ Y) as Q1. clear - R Q1 Ex. destruct p; reduce; try exact R. destruct (Ex eq_refl) as (? & ? & ? & ?); lra.
  - pose proof (y_de _ _ _ _ _ Y) as R. clear - R Ot Gv. destruct p; reduce; try exact R. destruct (Ot (or_introl eq_refl)) as (u & _ & _ & _ & U & _). destruct (U eq_refl) as (-> & -> & _). destruct (Gv (or_introl eq_refl)) as (_ & G & _). exact G.
  - pose proof (y_dh _ _ _ _ _ Y) as R. clear - R Gv. destruct p; reduce; try exact R. destruct (Gv (or_intror eq_refl)) as (_ & G & _). exact G.
Qed.
Lemma simple_allowed ps l1 p l2 : order_ok ps -> surplus_before_battery ps -> ps = l1 ++ p :: l2 -> battery_allowed (rev l1) p.
Proof.
  intros Ho (N1 & N2 & N3 & N4) E. split; [intros ->; apply N1; rewrite E; apply in_or_app; right; left; reflexivity|].
  split; [intros Hp C; apply in_rev in C; exact (N2 p Hp l1 l2 E C)|]. split; [intros Hp C; apply in_rev in C; exact (N3 p Hp l1 l2 E C)|].
  intros ->. apply in_rev. rewrite rev_involutive. assert (H : In HP_RES_to_demand ps) by (apply N4; rewrite E; apply in_or_app; right; left; reflexivity).
  rewrite E in H. apply in_app_or in H as [H|[H|H]]; [exact H|discriminate H|]. exfalso. apply in_split in H as (l3 & l4 & ->).
  apply (N3 HP_RES_to_demand ltac:(cbn; tauto) (l1 ++ ES_to_HP_to_demand :: l3) l4); [rewrite <- app_assoc; exact E|]. apply in_or_app. right. left. reflexivity.
Qed.
Lemma pair_run ps : order_ok ps -> surplus_before_battery ps -> forall l2 l1 c r c' r' cf rf cf' rf', ps = l1 ++ l2 ->
  pair (rev l1) c r c' r' -> side (rev l1) c r -> side (rev l1) c' r' -> Sgn P I t n (rev l1) c -> Sgn P' I t n' (rev l1) c' ->
  foldM (run_process P I t n) l2 (c, r) = Ok (cf, rf) -> foldM (run_process P' I t n') l2 (c', r') = Ok (cf', rf') ->
  pair (rev ps) cf rf cf' rf' /\ side (rev ps) cf rf /\ side (rev ps) cf' rf'.
Proof.
  intros Ho Hb. induction l2 as [|p l2 IH]; intros l1 c r c' r' cf rf cf' rf' E Q Z Z' Sg Sg' R R'.
  - cbn [foldM] in R, R'. injection R as <- <-. injection R' as <- <-. rewrite app_nil_r in E. subst. auto.
  - cbn [foldM] in R, R'. unfold run_process at 1 in R. unfold run_process at 1 in R'.
    destruct (amount P I t n p c) as [[h e]|] eqn:A; cbn [bind] in R; [|discriminate].
    destruct (amount P' I t n' p c') as [[h' e']|] eqn:A'; cbn [bind] in R'; [|discriminate].
    destruct (order_ok_allowed ps l1 p l2 Ho E) as (Al & Np). pose proof (simple_allowed ps l1 p l2 Ho Hb E) as Ba.
    assert (E' : ps = (l1 ++ [p]) ++ l2) by (rewrite <- app_assoc; exact E).
    assert (Sn : Sgn P I t n (p :: rev l1) (update p (h, e) c)) by (apply sgn_step; assumption).
    assert (Sn' : Sgn P' I t n' (p :: rev l1) (update p (h', e') c')) by (apply sgn_step; assumption).
    apply (IH (l1 ++ [p]) (update p (h, e) c) (write p (h, e) r) (update p (h', e') c') (write p (h', e') r') cf rf cf' rf' E'); try assumption; rewrite rev_unit; try assumption.
    + apply pair_step; assumption.
    + apply (side_step P n); assumption.
    + apply (side_step P' n'); assumption.
Qed.
End Pair.
