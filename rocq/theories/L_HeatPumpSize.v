(** Lemmas: an hour with a small and with a big heat pump. *)
From Verif Require Import Base BaseL M_Battery S_Battery L_Battery M_HeatPump M_Tools L_Tools M_FixedOrder S_FixedOrder S_HeatPumpSize L_FixedOrder L_FixedOrderSign L_FixedOrderHour L_FixedOrderProps.

Lemma Ok_eq {A} (a b : A) : Ok a = Ok b -> a = b.
Proof. congruence. Qed.
Lemma round2_zero x : x == 0 -> round2 x == 0.
Proof.
  intro E. unfold round2, pround, round_half_even.
  assert (F : Qfloor (x * inject_Z 100) = 0%Z) by (rewrite (Qfloor_comp _ 0); [reflexivity|rewrite E; reflexivity]).
  rewrite F. destruct (qlt_spec (x * inject_Z 100 - inject_Z 0) (1 # 2)) as [L|L]; [reflexivity|].
  exfalso. assert (Z : x * inject_Z 100 == 0) by (rewrite E; reflexivity). assert (N : inject_Z 0 == 0) by reflexivity. lra.
Qed.
Lemma pmin_zero a b : 0 <= a -> b == 0 -> pmin a b == 0.
Proof. intros A B. unfold pmin. qcases; lra. Qed.

(** What the processes of the heat side deliver when the store is nothing. *)
Section One.
Variables (P : plant) (I : hour_in) (t : Z) (n : nodes).
Hypothesis HP : plant_ok P.
Hypothesis HI : hour_ok P I.
Hypothesis HS : no_store P.
Let d := duty (i_perf I).
Let k := cop (i_perf I).

Lemma usage_exact h : 0 <= h -> h <= d -> elec_usage (p_hp_capacity P) h (i_perf I) == h / k.
Proof.
  intros A B. destruct HI as (_ & _ & _ & _ & _ & Hk & Hd & Hc & _). fold d in Hd, Hc. fold k in Hk.
  unfold elec_usage. fold k d. destruct (qeq_spec (p_hp_capacity P) 0) as [E|E].
  - specialize (Hc E). assert (h == 0) by lra. rewrite H. field. lra.
  - unfold pmin. destruct (qlt_spec (d / k) (h / k)) as [L|L]; [|reflexivity].
    exfalso. assert (h / k <= d / k); [|lra]. apply Qle_shift_div_l; [exact Hk|]. setoid_replace (h / k * k) with h by (field; lra). exact B.
Qed.
Definition least3 (h a b c : Q) : Prop := h <= a /\ h <= b /\ h <= c /\ (h == a \/ h == b \/ h == c).
Definition least2 (h a b : Q) : Prop := h <= a /\ h <= b /\ (h == a \/ h == b).
Definition delivers (k : Q) (p : process) (c : checks) (h e : Q) : Prop :=
  match p with
  | HP_RES_to_demand => least3 h (RES_left c * k) (heat_unmet c) (d - hp_usage c) /\ e == h / k
  | HP_import_to_demand => least2 h (heat_unmet c) (d - hp_usage c) /\ e == h / k
  | EAUX_RES_to_demand => e == h /\ if is_electric P then least2 h (RES_left c) (heat_unmet c) else h == 0
  | AUX_to_demand => h == heat_unmet c /\ e == h
  | RES_to_export => h == RES_left c /\ e == RES_left c
  | TS_to_demand | HP_RES_to_TS | EAUX_RES_to_TS | HP_import_to_TS => h == 0 /\ e == 0
  | Import_to_demand => h == elec_unmet c
  | ES_to_demand => b_capacity (p_battery P) == 0 -> c_soc c == 0 -> h == 0
  | RES_to_ES => b_capacity (p_battery P) == 0 -> c_soc c == 0 -> h == 0
  | Import_to_ES => b_capacity (p_battery P) == 0 -> c_soc c == 0 -> h == 0
  | _ => True
  end.
Lemma delivered don c p h e : Sgn P I t n don c -> allowed don p -> ~ In p don ->
  ts_charge c == 0 -> ts_discharge c == 0 -> heat_unmet c <= aux_left c ->
  amount P I t n p c = Ok (h, e) -> 0 <= h /\ delivers k p c h e.
Proof.
  intros Sg Hal Hn T1 T2 X Ha. split; [apply (amount_limits P I t n HP HI don c p h e Sg Hal Hn Ha)|].
  pose proof HI as (_ & _ & _ & _ & _ & Hk & Hd & Hc & _). fold d in Hd, Hc. fold k in Hk.
  pose proof (sg_elec _ _ _ _ _ _ Sg) as S1. pose proof (sg_heat _ _ _ _ _ _ Sg) as S2. pose proof (sg_res _ _ _ _ _ _ Sg) as S3.
  pose proof (sg_hp _ _ _ _ _ _ Sg) as S4. pose proof (sg_hp_duty _ _ _ _ _ _ Sg) as S5. pose proof (sg_soc _ _ _ _ _ _ Sg) as S6. fold d in S5.
  assert (S7 : 0 <= RES_left c * k) by nra. destruct Hal as (_ & Hal & _).
  destruct p; cbn [amount delivers] in *; try exact Logic.I.
  - intros B Z. injection Ha as <- _. unfold pmin. qcases; lra.
  - injection Ha as <- _. reflexivity.
  - specialize (S5 (Hal ltac:(cbn; tauto))). apply Ok_eq in Ha. pose proof (f_equal fst Ha) as E1. pose proof (f_equal snd Ha) as E2. cbn [fst snd] in E1, E2. clear Ha.
    assert (L : least3 h (RES_left c * k) (heat_unmet c) (d - hp_usage c)).
    { subst h. unfold thermal_output. fold k d. destruct (qeq_spec (p_hp_capacity P) 0) as [E|E]; cbn [fst].
      - specialize (Hc E). unfold pmin, least3. qcases; repeat split; try lra; right; right; lra.
      - unfold pmin, least3. qcases; repeat split; try lra; first [left; lra|right; left; lra|right; right; lra]. }
    split; [exact L|]. rewrite <- E2. rewrite E1. apply usage_exact; unfold least3 in L; lra.
  - destruct (is_electric P).
    + injection Ha as <- <-. split; [reflexivity|]. unfold pmin, least2. qcases; repeat split; try lra; first [left; lra|right; lra].
    + injection Ha as <- <-. split; reflexivity.
  - destruct (t_max (p_tank P) Discharging n (i_source_temp I) (i_flow_temp I) t) as [m|] eqn:M; cbn [bind] in Ha; [|discriminate].
    apply HS in M. injection Ha as <- <-. assert (Z : pmin (heat_unmet c) (m - ts_discharge c + ts_charge c) == 0) by (apply pmin_zero; lra). split; exact Z.
  - specialize (S5 (Hal ltac:(cbn; tauto))). apply Ok_eq in Ha. pose proof (f_equal fst Ha) as E1. pose proof (f_equal snd Ha) as E2. cbn [fst snd] in E1, E2. clear Ha.
    assert (L : least2 h (heat_unmet c) (d - hp_usage c)).
    { subst h. fold d. destruct (qeq_spec (p_hp_capacity P) 0) as [E|E].
      - specialize (Hc E). unfold least2. repeat split; lra.
      - unfold pmin, least2. qcases; repeat split; try lra; first [left; lra|right; lra]. }
    split; [exact L|]. rewrite <- E2. rewrite E1. apply usage_exact; unfold least2 in L; lra.
  - injection Ha as <- <-. split; reflexivity.
  - specialize (S5 (Hal ltac:(cbn; tauto))).
    destruct (t_max (p_tank P) Charging n (i_source_temp I) (i_flow_temp I) t) as [m|] eqn:M; cbn [bind] in Ha; [|discriminate].
    apply HS in M. apply Ok_eq in Ha. pose proof (f_equal fst Ha) as E1. pose proof (f_equal snd Ha) as E2. cbn [fst snd] in E1, E2. clear Ha.
    assert (Z : h == 0). { rewrite <- E1. fold k d. apply pmin_zero; [apply pmin_glb; lra|lra]. }
    split; [exact Z|]. rewrite <- E2. rewrite E1. rewrite usage_exact; [rewrite Z; field; lra|lra|lra].
  - destruct (is_electric P).
    + destruct (t_max (p_tank P) Charging n (i_source_temp I) (i_flow_temp I) t) as [m|] eqn:M; cbn [bind] in Ha; [|discriminate].
      apply HS in M. injection Ha as <- <-.
      assert (Z : pmin (pmin (aux_left c) (RES_left c)) (m + ts_discharge c - ts_charge c) == 0) by (apply pmin_zero; [apply pmin_glb; lra|lra]). split; exact Z.
    + injection Ha as <- <-. split; reflexivity.
  - specialize (S5 Hn). destruct (t_max (p_tank P) Charging n (i_source_temp I) (i_flow_temp I) t) as [m|] eqn:M; cbn [bind] in Ha; [|discriminate].
    apply HS in M. apply Ok_eq in Ha. pose proof (f_equal fst Ha) as E1. pose proof (f_equal snd Ha) as E2. cbn [fst snd] in E1, E2. clear Ha.
    assert (Z : h == 0). { rewrite <- E1. destruct (qeq (p_hp_capacity P) 0); [reflexivity|]. apply round2_zero, pmin_zero; [fold d; lra|lra]. }
    split; [exact Z|]. rewrite <- E2. rewrite E1. rewrite usage_exact; [rewrite Z; field; lra|lra|lra].
  - intros B Z. injection Ha as <- _. unfold max_charging, pmin. pose proof (proj1 HP) as (_ & Hm & _). qcases; lra.
  - intros B Z. injection Ha as <- _. unfold charge_to_capacity, self_loss, pmin. pose proof (proj1 HP) as (_ & Hm & _).
    assert (Y : (b_capacity (p_battery P) - c_soc c) * b_charge_eff (p_battery P) == 0) by (rewrite B, Z; ring).
    assert (Y' : c_soc c * b_self_discharge (p_battery P) == 0) by (rewrite Z; ring). qcases; lra.
  - injection Ha as <- <-. split; reflexivity.
Qed.
(** Without any output the coefficient of performance does not matter. *)
Lemma recop k' p c h e : d == 0 \/ k == k' -> 0 < k' -> 0 <= hp_usage c -> 0 <= RES_left c -> 0 <= h -> delivers k p c h e -> delivers k' p c h e.
Proof.
  intros Hk' K' S4 S3 Hh D. destruct p; cbn [delivers] in *; try exact D; destruct D as (D & De).
  - unfold least3 in *. destruct Hk' as [Z|E]; [|rewrite <- !E; split; assumption]. destruct D as (D1 & D2 & D3 & _). assert (H0 : h == 0) by lra.
    split; [|rewrite De, H0; unfold Qdiv; rewrite !Qmult_0_l; reflexivity]. assert (0 <= RES_left c * k') by nra. repeat split; lra.
  - unfold least2 in *. destruct Hk' as [Z|E]; [|rewrite <- !E; split; assumption]. destruct D as (D1 & D2 & _). assert (H0 : h == 0) by lra.
    split; [|rewrite De, H0; unfold Qdiv; rewrite !Qmult_0_l; reflexivity]. repeat split; lra.
Qed.
End One.

(** ** The two runs side by side *)
Section Two.
Variables (P P' : plant) (I I' : hour_in) (t : Z) (n n' : nodes).
Hypothesis HP : plant_ok P.
Hypothesis HP' : plant_ok P'.
Hypothesis HI : hour_ok P I.
Hypothesis HI' : hour_ok P' I'.
Hypothesis HS : no_store P.
Hypothesis HS' : no_store P'.
Hypothesis Hel : is_electric P = is_electric P'.
Hypothesis Hcap : b_capacity (p_battery P) = b_capacity (p_battery P').
Hypothesis Hk : duty (i_perf I) == 0 \/ cop (i_perf I) == cop (i_perf I').
Hypothesis Hk1 : 1 <= cop (i_perf I').
Hypothesis Hd : duty (i_perf I) <= duty (i_perf I').
Let d := duty (i_perf I).
Let d' := duty (i_perf I').
Let k := cop (i_perf I').

Record pair (don : list process) (c : checks) (r : fields) (c' : checks) (r' : fields) : Prop := {
  q_u : heat_unmet c' <= heat_unmet c;
  q_s : hp_usage c <= hp_usage c';
  q_d : d - hp_usage c <= d' - hp_usage c';
  q_t : ~ In HP_import_to_demand don -> heat_unmet c + hp_usage c <= heat_unmet c' + hp_usage c';
  q_e : ~ In EAUX_RES_to_demand don -> ~ In HP_import_to_demand don -> ~ In AUX_to_demand don -> ~ In RES_to_ES don ->
    heat_unmet c + hp_usage c == heat_unmet c' + hp_usage c' /\ RES_left c' <= RES_left c /\ RES_left c - RES_left c' <= heat_unmet c - heat_unmet c';
  q_f : ~ In HP_RES_to_demand don -> ~ In HP_import_to_demand don -> ~ In RES_to_ES don ->
    heat_unmet c == heat_unmet c' /\ hp_usage c == hp_usage c' /\ RES_left c == RES_left c';
  q_x : heat_unmet c <= aux_left c;
  q_x' : heat_unmet c' <= aux_left c';
  q_a : ~ In AUX_to_demand don -> r HD_aux == 0 /\ r' HD_aux == 0;
  q_i : ~ In HP_import_to_demand don -> r GRID_import_for_heat_pump_to_heat_demand == 0 /\ r' GRID_import_for_heat_pump_to_heat_demand == 0;
  q_n : ~ In EAUX_RES_to_demand don -> r AUX_RES_to_demand == 0 /\ r' AUX_RES_to_demand == 0;
  q_0 : (r HD_aux == 0 /\ r' HD_aux == 0) \/ heat_unmet c == 0;
  q_b : r' HD_aux + r' AUX_RES_to_demand <= r HD_aux + r AUX_RES_to_demand;
  q_j : r' GRID_import_for_heat_pump_to_heat_demand + heat_unmet c' + r' HD_aux <= r GRID_import_for_heat_pump_to_heat_demand + heat_unmet c + r HD_aux;
  q_z : ts_charge c == 0 /\ ts_discharge c == 0 /\ r GRID_import_for_heat_pump_to_TS == 0;
  q_z' : ts_charge c' == 0 /\ ts_discharge c' == 0 /\ r' GRID_import_for_heat_pump_to_TS == 0;
  q_g : b_capacity (p_battery P) == 0 -> c_soc c == 0 /\ c_soc c' == 0 /\ elec_unmet c == elec_unmet c' /\
    r GRID_import_for_elec_demand == r' GRID_import_for_elec_demand /\ r GRID_import_for_ES == 0 /\ r' GRID_import_for_ES == 0 }.

Definition surplus_allowed (don : list process) (p : process) : Prop :=
  p <> ES_to_HP_to_demand /\
  (In p [HP_RES_to_demand; EAUX_RES_to_demand] -> ~ In HP_import_to_demand don /\ ~ In RES_to_ES don).

Lemma ratio x y : x <= y -> 0 <= y / k - x / k <= y - x.
Proof.
  intro L. assert (K : 1 <= k) by exact Hk1. setoid_replace (y / k - x / k) with ((y - x) / k) by (field; lra).
  split; [apply Qle_shift_div_l; [lra|rewrite Qmult_0_l; lra]|apply Qle_shift_div_r; [lra|nra]].
Qed.
Ltac tidy :=
  repeat match goal with
  | H : ~ In ?q (?p :: ?l) |- _ => apply not_in_cons in H; let N := fresh "N" in destruct H as (N & H); first [congruence | clear N]
  | K : ~ In ?q ?l, H : ~ In ?q ?l -> _ |- _ => specialize (H K)
  end.
Ltac close := intros; tidy; repeat match goal with K : ?a, H : ?a -> _ |- _ => specialize (H K) end;
  repeat match goal with H : _ /\ _ |- _ => destruct H end;
  repeat match goal with H : ?a -> ?b |- _ => clear H | H : ~ _ |- _ => clear H end; repeat match goal with |- _ /\ _ => split end; lra.
Lemma pair_step don c r c' r' p h e h' e' : pair don c r c' r' -> Sgn P I t n don c -> Sgn P' I' t n' don c' ->
  allowed don p -> ~ In p don -> surplus_allowed don p ->
  amount P I t n p c = Ok (h, e) -> amount P' I' t n' p c' = Ok (h', e') ->
  pair (p :: don) (update p (h, e) c) (write p (h, e) r) (update p (h', e') c') (write p (h', e') r').
Proof.
  intros Q Sg Sg' Al Np (A1 & A2) Ha Ha'.
  destruct (delivered P I t n HP HI HS don c p h e Sg Al Np (proj1 (q_z _ _ _ _ _ Q)) (proj1 (proj2 (q_z _ _ _ _ _ Q))) (q_x _ _ _ _ _ Q) Ha) as (Hn0 & D).
  destruct (delivered P' I' t n' HP' HI' HS' don c' p h' e' Sg' Al Np (proj1 (q_z' _ _ _ _ _ Q)) (proj1 (proj2 (q_z' _ _ _ _ _ Q))) (q_x' _ _ _ _ _ Q) Ha') as (Hn0' & D').
  pose proof (sg_heat _ _ _ _ _ _ Sg) as S1. pose proof (sg_heat _ _ _ _ _ _ Sg') as S1'. pose proof (sg_res _ _ _ _ _ _ Sg) as S2. pose proof (sg_res _ _ _ _ _ _ Sg') as S2'.
  apply (recop P I _ _ _ _ _ Hk) in D; [|lra|exact (sg_hp _ _ _ _ _ _ Sg)|exact S2|exact Hn0].
  clear Ha Ha' Sg Sg'. destruct Q as [U Ss Dd T E F X X' A Im N O B J (Z1 & Z2 & Z3) (Z1' & Z2' & Z3') G].
  unfold delivers in D, D'. fold d in D. fold d' in D'. fold k in D, D'. rewrite <- Hel in D'. rewrite <- Hcap in D'.
  pose proof ratio as Ra. assert (K1 : 1 <= k) by exact Hk1. assert (Dl : d <= d') by exact Hd.
  clearbody d d' k. clear Hk Hk1 Hd HP HP' HI HI' HS HS' Hel.
  destruct p; try (exfalso; apply A1; reflexivity); clear A1; try (specialize (A2 (or_introl eq_refl)); destruct A2 as (A2 & A3)); try (specialize (A2 (or_intror (or_introl eq_refl))); destruct A2 as (A2 & A3)).
  all: constructor; cbn [update write fst snd elec_unmet heat_unmet RES_left hp_usage ts_discharge ts_charge c_soc aux_left in_elec_unmet in_heat_unmet in_RES_left in_hp_usage in_ts_discharge in_ts_charge in_aux upd field_eqb field_id Pos.eqb].
  all: try solve [close].
  all: try solve [intro B0; destruct (G B0) as (G1 & G2 & G3 & G4 & G5 & G6); specialize (D B0 G1); specialize (D' B0 G2); close].
  all: try solve [clear - D O Hn0 S1; destruct O as [(O & O')|O]; [left; split; assumption|right; unfold least3, least2 in D; destruct (is_electric P); lra]].
  all: try solve [clear - D D' Hn0 S1; right; lra].
  1-6: destruct (F Np A2 A3) as (F1 & F2 & F3); destruct D as ((L1 & L2 & L3 & L4) & De); destruct D' as ((L1' & L2' & L3' & L4') & De').
  1-6: assert (W : RES_left c * k == RES_left c' * k) by (rewrite F3; reflexivity).
  1-6: generalize dependent (RES_left c * k); intros q **; generalize dependent (RES_left c' * k); intros q' **.
  1-6: assert (Hh : h <= h') by (clear - L1 L2 L3 L4' F1 F2 Dl W; destruct L4' as [->|[->| ->]]; lra); pose proof (Ra h h' Hh) as Rh; clear Ra.
  1-6: clear B T E A N G Im Al Z1 Z1' Z2 Z2' Z3 Z3' F X X' Np A2 A3 L4'.
  1-2: lra.
  1: destruct L4 as [L4|[L4|L4]]; lra.
  1: split; [lra|split; lra].
  1: destruct O as [(O & O')|O]; [left; split; assumption|right; lra].
  1: lra.
  1-5: destruct (E Np A2 (proj2 (proj2 Al) eq_refl) A3) as (E1 & E2 & E3); destruct (A (proj2 (proj2 Al) eq_refl)) as (A4 & A5); destruct (Im A2) as (I4 & I5); destruct D as (De & D); destruct D' as (De' & D').
  1-5: clear T E Ra.
  1-5: destruct (is_electric P); [destruct D as (D1 & D2 & D3), D' as (D1' & D2' & D3')|].
  1-10: clear X X' B J O Z1 Z2 Z3 Z1' Z2' Z3' G Ss Dd Dl K1.
  1: destruct D3' as [D3'|D3']; lra.
  1: lra.
  1: intros _; destruct D3 as [D3|D3]; lra.
  1: intros _; lra.
  1: intros K _ _; tidy; destruct F as (F1 & F2 & F3); destruct D3 as [D3|D3]; destruct D3' as [D3'|D3']; (split; [lra|split; lra]).
  1: intros K _ _; tidy; destruct F as (F1 & F2 & F3); (split; [lra|split; lra]).
  1: destruct D3 as [D3|D3]; lra.
  1: lra.
  1: destruct D3' as [D3'|D3']; lra.
  1: lra.
  1-5: destruct (Im Np) as (I4 & I5); specialize (T Np); destruct D as ((L1 & L2 & L3) & De); destruct D' as ((L1' & L2' & L3') & De'); clear E F A Im N B G Z1 Z2 Z3 Z1' Z2' Z3' X X' A2 Al.
  1: clear Ra; destruct L3' as [L3'|L3']; lra.
  1: clear Ra; destruct L3' as [L3'|L3']; lra.
  1: clear Ra; destruct L3 as [L3|L3]; lra.
  1: destruct O as [(O & O')|O]; [left; split; assumption|right; clear Ra; lra].
  destruct (Qlt_le_dec h' h) as [Hh|Hh].
  + pose proof (Ra h' h (Qlt_le_weak _ _ Hh)) as Rh. clear Ra. destruct O as [(O & O')|O]; [|exfalso; lra]. destruct L3' as [L3'|L3']; lra.
  + pose proof (Ra h h' Hh) as Rh. clear Ra. lra.
Qed.

Lemma surplus_first_allowed ps l1 p l2 : surplus_first ps -> ps = l1 ++ p :: l2 -> surplus_allowed (rev l1) p.
Proof.
  intros (N & H) E. split.
  - intros ->. apply N. subst ps. apply in_or_app. right. left. reflexivity.
  - intro Hp. destruct (H p Hp) as (H1 & H2). split; intro C; apply in_rev in C; [exact (H1 l1 l2 E C)|exact (H2 l1 l2 E C)].
Qed.
Lemma pair_run ps : order_ok ps -> surplus_first ps -> forall l2 l1 c r c' r' cf rf cf' rf', ps = l1 ++ l2 ->
  pair (rev l1) c r c' r' -> Sgn P I t n (rev l1) c -> Sgn P' I' t n' (rev l1) c' ->
  foldM (run_process P I t n) l2 (c, r) = Ok (cf, rf) -> foldM (run_process P' I' t n') l2 (c', r') = Ok (cf', rf') ->
  pair (rev ps) cf rf cf' rf'.
Proof.
  intros Ho Hf. induction l2 as [|p l2 IH]; intros l1 c r c' r' cf rf cf' rf' E Q Sg Sg' R R'.
  - cbn [foldM] in R, R'. injection R as <- <-. injection R' as <- <-. rewrite app_nil_r in E. subst. exact Q.
  - cbn [foldM] in R, R'. unfold run_process at 1 in R. unfold run_process at 1 in R'.
    destruct (amount P I t n p c) as [[h e]|] eqn:A; cbn [bind] in R; [|discriminate].
    destruct (amount P' I' t n' p c') as [[h' e']|] eqn:A'; cbn [bind] in R'; [|discriminate].
    destruct (order_ok_allowed ps l1 p l2 Ho E) as (Al & Np). pose proof (surplus_first_allowed ps l1 p l2 Hf E) as Sa.
    assert (E' : ps = (l1 ++ [p]) ++ l2) by (rewrite <- app_assoc; exact E).
    apply (IH (l1 ++ [p]) (update p (h, e) c) (write p (h, e) r) (update p (h', e') c') (write p (h', e') r') cf rf cf' rf' E'); try assumption; rewrite rev_unit.
    + apply pair_step; assumption.
    + apply sgn_step; assumption.
    + apply sgn_step; assumption.
Qed.
Lemma pair_init soc soc' r0 r0' : level_ok (p_battery P) soc -> level_ok (p_battery P') soc' ->
  i_wind I = i_wind I' -> i_PV I = i_PV I' -> i_elec_demand I = i_elec_demand I' -> i_heat_demand I = i_heat_demand I' -> p_max_heat P = p_max_heat P' ->
  (forall f, In f (flat_map writes all_processes) -> r0 f = 0) -> (forall f, In f (flat_map writes all_processes) -> r0' f = 0) ->
  pair [] (init_checks P I soc) r0 (init_checks P' I' soc') r0'.
Proof.
  intros (L1 & L2) (L1' & L2') E1 E2 E3 E4 E5 Z Z'.
  assert (W : forall f, In f [HD_aux; GRID_import_for_heat_pump_to_heat_demand; AUX_RES_to_demand; GRID_import_for_heat_pump_to_TS; GRID_import_for_elec_demand; GRID_import_for_ES] -> r0 f = 0 /\ r0' f = 0).
  { intros f Hf. assert (Hf' : In f (flat_map writes all_processes)).
    { cbn in Hf. repeat (destruct Hf as [<-|Hf]; [cbn; auto 60|]). destruct Hf. }
    split; [apply Z, Hf'|apply Z', Hf']. }
  destruct HI as (_ & _ & _ & _ & Hm & _). pose proof Hm as Hm'. rewrite E4, E5 in Hm'.
  destruct (W HD_aux ltac:(cbn; auto)) as (W1 & W1'). destruct (W GRID_import_for_heat_pump_to_heat_demand ltac:(cbn; auto)) as (W2 & W2').
  destruct (W AUX_RES_to_demand ltac:(cbn; auto)) as (W3 & W3'). destruct (W GRID_import_for_heat_pump_to_TS ltac:(cbn; auto)) as (W4 & W4').
  destruct (W GRID_import_for_elec_demand ltac:(cbn; auto 7)) as (W5 & W5'). destruct (W GRID_import_for_ES ltac:(cbn; auto 9)) as (W6 & W6').
  assert (Dl : d <= d') by exact Hd. clearbody d d' k. assert (L3 : soc <= b_capacity (p_battery P')) by (rewrite <- Hcap; exact L2). assert (L3' : soc' <= b_capacity (p_battery P)) by (rewrite Hcap; exact L2').
  constructor; unfold init_checks; cbn [elec_unmet heat_unmet RES_left hp_usage ts_discharge ts_charge c_soc aux_left]; rewrite ?W1, ?W1', ?W2, ?W2', ?W3, ?W3', ?W4, ?W4', ?W5, ?W5', ?W6, ?W6', ?E1, ?E2, ?E3, ?E4, ?E5; intros;
    repeat match goal with |- _ /\ _ => split end; try reflexivity; try lra; try (rewrite ?E4, ?E5 in *; lra).
Qed.
End Two.

(** ** The records *)
Lemma untouched_output P I soc u pr de r : finish_fields P I soc u pr de r HP_heat_total_output =
  r HP_heat_from_RES_to_demand + r HP_heat_from_import_to_demand + r HP_heat_from_ES_to_demand + (r HP_heat_from_RES_to_TS + r HP_heat_from_import_to_TS).
Proof. unfold finish_fields, above_rec, below_rec. destruct (hi P I); reflexivity. Qed.
Lemma untouched_aux P I soc u pr de r : finish_fields P I soc u pr de r AUX_demand = total_aux r.
Proof. unfold finish_fields, above_rec, below_rec. destruct (hi P I); reflexivity. Qed.
Lemma untouched_usage P I soc u pr de r : finish_fields P I soc u pr de r AUX_usage = u.
Proof. unfold finish_fields, above_rec, below_rec. destruct (hi P I); reflexivity. Qed.
Lemma untouched_surplus P I soc u pr de r : finish_fields P I soc u pr de r AUX_RES_to_demand = r AUX_RES_to_demand.
Proof. unfold finish_fields, above_rec, below_rec. destruct (hi P I); reflexivity. Qed.
Lemma untouched_heat_pump P I soc u pr de r : finish_fields P I soc u pr de r GRID_import_for_heat_pump_total =
  r GRID_import_for_heat_pump_to_heat_demand + r GRID_import_for_heat_pump_to_TS.
Proof. unfold finish_fields, above_rec, below_rec. destruct (hi P I); reflexivity. Qed.
Lemma untouched_import P I soc u pr de r : is_electric P = true -> finish_fields P I soc u pr de r GRID_total_import ==
  r GRID_import_for_elec_demand + (r GRID_import_for_heat_pump_to_heat_demand + r GRID_import_for_heat_pump_to_TS) + r GRID_import_for_ES + r HD_aux.
Proof.
  intro E. unfold finish_fields, above_rec, below_rec, grid_totals, is_electric in *. rewrite E. destruct (hi P I); fld; ring.
Qed.
(** An hour nobody corrects *)
Lemma quiet_open P I t n soc rc : good_hour P I soc -> quiet P I t n soc -> hour_step P I t n soc = Ok rc ->
  exists ps c r u pr de rc0, processes_of P I ps /\ order_ok ps /\
    foldM (run_process P I t n) ps (init_checks P I soc, start_fields P I) = Ok (c, r) /\
    Acc (init_checks P I soc) (start_fields P I) (rev ps) c r /\ Sgn P I t n (rev ps) c /\ written_nonneg r /\ done_zero (rev ps) c /\
    fuel_usage (a_efficiency (p_aux P)) (total_aux r) = Ok u /\ rf rc0 = finish_fields P I soc u pr de r /\ rc = complete I rc0.
Proof.
  intros Hg Hq H. destruct (hour_open P I t n soc rc Hg H) as (ps & c & r & u & pr & de & rc0 & rc1 & H1 & H2 & H3 & H4 & H5 & H6 & H7 & H8 & _ & H9 & H10 & H11 & H12).
  pose proof (quiet_corrected P I t n soc c rc0 rc1 Hq H10 H11). subst rc1.
  exists ps, c, r, u, pr, de, rc0. auto 12.
Qed.
