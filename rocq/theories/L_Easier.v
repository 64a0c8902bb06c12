(** Lemmas: the same order of processes in an hour and in an easier hour. *)
From Verif Require Import Base BaseL M_Battery S_Battery L_Battery M_HeatPump M_Tools L_Tools M_FixedOrder S_FixedOrder S_HeatPumpSize S_Easier L_FixedOrder L_FixedOrderSign L_FixedOrderHour L_FixedOrderProps L_HeatPumpSize.

Section Pair.
Variables (P P' : plant) (I I' : hour_in) (t : Z) (n n' : nodes) (soc soc' : Q).
Hypothesis HP : plant_ok P.
Hypothesis HP' : plant_ok P'.
Hypothesis HI : hour_ok P I.
Hypothesis HI' : hour_ok P' I'.
Hypothesis HS : no_store P.
Hypothesis HS' : no_store P'.
Hypothesis Hel : is_electric P = is_electric P'.
Hypothesis Hbat : p_battery P = p_battery P'.
Hypothesis Hdut : duty (i_perf I) = duty (i_perf I').
Hypothesis Hcop : cop (i_perf I) <= cop (i_perf I').
Hypothesis Hl : level_ok (p_battery P) soc.
Hypothesis Hl' : level_ok (p_battery P) soc'.
Let b := p_battery P.
Let d := duty (i_perf I).
Let k := cop (i_perf I).
Let k' := cop (i_perf I').
(** What the heat pump could still deliver of the heat demand *)
Let within (c : checks) : Q := pmin (heat_unmet c) (d - hp_usage c).

(** One side: nothing goes to or comes from the store, and a heat pump that has bought what it can has nothing left to do. *)
Record side (don : list process) (c : checks) (r : fields) : Prop := {
  z_hp : hp_usage c <= d;
  z_aux : heat_unmet c <= aux_left c;
  z_ts : ts_charge c == 0 /\ ts_discharge c == 0 /\ r GRID_import_for_heat_pump_to_TS == 0;
  z_w : In HP_import_to_demand don -> within c == 0 }.
Record pair (don : list process) (c : checks) (r : fields) (c' : checks) (r' : fields) : Prop := {
  y_res : RES_left c <= RES_left c';
  y_elec : elec_unmet c' <= elec_unmet c;
  y_within : within c' <= within c;
  y_beyond : heat_unmet c' - within c' <= heat_unmet c - within c;
  y_soc : ~ In Import_to_ES don -> c_soc c <= c_soc c';
  y_full : c_soc c <= c_soc c' \/ b_capacity b <= c_soc c';
  y_ie : r' GRID_import_for_elec_demand <= r GRID_import_for_elec_demand;
  y_ih : r' GRID_import_for_heat_pump_to_heat_demand <= r GRID_import_for_heat_pump_to_heat_demand;
  y_is : r' GRID_import_for_ES <= r GRID_import_for_ES;
  y_ax : r' HD_aux <= r HD_aux;
  y_ex : r GRID_total_export <= r' GRID_total_export }.

Ltac tidy :=
  repeat match goal with
  | H : ~ In ?q (?p :: ?l) |- _ => apply not_in_cons in H; let N := fresh "N" in destruct H as (N & H); first [congruence | clear N]
  | K : ~ In ?q ?l, H : ~ In ?q ?l -> _ |- _ => specialize (H K)
  end.
Ltac close := intros; tidy; repeat match goal with K : ?a, H : ?a -> _ |- _ => specialize (H K) end;
  repeat match goal with H : _ /\ _ |- _ => destruct H end;
  repeat match goal with H : ?a -> ?b |- _ => clear H | H : ~ _ |- _ => clear H end; repeat match goal with |- _ /\ _ => split end; lra.
Ltac reduce := cbn [update write fst snd elec_unmet heat_unmet RES_left hp_usage ts_discharge ts_charge c_soc aux_left in_elec_unmet in_heat_unmet in_RES_left in_hp_usage in_ts_discharge in_ts_charge in_aux upd field_eqb field_id Pos.eqb].

Ltac mins := repeat match goal with
  | |- context [pmin ?x ?y] => let L := fresh "L" in assert (L : least2 (pmin x y) x y) by (unfold least2, pmin; qcases; repeat split; try lra; first [left; lra|right; lra]); generalize dependent (pmin x y); intros
  end.
Ltac ands := repeat match goal with H : _ /\ _ |- _ => destruct H end.
Ltac ors := ands; repeat (match goal with H : _ \/ _ |- _ => destruct H as [H|H] end; ands).
Lemma charge_of q s : 0 <= q -> s <= b_capacity b -> least3 (max_charging b q s) q (b_charge_max b) (b_capacity b - s) /\ 0 <= max_charging b q s.
Proof. intros A B. pose proof (proj1 HP) as (_ & Hm & _). fold b in Hm. unfold max_charging, least3, pmin. qcases; repeat split; try lra; first [left; lra|right; left; lra|right; right; lra]. Qed.

(** May [p] run after the processes [don]? *)
Definition battery_allowed (don : list process) (p : process) : Prop :=
  (p = ES_to_demand -> ~ In Import_to_ES don) /\ (p = ES_to_HP_to_demand -> In HP_import_to_demand don).
(** A battery that drives the heat pump after that does nothing. *)
Lemma nothing_left Q J m c h e : hour_ok Q J -> duty (i_perf J) = duty (i_perf I) -> within c == 0 -> 0 <= heat_unmet c -> hp_usage c <= d -> 0 <= hp_usage c -> 0 <= c_soc c ->
  amount Q J t m ES_to_HP_to_demand c = Ok (h, e) -> h == 0 /\ e == 0.
Proof.
  intros HJ Ep W S1 U U0 S3 Ha. cbn [amount] in Ha. apply Ok_eq in Ha. pose proof (f_equal fst Ha) as E1. pose proof (f_equal snd Ha) as E2. cbn [fst snd] in E1, E2. clear Ha.
  pose proof HJ as (_ & _ & _ & _ & _ & Hk & Hd & Hc & _). rewrite Ep in E1, E2, Hd, Hc. fold d in E1, E2, Hd, Hc. assert (M : 0 <= c_soc c * cop (i_perf J)) by nra. unfold within in W.
  assert (Z : h == 0).
  { rewrite <- E1. unfold thermal_output. rewrite ?Ep. fold d. destruct (qeq (p_hp_capacity Q) 0); cbn [fst]; revert W; unfold pmin; qcases; lra. }
  split; [exact Z|]. rewrite <- E2, E1. rewrite (usage_exact Q J HJ); [rewrite Z; unfold Qdiv; apply Qmult_0_l|lra|rewrite Ep; fold d; lra].
Qed.
Lemma pmin_least x y : least2 (pmin x y) x y.
Proof. unfold least2, pmin. qcases; repeat split; try lra; first [left; lra|right; lra]. Qed.
Lemma side_step Q J m don c r p h e : plant_ok Q -> hour_ok Q J -> no_store Q -> duty (i_perf J) = duty (i_perf I) ->
  side don c r -> Sgn Q J t m don c -> allowed don p -> ~ In p don -> battery_allowed don p ->
  amount Q J t m p c = Ok (h, e) -> side (p :: don) (update p (h, e) c) (write p (h, e) r).
Proof.
  intros HQ HJ HT Ep Z Sg Al Np (_ & Ba) Ha.
  destruct (delivered Q J t m HQ HJ HT don c p h e Sg Al Np (proj1 (z_ts _ _ _ Z)) (proj1 (proj2 (z_ts _ _ _ Z))) (z_aux _ _ _ Z) Ha) as (Hn0 & D).
  pose proof (sg_elec _ _ _ _ _ _ Sg) as S0. pose proof (sg_heat _ _ _ _ _ _ Sg) as S1. pose proof (sg_res _ _ _ _ _ _ Sg) as S2. pose proof (sg_soc _ _ _ _ _ _ Sg) as S3. pose proof (sg_hp _ _ _ _ _ _ Sg) as S5.
  assert (Nl : p = ES_to_HP_to_demand -> h == 0 /\ e == 0).
  { intros ->. apply (nothing_left Q J m c h e HJ Ep); try assumption; [exact (z_w _ _ _ Z (Ba eq_refl))|exact (z_hp _ _ _ Z)]. }
  clear Ba Ha Sg. destruct Z as [Z1 Z2 (Z3 & Z4 & Z5) Z6].
  unfold delivers in D. rewrite Ep in D. fold d in D. unfold within in *. clearbody d k k'. clear HP HP' HI HI' HS HS' Hel Hbat Hdut Hcop Hl Hl' Al Ep HQ HJ HT Np.
  pose proof (pmin_least (heat_unmet c) (d - hp_usage c)) as L.
  destruct p; try (specialize (Nl eq_refl)).
  all: constructor; unfold within; reduce; unfold least3, least2 in *.
  all: try solve [close].
  all: try solve [destruct D as (De & D); destruct (is_electric Q); close].
  all: intro C; try (destruct C as [C|C]; [discriminate C|]; specialize (Z6 C); clear C; revert Z6); mins; unfold least2 in *; intros; try (clear Z6 C); repeat match goal with X : ?p = ?q -> _ |- _ => clear X end; try solve [ors; lra].
  all: destruct (is_electric Q); ors; lra.
Qed.
Lemma share x y : 0 < k -> 0 <= x -> x <= y -> x / k' <= y / k.
Proof.
  intros K X L. assert (Kk : k <= k') by exact Hcop. clearbody k k'. apply Qle_shift_div_l; [exact K|]. setoid_replace (x / k' * k) with (x * k / k') by (field; lra). apply Qle_shift_div_r; [lra|]. nra.
Qed.
Lemma pair_step don c r c' r' p h e h' e' : pair don c r c' r' -> side don c r -> side don c' r' ->
  Sgn P I t n don c -> Sgn P' I' t n' don c' -> allowed don p -> ~ In p don -> battery_allowed don p ->
  amount P I t n p c = Ok (h, e) -> amount P' I' t n' p c' = Ok (h', e') ->
  pair (p :: don) (update p (h, e) c) (write p (h, e) r) (update p (h', e') c') (write p (h', e') r').
Proof.
  intros Q Z Z' Sg Sg' Al Np (B1 & B2) Ha Ha'.
  destruct (delivered P I t n HP HI HS don c p h e Sg Al Np (proj1 (z_ts _ _ _ Z)) (proj1 (proj2 (z_ts _ _ _ Z))) (z_aux _ _ _ Z) Ha) as (Hn0 & D).
  destruct (delivered P' I' t n' HP' HI' HS' don c' p h' e' Sg' Al Np (proj1 (z_ts _ _ _ Z')) (proj1 (proj2 (z_ts _ _ _ Z'))) (z_aux _ _ _ Z') Ha') as (Hn0' & D').
  pose proof (sg_elec _ _ _ _ _ _ Sg) as E0. pose proof (sg_elec _ _ _ _ _ _ Sg') as E0'. pose proof (sg_heat _ _ _ _ _ _ Sg) as S1. pose proof (sg_heat _ _ _ _ _ _ Sg') as S1'. pose proof (sg_res _ _ _ _ _ _ Sg) as S2. pose proof (sg_res _ _ _ _ _ _ Sg') as S2'.
  pose proof (sg_soc _ _ _ _ _ _ Sg) as S3. pose proof (sg_soc _ _ _ _ _ _ Sg') as S3'. pose proof (sg_hp _ _ _ _ _ _ Sg) as H0. pose proof (sg_hp _ _ _ _ _ _ Sg') as H0'.
  pose proof (sg_soc_cap _ _ _ _ _ _ Sg) as S4. pose proof (sg_soc_cap _ _ _ _ _ _ Sg') as S4'. rewrite <- Hbat in S4'. fold b in S4, S4'.
  assert (Ch : p = RES_to_ES -> (least3 h (RES_left c) (b_charge_max b) (b_capacity b - c_soc c) /\ e = h) /\ (least3 h' (RES_left c') (b_charge_max b) (b_capacity b - c_soc c') /\ e' = h')).
  { intros ->. specialize (S4 (proj1 Al eq_refl)). specialize (S4' (proj1 Al eq_refl)). cbn [amount] in Ha, Ha'. rewrite <- Hbat in Ha'. fold b in Ha, Ha'. injection Ha as <- <-. injection Ha' as <- <-. destruct (charge_of (RES_left c) (c_soc c) S2 S4) as (A & _). destruct (charge_of (RES_left c') (c_soc c') S2' S4') as (A' & _). auto. }
  assert (Di : p = ES_to_demand -> least2 h (elec_unmet c) (c_soc c) /\ least2 h' (elec_unmet c') (c_soc c')).
  { intros ->. cbn [amount] in Ha, Ha'. injection Ha as <- <-. injection Ha' as <- <-. split; apply pmin_least. }
  assert (Im : p = Import_to_ES -> least2 h (b_capacity b - c_soc c + (c_soc c * b_self_discharge b + (b_capacity b - c_soc c) * b_charge_eff b)) (b_charge_max b) /\
    least2 h' (b_capacity b - c_soc c' + (c_soc c' * b_self_discharge b + (b_capacity b - c_soc c') * b_charge_eff b)) (b_charge_max b)).
  { intros ->. cbn [amount] in Ha, Ha'. rewrite <- Hbat in Ha'. fold b in Ha, Ha'. injection Ha as <- <-. injection Ha' as <- <-. split; apply pmin_least. }
  assert (Nl : p = ES_to_HP_to_demand -> h == 0 /\ e == 0 /\ h' == 0 /\ e' == 0).
  { intros ->. destruct (nothing_left P I n c h e HI eq_refl (z_w _ _ _ Z (B2 eq_refl)) S1 (z_hp _ _ _ Z) H0 S3 Ha). destruct (nothing_left P' I' n' c' h' e' HI' (eq_sym Hdut) (z_w _ _ _ Z' (B2 eq_refl)) S1' (z_hp _ _ _ Z') H0' S3' Ha'). auto. }
  assert (Af : p = RES_to_ES -> ~ In Import_to_ES don) by (intros ->; exact (proj1 Al eq_refl)).
  pose proof (proj1 HP) as (_ & _ & _ & (Ce & _) & _ & (Sd0 & Sd)). fold b in Ce, Sd0, Sd.
  pose proof (z_hp _ _ _ Z) as U. pose proof (z_hp _ _ _ Z') as U'.
  assert (K0 : 0 < k) by apply HI. assert (Kk : k <= k') by exact Hcop.
  clear Ha Ha' Sg Sg' Z Z' Al. destruct Q as [Y1 Y2 Y3 Y4 Y5 Yf Y6 Y7 Yi Y8 Y9].
  unfold delivers in D, D'. rewrite <- Hdut in D'. fold d in D, D'. fold k in D. fold k' in D'. rewrite <- Hel in D'. unfold within in Y3, Y4.
  pose proof (fun x y => share x y K0) as Sh. clearbody b d k k'. clear HP HP' HI HI' HS HS' Hel Hbat Hdut Hcop Hl Hl' B2.
  pose proof (pmin_least (heat_unmet c) (d - hp_usage c)) as L. pose proof (pmin_least (heat_unmet c') (d - hp_usage c')) as L'.
  destruct p; try (specialize (Ch eq_refl); destruct Ch as ((Ch & ->) & (Ch' & ->))); try (specialize (Di eq_refl)); try (specialize (Im eq_refl)); try (specialize (Nl eq_refl)); try (specialize (B1 eq_refl)); try (specialize (Af eq_refl));
    repeat match goal with X : ?p = ?q -> _ |- _ => clear X end.
  4: { (* the heat pump on surplus *)
    destruct D as (D & De). destruct D' as (D' & De').
    assert (M : RES_left c * k <= RES_left c' * k') by nra.
    assert (W : h == RES_left c * k -> RES_left c - e == 0) by (intro W; rewrite De, W; field; lra).
    assert (W' : 0 <= RES_left c' - e').
    { assert (V : h' / k' <= RES_left c') by (apply Qle_shift_div_r; [lra|apply D']). lra. }
    assert (V : h' <= h -> e' <= e) by (intro V; rewrite De, De'; apply Sh; [exact Hn0'|exact V]).
    generalize dependent (RES_left c * k). intros q ? M W. generalize dependent (RES_left c' * k'). intros q' ? M. clear De De' Sh.
    constructor; unfold within; reduce; try assumption; try solve [intro C; apply not_in_cons in C; apply Y5, C]; mins; unfold least3, least2 in *.
    - destruct D as (D1 & D2 & D3 & D4). destruct D4 as [D4|D4]; [rewrite (W D4); exact W'|].
      assert (X : h' <= h) by (clear - D' D4 L L' Y3; destruct D4 as [D4|D4]; lra). specialize (V X). clear - V Y1. lra.
    - clear W V. ors; lra.
    - clear W V. ors; lra. }
  all: constructor; unfold within; reduce; try assumption; try solve [intro C; apply not_in_cons in C; apply Y5, C]; mins; unfold least3, least2 in *;
    try solve [clear Sh Y5 Yf S4 S4'; ors; lra]; try solve [clear Sh Y5 Yf S4 S4'; destruct (is_electric P); ors; lra].
  1-3: specialize (Y5 B1); clear Sh Yf S4 S4'.
  1: ors; lra.
  1: intros _; ors; lra.
  1: left; ors; lra.
  1: intro C; apply not_in_cons in C; specialize (Y5 (proj2 C)); lra.
  1: destruct Yf as [Yf|Yf]; [left; lra|right; lra].
  1: { destruct D as (D & De). destruct D' as (D' & De'). rewrite De, De'. apply Sh; [exact Hn0'|]. clear Sh Y5 Yf S4 S4'. ors; lra. }
  1-3: specialize (Y5 Af); specialize (S4 Af); specialize (S4' Af); clear Sh Yf.
  1: ors; lra.
  1: intros _; ors; lra.
  1: left; ors; lra.
  1: intro C; exfalso; apply C; left; reflexivity.
  1-2: specialize (Y5 Np); specialize (S4 Np); specialize (S4' Np); clear Sh Yf.
  1-2: assert (A1 : 0 <= (c_soc c' - c_soc c) * (1 + b_charge_eff b - b_self_discharge b)) by (apply Qmult_le_0_compat; lra).
  1-2: assert (A2 : 0 <= c_soc c' * b_self_discharge b) by (apply Qmult_le_0_compat; lra); assert (A3 : 0 <= (b_capacity b - c_soc c') * b_charge_eff b) by (apply Qmult_le_0_compat; lra).
  1-2: destruct Im as ((I1 & I2 & I3) & (I1' & I2' & I3')).
  - destruct I3' as [I3'|I3']; [right|left]; lra.
  - clear D D' L L'. destruct I3 as [I3|I3]; lra.
Qed.
Lemma simple_allowed ps l1 p l2 : simple_battery ps -> ps = l1 ++ p :: l2 -> battery_allowed (rev l1) p.
Proof.
  intros (N & H) E. split; intros ->; [intro C; apply in_rev in C; exact (N l1 l2 E C)|apply in_rev; rewrite rev_involutive; exact (H l1 l2 E)].
Qed.
Lemma pair_run ps : order_ok ps -> simple_battery ps -> forall l2 l1 c r c' r' cf rf cf' rf', ps = l1 ++ l2 ->
  pair (rev l1) c r c' r' -> side (rev l1) c r -> side (rev l1) c' r' -> Sgn P I t n (rev l1) c -> Sgn P' I' t n' (rev l1) c' ->
  foldM (run_process P I t n) l2 (c, r) = Ok (cf, rf) -> foldM (run_process P' I' t n') l2 (c', r') = Ok (cf', rf') ->
  pair (rev ps) cf rf cf' rf' /\ side (rev ps) cf rf /\ side (rev ps) cf' rf'.
Proof.
  intros Ho Hb. induction l2 as [|p l2 IH]; intros l1 c r c' r' cf rf cf' rf' E Q Z Z' Sg Sg' R R'.
  - cbn [foldM] in R, R'. injection R as <- <-. injection R' as <- <-. rewrite app_nil_r in E. subst. auto.
  - cbn [foldM] in R, R'. unfold run_process at 1 in R. unfold run_process at 1 in R'.
    destruct (amount P I t n p c) as [[h e]|] eqn:A; cbn [bind] in R; [|discriminate].
    destruct (amount P' I' t n' p c') as [[h' e']|] eqn:A'; cbn [bind] in R'; [|discriminate].
    destruct (order_ok_allowed ps l1 p l2 Ho E) as (Al & Np). pose proof (simple_allowed ps l1 p l2 Hb E) as Ba.
    assert (E' : ps = (l1 ++ [p]) ++ l2) by (rewrite <- app_assoc; exact E).
    apply (IH (l1 ++ [p]) (update p (h, e) c) (write p (h, e) r) (update p (h', e') c') (write p (h', e') r') cf rf cf' rf' E'); try assumption; rewrite rev_unit.
    + apply pair_step; assumption.
    + apply (side_step P I n); try assumption; reflexivity.
    + apply (side_step P' I' n'); try assumption; symmetry; assumption.
    + apply sgn_step; assumption.
    + apply sgn_step; assumption.
Qed.
End Pair.
Section Start.
Variables (P P' : plant) (I I' : hour_in) (soc soc' : Q).
Let bal := surplus_deficit_hour (i_wind I + i_PV I) (i_elec_demand I).
Let bal' := surplus_deficit_hour (i_wind I' + i_PV I') (i_elec_demand I').
Lemma balance_easier : eased_hour I I' -> bal_surplus bal <= bal_surplus bal' /\ bal_deficit bal' <= bal_deficit bal.
Proof. intros (E1 & E2 & _). unfold bal, bal', surplus_deficit_hour. qcases; cbn [bal_surplus bal_deficit]; lra. Qed.
Lemma written_zero (r0 : fields) : (forall f, In f (flat_map writes all_processes) -> r0 f = 0) ->
  r0 GRID_import_for_heat_pump_to_TS == 0 /\ r0 GRID_import_for_ES == 0 /\ r0 GRID_import_for_elec_demand == 0 /\
  r0 GRID_import_for_heat_pump_to_heat_demand == 0 /\ r0 HD_aux == 0 /\ r0 GRID_total_export == 0.
Proof. intro Z. repeat split; rewrite Z; [reflexivity|cbn; auto 60|reflexivity|cbn; auto 60|reflexivity|cbn; auto 60|reflexivity|cbn; auto 60|reflexivity|cbn; auto 60|reflexivity|cbn; auto 60]. Qed.
Lemma side_init Q J s (r0 : fields) : hour_ok Q J -> duty (i_perf J) = duty (i_perf I) -> (forall f, In f (flat_map writes all_processes) -> r0 f = 0) -> side I [] (init_checks Q J s) r0.
Proof.
  intros HI E Z. apply written_zero in Z as (Z1 & _). destruct HI as (_ & _ & _ & _ & Hm & _ & Hd & _). rewrite E in Hd.
  constructor; unfold init_checks; cbn [elec_unmet heat_unmet RES_left hp_usage ts_discharge ts_charge c_soc aux_left]; intros; repeat match goal with |- _ /\ _ => split end; try assumption; try reflexivity; contradiction.
Qed.
Lemma pair_init (r0 r0' : fields) : eased_hour I I' -> 0 <= duty (i_perf I) -> soc <= soc' -> (forall f, In f (flat_map writes all_processes) -> r0 f = 0) -> (forall f, In f (flat_map writes all_processes) -> r0' f = 0) ->
  pair P I [] (init_checks P I soc) r0 (init_checks P' I' soc') r0'.
Proof.
  intros E Hd L Z Z'. destruct (balance_easier E) as (B1 & B2). destruct E as (_ & _ & E3 & _).
  apply written_zero in Z as (_ & Z0 & Z1 & Z2 & Z3 & Z4). apply written_zero in Z' as (_ & Z0' & Z1' & Z2' & Z3' & Z4').
  unfold bal, bal' in *.
  constructor; unfold init_checks; cbn [elec_unmet heat_unmet RES_left hp_usage ts_discharge ts_charge c_soc aux_left]; try assumption; try (intros _; assumption); try (left; assumption); try lra; unfold pmin; qcases; lra.
Qed.
End Start.

(** The level after the hour *)
Lemma clip_mono b m s m' s' : s + max_charging b m s + max_discharging b m s - self_loss b s <= s' + max_charging b m' s' + max_discharging b m' s' - self_loss b s' ->
  0 <= b_capacity b -> new_soc b m s <= new_soc b m' s'.
Proof. intros H C. unfold new_soc. revert H. generalize (s + max_charging b m s + max_discharging b m s - self_loss b s), (s' + max_charging b m' s' + max_discharging b m' s' - self_loss b s'). intros x y H. qcases; lra. Qed.
Lemma charged b q s : battery_ok b -> level_ok b s -> 0 <= q -> exists x, least3 x q (b_charge_max b) (b_capacity b - s) /\ 0 <= x /\ s + max_charging b q s + max_discharging b q s == s + x.
Proof.
  intros Bo (L1 & L2) A. pose proof Bo as (C1 & C2 & C3 & C4 & C5 & C6). exists (max_charging b q s). rewrite max_discharging_surplus by (try assumption; lra).
  split; [|split; [|lra]]; unfold max_charging, least3, pmin; qcases; repeat split; try lra; first [left; lra|right; left; lra|right; right; lra].
Qed.
Lemma discharged b q s : battery_ok b -> level_ok b s -> q <= 0 -> exists x, least2 x (- q * b_discharge_eff b) (b_discharge_max b) /\ 0 <= x /\ s + max_charging b q s + max_discharging b q s == s - x.
Proof.
  intros (C1 & C2 & C3 & C4 & C5 & C6) (L1 & L2) A. destruct (Qlt_le_dec q 0) as [H|H].
  - exists (Qmin (- q * b_discharge_eff b) (b_discharge_max b)). rewrite max_charging_deficit, max_discharging_deficit by lra.
    assert (0 <= - q * b_discharge_eff b) by nra. generalize dependent (- q * b_discharge_eff b). intros y Y. unfold least2.
    destruct (Q.min_spec y (b_discharge_max b)) as [(G & ->)|(G & ->)]; repeat split; try lra; first [left; lra|right; lra].
  - exists 0. assert (Z : q == 0) by lra. assert (X : - q * b_discharge_eff b == 0) by (rewrite Z; ring). split; [unfold least2; repeat split; try lra; left; lra|]. split; [lra|].
    rewrite max_discharging_surplus by lra. unfold max_charging, pmin. qcases; lra.
Qed.
(** A battery that starts fuller and is left fuller, or full, by the plan of the hour ends fuller. *)
Lemma level_easier b s s' q q' : battery_ok b -> level_ok b s -> level_ok b s' -> s <= s' -> s' * b_self_discharge b == s * b_self_discharge b ->
  s + q <= s' + q' \/ b_capacity b <= s' + q' -> new_soc b q s <= new_soc b q' s'.
Proof.
  intros Bo L L' Ls Lo T. pose proof Bo as (C1 & C2 & C3 & C4 & C5 & C6). apply clip_mono; [|exact C1]. unfold self_loss.
  assert (G : s + max_charging b q s + max_discharging b q s <= s' + max_charging b q' s' + max_discharging b q' s'); [|lra].
  assert (Eff : forall x, 0 <= x -> x * b_discharge_eff b <= x) by (intros; nra).
  destruct (Qlt_le_dec q' 0) as [A'|A']; destruct (Qlt_le_dec q 0) as [A|A].
  - destruct (discharged b q' s' Bo L' (Qlt_le_weak _ _ A')) as (x' & X1' & X2' & ->). destruct (discharged b q s Bo L (Qlt_le_weak _ _ A)) as (x & X1 & X2 & ->).
    destruct L as (L1 & L2), L' as (L1' & L2'). assert (T0 : s + q <= s' + q') by (destruct T; lra).
    assert (W : s - s * b_discharge_eff b <= s' - s' * b_discharge_eff b) by nra. assert (V : (s + q) * b_discharge_eff b <= (s' + q') * b_discharge_eff b) by nra.
    assert (D1 : - q * b_discharge_eff b == s * b_discharge_eff b - (s + q) * b_discharge_eff b) by ring.
    assert (D2 : - q' * b_discharge_eff b == s' * b_discharge_eff b - (s' + q') * b_discharge_eff b) by ring.
    unfold least2 in *. destruct X1 as (X4 & X5 & [X6|X6]); destruct X1' as (X4' & X5' & X6'); clear - D1 D2 W V X4 X5 X6 X4' X5' Ls;
      generalize dependent (- q * b_discharge_eff b); intros y **; generalize dependent (- q' * b_discharge_eff b); intros y' **; lra.
  - destruct (discharged b q' s' Bo L' (Qlt_le_weak _ _ A')) as (x' & (X1' & _) & X2' & ->). destruct (charged b q s Bo L A) as (x & (X1 & _) & X2 & ->).
    specialize (Eff (- q') ltac:(lra)). destruct L' as (L1' & L2'). destruct T; lra.
  - destruct (charged b q' s' Bo L' A') as (x' & _ & X2' & ->). destruct (discharged b q s Bo L (Qlt_le_weak _ _ A)) as (x & _ & X2 & ->). lra.
  - destruct (charged b q' s' Bo L' A') as (x' & (X1' & X2' & X3' & X4') & X5' & ->). destruct (charged b q s Bo L A) as (x & (X1 & X2 & X3 & _) & X5 & ->).
    clear Eff. destruct X4' as [E|[E|E]]; destruct T as [T|T]; lra.
Qed.
