(** Lemmas: prices do not reach the dispatch. *)
From Verif Require Import Base BaseL M_Battery M_HeatPump M_Tools M_FixedOrder S_Prices L_FixedOrder.

Definition rel (r r' : fields) : Prop := forall k, money k = false -> r k = r' k.
Lemma rel_upd r r' k v v' : rel r r' -> v = v' -> rel (upd r k v) (upd r' k v').
Proof. intros H -> j Hj. unfold upd. destruct (field_eqb k j); [reflexivity|apply H, Hj]. Qed.
Lemma rel_money r r' k v v' : rel r r' -> money k = true -> rel (upd r k v) (upd r' k v').
Proof.
  intros H M j Hj. destruct (field_eqb k j) eqn:E.
  - exfalso. assert (k = j) by (unfold field_eqb in E; apply Pos.eqb_eq in E; destruct k, j; (reflexivity || discriminate E)). congruence.
  - unfold upd. rewrite E. apply H, Hj.
Qed.
Lemma rel_get r r' k : rel r r' -> money k = false -> r k = r' k.
Proof. intros H M. exact (H k M). Qed.
Ltac relval :=
  first [reflexivity | assumption
        | lazymatch goal with |- ?a ?k = ?b ?k => lazymatch type of k with field => refine (rel_get a b k _ eq_refl); relupd end end
        | f_equal; relval]
with relupd := first [assumption | apply rel_money; [relupd|reflexivity] | apply rel_upd; [relupd|relval]].
Ltac rellet :=
  lazymatch goal with
  | |- rel (let x := ?e in @?b x) (let y := ?e' in @?b' y) =>
      let N := fresh "N" in let r1 := fresh "r" in let r2 := fresh "r" in
      assert (N : rel e e') by relupd; change (rel (b e) (b' e')); revert N; generalize e e'; intros r1 r2 N; cbv beta
  end.
Lemma rel_hp r r' : rel r r' -> rel (hp_totals r) (hp_totals r').
Proof. intro H. cbv beta delta [hp_totals]. repeat rellet. relupd. Qed.
Lemma rel_ts r r' : rel r r' -> rel (ts_totals r) (ts_totals r').
Proof. intro H. cbv beta delta [ts_totals]. repeat rellet. relupd. Qed.
Lemma rel_aux r r' : rel r r' -> rel (aux_demand r) (aux_demand r').
Proof. intro H. unfold aux_demand. relupd. Qed.
Lemma rel_zero ks r r' : rel r r' -> rel (zero_fields ks r) (zero_fields ks r').
Proof. revert r r'. induction ks as [|k ks IH]; intros r r' H; [exact H|]. apply (IH (upd r k 0) (upd r' k 0)). relupd. Qed.
Lemma rel_topped inc r r' : rel r r' -> rel (hp_topped_up inc r) (hp_topped_up inc r').
Proof. intro H. cbv beta delta [hp_topped_up]. repeat rellet. relupd. Qed.

Section TWO.
Variables (battery_ : battery) (hpc mr mo : Q) (fu : fuel) (ef : Q) (de : option Q) (tank_ : tank_ops) (oa ob : list Z) (mh : Q).
Variables (ac ac' : option Q) (ep ep' sp sp' : Q).
Hypothesis Hac : ac = None <-> ac' = None.
Let P := {| p_battery := battery_; p_hp_capacity := hpc; p_min_runtime := mr; p_min_output := mo; p_aux := {| a_fuel := fu; a_efficiency := ef; a_cost := ac; a_energy_density := de |};
  p_tank := tank_; p_export_price := ep; p_setpoint := sp; p_order_above := oa; p_order_below := ob; p_max_heat := mh |}.
Let P' := {| p_battery := battery_; p_hp_capacity := hpc; p_min_runtime := mr; p_min_output := mo; p_aux := {| a_fuel := fu; a_efficiency := ef; a_cost := ac'; a_energy_density := de |};
  p_tank := tank_; p_export_price := ep'; p_setpoint := sp'; p_order_above := oa; p_order_below := ob; p_max_heat := mh |}.
Variables (wi pv ed hd st fl : Q) (pf : perf) (ip ip' : Q).
Let I := {| i_wind := wi; i_PV := pv; i_elec_demand := ed; i_heat_demand := hd; i_source_temp := st; i_flow_temp := fl; i_import_price := ip; i_perf := pf |}.
Let I' := {| i_wind := wi; i_PV := pv; i_elec_demand := ed; i_heat_demand := hd; i_source_temp := st; i_flow_temp := fl; i_import_price := ip'; i_perf := pf |}.
Hypothesis Hside : sp < ip <-> sp' < ip'.
Variables (t : Z) (T : nodes) (soc : Q).

Definition relc (x y : res (checks * fields)) : Prop :=
  match x, y with Ok (c, r), Ok (c', r') => c = c' /\ rel r r' | Err e, Err e' => e = e' | _, _ => False end.
Lemma rel_write p he r r' : rel r r' -> rel (write p he r) (write p he r').
Proof. intro H. destruct p; cbn [write]; cbv zeta; relupd. Qed.
Lemma rel_process p c r r' : rel r r' -> relc (run_process P I t T (c, r) p) (run_process P' I' t T (c, r') p).
Proof.
  intro H. unfold run_process. change (amount P' I' t T p c) with (amount P I t T p c). destruct (amount P I t T p c) as [he|e]; cbn [bind relc]; [|reflexivity]. split; [reflexivity|apply rel_write, H].
Qed.
Lemma rel_order key l : forall c r r', rel r r' -> relc (run_order P I t T key l (c, r)) (run_order P' I' t T key l (c, r')).
Proof.
  unfold run_order. induction l as [|n l IH]; intros c r r' H; cbn [foldM]; [split; [reflexivity|exact H]|].
  unfold run_number at 1 3. destruct (key n) as [p|e]; cbn [bind]; [|reflexivity].
  pose proof (rel_process p c r r' H) as K. destruct (run_process P I t T (c, r) p) as [[c1 r1]|e], (run_process P' I' t T (c, r') p) as [[c2 r2]|e']; cbn [relc] in K; try contradiction.
  - destruct K as (-> & K). cbn [bind]. apply IH, K.
  - subst. reflexivity.
Qed.
Definition relf (x y : res fields) : Prop := match x, y with Ok r, Ok r' => rel r r' | Err e, Err e' => e = e' | _, _ => False end.
Lemma rel_accounts r r' : rel r r' -> relf (aux_accounts P r) (aux_accounts P' r').
Proof.
  intro H. unfold aux_accounts. change (a_efficiency (p_aux P')) with ef. change (a_efficiency (p_aux P)) with ef. rewrite <- (H AUX_demand eq_refl).
  destruct (fuel_usage ef (r AUX_demand)) as [u|e]; cbn [bind relf]; [|reflexivity].
  assert (N : rel (upd r AUX_usage u) (upd r' AUX_usage u)) by relupd. cbv zeta. revert N. generalize (upd r AUX_usage u) (upd r' AUX_usage u). intros r1 r1' N.
  unfold is_electric. cbn [P P' p_aux a_fuel a_cost a_energy_density]. destruct (fuel_eqb fu ELECTRIC); cbn [bind].
  - cbn [relf]. relupd.
  - destruct ac as [x|], ac' as [x'|], de as [y|]; cbn [bind relf]; try reflexivity; try (exfalso; destruct Hac as (A & B); specialize (A eq_refl) || specialize (B eq_refl); discriminate); relupd.
Qed.
Lemma rel_grid r r' : rel r r' -> rel (grid_totals P r) (grid_totals P' r').
Proof.
  intro H. cbv beta delta [grid_totals]. rellet. change (is_electric P') with (is_electric P).
  lazymatch goal with |- rel (let x := ?e in @?b x) (let y := ?e' in @?b' y) => assert (E : e = e') by relval; change (rel (b e) (b' e')); rewrite <- E; cbv beta end.
  match goal with |- context[upd _ GRID_total_import (if is_electric P then ?x else ?y)] => idtac end.
  assert (V : forall r1 r2 x, rel r1 r2 -> (if is_electric P then x + r1 AUX_demand - r1 AUX_RES_to_demand - r1 AUX_RES_to_TS else x) = (if is_electric P then x + r2 AUX_demand - r2 AUX_RES_to_demand - r2 AUX_RES_to_TS else x)).
  { intros ra rb x R. rewrite (R AUX_demand eq_refl), (R AUX_RES_to_demand eq_refl), (R AUX_RES_to_TS eq_refl). reflexivity. }
  match goal with N : rel ?a ?b |- _ => rewrite (V a b _ N) end.
  repeat rellet. relupd.
Qed.
Lemma rel_es r r' : rel r r' -> rel (es_totals P soc r) (es_totals P' soc r').
Proof. intro H. cbv beta delta [es_totals]. repeat rellet. apply rel_upd; [assumption|]. change (p_battery P') with (p_battery P). f_equal. relval. Qed.
Lemma rel_step x r r' : rel r r' -> tank_step P I t T x r = tank_step P' I' t T x r'.
Proof. intro H. unfold tank_step. cbn [P P' I I' p_tank i_source_temp i_flow_temp i_heat_demand]. rewrite (H HP_heat_total_output eq_refl), (H AUX_demand eq_refl). reflexivity. Qed.
Lemma rel_init : rel (init_above I) (init_above I').
Proof. assert (H : rel set_of_results set_of_results) by (intros k _; reflexivity). unfold init_above. cbv zeta. relupd. Qed.
Definition relr (x y : res record) : Prop := match x, y with Ok r, Ok r' => same_energy r r' | Err e, Err e' => e = e' | _, _ => False end.
Definition relu (x y : res (checks * record)) : Prop := match x, y with Ok (c, r), Ok (c', r') => c = c' /\ same_energy r r' | Err e, Err e' => e = e' | _, _ => False end.
Lemma rel_above : relu (above_uncorrected P I t T soc) (above_uncorrected P' I' t T soc).
Proof.
  unfold above_uncorrected. change (p_order_above P') with (p_order_above P). change (init_checks P' I' soc) with (init_checks P I soc).
  pose proof (rel_order above_key (p_order_above P) (init_checks P I soc) _ _ rel_init) as K.
  destruct (run_order P I t T above_key _ _) as [[c r]|e], (run_order P' I' t T above_key _ _) as [[c' r']|e']; cbn [relc] in K; try contradiction; cbn [bind]; [|exact K].
  destruct K as (<- & K). cbv zeta.
  apply rel_hp, rel_ts, rel_aux in K. revert K. generalize (aux_demand (ts_totals (hp_totals r))) (aux_demand (ts_totals (hp_totals r'))). intros r1 r1' K.
  assert (K2 : rel (upd r1 HD_aux (r1 HD_aux + r1 AUX_RES_to_demand)) (upd r1' HD_aux (r1' HD_aux + r1' AUX_RES_to_demand))) by relupd.
  apply rel_accounts in K2. destruct (aux_accounts P _) as [r2|e], (aux_accounts P' _) as [r2'|e']; cbn [relf] in K2; try contradiction; cbn [bind]; [|exact K2].
  rewrite (rel_step _ _ _ K2). destruct (tank_step P' I' t T _ r2') as [n|e]; cbn [bind relu]; [|reflexivity]. split; [reflexivity|]. split; [|reflexivity]. cbn [rf]. apply rel_grid, rel_es, K2.
Qed.
Lemma rel_below : relu (below_uncorrected P I t T soc) (below_uncorrected P' I' t T soc).
Proof.
  unfold below_uncorrected. change (p_order_below P') with (p_order_below P). change (init_checks P' I' soc) with (init_checks P I soc).
  assert (R0 : rel (init_below P I) (init_below P' I')) by (unfold init_below; apply rel_money; [apply rel_init|reflexivity]).
  pose proof (rel_order below_key (p_order_below P) (init_checks P I soc) _ _ R0) as K.
  destruct (run_order P I t T below_key _ _) as [[c r]|e], (run_order P' I' t T below_key _ _) as [[c' r']|e']; cbn [relc] in K; try contradiction; cbn [bind]; [|exact K].
  destruct K as (<- & K). cbv zeta. apply rel_hp, rel_aux, rel_accounts in K.
  destruct (aux_accounts P _) as [r2|e], (aux_accounts P' _) as [r2'|e']; cbn [relf] in K; try contradiction; cbn [bind]; [|exact K].
  apply rel_ts in K. rewrite (rel_step _ _ _ K). destruct (tank_step P' I' t T _ _) as [n|e]; cbn [bind relu]; [|reflexivity]. split; [reflexivity|]. split; [|reflexivity]. cbn [rf].
  apply rel_es, rel_grid in K. apply rel_upd; [exact K|]. apply K. reflexivity.
Qed.
Lemma rel_correct th off off' x c rc rc' : (forall a b, same_energy a b -> relr (off a) (off' b)) -> same_energy rc rc' ->
  relr (correct P I t T th off x c rc) (correct P' I' t T th off' x c rc').
Proof.
  intros O R. unfold correct. change (min_out P' I') with (min_out P I). rewrite <- (proj1 R HP_heat_total_output eq_refl). cbv zeta.
  destruct (_ && _); [|exact R].
  cbn [P P' I I' p_tank i_source_temp i_flow_temp]. destruct (t_max tank_ Charging T st fl t) as [m|e]; cbn [bind]; [|reflexivity].
  destruct (qlt _ _); [apply O, R|]. unfold top_up. cbn [P P' I I' p_tank i_source_temp i_flow_temp i_heat_demand]. cbv zeta.
  set (inc := _ - _). assert (N : rel (hp_topped_up inc (rf rc)) (hp_topped_up inc (rf rc'))) by (exact (rel_topped _ _ _ (proj1 R))).
  destruct (qeq _ 0); [split; [exact N|apply R]|]. rewrite (N HP_heat_total_output eq_refl). destruct (t_new _ _ _ _ _ _ _ _) as [n|e]; cbn [bind relr]; [|reflexivity]. split; [exact N|reflexivity].
Qed.
Lemma rel_off_above a b : same_energy a b -> relr (switch_off_above P I t T a) (switch_off_above P' I' t T b).
Proof.
  intros (R & Rn). unfold switch_off_above. cbn [P P' I I' p_tank i_source_temp i_flow_temp i_heat_demand]. cbv zeta. rewrite Rn.
  assert (N : rel (zero_fields hp_zeroed (rf a)) (zero_fields hp_zeroed (rf b))) by (exact (rel_zero _ _ _ R)).
  revert N. generalize (zero_fields hp_zeroed (rf a)) (zero_fields hp_zeroed (rf b)). intros z z' N.
  destruct (if qeq (t_capacity tank_) 0 then _ else _) as [n|e]; cbn [bind relr]; [|reflexivity]. split; [|reflexivity]. cbn [rf]. relupd.
Qed.
Lemma rel_off_below a b : same_energy a b -> relr (switch_off_below P I t T a) (switch_off_below P' I' t T b).
Proof.
  intros (R & Rn). unfold switch_off_below. cbn [P P' I I' p_tank i_source_temp i_flow_temp i_heat_demand]. cbv zeta. rewrite Rn.
  assert (N : rel (zero_fields hp_zeroed (rf a)) (zero_fields hp_zeroed (rf b))) by (exact (rel_zero _ _ _ R)).
  revert N. generalize (zero_fields hp_zeroed (rf a)) (zero_fields hp_zeroed (rf b)). intros z z' N.
  destruct (t_max _ _ _ _ _ _) as [m|e]; cbn [bind relr]; [|reflexivity].
  assert (N2 : rel (upd (upd z TS_charging_total 0) TS_discharging_total (pmin m hd)) (upd (upd z' TS_charging_total 0) TS_discharging_total (pmin m hd))) by relupd.
  revert N2. generalize (upd (upd z TS_charging_total 0) TS_discharging_total (pmin m hd)) (upd (upd z' TS_charging_total 0) TS_discharging_total (pmin m hd)). intros y y' N2.
  rewrite (N2 TS_discharging_total eq_refl).
  destruct (if qeq (t_capacity tank_) 0 then _ else _) as [[n h]|e]; cbn [bind relr]; [|reflexivity]. split; [|reflexivity]. cbn [rf]. relupd.
Qed.
Lemma rel_hour : relr (hour_step P I t T soc) (hour_step P' I' t T soc).
Proof.
  unfold hour_step. cbn [P P' I I' p_setpoint i_import_price].
  assert (S : qlt sp ip = qlt sp' ip') by (destruct (qlt_spec sp ip), (qlt_spec sp' ip'); try reflexivity; exfalso; destruct Hside as (A & B); [specialize (A ltac:(assumption))|specialize (B ltac:(assumption))]; lra).
  fold P P' I I'. rewrite <- S.
  assert (K : relr (if qlt sp ip then above_setpoint P I t T soc else below_setpoint P I t T soc) (if qlt sp ip then above_setpoint P' I' t T soc else below_setpoint P' I' t T soc)).
  { destruct (qlt sp ip).
    - unfold above_setpoint. pose proof rel_above as U. destruct (above_uncorrected P I t T soc) as [[c rc]|e], (above_uncorrected P' I' t T soc) as [[c' rc']|e']; cbn [relu] in U; try contradiction; cbn [bind]; [|exact U].
      destruct U as (<- & U). apply rel_correct; [exact rel_off_above|exact U].
    - unfold below_setpoint. pose proof rel_below as U. destruct (below_uncorrected P I t T soc) as [[c rc]|e], (below_uncorrected P' I' t T soc) as [[c' rc']|e']; cbn [relu] in U; try contradiction; cbn [bind]; [|exact U].
      destruct U as (<- & U). apply rel_correct; [exact rel_off_below|exact U]. }
  destruct (if qlt sp ip then above_setpoint P I t T soc else below_setpoint P I t T soc) as [rc|e], (if qlt sp ip then above_setpoint P' I' t T soc else below_setpoint P' I' t T soc) as [rc'|e']; cbn [relr] in K; try contradiction; cbn [bind relr]; [|exact K].
  destruct K as (K & Kn). split; [|exact Kn]. unfold complete. cbv zeta. cbn [rf]. relupd.
Qed.
End TWO.
