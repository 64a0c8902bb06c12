(** The functions of the controller are homogeneous. *)
From Verif Require Import Base BaseL M_Battery M_HeatPump M_Tools M_FixedOrder S_FixedOrder L_FixedOrder S_Scale.

Section Scaled.
Variable k : Q.
Hypothesis Kp : 0 < k.
Notation "x ~~ y" := (times k x y) (at level 70).

(** ** Numbers *)
Lemma sc_0 : 0 ~~ 0.
Proof. unfold times. ring. Qed.
Lemma sc_plus a a' b b' : a ~~ a' -> b ~~ b' -> a + b ~~ a' + b'.
Proof. unfold times. intros -> ->. ring. Qed.
Lemma sc_minus a a' b b' : a ~~ a' -> b ~~ b' -> a - b ~~ a' - b'.
Proof. unfold times. intros -> ->. ring. Qed.
Lemma sc_opp a a' : a ~~ a' -> - a ~~ - a'.
Proof. unfold times. intros ->. ring. Qed.
Lemma sc_mult a a' c c' : a ~~ a' -> c == c' -> a * c ~~ a' * c'.
Proof. unfold times. intros -> ->. ring. Qed.
Lemma sc_mult_l a a' c c' : a ~~ a' -> c == c' -> c * a ~~ c' * a'.
Proof. unfold times. intros -> ->. ring. Qed.
Lemma sc_div a a' c c' : a ~~ a' -> c == c' -> a / c ~~ a' / c'.
Proof. unfold times, Qdiv. intros -> ->. ring. Qed.
Lemma sc_le a a' b b' : a ~~ a' -> b ~~ b' -> (a' <= b' <-> a <= b).
Proof. unfold times. intros -> ->. apply Qmult_le_l. exact Kp. Qed.
Lemma sc_qle a a' b b' : a ~~ a' -> b ~~ b' -> qle a' b' = qle a b.
Proof. intros A B. pose proof (sc_le _ _ _ _ A B) as E. destruct (qle_spec a' b'), (qle_spec a b); try reflexivity; exfalso; [apply E in H; lra|apply E in H0; lra]. Qed.
Lemma sc_qlt a a' b b' : a ~~ a' -> b ~~ b' -> qlt a' b' = qlt a b.
Proof. intros A B. unfold qlt. f_equal. exact (sc_qle _ _ _ _ B A). Qed.
Lemma sc_qeq a a' b b' : a ~~ a' -> b ~~ b' -> qeq a' b' = qeq a b.
Proof.
  intros A B. pose proof (sc_le _ _ _ _ A B) as E. pose proof (sc_le _ _ _ _ B A) as E2.
  destruct (qeq_spec a' b'), (qeq_spec a b); try reflexivity; exfalso.
  - apply H0. apply Qle_antisym; [apply E|apply E2]; rewrite H; apply Qle_refl.
  - apply H. apply Qle_antisym; [apply E|apply E2]; rewrite H0; apply Qle_refl.
Qed.
Lemma sc_pmin a a' b b' : a ~~ a' -> b ~~ b' -> pmin a b ~~ pmin a' b'.
Proof. intros A B. unfold pmin. rewrite (sc_qlt _ _ _ _ B A). destruct (qlt b a); assumption. Qed.
Lemma sc_if (c : bool) a a' b b' : a ~~ a' -> b ~~ b' -> (if c then a else b) ~~ (if c then a' else b').
Proof. destruct c; auto. Qed.
Lemma round_same a b : a == b -> round_half_even a = round_half_even b.
Proof.
  intro E. unfold round_half_even. rewrite (Qfloor_comp a b E).
  assert (L : qlt (a - inject_Z (Qfloor b)) (1 # 2) = qlt (b - inject_Z (Qfloor b)) (1 # 2)) by (destruct (qlt_spec (a - inject_Z (Qfloor b)) (1 # 2)), (qlt_spec (b - inject_Z (Qfloor b)) (1 # 2)); try reflexivity; exfalso; lra).
  assert (G : qlt (1 # 2) (a - inject_Z (Qfloor b)) = qlt (1 # 2) (b - inject_Z (Qfloor b))) by (destruct (qlt_spec (1 # 2) (a - inject_Z (Qfloor b))), (qlt_spec (1 # 2) (b - inject_Z (Qfloor b))); try reflexivity; exfalso; lra).
  rewrite L, G. reflexivity.
Qed.
Lemma sc_pround d a a' : k == 1 -> a ~~ a' -> pround d a ~~ pround d a'.
Proof.
  intros K A. unfold times, pround in *. rewrite (round_same (a' * inject_Z (Z.pos d)) (a * inject_Z (Z.pos d))), K; [ring|]. rewrite A, K. ring.
Qed.
(** ** Outcomes *)
Lemma alike_bind {A A' B B'} (R : A -> A' -> Prop) (S : B -> B' -> Prop) x x' f f' : alike R x x' -> (forall a a', R a a' -> alike S (f a) (f' a')) -> alike S (bind x f) (bind x' f').
Proof. intros H F. destruct x, x'; cbn in *; try contradiction; [apply F, H|exact H]. Qed.
(** ** The battery *)
Section Bat.
Variables b b' : battery.
Hypothesis Hb : times_battery k b b'.
Lemma sc_max_charging m m' soc soc' : m ~~ m' -> soc ~~ soc' -> max_charging b m soc ~~ max_charging b' m' soc'.
Proof.
  intros M L. destruct Hb as (B1 & _ & B2 & B3 & _). unfold max_charging. cbv zeta. rewrite (sc_qle 0 0 m m' sc_0 M), (sc_qle m m' _ _ M B2), (sc_qle _ _ m m' B2 M).
  apply sc_pmin; [|apply sc_minus; assumption]. repeat apply sc_if; auto using sc_0.
Qed.
Lemma sc_max_discharging m m' soc soc' : m ~~ m' -> soc ~~ soc' -> max_discharging b m soc ~~ max_discharging b' m' soc'.
Proof.
  intros M L. destruct Hb as (B1 & _ & B2 & B3 & _ & B4 & _). unfold max_discharging. cbv zeta.
  assert (X : m * b_discharge_eff b ~~ m' * b_discharge_eff b') by (apply sc_mult; assumption).
  assert (Y : -1 * b_discharge_max b ~~ -1 * b_discharge_max b') by (apply sc_mult_l; [assumption|reflexivity]).
  rewrite (sc_qlt _ _ 0 0 X sc_0), (sc_qle _ _ _ _ Y X), (sc_qle _ _ _ _ X Y). apply sc_pmin; [|exact L]. repeat apply sc_if; auto using sc_0.
Qed.
Lemma sc_self_loss soc soc' : soc ~~ soc' -> self_loss b soc ~~ self_loss b' soc'.
Proof. intro L. apply sc_mult; [exact L|]. destruct Hb as (_ & _ & _ & _ & _ & _ & E). exact E. Qed.
Lemma sc_new_soc m m' soc soc' : m ~~ m' -> soc ~~ soc' -> new_soc b m soc ~~ new_soc b' m' soc'.
Proof.
  intros M L. unfold new_soc. cbv zeta. pose proof (proj1 Hb) as B1.
  assert (X : soc + max_charging b m soc + max_discharging b m soc - self_loss b soc ~~ soc' + max_charging b' m' soc' + max_discharging b' m' soc' - self_loss b' soc').
  { apply sc_minus; [|apply sc_self_loss, L]. apply sc_plus; [|apply sc_max_discharging; assumption]. apply sc_plus; [exact L|]. apply sc_max_charging; assumption. }
  rewrite (sc_qle _ _ _ _ B1 X), (sc_qle _ _ 0 0 X sc_0). repeat apply sc_if; auto using sc_0.
Qed.
Lemma sc_charge_to_capacity soc soc' : soc ~~ soc' -> charge_to_capacity b soc ~~ charge_to_capacity b' soc'.
Proof.
  intro L. destruct Hb as (B1 & _ & B2 & _ & B4 & _). unfold charge_to_capacity. cbv zeta.
  assert (X : b_capacity b - soc ~~ b_capacity b' - soc') by (apply sc_minus; assumption).
  apply sc_pmin; [|exact B2]. apply sc_plus; [exact X|]. apply sc_plus; [apply sc_self_loss, L|apply sc_mult; assumption].
Qed.
Lemma sc_init_state : init_state b ~~ init_state b'.
Proof. destruct Hb as (B1 & B2 & _). apply sc_mult_l; assumption. Qed.
End Bat.
(** ** The heat pump *)
Lemma sc_elec_usage s s' h h' p p' : s ~~ s' -> h ~~ h' -> cop p == cop p' -> duty p ~~ duty p' -> elec_usage s h p ~~ elec_usage s' h' p'.
Proof. intros S1 H C D. unfold elec_usage. rewrite (sc_qeq s s' 0 0 S1 sc_0). apply sc_if; [apply sc_0|]. apply sc_pmin; apply sc_div; assumption. Qed.
Lemma sc_thermal_output s s' e e' p p' h h' : s ~~ s' -> e ~~ e' -> h ~~ h' -> cop p == cop p' -> duty p ~~ duty p' -> fst (thermal_output s e p h) ~~ fst (thermal_output s' e' p' h').
Proof.
  intros S1 E H C D. unfold thermal_output. rewrite (sc_qeq s s' 0 0 S1 sc_0). destruct (qeq s 0); cbn [fst]; [apply sc_0|].
  apply sc_pmin; [|exact D]. apply sc_pmin; [|exact H]. apply sc_mult; assumption.
Qed.
(** ** Entries *)
Lemma tf_upd r r' f v v' : times_fields k r r' -> intensive f = false -> v ~~ v' -> times_fields k (upd r f v) (upd r' f v').
Proof.
  intros R If V g. unfold upd. destruct (field_eqb f g) eqn:E; [|apply R]. apply field_eqb_eq in E. subst g. rewrite If. exact V.
Qed.
Lemma tf_upd1 r r' f v v' : times_fields k r r' -> intensive f = true -> v == v' -> times_fields k (upd r f v) (upd r' f v').
Proof.
  intros R If V g. unfold upd. destruct (field_eqb f g) eqn:E; [|apply R]. apply field_eqb_eq in E. subst g. rewrite If, V. ring.
Qed.
Lemma tf_get r r' f : times_fields k r r' -> intensive f = false -> r f ~~ r' f.
Proof. intros R If. unfold times. rewrite (R f), If. reflexivity. Qed.
Lemma tf_get1 r r' f : times_fields k r r' -> intensive f = true -> r f == r' f.
Proof. intros R If. rewrite (R f), If. ring. Qed.
Definition times_checks (c c' : checks) : Prop :=
  elec_unmet c ~~ elec_unmet c' /\ heat_unmet c ~~ heat_unmet c' /\ RES_left c ~~ RES_left c' /\ hp_usage c ~~ hp_usage c' /\
  ts_discharge c ~~ ts_discharge c' /\ ts_charge c ~~ ts_charge c' /\ c_soc c ~~ c_soc c' /\ aux_left c ~~ aux_left c'.
Definition times_pair (x x' : Q * Q) : Prop := fst x ~~ fst x' /\ snd x ~~ snd x'.
Definition times_state (s s' : checks * fields) : Prop := times_checks (fst s) (fst s') /\ times_fields k (snd s) (snd s').

Lemma tr_intro r r' x x' : times_fields k r r' -> x = x' -> alike (times_record k) (Ok {| rf := r; r_nodes := x |}) (Ok {| rf := r'; r_nodes := x' |}).
Proof. intros R E. exact (conj R E). Qed.
Definition times_both (x x' : checks * record) : Prop := times_checks (fst x) (fst x') /\ times_record k (snd x) (snd x').
Lemma tb_intro c c' r r' x : times_checks c c' -> times_fields k r r' -> alike times_both (Ok (c, {| rf := r; r_nodes := x |})) (Ok (c', {| rf := r'; r_nodes := x |})).
Proof. intros C R. exact (conj C (conj R eq_refl)). Qed.
(** ** One hour *)
Section Hour.
Variables (P P' : plant) (I I' : hour_in) (t : Z) (n : nodes) (soc soc' : Q).
Hypothesis HP : times_plant k P P'.
(** only the total of the generation counts here *)
Hypothesis Hg : i_wind I + i_PV I ~~ i_wind I' + i_PV I'.
Hypothesis He : i_elec_demand I ~~ i_elec_demand I'.
Hypothesis Hh : i_heat_demand I ~~ i_heat_demand I'.
Hypothesis Hs : i_source_temp I = i_source_temp I'.
Hypothesis Hf : i_flow_temp I = i_flow_temp I'.
Hypothesis Hpr : i_import_price I == i_import_price I'.
Hypothesis Hc : cop (i_perf I) == cop (i_perf I').
Hypothesis Hd : duty (i_perf I) ~~ duty (i_perf I').
Hypothesis Hsoc : soc ~~ soc'.

Lemma sc_max s : alike (times k) (t_max (p_tank P) s n (i_source_temp I) (i_flow_temp I) t) (t_max (p_tank P') s n (i_source_temp I') (i_flow_temp I') t).
Proof. rewrite <- Hs, <- Hf. destruct HP as (_ & _ & _ & _ & _ & (_ & _ & M & _) & _). apply M. Qed.
Lemma sc_electric : is_electric P' = is_electric P.
Proof. unfold is_electric. destruct HP as (_ & _ & _ & _ & -> & _). reflexivity. Qed.
Lemma sc_capacity : qeq (t_capacity (p_tank P')) 0 = qeq (t_capacity (p_tank P)) 0.
Proof. destruct HP as (_ & _ & _ & _ & _ & (E & _) & _). destruct (qeq_spec (t_capacity (p_tank P')) 0), (qeq_spec (t_capacity (p_tank P)) 0); try reflexivity; exfalso; tauto. Qed.

Ltac open_state := match goal with H : times_checks _ _ |- _ => destruct H as (C1 & C2 & C3 & C4 & C5 & C6 & C7 & C8) end.
Lemma sc_amount p c c' : k == 1 \/ p <> HP_import_to_TS -> times_checks c c' -> alike times_pair (amount P I t n p c) (amount P' I' t n p c').
Proof.
  intros Np H. open_state. destruct HP as (B & Cp & _).
  assert (One : forall a a', a ~~ a' -> times_pair (a, a) (a', a')) by (intros; split; assumption).
  assert (Two : forall h h', h ~~ h' -> times_pair (h, elec_usage (p_hp_capacity P) h (i_perf I)) (h', elec_usage (p_hp_capacity P') h' (i_perf I'))) by (intros; split; [assumption|apply sc_elec_usage; assumption]).
  assert (Sp : duty (i_perf I) - hp_usage c ~~ duty (i_perf I') - hp_usage c') by (apply sc_minus; assumption).
  destruct p; cbn [amount]; cbv zeta; rewrite ?sc_electric.
  - split; apply sc_0.
  - apply One, sc_pmin; assumption.
  - apply One; assumption.
  - apply Two, sc_pmin; [apply sc_thermal_output; assumption|exact Sp].
  - destruct (is_electric P); [|split; apply sc_0]. apply One, sc_pmin; [apply sc_pmin; assumption|assumption].
  - apply (alike_bind (times k)); [apply sc_max|]. intros m m' M. apply One, sc_pmin; [assumption|]. apply sc_plus; [|assumption]. apply sc_minus; assumption.
  - apply Two, sc_pmin; [apply sc_thermal_output; assumption|exact Sp].
  - rewrite (sc_qeq _ _ 0 0 Cp sc_0). apply Two, sc_if; [apply sc_0|]. apply sc_pmin; [assumption|exact Sp].
  - apply One; assumption.
  - apply (alike_bind (times k)); [apply sc_max|]. intros m m' M. apply Two, sc_pmin; [apply sc_pmin; [exact Sp|apply sc_mult; assumption]|]. apply sc_minus; [|assumption]. apply sc_plus; assumption.
  - destruct (is_electric P); [|split; apply sc_0]. apply (alike_bind (times k)); [apply sc_max|]. intros m m' M.
    apply One, sc_pmin; [apply sc_pmin; assumption|]. apply sc_minus; [|assumption]. apply sc_plus; assumption.
  - destruct Np as [K1|Np]; [|exfalso; apply Np; reflexivity]. apply (alike_bind (times k)); [apply sc_max|]. intros m m' M. rewrite (sc_qeq _ _ 0 0 Cp sc_0). apply Two, sc_if; [apply sc_0|]. apply sc_pround; [exact K1|].
    apply sc_pmin; [exact Sp|]. apply sc_minus; [|assumption]. apply sc_plus; assumption.
  - apply One, sc_max_charging; assumption.
  - apply One, sc_charge_to_capacity; assumption.
  - apply One; assumption.
Qed.
Lemma sc_update p x x' c c' : times_pair x x' -> times_checks c c' -> times_checks (update p x c) (update p x' c').
Proof.
  intros (X1 & X2) H. open_state. unfold times_checks, update. cbn [elec_unmet heat_unmet RES_left hp_usage ts_discharge ts_charge c_soc aux_left].
  destruct p; cbn; repeat match goal with |- _ /\ _ => split end; try assumption; auto using sc_plus, sc_minus, sc_opp.
Qed.
Lemma sc_write p x x' r r' : times_pair x x' -> times_fields k r r' -> times_fields k (write p x r) (write p x' r').
Proof. intros (X1 & X2) H. destruct p; cbn [write]; repeat (apply tf_upd; [|reflexivity|assumption]); exact H. Qed.
Lemma sc_run (key : Z -> res process) order : k == 1 \/ (forall m, In m order -> key m <> Ok HP_import_to_TS) -> forall s s', times_state s s' -> alike times_state (run_order P I t n key order s) (run_order P' I' t n key order s').
Proof.
  unfold run_order. induction order as [|m order IH]; intros N s s' H; cbn [foldM]; [exact H|].
  apply (alike_bind times_state).
  - unfold run_number. destruct (key m) as [p|e] eqn:E; cbn [bind]; [|reflexivity]. destruct s as (c & r), s' as (c' & r'). destruct H as (H1 & H2). cbn [fst snd] in H1, H2. unfold run_process.
    apply (alike_bind times_pair); [apply sc_amount; [|exact H1]; destruct N as [N|N]; [left; exact N|right]; intros ->; apply (N m (or_introl eq_refl)); exact E|].
    intros x x' X. split; cbn [fst snd]; [apply sc_update; assumption|apply sc_write; assumption].
  - intros a a' A. apply IH; [|exact A]. destruct N as [N|N]; [left; exact N|right]. intros m' Hm. apply N. right. exact Hm.
Qed.
Let bal := surplus_deficit_hour (i_wind I + i_PV I) (i_elec_demand I).
Let bal' := surplus_deficit_hour (i_wind I' + i_PV I') (i_elec_demand I').
Lemma sc_balance : bal_surplus bal ~~ bal_surplus bal' /\ bal_deficit bal ~~ bal_deficit bal' /\ bal_RES_used bal ~~ bal_RES_used bal'.
Proof.
  assert (M : i_wind I + i_PV I - i_elec_demand I ~~ i_wind I' + i_PV I' - i_elec_demand I') by (apply sc_minus; assumption).
  unfold bal, bal', surplus_deficit_hour. cbv zeta. rewrite (sc_qle _ _ 0 0 M sc_0). destruct (qle _ 0); cbn [bal_surplus bal_deficit bal_RES_used];
    repeat match goal with |- _ /\ _ => split end; auto using sc_0, sc_pmin; apply sc_mult_l; [exact M|reflexivity].
Qed.
Lemma sc_init : times_checks (init_checks P I soc) (init_checks P' I' soc').
Proof.
  destruct sc_balance as (B1 & B2 & _). destruct HP as (_ & _ & _ & _ & _ & _ & _ & _ & _ & _ & Mh). unfold times_checks, init_checks. cbn [elec_unmet heat_unmet RES_left hp_usage ts_discharge ts_charge c_soc aux_left].
  repeat match goal with |- _ /\ _ => split end; auto using sc_0.
Qed.
Lemma sc_init_above : times_fields k (init_above I) (init_above I').
Proof.
  destruct sc_balance as (B1 & B2 & _). unfold init_above. cbv zeta. apply tf_upd; [|reflexivity|exact Hd]. apply tf_upd1; [|reflexivity|exact Hc]. apply tf_upd1; [|reflexivity|exact Hpr].
  apply tf_upd; [|reflexivity|apply sc_minus; assumption]. apply tf_upd; [|reflexivity|exact B2]. apply tf_upd; [|reflexivity|exact B1]. intro f. unfold set_of_results. ring.
Qed.
Lemma sc_init_below : times_fields k (init_below P I) (init_below P' I').
Proof. apply tf_upd1; [apply sc_init_above|reflexivity|]. destruct HP as (_ & _ & _ & _ & _ & _ & E & _). exact E. Qed.

Ltac entry := apply tf_get; [assumption|reflexivity].
Ltac sums := repeat match goal with |- times k (_ - _) _ => apply sc_minus | |- times k (_ + _) _ => apply sc_plus end; entry.
(** one assignment after the other *)
Ltac assign_with tac := match goal with R : times_fields k ?r ?r' |- context [upd ?r ?f ?v] => match goal with |- context [upd r' f ?v'] =>
  let A := fresh "A" in assert (A : times_fields k (upd r f v) (upd r' f v')); [apply tf_upd; [exact R|reflexivity|tac R]|];
  revert A; clear R; generalize (upd r f v) (upd r' f v'); clear r r'; intros r r' R end end.
Ltac assign := assign_with ltac:(fun _ => sums).
Lemma sc_hp_totals r r' : times_fields k r r' -> times_fields k (hp_totals r) (hp_totals r').
Proof. intro R. unfold hp_totals. cbv zeta. repeat assign. exact R. Qed.
Lemma sc_ts_totals r r' : times_fields k r r' -> times_fields k (ts_totals r) (ts_totals r').
Proof. intro R. unfold ts_totals. cbv zeta. repeat assign. exact R. Qed.
Lemma sc_aux_demand r r' : times_fields k r r' -> times_fields k (aux_demand r) (aux_demand r').
Proof. intro R. apply tf_upd; [assumption|reflexivity|sums]. Qed.
Lemma sc_aux_accounts r r' : times_fields k r r' -> alike (times_fields k) (aux_accounts P r) (aux_accounts P' r').
Proof.
  intro R. unfold aux_accounts. rewrite sc_electric. assert (Ea : p_aux P' = p_aux P) by (symmetry; destruct HP as (_ & _ & _ & _ & E & _); exact E). rewrite Ea.
  apply (alike_bind (times k)).
  - unfold fuel_usage. destruct (qeq (a_efficiency (p_aux P)) 0); [reflexivity|]. apply sc_div; [entry|reflexivity].
  - intros u u' U. cbv zeta.
    apply (alike_bind (fun x x' => fst x == fst x' /\ snd x == snd x')).
    + destruct (is_electric P); [split; cbn [fst snd]; [|reflexivity]; exact (tf_get1 _ _ GRID_import_price R eq_refl)|].
      destruct (a_cost (p_aux P)), (a_energy_density (p_aux P)); try reflexivity. split; reflexivity.
    + intros (x & y) (x' & y') (E1 & E2). cbn [fst snd] in E1, E2.
      assert (A : times_fields k (upd r AUX_usage u) (upd r' AUX_usage u')) by (apply tf_upd; [assumption|reflexivity|exact U]). clear R.
      assert (V : x * (upd r AUX_usage u AUX_demand - upd r AUX_usage u AUX_RES_to_demand - upd r AUX_usage u AUX_RES_to_TS) ~~ x' * (upd r' AUX_usage u' AUX_demand - upd r' AUX_usage u' AUX_RES_to_demand - upd r' AUX_usage u' AUX_RES_to_TS)).
      { apply sc_mult_l; [sums|exact E1]. }
      revert A V. generalize (upd r AUX_usage u) (upd r' AUX_usage u'). intros s s' A V. apply tf_upd; [apply tf_upd; [exact A|reflexivity|exact V]|reflexivity|].
      apply sc_mult_l; [|exact E2]. apply tf_get; [|reflexivity]. apply tf_upd; [exact A|reflexivity|exact V].
Qed.
Lemma sc_es_totals r r' : times_fields k r r' -> times_fields k (es_totals P soc r) (es_totals P' soc' r').
Proof.
  intro R. unfold es_totals. pose proof (proj1 HP) as B. cbv zeta. do 2 assign.
  apply tf_upd; [assumption|reflexivity|]. apply sc_new_soc; [exact B|sums|exact Hsoc].
Qed.
Lemma sc_grid_totals r r' : times_fields k r r' -> times_fields k (grid_totals P r) (grid_totals P' r').
Proof.
  intro R. unfold grid_totals. cbv zeta. rewrite sc_electric. destruct HP as (_ & _ & _ & _ & _ & _ & Ex & _).
  assign. assign_with ltac:(fun _ => apply sc_if; sums).
  assign_with ltac:(fun R => apply sc_div; [apply sc_mult; [entry|exact (tf_get1 _ _ GRID_import_price R eq_refl)]|reflexivity]).
  assign_with ltac:(fun R => apply sc_div; [apply sc_mult; [entry|exact Ex]|reflexivity]). assign. exact R.
Qed.
Lemma sc_min_out : min_out P I ~~ min_out P' I'.
Proof. unfold min_out. destruct HP as (_ & _ & E1 & E2 & _). apply sc_mult_l; [exact Hd|]. rewrite E1, E2. reflexivity. Qed.
Lemma sc_zero ks : forallb (fun f => negb (intensive f)) ks = true -> forall r r', times_fields k r r' -> times_fields k (zero_fields ks r) (zero_fields ks r').
Proof.
  induction ks as [|f ks IH]; cbn [forallb zero_fields fold_left]; intros H r r' R; [exact R|]. apply andb_prop in H as (H1 & H2). apply negb_true_iff in H1.
  apply IH; [exact H2|]. apply tf_upd; [exact R|exact H1|apply sc_0].
Qed.
Lemma sc_topped inc inc' r r' : inc ~~ inc' -> times_fields k r r' -> times_fields k (hp_topped_up inc r) (hp_topped_up inc' r').
Proof.
  intros Ic R. unfold hp_topped_up. cbv zeta.
  repeat assign_with ltac:(fun R => apply sc_plus; [entry|first [exact Ic|apply sc_div; [exact Ic|exact (tf_get1 _ _ HP_cop R eq_refl)]]]). exact R.
Qed.
Lemma sc_new s h h' d d' : h ~~ h' -> d ~~ d' -> t_new (p_tank P') s n (i_source_temp I') (i_flow_temp I') h' d' t = t_new (p_tank P) s n (i_source_temp I) (i_flow_temp I) h d t.
Proof. intros A B. rewrite <- Hs, <- Hf. destruct HP as (_ & _ & _ & _ & _ & (_ & _ & _ & N) & _). apply N; assumption. Qed.
Lemma sc_state m m' : m ~~ m' -> state_of m' = state_of m.
Proof. intro M. unfold state_of. rewrite (sc_qlt 0 0 m m' sc_0 M), (sc_qlt m m' 0 0 M sc_0). reflexivity. Qed.
Lemma sc_tank_step m m' r r' : t_capacity (p_tank P) == 0 \/ m ~~ m' -> times_fields k r r' -> tank_step P' I' t n m' r' = tank_step P I t n m r.
Proof.
  intros M R. unfold tank_step. rewrite sc_capacity. destruct (qeq_spec (t_capacity (p_tank P)) 0) as [Z|Z]; [reflexivity|].
  destruct M as [M|M]; [contradiction|]. rewrite (sc_state _ _ M). apply sc_new; [sums|exact Hh].
Qed.
Lemma sc_top_up inc inc' m m' rc rc' : t_capacity (p_tank P) == 0 \/ m ~~ m' -> inc ~~ inc' -> times_record k rc rc' -> alike (times_record k) (top_up P I t n inc m rc) (top_up P' I' t n inc' m' rc').
Proof.
  intros M Ic (R & N). unfold top_up. cbv zeta. rewrite sc_capacity. pose proof (sc_topped inc inc' _ _ Ic R) as R'. destruct (qeq_spec (t_capacity (p_tank P)) 0) as [Z|Z]; [split; assumption|].
  destruct M as [M|M]; [contradiction|]. rewrite (sc_state (m + inc) (m' + inc')) by (apply sc_plus; assumption). rewrite (sc_new _ (hp_topped_up inc (rf rc) HP_heat_total_output) _ (i_heat_demand I)) by (first [exact Hh|entry]).
  destruct (t_new _ _ _ _ _ _ _ _) as [x|e]; cbn [bind]; [|reflexivity]. apply tr_intro; [exact R'|reflexivity].
Qed.
Lemma sc_off_above rc rc' : times_record k rc rc' -> alike (times_record k) (switch_off_above P I t n rc) (switch_off_above P' I' t n rc').
Proof.
  intros (R & N). unfold switch_off_above. cbv zeta. pose proof (sc_zero hp_zeroed eq_refl _ _ R) as R'. rewrite sc_capacity, N.
  rewrite (sc_new Discharging 0 0 (i_heat_demand I) (i_heat_demand I') sc_0 Hh). apply (alike_bind eq); [destruct (qeq _ 0); [reflexivity|destruct (t_new _ _ _ _ _ _ _ _); reflexivity]|].
  intros x ? <-. apply tr_intro; [|reflexivity]. apply tf_upd; [exact R'|reflexivity|]. apply sc_minus; [exact Hh|entry].
Qed.
Lemma sc_off_below rc rc' : times_record k rc rc' -> alike (times_record k) (switch_off_below P I t n rc) (switch_off_below P' I' t n rc').
Proof.
  intros (R & N). unfold switch_off_below. cbv zeta. pose proof (sc_zero hp_zeroed eq_refl _ _ R) as R'. rewrite sc_capacity, N.
  apply (alike_bind (times k)); [apply sc_max|]. intros m m' M.
  assert (A : times_fields k (upd (upd (zero_fields hp_zeroed (rf rc)) TS_charging_total 0) TS_discharging_total (pmin m (i_heat_demand I))) (upd (upd (zero_fields hp_zeroed (rf rc')) TS_charging_total 0) TS_discharging_total (pmin m' (i_heat_demand I')))).
  { apply tf_upd; [apply tf_upd; [exact R'|reflexivity|apply sc_0]|reflexivity|]. apply sc_pmin; assumption. }
  revert A. generalize (upd (upd (zero_fields hp_zeroed (rf rc)) TS_charging_total 0) TS_discharging_total (pmin m (i_heat_demand I))) (upd (upd (zero_fields hp_zeroed (rf rc')) TS_charging_total 0) TS_discharging_total (pmin m' (i_heat_demand I'))).
  clear R R'. intros r r' R. apply (alike_bind (fun x x' => fst x = fst x' /\ snd x ~~ snd x')).
  - destruct (qeq _ 0); [split; [reflexivity|exact Hh]|]. rewrite (sc_new Discharging 0 0 (r TS_discharging_total) (r' TS_discharging_total) sc_0) by entry.
    destruct (t_new _ _ _ _ _ _ _ _); [|reflexivity]. cbn [bind]. split; [reflexivity|]. cbn [snd]. entry.
  - intros (x & d) (x' & d') (E & D). cbn [fst snd] in E, D. subst x'. apply tr_intro; [|reflexivity]. apply tf_upd; [exact R|reflexivity|]. apply sc_minus; [exact D|entry].
Qed.
Lemma sc_correct th off off' m m' c c' rc rc' : (forall x x', times_record k x x' -> alike (times_record k) (off x) (off' x')) -> t_capacity (p_tank P) == 0 \/ m ~~ m' ->
  times_checks c c' -> times_record k rc rc' ->
  (qlt (rf rc' HP_heat_total_output) (min_out P' I') && qlt th (rf rc' HP_heat_total_output) = qlt (rf rc HP_heat_total_output) (min_out P I) && qlt th (rf rc HP_heat_total_output)) ->
  alike (times_record k) (correct P I t n th off m c rc) (correct P' I' t n th off' m' c' rc').
Proof.
  intros Of M C R E. unfold correct. cbv zeta. rewrite E. clear E. destruct (_ && _); [|exact R]. pose proof (proj1 R) as R1.
  assert (Ic : min_out P I - rf rc HP_heat_total_output ~~ min_out P' I' - rf rc' HP_heat_total_output) by (apply sc_minus; [apply sc_min_out|entry]).
  apply (alike_bind (times k)); [apply sc_max|]. intros x x' X. destruct C as (_ & _ & _ & _ & C5 & C6 & _).
  rewrite (sc_qlt (x + ts_discharge c - ts_charge c) (x' + ts_discharge c' - ts_charge c') _ _) by (first [exact Ic|apply sc_minus; [apply sc_plus; assumption|assumption]]).
  destruct (qlt _ _); [apply Of, R|apply sc_top_up; assumption].
Qed.
Lemma sc_above : alike times_both (above_uncorrected P I t n soc) (above_uncorrected P' I' t n soc').
Proof.
  unfold above_uncorrected. assert (Eo : p_order_above P' = p_order_above P) by (symmetry; destruct HP as (_ & _ & _ & _ & _ & _ & _ & _ & E & _); exact E). rewrite Eo.
  apply (alike_bind times_state).
  - apply sc_run; [right|split; [apply sc_init|apply sc_init_above]]. intros m _. unfold above_key. repeat match goal with |- match ?x with _ => _ end <> _ => destruct x; try discriminate end.
  - intros (c & r) (c' & r') (C & R). cbn [fst snd] in C, R. cbv zeta. apply sc_hp_totals, sc_ts_totals, sc_aux_demand in R. revert R. generalize (aux_demand (ts_totals (hp_totals r))) (aux_demand (ts_totals (hp_totals r'))). clear r r'. intros r r' R.
    assign. apply (alike_bind (times_fields k)); [apply sc_aux_accounts, R|]. clear r r' R. intros r r' R.
    assert (T : ts_charge c - ts_discharge c ~~ ts_charge c' - ts_discharge c') by (destruct C as (_ & _ & _ & _ & C5 & C6 & _); apply sc_minus; assumption).
    rewrite (sc_tank_step _ _ r r' (or_intror T) R). destruct (tank_step _ _ _ _ _ _) as [x|e]; cbn [bind]; [|reflexivity]. apply tb_intro; [exact C|]. apply sc_grid_totals, sc_es_totals, R.
Qed.
Lemma sc_below : k == 1 \/ (~ In 12%Z (p_order_below P) /\ t_capacity (p_tank P) == 0) -> alike times_both (below_uncorrected P I t n soc) (below_uncorrected P' I' t n soc').
Proof.
  intro N. unfold below_uncorrected. assert (Eo : p_order_below P' = p_order_below P) by (symmetry; destruct HP as (_ & _ & _ & _ & _ & _ & _ & _ & _ & E & _); exact E). rewrite Eo.
  apply (alike_bind times_state).
  - apply sc_run; [destruct N as [N|(N & _)]; [left; exact N|right]|split; [apply sc_init|apply sc_init_below]]. intros m Hm K.
    assert (m = 12%Z) by (unfold below_key in K; repeat match type of K with match ?x with _ => _ end = _ => destruct x; try discriminate K end; reflexivity). subst m. exact (N Hm).
  - intros (c & r) (c' & r') (C & R). cbn [fst snd] in C, R. cbv zeta. apply sc_hp_totals, sc_aux_demand in R. revert R. generalize (aux_demand (hp_totals r)) (aux_demand (hp_totals r')). clear r r'. intros r r' R.
    apply (alike_bind (times_fields k)); [apply sc_aux_accounts, R|]. clear r r' R. intros r r' R. apply sc_ts_totals in R. revert R. generalize (ts_totals r) (ts_totals r'). clear r r'. intros r r' R.
    assert (T : t_capacity (p_tank P) == 0 \/ round1 (ts_charge c - ts_discharge c) ~~ round1 (ts_charge c' - ts_discharge c')).
    { destruct N as [N|(_ & N)]; [right|left; exact N]. destruct C as (_ & _ & _ & _ & C5 & C6 & _). apply sc_pround; [exact N|]. apply sc_minus; assumption. }
    rewrite (sc_tank_step _ _ r r' T R). destruct (tank_step _ _ _ _ _ _) as [x|e]; cbn [bind]; [|reflexivity]. apply tb_intro; [exact C|]. apply sc_es_totals, sc_grid_totals in R. revert R. generalize (grid_totals P (es_totals P soc r)) (grid_totals P' (es_totals P' soc' r')). clear r r' T. intros r r' R. assign. exact R.
Qed.
End Hour.
End Scaled.
