(** C109: [k] times the plant for [k] times the demand; C110: wind and sun are interchangeable. *)
From Verif Require Import Base BaseL M_Battery S_Battery M_HeatPump M_Tools M_FixedOrder M_Tank S_FixedOrder L_FixedOrder L_FixedOrderHour L_FixedOrderProps L_FixedOrderRun P_FixedOrder L_HeatPumpSize P_HeatPumpSize S_Scale L_Scale.

Section Hours.
Variable k : Q.
Hypothesis Kp : 0 < k.
Variables (P P' : plant) (I I' : hour_in) (t : Z) (n : nodes) (soc soc' : Q).
Hypothesis HP : times_plant k P P'.
Hypothesis Hg : times k (i_wind I + i_PV I) (i_wind I' + i_PV I').
Hypothesis He : times k (i_elec_demand I) (i_elec_demand I').
Hypothesis Hh : times k (i_heat_demand I) (i_heat_demand I').
Hypothesis Hs : i_source_temp I = i_source_temp I'.
Hypothesis Hf : i_flow_temp I = i_flow_temp I'.
Hypothesis Hpr : i_import_price I == i_import_price I'.
Hypothesis Hc : cop (i_perf I) == cop (i_perf I').
Hypothesis Hd : times k (duty (i_perf I)) (duty (i_perf I')).
Hypothesis Hsoc : times k soc soc'.
Hypothesis Hr : k == 1 \/ high_tariff P I \/ nothing_rounded P.
Hypothesis Ht : k == 1 \/ ~ high_tariff P I \/ clear_of_threshold k P I t n soc.

Lemma same_tariff : qlt (p_setpoint P') (i_import_price I') = qlt (p_setpoint P) (i_import_price I).
Proof. destruct HP as (_ & _ & _ & _ & _ & _ & _ & E & _). destruct (qlt_spec (p_setpoint P') (i_import_price I')), (qlt_spec (p_setpoint P) (i_import_price I)); try reflexivity; exfalso; rewrite E, Hpr in *; lra. Qed.
Definition dispatched (X : plant) (J : hour_in) (s : Q) : res record := if qlt (p_setpoint X) (i_import_price J) then above_setpoint X J t n s else below_setpoint X J t n s.
Lemma min_same : min_out P I == minimum_heat P I.
Proof. unfold min_out, minimum_heat. field. Qed.
Lemma sc_dispatched : alike (times_record k) (dispatched P I soc) (dispatched P' I' soc').
Proof.
  unfold dispatched. rewrite same_tariff. destruct (qlt_spec (p_setpoint P) (i_import_price I)) as [Hi|Lo].
  - unfold above_setpoint. assert (U : uncorrected P I t n soc = above_uncorrected P I t n soc) by (unfold uncorrected; destruct (qlt_spec (p_setpoint P) (i_import_price I)); [reflexivity|lra]).
    pose proof (sc_above k Kp P P' I I' t n soc soc' HP Hg He Hh Hs Hf Hpr Hc Hd Hsoc) as A.
    destruct (above_uncorrected P I t n soc) as [(c & rc)|e] eqn:E, (above_uncorrected P' I' t n soc') as [(c' & rc')|e']; cbn [alike] in A; try contradiction; [|exact A]. cbn [bind]. destruct A as (C & R). cbn [fst snd] in C, R.
    apply (sc_correct k Kp P P' I I' t n HP Hh Hs Hf Hd); try assumption.
    + intros x x' X. apply (sc_off_above k P P' I I' t n HP Hh Hs Hf); assumption.
    + right. destruct C as (_ & _ & _ & _ & C5 & C6 & _). apply sc_minus; assumption.
    + assert (V : times k (rf rc HP_heat_total_output) (rf rc' HP_heat_total_output)) by (apply tf_get; [exact (proj1 R)|reflexivity]).
      rewrite (sc_qlt k Kp _ _ _ _ V (sc_min_out k P P' I I' HP Hd)). destruct Ht as [K|[Ht'|Ht']]; [|exfalso; exact (Ht' Hi)|].
      * f_equal. unfold times in V. rewrite K in V. destruct (qlt_spec (1 # 10) (rf rc' HP_heat_total_output)), (qlt_spec (1 # 10) (rf rc HP_heat_total_output)); try reflexivity; exfalso; lra.
      * specialize (Ht' c rc U). pose proof min_same as M. unfold times in V. destruct Ht' as [T|[T|T]].
        -- destruct (qlt_spec (rf rc HP_heat_total_output) (min_out P I)); [exfalso; lra|reflexivity].
        -- f_equal. destruct (qlt_spec (1 # 10) (rf rc' HP_heat_total_output)), (qlt_spec (1 # 10) (rf rc HP_heat_total_output)); try reflexivity; exfalso; lra.
        -- f_equal. destruct (qlt_spec (1 # 10) (rf rc' HP_heat_total_output)), (qlt_spec (1 # 10) (rf rc HP_heat_total_output)); try reflexivity; exfalso; lra.
  - unfold below_setpoint. assert (Nr : k == 1 \/ ~ In 12%Z (p_order_below P) /\ t_capacity (p_tank P) == 0) by (destruct Hr as [K|[K|K]]; [left; exact K|exfalso; unfold high_tariff in K; lra|right; exact K]).
    pose proof (sc_below k Kp P P' I I' t n soc soc' HP Hg He Hh Hs Hf Hpr Hc Hd Hsoc Nr) as A.
    destruct (below_uncorrected P I t n soc) as [(c & rc)|e], (below_uncorrected P' I' t n soc') as [(c' & rc')|e']; cbn [alike] in A; try contradiction; [|exact A]. cbn [bind]. destruct A as (C & R). cbn [fst snd] in C, R.
    apply (sc_correct k Kp P P' I I' t n HP Hh Hs Hf Hd); try assumption.
    + intros x x' X. apply (sc_off_below k Kp P P' I I' t n HP Hh Hs Hf); assumption.
    + destruct Nr as [K|(_ & K)]; [right|left; exact K]. destruct C as (_ & _ & _ & _ & C5 & C6 & _). apply sc_pround; [exact K|]. apply sc_minus; assumption.
    + assert (V : times k (rf rc HP_heat_total_output) (rf rc' HP_heat_total_output)) by (apply tf_get; [exact (proj1 R)|reflexivity]).
      rewrite (sc_qlt k Kp _ _ _ _ V (sc_min_out k P P' I I' HP Hd)), (sc_qlt k Kp 0 0 _ _ (sc_0 k) V). reflexivity.
Qed.
Lemma sc_used : times k (bal_RES_used (surplus_deficit_hour (i_wind I + i_PV I) (i_elec_demand I))) (bal_RES_used (surplus_deficit_hour (i_wind I' + i_PV I') (i_elec_demand I'))).
Proof. exact (proj2 (proj2 (sc_balance k Kp I I' Hg He))). Qed.
Lemma sc_complete rc rc' : times k (i_wind I) (i_wind I') -> times k (i_PV I) (i_PV I') -> times_record k rc rc' -> times_record k (complete I rc) (complete I' rc').
Proof.
  intros W V (R & N). split; [|exact N]. pose proof sc_used as U. unfold complete. cbn [rf]. revert R. generalize (rf rc) (rf rc'). intros r r' R.
  repeat match goal with R : times_fields k ?r ?r' |- context [upd ?r ?f ?v] => match goal with |- context [upd r' f ?v'] =>
    let A := fresh "A" in assert (A : times_fields k (upd r f v) (upd r' f v'));
      [apply tf_upd; [exact R|reflexivity|first [assumption|apply tf_get; [exact R|reflexivity]|apply sc_plus; apply tf_get; first [exact R|reflexivity]]]|];
    revert A; clear R; generalize (upd r f v) (upd r' f v'); clear r r'; intros r r' R end end. exact R.
Qed.
Lemma sc_complete_but rc rc' f : times_record k rc rc' -> f <> RES_wind -> f <> RES_PV -> rf (complete I' rc') f == (if intensive f then 1 else k) * rf (complete I rc) f.
Proof.
  intros (R & N) Fw Fv. pose proof sc_used as U. unfold times in *. unfold complete. cbn [rf]. pose proof (R HP_elec_RES_usage) as R1. pose proof (R AUX_RES_to_demand) as R2. pose proof (R AUX_RES_to_TS) as R3. cbn [intensive] in R1, R2, R3.
  destruct f; try contradiction; fld; cbn [intensive]; try (apply R); rewrite ?U, ?R1, ?R2, ?R3, ?Hg, ?He, ?Hh; ring.
Qed.
End Hours.

(** ** [k] times the plant *)
(** One hour of a plant [k] times as big, with [k] times the demand and generation: [k] times every flow and every sum of money, the same prices, COP and temperatures; and it fails if and only if the small one fails. *)
Theorem C109_hour_partial : forall k P P' I I' t n soc soc', 0 < k -> times_plant k P P' -> times_hour k I I' -> times k soc soc' ->
  high_tariff P I \/ nothing_rounded P -> ~ high_tariff P I \/ clear_of_threshold k P I t n soc ->
  alike (times_record k) (hour_step P I t n soc) (hour_step P' I' t n soc').
Proof.
  intros k P P' I I' t n soc soc' Kp HP (W & V & He & Hh & Hs & Hf & Hpr & Hc & Hd) Hsoc Hr Ht. unfold hour_step.
  assert (Hg : times k (i_wind I + i_PV I) (i_wind I' + i_PV I')) by (apply sc_plus; assumption).
  apply (alike_bind (times_record k)); [apply (sc_dispatched k Kp P P' I I' t n soc soc' HP Hg He Hh Hs Hf Hpr Hc Hd Hsoc); right; assumption|].
  intros rc rc' R. exact (sc_complete k Kp I I' Hg He Hh rc rc' W V R).
Qed.
Print Assumptions C109_hour_partial.
(** A whole run *)
Lemma run_times k P P' year year' : 0 < k -> times_plant k P P' -> 0 <= b_capacity (p_battery P) -> (forall I, In I year -> high_tariff P I) \/ nothing_rounded P ->
  (forall I t n soc, In I year -> level_ok (p_battery P) soc -> ~ high_tariff P I \/ clear_of_threshold k P I t n soc) -> Forall2 (times_hour k) year year' ->
  forall ts n soc soc', level_ok (p_battery P) soc -> times k soc soc' -> alike (Forall2 (times_record k)) (run_loop P year ts (n, soc)) (run_loop P' year' ts (n, soc')).
Proof.
  intros Kp HP Bc Hr Ht F. induction ts as [|t ts IH]; intros n soc soc' L Hsoc; cbn [run_loop]; [constructor|].
  assert (La : alike (fun I I' => times_hour k I I' /\ In I year) (label year t) (label year' t)).
  { unfold label. destruct (t <? 0)%Z; [reflexivity|]. clear - F. revert F. generalize (Z.to_nat t). intros m F. revert m. induction F as [|x y l l' E F IH]; intros [|m]; cbn; try reflexivity.
    - split; [exact E|left; reflexivity].
    - specialize (IH m). destruct (nth_error l m), (nth_error l' m); cbn in *; try contradiction; [|reflexivity]. destruct IH. split; [assumption|right; assumption]. }
  apply (alike_bind (fun I I' => times_hour k I I' /\ In I year)); [exact La|]. intros I I' (HI & Hin). cbn [fst snd].
  assert (A : alike (times_record k) (hour_step P I t n soc) (hour_step P' I' t n soc')).
  { apply C109_hour_partial; try assumption; [|apply Ht; assumption]. destruct Hr as [Hr|Hr]; [left; apply Hr, Hin|right; exact Hr]. }
  destruct (hour_step P I t n soc) as [rc|e] eqn:H, (hour_step P' I' t n soc') as [rc'|e'] eqn:H'; cbn [alike] in A; try contradiction; [|exact A]. cbn [bind].
  rewrite <- (proj2 A).
  apply (alike_bind (Forall2 (times_record k))).
  - apply IH; [exact (final_soc_range P I t n soc rc Bc H)|]. apply tf_get; [exact (proj1 A)|reflexivity].
  - intros l l' Fl. constructor; assumption.
Qed.
Theorem C109_run_partial : forall k P P' year year' first m, 0 < k -> times_plant k P P' -> 0 <= b_capacity (p_battery P) -> 0 <= b_initial_state (p_battery P) <= 1 ->
  (forall I, In I year -> high_tariff P I) \/ nothing_rounded P ->
  (forall I t n soc, In I year -> level_ok (p_battery P) soc -> ~ high_tariff P I \/ clear_of_threshold k P I t n soc) ->
  Forall2 (times_hour k) year year' -> alike (Forall2 (times_record k)) (run_timesteps P year first m) (run_timesteps P' year' first m).
Proof.
  intros k P P' year year' first m Kp HP Bc Bi Hr Ht F. unfold run_timesteps.
  assert (E : length year = length year') by (clear - F; induction F; cbn; congruence).
  unfold surplus_deficit_year. rewrite !map_length, <- E. destruct (Nat.ltb _ _); [reflexivity|]. destruct (Nat.ltb _ _); [reflexivity|]. cbn [bind]. cbv zeta. destruct (8760 <? first + m)%Z; [reflexivity|].
  pose proof HP as (B & _ & _ & _ & _ & (_ & Ei & _) & _). rewrite <- Ei. apply run_times; try assumption; [unfold level_ok, init_state; nra|]. apply sc_init_state, B.
Qed.
Print Assumptions C109_run_partial.
(** Without a minimum output the threshold does not matter. *)
Theorem C109_no_minimum : forall k P I t n soc, good_hour P I soc -> p_min_output P == 0 -> clear_of_threshold k P I t n soc.
Proof.
  intros k P I t n soc G M c rc U. left. pose proof G as (HP & HI & HS & HO). pose proof (uncorrected_inv P I t n soc c rc U) as (ps & r & u & pr & de & Ps & R & _ & _ & Rf & _).
  destruct (run_full P I t n HP HI soc HS ps (start_fields P I) c r (HO ps Ps) (start_zero P I) R) as (_ & _ & W & _).
  rewrite Rf, untouched_output. setoid_replace (minimum_heat P I) with 0 by (unfold minimum_heat; rewrite M; field).
  pose proof (W HP_RES_to_demand HP_heat_from_RES_to_demand ltac:(cbn; auto)). pose proof (W HP_import_to_demand HP_heat_from_import_to_demand ltac:(cbn; auto)).
  pose proof (W ES_to_HP_to_demand HP_heat_from_ES_to_demand ltac:(cbn; auto)). pose proof (W HP_RES_to_TS HP_heat_from_RES_to_TS ltac:(cbn; auto)). pose proof (W HP_import_to_TS HP_heat_from_import_to_TS ltac:(cbn; auto)). lra.
Qed.
Print Assumptions C109_no_minimum.

(** ** Wind and sun *)
Lemma times1 a b : a == b <-> times 1 a b.
Proof. unfold times. split; intro H; [rewrite H; ring|rewrite H; ring]. Qed.
Lemma same_times P : tank_respects_numbers (p_tank P) -> times_plant 1 P P.
Proof.
  intro T. unfold times_plant, times_battery. repeat match goal with |- _ /\ _ => split end; try reflexivity; try (apply times1; reflexivity).
  split; [reflexivity|]. split; [reflexivity|]. split.
  - intros. destruct (t_max _ _ _ _ _ _); cbn [alike]; [apply times1; reflexivity|reflexivity].
  - intros s n src flow h d h' d' t H D. apply T; symmetry; apply times1; assumption.
Qed.
(** How the generation is divided between wind and sun does not matter: all entries but these two are the same, and so are the temperatures and the failures. *)
Lemma hours_same P I I' t n soc soc' : tank_respects_numbers (p_tank P) -> same_generation I I' -> soc == soc' -> alike same_but_source (hour_step P I t n soc) (hour_step P I' t n soc').
Proof.
  intros T (Hg & He & Hh & Hs & Hf & Hpr & Hc & Hd) Hsoc. apply times1 in Hg, He, Hh, Hd, Hsoc. unfold hour_step. assert (Kp : 0 < 1) by lra.
  apply (alike_bind (times_record 1)); [apply (sc_dispatched 1 Kp P P I I' t n soc soc' (same_times P T) Hg He Hh Hs Hf Hpr Hc Hd Hsoc); left; reflexivity|].
  intros rc rc' R. split; [|exact (proj2 R)]. intros f F1 F2. rewrite (sc_complete_but 1 Kp I I' Hg He Hh rc rc' f R F1 F2). destruct (intensive f); ring.
Qed.
Theorem C110_hour : forall P I I' t n soc, tank_respects_numbers (p_tank P) -> same_generation I I' -> alike same_but_source (hour_step P I t n soc) (hour_step P I' t n soc).
Proof. intros. apply hours_same; [assumption|assumption|reflexivity]. Qed.
Print Assumptions C110_hour.
Lemma run_same P year year' : tank_respects_numbers (p_tank P) -> Forall2 same_generation year year' ->
  forall ts n soc soc', soc == soc' -> alike (Forall2 same_but_source) (run_loop P year ts (n, soc)) (run_loop P year' ts (n, soc')).
Proof.
  intros T F. induction ts as [|t ts IH]; intros n soc soc' Hsoc; cbn [run_loop]; [constructor|].
  apply (alike_bind same_generation).
  { unfold label. destruct (t <? 0)%Z; [reflexivity|]. clear - F. revert F. generalize (Z.to_nat t). intros m F. revert m. induction F as [|x y l l' E F IH]; intros [|m]; cbn; try reflexivity; [exact E|].
    specialize (IH m). destruct (nth_error l m), (nth_error l' m); cbn in *; try contradiction; [assumption|reflexivity]. }
  intros I I' HI. cbn [fst snd]. apply (alike_bind same_but_source); [apply hours_same; assumption|]. intros rc rc' (R & N). rewrite <- N.
  apply (alike_bind (Forall2 same_but_source)); [apply IH, R; discriminate|]. intros l l' Fl. constructor; [split|]; assumption.
Qed.
Theorem C110_run : forall P year year' first m, tank_respects_numbers (p_tank P) -> Forall2 same_generation year year' ->
  alike (Forall2 same_but_source) (run_timesteps P year first m) (run_timesteps P year' first m).
Proof.
  intros P year year' first m T F. unfold run_timesteps. assert (E : length year = length year') by (clear - F; induction F; cbn; congruence).
  unfold surplus_deficit_year. rewrite !map_length, <- E. destruct (Nat.ltb _ _); [reflexivity|]. destruct (Nat.ltb _ _); [reflexivity|]. cbn [bind]. cbv zeta. destruct (8760 <? first + m)%Z; [reflexivity|].
  apply run_same; [assumption|assumption|reflexivity].
Qed.
Print Assumptions C110_run.

(** ** The store of the program respects numbers *)
Section Store.
Variable K : tank.
Variables ret delta : Q.
Lemma fdiv_same a a' b b' : a == a' -> b == b' -> alike Qeq (fdiv a b) (fdiv a' b').
Proof. intros A B. unfold fdiv. destruct (qeq_spec b 0), (qeq_spec b' 0); cbn [alike]; [reflexivity|exfalso; lra|exfalso; lra|]. rewrite A, B. reflexivity. Qed.
Lemma alike_same {A} (R : A -> A -> Prop) (x : res A) : (forall a, R a a) -> alike R x x.
Proof. intro H. destruct x; [apply H|reflexivity]. Qed.
Lemma mass_same s T flow source o o' d d' : o == o' -> d == d' ->
  alike Qeq (mass_flow_calc K s flow ret source delta o d (bottom K T) (top T)) (mass_flow_calc K s flow ret source delta o' d' (bottom K T) (top T)).
Proof.
  intros O D. destruct s; cbn [mass_flow_calc]; [| |reflexivity].
  - apply (alike_bind Qeq). { unfold source_out_pre_mix. apply (alike_bind eq); [apply alike_same; reflexivity|]. intros c ? <-. apply fdiv_same; [exact O|reflexivity]. }
    intros a a' A. apply (alike_bind Qeq). { unfold DH_flow_post_mix. apply (alike_bind eq); [apply alike_same; reflexivity|]. intros c ? <-. apply fdiv_same; [exact D|reflexivity]. }
    intros b b' B. apply fdiv_same; [rewrite A, B; reflexivity|reflexivity].
  - apply (alike_bind Qeq). { unfold DH_flow_post_mix. apply (alike_bind eq); [apply alike_same; reflexivity|]. intros c ? <-. apply fdiv_same; [exact D|reflexivity]. }
    intros b b' B. apply (alike_bind Qeq). { unfold source_out_pre_mix. apply (alike_bind eq); [apply alike_same; reflexivity|]. intros c ? <-. apply fdiv_same; [exact O|reflexivity]. }
    intros a a' A. apply (alike_bind Qeq); [apply fdiv_same; [rewrite A, B; reflexivity|reflexivity]|].
    intros m m' M. cbn [alike]. unfold pabs. qcases; lra.
Qed.
Lemma dT_same s T source flow m m' mass k Ta cps i : m == m' -> dT K s T source flow ret m mass k Ta cps i == dT K s T source flow ret m' mass k Ta cps i.
Proof.
  intro M. unfold dT. cbv zeta.
  assert (A : forall cp, coef_A K s T source flow m mass cp k i == coef_A K s T source flow m' mass cp k i) by (intro; unfold coef_A; cbv zeta; rewrite M; reflexivity).
  assert (B : coef_B K s T source flow m mass i == coef_B K s T source flow m' mass i) by (unfold coef_B; rewrite M; reflexivity).
  assert (C : coef_C K s T source flow m mass i == coef_C K s T source flow m' mass i) by (unfold coef_C; rewrite M; reflexivity).
  assert (D : forall cp, coef_D K s T source flow ret m mass cp k Ta i == coef_D K s T source flow ret m' mass cp k Ta i) by (intro; unfold coef_D; rewrite M; reflexivity).
  specialize (A (nth i cps 0)). specialize (D (nth i cps 0)). destruct (Nat.eqb i 0); [rewrite A, C, D; reflexivity|]. destruct (Nat.eqb i _); [rewrite A, B, D; reflexivity|]. rewrite A, B, C, D. reflexivity.
Qed.
Lemma euler_same s T source flow m m' t : m == m' -> euler K s T source flow ret m t = euler K s T source flow ret m' t.
Proof.
  intro M. unfold euler. destruct (check_nodes K T); [|reflexivity]. cbn [bind]. destruct (node_mass K); [|reflexivity]. cbn [bind]. destruct (mapM (specific_heat K) T); [|reflexivity]. cbn [bind].
  destruct (k_value K); [|reflexivity]. cbn [bind]. destruct (amb_temp K t); [|reflexivity]. cbn [bind]. f_equal. apply map_ext. intro i. apply Qred_complete. rewrite (dT_same s T source flow m m' _ _ _ _ i M). reflexivity.
Qed.
Lemma step_same s source flow o o' d d' t T : o == o' -> d == d' ->
  inner_step K s source delta flow ret o d t T = inner_step K s source delta flow ret o' d' t T.
Proof.
  intros O D. unfold inner_step. pose proof (mass_same s T flow source o o' d d' O D) as M.
  destruct (mass_flow_calc K s flow ret source delta o d _ _) as [m|], (mass_flow_calc K s flow ret source delta o' d' _ _) as [m'|]; cbn [alike] in M; try contradiction; [|subst; reflexivity].
  cbn [bind]. destruct (node_mass K) as [w|]; [|reflexivity]. cbn [bind]. rewrite (euler_same s T source flow (pmin m w) (pmin m' w) t); [reflexivity|]. unfold pmin. qcases; lra.
Qed.
Lemma count_same s T source flow o o' d d' : o == o' -> d == d' -> inner_count K s T source delta flow ret o d = inner_count K s T source delta flow ret o' d'.
Proof.
  intros O D. unfold inner_count. pose proof (mass_same s T flow source o o' d d' O D) as M.
  destruct (mass_flow_calc K s flow ret source delta o d _ _) as [m|], (mass_flow_calc K s flow ret source delta o' d' _ _) as [m'|]; cbn [alike] in M; try contradiction; [|subst; reflexivity].
  cbn [bind]. destruct (node_mass K) as [w|]; [|reflexivity]. cbn [bind]. assert (E : m * 3600 == m' * 3600) by (rewrite M; reflexivity). pose proof (fdiv_same _ _ w w E (Qeq_refl w)) as F.
  destruct (fdiv (m * 3600) w), (fdiv (m' * 3600) w); cbn [alike] in F; try contradiction; [|subst; reflexivity]. cbn [bind]. unfold pceil. rewrite (Qceiling_comp _ _ F). reflexivity.
Qed.
Lemma loop_same f g count : (forall T, f T = g T) -> forall T, inner_loop f count T = inner_loop g count T.
Proof. intro E. induction count as [|c IH]; intro T; cbn [inner_loop]; [reflexivity|]. rewrite E. destruct (g T); [|reflexivity]. cbn [bind]. rewrite IH. reflexivity. Qed.
End Store.
Theorem C110_store : forall K ret delta, tank_respects_numbers (tank_instance K ret delta).
Proof.
  intros K ret delta s T source flow o d o' d' t O D. cbn [tank_instance t_new]. f_equal. unfold new_nodes_temp.
  destruct (qeq (k_capacity K) 0); [reflexivity|]. destruct (_ && _); [reflexivity|]. destruct (check_nodes K T); [|reflexivity]. cbn [bind].
  rewrite (count_same K ret delta s T source flow o o' d d' O D). destruct (inner_count K s T source delta flow ret o' d') as [c|]; [|reflexivity]. cbn [bind]. cbv zeta.
  rewrite (loop_same _ (inner_step K s source delta flow ret (o' * 3600 / inject_Z (Z.of_nat c)) (d' * 3600 / inject_Z (Z.of_nat c)) t) c); [reflexivity|].
  intro T'. apply step_same; [rewrite O|rewrite D]; reflexivity.
Qed.
Print Assumptions C110_store.

(** ** Where it fails *)
(** A plant with a heat pump of [8 k] kW, a battery of [10 k] kWh and a store that takes [(617/500) k] kWh *)
Definition sized_battery (k : Q) : battery :=
  {| b_capacity := 10 * k; b_initial_state := 1#2; b_charge_max := 100 * k; b_discharge_max := 100 * k; b_charge_eff := 9#10; b_discharge_eff := 9#10; b_self_discharge := 0 |}.
Definition sized (k min_output store : Q) (above below : list Z) : plant :=
  {| p_battery := sized_battery k; p_hp_capacity := 8 * k; p_min_runtime := 60; p_min_output := min_output; p_aux := electric_aux;
     p_tank := simple_tank (k * store) (k * (if qeq store 0 then 0 else 617 # 500)) 0; p_export_price := 40; p_setpoint := 100; p_order_above := above; p_order_below := below; p_max_heat := 30 * k |}.
Definition sized_hour (k pv elec heat price : Q) : hour_in := demo_hour (k * pv) (k * elec) (k * heat) price 3 (8 * k).
Lemma sized_times k m s above below : 0 < k -> times_plant k (sized 1 m s above below) (sized k m s above below).
Proof.
  intro Kp. unfold times_plant, sized, times_battery, sized_battery, times. cbn [p_battery p_hp_capacity p_min_runtime p_min_output p_aux p_tank p_export_price p_setpoint p_order_above p_order_below p_max_heat b_capacity b_initial_state b_charge_max b_discharge_max b_charge_eff b_discharge_eff b_self_discharge].
  repeat match goal with |- _ /\ _ => split end; try reflexivity; try ring.
  split; [|split; [reflexivity|split]].
  - cbn [simple_tank t_capacity]. split; intro H; [assert (E : s == 0) by lra; rewrite E; ring|]. assert (E : s == 0) by nra. rewrite E. ring.
  - intros st n src flow t. cbn [simple_tank t_max alike]. unfold times. destruct st; try (destruct (qeq s 0)); ring.
  - reflexivity.
Qed.
Lemma sized_hours k pv el he pr : times_hour k (sized_hour 1 pv el he pr) (sized_hour k pv el he pr).
Proof. unfold times_hour, sized_hour, demo_hour, times. cbn. repeat match goal with |- _ /\ _ => split end; try reflexivity; ring. Qed.
(** The threshold of 0.1 kWh: 0.08 kWh is delivered by a heat pump that may not run below 1.6 kW, ten times as much by one ten times as big is not. *)
Theorem C109_threshold_refuted : exists P P' I I' rc rc', times_plant 10 P P' /\ times_hour 10 I I' /\ high_tariff P I /\ t_capacity (p_tank P) == 0 /\
  hour_step P I 0 [60; 50; 40] 5 = Ok rc /\ hour_step P' I' 0 [60; 50; 40] 50 = Ok rc' /\ ~ rf rc' HP_heat_total_output == 10 * rf rc HP_heat_total_output /\ ~ times_record 10 rc rc'.
Proof.
  exists (sized 1 20 0 all13 []), (sized 10 20 0 all13 []), (sized_hour 1 0 3 (8 # 100) 120), (sized_hour 10 0 3 (8 # 100) 120).
  assert (H : match hour_step (sized 1 20 0 all13 []) (sized_hour 1 0 3 (8 # 100) 120) 0 [60; 50; 40] 5, hour_step (sized 10 20 0 all13 []) (sized_hour 10 0 3 (8 # 100) 120) 0 [60; 50; 40] 50 with
              | Ok r, Ok r' => qeq (rf r HP_heat_total_output) (8 # 100) && qeq (rf r' HP_heat_total_output) 0 | _, _ => false end = true) by (vm_compute; reflexivity).
  destruct (hour_step (sized 1 _ _ _ _) _ _ _ _) as [r|]; [|discriminate H]. destruct (hour_step (sized 10 _ _ _ _) _ _ _ _) as [r'|]; [|discriminate H]. apply andb_prop in H as (H1 & H2). apply qeq_true_inv in H1, H2.
  exists r, r'. split; [apply sized_times; lra|]. split; [apply sized_hours|]. split; [cbn; unfold high_tariff; cbn; lra|]. split; [reflexivity|]. split; [reflexivity|]. split; [reflexivity|].
  assert (N : ~ rf r' HP_heat_total_output == 10 * rf r HP_heat_total_output) by (rewrite H1, H2; intro E; discriminate E).
  split; [exact N|]. intros (T & _). apply N. rewrite (T HP_heat_total_output). reflexivity.
Qed.
Print Assumptions C109_threshold_refuted.
(** Rounding to 0.01 kWh: a store that takes 1.234 kWh is given 1.23 kWh from the grid, one that takes 12.34 kWh is given 12.34 kWh. *)
Theorem C109_rounding_refuted : exists P P' I I' rc rc', times_plant 10 P P' /\ times_hour 10 I I' /\ ~ high_tariff P I /\ p_min_output P == 0 /\
  hour_step P I 0 [60; 50; 40] 5 = Ok rc /\ hour_step P' I' 0 [60; 50; 40] 50 = Ok rc' /\ ~ rf rc' HP_heat_from_import_to_TS == 10 * rf rc HP_heat_from_import_to_TS /\ ~ times_record 10 rc rc'.
Proof.
  exists (sized 1 0 1000 [] [12%Z]), (sized 10 0 1000 [] [12%Z]), (sized_hour 1 0 3 0 80), (sized_hour 10 0 3 0 80).
  assert (H : match hour_step (sized 1 0 1000 [] [12%Z]) (sized_hour 1 0 3 0 80) 0 [60; 50; 40] 5, hour_step (sized 10 0 1000 [] [12%Z]) (sized_hour 10 0 3 0 80) 0 [60; 50; 40] 50 with
              | Ok r, Ok r' => qeq (rf r HP_heat_from_import_to_TS) (123 # 100) && qeq (rf r' HP_heat_from_import_to_TS) (1234 # 100) | _, _ => false end = true) by (vm_compute; reflexivity).
  destruct (hour_step (sized 1 _ _ _ _) _ _ _ _) as [r|]; [|discriminate H]. destruct (hour_step (sized 10 _ _ _ _) _ _ _ _) as [r'|]; [|discriminate H]. apply andb_prop in H as (H1 & H2). apply qeq_true_inv in H1, H2.
  exists r, r'. split; [apply sized_times; lra|]. split; [apply sized_hours|]. split; [unfold high_tariff; cbn; lra|]. split; [reflexivity|]. split; [reflexivity|]. split; [reflexivity|].
  assert (N : ~ rf r' HP_heat_from_import_to_TS == 10 * rf r HP_heat_from_import_to_TS) by (rewrite H1, H2; intro E; discriminate E).
  split; [exact N|]. intros (T & _). apply N. rewrite (T HP_heat_from_import_to_TS). reflexivity.
Qed.
Print Assumptions C109_rounding_refuted.

(** ** Cases *)
Example C109_case : times_plant 10 (sized 1 0 0 all13 []) (sized 10 0 0 all13 []) /\ times_hour 10 (sized_hour 1 4 3 10 120) (sized_hour 10 4 3 10 120) /\ times 10 5 50 /\
  high_tariff (sized 1 0 0 all13 []) (sized_hour 1 4 3 10 120) /\ clear_of_threshold 10 (sized 1 0 0 all13 []) (sized_hour 1 4 3 10 120) 0 [60; 50; 40] 5 /\
  exists rc rc', hour_step (sized 1 0 0 all13 []) (sized_hour 1 4 3 10 120) 0 [60; 50; 40] 5 = Ok rc /\ hour_step (sized 10 0 0 all13 []) (sized_hour 10 4 3 10 120) 0 [60; 50; 40] 50 = Ok rc' /\
    0 < rf rc HP_heat_total_output /\ 0 < rf rc GRID_total_import /\ rf rc' GRID_total_import == 10 * rf rc GRID_total_import /\ rf rc' HP_cop == rf rc HP_cop.
Proof.
  split; [apply sized_times; lra|]. split; [apply sized_hours|]. split; [unfold times; reflexivity|]. split; [unfold high_tariff; cbn; lra|]. split.
  { apply C109_no_minimum; [|reflexivity]. split; [|split; [|split]].
    - unfold plant_ok, battery_ok. cbn. repeat match goal with |- _ /\ _ => split end; try lra; try discriminate.
    - unfold hour_ok. cbn. repeat split; try lra. intros x ? ? q H. injection H as <-. destruct x; lra.
    - unfold level_ok. cbn. lra.
    - apply plant_orders_ok; reflexivity. }
  assert (H : match hour_step (sized 1 0 0 all13 []) (sized_hour 1 4 3 10 120) 0 [60; 50; 40] 5, hour_step (sized 10 0 0 all13 []) (sized_hour 10 4 3 10 120) 0 [60; 50; 40] 50 with
              | Ok r, Ok r' => negb (qle (rf r HP_heat_total_output) 0) && (negb (qle (rf r GRID_total_import) 0) && (qeq (rf r' GRID_total_import) (10 * rf r GRID_total_import) && qeq (rf r' HP_cop) (rf r HP_cop))) | _, _ => false end = true) by (vm_compute; reflexivity).
  destruct (hour_step (sized 1 _ _ _ _) _ _ _ _) as [r|]; [|discriminate H]. destruct (hour_step (sized 10 _ _ _ _) _ _ _ _) as [r'|]; [|discriminate H].
  apply andb_prop in H as (H1 & H). apply andb_prop in H as (H2 & H). apply andb_prop in H as (H3 & H4). apply qeq_true_inv in H3, H4. exists r, r'. split; [reflexivity|]. split; [reflexivity|].
  split; [destruct (qle_spec (rf r HP_heat_total_output) 0); [discriminate H1|assumption]|]. split; [destruct (qle_spec (rf r GRID_total_import) 0); [discriminate H2|assumption]|]. split; assumption.
Qed.
Print Assumptions C109_case.
(** The same generation, all from the sun or half of it from wind *)
Example C110_case : same_generation (sized_hour 1 4 3 10 120) {| i_wind := 2; i_PV := 2; i_elec_demand := 3; i_heat_demand := 10; i_source_temp := 60; i_flow_temp := 55; i_import_price := 120; i_perf := {| cop := 3; duty := 8 |} |} /\
  tank_respects_numbers (p_tank (sized 1 0 1000 all13 all15)) /\
  exists rc rc', hour_step (sized 1 0 1000 all13 all15) (sized_hour 1 4 3 10 120) 0 [60; 50; 40] 5 = Ok rc /\
    hour_step (sized 1 0 1000 all13 all15) {| i_wind := 2; i_PV := 2; i_elec_demand := 3; i_heat_demand := 10; i_source_temp := 60; i_flow_temp := 55; i_import_price := 120; i_perf := {| cop := 3; duty := 8 |} |} 0 [60; 50; 40] 5 = Ok rc' /\
    ~ rf rc RES_wind == rf rc' RES_wind /\ rf rc RES_elec_demand == rf rc' RES_elec_demand /\ 0 < rf rc RES_elec_demand.
Proof.
  split; [unfold same_generation; cbn; repeat match goal with |- _ /\ _ => split end; reflexivity|]. split; [intros s n src flow h d h' d' t _ _; reflexivity|].
  assert (H : match hour_step (sized 1 0 1000 all13 all15) (sized_hour 1 4 3 10 120) 0 [60; 50; 40] 5, hour_step (sized 1 0 1000 all13 all15) {| i_wind := 2; i_PV := 2; i_elec_demand := 3; i_heat_demand := 10; i_source_temp := 60; i_flow_temp := 55; i_import_price := 120; i_perf := {| cop := 3; duty := 8 |} |} 0 [60; 50; 40] 5 with
              | Ok r, Ok r' => negb (qeq (rf r RES_wind) (rf r' RES_wind)) && (qeq (rf r RES_elec_demand) (rf r' RES_elec_demand) && negb (qle (rf r RES_elec_demand) 0)) | _, _ => false end = true) by (vm_compute; reflexivity).
  destruct (hour_step _ (sized_hour 1 _ _ _ _) _ _ _) as [r|]; [|discriminate H]. destruct (hour_step _ {| i_wind := 2 |} _ _ _) as [r'|]; [|discriminate H].
  apply andb_prop in H as (H1 & H). apply andb_prop in H as (H2 & H3). apply qeq_true_inv in H2. exists r, r'. split; [reflexivity|]. split; [reflexivity|].
  split; [destruct (qeq_spec (rf r RES_wind) (rf r' RES_wind)); [discriminate H1|assumption]|]. split; [assumption|]. destruct (qle_spec (rf r RES_elec_demand) 0); [discriminate H3|assumption].
Qed.
Print Assumptions C110_case.
