(** One hour of the fixed-order controller: from the run over the order to the record. *)
From Verif Require Import Base BaseL M_Battery S_Battery L_Battery M_HeatPump S_HeatPump L_HeatPump
  M_Tools L_Tools M_FixedOrder S_FixedOrder L_FixedOrder L_FixedOrderSign.

Lemma order_ok_allowed ps l1 p l2 :
  order_ok ps -> ps = l1 ++ p :: l2 -> allowed (rev l1) p /\ ~ In p (rev l1).
Proof.
  intros (Hnd & H1 & H2 & H3) E. unfold allowed.
  assert (R : forall q, ~ In q l1 -> ~ In q (rev l1)) by (intros q Hq C; apply Hq; apply in_rev; exact C).
  repeat split.
  - intros ->. apply R. apply (H1 l1 l2 E).
  - intro Hin. apply R. apply (H2 p Hin l1 l2 E).
  - intros ->. apply R. apply (H3 l1 l2 E).
  - apply R. subst ps. apply NoDup_remove_2 in Hnd. intro C. apply Hnd. apply in_or_app. left. exact C.
Qed.

Definition written_nonneg (r : fields) : Prop := forall p k, In k (writes p) -> 0 <= r k.

Lemma write_nonneg p h e r : 0 <= h -> 0 <= e -> written_nonneg r -> written_nonneg (write p (h, e) r).
Proof.
  intros Hh He W q k Hk. specialize (W q k Hk).
  destruct p; cbn [write fst snd]; unfold upd;
    repeat match goal with |- context [if ?b then _ else _] => destruct b end; assumption.
Qed.

Section Run.
Variables (P : plant) (I : hour_in) (t : Z) (n : nodes).
Hypothesis HP : plant_ok P.
Hypothesis HI : hour_ok P I.

Definition done_zero (don : list process) (c : checks) : Prop :=
  (In Import_to_demand don -> elec_unmet c == 0) /\
  (In AUX_to_demand don -> heat_unmet c == 0) /\
  (In RES_to_export don -> RES_left c == 0).

Lemma done_zero_step don c p h e :
  Sgn P I t n don c -> allowed don p -> ~ In p don -> amount P I t n p c = Ok (h, e) ->
  done_zero don c -> done_zero (p :: don) (update p (h, e) c).
Proof.
  intros S Hal Hn Ha (Z1 & Z2 & Z3).
  destruct (amount_limits P I t n HP HI don c p h e S Hal Hn Ha) as (A1 & A2 & A3 & A4 & A5 & _).
  destruct S. unfold done_zero.
  cbn [update fst snd elec_unmet heat_unmet RES_left In].
  repeat split.
  - intros [->|H].
    + cbn in Ha. injection Ha as <- <-. cbn. lra.
    + specialize (Z1 H). clear - A1 A3 Z1 sg_elec. destruct (in_elec_unmet p); [specialize (A3 eq_refl)|]; lra.
  - intros [->|H].
    + cbn in Ha. injection Ha as <- <-. cbn. lra.
    + specialize (Z2 H). clear - A1 A4 Z2 sg_heat. destruct (in_heat_unmet p); [specialize (A4 eq_refl)|]; lra.
  - intros [->|H].
    + cbn in Ha. injection Ha as <- <-. cbn. lra.
    + specialize (Z3 H). clear - A2 A5 Z3 sg_res. destruct (in_RES_left p); [specialize (A5 eq_refl)|]; lra.
Qed.

Lemma run_signs ps l1 l2 c r c' r' :
  order_ok ps -> ps = l1 ++ l2 ->
  Sgn P I t n (rev l1) c -> written_nonneg r -> done_zero (rev l1) c ->
  foldM (run_process P I t n) l2 (c, r) = Ok (c', r') ->
  Sgn P I t n (rev ps) c' /\ written_nonneg r' /\ done_zero (rev ps) c'.
Proof.
  intros Ho. revert l1 c r. induction l2 as [|p l2 IH]; intros l1 c r E S W Z H.
  - injection H as <- <-. rewrite app_nil_r in E. subst. auto.
  - cbn [foldM] in H. unfold run_process at 1 in H.
    destruct (amount P I t n p c) as [[h e]|] eqn:A; cbn [bind] in H; [|discriminate].
    destruct (order_ok_allowed ps l1 p l2 Ho E) as [Hal Hn].
    destruct (amount_limits P I t n HP HI _ c p h e S Hal Hn A) as (A1 & A2 & _).
    assert (E' : ps = (l1 ++ [p]) ++ l2) by (rewrite <- app_assoc; exact E).
    apply (IH (l1 ++ [p]) (update p (h, e) c) (write p (h, e) r) E'); [| | |exact H];
      try (rewrite rev_unit).
    + apply sgn_step; assumption.
    + apply write_nonneg; assumption.
    + apply done_zero_step; assumption.
Qed.

Variable soc : Q.
Hypothesis Hsoc : level_ok (p_battery P) soc.

Lemma init_sgn : Sgn P I t n [] (init_checks P I soc).
Proof.
  destruct HI as (Hw & Hp & He & Hh & Hhm & Hcop & Hd & Hcap & Hmax).
  destruct (surplus_deficit_hour_spec (i_wind I + i_PV I) (i_elec_demand I)) as (B1 & B2 & _).
  destruct Hsoc as [S0 S1].
  constructor; cbn [init_checks elec_unmet heat_unmet RES_left hp_usage ts_discharge ts_charge c_soc aux_left];
    intros; try assumption; try lra;
    match goal with H : _ = Ok _ |- _ => apply Hmax in H end; lra.
Qed.

Lemma run_full ps r0 c r :
  order_ok ps -> (forall k, In k (flat_map writes all_processes) -> r0 k = 0) ->
  foldM (run_process P I t n) ps (init_checks P I soc, r0) = Ok (c, r) ->
  Acc (init_checks P I soc) r0 (rev ps) c r /\ Sgn P I t n (rev ps) c /\
  written_nonneg r /\ done_zero (rev ps) c.
Proof.
  intros Ho Hr0 H. split.
  - pose proof (run_acc P I t n (init_checks P I soc) r0 ps [] _ _ c r (proj1 Ho)
      (fun p _ F => F) (Acc_init _ _ Hr0) H) as A.
    rewrite app_nil_r in A. exact A.
  - apply (run_signs ps [] ps (init_checks P I soc) r0 c r Ho eq_refl).
    + exact init_sgn.
    + intros p k Hk. rewrite Hr0; [lra|]. apply in_flat_map. exists p. split; [apply in_all|exact Hk].
    + split; [|split]; intros [].
    + exact H.
Qed.
End Run.

(** ** The record in terms of the fields left by the run *)
Definition hi (P : plant) (I : hour_in) : bool := qlt (p_setpoint P) (i_import_price I).

Lemma hi_spec P I : if hi P I then high_tariff P I else ~ high_tariff P I.
Proof. unfold hi, high_tariff. destruct (qlt_spec (p_setpoint P) (i_import_price I)); lra. Qed.

Definition fin_aux (u pr de : Q) (r : fields) : fields :=
  let r := upd r AUX_usage u in
  let r := upd r AUX_cost (pr * (r AUX_demand - r AUX_RES_to_demand - r AUX_RES_to_TS)) in
  upd r AUX_mass (de * u).

Definition above_rec (P : plant) (soc u pr de : Q) (r : fields) : fields :=
  let r := aux_demand (ts_totals (hp_totals r)) in
  let r := upd r HD_aux (r HD_aux + r AUX_RES_to_demand) in
  grid_totals P (es_totals P soc (fin_aux u pr de r)).
Definition below_rec (P : plant) (soc u pr de : Q) (r : fields) : fields :=
  let r := ts_totals (fin_aux u pr de (aux_demand (hp_totals r))) in
  let r := grid_totals P (es_totals P soc r) in
  upd r GRID_import_below_setpoint (r GRID_total_import).

Definition aux_prices (P : plant) (I : hour_in) (pr de : Q) : Prop :=
  (is_electric P = true /\ pr = i_import_price I /\ de = 0) \/
  (is_electric P = false /\ a_cost (p_aux P) = Some pr /\ a_energy_density (p_aux P) = Some de).

Lemma aux_accounts_inv P I r r' :
  r GRID_import_price = i_import_price I ->
  aux_accounts P r = Ok r' ->
  exists u pr de, fuel_usage (a_efficiency (p_aux P)) (r AUX_demand) = Ok u /\
    aux_prices P I pr de /\ r' = fin_aux u pr de r.
Proof.
  intros Hpr H. unfold aux_accounts in H.
  destruct (fuel_usage (a_efficiency (p_aux P)) (r AUX_demand)) as [u|]; cbn [bind] in H; [|discriminate].
  exists u. unfold aux_prices. destruct (is_electric P) eqn:E.
  - cbn [bind] in H. injection H as <-. exists (i_import_price I), 0.
    split; [reflexivity|]. split; [left; auto|]. unfold fin_aux.
    change (upd r AUX_usage u GRID_import_price) with (r GRID_import_price). rewrite Hpr. reflexivity.
  - destruct (a_cost (p_aux P)) as [c|]; cbn [bind] in H; [|discriminate].
    destruct (a_energy_density (p_aux P)) as [d|]; cbn [bind] in H; [|discriminate].
    injection H as <-. exists c, d. split; [reflexivity|]. split; [right; auto|reflexivity].
Qed.

Definition start_fields P I := if hi P I then init_above I else init_below P I.
Definition finish_fields P I soc u pr de r :=
  if hi P I then above_rec P soc u pr de r else below_rec P soc u pr de r.
Definition net_charge P I (c : checks) : Q :=
  let x := ts_charge c - ts_discharge c in if hi P I then x else round1 x.
Definition switch_off P I t n := if hi P I then switch_off_above P I t n else switch_off_below P I t n.
Definition total_aux (r : fields) := r AUX_RES_to_demand + r AUX_RES_to_TS + r HD_aux.

Lemma start_price P I : start_fields P I GRID_import_price = i_import_price I.
Proof. unfold start_fields. destruct (hi P I); reflexivity. Qed.
Lemma start_zero P I k : In k (flat_map writes all_processes) -> start_fields P I k = 0.
Proof.
  unfold start_fields. intro H. cbn in H.
  repeat (destruct H as [<-|H]; [destruct (hi P I); reflexivity|]). destruct H.
Qed.

Lemma run_keeps P I t n ps c r c' r' k :
  foldM (run_process P I t n) ps (c, r) = Ok (c', r') ->
  ~ In k (flat_map writes all_processes) -> r' k = r k.
Proof.
  revert c r. induction ps as [|p ps IH]; intros c r H Hk.
  - injection H as <- <-. reflexivity.
  - cbn [foldM] in H. unfold run_process at 1 in H.
    destruct (amount P I t n p c) as [he|]; cbn [bind] in H; [|discriminate].
    rewrite (IH _ _ H Hk). apply write_other. intro C. apply Hk.
    apply in_flat_map. exists p. split; [apply in_all|exact C].
Qed.

Lemma tank_step_ext P I t n x r1 r2 :
  r1 HP_heat_total_output = r2 HP_heat_total_output -> r1 AUX_demand = r2 AUX_demand ->
  tank_step P I t n x r1 = tank_step P I t n x r2.
Proof. intros E1 E2. unfold tank_step. rewrite E1, E2. reflexivity. Qed.

Lemma uncorrected_inv P I t n soc c rc :
  uncorrected P I t n soc = Ok (c, rc) ->
  exists ps r u pr de,
    processes_of P I ps /\
    foldM (run_process P I t n) ps (init_checks P I soc, start_fields P I) = Ok (c, r) /\
    fuel_usage (a_efficiency (p_aux P)) (total_aux r) = Ok u /\
    aux_prices P I pr de /\
    rf rc = finish_fields P I soc u pr de r /\
    tank_step P I t n (net_charge P I c) (rf rc) = Ok (r_nodes rc).
Proof.
  pose proof (hi_spec P I) as Hhi. unfold hi in Hhi.
  unfold uncorrected, finish_fields, start_fields, net_charge, hi.
  destruct (qlt (p_setpoint P) (i_import_price I)) eqn:Eh.
  - unfold above_uncorrected. intro H.
    destruct (run_order P I t n above_key (p_order_above P) (init_checks P I soc, init_above I)) as [[c0 r]|] eqn:R;
      cbn [bind] in H; [|discriminate].
    apply run_order_processes in R. destruct R as [ps [E1 E2]].
    set (r1 := upd (aux_demand (ts_totals (hp_totals r))) HD_aux _) in H.
    destruct (aux_accounts P r1) as [r2|] eqn:A; cbn [bind] in H; [|discriminate].
    apply (aux_accounts_inv P I) in A.
    2: { unfold r1. cbn. rewrite (run_keeps _ _ _ _ _ _ _ _ _ GRID_import_price E2); [reflexivity|].
         cbn. intuition discriminate. }
    destruct A as (u & pr & de & A1 & A2 & ->).
    destruct (tank_step P I t n (ts_charge c0 - ts_discharge c0) (fin_aux u pr de r1)) as [nn|] eqn:T;
      cbn [bind] in H; [|discriminate].
    injection H as <- <-. exists ps, r, u, pr, de. cbn [rf r_nodes].
    split; [left; auto|]. split; [exact E2|]. split; [exact A1|]. split; [exact A2|].
    split; [reflexivity|]. rewrite <- T. apply tank_step_ext; reflexivity.
  - unfold below_uncorrected. intro H.
    destruct (run_order P I t n below_key (p_order_below P) (init_checks P I soc, init_below P I)) as [[c0 r]|] eqn:R;
      cbn [bind] in H; [|discriminate].
    apply run_order_processes in R. destruct R as [ps [E1 E2]].
    set (r1 := aux_demand (hp_totals r)) in H.
    destruct (aux_accounts P r1) as [r2|] eqn:A; cbn [bind] in H; [|discriminate].
    apply (aux_accounts_inv P I) in A.
    2: { unfold r1. cbn. rewrite (run_keeps _ _ _ _ _ _ _ _ _ GRID_import_price E2); [reflexivity|].
         cbn. intuition discriminate. }
    destruct A as (u & pr & de & A1 & A2 & ->).
    destruct (tank_step P I t n (round1 (ts_charge c0 - ts_discharge c0)) (ts_totals (fin_aux u pr de r1))) as [nn|] eqn:T;
      cbn [bind] in H; [|discriminate].
    injection H as <- <-. exists ps, r, u, pr, de. cbn [rf r_nodes].
    split; [right; auto|]. split; [exact E2|]. split; [exact A1|]. split; [exact A2|].
    split; [reflexivity|]. rewrite <- T. apply tank_step_ext; reflexivity.
Qed.

Lemma hour_inv P I t n soc rc :
  hour_step P I t n soc = Ok rc ->
  exists c rc0 rc1,
    uncorrected P I t n soc = Ok (c, rc0) /\
    correct P I t n (threshold P I) (switch_off P I t n) (net_charge P I c) c rc0 = Ok rc1 /\
    rc = complete I rc1.
Proof.
  unfold hour_step, uncorrected, threshold, switch_off, net_charge, hi.
  destruct (qlt (p_setpoint P) (i_import_price I)).
  - unfold above_setpoint. intro H. destruct (above_uncorrected P I t n soc) as [[c rc0]|]; cbn [bind] in H; [|discriminate].
    destruct (correct _ _ _ _ _ _ _ c rc0) as [rc1|] eqn:E; cbn [bind] in H; [|discriminate].
    injection H as <-. exists c, rc0, rc1. auto.
  - unfold below_setpoint. intro H. destruct (below_uncorrected P I t n soc) as [[c rc0]|]; cbn [bind] in H; [|discriminate].
    destruct (correct _ _ _ _ _ _ _ c rc0) as [rc1|] eqn:E; cbn [bind] in H; [|discriminate].
    injection H as <-. exists c, rc0, rc1. auto.
Qed.

Lemma min_out_spec P I : min_out P I == minimum_heat P I.
Proof. unfold min_out, minimum_heat. field. Qed.

(** The three outcomes of the minimum-output correction. *)
Lemma correct_inv P I t n th off tsm c rc0 rc1 :
  correct P I t n th off tsm c rc0 = Ok rc1 ->
  (rc1 = rc0 /\ (minimum_heat P I <= rf rc0 HP_heat_total_output \/ rf rc0 HP_heat_total_output <= th)) \/
  (th < rf rc0 HP_heat_total_output /\ rf rc0 HP_heat_total_output < minimum_heat P I /\
   exists m, t_max (p_tank P) Charging n (i_source_temp I) (i_flow_temp I) t = Ok m /\
     let inc := min_out P I - rf rc0 HP_heat_total_output in
     ((m + ts_discharge c - ts_charge c < inc /\ off rc0 = Ok rc1) \/
      (inc <= m + ts_discharge c - ts_charge c /\ top_up P I t n inc tsm rc0 = Ok rc1))).
Proof.
  unfold correct. intro H. pose proof (min_out_spec P I) as Em.
  destruct (qlt_spec (rf rc0 HP_heat_total_output) (min_out P I)) as [L|L]; cbn [andb] in H.
  2: { injection H as <-. left. split; [reflexivity|left; lra]. }
  destruct (qlt_spec th (rf rc0 HP_heat_total_output)) as [L2|L2]; cbn [andb] in H.
  2: { injection H as <-. left. split; [reflexivity|right; lra]. }
  right. split; [lra|]. split; [lra|].
  destruct (t_max (p_tank P) Charging n (i_source_temp I) (i_flow_temp I) t) as [m|]; cbn [bind] in H; [|discriminate].
  exists m. split; [reflexivity|]. cbn zeta.
  destruct (qlt_spec (m + ts_discharge c - ts_charge c) (min_out P I - rf rc0 HP_heat_total_output)); [left|right]; auto.
Qed.

Lemma quiet_correct P I t n soc c rc0 tsm rc1 off :
  quiet P I t n soc -> uncorrected P I t n soc = Ok (c, rc0) ->
  correct P I t n (threshold P I) off tsm c rc0 = Ok rc1 -> rc1 = rc0.
Proof.
  intros Hq Hu Hc. specialize (Hq c rc0 Hu). apply correct_inv in Hc.
  destruct Hc as [[-> _]|(H1 & H2 & _)]; [reflexivity|]. lra.
Qed.

(** Everything about an hour in one place. *)
Lemma hour_full P I t n soc rc :
  plant_ok P -> hour_ok P I -> level_ok (p_battery P) soc ->
  (forall ps, processes_of P I ps -> order_ok ps) ->
  hour_step P I t n soc = Ok rc ->
  exists ps c r u pr de rc0 rc1,
    processes_of P I ps /\
    Acc (init_checks P I soc) (start_fields P I) (rev ps) c r /\
    Sgn P I t n (rev ps) c /\ written_nonneg r /\ done_zero (rev ps) c /\
    fuel_usage (a_efficiency (p_aux P)) (total_aux r) = Ok u /\
    aux_prices P I pr de /\
    rf rc0 = finish_fields P I soc u pr de r /\
    uncorrected P I t n soc = Ok (c, rc0) /\
    correct P I t n (threshold P I) (switch_off P I t n) (net_charge P I c) c rc0 = Ok rc1 /\
    rc = complete I rc1.
Proof.
  intros HP HI Hs Ho H. apply hour_inv in H. destruct H as (c & rc0 & rc1 & Hu & Hc & ->).
  pose proof Hu as Hu'. apply uncorrected_inv in Hu. destruct Hu as (ps & r & u & pr & de & H1 & H2 & H3 & H4 & H5 & _).
  destruct (run_full P I t n HP HI soc Hs ps (start_fields P I) c r (Ho ps H1) (start_zero P I) H2) as (A & B & C & D).
  exists ps, c, r, u, pr, de, rc0, rc1. auto 12.
Qed.
