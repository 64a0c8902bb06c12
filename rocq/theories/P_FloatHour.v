(** C105, C106: one hour of the fixed order controller in binary floating point. *)
From Coq Require Import ZArith Reals Qreals.
From Flocq Require Import Core IEEE754.BinarySingleNaN.
From Verif Require Import Base BaseL M_Battery S_Battery M_HeatPump S_HeatPump M_Tools L_Tools M_FixedOrder S_FixedOrder L_FixedOrder L_FixedOrderHour L_FixedOrderProps L_FixedOrderRun P_FixedOrder
  M_Float M_FloatHour S_Float S_FloatHour L_Float L_FloatBattery L_FloatHour P_Float.
From Coq Require Import Lra Psatz.
Local Open Scope R_scope.

Lemma flow_start P I f : flow f = true -> start_fields P I f = 0%Q.
Proof. unfold start_fields. destruct (hi P I); destruct f; intro H; try discriminate H; reflexivity. Qed.
Lemma small_order (ps : list process) : (length ps <= 15)%nat -> INR (length ps) <= 15.
Proof. intro L. replace 15 with (INR 15) by (cbn; lra). apply le_INR, L. Qed.
Lemma pow_1000 (ps : list process) N : (length ps <= 15)%nat -> 1 <= N <= bpow radix2 800 -> 2048 ^ length ps * N <= bpow radix2 1000.
Proof.
  intros L (N1 & HN). apply Rle_trans with (2048 ^ 15 * bpow radix2 800).
  - apply Rmult_le_compat; [apply pow_le; lra| |apply Rle_pow; [lra|exact L]|exact HN]. lra.
  - replace (2048 ^ 15) with (bpow radix2 165) by (cbn; lra). rewrite <- bpow_plus. apply bpow_le. discriminate.
Qed.
Lemma growth_ge_1 k ps : 1 <= k -> 1 <= growth k ps.
Proof. intro K. induction ps as [|p ps IH]; cbn [growth]; [lra|]. assert (1 <= weight k p) by (destruct p; cbn [weight]; lra). nra. Qed.
(** What the loop does, with floats and with exact numbers. *)
Lemma loops P F I H t n soc soc' k N key order ps r0 : same_plant P F -> same_hour I H -> same_store P I t n H -> same_number soc soc' -> in_scale k N F H soc' ->
  mapM key order = Ok ps -> (length ps <= 15)%nat -> ~ In HP_import_to_TS ps -> (forall f, flow f = true -> r0 f = 0%Q) ->
  exists fc fr c r, frun_hour F H key order soc' = Ok (fc, fr) /\ foldM (run_process P I t n) ps (init_checks P I soc, r0) = Ok (c, r) /\
    records fr r (k * (growth k ps * N)) (k * drift k N ps) /\ finite (f_elec_unmet fc) /\ finite (f_heat_unmet fc) /\ finite (f_RES_left fc) /\ finite (f_soc fc) /\
    Rabs (val (f_elec_unmet fc) - Q2R (elec_unmet c)) <= k * drift k N ps /\ Rabs (val (f_heat_unmet fc) - Q2R (heat_unmet c)) <= k * drift k N ps /\
    Rabs (val (f_RES_left fc) - Q2R (RES_left c)) <= k * drift k N ps /\ Rabs (val (f_soc fc) - Q2R (c_soc c)) <= k * drift k N ps.
Proof.
  intros (SB & SC & SF & SM) SH (mc & md & MC & SMC & MD & SMD) SS X M L NI Z. pose proof SH as (_ & _ & _ & S4 & S5 & S6).
  destruct X as [Xk XN Xc Xe Xs Xcap Xcm Xce Xsd Xh Xd Xm Xch Xdi].
  set (c := val (fi_cop H)) in *. assert (C0 : 0 < c). { apply Rlt_le_trans with (/ k); [apply Rinv_0_lt_compat; lra|lra]. }
  pose proof u53_pos as (U0 & U1). assert (D0 : 0 < u53 * N) by nra. assert (CN : 0 < c * N) by nra. assert (CD : 0 < c * (u53 * N)) by nra.
  destruct (balance_app I H N SH XN Xe) as (BD & BS).
  assert (Start : near P I H mc md (finit_checks F H soc') (init_checks P I soc) N (3 * (u53 * N))).
  { constructor; cbn [finit_checks init_checks f_elec_unmet f_heat_unmet f_RES_left f_hp_usage f_ts_discharge f_ts_charge f_soc f_aux_left elec_unmet heat_unmet RES_left hp_usage ts_discharge ts_charge c_soc aux_left];
      fold c.
    - exact BD.
    - exact BS.
    - eapply app_weak; [apply app_same with (B := N); [exact SS|rewrite Rabs_pos_eq by lra; lra]|lra|lra].
    - destruct SB as ((_ & ->) & _). destruct SS as (_ & ->). apply Rabs_le. lra.
    - eapply app_weak; [apply app_same with (B := c * N); [exact S4|lra]|lra|lra].
    - eapply app_weak; [apply app_same with (B := c * N); [exact SM|lra]|lra|lra].
    - eapply app_weak; [apply app_0 with (B := 0); lra|lra|lra].
    - eapply app_weak; [apply app_0 with (B := 0); lra|lra|lra].
    - eapply app_weak; [apply app_0 with (B := 0); lra|lra|lra].
    - rewrite q2r_0, Rminus_0_r. destruct S6 as (_ & ->). lra.
    - rewrite q2r_0, Rplus_0_r, Rminus_0_r. destruct SMC as (_ & ->). lra.
    - rewrite q2r_0, Rplus_0_r, Rminus_0_r. destruct SMD as (_ & ->). lra.
    - rewrite val_f0, q2r_0. rewrite !Rminus_0_r, Rabs_R0. lra. }
  pose proof (small_order ps L) as Ln. pose proof (pos_INR (length ps)) as Ln0.
  destruct (run_processes P F I H t n mc md k N SB SC SF S5 S6 MC SMC MD SMD Xk Xc (proj1 XN) Xd Xch Xdi ltac:(apply Rabs_le; lra) Xcm Xce Xsd ps) with
    (fc := finit_checks F H soc') (x := init_checks P I soc) (fr := finit_results H) (r := r0) (B := N) (E := 3 * (u53 * N)) (a := 3)
    as (fc & x & fr & r & G1 & G2 & G3 & G4).
  - apply Forall_forall. intros p Hp ->. contradiction.
  - lra.
  - apply pow_1000; assumption.
  - lra.
  - lra.
  - lra.
  - exact Start.
  - intros f Hf. rewrite (Z f Hf). replace (finit_results H f) with f0; [eapply app_weak; [apply app_0 with (B := 0); lra|nra|nra]|].
    unfold finit_results, fupd. destruct f; try discriminate Hf; reflexivity.
  - replace (growth k ps * (3 * (u53 * N) + 4 * INR (length ps) * (u53 * N))) with (drift k N ps) in G3, G4 by (unfold drift; ring).
    assert (Dr : 0 <= drift k N ps). { unfold drift. pose proof (growth_ge_1 k ps (proj1 Xk)). repeat (apply Rmult_le_pos); lra. }
    exists fc, fr, x, r. split; [unfold frun_hour; rewrite (frun_order_processes _ _ _ _ _ _ M); exact G1|]. split; [exact G2|]. split; [exact G4|].
    destruct G3 as [r1 r2 r3 _ r5 _ _ _ _ _ _ _ _]. fold c in r5. destruct r1 as (f1 & e1 & _), r2 as (f2 & e2 & _), r3 as (f3 & e3 & _), r5 as (f5 & e5 & _).
    split; [exact f1|]. split; [exact f5|]. split; [exact f2|]. split; [exact f3|].
    assert (drift k N ps <= k * drift k N ps) by nra. assert (c * drift k N ps <= k * drift k N ps) by nra. repeat split; lra.
Qed.

(** ** C105: rounding moves no flow of an hour by more than a known, tiny amount *)
Theorem C105_loop_partial : forall P F I H t n soc soc' k N ps, same_plant P F -> same_hour I H -> same_store P I t n H -> same_number soc soc' -> in_scale k N F H soc' ->
  processes_of P I ps -> (length ps <= 15)%nat -> ~ In HP_import_to_TS ps ->
  exists fc fr c r, float_run P I F H soc' = Ok (fc, fr) /\
    foldM (run_process P I t n) ps (init_checks P I soc, if qlt (p_setpoint P) (i_import_price I) then init_above I else init_below P I) = Ok (c, r) /\
    (forall f, flow f = true -> finite (fr f) /\ Rabs (val (fr f) - Q2R (r f)) <= k * drift k N ps) /\
    Rabs (val (f_elec_unmet fc) - Q2R (elec_unmet c)) <= k * drift k N ps /\ Rabs (val (f_heat_unmet fc) - Q2R (heat_unmet c)) <= k * drift k N ps /\
    Rabs (val (f_RES_left fc) - Q2R (RES_left c)) <= k * drift k N ps /\ Rabs (val (f_soc fc) - Q2R (c_soc c)) <= k * drift k N ps.
Proof.
  intros P F I H t n soc soc' k N ps SP SH ST SS X K L NI.
  assert (G : exists key order, float_run P I F H soc' = frun_hour F H key order soc' /\ mapM key order = Ok ps).
  { unfold float_run. unfold processes_of, high_tariff in K. destruct (qlt_spec (p_setpoint P) (i_import_price I)) as [T|T]; destruct K as [(T' & K)|(T' & K)]; try (exfalso; Lqa.lra); eexists; eexists; (split; [reflexivity|exact K]). }
  destruct G as (key & order & E & M).
  destruct (loops P F I H t n soc soc' k N key order ps (start_fields P I) SP SH ST SS X M L NI (flow_start P I)) as (fc & fr & c & r & G1 & G2 & G3 & _ & _ & _ & _ & e1 & e2 & e3 & e4).
  exists fc, fr, c, r. rewrite E. split; [exact G1|]. split; [exact G2|]. split; [|split; [exact e1|split; [exact e2|split; [exact e3|exact e4]]]].
  intros f Hf. destruct (G3 f Hf) as (A & B & _). split; [exact A|exact B].
Qed.
Print Assumptions C105_loop_partial.
Lemma finish_flow P I soc u pr de r f : flow f = true -> f <> HD_aux -> finish_fields P I soc u pr de r f = r f.
Proof. intros Hf Ha. unfold finish_fields. destruct (hi P I); destruct f; try discriminate Hf; try congruence; fld; reflexivity. Qed.
Lemma complete_flow I rc f : flow f = true -> rf (complete I rc) f = rf rc f.
Proof. intro Hf. destruct f; try discriminate Hf; fld; reflexivity. Qed.
(** The flows of a quiet hour are those that its loop has written. *)
Lemma quiet_flows P I t n soc rc : hour_step P I t n soc = Ok rc -> quiet P I t n soc ->
  exists ps c r, processes_of P I ps /\ foldM (run_process P I t n) ps (init_checks P I soc, start_fields P I) = Ok (c, r) /\ forall f, flow f = true -> f <> HD_aux -> rf rc f = r f.
Proof.
  intros E Qu. apply hour_inv in E as (c & rc0 & rc1 & U & C & ->). pose proof (Qu _ _ U) as Th. apply corrected_intro in C.
  assert (rc1 = rc0) as ->. { destruct C as [E _|m x A1 A2|m m' x A1 A2|m A1 A2]; [exact E| | |]; destruct Th; exfalso; Lqa.lra. }
  destruct (uncorrected_inv _ _ _ _ _ _ _ U) as (ps & r & u & pr & de & K & R & _ & _ & Ef & _). exists ps, c, r. split; [exact K|]. split; [exact R|].
  intros f Hf Ha. rewrite complete_flow by exact Hf. rewrite Ef. apply finish_flow; assumption.
Qed.
Lemma processes_unique P I ps ps' : processes_of P I ps -> processes_of P I ps' -> ps = ps'.
Proof. intros [(T & K)|(T & K)] [(T' & K')|(T' & K')]; try contradiction; congruence. Qed.
Theorem C105_record_partial : forall P F I H t n soc soc' k N ps rc, same_plant P F -> same_hour I H -> same_store P I t n H -> same_number soc soc' -> in_scale k N F H soc' ->
  processes_of P I ps -> (length ps <= 15)%nat -> ~ In HP_import_to_TS ps -> quiet P I t n soc -> hour_step P I t n soc = Ok rc ->
  exists fc fr, float_run P I F H soc' = Ok (fc, fr) /\
    forall f, flow f = true -> f <> HD_aux -> finite (fr f) /\ Rabs (val (fr f) - Q2R (rf rc f)) <= k * drift k N ps.
Proof.
  intros P F I H t n soc soc' k N ps rc SP SH ST SS X K L NI Qu Hs.
  destruct (C105_loop_partial P F I H t n soc soc' k N ps SP SH ST SS X K L NI) as (fc & fr & c & r & G1 & G2 & G3 & _).
  destruct (quiet_flows P I t n soc rc Hs Qu) as (ps' & c' & r' & K' & R & Eq). rewrite <- (processes_unique _ _ _ _ K K') in R.
  unfold start_fields, hi in R. rewrite R in G2. injection G2 as -> ->. exists fc, fr. split; [exact G1|]. intros f Hf Ha. rewrite (Eq f Hf Ha). apply G3, Hf.
Qed.
Print Assumptions C105_record_partial.

(** The entries of the grid balance: what is booked before the loop stays, and is off by no more than a few roundings. *)
Lemma fwrite_kept p he fr f : In f [GRID_surplus; GRID_deficit; GRID_match] -> fwrite p he fr f = fr f.
Proof. intro Hf. cbn [In] in Hf. repeat (destruct Hf as [<-|Hf]; [destruct p; reflexivity|]). destruct Hf. Qed.
Lemma frun_kept F H ps f : In f [GRID_surplus; GRID_deficit; GRID_match] -> forall c r c' r', foldM (frun_process F H) ps (c, r) = Ok (c', r') -> r' f = r f.
Proof.
  intro Hf. induction ps as [|p ps IH]; intros c r c' r' E; cbn [foldM] in E; [injection E as _ <-; reflexivity|].
  unfold frun_process at 1 in E. destruct (famount F H p c) as [he|]; cbn [bind] in E; [|discriminate]. rewrite (IH _ _ _ _ E). apply fwrite_kept, Hf.
Qed.
Lemma record_balance P I t n soc rc : hour_step P I t n soc = Ok rc -> let bal := surplus_deficit_hour (i_wind I + i_PV I) (i_elec_demand I) in
  rf rc GRID_surplus = bal_surplus bal /\ rf rc GRID_deficit = bal_deficit bal /\ rf rc GRID_match = (bal_surplus bal - bal_deficit bal)%Q.
Proof.
  intros E bal. apply hour_inv in E as (c & rc0 & rc1 & U & C & ->). apply corrected_intro in C. destruct (uncorrected_inv _ _ _ _ _ _ _ U) as (ps & r & u & pr & de & _ & R & _ & _ & Ef & _).
  assert (G : forall f, In f [GRID_surplus; GRID_deficit; GRID_match] -> rf (complete I rc1) f = start_fields P I f).
  { intros f Hf. assert (E0 : rf rc0 f = start_fields P I f).
    { rewrite Ef. rewrite <- (run_keeps _ _ _ _ _ _ _ _ _ f R); [|cbn in Hf; repeat (destruct Hf as [<-|Hf]; [cbn; intuition discriminate|]); destruct Hf].
      cbn [In] in Hf. unfold finish_fields. destruct (hi P I); repeat (destruct Hf as [<-|Hf]; [fld; reflexivity|]); destruct Hf. }
    rewrite <- E0. cbn [In] in Hf. clear E0. destruct C as [-> _|m x _ _ _ _ _ _ E1|m m' x _ _ _ _ _ _ _ E1|m _ _ _ _ E1];
      repeat (destruct Hf as [<-|Hf]; [fld; rewrite ?E1; fld; reflexivity|]); destruct Hf. }
  rewrite !G by (cbn; tauto). unfold start_fields, bal. destruct (hi P I); repeat split.
Qed.
Theorem C105_balance_partial : forall P F I H t n soc soc' k N ps rc fc fr, same_hour I H -> in_scale k N F H soc' -> processes_of P I ps ->
  hour_step P I t n soc = Ok rc -> float_run P I F H soc' = Ok (fc, fr) ->
  Rabs (val (fr GRID_surplus) - Q2R (rf rc GRID_surplus)) <= 3 * (u53 * N) /\ Rabs (val (fr GRID_deficit) - Q2R (rf rc GRID_deficit)) <= 3 * (u53 * N) /\
  Rabs (val (fr GRID_match) - Q2R (rf rc GRID_match)) <= 14 * (u53 * N).
Proof.
  intros P F I H t n soc soc' k N ps rc fc fr SH X K Hs R. destruct (record_balance P I t n soc rc Hs) as (-> & -> & ->).
  assert (G : exists key order, frun_hour F H key order soc' = Ok (fc, fr) /\ mapM key order = Ok ps).
  { unfold float_run in R. unfold processes_of, high_tariff in K. destruct (qlt_spec (p_setpoint P) (i_import_price I)) as [T|T]; destruct K as [(T' & K)|(T' & K)]; try (exfalso; Lqa.lra); eexists; eexists; (split; [exact R|exact K]). }
  destruct G as (key & order & E & M). unfold frun_hour in E. rewrite (frun_order_processes F H key order ps _ M) in E.
  rewrite (frun_kept F H ps GRID_surplus ltac:(cbn; tauto) _ _ _ _ E), (frun_kept F H ps GRID_deficit ltac:(cbn; tauto) _ _ _ _ E), (frun_kept F H ps GRID_match ltac:(cbn; tauto) _ _ _ _ E).
  destruct X as [_ XN _ Xe _ _ _ _ _ _ _ _ _ _]. destruct (balance_app I H N SH XN Xe) as (BD & BS). pose proof u53_pos as (U0 & U1). assert (D : 0 < u53 * N <= N / 1000000) by (split; nra).
  assert (K1 : ok N (3 * (u53 * N))).
  { split; [apply Rle_trans with (bpow radix2 0); [apply bpow_le; discriminate|cbn; lra]|]. split; [lra|].
    apply Rle_trans with (128 * bpow radix2 800); [lra|]. change 128 with (bpow radix2 7). rewrite <- bpow_plus. apply bpow_le. discriminate. }
  assert (BM : app (fsub (fsurplus H) (fdeficit H)) (bal_surplus (surplus_deficit_hour (i_wind I + i_PV I) (i_elec_demand I)) - bal_deficit (surplus_deficit_hour (i_wind I + i_PV I) (i_elec_demand I)))%Q (2 * N) (2 * (3 * (u53 * N) + 4 * (u53 * N)))).
  { apply upd_sub; [exact K1|exact BS|]. eapply app_weak; [exact BD|lra|lra]. }
  cbn [finit_results fupd field_eqb field_id Pos.eqb]. destruct BS as (_ & BS & _), BD as (_ & BD & _), BM as (_ & BM & _).
  change (finit_results H GRID_surplus) with (fsurplus H). change (finit_results H GRID_deficit) with (fdeficit H). change (finit_results H GRID_match) with (fsub (fsurplus H) (fdeficit H)).
  split; [exact BS|]. split; [exact BD|]. lra.
Qed.
Print Assumptions C105_balance_partial.

(** ** C106: what survives of the balances *)
Lemma flow_written f : flow f = true -> exists p, In f (writes p).
Proof.
  intro H. destruct f; try discriminate H;
  solve [exists ES_to_demand; cbn; tauto | exists Import_to_demand; cbn; tauto | exists HP_RES_to_demand; cbn; tauto | exists EAUX_RES_to_demand; cbn; tauto
        | exists HP_import_to_demand; cbn; tauto | exists TS_to_demand; cbn; tauto | exists ES_to_HP_to_demand; cbn; tauto | exists AUX_to_demand; cbn; tauto
        | exists HP_RES_to_TS; cbn; tauto | exists EAUX_RES_to_TS; cbn; tauto | exists HP_import_to_TS; cbn; tauto | exists RES_to_ES; cbn; tauto
        | exists Import_to_ES; cbn; tauto | exists RES_to_export; cbn; tauto].
Qed.
Lemma q2r_nonneg q : (0 <= q)%Q -> 0 <= Q2R q.
Proof. intro H. apply Qle_Rle in H. rewrite q2r_0 in H. exact H. Qed.
Lemma loop_full P F I H t n soc soc' k N ps : same_plant P F -> same_hour I H -> same_store P I t n H -> same_number soc soc' -> in_scale k N F H soc' -> good_hour P I soc ->
  processes_of P I ps -> (length ps <= 15)%nat -> ~ In HP_import_to_TS ps ->
  exists fc fr c r, float_run P I F H soc' = Ok (fc, fr) /\ Acc (init_checks P I soc) (start_fields P I) (rev ps) c r /\ written_nonneg r /\ done_zero (rev ps) c /\
    (forall f, flow f = true -> Rabs (val (fr f) - Q2R (r f)) <= k * drift k N ps).
Proof.
  intros SP SH ST SS X (HP & HI & Hs & Ho) K L NI.
  destruct (C105_loop_partial P F I H t n soc soc' k N ps SP SH ST SS X K L NI) as (fc & fr & c & r & G1 & G2 & G3 & _).
  destruct (run_full P I t n HP HI soc Hs ps (start_fields P I) c r (Ho ps K) (start_zero P I) G2) as (A & _ & W & Z).
  exists fc, fr, c, r. split; [exact G1|]. split; [exact A|]. split; [exact W|]. split; [exact Z|]. intros f Hf. apply (G3 f Hf).
Qed.
Lemma drift_unit k N ps : 1 <= k -> 1 <= N -> 3 * (u53 * N) <= k * drift k N ps.
Proof.
  intros K HN. pose proof u53_pos as (U0 & _). pose proof (growth_ge_1 k ps K) as G. pose proof (pos_INR (length ps)). unfold drift.
  assert (D : 0 < u53 * N) by nra. assert (3 <= (3 + 4 * INR (length ps)) * growth k ps) by nra.
  assert (3 * (u53 * N) <= (3 + 4 * INR (length ps)) * growth k ps * (u53 * N)) by (apply Rmult_le_compat_r; lra).
  replace (u53 * (3 + 4 * INR (length ps)) * growth k ps * N) with ((3 + 4 * INR (length ps)) * growth k ps * (u53 * N)) by ring. nra.
Qed.
(** No flow is negative by more than rounding. *)
Theorem C106_no_negative_partial : forall P F I H t n soc soc' k N ps, same_plant P F -> same_hour I H -> same_store P I t n H -> same_number soc soc' -> in_scale k N F H soc' -> good_hour P I soc ->
  processes_of P I ps -> (length ps <= 15)%nat -> ~ In HP_import_to_TS ps ->
  exists fc fr, float_run P I F H soc' = Ok (fc, fr) /\ forall f, flow f = true -> - (k * drift k N ps) <= val (fr f).
Proof.
  intros P F I H t n soc soc' k N ps SP SH ST SS X G K L NI. destruct (loop_full P F I H t n soc soc' k N ps SP SH ST SS X G K L NI) as (fc & fr & c & r & E & _ & W & _ & D).
  exists fc, fr. split; [exact E|]. intros f Hf. specialize (D f Hf). destruct (flow_written f Hf) as (p & Hp). pose proof (q2r_nonneg _ (W p f Hp)). apply Rabs_le_inv in D. lra.
Qed.
Print Assumptions C106_no_negative_partial.
(** The electrical demand is met up to rounding. *)
Lemma used_app I H N : same_hour I H -> 1 <= N <= bpow radix2 800 -> Rabs (val (fi_wind H)) + Rabs (val (fi_PV H)) + Rabs (val (fi_elec_demand H)) <= N ->
  Rabs (val (fRES_used H) - Q2R (bal_RES_used (surplus_deficit_hour (i_wind I + i_PV I) (i_elec_demand I)))) <= u53 * N.
Proof.
  intros (S1 & S2 & S3 & _) HN S. pose proof (Rabs_pos (val (fi_wind H))). pose proof (Rabs_pos (val (fi_PV H))). pose proof (Rabs_pos (val (fi_elec_demand H))).
  pose proof u53_pos as (U0 & _). pose proof (generation_app I H N S1 S2 HN ltac:(lra)) as A.
  assert (B : app (fi_elec_demand H) (i_elec_demand I) N (u53 * N)) by (eapply app_weak; [apply app_same with (B := N); [exact S3|lra]|lra|nra]).
  unfold surplus_deficit_hour. cbv zeta. destruct (qle _ 0); apply (app_min _ _ _ _ _ _ A B).
Qed.
Theorem C106_demand_met_partial : forall P F I H t n soc soc' k N ps, same_plant P F -> same_hour I H -> same_store P I t n H -> same_number soc soc' -> in_scale k N F H soc' -> good_hour P I soc ->
  processes_of P I ps -> (length ps <= 15)%nat -> ~ In HP_import_to_TS ps -> In Import_to_demand ps ->
  exists fc fr, float_run P I F H soc' = Ok (fc, fr) /\
    Rabs (val (fRES_used H) + val (fr ED_ES) + val (fr ED_import) - val (fi_elec_demand H)) <= 3 * (k * drift k N ps).
Proof.
  intros P F I H t n soc soc' k N ps SP SH ST SS X G K L NI Hi. destruct (loop_full P F I H t n soc soc' k N ps SP SH ST SS X G K L NI) as (fc & fr & c & r & E & A & _ & (Z & _) & D).
  exists fc, fr. split; [exact E|]. pose proof (D ED_ES eq_refl) as D1. pose proof (D ED_import eq_refl) as D2. clear D.
  specialize (Z ltac:(apply -> in_rev; exact Hi)). pose proof (acc_elec _ _ _ _ _ A) as Ae. cbn [init_checks elec_unmet] in Ae.
  destruct (surplus_deficit_hour_spec (i_wind I + i_PV I) (i_elec_demand I)) as (_ & _ & _ & _ & B & _).
  pose proof SH as (_ & _ & (F3 & V3) & _). destruct X as [Xk XN _ Xe _ _ _ _ _ _ _ _ _ _].
  pose proof (drift_unit k N ps (proj1 Xk) (proj1 XN)) as U. pose proof u53_pos as (U0 & _). assert (U1 : 0 < u53 * N) by nra.
  pose proof (used_app I H N SH XN Xe) as Us. set (us := bal_RES_used _) in *.
  assert (Eq : Q2R (r ED_ES) + Q2R (r ED_import) + Q2R us = val (fi_elec_demand H)).
  { rewrite <- V3, <- !Q2R_plus. apply Qeq_eqR. clear - Z Ae B. Lqa.lra. }
  apply Rabs_le_inv in D1, D2, Us. apply Rabs_le. clear - D1 D2 Us U U1 Eq. lra.
Qed.
Print Assumptions C106_demand_met_partial.
(** So is the heat demand. *)
Theorem C106_heat_met_partial : forall P F I H t n soc soc' k N ps, same_plant P F -> same_hour I H -> same_store P I t n H -> same_number soc soc' -> in_scale k N F H soc' -> good_hour P I soc ->
  processes_of P I ps -> (length ps <= 15)%nat -> ~ In HP_import_to_TS ps -> In AUX_to_demand ps ->
  exists fc fr, float_run P I F H soc' = Ok (fc, fr) /\
    Rabs (val (fr HD_HP_RES) + val (fr HD_HP_import) + val (fr HD_HP_ES) + val (fr HD_TS) + val (fr HD_aux) + val (fr AUX_RES_to_demand) - val (fi_heat_demand H)) <= 6 * (k * drift k N ps).
Proof.
  intros P F I H t n soc soc' k N ps SP SH ST SS X G K L NI Hi. destruct (loop_full P F I H t n soc soc' k N ps SP SH ST SS X G K L NI) as (fc & fr & c & r & E & A & _ & (_ & Z & _) & D).
  exists fc, fr. split; [exact E|]. specialize (Z ltac:(apply -> in_rev; exact Hi)). pose proof (acc_heat _ _ _ _ _ A) as Ae. cbn [init_checks heat_unmet] in Ae.
  pose proof SH as (_ & _ & _ & (F4 & V4) & _).
  assert (Eq : Q2R (r HD_HP_RES) + Q2R (r HD_HP_import) + Q2R (r HD_HP_ES) + Q2R (r HD_TS) + Q2R (r HD_aux) + Q2R (r AUX_RES_to_demand) = val (fi_heat_demand H)).
  { rewrite <- V4, <- !Q2R_plus. apply Qeq_eqR. clear - Z Ae. Lqa.lra. }
  pose proof (Rabs_le_inv _ _ (D HD_HP_RES eq_refl)) as D1. pose proof (Rabs_le_inv _ _ (D HD_HP_import eq_refl)) as D2. pose proof (Rabs_le_inv _ _ (D HD_HP_ES eq_refl)) as D3.
  pose proof (Rabs_le_inv _ _ (D HD_TS eq_refl)) as D4. pose proof (Rabs_le_inv _ _ (D HD_aux eq_refl)) as D5. pose proof (Rabs_le_inv _ _ (D AUX_RES_to_demand eq_refl)) as D6.
  apply Rabs_le. clear - D1 D2 D3 D4 D5 D6 Eq. lra.
Qed.
Print Assumptions C106_heat_met_partial.
(** The surplus goes somewhere, up to rounding. *)
Theorem C106_surplus_used_partial : forall P F I H t n soc soc' k N ps, same_plant P F -> same_hour I H -> same_store P I t n H -> same_number soc soc' -> in_scale k N F H soc' -> good_hour P I soc ->
  processes_of P I ps -> (length ps <= 15)%nat -> ~ In HP_import_to_TS ps -> In RES_to_export ps ->
  exists fc fr, float_run P I F H soc' = Ok (fc, fr) /\
    Rabs (val (fr RES_HP_to_heat_demand) + val (fr RES_HP_to_TS) + val (fr RES_ES) + val (fr RES_export) + val (fr AUX_RES_to_demand) + val (fr AUX_RES_to_TS) - val (fsurplus H)) <= 7 * (k * drift k N ps).
Proof.
  intros P F I H t n soc soc' k N ps SP SH ST SS X G K L NI Hi. destruct (loop_full P F I H t n soc soc' k N ps SP SH ST SS X G K L NI) as (fc & fr & c & r & E & A & _ & (_ & _ & Z) & D).
  exists fc, fr. split; [exact E|]. specialize (Z ltac:(apply -> in_rev; exact Hi)). pose proof (acc_res _ _ _ _ _ A) as Ae. cbn [init_checks RES_left] in Ae.
  destruct X as [Xk XN _ Xe _ _ _ _ _ _ _ _ _ _]. destruct (balance_app I H N SH XN Xe) as (_ & _ & Sp & _). set (su := bal_surplus _) in *.
  pose proof (drift_unit k N ps (proj1 Xk) (proj1 XN)) as U.
  assert (Eq : Q2R (r RES_HP_to_heat_demand) + Q2R (r RES_HP_to_TS) + Q2R (r RES_ES) + Q2R (r RES_export) + Q2R (r AUX_RES_to_demand) + Q2R (r AUX_RES_to_TS) = Q2R su).
  { rewrite <- !Q2R_plus. apply Qeq_eqR. clear - Z Ae. Lqa.lra. }
  pose proof (Rabs_le_inv _ _ (D RES_HP_to_heat_demand eq_refl)) as D1. pose proof (Rabs_le_inv _ _ (D RES_HP_to_TS eq_refl)) as D2. pose proof (Rabs_le_inv _ _ (D RES_ES eq_refl)) as D3.
  pose proof (Rabs_le_inv _ _ (D RES_export eq_refl)) as D4. pose proof (Rabs_le_inv _ _ (D AUX_RES_to_demand eq_refl)) as D5. pose proof (Rabs_le_inv _ _ (D AUX_RES_to_TS eq_refl)) as D6.
  apply Rabs_le_inv in Sp. apply Rabs_le. clear - D1 D2 D3 D4 D5 D6 Eq Sp U. lra.
Qed.
Print Assumptions C106_surplus_used_partial.

(** ** A concrete plant, and where exactness ends *)
Definition small (above below : list Z) : plant := demo plain_exact 8 20 (simple_tank 1000 20 10) above below.
Definition small_float : fplant := {| fp_battery := plain; fp_hp_capacity := lit 8 0; fp_electric := true; fp_max_heat := lit 30 0 |}.
Definition small_hour (pv elec heat cop_ duty_ : double) : fhour :=
  {| fi_wind := lit 0 0; fi_PV := pv; fi_elec_demand := elec; fi_heat_demand := heat; fi_cop := cop_; fi_duty := duty_; fi_charge := lit 20 0; fi_discharge := lit 10 0 |}.
#[local] Opaque lit.
Lemma small_plant_same ab be : same_plant (small ab be) small_float.
Proof.
  unfold same_plant, same_battery, same_number, small, small_float, plain, plain_exact, demo.
  cbn [p_battery p_hp_capacity p_aux p_max_heat a_fuel electric_aux fp_battery fp_hp_capacity fp_electric fp_max_heat
       fb_capacity fb_initial_state fb_charge_max fb_discharge_max fb_charge_eff fb_discharge_eff fb_self_discharge b_capacity b_initial_state b_charge_max b_discharge_max b_charge_eff b_discharge_eff b_self_discharge].
  conjs; lits; try tauto; unfold Q2R; cbn; lra.
Qed.
Lemma small_hour_same pv elec heat price cop_ duty_ pv' elec' heat' cop' duty' : same_number pv pv' -> same_number elec elec' -> same_number heat heat' -> same_number cop_ cop' -> same_number duty_ duty' ->
  same_hour (demo_hour pv elec heat price cop_ duty_) (small_hour pv' elec' heat' cop' duty').
Proof.
  intros A B C D E. unfold same_hour, demo_hour, small_hour. cbn [i_wind i_PV i_elec_demand i_heat_demand i_perf cop duty fi_wind fi_PV fi_elec_demand fi_heat_demand fi_cop fi_duty].
  assert (Z : same_number 0 (lit 0 0)) by (split; lits; unfold Q2R; cbn; lra). repeat (split; [assumption|]). assumption.
Qed.
Lemma small_store_same ab be I t n a b c d e : same_store (small ab be) I t n (small_hour a b c d e).
Proof. exists 20%Q, 10%Q. cbn [small demo p_tank simple_tank t_max small_hour fi_charge fi_discharge]. unfold same_number. conjs; try reflexivity; lits; unfold Q2R; cbn; lra. Qed.
Lemma small_scale pv elec heat cop_ duty_ soc k : 1 <= k <= 1024 -> / k <= val cop_ <= k -> 1 / 2 <= val cop_ -> Rabs (val pv) + Rabs (val elec) <= 100 -> Rabs (val heat) <= 50 -> Rabs (val duty_) <= 50 -> 0 <= val soc <= 10 ->
  in_scale k 100 small_float (small_hour pv elec heat cop_ duty_) soc.
Proof.
  intros K C C1 A B D S0. assert (Big : 100 <= bpow radix2 800). { apply Rle_trans with (bpow radix2 7); [cbn; lra|apply bpow_le; discriminate]. }
  constructor; unfold small_float, small_hour, plain; cbn [fp_battery fp_max_heat fi_wind fi_PV fi_elec_demand fi_heat_demand fi_cop fi_duty fi_charge fi_discharge fb_capacity fb_charge_max fb_charge_eff fb_self_discharge];
    lits; change (bpow radix2 0) with 1; try lra.
  - rewrite Rmult_0_l, Rabs_R0. lra.
  - rewrite Rabs_pos_eq; lra.
  - rewrite Rabs_pos_eq; lra.
  - rewrite Rabs_pos_eq; lra.
Qed.
Lemma small_good ab be pv elec heat price cop_ duty_ soc : (0 <= pv)%Q -> (0 <= elec)%Q -> (0 <= heat <= 30)%Q -> (0 < cop_)%Q -> (0 <= duty_)%Q -> (0 <= soc <= 10)%Q ->
  (match mapM above_key ab with Ok ps => order_okb ps | Err _ => false end) = true -> (match mapM below_key be with Ok ps => order_okb ps | Err _ => false end) = true ->
  good_hour (small ab be) (demo_hour pv elec heat price cop_ duty_) soc.
Proof.
  intros A B C D E G O1 O2. apply demo_good; try assumption; try Lqa.lra.
  - unfold battery_ok, plain_exact. cbn. repeat split; Lqa.lra.
  - apply simple_tank_ok; Lqa.lra.
Qed.
Lemma shown x s m e : B2SF x = SpecFloat.S754_finite s m e -> val x = IZR (cond_Zopp s (Zpos m)) * bpow radix2 e.
Proof. intro H. unfold val. rewrite <- SF2R_B2SF, H. reflexivity. Qed.
Lemma num q m e : ((Z.abs m <? 2 ^ 53) && (-1074 <=? e) && (e <=? 960))%Z = true -> Q2R q = IZR m * bpow radix2 e -> same_number q (lit m e).
Proof. intros H E. split; [apply lit_finite, H|]. rewrite lit_val by exact H. exact E. Qed.
Ltac value := unfold Q2R; cbn [Qnum Qden]; try change (bpow radix2 0) with 1; try change (bpow radix2 (-3)) with (/8); try change (bpow radix2 (-4)) with (/16);
  try change (bpow radix2 (-55)) with (/36028797018963968); try change (bpow radix2 (-52)) with (/4503599627370496); try change (bpow radix2 (-54)) with (/18014398509481984);
  try change (bpow radix2 (-56)) with (/72057594037927936).
Lemma u53_value : u53 = / 9007199254740992.
Proof. reflexivity. Qed.

(** An hour with sun above the setpoint: 20 kWh from the panels, 5 kWh of electrical and 12 kWh of heat demand,
    all thirteen processes; rounding moves no flow by 0.0000001 kWh. *)
Example C105_example : let P := small all13 all15 in let I := demo_hour 20 5 12 150 3 8 in let H := small_hour (lit 20 0) (lit 5 0) (lit 12 0) (lit 3 0) (lit 8 0) in
  exists fc fr rc, float_run P I small_float H (lit 5 0) = Ok (fc, fr) /\ hour_step P I 0 [60; 50; 40]%Q 5 = Ok rc /\
    (forall f, flow f = true -> f <> HD_aux -> finite (fr f) /\ Rabs (val (fr f) - Q2R (rf rc f)) <= 1 / 10000000) /\
    (forall f, flow f = true -> - (1 / 10000000) <= val (fr f)) /\
    Rabs (val (fRES_used H) + val (fr ED_ES) + val (fr ED_import) - val (fi_elec_demand H)) <= 3 / 10000000 /\
    Rabs (val (fr HD_HP_RES) + val (fr HD_HP_import) + val (fr HD_HP_ES) + val (fr HD_TS) + val (fr HD_aux) + val (fr AUX_RES_to_demand) - val (fi_heat_demand H)) <= 6 / 10000000 /\
    Rabs (val (fr RES_HP_to_heat_demand) + val (fr RES_HP_to_TS) + val (fr RES_ES) + val (fr RES_export) + val (fr AUX_RES_to_demand) + val (fr AUX_RES_to_TS) - val (fsurplus H)) <= 7 / 10000000.
Proof.
  intros P I H.
  assert (N20 : same_number 20 (lit 20 0)) by (apply num; [reflexivity|value; lra]). assert (N5 : same_number 5 (lit 5 0)) by (apply num; [reflexivity|value; lra]).
  assert (N12 : same_number 12 (lit 12 0)) by (apply num; [reflexivity|value; lra]). assert (N3 : same_number 3 (lit 3 0)) by (apply num; [reflexivity|value; lra]).
  assert (N8 : same_number 8 (lit 8 0)) by (apply num; [reflexivity|value; lra]).
  pose proof (small_plant_same all13 all15) as SP. fold P in SP. pose proof (small_hour_same 20 5 12 150 3 8 _ _ _ _ _ N20 N5 N12 N3 N8) as SH. fold I H in SH.
  pose proof (small_store_same all13 all15 I 0 [60; 50; 40]%Q (lit 20 0) (lit 5 0) (lit 12 0) (lit 3 0) (lit 8 0)) as ST. fold P H in ST.
  assert (X : in_scale 3 100 small_float H (lit 5 0)).
  { apply small_scale; lits; change (bpow radix2 0) with 1; rewrite ?Rabs_pos_eq; lra. }
  assert (G : good_hour P I 5) by (apply small_good; try reflexivity; try (split; discriminate); discriminate).
  set (ps := [RES_to_demand; ES_to_demand; Import_to_demand; HP_RES_to_demand; EAUX_RES_to_demand; TS_to_demand; ES_to_HP_to_demand; HP_import_to_demand; AUX_to_demand; HP_RES_to_TS; EAUX_RES_to_TS; RES_to_ES; RES_to_export]).
  assert (K : processes_of P I ps) by (left; split; [reflexivity|reflexivity]).
  assert (L : (length ps <= 15)%nat) by (cbn; lia). assert (NI : ~ In HP_import_to_TS ps) by (cbn; intuition discriminate).
  assert (D : 3 * drift 3 100 ps <= 1 / 10000000).
  { unfold drift. rewrite u53_value. cbn [ps length growth weight]. cbn [INR]. lra. }
  assert (Q1 : quiet P I 0 [60; 50; 40]%Q 5) by (apply quietb_true; vm_compute; reflexivity).
  destruct (hour_step P I 0 [60; 50; 40]%Q 5) as [rc|] eqn:E; [|exfalso; assert (T : match hour_step P I 0 [60; 50; 40]%Q 5 with Ok _ => true | Err _ => false end = true) by (vm_compute; reflexivity); rewrite E in T; discriminate T].
  destruct (C105_record_partial P small_float I H _ _ _ _ _ _ ps rc SP SH ST N5 X K L NI Q1 E) as (fc & fr & R & A).
  destruct (C106_no_negative_partial P small_float I H _ _ _ _ _ _ ps SP SH ST N5 X G K L NI) as (fc1 & fr1 & R1 & A1). rewrite R in R1. injection R1 as <- <-.
  destruct (C106_demand_met_partial P small_float I H _ _ _ _ _ _ ps SP SH ST N5 X G K L NI ltac:(cbn; tauto)) as (fc1 & fr1 & R1 & A2). rewrite R in R1. injection R1 as <- <-.
  destruct (C106_heat_met_partial P small_float I H _ _ _ _ _ _ ps SP SH ST N5 X G K L NI ltac:(cbn; tauto)) as (fc1 & fr1 & R1 & A3). rewrite R in R1. injection R1 as <- <-.
  destruct (C106_surplus_used_partial P small_float I H _ _ _ _ _ _ ps SP SH ST N5 X G K L NI ltac:(cbn; tauto)) as (fc1 & fr1 & R1 & A4). rewrite R in R1. injection R1 as <- <-.
  exists fc, fr, rc. split; [exact R|]. split; [reflexivity|]. clear - A A1 A2 A3 A4 D.
  split; [intros f Hf Ha; destruct (A f Hf Ha) as (A5 & A6); split; [exact A5|lra]|]. split; [intros f Hf; specialize (A1 f Hf); lra|].
  split; [lra|]. split; lra.
Qed.

(** With 'HP import to TS' in the order the bound is lost: the process rounds to hundredths, and 0.925 is rounded the other way. *)
Theorem C105_rounding_refuted : exists P F I H t n soc soc' k N ps fc fr c r, same_plant P F /\ same_hour I H /\ same_store P I t n H /\ same_number soc soc' /\ in_scale k N F H soc' /\ good_hour P I soc /\
  processes_of P I ps /\ (length ps <= 15)%nat /\ float_run P I F H soc' = Ok (fc, fr) /\ foldM (run_process P I t n) ps (init_checks P I soc, start_fields P I) = Ok (c, r) /\
  k * drift k N ps < 1 / 1000 /\ 9 / 1000 < Rabs (val (fr HP_heat_from_import_to_TS) - Q2R (r HP_heat_from_import_to_TS)).
Proof.
  set (fifth := (7205759403792794 # 36028797018963968)%Q). set (P := small all13 [6; 12]%Z). set (I := demo_hour 0 0 fifth 80 2 (9 # 8)).
  set (H := small_hour (lit 0 0) (lit 0 0) (lit 7205759403792794 (-55)) (lit 2 0) (lit 9 (-3))). set (ps := [HP_import_to_demand; HP_import_to_TS]).
  assert (N0 : same_number 0 (lit 0 0)) by (apply num; [reflexivity|value; lra]). assert (N1 : same_number fifth (lit 7205759403792794 (-55))) by (apply num; [reflexivity|unfold fifth; value; lra]).
  assert (N2 : same_number 2 (lit 2 0)) by (apply num; [reflexivity|value; lra]). assert (N3 : same_number (9 # 8) (lit 9 (-3))) by (apply num; [reflexivity|value; lra]).
  assert (N5 : same_number 5 (lit 5 0)) by (apply num; [reflexivity|value; lra]).
  assert (X : in_scale 2 100 small_float H (lit 5 0)).
  { apply small_scale; lits; value; rewrite ?Rmult_0_l, ?Rabs_R0; rewrite ?Rabs_pos_eq; lra. }
  assert (G : good_hour P I 5) by (apply small_good; try reflexivity; try (split; discriminate); discriminate).
  assert (K : processes_of P I ps) by (right; split; [unfold high_tariff, P, I; cbn; discriminate|reflexivity]).
  assert (V : match float_run P I small_float H (lit 5 0) with Ok (_, fr) => Some (B2SF (fr HP_heat_from_import_to_TS)) | Err _ => None end = Some (SpecFloat.S754_finite false 8376695306909123 (-53))).
  { Transparent lit. vm_compute. reflexivity. }
  assert (W : match foldM (run_process P I 0 [60; 50; 40]%Q) ps (init_checks P I 5, start_fields P I) with Ok (_, r) => Some (Qred (r HP_heat_from_import_to_TS)) | Err _ => None end = Some (23 # 25)%Q).
  { vm_compute. reflexivity. }
  Opaque lit. destruct (float_run P I small_float H (lit 5 0)) as [(fc & fr)|] eqn:EF; [|discriminate V].
  destruct (foldM (run_process P I 0 [60; 50; 40]%Q) ps (init_checks P I 5, start_fields P I)) as [(c & r)|] eqn:EQ; [|discriminate W].
  injection V as V. injection W as W.
  exists P, small_float, I, H, 0%Z, [60; 50; 40]%Q, 5%Q, (lit 5 0), 2, 100, ps, fc, fr, c, r.
  split; [apply small_plant_same|]. split; [apply small_hour_same; assumption|]. split; [apply small_store_same|]. split; [exact N5|]. split; [exact X|]. split; [exact G|]. split; [exact K|].
  split; [cbn; lia|]. split; [exact EF|]. split; [exact EQ|]. split.
  - unfold drift. rewrite u53_value. cbn [ps length growth weight]. cbn [INR]. lra.
  - rewrite (shown _ _ _ _ V). rewrite <- (Qeq_eqR _ _ (Qred_correct (r HP_heat_from_import_to_TS))), W. cbn [cond_Zopp]. unfold Q2R. cbn [Qnum Qden]. change (bpow radix2 (-53)) with (/9007199254740992).
    rewrite Rabs_pos_eq; lra.
Qed.
Print Assumptions C105_rounding_refuted.
(** A flow can come out below zero: 0.375 kWh of surplus through a heat pump with a coefficient of performance of 1.6 leave less than nothing to export. *)
Theorem C106_negative_refuted : exists P F I H t n soc soc' k N ps fc fr, same_plant P F /\ same_hour I H /\ same_store P I t n H /\ same_number soc soc' /\ in_scale k N F H soc' /\ good_hour P I soc /\
  processes_of P I ps /\ (length ps <= 15)%nat /\ ~ In HP_import_to_TS ps /\ float_run P I F H soc' = Ok (fc, fr) /\ val (fr RES_export) < 0 /\ val (fr GRID_total_export) < 0.
Proof.
  set (eight_fifths := (7205759403792794 # 4503599627370496)%Q). set (P := small [4; 13]%Z all15). set (I := demo_hour (3 # 8) 0 12 150 eight_fifths 8).
  set (H := small_hour (lit 3 (-3)) (lit 0 0) (lit 12 0) (lit 7205759403792794 (-52)) (lit 8 0)). set (ps := [HP_RES_to_demand; RES_to_export]).
  assert (N0 : same_number 0 (lit 0 0)) by (apply num; [reflexivity|value; lra]). assert (N1 : same_number eight_fifths (lit 7205759403792794 (-52))) by (apply num; [reflexivity|unfold eight_fifths; value; lra]).
  assert (N2 : same_number 12 (lit 12 0)) by (apply num; [reflexivity|value; lra]). assert (N3 : same_number (3 # 8) (lit 3 (-3))) by (apply num; [reflexivity|value; lra]).
  assert (N5 : same_number 5 (lit 5 0)) by (apply num; [reflexivity|value; lra]). assert (N8 : same_number 8 (lit 8 0)) by (apply num; [reflexivity|value; lra]).
  assert (X : in_scale 2 100 small_float H (lit 5 0)).
  { apply small_scale; lits; value; rewrite ?Rmult_0_l, ?Rabs_R0; rewrite ?Rabs_pos_eq; lra. }
  assert (G : good_hour P I 5) by (apply small_good; try reflexivity; try (split; discriminate); discriminate).
  assert (K : processes_of P I ps) by (left; split; [reflexivity|reflexivity]).
  assert (V : match float_run P I small_float H (lit 5 0) with Ok (_, fr) => (B2SF (fr RES_export), B2SF (fr GRID_total_export)) | Err _ => (SpecFloat.S754_nan, SpecFloat.S754_nan) end
              = (SpecFloat.S754_finite true 4503599627370496 (-106), SpecFloat.S754_finite true 4503599627370496 (-106))).
  { Transparent lit. vm_compute. reflexivity. }
  Opaque lit. destruct (float_run P I small_float H (lit 5 0)) as [(fc & fr)|] eqn:EF; [|discriminate V].
  injection V as V1 V2.
  exists P, small_float, I, H, 0%Z, [60; 50; 40]%Q, 5%Q, (lit 5 0), 2, 100, ps, fc, fr.
  split; [apply small_plant_same|]. split; [apply small_hour_same; assumption|]. split; [apply small_store_same|]. split; [exact N5|]. split; [exact X|]. split; [exact G|]. split; [exact K|].
  split; [cbn; lia|]. split; [cbn; intuition discriminate|]. split; [exact EF|]. rewrite (shown _ _ _ _ V1), (shown _ _ _ _ V2). cbn [cond_Zopp].
  assert (B : 0 < bpow radix2 (-106)) by apply bpow_gt_0. generalize dependent (bpow radix2 (-106)). clear. intros b B.
  change (Z.opp 4503599627370496) with (-4503599627370496)%Z. split; lra.
Qed.
Print Assumptions C106_negative_refuted.
(** The sources of the electrical demand do not add up to it exactly: 0.1 kWh of generation and a demand of 0.4 kWh. *)
Theorem C106_exact_demand_refuted : exists P F I H t n soc soc' k N ps fc fr, same_plant P F /\ same_hour I H /\ same_store P I t n H /\ same_number soc soc' /\ in_scale k N F H soc' /\ good_hour P I soc /\
  processes_of P I ps /\ (length ps <= 15)%nat /\ ~ In HP_import_to_TS ps /\ In Import_to_demand ps /\ float_run P I F H soc' = Ok (fc, fr) /\
  val (fi_elec_demand H) < val (fRES_used H) + val (fr ED_ES) + val (fr ED_import).
Proof.
  set (tenth := (7205759403792794 # 72057594037927936)%Q). set (twofifths := (7205759403792794 # 18014398509481984)%Q). set (P := small [3; 13]%Z all15). set (I := demo_hour tenth twofifths 12 150 2 8).
  set (H := small_hour (lit 7205759403792794 (-56)) (lit 7205759403792794 (-54)) (lit 12 0) (lit 2 0) (lit 8 0)). set (ps := [Import_to_demand; RES_to_export]).
  assert (N1 : same_number tenth (lit 7205759403792794 (-56))) by (apply num; [reflexivity|unfold tenth; value; lra]). assert (N4 : same_number twofifths (lit 7205759403792794 (-54))) by (apply num; [reflexivity|unfold twofifths; value; lra]).
  assert (N2 : same_number 12 (lit 12 0)) by (apply num; [reflexivity|value; lra]). assert (N3 : same_number 2 (lit 2 0)) by (apply num; [reflexivity|value; lra]).
  assert (N5 : same_number 5 (lit 5 0)) by (apply num; [reflexivity|value; lra]). assert (N8 : same_number 8 (lit 8 0)) by (apply num; [reflexivity|value; lra]).
  assert (X : in_scale 2 100 small_float H (lit 5 0)).
  { apply small_scale; lits; value; rewrite ?Rabs_pos_eq; lra. }
  assert (G : good_hour P I 5) by (apply small_good; try reflexivity; try (split; discriminate); discriminate).
  assert (K : processes_of P I ps) by (left; split; [reflexivity|reflexivity]).
  assert (V : match float_run P I small_float H (lit 5 0) with Ok (_, fr) => (B2SF (fr ED_ES), B2SF (fr ED_import)) | Err _ => (SpecFloat.S754_nan, SpecFloat.S754_nan) end
              = (SpecFloat.S754_zero false, SpecFloat.S754_finite false 5404319552844596 (-54))).
  { Transparent lit. vm_compute. reflexivity. }
  assert (V1 : B2SF (fRES_used H) = SpecFloat.S754_finite false 7205759403792794 (-56)) by (vm_compute; reflexivity).
  Opaque lit. destruct (float_run P I small_float H (lit 5 0)) as [(fc & fr)|] eqn:EF; [|discriminate V].
  injection V as V2 V3.
  exists P, small_float, I, H, 0%Z, [60; 50; 40]%Q, 5%Q, (lit 5 0), 2, 100, ps, fc, fr.
  split; [apply small_plant_same|]. split; [apply small_hour_same; assumption|]. split; [apply small_store_same|]. split; [exact N5|]. split; [exact X|]. split; [exact G|]. split; [exact K|].
  split; [cbn; lia|]. split; [cbn; intuition discriminate|]. split; [cbn; tauto|]. split; [exact EF|]. rewrite (shown _ _ _ _ V1), (shown _ _ _ _ V3).
  replace (val (fr ED_ES)) with 0 by (unfold val; rewrite <- SF2R_B2SF, V2; reflexivity). unfold H. cbn [small_hour fi_elec_demand]. lits. cbn [cond_Zopp]. value. lra.
Qed.
Print Assumptions C106_exact_demand_refuted.
