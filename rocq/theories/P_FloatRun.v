(** C105: a whole run of the fixed order controller in binary floating point. *)
From Coq Require Import ZArith Reals Qreals Qabs.
From Flocq Require Import Core IEEE754.BinarySingleNaN.
From Verif Require Import Base BaseL M_Battery S_Battery M_HeatPump S_HeatPump M_Tools L_Tools M_FixedOrder S_FixedOrder L_FixedOrder L_FixedOrderHour L_FixedOrderProps L_FixedOrderRun L_TankHour P_FixedOrder
  S_Sizing M_Float M_FloatHour M_FloatTotals M_FloatRun S_Float S_FloatHour S_FloatTotals S_FloatRun L_Float L_FloatBattery L_FloatHour L_FloatTotals P_Float P_FloatHour P_FloatTotals S_Start.
From Verif Require L_Tank L_Plots L_Start P_Start P_Sizing.
From Coq Require Import Lra Psatz.
Local Open Scope R_scope.

(** ** The level that an hour in floats leaves *)
(** Every float is a rational number. *)
Lemma float_rational (x : double) : exists q, Q2R q = val x.
Proof.
  unfold val. destruct x as [s|s| |s m e H]; try (exists 0%Q; unfold Q2R; cbn; lra). cbn [B2R]. unfold F2R. cbn [Defs.Fnum Defs.Fexp].
  destruct (Z_le_gt_dec 0 e) as [E|E].
  - exists (inject_Z (SpecFloat.cond_Zopp s (Zpos m) * 2 ^ e)). rewrite q2r_whole, mult_IZR. f_equal. rewrite <- IZR_Zpower by exact E. reflexivity.
  - exists (SpecFloat.cond_Zopp s (Zpos m) # (2 ^ (Z.to_pos (- e)))). unfold Q2R. cbn [Qnum Qden]. f_equal.
    rewrite <- (Z.opp_involutive e) at 2. rewrite bpow_opp. f_equal. rewrite <- IZR_Zpower by lia. rewrite Pos2Z.inj_pow. rewrite Z2Pos.id by lia. reflexivity.
Qed.
Lemma fnew_range b request level s : entered b -> fnew_soc b request level = Ok s -> finite s -> S_Float.level_ok b s.
Proof.
  intros (C & C0 & _). unfold fnew_soc. destruct (fmax_charging b request level) as [c|]; cbn [bind]; [|discriminate]. destruct (fmax_discharging b request level) as [d|]; cbn [bind]; [|discriminate].
  set (x := fsub _ _). intro H. apply L_Tank.Ok_inj in H. intro Fs. split; [exact Fs|].
  destruct (fle (fb_capacity b) x) eqn:E1; [subst s; lra|]. destruct (fle x f0) eqn:E2; [subst s; rewrite val_f0; lra|]. subst s.
  pose proof (fle_spec (fb_capacity b) x C Fs) as K1. pose proof (fle_spec x f0 Fs finite_f0) as K2. rewrite E1 in K1. rewrite E2 in K2. rewrite val_f0 in K2. lra.
Qed.
Lemma fcorrect_soc H A above c r : fcorrect H A above c r ES_final_soc = r ES_final_soc.
Proof.
  unfold fcorrect. destruct (facts H A above r); [|reflexivity]. cbv zeta. destruct (flt _ _); [|reflexivity]. destruct above; reflexivity.
Qed.
Lemma fes_level F soc r r' : fes_totals F soc r = Ok r' -> exists request, fnew_soc (fp_battery F) request soc = Ok (r' ES_final_soc).
Proof.
  unfold fes_totals. cbv zeta. match goal with |- (_ <- fnew_soc _ ?x _ ;; _) = _ -> _ => set (request := x) end. destruct (fnew_soc (fp_battery F) request soc) as [s|e] eqn:E; cbn [bind]; [|discriminate].
  intro H. apply L_Tank.Ok_inj in H. subst r'. exists request. rewrite E. reflexivity.
Qed.
Lemma fhour_level F H A above key order soc fr : fhour_step F H A above key order soc = Ok fr -> exists request, fnew_soc (fp_battery F) request soc = Ok (fr ES_final_soc).
Proof.
  unfold fhour_step. destruct (frun_hour F H key order soc) as [[c r]|e]; cbn [bind]; [|discriminate].
  destruct (ffinish F H A above soc r) as [r1|e] eqn:E; cbn [bind]; [|discriminate]. intro K. apply L_Tank.Ok_inj in K.
  assert (Es : fr ES_final_soc = r1 ES_final_soc).
  { subst fr. change (fcomplete H (fcorrect H A above c r1) ES_final_soc) with (fcorrect H A above c r1 ES_final_soc). apply fcorrect_soc. }
  rewrite Es. clear K Es. unfold ffinish in E. cbv zeta in E. destruct above.
  - destruct (faux_accounts _ _ _) as [r2|e]; cbn [bind] in E; [|discriminate]. destruct (fes_totals F soc r2) as [r3|e] eqn:E3; cbn [bind] in E; [|discriminate].
    apply L_Tank.Ok_inj in E. subst r1. exact (fes_level _ _ _ _ E3).
  - destruct (faux_accounts _ _ _) as [r2|e]; cbn [bind] in E; [|discriminate]. destruct (fes_totals F soc _) as [r3|e] eqn:E3; cbn [bind] in E; [|discriminate].
    apply L_Tank.Ok_inj in E. subst r1. exact (fes_level _ _ _ _ E3).
Qed.
Lemma float_level P I F H A soc fr : float_hour P I F H A soc = Ok fr -> exists request, fnew_soc (fp_battery F) request soc = Ok (fr ES_final_soc).
Proof. unfold float_hour. destruct (qlt (p_setpoint P) (i_import_price I)); apply fhour_level. Qed.

(** ** The heat pump does not see the battery *)
Lemma same_heat_pump P I t T soc soc' c rc : plant_ok P -> hour_ok P I -> battery_last_orders P -> S_Battery.level_ok (p_battery P) soc -> S_Battery.level_ok (p_battery P) soc' ->
  (exists ps, processes_of P I ps) -> uncorrected P I t T soc' = Ok (c, rc) -> exists c' rc', uncorrected P I t T soc = Ok (c', rc') /\ rf rc' HP_heat_total_output = rf rc HP_heat_total_output.
Proof.
  intros HP HI HO L L' (ps & Hps). destruct (HO I ps Hps) as (O & B).
  assert (G : forall s s', S_Battery.level_ok (p_battery P) s -> S_Battery.level_ok (p_battery P) s' -> (s <= s')%Q -> L_Start.relu P s s' (uncorrected P I t T s) (uncorrected P I t T s')).
  { intros s s' Ls Ls' Le. unfold uncorrected. destruct (qlt_spec (p_setpoint P) (i_import_price I)) as [K|K]; (destruct Hps as [(H1 & H2)|(H1 & H2)]; unfold high_tariff in H1; try (exfalso; Lqa.lra)).
    - exact (L_Start.rel_above P HP I HI t T s s' Ls Ls' Le ps O B H2).
    - exact (L_Start.rel_below P HP I HI t T s s' Ls Ls' Le ps O B H2). }
  intro H. destruct (Qlt_le_dec soc soc') as [Le|Le].
  - pose proof (G soc soc' L L' (Qlt_le_weak _ _ Le)) as K. rewrite H in K. destruct (uncorrected P I t T soc) as [[c' rc']|e]; [|contradiction]. exists c', rc'. split; [reflexivity|].
    destruct K as (_ & _ & K). exact (L_Start.nr_rel _ _ _ _ _ K HP_heat_total_output eq_refl).
  - pose proof (G soc' soc L' L Le) as K. rewrite H in K. destruct (uncorrected P I t T soc) as [[c' rc']|e]; [|contradiction]. exists c', rc'. split; [reflexivity|].
    destruct K as (_ & _ & K). symmetry. exact (L_Start.nr_rel _ _ _ _ _ K HP_heat_total_output eq_refl).
Qed.
Lemma same_quiet g P I t T soc soc' : plant_ok P -> hour_ok P I -> battery_last_orders P -> S_Battery.level_ok (p_battery P) soc -> S_Battery.level_ok (p_battery P) soc' ->
  (exists ps, processes_of P I ps) -> quiet_by g P I t T soc -> quiet_by g P I t T soc'.
Proof. intros HP HI HO L L' Hps Qb c rc H. destruct (same_heat_pump P I t T soc soc' c rc HP HI HO L L' Hps H) as (c' & rc' & H' & E). rewrite <- E. exact (Qb c' rc' H'). Qed.
Lemma quiet_from g P I t T soc : 0 <= g -> quiet_by g P I t T soc -> quiet P I t T soc.
Proof.
  intros G Qb c rc H. destruct (Qb c rc H) as [K|K]; [left|right]; apply Rle_Qle; lra.
Qed.
(** The entries that the record holds twice *)
Definition battery_side (k : field) : Prop := In k [ES_charging_total; ES_discharging_total; ES_discharging_to_demand; ES_charging_from_RES; ES_charging_from_import; ES_discharging_to_HP; ED_ES; RES_ES; GRID_import_below_setpoint; GRID_total_import].
Lemma battery_side_corrected P I t n c rc0 rc1 k : corrected P I t n c rc0 rc1 -> battery_side k -> rf (complete I rc1) k = rf rc0 k.
Proof.
  intros Hc Hk. unfold battery_side in Hk. cbn [In] in Hk.
  destruct Hc as [-> _|m x _ _ _ _ _ _ E1|m m' x _ _ _ _ _ _ _ E1|m _ _ _ _ E1]; repeat (destruct Hk as [<-|Hk]; [fld; rewrite ?E1; fld; reflexivity|]); destruct Hk.
Qed.
Lemma battery_mirrors P I t n soc rc : duplicate_free P I -> hour_step P I t n soc = Ok rc ->
  rf rc ES_discharging_to_demand = rf rc ED_ES /\ rf rc ES_charging_from_RES = rf rc RES_ES /\
  rf rc ES_discharging_total = (rf rc ES_discharging_to_demand + rf rc ES_discharging_to_HP)%Q /\ rf rc ES_charging_total = (rf rc ES_charging_from_RES + rf rc ES_charging_from_import)%Q /\
  rf rc GRID_import_below_setpoint = (if hi P I then 0%Q else rf rc GRID_total_import).
Proof.
  intros DF H. destruct (hour_open_acc P I t n soc rc DF H) as (ps & c & r & u & pr & de & rc0 & rc1 & _ & _ & Hf & A & _ & _ & Hrf & _ & Hco & ->).
  rewrite !(battery_side_corrected P I t n c rc0 rc1 _ Hco) by (unfold battery_side; inl). rewrite Hrf.
  pose proof (mir1 _ _ _ _ _ A) as M1. pose proof (mir15 _ _ _ _ _ A) as M2.
  assert (Z : hi P I = true -> r GRID_import_below_setpoint = 0%Q).
  { intro Hh. rewrite (run_keeps P I t n ps _ _ c r GRID_import_below_setpoint Hf); [unfold start_fields; rewrite Hh; reflexivity|]. clear. cbn. intuition discriminate. }
  clear A Hf Hco Hrf H DF. unfold finish_fields. destruct (hi P I); fld; rewrite <- ?M1, <- ?M2; repeat match goal with |- _ /\ _ => split end; try reflexivity. exact (Z eq_refl).
Qed.
(** ** One hour from a level that is off *)
Lemma q2r_apart x y d : (apart x y <= d)%Q -> Rabs (Q2R x - Q2R y) <= Q2R d.
Proof.
  unfold apart. intro H. apply Qabs_Qle_condition in H as (A & B). apply Qle_Rle in A, B. rewrite Q2R_minus in A, B. rewrite Q2R_opp in A. apply Rabs_le. lra.
Qed.
Lemma q2r_gap x y : Q2R (apart x y) = Rabs (Q2R y - Q2R x).
Proof.
  destruct (P_Start.apart_case x y) as [(A & E)|(A & E)]; apply Qeq_eqR in E; apply Qle_Rle in A; rewrite E, Q2R_minus.
  - rewrite Rabs_pos_eq; lra.
  - rewrite Rabs_minus_sym, Rabs_pos_eq; lra.
Qed.
Lemma q2r_thousand x y : Q2R (x * y / 1000)%Q = Q2R x * Q2R y / 1000.
Proof. unfold Qdiv. rewrite !Q2R_mult. change (/ 1000)%Q with (1 # 1000). unfold Rdiv. f_equal. unfold Q2R. cbn. lra. Qed.
Lemma hour_off P F I H A t n soc soc' k N m e d D rc : plant_ok P -> battery_last_orders P -> same_plant P F -> followed k N m e d D P F t (n, soc) {| exactly := I; floats := H; accounts := A |} ->
  S_Battery.level_ok (p_battery P) soc -> S_Float.level_ok (fp_battery F) soc' -> hour_step P I t n soc = Ok rc ->
  exists fr, float_hour P I F H A soc' = Ok fr /\ S_Float.level_ok (fp_battery F) (fr ES_final_soc) /\ S_Battery.level_ok (p_battery P) (rf rc ES_final_soc) /\
    forall f, finite (fr f) /\ Rabs (val (fr f) - Q2R (rf rc f)) <= off_by m e d (150 * (k * D)) (Rabs (val soc' - Q2R soc)) f.
Proof.
  intros HP HO SP (HI & SH & ST & SA & IS & AS & Hps & Qb) L L' H0. cbn [exactly floats accounts fst snd] in *.
  destruct (P_Sizing.hour_processes _ _ _ _ _ _ H0) as (ps & Ips). destruct (Hps ps Ips) as (Hl & HN & HD). destruct (HO I ps Ips) as (Ho & _).
  destruct (float_rational soc') as (q & Eq).
  pose proof SP as (((Fc & Ec) & _) & _).
  assert (Lq : S_Battery.level_ok (p_battery P) q) by (destruct L' as (_ & L1 & L2); split; apply Rle_Qle; rewrite ?q2r_0, ?Eq, ?Ec; assumption).
  destruct (P_Start.C118_hour_partial P I t n soc q rc HP HI HO L Lq H0) as (rq & Hq & (C1 & C2 & C3 & C4 & C5 & C6 & C7)).
  assert (Xs : in_scale k N F H soc') by (destruct IS; constructor; try assumption; apply L').
  assert (Kk : 1 <= k) by (destruct IS; lra).
  assert (Qs : quiet_by (40 * (k * D)) P I t n q) by (apply (same_quiet _ P I t n soc q HP HI HO L Lq (ex_intro _ ps Ips) Qb)).
  assert (D0 : 0 <= drift k N ps).
  { destruct IS. pose proof u53_pos as (U0 & _). pose proof (growth_big k ps sc_k) as G. pose proof (pos_INR (length ps)). unfold drift. repeat apply Rmult_le_pos; lra. }
  assert (DD : 0 <= k * drift k N ps <= k * D) by (split; [apply Rmult_le_pos; lra|apply Rmult_le_compat_l; lra]).
  assert (Qd : quiet_by (40 * (k * drift k N ps)) P I t n q) by (intros c x Hx; destruct (Qs c x Hx); [left|right]; lra).
  destruct (C105_hour_partial P F I H A t n q soc' k N m e d ps rq SP SH ST SA (conj (proj1 L') Eq) Xs AS Ips Hl HN Qd Hq) as (fr & R & B).
  exists fr. split; [exact R|].
  split. { destruct (float_level _ _ _ _ _ _ _ R) as (request & E). apply (fnew_range _ request soc'); [|exact E|apply B].
    destruct SP as (((F1 & _) & _ & (F3 & _) & (F4 & _) & _ & (F6 & _) & (F7 & _)) & _). destruct IS. repeat split; try assumption; lra. }
  split; [exact (final_soc_range P I t n soc rc (proj1 (proj1 HP)) H0)|].
  assert (El : Rabs (val soc' - Q2R soc) = Q2R (apart soc q)) by (rewrite q2r_gap, Eq; reflexivity). rewrite El.
  apply q2r_apart in C3, C4, C5, C6, C7. set (l := Q2R (apart soc q)) in *. clearbody l.
  assert (G0 : 0 <= 40 * (k * D)) by lra.
  pose proof (quiet_from _ P I t n soc G0 Qb) as Q1. pose proof (quiet_from _ P I t n q G0 Qs) as Q2.
  assert (DF : duplicate_free P I) by (intros x Hx; apply (HO I x Hx)).
  pose proof (C11_total_import P I t n soc rc H0 Q1) as T1. pose proof (C11_total_import P I t n q rq Hq Q2) as T2.
  destruct (C11_grid_agrees_with_consumers P I t n soc rc DF H0 Q1) as (U1 & _ & _ & U2). destruct (C11_grid_agrees_with_consumers P I t n q rq DF Hq Q2) as (V1 & _ & _ & V2).
  destruct (C11_costs_and_cash_flow P I t n soc rc H0) as (_ & W1 & W2 & W3). destruct (C11_costs_and_cash_flow P I t n q rq Hq) as (_ & Y1 & Y2 & Y3).
  apply Qeq_eqR in W1, W2, W3, Y1, Y2, Y3. rewrite q2r_thousand in W1, W2, Y1, Y2. rewrite Q2R_minus in W3, Y3.
  assert (Te : Rabs (Q2R (rf rc GRID_import_for_elec_demand) - Q2R (rf rq GRID_import_for_elec_demand)) <= l).
  { rewrite <- (C1 GRID_import_for_heat_pump_total eq_refl), <- (C1 GRID_import_for_ES eq_refl), <- (C1 AUX_demand eq_refl), <- (C1 RES_aux eq_refl) in T2.
    assert (Z : (rf rc GRID_import_for_elec_demand - rf rq GRID_import_for_elec_demand == rf rc GRID_total_import - rf rq GRID_total_import)%Q) by Lqa.lra.
    apply Qeq_eqR in Z. rewrite !Q2R_minus in Z. rewrite Z. exact C3. }
  destruct AS as [Am Ae Ad Ai Ax _ _ _ _ _ _ _]. destruct SA as ((_ & Ei) & (_ & Ex) & _). rewrite <- Ei in Ai. rewrite <- Ex in Ax.
  assert (Cost : forall a b p, Rabs (a - b) <= l -> Rabs p <= m -> Rabs (a * p / 1000 - b * p / 1000) <= m / 1000 * l).
  { clear. intros a b p A B. replace (a * p / 1000 - b * p / 1000) with ((a - b) * (p / 1000)) by (unfold Rdiv; ring). rewrite Rabs_mult, Rmult_comm.
    apply Rmult_le_compat; try apply Rabs_pos; [|exact A]. unfold Rdiv. rewrite Rabs_mult, (Rabs_pos_eq (/ 1000)) by lra. apply Rmult_le_compat_r; lra. }
  pose proof (Cost _ _ _ C3 Ai) as M1. pose proof (Cost _ _ _ C4 Ax) as M2. rewrite <- W1, <- Y1 in M1. rewrite <- W2, <- Y2 in M2.
  assert (M3 : Rabs (Q2R (rf rc GRID_cashflow) - Q2R (rf rq GRID_cashflow)) <= 2 * (m / 1000 * l)).
  { rewrite W3, Y3. clear - M1 M2. apply Rabs_le_inv in M1, M2. apply Rabs_le. lra. }
  intro f. destruct (B f) as (Bf & Be). split; [exact Bf|]. unfold off_by.
  assert (Un : 0 <= unit_of m e d f) by (destruct f; cbn [unit_of]; nra).
  assert (Be' : Rabs (val (fr f) - Q2R (rf rq f)) <= unit_of m e d f * (150 * (k * D))).
  { apply Rle_trans with (1 := Be). replace (150 * (unit_of m e d f * (k * drift k N ps))) with (unit_of m e d f * (150 * (k * drift k N ps))) by ring. apply Rmult_le_compat_l; lra. }
  replace (val (fr f) - Q2R (rf rc f)) with ((val (fr f) - Q2R (rf rq f)) + (Q2R (rf rq f) - Q2R (rf rc f))) by ring.
  apply Rle_trans with (1 := Rabs_triang _ _). apply Rplus_le_compat; [exact Be'|]. clear Be' Be Bf. rewrite Rabs_minus_sym.
  destruct (battery_entry f) eqn:Eb.
  - destruct (battery_mirrors P I t n soc rc DF H0) as (X1 & X2 & X3 & X4 & X5). destruct (battery_mirrors P I t n q rq DF Hq) as (Z1 & Z2 & Z3 & Z4 & Z5).
    assert (Lp : 0 <= l) by (apply Rle_trans with (2 := C3); apply Rabs_pos).
    destruct f; try discriminate Eb; try assumption; try (rewrite <- U1, <- V1; exact Te); try (rewrite <- U2, <- V2; exact C4).
    + rewrite X4, Z4, X2, Z2, (C1 ES_charging_from_import eq_refl). clear - C6. rewrite !Q2R_plus. match goal with |- Rabs ?x <= _ => match type of C6 with Rabs ?y <= _ => replace x with y by ring end end. exact C6.
    + rewrite X3, Z3, X1, Z1, (C1 ES_discharging_to_HP eq_refl). clear - C5. rewrite !Q2R_plus. match goal with |- Rabs ?x <= _ => match type of C5 with Rabs ?y <= _ => replace x with y by ring end end. exact C5.
    + rewrite X1, Z1. exact C5.
    + rewrite X2, Z2. exact C6.
    + rewrite X5, Z5. destruct (hi P I); [rewrite Rminus_diag_eq, Rabs_R0 by reflexivity; exact Lp|exact C3].
  - rewrite (C1 f Eb), Rminus_diag_eq, Rabs_R0 by reflexivity. destruct f; try discriminate Eb; lra.
Qed.
(** ** The hours one after the other *)
Definition start_of (st : nodes * Q) (l : list record) (i : nat) : nodes * Q :=
  match i with O => st | S j => match nth_error l j with Some rc => (r_nodes rc, rf rc ES_final_soc) | None => st end end.
Definition step_of (k D : R) : R := 150 * (k * D).
Lemma loops_off P F hours k N m e d D : plant_ok P -> battery_last_orders P -> same_plant P F ->
  forall ts st l soc' g, S_Battery.level_ok (p_battery P) (snd st) -> S_Float.level_ok (fp_battery F) soc' -> Rabs (val soc' - Q2R (snd st)) <= g -> 1 <= m -> 0 <= k * D ->
  (forall i t X, nth_error ts i = Some t -> label hours t = Ok X -> followed k N m e d D P F t (start_of st l i) X) ->
  run_loop P (map exactly hours) ts st = Ok l ->
  exists frs, float_loop P F hours ts soc' = Ok frs /\ length frs = length l /\
    forall i rc fr, nth_error l i = Some rc -> nth_error frs i = Some fr -> forall f, finite (fr f) /\
      Rabs (val (fr f) - Q2R (rf rc f)) <= off_by m e d (step_of k D) (g + INR i * step_of k D) f.
Proof.
  intros HP HO SP. induction ts as [|t ts IH]; intros (n & soc) l soc' g L L' G M KD HF; cbn [run_loop float_loop fst snd] in *.
  - intro H. apply L_Tank.Ok_inj in H. subst. exists []. split; [reflexivity|]. split; [reflexivity|]. intros [|i] rc fr A; discriminate A.
  - destruct (label (map exactly hours) t) as [I|er] eqn:La; cbn [bind]; [|discriminate].
    assert (LX : exists X, label hours t = Ok X /\ exactly X = I).
    { unfold label in *. destruct (t <? 0)%Z; [discriminate La|]. rewrite nth_error_map in La. destruct (nth_error hours (Z.to_nat t)) as [X|]; [|discriminate La]. exists X. split; [reflexivity|]. cbn in La. injection La as <-. reflexivity. }
    destruct LX as (X & LX & EX). rewrite LX. cbn [bind]. subst I.
    destruct (hour_step P (exactly X) t n soc) as [rc|er] eqn:H0; cbn [bind]; [|discriminate].
    destruct (run_loop P (map exactly hours) ts (r_nodes rc, rf rc ES_final_soc)) as [l1|er] eqn:L1; cbn [bind]; [|discriminate]. intro H. apply L_Tank.Ok_inj in H. subst l.
    pose proof (HF O t X eq_refl LX) as F0. cbn [start_of] in F0.
    destruct X as [I H A]. cbn [exactly floats accounts] in *.
    destruct (hour_off P F I H A t n soc soc' k N m e d D rc HP HO SP F0 L L' H0) as (fr & R0 & Lf & Lr & B). rewrite R0. cbn [bind].
    set (g' := g + step_of k D).
    assert (G' : Rabs (val (fr ES_final_soc) - Q2R (snd (r_nodes rc, rf rc ES_final_soc))) <= g').
    { cbn [snd]. destruct (B ES_final_soc) as (_ & B1). unfold off_by in B1. cbn [unit_of] in B1. unfold g', step_of. lra. }
    destruct (IH (r_nodes rc, rf rc ES_final_soc) l1 (fr ES_final_soc) g' Lr Lf G' M KD) as (frs & R1 & Ln & B2); [|exact L1|].
    { intros i t' X' Hi Hx. pose proof (HF (S i) t' X' Hi Hx) as K. destruct i as [|i]; cbn [start_of nth_error] in K |- *; [exact K|].
      destruct (nth_error l1 i) as [r|] eqn:Er; [exact K|]. exfalso. apply nth_error_None in Er.
      assert (Hlen : length l1 = length ts) by exact (run_loop_length _ _ _ _ _ L1). assert (S i < length ts)%nat by (apply nth_error_Some; congruence). lia. }
    rewrite R1. cbn [bind]. exists (fr :: frs). split; [reflexivity|]. split; [cbn [length]; congruence|].
    intros [|i] rc' fr' A1 A2 f; cbn [nth_error] in A1, A2.
    + injection A1 as <-. injection A2 as <-. destruct (B f) as (B3 & B4). split; [exact B3|]. apply Rle_trans with (1 := B4). change (INR 0) with 0. rewrite Rmult_0_l, Rplus_0_r.
      unfold off_by, step_of. apply Rplus_le_compat_l. clear - G M. assert (m / 1000 * Rabs (val soc' - Q2R soc) <= m / 1000 * g) by (apply Rmult_le_compat_l; lra). destruct f; lra.
    + destruct (B2 i rc' fr' A1 A2 f) as (B3 & B4). split; [exact B3|]. replace (g + INR (S i) * step_of k D) with (g' + INR i * step_of k D) by (rewrite S_INR; unfold g'; ring). exact B4.
Qed.
(** A run that starts with the initial level of the battery. The energies of hour [i], counted from 0, are off by at most [i + 1] times what one hour can
    add and the rounding of the initial level; what the battery has no part in is off by what one hour adds. *)
Theorem C105_run_partial : forall P F hours k N m e d D first steps l, plant_ok P -> 0 <= val (fb_initial_state (fp_battery F)) <= 1 -> battery_last_orders P -> same_plant P F -> ordinary (fp_battery F) -> 1 <= m -> 0 <= k * D ->
  run_timesteps P (map exactly hours) first steps = Ok l ->
  (forall i X, (i < length l)%nat -> nth_error hours (Z.to_nat (first + Z.of_nat i)) = Some X -> followed k N m e d D P F (first + Z.of_nat i) (state_before P l i) X) ->
  exists frs, float_timesteps P F hours first steps = Ok frs /\ length frs = length l /\
    forall i rc fr, nth_error l i = Some rc -> nth_error frs i = Some fr -> forall f, finite (fr f) /\
      Rabs (val (fr f) - Q2R (rf rc f)) <= off_by m e d (150 * (k * D)) (hour_error (fp_battery F) + INR i * (150 * (k * D))) f.
Proof.
  intros P F hours k N m e d D first steps l HP Hi HO SP Or M KD H HF.
  assert (SB := proj1 SP). assert (En := proj1 Or). destruct SB as ((Fc & Ec) & (Fi & Ei) & _).
  assert (L' : S_Float.level_ok (fp_battery F) (finit_state (fp_battery F))) by exact (C99_initial_in_range _ En Fi Hi).
  assert (G : Rabs (val (finit_state (fp_battery F)) - Q2R (snd (t_init (p_tank P), init_state (p_battery P)))) <= hour_error (fp_battery F)) by exact (C100_initial _ _ (proj1 SP) Or Hi).
  assert (L : S_Battery.level_ok (p_battery P) (snd (t_init (p_tank P), init_state (p_battery P)))).
  { cbn [snd]. assert (I0 : (0 <= b_initial_state (p_battery P) <= 1)%Q) by (split; apply Rle_Qle; rewrite Ei, ?q2r_0, ?RMicromega.Q2R_1; lra).
    assert (Bc := proj1 (proj1 HP)). unfold S_Battery.level_ok, init_state. clear - I0 Bc. Lqa.nra. }
  unfold run_timesteps in H. destruct (surplus_deficit_year _ _) as [s|er]; cbn [bind] in H; [|discriminate]. cbv zeta in H. destruct (8760 <? first + steps)%Z; [discriminate|].
  assert (Hf : forall i t X, nth_error (zrange first (first + steps)) i = Some t -> label hours t = Ok X -> followed k N m e d D P F t (start_of (t_init (p_tank P), init_state (p_battery P)) l i) X).
  { intros i t X Ht Hx. assert (Hlen : length l = length (zrange first (first + steps))) by exact (run_loop_length _ _ _ _ _ H).
    assert (Li : (i < length l)%nat) by (rewrite Hlen; apply nth_error_Some; congruence).
    assert (Et : t = (first + Z.of_nat i)%Z) by (destruct (L_Plots.nth_zrange_inv _ _ _ _ Ht) as (_ & K); exact K). subst t. unfold label in Hx. destruct (_ <? 0)%Z; [discriminate Hx|].
    destruct (nth_error hours (Z.to_nat (first + Z.of_nat i))) as [Y|] eqn:Ey; [|discriminate Hx]. injection Hx as ->. exact (HF i X Li Ey). }
  exact (loops_off P F hours k N m e d D HP HO SP _ _ l _ _ L L' G M KD Hf H).
Qed.
Print Assumptions C105_run_partial.
(** The sums over the run *)
Fixpoint rsum (l : list R) : R := match l with [] => 0 | x :: l => x + rsum l end.
Lemma sums_off f b : forall (frs : list ffields) l, length frs = length l -> (forall i rc fr, nth_error l i = Some rc -> nth_error frs i = Some fr -> Rabs (val (fr f) - Q2R (rf rc f)) <= b) ->
  Rabs (rsum (map (fun fr => val (fr f)) frs) - Q2R (qsum (map (fun rc => rf rc f) l))) <= INR (length l) * b.
Proof.
  induction frs as [|fr frs IH]; intros [|rc l] Ln H; try discriminate Ln.
  - cbn [map rsum length]. change (qsum []) with 0%Q. rewrite q2r_0, Rminus_0_r, Rabs_R0. change (INR 0) with 0. lra.
  - cbn [map rsum]. rewrite BaseL.qsum_cons, Q2R_plus. change (length (rc :: l)) with (S (length l)). rewrite S_INR.
    pose proof (H O rc fr eq_refl eq_refl) as H1. assert (H2 := IH l ltac:(injection Ln; auto) (fun i a c A B => H (S i) a c A B)).
    replace (val (fr f) + rsum (map (fun fr => val (fr f)) frs) - (Q2R (rf rc f) + Q2R (qsum (map (fun rc => rf rc f) l)))) with
      ((val (fr f) - Q2R (rf rc f)) + (rsum (map (fun fr => val (fr f)) frs) - Q2R (qsum (map (fun rc => rf rc f) l)))) by ring.
    apply Rle_trans with (1 := Rabs_triang _ _). lra.
Qed.
Theorem C105_total_partial : forall P F hours k N m e d D first steps l, plant_ok P -> 0 <= val (fb_initial_state (fp_battery F)) <= 1 -> battery_last_orders P -> same_plant P F -> ordinary (fp_battery F) -> 1 <= m -> 0 <= k * D ->
  run_timesteps P (map exactly hours) first steps = Ok l ->
  (forall i X, (i < length l)%nat -> nth_error hours (Z.to_nat (first + Z.of_nat i)) = Some X -> followed k N m e d D P F (first + Z.of_nat i) (state_before P l i) X) ->
  exists frs, float_timesteps P F hours first steps = Ok frs /\ forall f,
    Rabs (rsum (map (fun fr => val (fr f)) frs) - Q2R (qsum (map (fun rc => rf rc f) l))) <=
      INR (length l) * off_by m e d (150 * (k * D)) (hour_error (fp_battery F) + INR (length l) * (150 * (k * D))) f.
Proof.
  intros P F hours k N m e d D first steps l HP Hi HO SP Or M KD H HF.
  destruct (C105_run_partial P F hours k N m e d D first steps l HP Hi HO SP Or M KD H HF) as (frs & R & Ln & B). exists frs. split; [exact R|]. intro f.
  apply sums_off; [exact Ln|]. intros i rc fr A1 A2. destruct (B i rc fr A1 A2 f) as (_ & B1). apply Rle_trans with (1 := B1). unfold off_by. apply Rplus_le_compat_l.
  assert (Li : INR i <= INR (length l)) by (apply le_INR; assert (i < length l)%nat by (apply nth_error_Some; congruence); lia).
  assert (X : INR i * (150 * (k * D)) <= INR (length l) * (150 * (k * D))) by (apply Rmult_le_compat_r; lra).
  assert (Y : m / 1000 * (hour_error (fp_battery F) + INR i * (150 * (k * D))) <= m / 1000 * (hour_error (fp_battery F) + INR (length l) * (150 * (k * D)))) by (apply Rmult_le_compat_l; lra).
  destruct f; lra.
Qed.
Print Assumptions C105_total_partial.
(** A year of 4380 times an hour with sun and an hour without: after the last hour the level of the battery is off by less than 0.05 kWh, and heat of the back-up is never off by more than 0.000005 kWh. *)
Definition day : both := {| exactly := demo_hour 20 5 12 150 3 8; floats := small_hour (lit 20 0) (lit 5 0) (lit 12 0) (lit 3 0) (lit 8 0); accounts := small_accounts (lit 150 0) |}.
Definition night : both := {| exactly := demo_hour 0 6 12 150 3 8; floats := small_hour (lit 0 0) (lit 6 0) (lit 12 0) (lit 3 0) (lit 8 0); accounts := small_accounts (lit 150 0) |}.
Definition alternating : list both := concat (repeat [day; night] (Z.to_nat 4380)).
Lemma alternating_only X : In X alternating -> X = day \/ X = night.
Proof. unfold alternating. intro H. apply in_concat in H as (x & Hx & H). apply repeat_spec in Hx. subst x. cbn in H. intuition. Qed.
Lemma alternating_full : full_year (map exactly alternating).
Proof.
  unfold full_year, alternating. rewrite map_length. assert (G : forall n, length (concat (repeat [day; night] n)) = (2 * n)%nat) by (clear; induction n as [|n IHn]; [reflexivity|]; change (concat (repeat [day; night] (S n))) with ([day; night] ++ concat (repeat [day; night] n)); rewrite app_length, IHn; cbn [length]; lia).
  rewrite G. rewrite Nat2Z.inj_mul, Z2Nat.id by lia. reflexivity.
Qed.
Definition small_ps := [RES_to_demand; ES_to_demand; Import_to_demand; HP_RES_to_demand; EAUX_RES_to_demand; TS_to_demand; HP_import_to_demand; AUX_to_demand; HP_RES_to_TS; EAUX_RES_to_TS; RES_to_ES; RES_to_export].
Notation small_plant := (small P_Sizing.without7 P_Sizing.without814).
Lemma small_drift : 0 <= 3 * drift 3 100 small_ps <= 33 / 1000000000.
Proof. unfold drift. rewrite u53_value. cbn [small_ps length growth weight]. cbn [INR]. lra. Qed.
Lemma small_plant_ok : plant_ok small_plant.
Proof. unfold plant_ok, battery_ok, small, demo, plain_exact. cbn. repeat split; try Lqa.lra; discriminate. Qed.
Lemma small_orders : battery_last_orders small_plant.
Proof. apply P_Sizing.C104_increasing_orders; [repeat (constructor; [|repeat (constructor; try reflexivity)]); constructor|repeat (constructor; [|repeat (constructor; try reflexivity)]); constructor|..]; cbn; intuition discriminate. Qed.
Lemma small_followed t n soc X : S_Battery.level_ok (p_battery small_plant) soc -> X = day \/ X = night -> followed 3 100 200 1 1 (drift 3 100 small_ps) small_plant small_float t (n, soc) X.
Proof.
  intros L HX. pose proof small_drift as SD.
  assert (N0 : same_number 0 (lit 0 0)) by (apply num; [reflexivity|value; lra]). assert (N6 : same_number 6 (lit 6 0)) by (apply num; [reflexivity|value; lra]).
  assert (N20 : same_number 20 (lit 20 0)) by (apply num; [reflexivity|value; lra]). assert (N5 : same_number 5 (lit 5 0)) by (apply num; [reflexivity|value; lra]).
  assert (N12 : same_number 12 (lit 12 0)) by (apply num; [reflexivity|value; lra]). assert (N3 : same_number 3 (lit 3 0)) by (apply num; [reflexivity|value; lra]).
  assert (N8 : same_number 8 (lit 8 0)) by (apply num; [reflexivity|value; lra]). assert (N150 : same_number 150 (lit 150 0)) by (apply num; [reflexivity|value; lra]).
  assert (HI : hour_ok small_plant (exactly X)).
  { destruct HX as [-> | ->]; (unfold hour_ok, small, demo, demo_hour; cbn; repeat split; try Lqa.lra; intros x _ _ q H; injection H as <-; destruct x; Lqa.lra). }
  assert (K : processes_of small_plant (exactly X) small_ps) by (destruct HX as [-> | ->]; left; split; reflexivity).
  assert (L5 : S_Battery.level_ok (p_battery small_plant) 5) by (split; cbn; Lqa.lra).
  split; [exact HI|]. split; [destruct HX as [-> | ->]; apply small_hour_same; assumption|]. split; [destruct HX as [-> | ->]; apply small_store_same|].
  split; [destruct HX as [-> | ->]; apply small_accounts_same; exact N150|].
  split; [destruct HX as [-> | ->]; apply small_scale; lits; change (bpow radix2 0) with 1; rewrite ?val_f0, ?Rabs_pos_eq; lra|].
  split; [destruct HX as [-> | ->]; apply small_accounts_scale; lits; change (bpow radix2 0) with 1; rewrite Rabs_pos_eq; lra|].
  split. { intros ps [(_ & H)|(H & _)]; [|exfalso; destruct HX as [-> | ->]; apply H; reflexivity]. cbn in H. injection H as <-. split; [cbn; lia|]. split; [cbn; intuition discriminate|apply Rle_refl]. }
  cbn [fst snd]. apply (same_quiet _ _ _ _ _ 5 soc small_plant_ok HI small_orders L5 L (ex_intro _ _ K)).
  intros c rc E. left.
  assert (T : match uncorrected small_plant (exactly X) t n 5 with Ok (_, rc) => qle 2 (rf rc HP_heat_total_output) | Err _ => false end = true) by (destruct HX as [-> | ->]; vm_compute; reflexivity).
  rewrite E in T. apply qle_true in T. apply Qle_Rle in T. assert (Mh : Q2R (minimum_heat small_plant (exactly X)) = 8 / 5) by (destruct HX as [-> | ->]; unfold minimum_heat, small, Q2R; cbn; lra).
  rewrite Mh. replace (Q2R 2) with 2 in T by (unfold Q2R; cbn; lra). lra.
Qed.
Lemma small_ordinary : ordinary (fp_battery small_float).
Proof.
  assert (B : 16 <= bpow radix2 1019) by (change 16 with (bpow radix2 4); apply bpow_le; lia). unfold small_float, ordinary, entered, plain.
  cbn [fp_battery fb_capacity fb_charge_max fb_discharge_max fb_discharge_eff fb_self_discharge]. conjs; lits; change (bpow radix2 0) with 1; lra.
Qed.
Lemma small_error : hour_error (fp_battery small_float) <= / 1000.
Proof.
  unfold hour_error, small_float, plain. cbn [fp_battery fb_capacity fb_discharge_max]. lits. change (bpow radix2 0) with 1. rewrite u53_value.
  assert (E : bpow radix2 (-1075) <= bpow radix2 (-20)) by (apply bpow_le; discriminate). change (bpow radix2 (-20)) with (/ 1048576) in E. lra.
Qed.
Lemma small_total : plant_total small_plant.
Proof.
  split; [split; intros; eexists; reflexivity|]. split; [cbn; Lqa.lra|]. split; [intro H; exfalso; apply H; reflexivity|].
  split; eexists; reflexivity.
Qed.
Example C105_run_case : exists l frs, run_timesteps small_plant (map exactly alternating) 0 8760 = Ok l /\ float_timesteps small_plant small_float alternating 0 8760 = Ok frs /\ length frs = length l /\ length l = Z.to_nat 8760 /\
  forall i rc fr, nth_error l i = Some rc -> nth_error frs i = Some fr -> Rabs (val (fr ES_final_soc) - Q2R (rf rc ES_final_soc)) <= / 20 /\ Rabs (val (fr GRID_total_import) - Q2R (rf rc GRID_total_import)) <= / 20 /\
    Rabs (val (fr HD_aux) - Q2R (rf rc HD_aux)) <= / 200000.
Proof.
  destruct (run_total small_plant (map exactly alternating) 0 8760 small_total alternating_full ltac:(lia) ltac:(lia)) as (l & R).
  assert (Ln : length l = Z.to_nat 8760).
  { rewrite (run_unfold _ _ 0 8760 alternating_full) in R by lia. rewrite (run_loop_length _ _ _ _ _ R). rewrite zrange_length. reflexivity. }
  assert (Lv : forall i, S_Battery.level_ok (p_battery small_plant) (snd (state_before small_plant l i))).
  { assert (Bc : (0 <= b_capacity (p_battery small_plant))%Q) by (cbn; Lqa.lra). pose proof (run_soc_range small_plant _ 0 8760 l Bc R) as G. rewrite Forall_forall in G.
    assert (L0 : S_Battery.level_ok (p_battery small_plant) (init_state (p_battery small_plant))) by (split; apply qle_true; vm_compute; reflexivity).
    intros [|i]; cbn [state_before snd]; [exact L0|]. destruct (nth_error l i) as [rc|] eqn:E; cbn [snd]; [|exact L0]. apply G. exact (nth_error_In _ _ E). }
  destruct (C105_run_partial small_plant small_float alternating 3 100 200 1 1 (drift 3 100 small_ps) 0 8760 l small_plant_ok) as (frs & Rf & Lf & B); try assumption; try lra.
  - cbn [small_float fp_battery plain fb_initial_state]. lits. change (bpow radix2 (-1)) with (/ 2). lra.
  - exact small_orders.
  - apply small_plant_same.
  - exact small_ordinary.
  - apply small_drift.
  - intros i X Li HX. apply nth_error_In in HX. apply alternating_only in HX. rewrite (surjective_pairing (state_before small_plant l i)). apply small_followed; [apply Lv|exact HX].
  - exists l, frs. split; [exact R|]. split; [exact Rf|]. split; [exact Lf|]. split; [exact Ln|]. intros i rc fr A1 A2.
    assert (Li : INR i <= 8760).
    { assert (i < Z.to_nat 8760)%nat by (rewrite <- Ln; apply nth_error_Some; congruence). rewrite INR_IZR_INZ. apply IZR_le. lia. }
    pose proof small_drift as SD. pose proof (pos_INR i) as I0. set (x := 3 * drift 3 100 small_ps) in *.
    assert (He : hour_error (fp_battery small_float) <= / 1000) by exact small_error.
    destruct (B i rc fr A1 A2 ES_final_soc) as (_ & B1). destruct (B i rc fr A1 A2 GRID_total_import) as (_ & B2). destruct (B i rc fr A1 A2 HD_aux) as (_ & B3).
    unfold off_by in B1, B2, B3. cbn [unit_of] in B1, B2, B3.
    assert (X : INR i * (150 * x) <= 8760 * (150 * x)) by (apply Rmult_le_compat_r; lra). split; [lra|]. split; lra.
Qed.
