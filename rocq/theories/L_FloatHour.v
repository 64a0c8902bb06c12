(** Lemmas about the hour in floating point: how errors pass through the processes. *)
From Coq Require Import ZArith Reals Qreals.
From Flocq Require Import Core Relative IEEE754.BinarySingleNaN.
From Verif Require Import Base BaseL M_Battery M_HeatPump M_Tools M_FixedOrder M_Float M_FloatHour S_Float S_FloatHour L_Float L_FloatBattery L_FixedOrder.
From Coq Require Import Lra Psatz.
Local Open Scope R_scope.

Definition low : R := bpow radix2 (-1022).
Definition top : R := bpow radix2 1022.
Lemma low_pos : 0 < low.
Proof. apply bpow_gt_0. Qed.

(** ** One rounding *)
Lemma rnd_near x B : low <= B -> Rabs x <= B -> Rabs (rnd x - x) <= u53 * B.
Proof.
  intros L X. unfold rnd. apply Rle_trans with (/ 2 * ulp radix2 (SpecFloat.fexp 53 1024) x).
  { apply error_le_half_ulp. typeclasses eauto. }
  apply Rle_trans with (/ 2 * ulp radix2 (SpecFloat.fexp 53 1024) B).
  { apply Rmult_le_compat_l; [lra|]. apply ulp_le; [typeclasses eauto|typeclasses eauto|]. rewrite (Rabs_pos_eq B); [exact X|]. pose proof low_pos. lra. }
  pose proof low_pos as P0.
  assert (U : ulp radix2 (SpecFloat.fexp 53 1024) B <= Rabs B * bpow radix2 (1 - 53)).
  { change (SpecFloat.fexp 53 1024) with (FLT_exp (-1074) 53). apply (ulp_FLT_le radix2 (-1074) 53). rewrite Rabs_pos_eq by lra. exact L. }
  rewrite Rabs_pos_eq in U by lra. unfold u53. replace (bpow radix2 (-53)) with (/ 2 * bpow radix2 (1 - 53)).
  - nra.
  - replace (-53)%Z with (-1 + (1 - 53))%Z by reflexivity. rewrite bpow_plus. reflexivity.
Qed.
Lemma rnd_top x : Rabs x <= top -> Rabs (rnd x) < big.
Proof.
  intro H. apply small_big. apply Rle_trans with (1 := H). apply bpow_le. discriminate.
Qed.

(** [x] is a number within [E] of [q], which is at most [B]. *)
Definition app (x : double) (q : Q) (B E : R) : Prop := finite x /\ Rabs (val x - Q2R q) <= E /\ Rabs (Q2R q) <= B.

Lemma app_weak x q B E B' E' : app x q B E -> B <= B' -> E <= E' -> app x q B' E'.
Proof. intros (F & H & M) HB HE. split; [exact F|]. split; lra. Qed.
Lemma app_same q x B : same_number q x -> Rabs (val x) <= B -> app x q B 0.
Proof. intros (F & H) M. split; [exact F|]. rewrite H. split; [|exact M]. rewrite Rminus_diag_eq by reflexivity. rewrite Rabs_R0. lra. Qed.
Lemma app_0 B : 0 <= B -> app f0 0 B 0.
Proof. intro H. split; [reflexivity|]. rewrite val_f0, q2r_0, Rminus_0_r, Rabs_R0. lra. Qed.

Lemma op_near y r B E : low <= B -> 0 <= E -> B + E <= top -> Rabs r <= B -> Rabs (y - r) <= E ->
  Rabs (rnd y) < big /\ Rabs (rnd y - r) <= E + u53 * (B + E).
Proof.
  intros L E0 T R Y. assert (M : Rabs y <= B + E).
  { replace y with (r + (y - r)) by ring. apply Rle_trans with (1 := Rabs_triang _ _). lra. }
  split; [apply rnd_top; lra|].
  pose proof (rnd_near y (B + E) ltac:(lra) M) as N.
  replace (rnd y - r) with ((rnd y - y) + (y - r)) by ring. apply Rle_trans with (1 := Rabs_triang _ _). lra.
Qed.
Lemma app_min x y q r B E : app x q B E -> app y r B E -> app (fmin x y) (pmin q r) B E.
Proof.
  intros (F1 & H1 & M1) (F2 & H2 & M2). destruct (fmin_ok x y F1 F2) as (F & V). split; [exact F|]. rewrite V, q2r_min.
  apply Rabs_le_inv in H1. apply Rabs_le_inv in H2. apply Rabs_le_inv in M1. apply Rabs_le_inv in M2.
  split; apply Rabs_le; unfold Rmin; rdec; lra.
Qed.
(** The four operations; the bound of the result and of the argument's error may use more than the bounds of the arguments. *)
Lemma app_sub x y q r B E : finite x -> finite y -> low <= B -> 0 <= E -> B + E <= top ->
  Rabs (Q2R q - Q2R r) <= B -> Rabs ((val x - val y) - (Q2R q - Q2R r)) <= E -> app (fsub x y) (q - r)%Q B (E + u53 * (B + E)).
Proof.
  intros F1 F2 L E0 T R Y. destruct (op_near _ _ B E L E0 T R Y) as (O & N).
  destruct (sub_ok x y F1 F2 O) as (F & V). split; [exact F|]. rewrite V, Q2R_minus. split; assumption.
Qed.
Lemma app_add x y q r B E : finite x -> finite y -> low <= B -> 0 <= E -> B + E <= top ->
  Rabs (Q2R q + Q2R r) <= B -> Rabs ((val x + val y) - (Q2R q + Q2R r)) <= E -> app (fadd x y) (q + r)%Q B (E + u53 * (B + E)).
Proof.
  intros F1 F2 L E0 T R Y. destruct (op_near _ _ B E L E0 T R Y) as (O & N).
  destruct (add_ok x y F1 F2 O) as (F & V). split; [exact F|]. rewrite V, Q2R_plus. split; assumption.
Qed.
Lemma app_mul x y q r B E : finite x -> finite y -> low <= B -> 0 <= E -> B + E <= top ->
  Rabs (Q2R q * Q2R r) <= B -> Rabs (val x * val y - Q2R q * Q2R r) <= E -> app (fmul x y) (q * r)%Q B (E + u53 * (B + E)).
Proof.
  intros F1 F2 L E0 T R Y. destruct (op_near _ _ B E L E0 T R Y) as (O & N).
  destruct (mul_ok x y F1 F2 O) as (F & V). split; [exact F|]. rewrite V, Q2R_mult. split; assumption.
Qed.
Lemma div_ok x y : finite x -> val y <> 0 -> Rabs (rnd (val x / val y)) < big -> finite (fdiv x y) /\ val (fdiv x y) = rnd (val x / val y).
Proof.
  intros X Y B. pose proof (Bdiv_correct 53 1024 _ _ mode_NE x y Y) as H. cbn [round_mode] in H. fold (rnd (B2R x / B2R y)) in H.
  rewrite Rlt_bool_true in H by exact B. destruct H as (H1 & H2 & _). unfold finite in X. rewrite X in H2. split; assumption.
Qed.
Lemma app_div x y q r B E : finite x -> val y <> 0 -> Q2R r <> 0 -> low <= B -> 0 <= E -> B + E <= top ->
  Rabs (Q2R q / Q2R r) <= B -> Rabs (val x / val y - Q2R q / Q2R r) <= E -> app (fdiv x y) (q / r)%Q B (E + u53 * (B + E)).
Proof.
  intros F1 F2 R0 L E0 T R Y. destruct (op_near _ _ B E L E0 T R Y) as (O & N).
  destruct (div_ok x y F1 F2 O) as (F & V). split; [exact F|]. rewrite V, Q2R_div; [split; assumption|].
  intro Z. apply R0. rewrite Z. apply q2r_0.
Qed.
Lemma app_neg x q B E : app x q B E -> app (fneg x) (- q)%Q B E.
Proof.
  intros (F & H & M). unfold fneg. split; [unfold finite; rewrite is_finite_Bopp; exact F|].
  unfold val. rewrite B2R_Bopp. fold (val x). rewrite Q2R_opp. split.
  - replace (- val x - - Q2R q) with (- (val x - Q2R q)) by ring. rewrite Rabs_Ropp. exact H.
  - rewrite Rabs_Ropp. exact M.
Qed.
Lemma feq_zero x q : same_number q x -> feq x f0 = qeq q 0.
Proof.
  intros (F & V). unfold feq. rewrite (Beqb_correct 53 1024 x f0 F eq_refl).
  destruct (qeq_spec q 0) as [E|E].
  - apply Req_bool_true. change (val x = val f0). rewrite <- V, val_f0, E. apply q2r_0.
  - apply Req_bool_false. change (val x <> val f0). rewrite <- V, val_f0. intro Z. apply E. apply eqR_Qeq. rewrite Z. symmetry. apply q2r_0.
Qed.

(** ** Sizes *)
(** The bounds are far from underflow and overflow, and the error is small beside the quantity. *)
Definition ok (B E : R) : Prop := low <= B /\ 0 <= E <= B / 1000 /\ 100 * B <= top.
Lemma u53_pos : 0 < u53 <= / 1000000.
Proof.
  split; [apply bpow_gt_0|]. unfold u53. apply Rle_trans with (bpow radix2 (-20)); [apply bpow_le; discriminate|].
  change (bpow radix2 (-20)) with (/ IZR (Zpower_pos radix2 20)). apply Rinv_le; [lra|]. apply IZR_le. discriminate.
Qed.
(** Products with the unit roundoff that the linear arithmetic needs. *)
Lemma ok_facts B E : ok B E -> 0 < B /\ 0 <= u53 * E <= u53 * B / 1000 /\ 0 < u53 * B <= B / 1000000 /\ 0 <= u53 * (u53 * B) <= u53 * B / 1000000.
Proof.
  intros (L & (E0 & E1) & T). pose proof low_pos. pose proof u53_pos as (U0 & U1). assert (B0 : 0 < B) by lra.
  assert (0 < u53 * B) by (apply Rmult_lt_0_compat; assumption). repeat split; try nra.
Qed.
Lemma ok_scale s B E : ok B E -> 1 <= s -> 100 * (s * B) <= top -> ok (s * B) (s * E).
Proof. intros (L & (E0 & E1) & T) S1 T'. pose proof low_pos. repeat split; nra. Qed.
Ltac facts K := destruct (ok_facts _ _ K) as (?B0 & ?UE & ?UB & ?UU); destruct K as (?L & (?E0 & ?E1) & ?T).

Lemma upd_sub x y q r B E : ok B E -> app x q B E -> app y r B (E + 5 * (u53 * B)) -> app (fsub x y) (q - r)%Q (2 * B) (2 * (E + 4 * (u53 * B))).
Proof.
  intros K (F1 & H1 & M1) (F2 & H2 & M2). facts K. apply Rabs_le_inv in H1, H2, M1, M2.
  apply app_weak with (2 * B) (2 * E + 5 * (u53 * B) + u53 * (2 * B + (2 * E + 5 * (u53 * B)))); [|lra|lra].
  apply app_sub; try assumption; try lra; apply Rabs_le; lra.
Qed.
Lemma upd_add x y q r B E : ok B E -> app x q B E -> app y r B (E + 5 * (u53 * B)) -> app (fadd x y) (q + r)%Q (2 * B) (2 * (E + 4 * (u53 * B))).
Proof.
  intros K (F1 & H1 & M1) (F2 & H2 & M2). facts K. apply Rabs_le_inv in H1, H2, M1, M2.
  apply app_weak with (2 * B) (2 * E + 5 * (u53 * B) + u53 * (2 * B + (2 * E + 5 * (u53 * B)))); [|lra|lra].
  apply app_add; try assumption; try lra; apply Rabs_le; lra.
Qed.
(** A difference whose exact value is known to be no larger: one rounding. *)
Lemma gap x y q r B E : ok B E -> app x q B 0 -> app y r B E -> Rabs (Q2R q - Q2R r) <= B -> app (fsub x y) (q - r)%Q B (E + 2 * (u53 * B)).
Proof.
  intros K (F1 & H1 & M1) (F2 & H2 & M2) G. facts K. apply Rabs_le_inv in H1, H2, M1, M2.
  apply app_weak with B (E + u53 * (B + E)); [|lra|lra].
  apply app_sub; try assumption; try lra. apply Rabs_le; lra.
Qed.
(** The two readings of the room in the store. *)
Lemma left_charge m d c q r s B E : ok B E -> app m q B 0 -> app d r B E -> app c s B E ->
  Rabs (Q2R q + Q2R r - Q2R s) <= B -> Rabs ((val d - val c) - (Q2R r - Q2R s)) <= E ->
  app (fsub (fadd m d) c) (q + r - s)%Q B (E + 7 / 2 * (u53 * B)).
Proof.
  intros K (F1 & H1 & M1) (F2 & H2 & M2) (F3 & H3 & M3) G N. facts K. apply Rabs_le_inv in H1, H2, H3, M1, M2, M3, N.
  destruct (app_add m d q r (2 * B) E F1 F2) as (FA & _ & _); try lra; try (apply Rabs_le; lra).
  assert (V : val (fadd m d) = rnd (val m + val d)).
  { apply add_ok; [exact F1|exact F2|]. apply rnd_top. apply Rabs_le. lra. }
  pose proof (rnd_near (val m + val d) (2 * B + E) ltac:(lra) ltac:(apply Rabs_le; lra)) as R. apply Rabs_le_inv in R.
  apply app_weak with B ((E + u53 * (2 * B + E)) + u53 * (B + (E + u53 * (2 * B + E)))); [|lra|].
  2:{ assert (u53 * (u53 * (2 * B + E)) <= u53 * B / 1000).
      { replace (u53 * (u53 * (2 * B + E))) with (2 * (u53 * (u53 * B)) + u53 * (u53 * E)) by ring. pose proof u53_pos. nra. } lra. }
  apply app_sub; try assumption; try lra.
  - rewrite Q2R_plus. exact G.
  - rewrite Q2R_plus, V. apply Rabs_le. lra.
Qed.
Lemma left_discharge m d c q r s B E : ok B E -> app m q B 0 -> app d r B E -> app c s B E ->
  Rabs (Q2R q - Q2R r + Q2R s) <= B -> Rabs ((val d - val c) - (Q2R r - Q2R s)) <= E ->
  app (fadd (fsub m d) c) (q - r + s)%Q B (E + 7 / 2 * (u53 * B)).
Proof.
  intros K (F1 & H1 & M1) (F2 & H2 & M2) (F3 & H3 & M3) G N. facts K. apply Rabs_le_inv in H1, H2, H3, M1, M2, M3, N.
  destruct (app_sub m d q r (2 * B) E F1 F2) as (FA & _ & _); try lra; try (apply Rabs_le; lra).
  assert (V : val (fsub m d) = rnd (val m - val d)).
  { apply sub_ok; [exact F1|exact F2|]. apply rnd_top. apply Rabs_le. lra. }
  pose proof (rnd_near (val m - val d) (2 * B + E) ltac:(lra) ltac:(apply Rabs_le; lra)) as R. apply Rabs_le_inv in R.
  apply app_weak with B ((E + u53 * (2 * B + E)) + u53 * (B + (E + u53 * (2 * B + E)))); [|lra|].
  2:{ assert (u53 * (u53 * (2 * B + E)) <= u53 * B / 1000).
      { replace (u53 * (u53 * (2 * B + E))) with (2 * (u53 * (u53 * B)) + u53 * (u53 * E)) by ring. pose proof u53_pos. nra. } lra. }
  apply app_add; try assumption; try lra.
  - rewrite Q2R_minus. exact G.
  - rewrite Q2R_minus, V. apply Rabs_le. lra.
Qed.

(** ** Conversions by the coefficient of performance [c] *)
Lemma to_heat x y q r B E : ok B E -> same_number r y -> 0 < val y -> ok (val y * B) (val y * E) -> app x q B E ->
  app (fmul x y) (q * r)%Q (val y * B) (val y * E + 2 * (u53 * (val y * B))).
Proof.
  intros K (FY & VY) Y0 K' (F1 & H1 & M1). facts K'. clear K. rename B0 into HB0, UE into HUE, UB into HUB, UU into HUU.
  apply app_weak with (val y * B) (val y * E + u53 * (val y * B + val y * E)); [|lra|lra].
  apply app_mul; try assumption; try lra; rewrite VY.
  - rewrite Rabs_mult, (Rabs_pos_eq (val y)), Rmult_comm by lra. apply Rmult_le_compat_l; lra.
  - replace (val x * val y - Q2R q * val y) with ((val x - Q2R q) * val y) by ring.
    rewrite Rabs_mult, (Rabs_pos_eq (val y)), Rmult_comm by lra. apply Rmult_le_compat_l; lra.
Qed.
Lemma to_elec x y q r B E : ok B E -> same_number r y -> 0 < val y -> app x q (val y * B) (val y * E) ->
  app (fdiv x y) (q / r)%Q B (E + 3 / 2 * (u53 * B)).
Proof.
  intros K (FY & VY) Y0 (F1 & H1 & M1). facts K.
  apply app_weak with B (E + u53 * (B + E)); [|lra|lra].
  apply app_div; try assumption; try lra; rewrite VY.
  - unfold Rdiv. rewrite Rabs_mult, Rabs_inv, (Rabs_pos_eq (val y)) by lra. apply Rmult_le_reg_l with (val y); [lra|].
    rewrite (Rmult_comm (Rabs _)), <- Rmult_assoc, Rinv_r, Rmult_1_l by lra. exact M1.
  - replace (val x / val y - Q2R q / val y) with ((val x - Q2R q) * / val y) by (field; lra).
    rewrite Rabs_mult, Rabs_inv, (Rabs_pos_eq (val y)) by lra. apply Rmult_le_reg_l with (val y); [lra|].
    rewrite (Rmult_comm (Rabs _)), <- Rmult_assoc, Rinv_r, Rmult_1_l by lra. exact H1.
Qed.

(** ** The state of the loop *)
Section STEP.
Variables (P : plant) (F : fplant) (I : hour_in) (H : fhour) (t : Z) (nodes_temp : nodes) (mc md : Q) (k N : R).
Hypothesis SB : same_battery (p_battery P) (fp_battery F).
Hypothesis SC : same_number (p_hp_capacity P) (fp_hp_capacity F).
Hypothesis SF : fp_electric F = true <-> a_fuel (p_aux P) = ELECTRIC.
Hypothesis SCOP : same_number (cop (i_perf I)) (fi_cop H).
Hypothesis SD : same_number (duty (i_perf I)) (fi_duty H).
Hypothesis MC : t_max (p_tank P) Charging nodes_temp (i_source_temp I) (i_flow_temp I) t = Ok mc.
Hypothesis SMC : same_number mc (fi_charge H).
Hypothesis MD : t_max (p_tank P) Discharging nodes_temp (i_source_temp I) (i_flow_temp I) t = Ok md.
Hypothesis SMD : same_number md (fi_discharge H).
Let c := val (fi_cop H).
Hypothesis Hk : 1 <= k <= 1024.
Hypothesis Hc : / k <= c <= k.
Hypothesis HN : 1 <= N.
Hypothesis Hduty : Rabs (val (fi_duty H)) <= c * N.
Hypothesis Hmc : Rabs (val (fi_charge H)) <= c * N.
Hypothesis Hmd : Rabs (val (fi_discharge H)) <= c * N.
Hypothesis Hcap : Rabs (val (fb_capacity (fp_battery F))) <= N.
Hypothesis Hcm : 0 <= val (fb_charge_max (fp_battery F)) <= N.
Hypothesis Hce : 0 <= val (fb_charge_eff (fp_battery F)) <= 1.
Hypothesis Hsd : 0 <= val (fb_self_discharge (fp_battery F)) <= 1.

Record near (fc : fchecks) (x : checks) (B E : R) : Prop := {
  n_unmet : app (f_elec_unmet fc) (elec_unmet x) B E;
  n_res : app (f_RES_left fc) (RES_left x) B E;
  n_soc : app (f_soc fc) (c_soc x) B E;
  n_room : Rabs (Q2R (b_capacity (p_battery P)) - Q2R (c_soc x)) <= B;
  n_heat : app (f_heat_unmet fc) (heat_unmet x) (c * B) (c * E);
  n_aux : app (f_aux_left fc) (aux_left x) (c * B) (c * E);
  n_use : app (f_hp_usage fc) (hp_usage x) (c * B) (c * E);
  n_dis : app (f_ts_discharge fc) (ts_discharge x) (c * B) (c * E);
  n_ch : app (f_ts_charge fc) (ts_charge x) (c * B) (c * E);
  n_spare : Rabs (Q2R (duty (i_perf I)) - Q2R (hp_usage x)) <= c * B;
  n_leftc : Rabs (Q2R mc + Q2R (ts_discharge x) - Q2R (ts_charge x)) <= c * B;
  n_leftd : Rabs (Q2R md - Q2R (ts_discharge x) + Q2R (ts_charge x)) <= c * B;
  n_net : Rabs ((val (f_ts_discharge fc) - val (f_ts_charge fc)) - (Q2R (ts_discharge x) - Q2R (ts_charge x))) <= c * E }.

Lemma c_pos : 0 < c.
Proof. apply Rlt_le_trans with (/ k); [apply Rinv_0_lt_compat; lra|tauto]. Qed.
(** The units: [top_unit] is the larger of a kWh of electricity and of the heat made from it. *)
Definition unit_max : R := Rmax c 1.
Lemma unit_facts : 1 <= unit_max <= k /\ c <= unit_max /\ unit_max <= c * k.
Proof.
  pose proof c_pos. assert (1 <= c * k). { apply Rmult_le_reg_r with (/ k); [apply Rinv_0_lt_compat; lra|]. rewrite Rmult_assoc, Rinv_r by lra. lra. }
  unfold unit_max, Rmax. rdec; repeat split; try lra; nra.
Qed.

(** Room for the units: everything stays below the top. *)
Definition sized (B E : R) : Prop := N <= B /\ ok B (E + 4 * (u53 * B)) /\ 0 <= E /\ ok (c * B) (c * (E + 4 * (u53 * B))) /\ ok (unit_max * B) (unit_max * (E + 4 * (u53 * B))).
Lemma ok_less B E E' : ok B E' -> 0 <= E <= E' -> ok B E.
Proof. intros (L & X & T) Y. repeat split; lra. Qed.
Lemma sized_ok B E : sized B E -> ok B E /\ ok (c * B) (c * E) /\ ok (unit_max * B) (unit_max * E) /\ 0 < B /\ 0 < u53 * B.
Proof.
  intros (HB & K & E0 & K1 & K2). pose proof c_pos. destruct unit_facts as (U1 & _ & _). assert (B0 : 0 < B) by lra. pose proof u53_pos as (U0 & _).
  assert (D : 0 < u53 * B) by nra. split; [apply ok_less with (1 := K); lra|]. split; [apply ok_less with (1 := K1); split; nra|]. split; [apply ok_less with (1 := K2); split; nra|]. split; assumption.
Qed.

Lemma duty_app B : N <= B -> app (fi_duty H) (duty (i_perf I)) (c * B) 0.
Proof. intro HB. apply app_same; [exact SD|]. pose proof c_pos. apply Rle_trans with (1 := Hduty). nra. Qed.
Lemma mc_app B : N <= B -> app (fi_charge H) mc (c * B) 0.
Proof. intro HB. apply app_same; [exact SMC|]. pose proof c_pos. apply Rle_trans with (1 := Hmc). nra. Qed.
Lemma md_app B : N <= B -> app (fi_discharge H) md (c * B) 0.
Proof. intro HB. apply app_same; [exact SMD|]. pose proof c_pos. apply Rle_trans with (1 := Hmd). nra. Qed.

(** [heat_app h q]: a thermal amount as the heat pump processes and the store compute it *)
Notation heat_app h q B E := (app h q (c * B) (c * (E + 7 / 2 * (u53 * B)))).

Lemma spare_app fc x B E : sized B E -> near fc x B E -> heat_app (fsub (fi_duty H) (f_hp_usage fc)) (duty (i_perf I) - hp_usage x)%Q B E.
Proof.
  intros K R. destruct (sized_ok B E K) as (_ & K1 & _ & B0 & D). pose proof c_pos. destruct K as (HB & _ & E0 & _).
  eapply app_weak; [apply gap with (1 := K1) (2 := duty_app B HB) (3 := n_use _ _ _ _ R) (4 := n_spare _ _ _ _ R)|lra|nra].
Qed.
Lemma leftc_app fc x B E : sized B E -> near fc x B E -> heat_app (fsub (fadd (fi_charge H) (f_ts_discharge fc)) (f_ts_charge fc)) (mc + ts_discharge x - ts_charge x)%Q B E.
Proof.
  intros K R. destruct (sized_ok B E K) as (_ & K1 & _ & B0 & D). pose proof c_pos. destruct K as (HB & _ & E0 & _).
  eapply app_weak; [apply left_charge with (1 := K1) (2 := mc_app B HB) (3 := n_dis _ _ _ _ R) (4 := n_ch _ _ _ _ R) (5 := n_leftc _ _ _ _ R) (6 := n_net _ _ _ _ R)|lra|nra].
Qed.
Lemma leftd_app fc x B E : sized B E -> near fc x B E -> heat_app (fadd (fsub (fi_discharge H) (f_ts_discharge fc)) (f_ts_charge fc)) (md - ts_discharge x + ts_charge x)%Q B E.
Proof.
  intros K R. destruct (sized_ok B E K) as (_ & K1 & _ & B0 & D). pose proof c_pos. destruct K as (HB & _ & E0 & _).
  eapply app_weak; [apply left_discharge with (1 := K1) (2 := md_app B HB) (3 := n_dis _ _ _ _ R) (4 := n_ch _ _ _ _ R) (5 := n_leftd _ _ _ _ R) (6 := n_net _ _ _ _ R)|lra|nra].
Qed.
Lemma loose x q B E : sized B E -> app x q (c * B) (c * E) -> heat_app x q B E.
Proof. intros K R. destruct (sized_ok B E K) as (_ & _ & _ & B0 & D). pose proof c_pos. apply app_weak with (1 := R); [lra|nra]. Qed.
Lemma heated x q B E : sized B E -> app x q B E -> heat_app (fmul x (fi_cop H)) (q * cop (i_perf I))%Q B E.
Proof.
  intros K R. destruct (sized_ok B E K) as (K0 & K1 & _ & B0 & D). pose proof c_pos.
  eapply app_weak; [apply to_heat with (1 := K0) (2 := SCOP) (3 := c_pos) (4 := K1) (5 := R)|fold c; lra|fold c; nra].
Qed.
Lemma thermal_app s q fc x B E : sized B E -> near fc x B E -> app s q B E ->
  heat_app (fthermal_output F H s (f_heat_unmet fc)) (fst (thermal_output (p_hp_capacity P) q (i_perf I) (heat_unmet x))) B E.
Proof.
  intros K R A. destruct (sized_ok B E K) as (_ & _ & _ & B0 & D). pose proof c_pos. unfold fthermal_output, thermal_output. rewrite (feq_zero _ _ SC).
  destruct (qeq (p_hp_capacity P) 0); cbn [fst].
  - destruct K as (_ & _ & E0 & _). eapply app_weak; [apply app_0 with (B := 0); lra|nra|nra].
  - apply app_min; [apply app_min|].
    + apply heated; assumption.
    + apply loose; [exact K|]. apply (n_heat _ _ _ _ R).
    + destruct K as (HB & _ & E0 & _). eapply app_weak; [apply duty_app; exact HB|lra|nra].
Qed.
Lemma usage_app h q B E : sized B E -> heat_app h q B E -> app (felec_usage F H h) (elec_usage (p_hp_capacity P) q (i_perf I)) B (E + 5 * (u53 * B)).
Proof.
  intros K A. destruct (sized_ok B E K) as (K0 & K1 & _ & B0 & D). destruct K as (HB & K & E0 & _). unfold felec_usage, elec_usage. rewrite (feq_zero _ _ SC).
  destruct (qeq (p_hp_capacity P) 0).
  - eapply app_weak; [apply app_0 with (B := 0); lra|lra|lra].
  - apply app_min.
    + eapply app_weak; [apply to_elec with (E := E + 7 / 2 * (u53 * B)) (2 := SCOP) (3 := c_pos) (4 := A); apply ok_less with (1 := K); lra|lra|lra].
    + eapply app_weak; [apply to_elec with (E := 0) (B := B) (2 := SCOP) (3 := c_pos)|lra|lra].
      * apply ok_less with (1 := K0); lra.
      * eapply app_weak; [apply duty_app; exact HB|fold c; lra|lra].
Qed.

(** ** The battery *)
Lemma cap_app B : N <= B -> app (fb_capacity (fp_battery F)) (b_capacity (p_battery P)) B 0.
Proof. intro HB. apply app_same; [apply SB|lra]. Qed.
Lemma room_app fc x B E : sized B E -> near fc x B E -> app (fsub (fb_capacity (fp_battery F)) (f_soc fc)) (b_capacity (p_battery P) - c_soc x)%Q B (E + 2 * (u53 * B)).
Proof.
  intros K R. destruct (sized_ok B E K) as (K0 & _). destruct K as (HB & _).
  apply gap with (1 := K0) (2 := cap_app B HB) (3 := n_soc _ _ _ _ R) (4 := n_room _ _ _ _ R).
Qed.
Lemma asked_close cm a b e : 0 <= cm -> Rabs (a - b) <= e -> Rabs (asked_in cm a - asked_in cm b) <= e.
Proof. intros C A. apply Rabs_le_inv in A. apply Rabs_le. unfold asked_in, Rmin. rdec; lra. Qed.
Lemma charging_app fc x B E : sized B E -> near fc x B E ->
  exists h, fmax_charging (fp_battery F) (f_RES_left fc) (f_soc fc) = Ok h /\ app h (max_charging (p_battery P) (RES_left x) (c_soc x)) B (E + 5 * (u53 * B)).
Proof.
  intros K R. destruct (sized_ok B E K) as (K0 & _ & _ & B0 & D). pose proof (room_app fc x B E K R) as A. destruct (n_res _ _ _ _ R) as (FR & HR & MR).
  destruct SB as (_ & _ & (FCM & VCM) & _). unfold fmax_charging. cbv zeta.
  assert (X : exists ch, (if fle f0 (f_RES_left fc) && fle (f_RES_left fc) (fb_charge_max (fp_battery F)) then Ok (f_RES_left fc)
      else if fle f0 (f_RES_left fc) && fle (fb_charge_max (fp_battery F)) (f_RES_left fc) then Ok (fb_charge_max (fp_battery F))
      else if fle (f_RES_left fc) f0 then Ok f0 else Err UnboundLocalError) = Ok ch /\ finite ch /\ val ch = asked_in (val (fb_charge_max (fp_battery F))) (val (f_RES_left fc))).
  { set (m := f_RES_left fc) in *. clearbody m. clear R A MR HR. set (cm := fb_charge_max (fp_battery F)) in *. clearbody cm.
    pose proof (fle_spec f0 m finite_f0 FR) as H1. pose proof (fle_spec m _ FR FCM) as H2. pose proof (fle_spec _ m FCM FR) as H3. pose proof (fle_spec m f0 FR finite_f0) as H4.
    rewrite val_f0 in H1, H4. unfold asked_in. destruct (fle f0 m), (fle m cm), (fle cm m), (fle m f0); cbv iota in H1, H2, H3, H4; cbn [andb]; try (exfalso; lra);
      (eexists; split; [reflexivity|]; split; [assumption || reflexivity|]); destruct (Rle_dec 0 (val m)); try (exfalso; lra); rewrite ?val_f0; unfold Rmin; rdec; lra. }
  destruct X as (ch & -> & FC & VC). cbn [bind]. eexists. split; [reflexivity|]. unfold max_charging. cbv zeta. apply app_min.
  - assert (Y : Q2R (if qle 0 (RES_left x) && qle (RES_left x) (b_charge_max (p_battery P)) then RES_left x
      else if qle 0 (RES_left x) && qle (b_charge_max (p_battery P)) (RES_left x) then b_charge_max (p_battery P) else 0) = asked_in (val (fb_charge_max (fp_battery F))) (Q2R (RES_left x))).
    { rewrite <- VCM. rewrite <- VCM in Hcm. set (m := RES_left x). set (cm := b_charge_max (p_battery P)) in *. clear - Hcm.
      pose proof (q2r_le 0 m) as H1. pose proof (q2r_le m cm) as H2. pose proof (q2r_le cm m) as H3. rewrite q2r_0 in H1. unfold asked_in.
      destruct (qle 0 m), (qle m cm), (qle cm m); cbv iota in H1, H2, H3; cbn [andb]; rewrite ?q2r_0; destruct (Rle_dec 0 (Q2R m)); try (exfalso; lra); unfold Rmin; rdec; lra. }
    split; [exact FC|]. rewrite VC, Y. split.
    + apply asked_close; [apply Hcm|lra].
    + destruct K as (HB & _). apply Rabs_le. unfold asked_in, Rmin. rdec; lra.
  - eapply app_weak; [exact A|lra|lra].
Qed.
Lemma shrink a s B : 0 <= s <= 1 -> Rabs a <= B -> Rabs (a * s) <= B.
Proof. intros S1 A. rewrite Rabs_mult, (Rabs_pos_eq s) by lra. pose proof (Rabs_pos a). nra. Qed.
Lemma filling_app fc x B E : sized B E -> near fc x B E ->
  app (fcharge_to_capacity (fp_battery F) (f_soc fc)) (charge_to_capacity (p_battery P) (c_soc x)) (3 * B) (3 * E + 23 / 2 * (u53 * B)).
Proof.
  intros K R. destruct (sized_ok B E K) as (K0 & _ & _ & _ & _). pose proof (room_app fc x B E K R) as (FA & HA & MA). destruct (n_soc _ _ _ _ R) as (FS & HS & MS).
  destruct SB as (_ & _ & (FCM & VCM) & _ & (FCE & VCE) & _ & (FSD & VSD)). destruct K as (HB & K & E0 & _). destruct (ok_facts _ _ K) as (_ & UE' & UB & UU). destruct (ok_facts _ _ K0) as (B0 & UE & _). destruct K0 as (L & (_ & E1) & T).
  unfold fcharge_to_capacity, charge_to_capacity. cbv zeta. set (ch := fsub (fb_capacity (fp_battery F)) (f_soc fc)) in *. set (q := (b_capacity (p_battery P) - c_soc x)%Q) in *.
  assert (L1 : app (fself_loss (fp_battery F) (f_soc fc)) (self_loss (p_battery P) (c_soc x)) B (E + u53 * (B + E))).
  { unfold fself_loss, self_loss. apply app_mul; try assumption; try lra; rewrite VSD.
    - apply shrink; [exact Hsd|assumption].
    - rewrite <- Rmult_minus_distr_r. apply shrink; [exact Hsd|assumption]. }
  assert (L2 : app (fmul ch (fb_charge_eff (fp_battery F))) (q * b_charge_eff (p_battery P))%Q B ((E + 2 * (u53 * B)) + u53 * (B + (E + 2 * (u53 * B))))).
  { apply app_mul; try assumption; try lra; rewrite VCE.
    - apply shrink; [exact Hce|assumption].
    - rewrite <- Rmult_minus_distr_r. apply shrink; [exact Hce|assumption]. }
  destruct L1 as (FL1 & HL1 & ML1). destruct L2 as (FL2 & HL2 & ML2). apply Rabs_le_inv in HL1, ML1, HL2, ML2, HA, MA.
  assert (L3 : app (fadd (fself_loss (fp_battery F) (f_soc fc)) (fmul ch (fb_charge_eff (fp_battery F)))) (self_loss (p_battery P) (c_soc x) + q * b_charge_eff (p_battery P))%Q (2 * B) (2 * E + 62 / 10 * (u53 * B))).
  { eapply app_weak; [apply app_add with (B := 2 * B) (E := 2 * E + 41 / 10 * (u53 * B)); try assumption; try lra; apply Rabs_le; lra|lra|]. lra. }
  destruct L3 as (FL3 & HL3 & ML3). apply Rabs_le_inv in HL3, ML3.
  apply app_min.
  - eapply app_weak; [apply app_add with (B := 3 * B) (E := 3 * E + 83 / 10 * (u53 * B)); try assumption; try lra; apply Rabs_le; lra|lra|]. lra.
  - eapply app_weak; [apply app_same; [split; [exact FCM|exact VCM]|rewrite Rabs_pos_eq by apply Hcm; apply Hcm]|lra|lra].
Qed.

(** ** One process *)
(** How much a sum is off the sum of the floats *)
Lemma add_off x y q r B E : ok B E -> app x q B E -> app y r B (E + 5 * (u53 * B)) -> Rabs (val (fadd x y) - (val x + val y)) <= 5 / 2 * (u53 * B).
Proof.
  intros K (F1 & H1 & M1) (F2 & H2 & M2). facts K. apply Rabs_le_inv in H1, H2, M1, M2.
  assert (M : Rabs (val x + val y) <= 2 * B + (2 * E + 5 * (u53 * B))) by (apply Rabs_le; lra).
  destruct (add_ok x y F1 F2) as (_ & V); [apply rnd_top; lra|]. rewrite V.
  assert (LL : low <= 2 * B + (2 * E + 5 * (u53 * B))) by lra. pose proof (rnd_near _ _ LL M) as R. lra.
Qed.

Ltac mag A := let F0 := fresh in let H0 := fresh "HH" in let M0 := fresh "MM" in
  pose proof A as (F0 & H0 & M0); apply Rabs_le_inv in H0; apply Rabs_le_inv in M0.
Ltac weak := eapply app_weak; [eassumption|lra|lra].
Ltac field_tac K K1 := first
  [ weak
  | eapply app_weak; [eapply upd_sub; [exact K|eassumption|weak]|lra|lra]
  | eapply app_weak; [eapply upd_sub; [exact K1|eassumption|weak]|lra|lra]
  | eapply app_weak; [eapply upd_add; [exact K|eassumption|weak]|lra|lra]
  | eapply app_weak; [eapply upd_add; [exact K1|eassumption|weak]|lra|lra]
  | eapply app_weak; [eapply upd_add; [exact K|eassumption|apply app_neg; weak]|lra|lra]
  | rewrite ?Q2R_plus, ?Q2R_minus, ?Q2R_opp; apply Rabs_le; lra ].
Definition elec_process p := match p with ES_to_demand | Import_to_demand | RES_to_ES | RES_to_export => true | _ => false end.
Definition heat_process p := match p with HP_RES_to_demand | HP_import_to_demand | TS_to_demand | ES_to_HP_to_demand | AUX_to_demand | HP_RES_to_TS => true | _ => false end.
Lemma base_facts B E : sized B E -> 0 <= E /\ 0 < u53 * B /\ 0 < B /\ 0 < c * B /\ 0 <= c * E /\ 0 < c * (u53 * B).
Proof. intro K. destruct (sized_ok B E K) as (_ & _ & _ & B0 & D). destruct K as (_ & _ & E0 & _). pose proof c_pos. repeat split; try assumption; nra. Qed.

Lemma elec_step p h q fc x B E : elec_process p = true -> sized B E -> near fc x B E -> app h q B (E + 5 * (u53 * B)) ->
  near (fupdate p (h, h) fc) (update p (q, q) x) (2 * B) (2 * (E + 4 * (u53 * B))).
Proof.
  intros Hp K R A. destruct (base_facts B E K) as (E0 & D & B0 & CB & CE & CD). destruct (sized_ok B E K) as (K0 & K1 & _). mag A.
  destruct R as [r1 r2 r3 r4 r5 r6 r7 r8 r9 r10 r11 r12 r13]. apply Rabs_le_inv in r4, r10, r11, r12, r13.
  destruct p; try discriminate Hp; constructor; cbn [fupdate update f_elec_unmet f_heat_unmet f_RES_left f_hp_usage f_ts_discharge f_ts_charge f_soc f_aux_left elec_unmet heat_unmet RES_left hp_usage ts_discharge ts_charge c_soc aux_left in_elec_unmet in_heat_unmet in_RES_left in_hp_usage in_ts_discharge in_ts_charge in_aux fst snd]; field_tac K0 K1.
Qed.

Ltac proj_cbn := cbn [fupdate update f_elec_unmet f_heat_unmet f_RES_left f_hp_usage f_ts_discharge f_ts_charge f_soc f_aux_left elec_unmet heat_unmet RES_left hp_usage ts_discharge ts_charge c_soc aux_left in_elec_unmet in_heat_unmet in_RES_left in_hp_usage in_ts_discharge in_ts_charge in_aux fst snd].
Lemma heat_step p h q e r fc x B E : heat_process p = true -> sized B E -> near fc x B E -> app h q (c * B) (c * (E + 7 / 2 * (u53 * B))) ->
  match p with TS_to_demand | AUX_to_demand => True | _ => app e r B (E + 5 * (u53 * B)) end ->
  near (fupdate p (h, e) fc) (update p (q, r) x) (2 * B) (2 * (E + 4 * (u53 * B))).
Proof.
  intros Hp K R A A'. destruct (base_facts B E K) as (E0 & D & B0 & CB & CE & CD). destruct (sized_ok B E K) as (K0 & K1 & _). mag A.
  destruct R as [r1 r2 r3 r4 r5 r6 r7 r8 r9 r10 r11 r12 r13]. apply Rabs_le_inv in r4, r10, r11, r12, r13.
  assert (A5 : app h q (c * B) (c * E + 5 * (u53 * (c * B)))) by weak.
  pose proof (add_off _ _ _ _ _ _ K1 r8 A5) as O1. pose proof (add_off _ _ _ _ _ _ K1 r9 A5) as O2. apply Rabs_le_inv in O1, O2.
  destruct p; try discriminate Hp; try (mag A'); clear A; constructor; proj_cbn; field_tac K0 K1.
Qed.
(** The back-up heater on renewables: heat and electricity one to one *)
Lemma eaux_step p h q fc x B E : (p = EAUX_RES_to_demand \/ p = EAUX_RES_to_TS) -> sized B E -> near fc x B E ->
  app h q (unit_max * B) (unit_max * (E + 7 / 2 * (u53 * B))) ->
  near (fupdate p (h, h) fc) (update p (q, q) x) (2 * k * B) (2 * k * (E + 4 * (u53 * B))).
Proof.
  intros Hp K R A. destruct (base_facts B E K) as (E0 & D & B0 & CB & CE & CD). destruct (sized_ok B E K) as (K0 & K1 & K2 & _). mag A.
  destruct unit_facts as ((U1 & U2) & U3 & U4). pose proof c_pos as C0.
  destruct R as [r1 r2 r3 r4 r5 r6 r7 r8 r9 r10 r11 r12 r13]. apply Rabs_le_inv in r4, r10, r11, r12, r13.
  set (m := unit_max) in *. clearbody m.
  assert (m1 : B <= m * B) by nra. assert (m2 : E <= m * E) by nra. assert (m3 : u53 * B <= m * (u53 * B)) by nra.
  assert (m4 : c * B <= m * B) by nra. assert (m5 : c * E <= m * E) by nra. assert (m6 : c * (u53 * B) <= m * (u53 * B)) by nra.
  assert (m7 : m * B <= k * B) by nra. assert (m8 : m * E <= k * E) by nra. assert (m9 : m * (u53 * B) <= k * (u53 * B)) by nra.
  assert (m10 : m * B <= c * k * B) by nra. assert (m11 : m * E <= c * k * E) by nra. assert (m12 : m * (u53 * B) <= c * k * (u53 * B)) by nra.
  assert (A5 : app h q (m * B) (m * E + 5 * (u53 * (m * B)))) by weak.
  assert (r5' : app (f_heat_unmet fc) (heat_unmet x) (m * B) (m * E)) by weak.
  assert (r6' : app (f_aux_left fc) (aux_left x) (m * B) (m * E)) by weak.
  assert (r2' : app (f_RES_left fc) (RES_left x) (m * B) (m * E)) by weak.
  assert (r9' : app (f_ts_charge fc) (ts_charge x) (m * B) (m * E)) by weak.
  pose proof (add_off _ _ _ _ _ _ K2 r9' A5) as O2. apply Rabs_le_inv in O2.
  destruct Hp; subst p; constructor; proj_cbn;
    (first [ eapply app_weak; [eassumption|lra|lra]
           | eapply app_weak; [eapply upd_sub; [exact K2|eassumption|exact A5]|lra|lra]
           | eapply app_weak; [eapply upd_add; [exact K2|eassumption|exact A5]|lra|lra]
           | rewrite ?Q2R_plus, ?Q2R_minus, ?Q2R_opp; apply Rabs_le; lra ]).
Qed.
Lemma fill_step h q fc x B E : sized B E -> near fc x B E -> app h q (3 * B) (3 * E + 23 / 2 * (u53 * B)) ->
  near (fupdate Import_to_ES (h, h) fc) (update Import_to_ES (q, q) x) (4 * B) (4 * (E + 4 * (u53 * B))).
Proof.
  intros K R A. destruct (base_facts B E K) as (E0 & D & B0 & CB & CE & CD). destruct (sized_ok B E K) as (K0 & K1 & _). mag A.
  destruct (ok_facts _ _ K0) as (_ & UE & UB & UU). destruct K0 as (L & (_ & E1) & T).
  destruct R as [r1 r2 r3 r4 r5 r6 r7 r8 r9 r10 r11 r12 r13]. apply Rabs_le_inv in r4, r10, r11, r12, r13. mag r3.
  constructor; proj_cbn; try weak; try (rewrite ?Q2R_plus; apply Rabs_le; lra).
  eapply app_weak; [apply app_add with (B := 4 * B) (E := 4 * E + 23 / 2 * (u53 * B)); [apply r3|apply A|lra|lra|lra|apply Rabs_le; lra|apply Rabs_le; lra]|lra|lra].
Qed.
Lemma idle_step he q fc x B E : sized B E -> near fc x B E -> near (fupdate RES_to_demand he fc) (update RES_to_demand q x) (1 * B) (1 * (E + 4 * (u53 * B))).
Proof.
  intros K R. destruct (base_facts B E K) as (E0 & D & B0 & CB & CE & CD).
  destruct R as [r1 r2 r3 r4 r5 r6 r7 r8 r9 r10 r11 r12 r13]. constructor; proj_cbn; try weak; lra.
Qed.

Definition after (B E : R) (p : process) : R := weight k p * (E + 4 * (u53 * B)).
Lemma one_process p fc x B E : p <> HP_import_to_TS -> sized B E -> near fc x B E ->
  exists fhe he, famount F H p fc = Ok fhe /\ amount P I t nodes_temp p x = Ok he /\
    near (fupdate p fhe fc) (update p he x) (weight k p * B) (after B E p) /\
    app (fst fhe) (fst he) (k * (weight k p * B)) (k * after B E p) /\ app (snd fhe) (snd he) (k * (weight k p * B)) (k * after B E p).
Proof.
  intros NP K R. destruct (base_facts B E K) as (E0 & D & B0 & CB & CE & CD). destruct unit_facts as ((U1 & U2) & U3 & U4). pose proof c_pos as C0.
  assert (k1 : B <= k * B) by nra. assert (k2 : E <= k * E) by nra. assert (k3 : u53 * B <= k * (u53 * B)) by nra.
  assert (k4 : c * B <= k * B) by nra. assert (k5 : c * E <= k * E) by nra. assert (k6 : c * (u53 * B) <= k * (u53 * B)) by nra.
  assert (Elec : forall p h q, elec_process p = true -> weight k p = 2 -> app h q B (E + 5 * (u53 * B)) ->
    near (fupdate p (h, h) fc) (update p (q, q) x) (weight k p * B) (after B E p) /\
    app (fst (h, h)) (fst (q, q)) (k * (weight k p * B)) (k * after B E p) /\ app (snd (h, h)) (snd (q, q)) (k * (weight k p * B)) (k * after B E p)).
  { intros p0 h q Hp W A. unfold after. rewrite W. split; [apply elec_step; assumption|]. cbn [fst snd].
    assert (app h q (k * (2 * B)) (k * (2 * (E + 4 * (u53 * B))))) by weak. split; assumption. }
  assert (Heat : forall p h q, heat_process p = true -> weight k p = 2 -> app h q (c * B) (c * (E + 7 / 2 * (u53 * B))) ->
    let e := felec_usage F H h in let r := elec_usage (p_hp_capacity P) q (i_perf I) in
    near (fupdate p (h, e) fc) (update p (q, r) x) (weight k p * B) (after B E p) /\
    app (fst (h, e)) (fst (q, r)) (k * (weight k p * B)) (k * after B E p) /\ app (snd (h, e)) (snd (q, r)) (k * (weight k p * B)) (k * after B E p)).
  { intros p0 h q Hp W A. cbv zeta. pose proof (usage_app h q B E K A) as A'. unfold after. rewrite W.
    split; [apply heat_step; try assumption; destruct p0; trivial|]. cbn [fst snd]. split; weak. }
  assert (Plain : forall p h q, (p = TS_to_demand \/ p = AUX_to_demand) -> app h q (c * B) (c * (E + 7 / 2 * (u53 * B))) ->
    near (fupdate p (h, h) fc) (update p (q, q) x) (weight k p * B) (after B E p) /\
    app (fst (h, h)) (fst (q, q)) (k * (weight k p * B)) (k * after B E p) /\ app (snd (h, h)) (snd (q, q)) (k * (weight k p * B)) (k * after B E p)).
  { intros p0 h q Hp A. assert (W : weight k p0 = 2) by (destruct Hp; subst; reflexivity). unfold after. rewrite W.
    split; [apply heat_step; try assumption; destruct Hp; subst; trivial|]. cbn [fst snd]. assert (app h q (k * (2 * B)) (k * (2 * (E + 4 * (u53 * B))))) by weak. split; assumption. }
  assert (Eaux : forall p h q, (p = EAUX_RES_to_demand \/ p = EAUX_RES_to_TS) -> app h q (unit_max * B) (unit_max * (E + 7 / 2 * (u53 * B))) ->
    near (fupdate p (h, h) fc) (update p (q, q) x) (weight k p * B) (after B E p) /\
    app (fst (h, h)) (fst (q, q)) (k * (weight k p * B)) (k * after B E p) /\ app (snd (h, h)) (snd (q, q)) (k * (weight k p * B)) (k * after B E p)).
  { intros p0 h q Hp A. assert (W : weight k p0 = 2 * k) by (destruct Hp; subst; reflexivity). unfold after. rewrite W.
    split; [apply eaux_step; assumption|]. cbn [fst snd].
    assert (app h q (k * (2 * k * B)) (k * (2 * k * (E + 4 * (u53 * B))))).
    { apply app_weak with (1 := A).
      - apply Rle_trans with (k * B); [nra|]. nra.
      - apply Rle_trans with (k * (E + 4 * (u53 * B))); [nra|]. assert (0 <= E + 4 * (u53 * B)) by lra. assert (1 <= 2 * k) by lra.
        replace (k * (2 * k * (E + 4 * (u53 * B)))) with ((2 * k) * (k * (E + 4 * (u53 * B)))) by ring.
        assert (0 <= k * (E + 4 * (u53 * B))) by (apply Rmult_le_pos; lra). nra. }
    split; assumption. }
  assert (m1 : B <= unit_max * B) by nra. assert (m2 : E <= unit_max * E) by nra. assert (m3 : u53 * B <= unit_max * (u53 * B)) by nra.
  assert (m4 : c * B <= unit_max * B) by nra. assert (m5 : c * E <= unit_max * E) by nra. assert (m6 : c * (u53 * B) <= unit_max * (u53 * B)) by nra.
  assert (Z1 : app f0 0 (unit_max * B) (unit_max * (E + 7 / 2 * (u53 * B)))) by (eapply app_weak; [apply app_0 with (B := 0); lra|lra|lra]).
  assert (Z2 : app f0 0 (c * B) (c * (E + 7 / 2 * (u53 * B)))) by (eapply app_weak; [apply app_0 with (B := 0); lra|lra|lra]).
  pose proof R as [r1 r2 r3 r4 r5 r6 r7 r8 r9 r10 r11 r12 r13].
  pose proof (spare_app fc x B E K R) as Sp. pose proof (leftc_app fc x B E K R) as Lc. pose proof (leftd_app fc x B E K R) as Ld.
  assert (Fuel : fp_electric F = is_electric P).
  { unfold is_electric. destruct (fp_electric F) eqn:Ef.
    - rewrite (proj1 SF eq_refl). reflexivity.
    - destruct (a_fuel (p_aux P)) eqn:Ea; try reflexivity. exfalso. destruct SF as (_ & X). discriminate (X eq_refl). }
  destruct p; try congruence; unfold famount, amount; cbv zeta.
  - eexists. eexists. split; [reflexivity|]. split; [reflexivity|]. split; [apply idle_step; assumption|]. cbn [fst snd].
    assert (app f0 0 (k * (weight k RES_to_demand * B)) (k * after B E RES_to_demand)). { unfold after. cbn [weight]. eapply app_weak; [apply app_0 with (B := 0); lra|lra|lra]. } split; assumption.
  - eexists. eexists. split; [reflexivity|]. split; [reflexivity|]. apply Elec; try reflexivity. apply app_min; weak.
  - eexists. eexists. split; [reflexivity|]. split; [reflexivity|]. apply Elec; try reflexivity. weak.
  - eexists. eexists. split; [reflexivity|]. split; [reflexivity|]. apply Heat; try reflexivity. apply app_min; [apply thermal_app; assumption|exact Sp].
  - rewrite Fuel. destruct (is_electric P); (eexists; eexists; split; [reflexivity|]; split; [reflexivity|]); apply Eaux; try (left; reflexivity); try exact Z1.
    apply app_min; [apply app_min|]; weak.
  - rewrite MD. cbn [bind]. eexists. eexists. split; [reflexivity|]. split; [reflexivity|]. apply Plain; [left; reflexivity|]. apply app_min; [weak|exact Ld].
  - eexists. eexists. split; [reflexivity|]. split; [reflexivity|]. apply Heat; try reflexivity. apply app_min; [apply thermal_app; assumption|exact Sp].
  - rewrite (feq_zero _ _ SC). eexists. eexists. split; [reflexivity|]. split; [reflexivity|]. apply Heat; try reflexivity.
    destruct (qeq (p_hp_capacity P) 0); [exact Z2|]. apply app_min; [weak|exact Sp].
  - eexists. eexists. split; [reflexivity|]. split; [reflexivity|]. apply Plain; [right; reflexivity|]. weak.
  - rewrite MC. cbn [bind]. eexists. eexists. split; [reflexivity|]. split; [reflexivity|]. apply Heat; try reflexivity. apply app_min; [apply app_min; [exact Sp|apply heated; assumption]|exact Lc].
  - rewrite Fuel, MC. cbn [bind]. destruct (is_electric P); (eexists; eexists; split; [reflexivity|]; split; [reflexivity|]); apply Eaux; try (right; reflexivity); try exact Z1.
    apply app_min; [apply app_min|]; weak.
  - destruct (charging_app fc x B E K R) as (h & -> & A). cbn [bind]. eexists. eexists. split; [reflexivity|]. split; [reflexivity|]. apply Elec; try reflexivity. exact A.
  - pose proof (filling_app fc x B E K R) as A. eexists. eexists. split; [reflexivity|]. split; [reflexivity|]. unfold after. cbn [weight fst snd]. split; [apply fill_step; assumption|].
    split; weak.
  - eexists. eexists. split; [reflexivity|]. split; [reflexivity|]. apply Elec; try reflexivity. weak.
Qed.

(** ** The records *)
Definition records (fr : ffields) (r : fields) (X D : R) : Prop := forall f, flow f = true -> app (fr f) (r f) X D.
Lemma records_upd fr r X D f v q : records fr r X D -> app v q X D -> records (fupd fr f v) (upd r f q) X D.
Proof. intros R A g G. unfold fupd, upd. destruct (field_eqb f g); [exact A|apply R, G]. Qed.
Lemma records_write p fhe he fr r X D : records fr r X D -> app (fst fhe) (fst he) X D -> app (snd fhe) (snd he) X D -> records (fwrite p fhe fr) (write p he r) X D.
Proof. intros R A B. destruct p; cbn [fwrite write]; repeat (apply records_upd; [|assumption]); exact R. Qed.
Lemma records_weak fr r X D X' D' : records fr r X D -> X <= X' -> D <= D' -> records fr r X' D'.
Proof. intros R A B f G. apply app_weak with (1 := R f G); assumption. Qed.

Lemma weight_range p : 1 <= weight k p <= 2048.
Proof. destruct p; cbn [weight]; lra. Qed.
Lemma growth_pos ps : 1 <= growth k ps.
Proof. induction ps as [|p ps IH]; cbn [growth]; [lra|]. pose proof (weight_range p). nra. Qed.
Lemma sized_intro B E a : N <= B -> B <= bpow radix2 1000 -> 0 <= E <= a * (u53 * B) -> a <= 996 -> sized B E.
Proof.
  intros HB HT HE Ha. destruct unit_facts as ((U1 & U2) & _). pose proof c_pos as C0. pose proof u53_pos as (P0 & P1).
  assert (D : 0 < u53 * B <= B / 1000000) by (split; nra). assert (T : 2 ^ 22 * B <= top).
  { replace top with (2 ^ 22 * bpow radix2 1000); [nra|]. unfold top. replace 1022%Z with (22 + 1000)%Z by reflexivity. rewrite bpow_plus. f_equal. cbn. lra. }
  replace (2 ^ 22) with 4194304 in T by lra.
  assert (L : low <= / 1024).
  { unfold low. apply Rle_trans with (bpow radix2 (-10)); [apply bpow_le; discriminate|]. cbn. lra. }
  assert (E4 : 0 <= E + 4 * (u53 * B) <= B / 1000). { split; [lra|]. assert (a * (u53 * B) <= 996 * (u53 * B)) by (apply Rmult_le_compat_r; lra). lra. }
  assert (Cb : / 1024 <= c). { apply Rle_trans with (/ k); [apply Rinv_le; lra|lra]. }
  assert (G : forall m, / 1024 <= m <= 1024 -> ok (m * B) (m * (E + 4 * (u53 * B)))).
  { intros m Hm. repeat split; nra. }
  split; [exact HB|]. split; [pose proof (G 1 ltac:(lra)) as X; rewrite !Rmult_1_l in X; exact X|]. split; [lra|]. split; apply G; lra.
Qed.

Lemma run_processes ps : Forall (fun p => p <> HP_import_to_TS) ps -> forall fc x fr r B E a,
  N <= B -> 2048 ^ length ps * B <= bpow radix2 1000 -> 0 <= E <= a * (u53 * B) -> 0 <= a -> a + 4 * INR (length ps) <= 996 ->
  near fc x B E -> records fr r (k * B) (k * E) ->
  exists fc' x' fr' r', foldM (frun_process F H) ps (fc, fr) = Ok (fc', fr') /\ foldM (run_process P I t nodes_temp) ps (x, r) = Ok (x', r') /\
    near fc' x' (growth k ps * B) (growth k ps * (E + 4 * INR (length ps) * (u53 * B))) /\
    records fr' r' (k * (growth k ps * B)) (k * (growth k ps * (E + 4 * INR (length ps) * (u53 * B)))).
Proof.
  intro NP. induction NP as [|p ps Hp NP IH]; intros fc x fr r B E a HB HT HE A0 Ha R W.
  - exists fc, x, fr, r. cbn [foldM growth length INR]. rewrite !Rmult_1_l. replace (E + 4 * 0 * (u53 * B)) with E by ring. split; [reflexivity|]. split; [reflexivity|]. split; [exact R|exact W].
  - cbn [length] in HT, Ha. rewrite S_INR in Ha. pose proof (pos_INR (length ps)) as L0. pose proof (weight_range p) as (W1 & W2). pose proof u53_pos as (P0 & P1).
    assert (B0 : 0 < B) by lra. assert (D : 0 < u53 * B) by nra.
    assert (T1 : 1 <= 2048 ^ length ps) by (apply pow_R1_Rle; lra).
    assert (K : sized B E). { apply sized_intro with a; try assumption; [|lra]. apply Rle_trans with (2 := HT). cbn [pow]. nra. }
    destruct (one_process p fc x B E Hp K R) as (fhe & he & F1 & F2 & R' & A1 & A2).
    cbn [foldM]. unfold frun_process at 1, run_process at 1. rewrite F1, F2. cbn [bind].
    destruct (IH (fupdate p fhe fc) (update p he x) (fwrite p fhe fr) (write p he r) (weight k p * B) (after B E p) (a + 4)) as (fc' & x' & fr' & r' & G1 & G2 & G3 & G4).
    + nra.
    + apply Rle_trans with (2 := HT). cbn [pow]. assert (2048 ^ length ps * weight k p * B <= 2048 ^ length ps * 2048 * B); [|nra].
      apply Rmult_le_compat_r; [lra|]. apply Rmult_le_compat_l; lra.
    + unfold after. split; [nra|]. replace ((a + 4) * (u53 * (weight k p * B))) with (weight k p * (a * (u53 * B) + 4 * (u53 * B))) by ring. apply Rmult_le_compat_l; lra.
    + lra.
    + lra.
    + exact R'.
    + apply records_write; [|exact A1|exact A2]. apply records_weak with (1 := W).
      * apply Rmult_le_compat_l; [lra|]. nra.
      * apply Rmult_le_compat_l; [lra|]. unfold after. nra.
    + exists fc', x', fr', r'. split; [exact G1|]. split; [exact G2|]. cbn [growth length]. rewrite S_INR.
      replace (weight k p * growth k ps * B) with (growth k ps * (weight k p * B)) by ring.
      replace (weight k p * growth k ps * (E + 4 * (INR (length ps) + 1) * (u53 * B))) with (growth k ps * (after B E p + 4 * INR (length ps) * (u53 * (weight k p * B)))) by (unfold after; ring).
      split; assumption.
Qed.
End STEP.

(** ** The start of the hour *)
Lemma frun_order_processes F H key order ps cr : mapM key order = Ok ps -> frun_order F H key order cr = foldM (frun_process F H) ps cr.
Proof.
  unfold frun_order. revert ps cr. induction order as [|n order IH]; intros ps cr M; cbn [mapM] in M.
  - injection M as <-. reflexivity.
  - destruct (key n) as [p|] eqn:K; cbn [bind] in M; [|discriminate].
    destruct (mapM key order) as [ps'|] eqn:M'; cbn [bind] in M; [|discriminate].
    injection M as <-. cbn [foldM]. unfold frun_number at 1. rewrite K. cbn [bind].
    destruct (frun_process F H cr p); cbn [bind]; [apply IH; reflexivity|reflexivity].
Qed.
Lemma generation_app I H N : same_number (i_wind I) (fi_wind H) -> same_number (i_PV I) (fi_PV H) -> 1 <= N <= bpow radix2 800 ->
  Rabs (val (fi_wind H)) + Rabs (val (fi_PV H)) <= N -> app (fgeneration H) (i_wind I + i_PV I)%Q N (u53 * N).
Proof.
  intros (F1 & V1) (F2 & V2) HN S1. apply app_weak with N (0 + u53 * (N + 0)); [|lra|lra]. apply app_add; try assumption.
  - apply Rle_trans with (bpow radix2 0); [apply bpow_le; discriminate|cbn; lra].
  - lra.
  - rewrite Rplus_0_r. apply Rle_trans with (1 := proj2 HN). apply bpow_le. discriminate.
  - rewrite V1, V2. apply Rle_trans with (1 := Rabs_triang _ _). exact S1.
  - rewrite V1, V2, Rminus_diag_eq, Rabs_R0 by reflexivity. lra.
Qed.
Lemma match_app I H N : same_hour I H -> 1 <= N <= bpow radix2 800 ->
  Rabs (val (fi_wind H)) + Rabs (val (fi_PV H)) + Rabs (val (fi_elec_demand H)) <= N ->
  app (fmatch H) (i_wind I + i_PV I - i_elec_demand I)%Q N (3 * (u53 * N)).
Proof.
  intros (S1 & S2 & (F3 & V3) & _) HN S. pose proof u53_pos as (U0 & U1). pose proof (Rabs_pos (val (fi_elec_demand H))).
  destruct (generation_app I H N S1 S2 HN ltac:(lra)) as (FG & HG & MG). assert (D : 0 < u53 * N <= N / 1000000) by (split; nra).
  apply app_weak with N (u53 * N + u53 * (N + u53 * N)); [|lra|assert (u53 * (u53 * N) <= u53 * N) by nra; lra].
  apply app_sub; try assumption.
  - apply Rle_trans with (bpow radix2 0); [apply bpow_le; discriminate|cbn; lra].
  - lra.
  - apply Rle_trans with (2 * bpow radix2 800); [lra|]. change 2 with (bpow radix2 1). rewrite <- bpow_plus. apply bpow_le. discriminate.
  - rewrite V3, Q2R_plus. destruct S1 as (_ & ->), S2 as (_ & ->). apply Rle_trans with (1 := Rabs_triang _ _). rewrite Rabs_Ropp. pose proof (Rabs_triang (val (fi_wind H)) (val (fi_PV H))). lra.
  - rewrite V3. replace (val (fgeneration H) - val (fi_elec_demand H) - (Q2R (i_wind I + i_PV I) - val (fi_elec_demand H))) with (val (fgeneration H) - Q2R (i_wind I + i_PV I)) by ring. exact HG.
Qed.
Lemma balance_app I H N : same_hour I H -> 1 <= N <= bpow radix2 800 ->
  Rabs (val (fi_wind H)) + Rabs (val (fi_PV H)) + Rabs (val (fi_elec_demand H)) <= N ->
  let bal := surplus_deficit_hour (i_wind I + i_PV I) (i_elec_demand I) in
  app (fdeficit H) (bal_deficit bal) N (3 * (u53 * N)) /\ app (fsurplus H) (bal_surplus bal) N (3 * (u53 * N)).
Proof.
  intros SH HN S. pose proof (match_app I H N SH HN S) as (F & E & M). pose proof u53_pos as (U0 & _). assert (D : 0 < u53 * N) by nra.
  cbv zeta. unfold surplus_deficit_hour, fdeficit, fsurplus. cbv zeta. set (m := fmatch H) in *. set (q := (i_wind I + i_PV I - i_elec_demand I)%Q) in *.
  pose proof (fle_spec m f0 F finite_f0) as C1. pose proof (q2r_le q 0) as C2. rewrite val_f0 in C1. rewrite q2r_0 in C2.
  destruct (neg_ok m F) as (FN & VN). apply Rabs_le_inv in E, M. clearbody m q. clear SH S.
  destruct (fle m f0), (qle q 0); cbv iota in C1, C2; cbn [bal_deficit bal_surplus]; split;
    (split; [first [assumption|exact finite_f0]|]); rewrite ?VN, ?val_f0, ?q2r_0;
    repeat (rewrite ?Q2R_mult, ?Q2R_opp); rewrite ?RMicromega.Q2R_1; split; apply Rabs_le; lra.
Qed.
