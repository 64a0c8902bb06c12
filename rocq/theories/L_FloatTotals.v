(** Lemmas about the totals and accounts of an hour in floating point: how errors pass through sums, products and quotients. *)
From Coq Require Import ZArith Reals Qreals.
From Flocq Require Import Core IEEE754.BinarySingleNaN.
From Verif Require Import Base BaseL M_Battery M_HeatPump M_Tools M_FixedOrder M_Float M_FloatHour S_Float S_FloatHour L_Float L_FloatBattery L_FloatHour.
From Coq Require Import Lra Psatz.
Local Open Scope R_scope.

Section SUMS.
Variables X D : R.
Hypothesis X1 : 1 <= X.
Hypothesis XT : X <= bpow radix2 975.
Hypothesis D0 : 0 <= D <= X / 1000.

(** [x] is the result of [m] operations on quantities of size [s * X] with errors [s * D]. *)
Definition aps (s m : R) (x : double) (q : Q) : Prop := app x q (s * (m * X)) (s * (m * (D + 2 * m * (u53 * X)))).
(** Scales and numbers of operations that are far from overflow *)
Definition scale_ok (s : R) : Prop := bpow radix2 (-20) <= s <= bpow radix2 40.
Definition count_ok (m : R) : Prop := 1 <= m <= 32.

Lemma ux : 0 < u53 * X <= X / 1000000 /\ 0 < u53.
Proof. clear D0 XT. pose proof u53_pos as (U0 & U1). split; [|exact U0]. split; [apply Rmult_lt_0_compat; lra|]. nra. Qed.
Lemma scale_pos s : scale_ok s -> 0 < s.
Proof. intros (A & _). pose proof (bpow_gt_0 radix2 (-20)). lra. Qed.
Lemma sized_mX s m : scale_ok s -> count_ok m -> low <= s * (m * X) /\ s * (m * X) <= bpow radix2 1020.
Proof.
  intros S0 (M1 & M2). pose proof (scale_pos s S0) as Sp. destruct S0 as (S1 & S2). split.
  - apply Rle_trans with (bpow radix2 (-20) * 1).
    + rewrite Rmult_1_r. apply bpow_le. discriminate.
    + apply Rmult_le_compat; [apply bpow_ge_0|lra|exact S1|]. clear - M1 X1. nra.
  - apply Rle_trans with (bpow radix2 40 * (32 * bpow radix2 975)).
    + apply Rmult_le_compat; [lra| |exact S2|]; [clear - M1 X1; nra|]. apply Rmult_le_compat; lra.
    + change 32 with (bpow radix2 5). rewrite <- !bpow_plus. apply bpow_le. discriminate.
Qed.
(** The error is small beside the quantity. *)
Lemma err_small s m : scale_ok s -> count_ok m -> 0 <= s * (m * (D + 2 * m * (u53 * X))) <= s * (m * X) / 100.
Proof.
  intros S0 (M1 & M2). pose proof (scale_pos s S0) as Sp. destruct ux as ((U1 & U2) & _).
  assert (A : 0 <= D + 2 * m * (u53 * X) <= X / 100) by (clear - M1 M2 U1 U2 D0 X1; split; nra).
  assert (B : 0 <= m * (D + 2 * m * (u53 * X)) <= m * X / 100) by (clear - A M1; split; nra).
  clear - B Sp. set (e := m * (D + _)) in *. set (b := m * X) in *. split; nra.
Qed.
(** One rounding of a result of size [B] with an error of [E] *)
Lemma one_rounding s m : scale_ok s -> count_ok m -> low <= s * (m * X) /\ 0 <= s * (m * (D + 2 * m * (u53 * X))) /\ s * (m * X) + s * (m * (D + 2 * m * (u53 * X))) <= top /\
  u53 * (s * (m * X) + s * (m * (D + 2 * m * (u53 * X)))) <= s * (m * (2 * (u53 * X))).
Proof.
  intros S0 M. destruct (sized_mX s m S0 M) as (A & B). destruct (err_small s m S0 M) as (C1 & C2). destruct ux as (_ & U). pose proof (scale_pos s S0) as Sp.
  split; [exact A|]. split; [exact C1|]. assert (Z : 0 <= s * (m * X)) by (pose proof low_pos; lra). split.
  - apply Rle_trans with (4 * bpow radix2 1020); [lra|]. change 4 with (bpow radix2 2). rewrite <- bpow_plus. apply bpow_le. discriminate.
  - replace (s * (m * (2 * (u53 * X)))) with (u53 * (2 * (s * (m * X)))) by ring. apply Rmult_le_compat_l; lra.
Qed.
Lemma aps_intro s x q : 0 < s -> app x q (s * X) (s * D) -> aps s 1 x q.
Proof.
  intros S0 A. destruct ux as ((U & _) & _). eapply app_weak; [exact A|lra|]. apply Rmult_le_compat_l; lra.
Qed.
Lemma aps_more s m m' x q : 0 < s -> 0 <= m <= m' -> aps s m x q -> aps s m' x q.
Proof.
  intros S0 M A. destruct ux as ((U & _) & _). eapply app_weak; [exact A| |]; apply Rmult_le_compat_l; try lra; clear - M U X1 D0; [nra|].
  apply Rmult_le_compat; nra.
Qed.
Lemma aps_exact s x q : 0 < s -> same_number q x -> Rabs (val x) <= s * X -> aps s 1 x q.
Proof. intros S0 A B. apply aps_intro; [exact S0|]. eapply app_weak; [apply app_same with (1 := A); exact B|lra|]. clear - S0 D0. nra. Qed.
Lemma combined s a b : scale_ok s -> count_ok a -> count_ok b -> count_ok (a + b) ->
  let E0 := s * (a * (D + 2 * a * (u53 * X))) + s * (b * (D + 2 * b * (u53 * X))) in
  low <= s * ((a + b) * X) /\ 0 <= E0 /\ s * ((a + b) * X) + E0 <= top /\ E0 + u53 * (s * ((a + b) * X) + E0) <= s * ((a + b) * (D + 2 * (a + b) * (u53 * X))).
Proof.
  intros S0 A B C E0. destruct (one_rounding s (a + b) S0 C) as (L & _ & T & R). destruct (err_small s a S0 A) as (P1 & _). destruct (err_small s b S0 B) as (P2 & _).
  assert (Z : E0 + s * ((a + b) * (2 * (u53 * X))) <= s * ((a + b) * (D + 2 * (a + b) * (u53 * X)))).
  { destruct ux as ((U & _) & _). pose proof (scale_pos s S0) as Sp.
    replace (s * ((a + b) * (D + 2 * (a + b) * (u53 * X)))) with (E0 + s * (4 * (a * b) * (u53 * X))) by (unfold E0; ring).
    apply Rplus_le_compat_l, Rmult_le_compat_l; [lra|]. destruct A as (A & _), B as (B & _). clear - A B U. assert (a + b <= 2 * (a * b)) by nra. nra. }
  assert (Ez : E0 <= s * ((a + b) * (D + 2 * (a + b) * (u53 * X)))).
  { destruct ux as ((U & _) & _). pose proof (scale_pos s S0) as Sp. assert (0 <= s * ((a + b) * (2 * (u53 * X)))); [|lra]. destruct C as (C & _). apply Rmult_le_pos; [lra|]. apply Rmult_le_pos; lra. }
  split; [exact L|]. split; [unfold E0; lra|]. split; [lra|]. eapply Rle_trans; [|exact Z]. apply Rplus_le_compat_l. eapply Rle_trans; [|exact R].
  apply Rmult_le_compat_l; [destruct ux; lra|]. lra.
Qed.
Lemma aps_add s a b x y q r : scale_ok s -> count_ok a -> count_ok b -> count_ok (a + b) -> aps s a x q -> aps s b y r -> aps s (a + b) (fadd x y) (q + r)%Q.
Proof.
  intros S0 A B C (F1 & E1 & M1) (F2 & E2 & M2). destruct (combined s a b S0 A B C) as (L & E0 & T & R). cbv zeta in *.
  eapply app_weak; [apply app_add with (B := s * ((a + b) * X)) (1 := F1) (2 := F2) (3 := L) (4 := E0) (5 := T)|lra|exact R].
  - apply Rle_trans with (1 := Rabs_triang _ _). lra.
  - replace (val x + val y - (Q2R q + Q2R r)) with ((val x - Q2R q) + (val y - Q2R r)) by ring. apply Rle_trans with (1 := Rabs_triang _ _). lra.
Qed.
Lemma aps_sub s a b x y q r : scale_ok s -> count_ok a -> count_ok b -> count_ok (a + b) -> aps s a x q -> aps s b y r -> aps s (a + b) (fsub x y) (q - r)%Q.
Proof.
  intros S0 A B C (F1 & E1 & M1) (F2 & E2 & M2). destruct (combined s a b S0 A B C) as (L & E0 & T & R). cbv zeta in *.
  eapply app_weak; [apply app_sub with (B := s * ((a + b) * X)) (1 := F1) (2 := F2) (3 := L) (4 := E0) (5 := T)|lra|exact R].
  - apply Rle_trans with (1 := Rabs_triang _ _). rewrite Rabs_Ropp. lra.
  - replace (val x - val y - (Q2R q - Q2R r)) with ((val x - Q2R q) + - (val y - Q2R r)) by ring. apply Rle_trans with (1 := Rabs_triang _ _). rewrite Rabs_Ropp. lra.
Qed.
(** A product with an exact number of at most [c] *)
Lemma rescaled s c a : scale_ok (s * c) -> 0 < c -> count_ok (a + 1) -> 1 <= a ->
  let E0 := c * (s * (a * (D + 2 * a * (u53 * X)))) in
  low <= s * c * ((a + 1) * X) /\ 0 <= E0 /\ s * c * ((a + 1) * X) + E0 <= top /\ E0 + u53 * (s * c * ((a + 1) * X) + E0) <= s * c * ((a + 1) * (D + 2 * (a + 1) * (u53 * X))).
Proof.
  intros S0 C0 C A E0. assert (Ca : count_ok a) by (destruct C; split; lra).
  destruct (one_rounding (s * c) (a + 1) S0 C) as (L & P0 & T & R). destruct (err_small (s * c) a S0 Ca) as (P1 & _).
  assert (EE : E0 = s * c * (a * (D + 2 * a * (u53 * X)))) by (unfold E0; ring). pose proof (scale_pos _ S0) as Sp. destruct ux as ((U & _) & U0).
  assert (Z : E0 + s * c * ((a + 1) * (2 * (u53 * X))) <= s * c * ((a + 1) * (D + 2 * (a + 1) * (u53 * X)))).
  { replace (s * c * ((a + 1) * (D + 2 * (a + 1) * (u53 * X)))) with (E0 + s * c * (D + (4 * a + 2) * (u53 * X))) by (rewrite EE; ring).
    apply Rplus_le_compat_l, Rmult_le_compat_l; [lra|]. clear - A U D0. nra. }
  assert (Ez : 0 <= s * c * ((a + 1) * (2 * (u53 * X)))) by (apply Rmult_le_pos; [lra|]; apply Rmult_le_pos; lra).
  split; [exact L|]. split; [lra|]. split; [lra|]. eapply Rle_trans; [|exact Z]. apply Rplus_le_compat_l. eapply Rle_trans; [|exact R].
  apply Rmult_le_compat_l; lra.
Qed.
Lemma aps_mul s c a x y q r : 0 < s -> scale_ok (s * c) -> 0 < c -> count_ok (a + 1) -> 1 <= a -> aps s a x q -> same_number r y -> Rabs (val y) <= c -> aps (s * c) (a + 1) (fmul x y) (q * r)%Q.
Proof.
  intros Sp S0 C0 C A (F1 & E1 & M1) (F2 & V) B. destruct (rescaled s c a S0 C0 C A) as (L & E0 & T & R). cbv zeta in *.
  eapply app_weak; [apply app_mul with (B := s * c * ((a + 1) * X)) (1 := F1) (2 := F2) (3 := L) (4 := E0) (5 := T)|lra|exact R].
  - rewrite V, Rabs_mult. apply Rle_trans with (s * (a * X) * c); [apply Rmult_le_compat; try apply Rabs_pos; assumption|]. replace (s * c * ((a + 1) * X)) with (s * (a * X) * c + s * c * X) by ring. assert (0 <= s * c * X) by (apply Rmult_le_pos; [apply Rmult_le_pos; lra|lra]). lra.
  - rewrite V. replace (val x * val y - Q2R q * val y) with (val y * (val x - Q2R q)) by ring. rewrite Rabs_mult. apply Rmult_le_compat; try apply Rabs_pos; assumption.
Qed.
Lemma aps_mul_l s c a x y q r : 0 < s -> scale_ok (s * c) -> 0 < c -> count_ok (a + 1) -> 1 <= a -> aps s a x q -> same_number r y -> Rabs (val y) <= c -> aps (s * c) (a + 1) (fmul y x) (r * q)%Q.
Proof.
  intros Sp S0 C0 C A (F1 & E1 & M1) (F2 & V) B. destruct (rescaled s c a S0 C0 C A) as (L & E0 & T & R). cbv zeta in *.
  eapply app_weak; [apply app_mul with (B := s * c * ((a + 1) * X)) (1 := F2) (2 := F1) (3 := L) (4 := E0) (5 := T)|lra|exact R].
  - rewrite V, Rabs_mult. apply Rle_trans with (c * (s * (a * X))); [apply Rmult_le_compat; try apply Rabs_pos; assumption|]. replace (s * c * ((a + 1) * X)) with (c * (s * (a * X)) + s * c * X) by ring. assert (0 <= s * c * X) by (apply Rmult_le_pos; [apply Rmult_le_pos; lra|lra]). lra.
  - rewrite V. replace (val y * val x - val y * Q2R q) with (val y * (val x - Q2R q)) by ring. rewrite Rabs_mult. apply Rmult_le_compat; try apply Rabs_pos; assumption.
Qed.
(** A quotient by an exact number of at least [/ c] *)
Lemma aps_div s c a x y q r : 0 < s -> scale_ok (s * c) -> 0 < c -> count_ok (a + 1) -> 1 <= a -> aps s a x q -> same_number r y -> / c <= val y -> aps (s * c) (a + 1) (fdiv x y) (q / r)%Q.
Proof.
  intros Sp S0 C0 C A (F1 & E1 & M1) (F2 & V) B. destruct (rescaled s c a S0 C0 C A) as (L & E0 & T & R). cbv zeta in *.
  assert (Y0 : 0 < val y) by (pose proof (Rinv_0_lt_compat c C0); lra). assert (Yc : 0 < / val y <= c).
  { split; [apply Rinv_0_lt_compat, Y0|]. rewrite <- (Rinv_inv c). apply Rinv_le; [apply Rinv_0_lt_compat, C0|exact B]. }
  eapply app_weak; [apply app_div with (B := s * c * ((a + 1) * X)) (1 := F1) (4 := L) (5 := E0) (6 := T); rewrite ?V; try lra|lra|exact R].
  - unfold Rdiv. rewrite Rabs_mult, (Rabs_pos_eq (/ val y)) by lra. apply Rle_trans with (s * (a * X) * c); [apply Rmult_le_compat; try apply Rabs_pos; lra|]. replace (s * c * ((a + 1) * X)) with (s * (a * X) * c + s * c * X) by ring. assert (0 <= s * c * X) by (apply Rmult_le_pos; [apply Rmult_le_pos; lra|lra]). lra.
  - replace (val x / val y - Q2R q / val y) with (/ val y * (val x - Q2R q)) by (unfold Rdiv; ring). rewrite Rabs_mult, (Rabs_pos_eq (/ val y)) by lra. apply Rmult_le_compat; try apply Rabs_pos; lra.
Qed.
(** What remains: with errors of at least three roundings, a quantity made of [m] operations is off by no more than [g] errors. *)
Lemma aps_error s m x q g : 0 < s -> 0 <= m -> 3 * (u53 * X) <= D -> m * (1 + 2 * m / 3) <= g -> aps s m x q -> finite x /\ Rabs (val x - Q2R q) <= g * (s * D).
Proof.
  intros S0 M U G (F & E & _). split; [exact F|]. apply Rle_trans with (1 := E). destruct ux as ((U0 & _) & _).
  assert (A : m * (D + 2 * m * (u53 * X)) <= m * (1 + 2 * m / 3) * D) by (clear - M U U0; nra).
  assert (B : m * (1 + 2 * m / 3) * D <= g * D) by (apply Rmult_le_compat_r; lra).
  replace (g * (s * D)) with (s * (g * D)) by ring. apply Rmult_le_compat_l; lra.
Qed.
End SUMS.

(** ** The battery level after an hour *)
Lemma exact_is_real_q e b m s : same_battery e b -> entered b -> 0 <= val (fb_discharge_max b) -> 0 <= Q2R s ->
  Q2R (new_soc e m s) = exact_step (val (fb_capacity b)) (val (fb_charge_max b)) (val (fb_discharge_max b)) (val (fb_discharge_eff b)) (val (fb_self_discharge b)) (Q2R m) (Q2R s).
Proof.
  intros ((_ & H1) & _ & (_ & H2) & (_ & H3) & _ & (_ & H4) & (_ & H5)) (_ & C0 & _) D0 S0.
  unfold new_soc. cbv zeta. set (v := (s + max_charging e m s + max_discharging e m s - self_loss e s)%Q).
  assert (V : Q2R v = Q2R s + Rmin (asked_in (val (fb_charge_max b)) (Q2R m)) (val (fb_capacity b) - Q2R s) + asked_out (val (fb_discharge_max b)) (Q2R m * val (fb_discharge_eff b)) - Q2R s * val (fb_self_discharge b)).
  { unfold v. rewrite Q2R_minus, !Q2R_plus. unfold self_loss. rewrite Q2R_mult, H5. f_equal. f_equal; [f_equal|].
    - unfold max_charging. cbv zeta. rewrite q2r_min, Q2R_minus, H1. f_equal. unfold asked_in. rewrite <- H2.
      pose proof (q2r_le 0 m) as K1. pose proof (q2r_le m (b_charge_max e)) as K2. pose proof (q2r_le (b_charge_max e) m) as K3. rewrite q2r_0 in K1.
      destruct (qle 0 m), (qle m (b_charge_max e)), (qle (b_charge_max e) m); cbv iota in K1, K2, K3; cbn [andb]; rewrite ?q2r_0; unfold Rmin; rdec; lra.
    - unfold max_discharging. cbv zeta. rewrite q2r_min. set (p := (m * b_discharge_eff e)%Q).
      assert (P : Q2R p = Q2R m * val (fb_discharge_eff b)) by (unfold p; rewrite Q2R_mult, H4; reflexivity). rewrite <- P.
      rewrite <- H3 in D0 |- *. clear - D0 S0. pose proof (q2r_lt p 0) as K1. pose proof (q2r_le (-1 * b_discharge_max e) p) as K2. pose proof (q2r_le p (-1 * b_discharge_max e)) as K3. rewrite q2r_0 in K1. rewrite q2r_m1 in K2, K3.
      set (D := Q2R (b_discharge_max e)) in *. unfold asked_out.
      destruct (qlt p 0), (qle _ p), (qle p _); cbv iota in K1, K2, K3; cbn [andb]; rewrite ?q2r_0, ?q2r_m1; fold D; unfold Rmax, Rmin; rdec; lra. }
  unfold exact_step. rewrite <- V. clear V. pose proof (q2r_le (b_capacity e) v) as K1. pose proof (q2r_le v 0) as K2. rewrite q2r_0 in K2. rewrite <- H1 in C0 |- *. clear - K1 K2 C0. unfold clamp.
  destruct (qle _ v), (qle v 0); cbv iota in K1, K2; rewrite ?q2r_0; unfold Rmax, Rmin; rdec; lra.
Qed.
Lemma asked_in_close cm m m' : 0 <= cm -> Rabs (asked_in cm m - asked_in cm m') <= Rabs (m - m').
Proof. intro C. apply asked_close; [exact C|apply Rle_refl]. Qed.
Lemma asked_out_close dm p p' : Rabs (asked_out dm p - asked_out dm p') <= Rabs (p - p').
Proof. unfold asked_out, Rmax, Rmin. rdec; unfold Rabs; rdec; lra. Qed.
Lemma request_close c cm dm de sd m m' s : 0 <= cm -> 0 <= de <= 1 -> Rabs (exact_step c cm dm de sd m s - exact_step c cm dm de sd m' s) <= 2 * Rabs (m - m').
Proof.
  intros C E. unfold exact_step. eapply Rle_trans; [apply clamp_close|].
  pose proof (asked_in_close cm m m' C) as A. pose proof (asked_out_close dm (m * de) (m' * de)) as B.
  assert (B' : Rabs (asked_out dm (m * de) - asked_out dm (m' * de)) <= Rabs (m - m')).
  { apply Rle_trans with (1 := B). replace (m * de - m' * de) with ((m - m') * de) by ring. rewrite Rabs_mult, (Rabs_pos_eq de) by lra. pose proof (Rabs_pos (m - m')). nra. }
  pose proof (min_close (c - s) (asked_in cm m) (asked_in cm m')) as M. rewrite (Rmin_comm (c - s)), (Rmin_comm (c - s)) in M.
  match goal with |- Rabs ?e <= _ => replace e with ((Rmin (asked_in cm m) (c - s) - Rmin (asked_in cm m') (c - s)) + (asked_out dm (m * de) - asked_out dm (m' * de))) by ring end.
  eapply Rle_trans; [apply Rabs_triang|]. lra.
Qed.
