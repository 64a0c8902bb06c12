(** C99, C100: the battery in binary floating point. *)
From Coq Require Import ZArith Reals Qreals.
From Flocq Require Import Core IEEE754.BinarySingleNaN.
From Verif Require Import Base BaseL M_Battery M_Float S_Float L_Float L_FloatBattery.
From Coq Require Import Lra Psatz.
Local Open Scope R_scope.

(** ** C99: a level stays between empty and full, whatever the rounding *)
Theorem C99_level_in_range : forall b request level, entered b -> finite request -> level_ok b level ->
  exists level', fnew_soc b request level = Ok level' /\ level_ok b level'.
Proof. exact step_in_range. Qed.
Print Assumptions C99_level_in_range.
Theorem C99_history_in_range : forall b requests level, entered b -> Forall finite requests -> level_ok b level ->
  exists levels, fsoc_history b level requests = Ok levels /\ length levels = length requests /\ Forall (level_ok b) levels.
Proof. intros b ms s E F. exact (history_in_range b ms E F s). Qed.
Print Assumptions C99_history_in_range.
(** The level at the start is in range too. *)
Theorem C99_initial_in_range : forall b, entered b -> finite (fb_initial_state b) -> 0 <= val (fb_initial_state b) <= 1 -> level_ok b (finit_state b).
Proof.
  intros b (C & C0 & _) I I0. unfold finit_state.
  destruct (mul_between (fb_capacity b) (fb_initial_state b) C I C0 I0) as (F & V & B).
  assert (Small : Rabs (rnd (val (fb_initial_state b) * val (fb_capacity b))) < big).
  { rewrite Rmult_comm, <- V. apply val_small. }
  destruct (mul_ok _ _ I C Small) as (F2 & V2). split; [exact F2|]. rewrite V2, Rmult_comm, <- V. exact B.
Qed.
Print Assumptions C99_initial_in_range.
(** The request that fills the battery never goes over the charging limit and is never negative. *)
Theorem C99_fill_in_range : forall b level, entered b -> level_ok b level -> finite (fb_charge_eff b) -> 0 <= val (fb_charge_eff b) -> 0 <= val (fb_charge_max b) ->
  finite (fcharge_to_capacity b level) /\ 0 <= val (fcharge_to_capacity b level) <= val (fb_charge_max b).
Proof.
  intros b s (C & C0 & CM & _ & _ & SD & SD0) (FS & S0) CE CE0 CM0. unfold fcharge_to_capacity.
  destruct (sub_between _ _ C FS S0) as (F & _ & B). destruct (mul_between s _ FS SD (proj1 S0) SD0) as (FL & _ & BL). fold (fself_loss b s) in FL, BL.
  apply upwards_min; [|exact CM|exact CM0]. apply upwards_add; [left; split; [exact F|lra]|]. apply upwards_add; [left; split; [exact FL|lra]|]. apply upwards_mul; [exact F|exact CE|lra|exact CE0].
Qed.
Print Assumptions C99_fill_in_range.
(** Nothing asked and no self-discharge: not one bit of the level changes value. *)
Theorem C99_idle : forall b request level, entered b -> finite request -> level_ok b level ->
  val request = 0 -> val (fb_self_discharge b) = 0 -> 0 <= val (fb_charge_max b) -> 0 <= val (fb_discharge_max b) ->
  exists level', fnew_soc b request level = Ok level' /\ val level' = val level.
Proof.
  intros b m s E M L M0 SD CM0 DM0. destruct (charge_ok b m s E M L) as (c & EC & FC & VC). destruct (discharge_ok b m s E M L) as (d & ED & FD & VD). specialize (VD DM0).
  unfold fnew_soc. rewrite EC, ED. cbn [bind]. eexists. split; [reflexivity|].
  pose proof E as (C & C0 & _ & DM & _ & FSD & SD0). pose proof L as (FS & S0).
  destruct (mul_between s _ FS FSD (proj1 S0) SD0) as (FL & VL & _). fold (fself_loss b s) in FL, VL. rewrite SD, Rmult_0_r, rnd_0 in VL.
  destruct (sub_between _ _ C FS S0) as (_ & Va & Ba). rewrite Va in Ba.
  assert (C1 : val c = 0). { rewrite VC. unfold asked_in. rewrite M0. destruct (Rle_dec 0 0); [|lra]. rewrite (Rmin_left 0) by exact CM0. apply Rmin_left. lra. }
  assert (D1 : val d = 0). { rewrite VD, M0, Rmult_0_l, rnd_0. unfold asked_out. rewrite Rmin_left, Rmax_left by lra. reflexivity. }
  assert (K : forall x, finite x -> Rabs (rnd (val x)) < big) by (intros x _; rewrite rnd_val; apply val_small).
  destruct (add_ok s c FS FC) as (F1 & V1); [rewrite C1, Rplus_0_r; apply K, FS|]. rewrite C1, Rplus_0_r, rnd_val in V1.
  destruct (add_ok _ d F1 FD) as (F2 & V2); [rewrite D1, Rplus_0_r; apply K, F1|]. rewrite D1, Rplus_0_r, rnd_val, V1 in V2.
  destruct (sub_ok _ _ F2 FL) as (F3 & V3); [rewrite VL, Rminus_0_r; apply K, F2|]. rewrite VL, Rminus_0_r, rnd_val, V2 in V3.
  pose proof (fle_spec _ _ C F3) as G1. pose proof (fle_spec _ _ F3 finite_f0) as G2. rewrite V3 in G1, G2. rewrite val_f0 in G2.
  destruct (fle (fb_capacity b) _); cbv iota in G1; [lra|]. destruct (fle _ f0); cbv iota in G2; [rewrite val_f0; lra|]. exact V3.
Qed.
Print Assumptions C99_idle.
(** A request that is not a number raises; a level that is not a number is never repaired. *)
Theorem C99_nan_request : forall b level, fnew_soc b B754_nan level = Err UnboundLocalError.
Proof.
  intros b s. unfold fnew_soc, fmax_charging. cbv zeta.
  destruct (nan_compare f0) as (H1 & H2 & _). destruct (nan_compare (fb_charge_max b)) as (H3 & H4 & _). rewrite H1, H2, H3, H4. reflexivity.
Qed.
Print Assumptions C99_nan_request.
Theorem C99_nan_level : forall b request, entered b -> finite request -> fnew_soc b request B754_nan = Ok B754_nan.
Proof.
  intros b m E M. assert (L : level_ok b f0) by (split; [exact finite_f0|rewrite val_f0; destruct E as (_ & ? & _); lra]).
  destruct (charge_ok b m f0 E M L) as (c & EC & _). destruct (discharge_ok b m f0 E M L) as (d & ED & _).
  assert (C : exists c', fmax_charging b m B754_nan = Ok c').
  { unfold fmax_charging in *. cbv zeta in *. destruct (if _ && _ then _ else _) as [ch|x]; cbn [bind] in *; [eexists; reflexivity|discriminate EC]. }
  assert (D : exists d', fmax_discharging b m B754_nan = Ok d').
  { unfold fmax_discharging in *. cbv zeta in *. destruct (if _ && _ then _ else _) as [ch|x]; cbn [bind] in *; [eexists; reflexivity|discriminate ED]. }
  destruct C as (c' & C), D as (d' & D). unfold fnew_soc. rewrite C, D. cbn [bind].
  assert (N1 : fadd B754_nan c' = B754_nan) by reflexivity. assert (N2 : fadd B754_nan d' = B754_nan) by reflexivity.
  assert (N3 : fsub B754_nan (fself_loss b B754_nan) = B754_nan) by reflexivity. rewrite N1, N2, N3.
  destruct (nan_compare (fb_capacity b)) as (_ & -> & _). destruct (nan_compare f0) as (-> & _). reflexivity.
Qed.
Print Assumptions C99_nan_level.

(** ** C100: how far the floats are from the exact model *)
Theorem C100_hour : forall e b request request' level level', same_battery e b -> ordinary b -> same_number request request' -> level_ok b level' -> Q2R level = val level' ->
  exists next, fnew_soc b request' level' = Ok next /\ Rabs (val next - Q2R (new_soc e request level)) <= hour_error b.
Proof.
  intros e b m m' s s' B (E & CM0 & DM0 & CB & DB) M L Hs. destruct (step_close b m' s' E (proj1 M) L CM0 DM0 CB DB) as (t & T & _ & Er). exists t. split; [exact T|].
  rewrite (exact_is_real e b m m' s B E DM0 M) by (rewrite Hs; apply L). rewrite Hs. exact Er.
Qed.
Print Assumptions C100_hour.
(** The errors of successive hours add up and are never amplified. *)
Theorem C100_history : forall e b requests requests' level level' d, same_battery e b -> ordinary b -> Forall2 same_number requests requests' -> level_ok b level' ->
  0 <= Q2R level -> Rabs (val level' - Q2R level) <= d ->
  exists levels, fsoc_history b level' requests' = Ok levels /\ length levels = length requests /\
    forall k x y, nth_error levels k = Some x -> nth_error (soc_history e level requests) k = Some y -> Rabs (val x - Q2R y) <= d + INR (k + 1) * hour_error b.
Proof.
  intros e b ms ms' s s' d B (E & CM0 & DM0 & CB & DB) F L S0 Hd.
  destruct (history_close e b ms ms' B E CM0 DM0 CB DB F s s' d L S0 Hd) as (l & H & Len & K).
  exists l. split; [exact H|]. split; [rewrite Len; clear - F; induction F; cbn; congruence|]. intros k x y X Y. destruct (K k x X) as (y' & Y1 & _ & Y3). rewrite Y in Y1. injection Y1 as <-. exact Y3.
Qed.
Print Assumptions C100_history.
(** The level at the start *)
Theorem C100_initial : forall e b, same_battery e b -> ordinary b -> 0 <= val (fb_initial_state b) <= 1 ->
  Rabs (val (finit_state b) - Q2R (init_state e)) <= hour_error b.
Proof.
  intros e b ((_ & K) & (FI & I) & _) (E & _ & D0 & _) I0. pose proof E as (C & C0 & _).
  assert (V : val (finit_state b) = rnd (val (fb_initial_state b) * val (fb_capacity b))).
  { destruct (mul_between (fb_capacity b) (fb_initial_state b) C FI C0 I0) as (_ & V & _).
    apply mul_ok; [exact FI|exact C|]. rewrite Rmult_comm, <- V. apply val_small. }
  rewrite V. unfold init_state. rewrite Q2R_mult, I, K. eapply Rle_trans; [apply rnd_error|]. unfold hour_error, eta.
  set (x := val (fb_initial_state b)) in *. set (c := val (fb_capacity b)) in *. set (d := val (fb_discharge_max b)) in *.
  pose proof u53_small as U. assert (T : 0 < bpow radix2 (-1075)) by apply bpow_gt_0.
  assert (X : Rabs (x * c) <= 12 * c + 4 * d) by (rewrite Rabs_pos_eq; nra).
  apply Rplus_le_compat; [apply Rmult_le_compat_l; [lra|exact X]|lra].
Qed.
Print Assumptions C100_initial.
(** From the initial level on, over a year the two differ by less than 1.2e-11 of the capacity and the discharging limit together. *)
Theorem C100_year : forall e b requests requests', same_battery e b -> ordinary b -> 0 <= val (fb_initial_state b) <= 1 -> Forall2 same_number requests requests' ->
  (Z.of_nat (length requests) <= 8760)%Z ->
  exists levels, fsoc_history b (finit_state b) requests' = Ok levels /\ length levels = length requests /\
    forall k x y, nth_error levels k = Some x -> nth_error (soc_history e (init_state e) requests) k = Some y ->
      Rabs (val x - Q2R y) <= 12 / 1000000000000 * (val (fb_capacity b) + val (fb_discharge_max b)) + bpow radix2 (-1000).
Proof.
  intros e b ms ms' B O I0 F Y8. pose proof B as ((_ & HK) & (FI & HI) & _). pose proof O as (E & _ & D0 & _). pose proof E as (_ & C0 & _).
  assert (S0 : 0 <= Q2R (init_state e)) by (unfold init_state; rewrite Q2R_mult, HI, HK; apply Rmult_le_pos; lra).
  destruct (C100_history e b ms ms' _ _ _ B O F (C99_initial_in_range b E FI I0) S0 (C100_initial e b B O I0)) as (l & H & Len & K). exists l. split; [exact H|]. split; [exact Len|]. intros k x y X Y.
  eapply Rle_trans; [apply (K k x y X Y)|]. assert (KL : (k < length l)%nat) by (apply nth_error_Some; rewrite X; discriminate).
  assert (KR : 0 <= INR (k + 1) <= 8760) by (split; [apply pos_INR|]; rewrite INR_IZR_INZ; apply IZR_le; lia).
  clear - C0 D0 KR. unfold hour_error. set (n := INR (k + 1)) in *. set (c := val (fb_capacity b)) in *. set (d := val (fb_discharge_max b)) in *.
  assert (U : u53 = / 9007199254740992) by reflexivity. assert (T : 7 * bpow radix2 (-1075) * 8761 <= bpow radix2 (-1000)).
  { change (bpow radix2 (-1000)) with (bpow radix2 (75 + -1075)). rewrite bpow_plus. assert (0 < bpow radix2 (-1075)) by apply bpow_gt_0. change (bpow radix2 75) with 37778931862957161709568. lra. }
  assert (T0 : 0 < bpow radix2 (-1075)) by apply bpow_gt_0. set (t := bpow radix2 (-1075)) in *. rewrite U.
  apply Rle_trans with (8761 * (/ 9007199254740992 * (12 * c + 4 * d) + 7 * t)); [|lra].
  replace (8761 * (/ 9007199254740992 * (12 * c + 4 * d) + 7 * t)) with ((/ 9007199254740992 * (12 * c + 4 * d) + 7 * t) + 8760 * (/ 9007199254740992 * (12 * c + 4 * d) + 7 * t)) by ring.
  apply Rplus_le_compat_l, Rmult_le_compat_r; lra.
Qed.
Print Assumptions C100_year.
(** The request that fills the battery *)
Theorem C100_fill : forall e b level level', same_battery e b -> ordinary b -> 0 <= val (fb_charge_eff b) <= 1 -> level_ok b level' -> Q2R level = val level' ->
  Rabs (val (fcharge_to_capacity b level') - Q2R (charge_to_capacity e level)) <= hour_error b.
Proof.
  intros e b s s' ((_ & H1) & _ & (_ & H2) & _ & (FE & H4) & _ & (_ & H5)) (E & CM0 & D0 & CB & _) CE0 L Hs.
  pose proof E as (C & C0 & CM & _ & _ & SD & SD0). pose proof L as (FS & S0).
  unfold fcharge_to_capacity, charge_to_capacity. cbv zeta. rewrite q2r_min, H2. unfold self_loss.
  rewrite !Q2R_plus, !Q2R_mult, !Q2R_minus, H1, H4, H5, Hs.
  destruct (sub_between _ _ C FS S0) as (Fa & Va & Ba). destruct (mul_between s' _ FS SD (proj1 S0) SD0) as (FL & VL & BL). fold (fself_loss b s') in FL, VL, BL.
  destruct (mul_between _ (fb_charge_eff b) Fa FE (proj1 Ba) CE0) as (Fp & Vp & Bp).
  pose proof (rnd_error (val (fb_capacity b) - val s')) as E1. rewrite <- Va in E1. pose proof (rnd_error (val s' * val (fb_self_discharge b))) as E2. rewrite <- VL in E2.
  pose proof (rnd_error (val (fsub (fb_capacity b) s') * val (fb_charge_eff b))) as E3. rewrite <- Vp in E3.
  unfold hour_error. set (K := val (fb_capacity b)) in *. set (D := val (fb_discharge_max b)) in *. set (x := val s') in *. set (w := val (fb_self_discharge b)) in *. set (ce := val (fb_charge_eff b)) in *.
  set (a := val (fsub (fb_capacity b) s')) in *. set (l := val (fself_loss b s')) in *. set (p := val (fmul (fsub (fb_capacity b) s') (fb_charge_eff b))) in *.
  pose proof u53_small as U. pose proof eta_pos as T. fold eta. assert (Ee : eta <= bpow radix2 1019) by (apply bpow_le; lia).
  assert (BB : 16 * bpow radix2 1019 = bpow radix2 1023) by (change (bpow radix2 1023) with (bpow radix2 (4 + 1019)); rewrite bpow_plus; change (bpow radix2 4) with 16; reflexivity).
  assert (UK : 0 <= u53 * K <= K / 1000) by (clear - U C0; nra). assert (UD : 0 <= u53 * D) by (clear - U D0; nra). assert (UT : 0 <= u53 * eta <= eta / 1000) by (clear - U T; nra).
  assert (X1 : Rabs (a - (K - x)) <= u53 * K + eta) by (apply (scaled _ _ _ E1); rewrite Rabs_pos_eq; lra).
  assert (Bxw : 0 <= x * w <= K) by (split; [apply Rmult_le_pos; lra|]; apply Rle_trans with (x * 1); [apply Rmult_le_compat_l; lra|lra]).
  assert (X2 : Rabs (l - x * w) <= u53 * K + eta) by (apply (scaled _ _ _ E2); rewrite Rabs_pos_eq; lra).
  assert (Bac : 0 <= a * ce <= K) by (split; [apply Rmult_le_pos; lra|]; apply Rle_trans with (a * 1); [apply Rmult_le_compat_l; lra|lra]).
  assert (X3 : Rabs (p - a * ce) <= u53 * K + eta) by (apply (scaled _ _ _ E3); rewrite Rabs_pos_eq; lra).
  assert (X3' : Rabs (a * ce - (K - x) * ce) <= u53 * K + eta).
  { replace (a * ce - (K - x) * ce) with ((a - (K - x)) * ce) by ring. rewrite Rabs_mult, (Rabs_pos_eq ce) by lra. apply Rle_trans with (Rabs (a - (K - x)) * 1); [apply Rmult_le_compat_l; [apply Rabs_pos|lra]|lra]. }
  destruct (add_ok (fself_loss b s') (fmul (fsub (fb_capacity b) s') (fb_charge_eff b)) FL Fp) as (F4 & V4); [apply small_big; fold l p; rewrite Rabs_pos_eq; lra|]. fold l p in V4.
  pose proof (rnd_error (l + p)) as E4. rewrite <- V4 in E4. set (q := val (fadd (fself_loss b s') _)) in *.
  assert (X4 : Rabs (q - (l + p)) <= 2 * (u53 * K) + eta) by (assert (Rabs (l + p) <= 2 * K) as Q by (rewrite Rabs_pos_eq; lra); pose proof (scaled _ _ _ E4 Q); lra).
  assert (B4 : Rabs q <= 3 * K + eta) by (replace q with ((q - (l + p)) + (l + p)) by ring; eapply Rle_trans; [apply Rabs_triang|]; rewrite (Rabs_pos_eq (l + p)) by lra; lra).
  assert (Q5 : Rabs (a + q) <= 4 * K + eta) by (eapply Rle_trans; [apply Rabs_triang|]; rewrite (Rabs_pos_eq a) by lra; lra).
  destruct (add_ok (fsub (fb_capacity b) s') _ Fa F4) as (F5 & V5); [apply small_big; fold a q; lra|]. fold a q in V5.
  pose proof (rnd_error (a + q)) as E5. rewrite <- V5 in E5. pose proof (scaled _ _ _ E5 Q5) as X5.
  destruct (fmin_ok _ _ F5 CM) as (_ & ->). set (v := val (fadd (fsub (fb_capacity b) s') _)) in *.
  rewrite (Rmin_comm v), (Rmin_comm (K - x + (x * w + (K - x) * ce))). eapply Rle_trans; [apply min_close|].
  replace (v - (K - x + (x * w + (K - x) * ce))) with ((v - (a + q)) + ((a - (K - x)) + ((q - (l + p)) + ((l - x * w) + ((p - a * ce) + (a * ce - (K - x) * ce)))))) by ring.
  assert (Z : forall r1 r2 r3 r4 r5 r6, Rabs (r1 + (r2 + (r3 + (r4 + (r5 + r6))))) <= Rabs r1 + (Rabs r2 + (Rabs r3 + (Rabs r4 + (Rabs r5 + Rabs r6))))).
  { intros. repeat (eapply Rle_trans; [apply Rabs_triang|]; apply Rplus_le_compat_l). lra. }
  eapply Rle_trans; [apply Z|]. lra.
Qed.
Print Assumptions C100_fill.

(** ** A battery of 10 kWh *)
Definition lit (m e : Z) : double := binary_normalize 53 1024 prec_gt prec_lt mode_NE m e false.
Lemma lit_ok m e : (Z.abs m < 2 ^ 53)%Z -> (-1074 <= e <= 960)%Z -> finite (lit m e) /\ val (lit m e) = IZR m * bpow radix2 e.
Proof.
  intros M E. pose proof (binary_normalize_correct 53 1024 prec_gt prec_lt mode_NE m e false) as H.
  assert (G : generic_format radix2 (FLT_exp (-1074) 53) (F2R (Float radix2 m e))).
  { apply generic_format_FLT. exists (Float radix2 m e); [reflexivity|exact M|apply E]. }
  cbn [round_mode] in H. rewrite (round_generic radix2 _ _ _ G) in H.
  rewrite Rlt_bool_true in H.
  - destruct H as (H1 & H2 & _). split; [exact H2|exact H1].
  - apply Rlt_le_trans with (bpow radix2 (53 + e)).
    + apply F2R_lt_bpow. cbn [Fnum Fexp]. replace (53 + e - e)%Z with 53%Z by ring. exact M.
    + apply bpow_le. lia.
Qed.
(** 10 kWh, half full at the start, 5 kW in and out, efficiencies 15/16 and 7/8, losing 1/1024 an hour *)
Definition ten : fbattery := {| fb_capacity := lit 10 0; fb_initial_state := lit 1 (-1); fb_charge_max := lit 5 0; fb_discharge_max := lit 5 0; fb_charge_eff := lit 15 (-4); fb_discharge_eff := lit 7 (-3); fb_self_discharge := lit 1 (-10) |}.
Definition ten_exact : battery := {| b_capacity := 10; b_initial_state := 1#2; b_charge_max := 5; b_discharge_max := 5; b_charge_eff := 15#16; b_discharge_eff := 7#8; b_self_discharge := 1#1024 |}.
Ltac conjs := repeat match goal with |- _ /\ _ => split end.
Lemma lit_finite m e : ((Z.abs m <? 2 ^ 53) && (-1074 <=? e) && (e <=? 960))%Z = true -> finite (lit m e).
Proof. intro H. apply andb_prop in H as (H & H3). apply andb_prop in H as (H1 & H2). apply lit_ok; lia. Qed.
Lemma lit_val m e : ((Z.abs m <? 2 ^ 53) && (-1074 <=? e) && (e <=? 960))%Z = true -> val (lit m e) = IZR m * bpow radix2 e.
Proof. intro H. apply andb_prop in H as (H & H3). apply andb_prop in H as (H1 & H2). apply lit_ok; lia. Qed.
#[local] Opaque lit.
Ltac lits := repeat match goal with
  | |- context[val (lit ?m ?e)] => rewrite (lit_val m e) by reflexivity
  | |- finite (lit ?m ?e) => apply lit_finite; reflexivity end.
Lemma ten_same : same_battery ten_exact ten.
Proof. unfold same_battery, same_number, ten, ten_exact. cbn [fb_capacity fb_initial_state fb_charge_max fb_discharge_max fb_charge_eff fb_discharge_eff fb_self_discharge b_capacity b_initial_state b_charge_max b_discharge_max b_charge_eff b_discharge_eff b_self_discharge]. conjs; lits; unfold Q2R; cbn; lra. Qed.
Lemma ten_ordinary : ordinary ten.
Proof.
  assert (B : 16 <= bpow radix2 1019) by (change 16 with (bpow radix2 4); apply bpow_le; lia).
  unfold ordinary, entered, ten. cbn [fb_capacity fb_charge_max fb_discharge_max fb_discharge_eff fb_self_discharge]. conjs; lits; change (bpow radix2 0) with 1; try change (bpow radix2 (-10)) with (/1024); lra.
Qed.
Lemma half_full : level_ok ten (lit 5 0) /\ Q2R 5 = val (lit 5 0).
Proof. unfold level_ok, ten. cbn [fb_capacity]. conjs; lits; change (bpow radix2 0) with 1; unfold Q2R; cbn; lra. Qed.
Lemma three_requests : Forall2 same_number [3; -13#2; 8]%Q [lit 3 0; lit (-13) (-1); lit 8 0].
Proof. repeat first [apply Forall2_cons | apply Forall2_nil | apply Forall_cons | apply Forall_nil]; unfold same_number; conjs; lits; unfold Q2R; cbn; lra. Qed.
(** Three hours: the floats stay in range and within three rounding errors of the exact levels. *)
Example C99_C100_case : exists levels, fsoc_history ten (lit 5 0) [lit 3 0; lit (-13) (-1); lit 8 0] = Ok levels /\ length levels = 3%nat /\ Forall (level_ok ten) levels /\
  (forall k x y, nth_error levels k = Some x -> nth_error (soc_history ten_exact 5 [3; -13#2; 8]%Q) k = Some y -> Rabs (val x - Q2R y) <= 3 / 10000000000000).
Proof.
  destruct half_full as (L & Hs). pose proof ten_ordinary as O.
  assert (S0 : 0 <= Q2R 5) by (unfold Q2R; cbn; lra).
  assert (Hd : Rabs (val (lit 5 0) - Q2R 5) <= 0) by (rewrite Hs, Rminus_diag_eq, Rabs_R0 by reflexivity; lra).
  destruct (C100_history _ _ _ _ _ _ _ ten_same O three_requests L S0 Hd) as (l & H & Len & K).
  assert (F : Forall finite [lit 3 0; lit (-13) (-1); lit 8 0]) by (repeat first [apply Forall2_cons | apply Forall2_nil | apply Forall_cons | apply Forall_nil]; unfold same_number; conjs; lits).
  destruct (C99_history_in_range ten _ _ (proj1 O) F L) as (l' & H' & _ & R). rewrite H in H'. injection H' as <-.
  exists l. split; [exact H|]. split; [exact Len|]. split; [exact R|]. intros k x y X Y. eapply Rle_trans; [apply (K k x y X Y)|].
  assert (KL : (k < length l)%nat) by (apply nth_error_Some; rewrite X; discriminate). cbn [length] in Len.
  assert (KR : 0 <= INR (k + 1) <= 3) by (split; [apply pos_INR|]; rewrite INR_IZR_INZ; apply IZR_le; lia).
  unfold hour_error, ten. cbn [fb_capacity fb_discharge_max]. lits. change (bpow radix2 0) with 1. change u53 with (/ 9007199254740992).
  assert (T : 0 < bpow radix2 (-1075) <= / 9007199254740992) by (split; [apply bpow_gt_0|apply (bpow_le radix2 (-1075) (-53)); lia]).
  set (t := bpow radix2 (-1075)) in *. rewrite Rplus_0_l. apply Rle_trans with (3 * (/ 9007199254740992 * (12 * (10 * 1) + 4 * (5 * 1)) + 7 * t)); [apply Rmult_le_compat_r; lra|]. lra.
Qed.
(** The hypotheses of the other theorems are met by the same battery. *)
Example C100_case : level_ok ten (finit_state ten) /\ Rabs (val (finit_state ten) - 5) <= hour_error ten /\ Rabs (val (fcharge_to_capacity ten (lit 5 0)) - 5) <= hour_error ten.
Proof.
  destruct half_full as (L & Hs). pose proof ten_ordinary as O. pose proof ten_same as B.
  assert (I0 : finite (fb_initial_state ten) /\ 0 <= val (fb_initial_state ten) <= 1) by (unfold ten; cbn [fb_initial_state]; conjs; lits; change (bpow radix2 (-1)) with (/2); lra).
  assert (E0 : 0 <= val (fb_charge_eff ten) <= 1) by (unfold ten; cbn [fb_charge_eff]; conjs; lits; change (bpow radix2 (-4)) with (/16); lra).
  assert (F5 : Q2R 5 = 5) by (unfold Q2R; cbn; lra).
  split; [exact (C99_initial_in_range ten (proj1 O) (proj1 I0) (proj2 I0))|]. split.
  - pose proof (C100_initial _ _ B O (proj2 I0)) as H. replace (Q2R (init_state ten_exact)) with 5 in H; [exact H|]. rewrite <- F5. apply Qeq_eqR. reflexivity.
  - pose proof (C100_fill _ _ _ _ B O E0 L Hs) as H. change (Q2R (charge_to_capacity ten_exact 5)) with (Q2R 5) in H. rewrite F5 in H. exact H.
Qed.
(** Exact accounting is lost: 0.1 kWh and 0.2 kWh make more than their sum. *)
Definition plain : fbattery := {| fb_capacity := lit 10 0; fb_initial_state := lit 1 (-1); fb_charge_max := lit 5 0; fb_discharge_max := lit 5 0; fb_charge_eff := lit 1 0; fb_discharge_eff := lit 1 0; fb_self_discharge := lit 0 0 |}.
Definition plain_exact : battery := {| b_capacity := 10; b_initial_state := 1#2; b_charge_max := 5; b_discharge_max := 5; b_charge_eff := 1; b_discharge_eff := 1; b_self_discharge := 0 |}.
Theorem C100_exact_refuted : exists e b request request' level level' next, same_battery e b /\ ordinary b /\ same_number request request' /\ level_ok b level' /\ Q2R level = val level' /\
  fnew_soc b request' level' = Ok next /\ Q2R (new_soc e request level) < val next.
Proof.
  set (m := (7205759403792794 # 36028797018963968)%Q). set (s := (7205759403792794 # 72057594037927936)%Q).
  assert (B : 16 <= bpow radix2 1019) by (change 16 with (bpow radix2 4); apply bpow_le; lia).
  assert (O : ordinary plain).
  { unfold ordinary, entered, plain. cbn [fb_capacity fb_charge_max fb_discharge_max fb_discharge_eff fb_self_discharge]. conjs; lits; change (bpow radix2 0) with 1; lra. }
  assert (L : level_ok plain (lit 7205759403792794 (-56))).
  { unfold level_ok, plain. cbn [fb_capacity]. conjs; lits; change (bpow radix2 0) with 1; change (bpow radix2 (-56)) with (/72057594037927936); lra. }
  assert (M : same_number m (lit 7205759403792794 (-55))).
  { unfold same_number, m. conjs; lits; unfold Q2R; cbn [Qnum Qden]; change (bpow radix2 (-55)) with (/36028797018963968); lra. }
  destruct (C99_level_in_range plain _ _ (proj1 O) (proj1 M) L) as (next & N & _).
  assert (V : B2SF next = SpecFloat.S754_finite false 5404319552844596 (-54)).
  { assert (K : match fnew_soc plain (lit 7205759403792794 (-55)) (lit 7205759403792794 (-56)) with Ok x => Some (B2SF x) | Err _ => None end = Some (SpecFloat.S754_finite false 5404319552844596 (-54))).
    { Transparent lit. vm_compute. reflexivity. }
    rewrite N in K. injection K as K. exact K. }
  exists plain_exact, plain, m, (lit 7205759403792794 (-55)), s, (lit 7205759403792794 (-56)), next.
  split. { unfold same_battery, same_number, plain, plain_exact. cbn [fb_capacity fb_initial_state fb_charge_max fb_discharge_max fb_charge_eff fb_discharge_eff fb_self_discharge b_capacity b_initial_state b_charge_max b_discharge_max b_charge_eff b_discharge_eff b_self_discharge].
    conjs; lits; unfold Q2R; cbn; lra. }
  split; [exact O|]. split; [exact M|]. split; [exact L|]. split. { lits. unfold Q2R, s. cbn [Qnum Qden]. change (bpow radix2 (-56)) with (/72057594037927936). lra. }
  split; [exact N|]. unfold val. rewrite <- SF2R_B2SF, V. cbn [SF2R cond_Zopp]. unfold F2R. cbn [Fnum Fexp]. change (bpow radix2 (-54)) with (/18014398509481984).
  match goal with |- Q2R ?q < _ => let q' := eval vm_compute in q in change q with q' end. unfold Q2R. cbn [Qnum Qden]. lra.
Qed.
Print Assumptions C100_exact_refuted.
