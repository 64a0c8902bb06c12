(** Lemmas about the floating-point battery. *)
From Coq Require Import ZArith Reals Qreals.
From Flocq Require Import Core Relative IEEE754.BinarySingleNaN.
From Verif Require Import Base BaseL M_Battery M_Float S_Float L_Float.
From Coq Require Import Lra Psatz.
Local Open Scope R_scope.
Ltac rdec := repeat match goal with
  | |- context[Rle_dec ?x ?y] => destruct (Rle_dec x y) | H : context[Rle_dec ?x ?y] |- _ => destruct (Rle_dec x y)
  | |- context[Rcase_abs ?x] => destruct (Rcase_abs x) end.

(** ** Real-valued readings of the two requests *)
Definition asked_in (cm m : R) : R := if Rle_dec 0 m then Rmin m cm else 0.
Definition asked_out (dm p : R) : R := Rmax (Rmin p 0) (- dm).
Definition clamp (c v : R) : R := Rmax 0 (Rmin v c).

Lemma charge_ok b m s : entered b -> finite m -> level_ok b s ->
  exists c, fmax_charging b m s = Ok c /\ finite c /\ val c = Rmin (asked_in (val (fb_charge_max b)) (val m)) (rnd (val (fb_capacity b) - val s)).
Proof.
  intros (C & C0 & CM & _) M (FS & S0). unfold fmax_charging. cbv zeta.
  destruct (sub_between _ _ C FS S0) as (F & V & _).
  assert (A : exists ch, (if fle f0 m && fle m (fb_charge_max b) then Ok m else if fle f0 m && fle (fb_charge_max b) m then Ok (fb_charge_max b) else if fle m f0 then Ok f0 else Err UnboundLocalError) = Ok ch /\ finite ch /\ val ch = asked_in (val (fb_charge_max b)) (val m)).
  { pose proof (fle_spec f0 m finite_f0 M) as H1. pose proof (fle_spec m _ M CM) as H2. pose proof (fle_spec _ m CM M) as H3. pose proof (fle_spec m f0 M finite_f0) as H4.
    rewrite val_f0 in H1, H4. unfold asked_in. destruct (fle f0 m), (fle m (fb_charge_max b)), (fle (fb_charge_max b) m), (fle m f0); cbv iota in H1, H2, H3, H4; cbn [andb]; try (exfalso; lra);
      (eexists; split; [reflexivity|]; split; [assumption || reflexivity|]); destruct (Rle_dec 0 (val m)); try (exfalso; lra); rewrite ?val_f0; unfold Rmin; rdec; lra. }
  destruct A as (ch & E & FC & VC). rewrite E. cbn [bind]. destruct (fmin_ok _ _ FC F) as (X1 & X2). eexists. split; [reflexivity|]. split; [exact X1|]. rewrite X2, VC, V. reflexivity.
Qed.

Lemma sign_val (x : double) : finite x -> val x <> 0 -> Bsign x = Rlt_bool (val x) 0.
Proof.
  unfold finite, val. destruct x as [s|s| |s p e Hb]; cbn [is_finite B2R Bsign]; intros F N; try discriminate; [contradiction|].
  destruct s; cbn [cond_Zopp].
  - rewrite Rlt_bool_true; [reflexivity|]. apply F2R_lt_0. reflexivity.
  - rewrite Rlt_bool_false; [reflexivity|]. apply F2R_ge_0. discriminate.
Qed.
(** What [max_p_dis] is compared with 0 and the limit. *)
Lemma product_cases x y : finite x -> finite y ->
  (finite (fmul x y) /\ val (fmul x y) = rnd (val x * val y)) \/
  (fmul x y = B754_infinity true /\ rnd (val x * val y) <= - big) \/ (fmul x y = B754_infinity false /\ big <= rnd (val x * val y)).
Proof.
  intros X Y. destruct (Rlt_or_le (Rabs (rnd (val x * val y))) big) as [B|B]; [left; apply mul_ok; assumption|right].
  rewrite (mul_big x y X Y B). assert (Pos : 0 < big) by apply bpow_gt_0.
  assert (N : val x * val y <> 0) by (intro E; rewrite E, rnd_0, Rabs_R0 in B; lra).
  assert (NX : val x <> 0) by (intro E; apply N; rewrite E; ring). assert (NY : val y <> 0) by (intro E; apply N; rewrite E; ring).
  rewrite (sign_val x X NX), (sign_val y Y NY).
  assert (K1 : 0 < val x * val y -> big <= rnd (val x * val y)) by (intro K; rewrite Rabs_pos_eq in B; [exact B|apply rnd_nonneg; lra]).
  assert (K2 : val x * val y < 0 -> rnd (val x * val y) <= - big).
  { intro K. assert (rnd (val x * val y) <= 0) by (rewrite <- rnd_0; apply rnd_le; lra). rewrite Rabs_left1 in B by assumption. lra. }
  destruct (Rlt_bool_spec (val x) 0), (Rlt_bool_spec (val y) 0); cbn [xorb].
  - right. split; [reflexivity|]. apply K1. nra.
  - left. split; [reflexivity|]. apply K2. assert (0 < val y) by lra. nra.
  - left. split; [reflexivity|]. apply K2. assert (0 < val x) by lra. nra.
  - right. split; [reflexivity|]. apply K1. assert (0 < val y) by lra. assert (0 < val x) by lra. nra.
Qed.
Lemma discharge_ok b m s : entered b -> finite m -> level_ok b s ->
  exists d, fmax_discharging b m s = Ok d /\ finite d /\
    (0 <= val (fb_discharge_max b) -> val d = asked_out (val (fb_discharge_max b)) (rnd (val m * val (fb_discharge_eff b)))).
Proof.
  intros (_ & _ & _ & DM & DE & _) M (FS & S0). unfold fmax_discharging. cbv zeta. set (p := fmul m (fb_discharge_eff b)).
  destruct (neg_ok _ DM) as (FN & VN). set (l := fmul fm1 (fb_discharge_max b)) in *.
  assert (A : exists dd, (if flt p f0 && fle l p then Ok p else if fle p l then Ok l else if fle f0 p then Ok f0 else Err UnboundLocalError) = Ok dd /\ finite dd /\
    (0 <= val (fb_discharge_max b) -> val dd = asked_out (val (fb_discharge_max b)) (rnd (val m * val (fb_discharge_eff b))))).
  { pose proof (val_small (fb_discharge_max b)) as SM.
    destruct (product_cases m (fb_discharge_eff b) M DE) as [(F & V)|[(E & V)|(E & V)]].
    - fold p in F, V. rewrite <- V. clear V. pose proof (flt_spec p f0 F finite_f0) as H1. pose proof (fle_spec l p FN F) as H2. pose proof (fle_spec p l F FN) as H3. pose proof (fle_spec f0 p finite_f0 F) as H4.
      rewrite val_f0 in H1, H4. rewrite VN in H2, H3. unfold asked_out.
      destruct (flt p f0), (fle l p), (fle p l), (fle f0 p); cbv iota in H1, H2, H3, H4; cbn [andb]; try (exfalso; lra);
        (eexists; split; [reflexivity|]; split; [assumption || reflexivity|]); intro D0; rewrite ?val_f0, ?VN; unfold Rmax, Rmin; rdec; lra.
    - fold p in E. rewrite E. destruct (flt_infinity f0 true finite_f0) as (_ & ->). destruct (fle_infinity l true FN) as (-> & ->). cbn [negb andb].
      eexists. split; [reflexivity|]. split; [exact FN|]. intro D0. rewrite VN. unfold asked_out. rewrite Rabs_pos_eq in SM by exact D0. rewrite Rmin_left by lra. rewrite Rmax_right; [reflexivity|]. lra.
    - fold p in E. rewrite E. destruct (flt_infinity f0 false finite_f0) as (_ & ->). destruct (fle_infinity l false FN) as (_ & ->). destruct (fle_infinity f0 false finite_f0) as (-> & _). cbn [negb andb].
      eexists. split; [reflexivity|]. split; [reflexivity|]. intro D0. rewrite val_f0. unfold asked_out. assert (0 < big) by apply bpow_gt_0. rewrite Rmin_right by lra. rewrite Rmax_left; [reflexivity|]. lra. }
  destruct A as (dd & E & FD & VD). rewrite E. cbn [bind]. destruct (fmin_ok _ _ FD FS) as (X1 & X2). eexists. split; [reflexivity|]. split; [exact X1|].
  intro D0. specialize (VD D0). rewrite X2, VD, Rmin_left; [reflexivity|]. unfold asked_out. apply Rle_trans with 0; [|lra]. apply Rmax_lub; [apply Rmin_r|lra].
Qed.

(** ** One step *)
Lemma step_in_range b m s : entered b -> finite m -> level_ok b s -> exists s', fnew_soc b m s = Ok s' /\ level_ok b s'.
Proof.
  intros E M L. destruct (charge_ok b m s E M L) as (c & EC & FC & _). destruct (discharge_ok b m s E M L) as (d & ED & FD & _).
  unfold fnew_soc. rewrite EC, ED. cbn [bind]. eexists. split; [reflexivity|].
  pose proof E as (C & C0 & _ & _ & _ & SD & SD0). pose proof L as (FS & S0).
  destruct (mul_between s _ FS SD (proj1 S0) SD0) as (FL & _).
  set (v := fsub (fadd (fadd s c) d) (fself_loss b s)).
  assert (N : is_nan v = false) by (apply sub_not_nan; [apply add_not_nan; [apply add_not_nan; [apply finite_not_nan, FS|exact FC]|exact FD]|exact FL]).
  destruct (fle (fb_capacity b) v) eqn:E1; [split; [exact C|lra]|]. destruct (fle v f0) eqn:E2; [split; [exact finite_f0|rewrite val_f0; lra]|].
  destruct (clamped v _ N C E1 E2) as (F & V). split; [exact F|lra].
Qed.
Lemma history_in_range b ms : entered b -> Forall finite ms -> forall s, level_ok b s -> exists l, fsoc_history b s ms = Ok l /\ length l = length ms /\ Forall (level_ok b) l.
Proof.
  intros E F. induction F as [|m ms M F IH]; intros s L; cbn [fsoc_history].
  - exists []. split; [reflexivity|]. split; [reflexivity|constructor].
  - destruct (step_in_range b m s E M L) as (s' & H & L'). destruct (IH s' L') as (l & H2 & H3 & H4). rewrite H. cbn [bind]. rewrite H2. cbn [bind]. eexists. split; [reflexivity|]. split; [cbn; congruence|constructor; assumption].
Qed.

(** ** Errors *)
Definition eta : R := bpow radix2 (-1075).
Lemma rnd_error x : Rabs (rnd x - x) <= u53 * Rabs x + eta.
Proof.
  destruct (error_N_FLT radix2 (-1074) 53 eq_refl (fun z => negb (Z.even z)) x) as (e & t & He & Ht & _ & E). fold (rnd x) in E.
  change (round radix2 (FLT_exp (-1074) 53) (Znearest (fun z => negb (Z.even z))) x) with (rnd x) in E.
  rewrite E. replace (x * (1 + e) + t - x) with (x * e + t) by ring. eapply Rle_trans; [apply Rabs_triang|]. rewrite Rabs_mult, (Rmult_comm (Rabs x)).
  apply Rplus_le_compat.
  - apply Rmult_le_compat_r; [apply Rabs_pos|]. eapply Rle_trans; [exact He|]. apply Req_le. symmetry. exact (bpow_plus radix2 (-1) (-53 + 1)).
  - eapply Rle_trans; [exact Ht|]. apply Req_le. symmetry. exact (bpow_plus radix2 (-1) (-1074)).
Qed.
Lemma u53_small : 0 < u53 <= / 1000.
Proof.
  split; [apply bpow_gt_0|]. unfold u53. eapply Rle_trans; [apply (bpow_le radix2 (-53) (-10)); lia|]. cbn. lra.
Qed.
Lemma scaled r a k : r <= u53 * a + eta -> a <= k -> r <= u53 * k + eta.
Proof. intros H K. destruct u53_small as (U & _). apply Rle_trans with (1 := H), Rplus_le_compat_r, Rmult_le_compat_l; [lra|exact K]. Qed.
Lemma eta_pos : 0 < eta.
Proof. apply bpow_gt_0. Qed.
Lemma min_close a b c : Rabs (Rmin a b - Rmin a c) <= Rabs (b - c).
Proof. unfold Rmin. rdec; unfold Rabs; rdec; lra. Qed.
Lemma clamp_close c a b : Rabs (clamp c a - clamp c b) <= Rabs (a - b).
Proof. unfold clamp, Rmax, Rmin. rdec; unfold Rabs; rdec; lra. Qed.
Lemma asked_in_nonneg cm m : 0 <= cm -> 0 <= asked_in cm m.
Proof. intro H. unfold asked_in. destruct (Rle_dec 0 m); [apply Rmin_glb; assumption|lra]. Qed.
Lemma asked_out_range dm p : 0 <= dm -> - dm <= asked_out dm p <= 0.
Proof. intro H. unfold asked_out. split; [apply Rmax_r|]. apply Rmax_lub; [apply Rmin_r|lra]. Qed.
Lemma asked_out_error dmx p : finite dmx -> 0 <= val dmx -> Rabs (asked_out (val dmx) (rnd p) - asked_out (val dmx) p) <= u53 * val dmx + eta.
Proof.
  intros F D. pose proof u53_small as U. pose proof eta_pos as T. assert (B : 0 <= u53 * val dmx) by nra.
  destruct (Rle_or_lt 0 p) as [H|H].
  { assert (0 <= rnd p) by (apply rnd_nonneg, H). unfold asked_out. rewrite !Rmin_right by lra. rewrite Rminus_diag_eq by reflexivity. rewrite Rabs_R0. lra. }
  destruct (Rle_or_lt p (- val dmx)) as [K|K].
  { assert (rnd p <= - val dmx). { destruct (neg_ok dmx F) as (_ & V). rewrite <- V, <- rnd_val. apply rnd_le. rewrite V. exact K. }
    unfold asked_out. rewrite !Rmin_left by lra. rewrite !Rmax_right by lra. rewrite Rminus_diag_eq by reflexivity. rewrite Rabs_R0. lra. }
  pose proof (rnd_error p) as Er. assert (AP : Rabs p <= val dmx) by (apply Rabs_le; lra).
  assert (Er2 : Rabs (rnd p - p) <= u53 * val dmx + eta) by (eapply Rle_trans; [exact Er|]; nra).
  eapply Rle_trans; [|exact Er2]. unfold asked_out, Rmax, Rmin. rdec; unfold Rabs; rdec; lra.
Qed.

(** The exact step over the reals. *)
Definition exact_step (c cm dm de sd m s : R) : R :=
  clamp c (s + Rmin (asked_in cm m) (c - s) + asked_out dm (m * de) - s * sd).
Lemma exact_range c cm dm de sd m s : 0 <= c -> 0 <= exact_step c cm dm de sd m s <= c.
Proof. intro H. unfold exact_step, clamp. split; [apply Rmax_l|]. apply Rmax_lub; [exact H|apply Rmin_r]. Qed.
Lemma exact_close c cm dm de sd m s t : 0 <= sd <= 1 ->
  Rabs (exact_step c cm dm de sd m s - exact_step c cm dm de sd m t) <= Rabs (s - t).
Proof.
  intros D. unfold exact_step. eapply Rle_trans; [apply clamp_close|]. set (a := asked_in cm m). set (o := asked_out dm (m * de)).
  assert (K : forall x y, x <= y -> Rabs (y + Rmin a (c - y) + o - y * sd - (x + Rmin a (c - x) + o - x * sd)) <= y - x).
  { intros x y H. apply Rabs_le. unfold Rmin. rdec; split; nra. }
  destruct (Rle_or_lt t s) as [H|H]; [rewrite (Rabs_pos_eq (s - t)) by lra; apply K; lra|].
  rewrite (Rabs_minus_sym s t), Rabs_minus_sym, (Rabs_pos_eq (t - s)) by lra. apply K. lra.
Qed.

(** The error of one step for a capacity [c] and a discharging limit [d] *)
Definition step_error (c d : R) : R := u53 * (12 * c + 4 * d) + 7 * eta.
Lemma small_big x : Rabs x <= bpow radix2 1023 -> Rabs (rnd x) < big.
Proof.
  intro H. apply Rle_lt_trans with (bpow radix2 1023).
  - unfold rnd. apply abs_round_le_generic; [typeclasses eauto|typeclasses eauto| |exact H].
    apply generic_format_bpow. vm_compute. discriminate.
  - apply bpow_lt. lia.
Qed.
Lemma step_close b m s : entered b -> finite m -> level_ok b s -> 0 <= val (fb_charge_max b) -> 0 <= val (fb_discharge_max b) ->
  val (fb_capacity b) <= bpow radix2 1019 -> val (fb_discharge_max b) <= bpow radix2 1019 ->
  exists s', fnew_soc b m s = Ok s' /\ level_ok b s' /\
    Rabs (val s' - exact_step (val (fb_capacity b)) (val (fb_charge_max b)) (val (fb_discharge_max b)) (val (fb_discharge_eff b)) (val (fb_self_discharge b)) (val m) (val s))
      <= step_error (val (fb_capacity b)) (val (fb_discharge_max b)).
Proof.
  intros E M L CM0 DM0 CB DB. destruct (step_in_range b m s E M L) as (s' & H & L'). exists s'. split; [exact H|]. split; [exact L'|].
  destruct (charge_ok b m s E M L) as (c & EC & FC & VC). destruct (discharge_ok b m s E M L) as (d & ED & FD & VD). specialize (VD DM0).
  unfold fnew_soc in H. rewrite EC, ED in H. cbn [bind] in H. injection H as H.
  pose proof E as (C & C0 & _ & DM & _ & SD & SD0). pose proof L as (FS & S0).
  destruct (mul_between s _ FS SD (proj1 S0) SD0) as (FL & VL & BL). fold (fself_loss b s) in FL, VL, BL.
  destruct (sub_between _ _ C FS S0) as (_ & Va & Ba). rewrite Va in Ba.
  set (K := val (fb_capacity b)) in *. set (D := val (fb_discharge_max b)) in *. set (x := val s) in *. set (w := val (fb_self_discharge b)) in *.
  set (a := asked_in (val (fb_charge_max b)) (val m)) in *. set (p := val m * val (fb_discharge_eff b)) in *.
  assert (A0 : 0 <= a) by (apply asked_in_nonneg; exact CM0).
  pose proof (asked_out_range D (rnd p) DM0) as O1. pose proof (asked_out_range D p DM0) as O2.
  pose proof (asked_out_error _ p DM DM0) as Eo. fold D in Eo. rewrite <- VD in Eo, O1.
  pose proof u53_small as U. pose proof eta_pos as T.
  assert (Ee : eta <= bpow radix2 1019) by (apply bpow_le; lia).
  assert (BB : 16 * bpow radix2 1019 = bpow radix2 1023) by (change (bpow radix2 1023) with (bpow radix2 (4 + 1019)); rewrite bpow_plus; change (bpow radix2 4) with 16; reflexivity).
  (* the available capacity *)
  pose proof (rnd_error (K - x)) as E1. rewrite (Rabs_pos_eq (K - x)) in E1 by lra.
  assert (X1 : Rabs (val c - Rmin a (K - x)) <= u53 * K + eta) by (rewrite VC; eapply Rle_trans; [apply min_close|]; apply (scaled _ _ _ E1); lra).
  assert (Bc : 0 <= val c <= K) by (rewrite VC; split; [apply Rmin_glb; lra|eapply Rle_trans; [apply Rmin_r|lra]]).
  (* s + c *)
  assert (Q1 : Rabs (x + val c) <= 2 * K) by (rewrite Rabs_pos_eq; lra).
  destruct (add_ok s c FS FC) as (F1 & V1); [apply small_big; fold x; lra|]. fold x in V1.
  pose proof (rnd_error (x + val c)) as E2. rewrite <- V1 in E2. set (v1 := val (fadd s c)) in *.
  assert (X2 : Rabs (v1 - (x + val c)) <= 2 * (u53 * K) + eta) by (pose proof (scaled _ _ _ E2 Q1); lra).
  assert (UK : 0 <= u53 * K <= K / 1000) by nra. assert (UD : 0 <= u53 * D <= D / 1000) by nra.
  assert (Q2 : Rabs v1 <= 3 * K + eta).
  { replace v1 with ((v1 - (x + val c)) + (x + val c)) by ring. eapply Rle_trans; [apply Rabs_triang|]. lra. }
  (* + d *)
  assert (Q3 : Rabs (v1 + val d) <= 3 * K + D + eta) by (eapply Rle_trans; [apply Rabs_triang|]; rewrite (Rabs_left1 (val d)) by lra; lra).
  destruct (add_ok (fadd s c) d F1 FD) as (F2 & V2); [apply small_big; fold v1; lra|]. fold v1 in V2.
  pose proof (rnd_error (v1 + val d)) as E3. rewrite <- V2 in E3. set (v2 := val (fadd (fadd s c) d)) in *.
  assert (UT : 0 <= u53 * eta <= eta / 1000) by nra.
  assert (X3 : Rabs (v2 - (v1 + val d)) <= u53 * (3 * K + D) + u53 * eta + eta) by (pose proof (scaled _ _ _ E3 Q3); lra).
  assert (Q4 : Rabs v2 <= 4 * K + 2 * D + 3 * eta).
  { replace v2 with ((v2 - (v1 + val d)) + (v1 + val d)) by ring. eapply Rle_trans; [apply Rabs_triang|]. lra. }
  (* the loss *)
  pose proof (rnd_error (x * w)) as E4. rewrite <- VL in E4. set (ls := val (fself_loss b s)) in *.
  assert (Bxw : 0 <= x * w <= K) by (split; [apply Rmult_le_pos; lra|]; apply Rle_trans with (x * 1); [apply Rmult_le_compat_l; lra|lra]). rewrite (Rabs_pos_eq (x * w)) in E4 by lra.
  assert (X4 : Rabs (ls - x * w) <= u53 * K + eta) by (apply (scaled _ _ _ E4); lra).
  assert (Q5 : Rabs (v2 - ls) <= 5 * K + 2 * D + 3 * eta).
  { unfold Rminus. eapply Rle_trans; [apply Rabs_triang|]. rewrite Rabs_Ropp, (Rabs_pos_eq ls) by lra. lra. }
  destruct (sub_ok (fadd (fadd s c) d) (fself_loss b s) F2 FL) as (F3 & V3); [apply small_big; fold v2 ls; lra|]. fold v2 ls in V3.
  pose proof (rnd_error (v2 - ls)) as E5. rewrite <- V3 in E5. set (v3 := val (fsub (fadd (fadd s c) d) (fself_loss b s))) in *.
  assert (X5 : Rabs (v3 - (v2 - ls)) <= u53 * (5 * K + 2 * D) + 3 * (u53 * eta) + eta) by (pose proof (scaled _ _ _ E5 Q5); lra).
  (* the clamp *)
  assert (VS : val s' = clamp K v3).
  { rewrite <- H. pose proof (fle_spec _ _ C F3) as G1. pose proof (fle_spec _ _ F3 finite_f0) as G2. fold K v3 in G1. fold v3 in G2. rewrite val_f0 in G2. unfold clamp.
    destruct (fle (fb_capacity b) _); cbv iota in G1; [fold K; rewrite Rmin_right, Rmax_right by lra; reflexivity|].
    destruct (fle _ f0); cbv iota in G2; [rewrite val_f0, Rmin_left, Rmax_left by lra; reflexivity|]. fold v3. rewrite Rmin_left, Rmax_right by lra. reflexivity. }
  rewrite VS. unfold exact_step. eapply Rle_trans; [apply clamp_close|]. fold a p. unfold step_error.
  replace (v3 - (x + Rmin a (K - x) + asked_out D p - x * w)) with
    ((v3 - (v2 - ls)) + ((v2 - (v1 + val d)) + ((v1 - (x + val c)) + ((val c - Rmin a (K - x)) + ((val d - asked_out D p) + (x * w - ls)))))) by ring.
  rewrite Rabs_minus_sym in X4.
  assert (Z : forall r1 r2 r3 r4 r5 r6, Rabs (r1 + (r2 + (r3 + (r4 + (r5 + r6))))) <= Rabs r1 + (Rabs r2 + (Rabs r3 + (Rabs r4 + (Rabs r5 + Rabs r6))))).
  { intros. repeat (eapply Rle_trans; [apply Rabs_triang|]; apply Rplus_le_compat_l). lra. }
  eapply Rle_trans; [apply Z|]. lra.
Qed.

(** ** The exact model read in the reals *)
Lemma q2r_le x y : if qle x y then Q2R x <= Q2R y else Q2R y < Q2R x.
Proof. destruct (qle_spec x y) as [H|H]; [apply Qle_Rle, H|apply Qlt_Rlt, H]. Qed.
Lemma q2r_lt x y : if qlt x y then Q2R x < Q2R y else Q2R y <= Q2R x.
Proof. destruct (qlt_spec x y) as [H|H]; [apply Qlt_Rlt, H|apply Qle_Rle, H]. Qed.
Lemma q2r_min x y : Q2R (pmin x y) = Rmin (Q2R x) (Q2R y).
Proof. unfold pmin. pose proof (q2r_lt y x) as H. destruct (qlt y x); cbv iota in H; unfold Rmin; rdec; lra. Qed.
Lemma q2r_0 : Q2R 0 = 0.
Proof. unfold Q2R. cbn. lra. Qed.
Lemma q2r_m1 x : Q2R (-1 * x)%Q = - Q2R x.
Proof. rewrite Q2R_mult. replace (Q2R (-1)) with (-1); [ring|]. unfold Q2R. cbn. lra. Qed.
Lemma exact_is_real e b m m' s : same_battery e b -> entered b -> 0 <= val (fb_discharge_max b) -> same_number m m' -> 0 <= Q2R s ->
  Q2R (new_soc e m s) = exact_step (val (fb_capacity b)) (val (fb_charge_max b)) (val (fb_discharge_max b)) (val (fb_discharge_eff b)) (val (fb_self_discharge b)) (val m') (Q2R s).
Proof.
  intros ((_ & H1) & _ & (_ & H2) & (_ & H3) & _ & (_ & H4) & (_ & H5)) (_ & C0 & _) D0 (_ & HM) S0.
  unfold new_soc. cbv zeta. set (v := (s + max_charging e m s + max_discharging e m s - self_loss e s)%Q).
  assert (V : Q2R v = Q2R s + Rmin (asked_in (val (fb_charge_max b)) (val m')) (val (fb_capacity b) - Q2R s) + asked_out (val (fb_discharge_max b)) (val m' * val (fb_discharge_eff b)) - Q2R s * val (fb_self_discharge b)).
  { unfold v. rewrite Q2R_minus, !Q2R_plus. unfold self_loss. rewrite Q2R_mult, H5. f_equal. f_equal; [f_equal|].
    - unfold max_charging. cbv zeta. rewrite q2r_min, Q2R_minus, H1. f_equal. unfold asked_in. rewrite <- HM, <- H2.
      pose proof (q2r_le 0 m) as K1. pose proof (q2r_le m (b_charge_max e)) as K2. pose proof (q2r_le (b_charge_max e) m) as K3. rewrite q2r_0 in K1.
      destruct (qle 0 m), (qle m (b_charge_max e)), (qle (b_charge_max e) m); cbv iota in K1, K2, K3; cbn [andb]; rewrite ?q2r_0; unfold Rmin; rdec; lra.
    - unfold max_discharging. cbv zeta. rewrite q2r_min. set (p := (m * b_discharge_eff e)%Q).
      assert (P : Q2R p = val m' * val (fb_discharge_eff b)) by (unfold p; rewrite Q2R_mult, HM, H4; reflexivity). rewrite <- P.
      rewrite <- H3 in D0 |- *. clear - D0 S0. pose proof (q2r_lt p 0) as K1. pose proof (q2r_le (-1 * b_discharge_max e) p) as K2. pose proof (q2r_le p (-1 * b_discharge_max e)) as K3. rewrite q2r_0 in K1. rewrite q2r_m1 in K2, K3.
      set (D := Q2R (b_discharge_max e)) in *. unfold asked_out.
      destruct (qlt p 0), (qle _ p), (qle p _); cbv iota in K1, K2, K3; cbn [andb]; rewrite ?q2r_0, ?q2r_m1; fold D; unfold Rmax, Rmin; rdec; lra. }
  unfold exact_step. rewrite <- V. clear V. pose proof (q2r_le (b_capacity e) v) as K1. pose proof (q2r_le v 0) as K2. rewrite q2r_0 in K2. rewrite <- H1 in C0 |- *. clear - K1 K2 C0. unfold clamp.
  destruct (qle _ v), (qle v 0); cbv iota in K1, K2; rewrite ?q2r_0; unfold Rmax, Rmin; rdec; lra.
Qed.

(** ** A whole history *)
Lemma history_close e b ms ms' : same_battery e b -> entered b -> 0 <= val (fb_charge_max b) -> 0 <= val (fb_discharge_max b) ->
  val (fb_capacity b) <= bpow radix2 1019 -> val (fb_discharge_max b) <= bpow radix2 1019 -> Forall2 same_number ms ms' ->
  forall s s' d0, level_ok b s' -> 0 <= Q2R s -> Rabs (val s' - Q2R s) <= d0 ->
  exists l, fsoc_history b s' ms' = Ok l /\ length l = length ms' /\
    forall k x, nth_error l k = Some x -> exists y, nth_error (soc_history e s ms) k = Some y /\
      level_ok b x /\ Rabs (val x - Q2R y) <= d0 + INR (k + 1) * step_error (val (fb_capacity b)) (val (fb_discharge_max b)).
Proof.
  intros B E CM0 DM0 CB DB F. induction F as [|m m' ms ms' H F IH]; intros s s' d0 L S0 Hd; cbn [fsoc_history soc_history].
  - exists []. split; [reflexivity|]. split; [reflexivity|]. intros [|k] x X; discriminate X.
  - destruct (step_close b m' s' E (proj1 H) L CM0 DM0 CB DB) as (t' & T & LT & Er). rewrite T. cbn [bind].
    pose proof (exact_is_real e b m m' s B E DM0 H S0) as Ex. cbv zeta. set (t := new_soc e m s) in *.
    pose proof E as (_ & C0 & _ & _ & _ & _ & SD0).
    assert (T0 : 0 <= Q2R t) by (rewrite Ex; apply exact_range, C0).
    assert (Ht : Rabs (val t' - Q2R t) <= d0 + step_error (val (fb_capacity b)) (val (fb_discharge_max b))).
    { pose proof (exact_close (val (fb_capacity b)) (val (fb_charge_max b)) (val (fb_discharge_max b)) (val (fb_discharge_eff b)) (val (fb_self_discharge b)) (val m') (val s') (Q2R s) SD0) as Cl.
      rewrite <- Ex in Cl. set (g := exact_step _ _ _ _ _ _ (val s')) in *. replace (val t' - Q2R t) with ((val t' - g) + (g - Q2R t)) by ring.
      eapply Rle_trans; [apply Rabs_triang|]. lra. }
    destruct (IH t t' _ LT T0 Ht) as (l & HL & Len & Hk). rewrite HL. cbn [bind]. eexists. split; [reflexivity|]. split; [cbn; congruence|].
    intros [|k] x X; cbn [nth_error] in X |- *.
    + injection X as X. subst x. exists t. split; [reflexivity|]. split; [exact LT|]. cbn [Nat.add INR]. lra.
    + destruct (Hk k x X) as (y & Y1 & Y2 & Y3). exists y. split; [exact Y1|]. split; [exact Y2|]. replace (S k + 1)%nat with (S (k + 1)) by lia. rewrite S_INR. lra.
Qed.

(** ** Sums that may overflow upwards *)
Definition upwards (x : double) : Prop := (finite x /\ 0 <= val x) \/ x = B754_infinity false.
Lemma upwards_add x y : upwards x -> upwards y -> upwards (fadd x y).
Proof.
  intros [(X & X0)| ->] [(Y & Y0)| ->].
  - destruct (Rlt_or_le (Rabs (rnd (val x + val y))) big) as [B|B].
    + left. destruct (add_ok x y X Y B) as (F & V). split; [exact F|]. rewrite V. apply rnd_nonneg. lra.
    + right. pose proof (Bplus_correct 53 1024 _ _ mode_NE x y X Y) as H. cbn [round_mode] in H. fold (rnd (B2R x + B2R y)) in H.
      rewrite Rlt_bool_false in H by exact B. rewrite overflow_infinity in H. destruct H as (H & _).
      assert (N : val x <> 0). { intro N. rewrite N, Rplus_0_l, rnd_val in B. pose proof (val_small y). lra. }
      rewrite (sign_val x X N), Rlt_bool_false in H by exact X0. apply SF_infinity. exact H.
  - right. unfold finite in X. destruct x; try discriminate; reflexivity.
  - right. unfold finite in Y. destruct y; try discriminate; reflexivity.
  - right. reflexivity.
Qed.
Lemma upwards_mul x y : finite x -> finite y -> 0 <= val x -> 0 <= val y -> upwards (fmul x y).
Proof.
  intros X Y X0 Y0. assert (P : 0 <= rnd (val x * val y)) by (apply rnd_nonneg, Rmult_le_pos; assumption).
  destruct (product_cases x y X Y) as [(F & V)|[(E & V)|(E & V)]].
  - left. split; [exact F|]. rewrite V. exact P.
  - assert (0 < big) by apply bpow_gt_0. lra.
  - right. exact E.
Qed.
Lemma upwards_min x y : upwards x -> finite y -> 0 <= val y -> finite (fmin x y) /\ 0 <= val (fmin x y) <= val y.
Proof.
  intros [(X & X0)| ->] Y Y0.
  - destruct (fmin_ok x y X Y) as (F & V). split; [exact F|]. rewrite V. split; [apply Rmin_glb; assumption|apply Rmin_r].
  - unfold fmin. destruct (flt_infinity y false Y) as (-> & _). cbn. split; [exact Y|lra].
Qed.
