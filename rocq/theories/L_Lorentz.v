(** Lemmas on logarithmic means and the Lorentz model. *)
From Coq Require Import Reals Lra Psatz.
From Verif Require Import M_Lorentz S_Lorentz.
Open Scope R_scope.

(** Tangent of the logarithm. *)
Lemma ln_tangent a x : 0 < a -> 0 < x -> x <> a -> ln x - ln a < (x - a) / a.
Proof.
  intros Ha Hx Hne.
  assert (Hq : 0 < x / a) by (apply Rdiv_lt_0_compat; lra).
  assert (E : ln x - ln a = ln (x / a)).
  { unfold Rdiv. rewrite ln_mult; [|lra|apply Rinv_0_lt_compat; lra]. rewrite ln_Rinv; lra. }
  rewrite E.
  assert (Hd : (x - a) / a = x / a - 1) by (field; lra).
  rewrite Hd.
  assert (Hl : ln (x / a) <> 0).
  { intro H. assert (H1 : exp (ln (x / a)) = exp 0) by (rewrite H; reflexivity).
    rewrite exp_ln in H1 by exact Hq. rewrite exp_0 in H1.
    apply Hne. replace x with (x / a * a) by (field; lra). rewrite H1. lra. }
  pose proof (exp_ineq1 _ Hl) as H. rewrite exp_ln in H by exact Hq. lra.
Qed.

(** The logarithm increases. *)
Lemma ln_diff_neq a b : 0 < a -> 0 < b -> a <> b -> ln a - ln b <> 0.
Proof.
  intros Ha Hb Hne E. apply Hne. apply ln_inv; lra.
Qed.
Lemma ln_diff_pos a b : 0 < a -> a < b -> 0 < ln b - ln a.
Proof. intros Ha Hab. pose proof (ln_increasing a b Ha Hab). lra. Qed.

(** Strict concavity, three points. *)
Lemma ln_concave x y z : 0 < x -> x < y -> y < z ->
  (z - y) * (ln y - ln x) > (y - x) * (ln z - ln y).
Proof.
  intros Hx Hxy Hyz.
  assert (Hy : 0 < y) by lra.
  pose proof (ln_tangent y x Hy Hx ltac:(lra)) as H1.
  pose proof (ln_tangent y z Hy ltac:(lra) ltac:(lra)) as H2.
  assert (A : (z - y) * (ln y - ln x) > (z - y) * ((y - x) / y)).
  { apply Rmult_gt_compat_l; [lra|]. replace ((y - x) / y) with (- ((x - y) / y)) by (field; lra). lra. }
  assert (B : (y - x) * (ln z - ln y) < (y - x) * ((z - y) / y)).
  { apply Rmult_lt_compat_l; lra. }
  assert (C : (z - y) * ((y - x) / y) = (y - x) * ((z - y) / y)) by (field; lra).
  lra.
Qed.

Lemma div_lt_cross a b c d : 0 < b -> 0 < d -> a * d < c * b -> a / b < c / d.
Proof.
  intros Hb Hd H. apply Rmult_lt_reg_r with (b * d); [apply Rmult_lt_0_compat; lra|].
  replace (a / b * (b * d)) with (a * d) by (field; lra).
  replace (c / d * (b * d)) with (c * b) by (field; lra). exact H.
Qed.

Lemma log_mean_sym a b : 0 < a -> 0 < b -> a <> b -> log_mean a b = log_mean b a.
Proof.
  intros Ha Hb Hne. unfold log_mean. pose proof (ln_diff_neq a b Ha Hb Hne). field. split; lra.
Qed.

(** The logarithmic mean lies strictly between its arguments. *)
Lemma log_mean_between_lt a b : 0 < a -> a < b -> a < log_mean b a < b.
Proof.
  intros Ha Hab. unfold log_mean.
  pose proof (ln_diff_pos a b Ha Hab) as Hp.
  pose proof (ln_tangent a b Ha ltac:(lra) ltac:(lra)) as H1.
  pose proof (ln_tangent b a ltac:(lra) Ha ltac:(lra)) as H2.
  split.
  - apply Rmult_lt_reg_r with (ln b - ln a); [lra|].
    replace ((b - a) / (ln b - ln a) * (ln b - ln a)) with (b - a) by (field; lra).
    apply Rmult_lt_compat_l with (r := a) in H1; [|lra].
    replace (a * ((b - a) / a)) with (b - a) in H1 by (field; lra). lra.
  - apply Rmult_lt_reg_r with (ln b - ln a); [lra|].
    replace ((b - a) / (ln b - ln a) * (ln b - ln a)) with (b - a) by (field; lra).
    apply Rmult_lt_compat_l with (r := b) in H2; [|lra].
    replace (b * ((a - b) / b)) with (a - b) in H2 by (field; lra). lra.
Qed.

Lemma log_mean_between a b : 0 < a -> 0 < b -> a <> b -> Rmin a b < log_mean a b < Rmax a b.
Proof.
  intros Ha Hb Hne. destruct (Rtotal_order a b) as [H|[H|H]]; [|lra|].
  - rewrite Rmin_left, Rmax_right by lra. rewrite log_mean_sym by lra. apply log_mean_between_lt; lra.
  - rewrite Rmin_right, Rmax_left by lra. apply log_mean_between_lt; lra.
Qed.

(** Strictly increasing in the first argument. *)
Lemma log_mean_increasing a a' b : 0 < b -> 0 < a -> a < a' -> a <> b -> a' <> b ->
  log_mean a b < log_mean a' b.
Proof.
  intros Hb Ha Haa Hn Hn'.
  destruct (Rtotal_order a b) as [H|[H|H]]; [|lra|].
  - (* a < b *)
    destruct (Rtotal_order a' b) as [H'|[H'|H']]; [|lra|].
    + rewrite (log_mean_sym a b), (log_mean_sym a' b) by lra. unfold log_mean.
      pose proof (ln_concave a a' b Ha Haa H') as C.
      pose proof (ln_diff_pos a b Ha H). pose proof (ln_diff_pos a' b ltac:(lra) H').
      apply div_lt_cross; [lra|lra|]. nra.
    + pose proof (log_mean_between_lt a b Ha H) as [_ H1].
      pose proof (log_mean_between_lt b a' Hb H') as [H2 _].
      rewrite (log_mean_sym a b) by lra. lra.
  - (* b < a < a' *)
    unfold log_mean.
    pose proof (ln_concave b a a' Hb H Haa) as C.
    pose proof (ln_diff_pos b a Hb H). pose proof (ln_diff_pos b a' Hb ltac:(lra)).
    apply div_lt_cross; [lra|lra|]. nra.
Qed.

Lemma log_mean_increasing2 a b b' : 0 < a -> 0 < b -> b < b' -> a <> b -> a <> b' ->
  log_mean a b < log_mean a b'.
Proof.
  intros. rewrite (log_mean_sym a b), (log_mean_sym a b') by lra. apply log_mean_increasing; lra.
Qed.

Lemma log_mean_pos a b : 0 < a -> 0 < b -> a <> b -> 0 < log_mean a b.
Proof.
  intros Ha Hb Hne. pose proof (log_mean_between a b Ha Hb Hne) as [H _].
  assert (0 < Rmin a b) by (apply Rmin_glb_lt; lra). lra.
Qed.

(** ** The model computes these means *)
Lemma mean_temp_ok a b : 0 < kelvin a -> 0 < kelvin b -> a <> b ->
  mean_temp a b = RFin (log_mean (kelvin a) (kelvin b)).
Proof.
  unfold kelvin. intros Ha Hb Hne. unfold mean_temp, rdiv, ABS_ZERO.
  destruct (Req_EM_T (b + 27315 / 100) 0) as [E|_]; [lra|]. cbn [rbind]. unfold rlog.
  assert (Hq : 0 < (a + 27315 / 100) / (b + 27315 / 100)) by (apply Rdiv_lt_0_compat; lra).
  destruct (Rlt_dec 0 ((a + 27315 / 100) / (b + 27315 / 100))) as [_|N]; [|lra]. cbn [rbind].
  assert (E : ln ((a + 27315 / 100) / (b + 27315 / 100)) = ln (a + 27315 / 100) - ln (b + 27315 / 100)).
  { unfold Rdiv at 1. rewrite ln_mult; [|lra|apply Rinv_0_lt_compat; lra]. rewrite ln_Rinv by lra. lra. }
  rewrite E.
  pose proof (ln_diff_neq (a + 27315 / 100) (b + 27315 / 100) Ha Hb ltac:(lra)) as N.
  destruct (Req_EM_T (ln (a + 27315 / 100) - ln (b + 27315 / 100)) 0) as [Z|_]; [lra|].
  unfold log_mean. f_equal. f_equal. lra.
Qed.

Lemma mean_temp_same a : mean_temp a a = RNan.
Proof.
  unfold mean_temp, rdiv. destruct (Req_EM_T (a + ABS_ZERO) 0) as [_|N]; [reflexivity|]. cbn [rbind].
  replace ((a + ABS_ZERO) / (a + ABS_ZERO)) with 1 by (field; exact N).
  unfold rlog. destruct (Rlt_dec 0 1); [|reflexivity]. cbn [rbind]. rewrite ln_1.
  destruct (Req_EM_T 0 0); [reflexivity|lra].
Qed.

Lemma cop_lorentz_ok flow ret i o : streams flow ret i o ->
  log_mean (kelvin flow) (kelvin ret) <> log_mean (kelvin i) (kelvin o) ->
  cop_lorentz flow ret i o = RFin (lorentz_limit flow ret i o).
Proof.
  intros (Hf & Hr & Hi & Ho & N1 & N2) Hne. unfold cop_lorentz.
  rewrite !mean_temp_ok by assumption. cbn [rbind]. unfold rdiv, lorentz_limit.
  destruct (Req_EM_T _ 0) as [E|_]; [lra|reflexivity].
Qed.

Lemma kelvin_neq a b : a <> b -> kelvin a <> kelvin b.
Proof. unfold kelvin. intros H E. apply H. lra. Qed.

Lemma limit_pos flow ret i o : lifts flow ret i o -> 1 < lorentz_limit flow ret i o.
Proof.
  intros [(Hf & Hr & Hi & Ho & N1 & N2) HL].
  pose proof (log_mean_pos _ _ Hi Ho (kelvin_neq _ _ N2)) as Pc.
  unfold lorentz_limit. set (h := log_mean (kelvin flow) (kelvin ret)) in *.
  set (c := log_mean (kelvin i) (kelvin o)) in *.
  apply Rmult_lt_reg_r with (h - c); [lra|].
  replace (h / (h - c) * (h - c)) with h by (field; lra). lra.
Qed.

(** The limit in terms of the two means. *)
Lemma limit_mono h c h' c' : 0 < c -> c < h -> 0 < c' -> c' < h' -> h' * c < h * c' ->
  h / (h - c) < h' / (h' - c').
Proof. intros. apply div_lt_cross; nra. Qed.

Lemma efficiency_ok s :
  streams (s_flow s) (s_return s) (s_amb_in s) (s_amb_out s) ->
  log_mean (kelvin (s_flow s)) (kelvin (s_return s)) <> log_mean (kelvin (s_amb_in s)) (kelvin (s_amb_out s)) ->
  efficiency s = RFin (s_cop s / lorentz_limit (s_flow s) (s_return s) (s_amb_in s) (s_amb_out s)).
Proof.
  intros HS Hne. unfold efficiency. rewrite cop_lorentz_ok by assumption. cbn [rbind].
  unfold rdiv. destruct (Req_EM_T _ 0) as [E|_]; [|reflexivity].
  exfalso. destruct HS as (Hf & Hr & Hi & Ho & N1 & N2).
  pose proof (log_mean_pos _ _ Hf Hr (kelvin_neq _ _ N1)) as Ph.
  unfold lorentz_limit in E.
  set (h := log_mean (kelvin (s_flow s)) (kelvin (s_return s))) in *.
  set (c := log_mean (kelvin (s_amb_in s)) (kelvin (s_amb_out s))) in *.
  assert (h = h / (h - c) * (h - c)) by (field; lra). rewrite E in H. lra.
Qed.
Lemma source_below_sink_lifts flow ret i o : source_below_sink flow ret i o -> lifts flow ret i o.
Proof.
  intros ((Hf & Hr & Hi & Ho & N1 & N2) & A & B & C & D). split; [repeat split; assumption|].
  pose proof (log_mean_between _ _ Hf Hr (kelvin_neq _ _ N1)) as [H1 _].
  pose proof (log_mean_between _ _ Hi Ho (kelvin_neq _ _ N2)) as [_ H2].
  assert (Rmax (kelvin i) (kelvin o) <= Rmin (kelvin flow) (kelvin ret)).
  { unfold kelvin. apply Rmax_lub; apply Rmin_glb; lra. }
  lra.
Qed.

(** Increasing in both arguments together. *)
Lemma log_mean_increasing_both a a' b b' : 0 < a -> 0 < b -> a <> b -> a' <> b' -> a <= a' -> b <= b' ->
  a < a' \/ b < b' -> log_mean a b < log_mean a' b'.
Proof.
  intros Ha Hb N N' H1 H2 Hs.
  destruct (Req_EM_T a' b) as [E|E].
  - assert (Hab : a < b) by lra.
    pose proof (log_mean_between a b Ha Hb N) as [_ U]. rewrite Rmax_right in U by lra.
    pose proof (log_mean_between a' b' ltac:(lra) ltac:(lra) N') as [V _].
    rewrite Rmin_left in V by lra. lra.
  - destruct (Req_EM_T a a') as [Ea|Ea].
    + subst a'. apply log_mean_increasing2; lra.
    + pose proof (log_mean_increasing a a' b Hb Ha ltac:(lra) N E) as S1.
      destruct (Req_EM_T b b') as [Eb|Eb]; [subst b'; exact S1|].
      pose proof (log_mean_increasing2 a' b b' ltac:(lra) Hb ltac:(lra) E N') as S2. lra.
Qed.

Lemma lcop_ok s flow ret i o :
  streams (s_flow s) (s_return s) (s_amb_in s) (s_amb_out s) ->
  log_mean (kelvin (s_flow s)) (kelvin (s_return s)) <> log_mean (kelvin (s_amb_in s)) (kelvin (s_amb_out s)) ->
  streams flow ret i o ->
  log_mean (kelvin flow) (kelvin ret) <> log_mean (kelvin i) (kelvin o) ->
  lcop s flow ret i o =
  RFin (s_cop s / lorentz_limit (s_flow s) (s_return s) (s_amb_in s) (s_amb_out s) * lorentz_limit flow ret i o).
Proof.
  intros. unfold lcop. rewrite efficiency_ok, cop_lorentz_ok by assumption. reflexivity.
Qed.

Lemma spec_efficiency_pos s : heat_pump_spec s ->
  0 < s_cop s / lorentz_limit (s_flow s) (s_return s) (s_amb_in s) (s_amb_out s).
Proof.
  intros [Hc HL]. pose proof (limit_pos _ _ _ _ HL). apply Rdiv_lt_0_compat; lra.
Qed.

Lemma lcop_lifts s flow ret i o : heat_pump_spec s -> lifts flow ret i o ->
  lcop s flow ret i o =
  RFin (s_cop s / lorentz_limit (s_flow s) (s_return s) (s_amb_in s) (s_amb_out s) * lorentz_limit flow ret i o).
Proof.
  intros [Hc [HS HL]] [HS' HL']. apply lcop_ok; try assumption; lra.
Qed.

Lemma lcop_source_rises s flow ret i o i' o' : heat_pump_spec s ->
  lifts flow ret i o -> lifts flow ret i' o' -> i <= i' -> o <= o' -> i < i' \/ o < o' ->
  exists c c', lcop s flow ret i o = RFin c /\ lcop s flow ret i' o' = RFin c' /\ 0 < c < c'.
Proof.
  intros Hs HL HL' Hi Ho Hst. pose proof (spec_efficiency_pos s Hs) as Pe.
  rewrite (lcop_lifts s flow ret i o), (lcop_lifts s flow ret i' o') by assumption.
  do 2 eexists. split; [reflexivity|split; [reflexivity|]].
  pose proof (limit_pos _ _ _ _ HL) as P1.
  assert (Hlim : lorentz_limit flow ret i o < lorentz_limit flow ret i' o').
  { destruct HL as [(A1 & A2 & A3 & A4 & A5 & A6) A7]. destruct HL' as [(B1 & B2 & B3 & B4 & B5 & B6) B7].
    assert (M : log_mean (kelvin i) (kelvin o) < log_mean (kelvin i') (kelvin o')).
    { apply log_mean_increasing_both; try assumption; try (apply kelvin_neq; assumption); unfold kelvin in *; lra. }
    pose proof (log_mean_pos _ _ A3 A4 (kelvin_neq _ _ A6)).
    pose proof (log_mean_pos _ _ A1 A2 (kelvin_neq _ _ A5)).
    unfold lorentz_limit. apply limit_mono; try lra. apply Rmult_lt_compat_l; lra. }
  split; [apply Rmult_lt_0_compat; lra|apply Rmult_lt_compat_l; lra].
Qed.

Lemma lcop_sink_falls s flow ret flow' ret' i o : heat_pump_spec s ->
  lifts flow ret i o -> flow <= flow' -> ret <= ret' -> flow' <> ret' -> flow < flow' \/ ret < ret' ->
  exists c c', lcop s flow ret i o = RFin c /\ lcop s flow' ret' i o = RFin c' /\ 0 < c' < c.
Proof.
  intros Hs HL Hf Hr HN Hst. pose proof (spec_efficiency_pos s Hs) as Pe.
  assert (M : log_mean (kelvin flow) (kelvin ret) < log_mean (kelvin flow') (kelvin ret')).
  { destruct HL as [(A1 & A2 & A3 & A4 & A5 & A6) A7].
    apply log_mean_increasing_both; try assumption; try (apply kelvin_neq; assumption); unfold kelvin in *; lra. }
  assert (HL' : lifts flow' ret' i o).
  { destruct HL as [(A1 & A2 & A3 & A4 & A5 & A6) A7]. split; [|lra].
    repeat split; try assumption; unfold kelvin in *; lra. }
  rewrite (lcop_lifts s flow ret i o), (lcop_lifts s flow' ret' i o) by assumption.
  do 2 eexists. split; [reflexivity|split; [reflexivity|]].
  pose proof (limit_pos _ _ _ _ HL') as P1.
  assert (Hlim : lorentz_limit flow' ret' i o < lorentz_limit flow ret i o).
  { destruct HL as [(A1 & A2 & A3 & A4 & A5 & A6) A7]. destruct HL' as [(B1 & B2 & B3 & B4 & B5 & B6) B7].
    pose proof (log_mean_pos _ _ A3 A4 (kelvin_neq _ _ A6)).
    unfold lorentz_limit. apply limit_mono; try lra. apply Rmult_lt_compat_r; lra. }
  split; [apply Rmult_lt_0_compat; lra|apply Rmult_lt_compat_l; lra].
Qed.

Lemma lcop_isothermal s flow ret i o :
  s_flow s = s_return s \/ s_amb_in s = s_amb_out s \/ flow = ret \/ i = o -> lcop s flow ret i o = RNan.
Proof.
  intros H. unfold lcop.
  assert (E : forall a b c d, a = b \/ c = d -> cop_lorentz a b c d = RNan).
  { intros a b c d [->| ->]; unfold cop_lorentz; rewrite mean_temp_same; [reflexivity|].
    destruct (mean_temp a b); reflexivity. }
  destruct H as [H|[H|[H|H]]].
  - unfold efficiency. rewrite E by (left; exact H). reflexivity.
  - unfold efficiency. rewrite E by (right; exact H). reflexivity.
  - rewrite (E flow) by (left; exact H). destruct (efficiency s); reflexivity.
  - rewrite (E flow) by (right; exact H). destruct (efficiency s); reflexivity.
Qed.
