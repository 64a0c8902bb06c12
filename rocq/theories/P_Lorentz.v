(** C48: the Lorentz heat pump, over the reals. *)
From Coq Require Import Reals Lra.
From Verif Require Import M_Lorentz S_Lorentz L_Lorentz.
Open Scope R_scope.

(** The specified COP comes back at the specified temperatures. *)
Theorem C48_specification_point s :
  streams (s_flow s) (s_return s) (s_amb_in s) (s_amb_out s) ->
  log_mean (kelvin (s_flow s)) (kelvin (s_return s)) <> log_mean (kelvin (s_amb_in s)) (kelvin (s_amb_out s)) ->
  lcop s (s_flow s) (s_return s) (s_amb_in s) (s_amb_out s) = RFin (s_cop s).
Proof.
  intros HS HN. rewrite (lcop_ok s) by assumption. f_equal.
  destruct HS as (Hf & Hr & Hi & Ho & N1 & N2).
  pose proof (log_mean_pos _ _ Hf Hr (kelvin_neq _ _ N1)) as Ph.
  unfold lorentz_limit. field. split; lra.
Qed.
Print Assumptions C48_specification_point.

(** The efficiency is the specified COP over the Lorentz limit at the specified
    temperatures, and the COP at any temperatures is that share of the limit there. *)
Theorem C48_efficiency s :
  streams (s_flow s) (s_return s) (s_amb_in s) (s_amb_out s) ->
  log_mean (kelvin (s_flow s)) (kelvin (s_return s)) <> log_mean (kelvin (s_amb_in s)) (kelvin (s_amb_out s)) ->
  exists e, efficiency s = RFin e /\
    e = s_cop s / lorentz_limit (s_flow s) (s_return s) (s_amb_in s) (s_amb_out s) /\
    forall flow ret i o, streams flow ret i o ->
      log_mean (kelvin flow) (kelvin ret) <> log_mean (kelvin i) (kelvin o) ->
      lcop s flow ret i o = RFin (e * lorentz_limit flow ret i o).
Proof.
  intros HS HN. eexists. split; [exact (efficiency_ok s HS HN)|]. split; [reflexivity|].
  intros. apply lcop_ok; assumption.
Qed.
Print Assumptions C48_efficiency.

(** Duty: the specified COP times the electrical capacity, cut at the capacity. *)
Theorem C48_duty s capacity :
  lduty s capacity <= capacity /\ lduty s capacity <= s_cop s * s_elec_capacity s /\
  (lduty s capacity = capacity \/ lduty s capacity = s_cop s * s_elec_capacity s).
Proof.
  unfold lduty, Rmin. destruct (Rle_dec _ _); lra.
Qed.
Print Assumptions C48_duty.

(** While heat is lifted, a warmer source gives a strictly higher COP ... *)
Theorem C48_source_partial s flow ret i o i' o' :
  heat_pump_spec s -> lifts flow ret i o -> lifts flow ret i' o' -> i <= i' -> o <= o' -> i < i' \/ o < o' ->
  exists c c', lcop s flow ret i o = RFin c /\ lcop s flow ret i' o' = RFin c' /\ 0 < c < c'.
Proof. exact (lcop_source_rises s flow ret i o i' o'). Qed.
Print Assumptions C48_source_partial.

(** ... and a hotter sink a strictly lower one. *)
Theorem C48_sink_partial s flow ret flow' ret' i o :
  heat_pump_spec s -> lifts flow ret i o -> flow <= flow' -> ret <= ret' -> flow' <> ret' -> flow < flow' \/ ret < ret' ->
  exists c c', lcop s flow ret i o = RFin c /\ lcop s flow' ret' i o = RFin c' /\ 0 < c' < c.
Proof. exact (lcop_sink_falls s flow ret flow' ret' i o). Qed.
Print Assumptions C48_sink_partial.

(** As the simulation uses it: hour by hour, with a fixed cooling of the source. *)
Theorem C48_hour_partial s delta_t flow flow' ret ambient ambient' :
  heat_pump_spec s -> 0 < delta_t -> -27315 / 100 < ambient - delta_t -> ambient' <= ret -> ret < flow ->
  ambient <= ambient' -> flow <= flow' -> ambient < ambient' \/ flow < flow' ->
  exists c c', hour_cop s delta_t flow' ret ambient = RFin c /\
               hour_cop s delta_t flow ret ambient' = RFin c' /\ 0 < c < c'.
Proof.
  intros Hs Hd Hk H1 H2 H3 H4 Hst. unfold hour_cop.
  assert (B : forall f a, flow <= f -> ambient <= a <= ambient' -> source_below_sink f ret a (a - delta_t)).
  { intros f a Hf Ha. unfold source_below_sink, streams, kelvin. repeat split; lra. }
  pose proof (fun f a Hf Ha => source_below_sink_lifts _ _ _ _ (B f a Hf Ha)) as L.
  destruct (Req_EM_T flow flow') as [E|E].
  - subst flow'. apply C48_source_partial; try assumption; try (apply L; lra); lra.
  - destruct (C48_sink_partial s flow ret flow' ret ambient (ambient - delta_t) Hs
      (L flow ambient ltac:(lra) ltac:(lra)) H4 ltac:(lra) ltac:(lra) ltac:(lra)) as (c & c' & A1 & A2 & A3).
    destruct (Req_EM_T ambient ambient') as [Ea|Ea].
    + subst ambient'. exists c', c. repeat split; try assumption; lra.
    + destruct (C48_source_partial s flow ret ambient (ambient - delta_t) ambient' (ambient' - delta_t) Hs
        (L flow ambient ltac:(lra) ltac:(lra)) (L flow ambient' ltac:(lra) ltac:(lra)) H3 ltac:(lra) ltac:(lra))
        as (d & d' & D1 & D2 & D3).
      rewrite A1 in D1. injection D1 as <-. exists c', d'. repeat split; try assumption; lra.
Qed.
Print Assumptions C48_hour_partial.

(** A source nowhere as hot as the sink is lifted. *)
Theorem C48_lifts flow ret i o : source_below_sink flow ret i o -> lifts flow ret i o.
Proof. exact (source_below_sink_lifts flow ret i o). Qed.
Print Assumptions C48_lifts.

(** ** Cases *)
(** COP 3 at 55/45 from a source cooled from 10 to 5; 20 kW electrical. *)
Definition case_spec : lorentz :=
  {| s_cop := 3; s_flow := 55; s_return := 45; s_amb_in := 10; s_amb_out := 5; s_elec_capacity := 20 |}.

Example case_spec_ok : heat_pump_spec case_spec.
Proof.
  split; [cbn; lra|]. apply C48_lifts. cbn. unfold source_below_sink, streams, kelvin. repeat split; lra.
Qed.

Example C48_case : lcop case_spec 55 45 10 5 = RFin 3 /\ lduty case_spec 50 = 50 /\ lduty case_spec 70 = 60.
Proof.
  destruct case_spec_ok as [_ [HS HL]].
  split; [exact (C48_specification_point case_spec HS ltac:(lra))|].
  unfold lduty, Rmin. cbn [s_cop s_elec_capacity case_spec]. destruct (Rle_dec _ _), (Rle_dec _ _); lra.
Qed.

Example C48_hour_case : exists c c',
  hour_cop case_spec 5 60 45 0 = RFin c /\ hour_cop case_spec 5 55 45 12 = RFin c' /\ 0 < c < c'.
Proof. apply C48_hour_partial; first [exact case_spec_ok | lra]. Qed.

(** ** Where the property fails *)
(** A stream that keeps its temperature (a source specified with equal temperatures, a
    source cooling of zero, flow equal to return) has no COP at all: 0/0. *)
Theorem C48_isothermal s flow ret i o :
  s_flow s = s_return s \/ s_amb_in s = s_amb_out s \/ flow = ret \/ i = o -> lcop s flow ret i o = RNan.
Proof. exact (lcop_isothermal s flow ret i o). Qed.
Print Assumptions C48_isothermal.

Theorem C48_specification_refuted : exists s,
  0 < s_cop s /\ s_amb_in s < s_return s < s_flow s /\ -27315 / 100 < s_amb_in s /\
  lcop s (s_flow s) (s_return s) (s_amb_in s) (s_amb_out s) <> RFin (s_cop s) /\
  forall flow ret i o, lcop s flow ret i o = RNan.
Proof.
  exists {| s_cop := 3; s_flow := 55; s_return := 45; s_amb_in := 10; s_amb_out := 10; s_elec_capacity := 20 |}.
  cbn. repeat split; try lra.
  - rewrite C48_isothermal by (right; left; reflexivity). discriminate.
  - intros. apply C48_isothermal. right; left; reflexivity.
Qed.
Print Assumptions C48_specification_refuted.

(** Beyond the sink temperature the COP turns negative: a warmer source, a lower COP. *)
Theorem C48_source_refuted : exists s flow ret i o i' o' c c',
  heat_pump_spec s /\ streams flow ret i o /\ streams flow ret i' o' /\ i < i' /\ o < o' /\
  lcop s flow ret i o = RFin c /\ lcop s flow ret i' o' = RFin c' /\ c' < 0 < c.
Proof.
  exists case_spec, 55, 45, 10, 5, 80, 75, 3.
  pose proof case_spec_ok as Hs. pose proof (spec_efficiency_pos case_spec Hs) as Pe.
  assert (S1 : streams 55 45 10 5) by (unfold streams, kelvin; repeat split; lra).
  assert (S2 : streams 55 45 80 75) by (unfold streams, kelvin; repeat split; lra).
  assert (HN : log_mean (kelvin 55) (kelvin 45) < log_mean (kelvin 80) (kelvin 75)).
  { pose proof (log_mean_between (kelvin 55) (kelvin 45) ltac:(unfold kelvin; lra) ltac:(unfold kelvin; lra) ltac:(unfold kelvin; lra)) as [_ U].
    pose proof (log_mean_between (kelvin 80) (kelvin 75) ltac:(unfold kelvin; lra) ltac:(unfold kelvin; lra) ltac:(unfold kelvin; lra)) as [V _].
    rewrite Rmax_left in U by (unfold kelvin; lra). rewrite Rmin_right in V by (unfold kelvin; lra). unfold kelvin in *. lra. }
  destruct Hs as [Hc [HS HL]].
  eexists. split; [exact (conj Hc (conj HS HL))|]. split; [exact S1|]. split; [exact S2|].
  split; [lra|]. split; [lra|]. split; [exact (proj1 C48_case)|].
  split; [apply (lcop_ok case_spec); [exact HS|lra|exact S2|lra]|].
  split; [|lra].
  assert (N : lorentz_limit 55 45 80 75 < 0).
  { unfold lorentz_limit. pose proof (log_mean_pos (kelvin 55) (kelvin 45) ltac:(unfold kelvin; lra) ltac:(unfold kelvin; lra) ltac:(unfold kelvin; lra)) as P.
    set (h := log_mean (kelvin 55) (kelvin 45)) in *. set (c := log_mean (kelvin 80) (kelvin 75)) in *.
    assert (0 < h / (c - h)) by (apply Rdiv_lt_0_compat; lra).
    replace (h / (h - c)) with (- (h / (c - h))) by (field; lra). lra. }
  set (e := s_cop case_spec / _) in *. pose proof (Rmult_lt_compat_l e _ _ Pe N). lra.
Qed.
Print Assumptions C48_source_refuted.
