(** Specification vocabulary for the Lorentz heat pump: thermodynamics in kelvin. *)
From Coq Require Import Reals.
From Verif Require Import M_Lorentz.
Open Scope R_scope.

Definition kelvin (celsius : R) : R := celsius + 27315 / 100.

(** Logarithmic mean of two absolute temperatures. *)
Definition log_mean (a b : R) : R := (a - b) / (ln a - ln b).

(** The Lorentz limit: the highest COP between two streams changing temperature. *)
Definition lorentz_limit (flow ret amb_in amb_out : R) : R :=
  let hot := log_mean (kelvin flow) (kelvin ret) in
  let cold := log_mean (kelvin amb_in) (kelvin amb_out) in
  hot / (hot - cold).

(** Two streams above absolute zero, each of which changes its temperature. *)
Definition streams (flow ret amb_in amb_out : R) : Prop :=
  0 < kelvin flow /\ 0 < kelvin ret /\ 0 < kelvin amb_in /\ 0 < kelvin amb_out /\
  flow <> ret /\ amb_in <> amb_out.

(** Heat is lifted: the hot stream is on average hotter than the cold one. *)
Definition lifts (flow ret amb_in amb_out : R) : Prop :=
  streams flow ret amb_in amb_out /\
  log_mean (kelvin amb_in) (kelvin amb_out) < log_mean (kelvin flow) (kelvin ret).

(** Enough for that: the source nowhere as hot as the sink. *)
Definition source_below_sink (flow ret amb_in amb_out : R) : Prop :=
  streams flow ret amb_in amb_out /\ amb_in <= flow /\ amb_in <= ret /\ amb_out <= flow /\ amb_out <= ret.

(** A specification of a heat pump. *)
Definition heat_pump_spec (s : lorentz) : Prop :=
  0 < s_cop s /\ lifts (s_flow s) (s_return s) (s_amb_in s) (s_amb_out s).
