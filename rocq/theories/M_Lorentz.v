(** Model of heat/models/lorentz.py over the real numbers.

    Simplifications: floats are reals, [np.log] is the real logarithm; a step that numpy
    answers with nan or an infinity (division by zero, logarithm of a non-positive number)
    makes the whole result [RNan].  One hour at a time: numpy applies the formulas to each
    element of the yearly arrays. *)
From Coq Require Import Reals.
Open Scope R_scope.

(** A numpy float in heat/models/lorentz.py:12-129 *)
Inductive rnum := RFin (x : R) | RNan.
(** nan and infinities propagate, heat/models/lorentz.py:12-129 *)
Definition rbind (x : rnum) (f : R -> rnum) : rnum := match x with RFin r => f r | RNan => RNan end.
(** Division, heat/models/lorentz.py:12-129 *)
Definition rdiv (a b : R) : rnum := if Req_EM_T b 0 then RNan else RFin (a / b).
(** [np.log], heat/models/lorentz.py:12-129 *)
Definition rlog (a : R) : rnum := if Rlt_dec 0 a then RFin (ln a) else RNan.

(** heat/models/constants.py:3 *)
Definition ABS_ZERO : R := 27315 / 100.

(** lorentz.py:12-36, the constructor arguments *)
Record lorentz := {
  s_cop : R; s_flow : R; s_return : R; s_amb_in : R; s_amb_out : R; s_elec_capacity : R }.

(** lorentz.py:57-59 (hot side) and 61-63 (cold side) *)
Definition mean_temp (t_in t_out : R) : rnum :=
  rbind (rdiv (t_in + ABS_ZERO) (t_out + ABS_ZERO)) (fun q =>
  rbind (rlog q) (fun l =>
  rdiv (t_in - t_out) l)).

(** lorentz.py:49-66 *)
Definition cop_lorentz (flow ret amb_in amb_out : R) : rnum :=
  rbind (mean_temp flow ret) (fun t_high_mean =>
  rbind (mean_temp amb_in amb_out) (fun t_low_mean =>
  rdiv t_high_mean (t_high_mean - t_low_mean))).

(** lorentz.py:68-91 *)
Definition efficiency (s : lorentz) : rnum :=
  rbind (cop_lorentz (s_flow s) (s_return s) (s_amb_in s) (s_amb_out s)) (fun c =>
  rdiv (s_cop s) c).

(** lorentz.py:93-116 *)
Definition lcop (s : lorentz) (flow ret amb_in amb_out : R) : rnum :=
  rbind (efficiency s) (fun e =>
  rbind (cop_lorentz flow ret amb_in amb_out) (fun c => RFin (e * c))).

(** lorentz.py:118-129 *)
Definition lduty (s : lorentz) (capacity : R) : R := Rmin (s_cop s * s_elec_capacity s) capacity.

(** heatpump.py:247-256, one hour: the source leaves [delta_t] colder than it enters. *)
Definition hour_cop (s : lorentz) (delta_t flow ret ambient : R) : rnum :=
  lcop s flow ret ambient (ambient - delta_t).
