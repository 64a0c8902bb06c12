(** Specification vocabulary for the floating-point battery. *)
From Coq Require Import ZArith Reals QArith.
From Flocq Require Import Core IEEE754.BinarySingleNaN.
From Verif Require Import Base M_Battery M_Float.
Local Open Scope R_scope.

(** A number, not an infinity and not NaN *)
Definition finite (x : double) : Prop := is_finite x = true.
(** The real number that a float stands for *)
Definition val (x : double) : R := B2R x.
(** The relative rounding error of one operation, 2^-53 *)
Definition u53 : R := bpow radix2 (-53).
(** The level is between empty and full. *)
Definition level_ok (b : fbattery) (s : double) : Prop := finite s /\ 0 <= val s <= val (fb_capacity b).
(** A battery as it can be entered: numbers, no negative capacity, a self-discharge between 0 and 100 % *)
Definition entered (b : fbattery) : Prop :=
  finite (fb_capacity b) /\ 0 <= val (fb_capacity b) /\ finite (fb_charge_max b) /\ finite (fb_discharge_max b) /\
  finite (fb_discharge_eff b) /\ finite (fb_self_discharge b) /\ 0 <= val (fb_self_discharge b) <= 1.
(** The exact battery of [M_Battery] with the same attributes *)
Definition same_number (q : Q) (x : double) : Prop := finite x /\ Q2R q = val x.
Definition same_battery (e : battery) (b : fbattery) : Prop :=
  same_number (b_capacity e) (fb_capacity b) /\ same_number (b_initial_state e) (fb_initial_state b) /\
  same_number (b_charge_max e) (fb_charge_max b) /\ same_number (b_discharge_max e) (fb_discharge_max b) /\
  same_number (b_charge_eff e) (fb_charge_eff b) /\ same_number (b_discharge_eff e) (fb_discharge_eff b) /\
  same_number (b_self_discharge e) (fb_self_discharge b).
(** A bound on the error of one hour *)
Definition hour_error (b : fbattery) : R := u53 * (12 * val (fb_capacity b) + 4 * val (fb_discharge_max b)) + 7 * bpow radix2 (-1075).
(** Limits that are not negative and numbers far from overflowing *)
Definition ordinary (b : fbattery) : Prop :=
  entered b /\ 0 <= val (fb_charge_max b) /\ 0 <= val (fb_discharge_max b) /\ val (fb_capacity b) <= bpow radix2 1019 /\ val (fb_discharge_max b) <= bpow radix2 1019.
