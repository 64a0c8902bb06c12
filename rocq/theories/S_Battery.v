(** Specification vocabulary for the battery, independent of the model: written
    with the standard-library [Qmin]/[Qmax] only. *)
From Verif Require Import Base M_Battery.

(** Ratings a user can enter: non-negative sizes, fractions in [0,1]. *)
Definition battery_ok (b : battery) : Prop :=
  0 <= b_capacity b /\ 0 <= b_charge_max b /\ 0 <= b_discharge_max b /\
  0 <= b_charge_eff b <= 1 /\ 0 <= b_discharge_eff b <= 1 /\
  0 <= b_self_discharge b <= 1.

Definition level_ok (b : battery) (soc : Q) : Prop := 0 <= soc <= b_capacity b.

(** What one hour should do to the charge level. *)
Definition spec_next (b : battery) (m soc : Q) : Q :=
  let leak := soc * b_self_discharge b in
  if Qlt_le_dec m 0
  then Qmax 0 (soc - Qmin (- m * b_discharge_eff b) (b_discharge_max b) - leak)
  else soc + Qmin m (Qmin (b_charge_max b) (b_capacity b - soc)) - leak.

(** Energy offered to / asked from the battery by a history of requests. *)
Definition offered (ms : list Q) : Q := qsum (map (fun m => Qmax m 0) ms).
Definition asked (ms : list Q) : Q := qsum (map (fun m => Qmax (- m) 0) ms).
