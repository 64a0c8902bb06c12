(** Specification vocabulary: a period simulated as a whole and in two parts. *)
From Coq Require Import String Ascii.
From Verif Require Import Base M_Excel S_Excel M_Init S_Init.
Local Open Scope string_scope.

(** The same workbook but for the sheet of the controller, where the kind of control, the setpoint and the two orders are the same too *)
Definition other_period (wb wb' : workbook) : Prop :=
  (forall N, N <> "Controller" -> wb N = wb' N) /\ forall r, In r [5; 7; 8; 9]%nat -> xl wb "Controller" "D" r = xl wb' "Controller" "D" r.
(** [wb1] simulates the first [m] hours of the period of [wb], [wb2] the [k] hours after them. *)
Definition split_period (wb wb1 wb2 : workbook) (m k : Z) : Prop :=
  other_period wb wb1 /\ other_period wb wb2 /\
  exists s, counts wb "Controller" "G" 5 s /\ counts wb "Controller" "G" 6 (m + k) /\ counts wb1 "Controller" "G" 5 s /\ counts wb1 "Controller" "G" 6 m /\
    counts wb2 "Controller" "G" 5 (s + m) /\ counts wb2 "Controller" "G" 6 k.
