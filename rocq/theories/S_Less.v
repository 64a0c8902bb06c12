(** Specification vocabulary: two workbooks, the second with less demand. *)
From Coq Require Import String Ascii.
From Verif Require Import Base M_FixedOrder S_FixedOrder S_Easier M_Excel S_Excel M_Init S_Init M_Program S_Sensible.
Local Open Scope string_scope.

(** The same workbook but for the hourly demands for heat and electricity (columns D and E), which are nowhere higher *)
Definition less_demand (wb wb' : workbook) : Prop := let N := "Demand input" in
  (forall M, M <> N -> wb M = wb' M) /\
  (forall c r, In c ["F"; "G"; "I"]%char -> xl wb N c r = xl wb' N c r) /\
  (forall c r x x', In c ["D"; "E"]%char -> holds wb N c r x -> holds wb' N c r x' -> (x' <= x)%Q).
(** Orders in which the battery serves the demand before it is filled from the grid and drives the heat pump only after the grid *)
Definition simple_battery_cells (wb : workbook) : Prop :=
  (forall l ps, order_of (xl wb "Controller" "D" 8) = Ok l -> mapM above_key l = Ok ps -> simple_battery ps) /\
  (forall l ps, order_of (xl wb "Controller" "D" 9) = Ok l -> mapM below_key l = Ok ps -> simple_battery ps).
(** A flat rate; neither it nor the export price is negative. *)
Definition flat_prices (wb : workbook) : Prop :=
  says wb "Grid" "D" 5 "Flat rates" /\ all_in wb "Grid" "C" (eq 9%nat) not_negative /\ all_in wb "Grid" "D" (eq 9%nat) not_negative.
