(** Specification vocabulary: the figures that the tables show for one combination. *)
From Coq Require Import String Ascii.
From Verif Require Import Base M_FixedOrder S_FixedOrder M_Excel S_Excel M_Init S_Init M_Program S_Sensible.
Local Open Scope string_scope.

(** Both orders list this process. *)
Definition listed (wb : workbook) (p : process) : Prop :=
  (forall l ps, order_of (xl wb "Controller" "D" 8) = Ok l -> mapM above_key l = Ok ps -> In p ps) /\
  (forall l ps, order_of (xl wb "Controller" "D" 9) = Ok l -> mapM below_key l = Ok ps -> In p ps).
(** Neither order lists it. *)
Definition unlisted (wb : workbook) (p : process) : Prop :=
  (forall l ps, order_of (xl wb "Controller" "D" 8) = Ok l -> mapM above_key l = Ok ps -> ~ In p ps) /\
  (forall l ps, order_of (xl wb "Controller" "D" 9) = Ok l -> mapM below_key l = Ok ps -> ~ In p ps).
(** No minimum output or no minimum run time in the sheet of the heat pump *)
Definition no_minimum_cells (wb : workbook) : Prop := forall x y, holds wb "Heat pump" "D" 7 x -> holds wb "Heat pump" "D" 8 y -> (x * y == 0)%Q.
