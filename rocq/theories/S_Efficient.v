(** Specification vocabulary: two workbooks, the second with a higher coefficient of performance. *)
From Coq Require Import String Ascii.
From Verif Require Import Base M_Excel S_Excel M_HeatPump M_Init S_Init.
Local Open Scope string_scope.

(** The same workbook but for the sheet of the heat pump.  The simple approach in both, the same least run time and least output, and a coefficient of performance that is no lower *)
Definition higher_cop (wb wb' : workbook) : Prop := let N := "Heat pump" in
  (forall M, M <> N -> wb M = wb' M) /\ chooses model_names model_name_value wb N "D" 4 SIMPLE /\ chooses model_names model_name_value wb' N "D" 4 SIMPLE /\
  xl wb N "D" 7 = xl wb' N "D" 7 /\ xl wb N "D" 8 = xl wb' N "D" 8 /\ forall c c', holds wb N "D" 12 c -> holds wb' N "D" 12 c' -> (c <= c')%Q.
