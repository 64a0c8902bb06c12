(** Specification vocabulary: two workbooks that differ in the prices of electricity. *)
From Coq Require Import String Ascii.
From Verif Require Import Base M_Excel S_Excel M_Init S_Init.
Local Open Scope string_scope.

(** The same workbook but for the sheet of the tariff; a flat rate in both, on the same side of the price setpoint *)
Definition repriced (wb wb' : workbook) : Prop := (forall N, N <> "Grid" -> wb N = wb' N) /\ says wb "Grid" "D" 5 "Flat rates" /\ says wb' "Grid" "D" 5 "Flat rates" /\
  forall x p p', holds wb "Controller" "D" 7 x -> holds wb "Grid" "C" 9 p -> holds wb' "Grid" "C" 9 p' -> (x < p <-> x < p')%Q.
(** The columns of the tables in which no price of electricity has a part *)
Definition energy_columns : list string :=
  ["local_RES_used"; "total_RES_self_consumption"; "grid_RES_used"; "total_RES_used"; "HP_size_ratio"; "HP_utilisation"; "capital_cost"; "sum_hp_output"; "sum_hp_usage"; "scop"; "sum_aux_output";
   "sum_ed_import"; "sum_RES"; "sum_import"; "sum_export"; "demand_met_RES"; "HP_met_RES"; "days_storage_content"; "heat_met_RES"].
