(** Specification vocabulary: two rows of the tables of one run of the program, for heat pumps of different sizes. *)
From Coq Require Import String Ascii.
From Verif Require Import Base M_HeatPump M_Tools M_FixedOrder S_FixedOrder S_HeatPumpSize M_Excel S_Excel M_Init S_Init P_Init M_Program S_Sensible.
Local Open Scope string_scope.

(** A heat pump of constant COP that can run at any part of its output, with a COP of at least one *)
Definition plain_heat_pump (wb : workbook) : Prop := let N := "Heat pump" in
  chooses model_names model_name_value wb N "D" 4 SIMPLE /\ all_in wb N "D" (eq 12%nat) (fun x => (1 <= x)%Q) /\ all_in wb N "D" (eq 8%nat) (fun x => (x == 0)%Q).
(** Both orders use surplus for heat first and leave the battery out of it. *)
Definition surplus_first_cells (wb : workbook) : Prop :=
  (forall l ps, order_of (xl wb "Controller" "D" 8) = Ok l -> mapM above_key l = Ok ps -> surplus_first ps) /\
  (forall l ps, order_of (xl wb "Controller" "D" 9) = Ok l -> mapM below_key l = Ok ps -> surplus_first ps).
(** Both orders use the back-up. *)
Definition backup_listed (wb : workbook) : Prop :=
  (forall l ps, order_of (xl wb "Controller" "D" 8) = Ok l -> mapM above_key l = Ok ps -> In AUX_to_demand ps) /\
  (forall l ps, order_of (xl wb "Controller" "D" 9) = Ok l -> mapM below_key l = Ok ps -> In AUX_to_demand ps).
(** An electric back-up and no battery *)
Definition electric_backup (wb : workbook) : Prop := chooses fuels fuel_value wb "Aux heat" "C" 6 ELECTRIC.
Definition no_battery (wb : workbook) : Prop := all_in wb "Electrical storage" "C" any_row (fun x => (x == 0)%Q).
