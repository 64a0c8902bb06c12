(** Specification vocabulary: a heat pump that needs less electricity. *)
From Verif Require Import Base M_HeatPump S_HeatPump M_FixedOrder.

(** The same greatest output, and no lower coefficient of performance *)
Definition cheaper_heat (x y : perf) : Prop := duty x = duty y /\ cop x <= cop y.
(** Two hours that differ only in the temperatures and in how much electricity the heat pump needs *)
Definition better_pump (I I' : hour_in) : Prop :=
  i_wind I = i_wind I' /\ i_PV I = i_PV I' /\ i_elec_demand I = i_elec_demand I' /\ i_heat_demand I = i_heat_demand I' /\
  i_import_price I = i_import_price I' /\ cheaper_heat (i_perf I) (i_perf I').
(** Two heat pumps that differ only in the fixed coefficient of performance typed into the workbook *)
Definition typed_cop (h h' : heat_pump) (c c' : Q) : Prop :=
  h_capacity h = h_capacity h' /\ h_minimum_runtime h = h_minimum_runtime h' /\ h_minimum_output h = h_minimum_output h' /\
  h_model h = MSimple c /\ h_model h' = MSimple c'.
