(** Specification vocabulary: a workbook whose cells are physically sensible. *)
From Coq Require Import String Ascii.
From Verif Require Import Base M_HeatPump S_HeatPump M_FixedOrder S_FixedOrder M_Excel S_Excel M_Init S_Init P_Init M_Program.
From Verif Require M_Renewables S_Renewables.
Local Open Scope string_scope.

(** Every number in these rows of a column is of this kind. *)
Definition all_in (wb : workbook) (sheet : string) (c : ascii) (rows : nat -> Prop) (kind : Q -> Prop) : Prop :=
  forall r x, rows r -> holds wb sheet c r x -> kind x.
Definition not_negative (x : Q) : Prop := (0 <= x)%Q.
Definition positive (x : Q) : Prop := (0 < x)%Q.
Definition share (x : Q) : Prop := (0 <= x <= 1)%Q.
Definition any_row (r : nat) : Prop := True.
(** Electrical storage: sizes and limits not negative, shares between 0 and 1 *)
Definition battery_sensible (wb : workbook) : Prop := let N := "Electrical storage" in
  all_in wb N "C" any_row not_negative /\ all_in wb N "D" any_row share /\ all_in wb N "E" any_row not_negative /\ all_in wb N "F" any_row not_negative /\
  all_in wb N "G" any_row share /\ all_in wb N "H" any_row share /\ all_in wb N "I" any_row share.
(** Back-up heater: a positive efficiency, and costs and energy densities that are not negative *)
Definition backup_sensible (wb : workbook) : Prop := let N := "Aux heat" in
  all_in wb N "D" (eq 6%nat) positive /\ (forall r, In r [9; 10; 11]%nat -> all_in wb N "D" (eq r) not_negative /\ all_in wb N "E" (eq r) not_negative).
(** Turbines: no negative numbers of them *)
Definition turbines_sensible (wb : workbook) : Prop := all_in wb "Wind inputs" "F" any_row not_negative.
(** Demands that are not negative *)
Definition demand_sensible (wb : workbook) : Prop := let N := "Demand input" in
  all_in wb N "D" (le 6) not_negative /\ all_in wb N "E" (le 6) not_negative.
(** A flow temperature never below the return temperature *)
Definition flow_sensible (wb : workbook) : Prop := forall ret, holds wb "Demand input" "I" 6 ret -> all_in wb "Demand input" "F" (le 6) (fun x => (ret <= x)%Q).
(** A heat pump of constant, positive COP; or any other whose COP comes out positive and whose duty does not come out negative *)
Definition heat_pump_sensible (L : libraries) (lc : lorentz_spec -> Q -> Q -> Q -> Q -> Q) (wb : workbook) (sizes : Z * Z) : Prop := let N := "Heat pump" in
  all_in wb N "D" (eq 7%nat) not_negative /\ all_in wb N "D" (eq 8%nat) not_negative /\
  (chooses model_names model_name_value wb N "D" 4 SIMPLE /\ all_in wb N "D" (eq 12%nat) positive \/
   forall o hp, set_up L wb (fst sizes) (snd sizes) = Ok o -> performance lc (o_heat_pump o) = Ok hp -> Forall perf_ok hp).
(** Orders that list no process twice and none before one it would overrule *)
Definition orders_sensible (wb : workbook) : Prop :=
  (forall l ps, order_of (xl wb "Controller" "D" 8) = Ok l -> mapM above_key l = Ok ps -> order_ok ps) /\
  (forall l ps, order_of (xl wb "Controller" "D" 9) = Ok l -> mapM below_key l = Ok ps -> order_ok ps).
(** Libraries that never answer with a negative generation, and a table of specific heats of positive numbers *)
Definition libraries_sensible (L : libraries) : Prop :=
  S_Renewables.nonneg_model (lib_wind L) /\ forall d c, lib_cp L d = Some c -> (0 < c)%Q.
Definition sensible (L : libraries) lc (wb : workbook) (sizes : Z * Z) : Prop :=
  libraries_sensible L /\ battery_sensible wb /\ backup_sensible wb /\ turbines_sensible wb /\ demand_sensible wb /\ heat_pump_sensible L lc wb sizes /\
  orders_sensible wb /\ (0 <= fst sizes)%Z /\ (snd sizes = 0%Z \/ (0 < snd sizes)%Z /\ flow_sensible wb).
(** Both orders buy what the demand still needs. *)
Definition imports_listed (wb : workbook) : Prop :=
  (forall l ps, order_of (xl wb "Controller" "D" 8) = Ok l -> mapM above_key l = Ok ps -> In Import_to_demand ps) /\
  (forall l ps, order_of (xl wb "Controller" "D" 9) = Ok l -> mapM below_key l = Ok ps -> In Import_to_demand ps).
