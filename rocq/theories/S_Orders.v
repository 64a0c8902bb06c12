(** Specification vocabulary: what the numbers of an order stand for. *)
From Verif Require Import Base M_FixedOrder.

(** The entries of a record that show process number [n] of an order, by the name the number has in
    the two tables of controllers/fixed_order.py:891-919: the order for prices above the setpoint and the one for prices up
    to it are numbered differently.  Number 1 (generation to demand) books nothing, 9 (back-up) is treated apart. *)
Definition entries (high : bool) (n : Z) : list field :=
  match high, n with
  | true, 2%Z | false, 3%Z => [ED_ES; ES_discharging_to_demand]
  | true, 3%Z | false, 2%Z => [ED_import; GRID_import_for_elec_demand]
  | _, 4%Z => [HD_HP_RES; RES_HP_to_heat_demand; HP_heat_from_RES_to_demand; HP_elec_from_RES_to_demand]
  | _, 5%Z => [AUX_RES_to_demand]
  | true, 6%Z | false, 7%Z => [HD_TS]
  | true, 7%Z | false, 8%Z => [HD_HP_ES; ES_discharging_to_HP; HP_heat_from_ES_to_demand; HP_elec_from_ES_to_demand]
  | true, 8%Z | false, 6%Z => [HD_HP_import; GRID_import_for_heat_pump_to_heat_demand; HP_heat_from_import_to_demand; HP_elec_from_import_to_demand]
  | _, 10%Z => [RES_HP_to_TS; HP_heat_from_RES_to_TS; HP_elec_from_RES_to_TS; TS_HP_from_RES_to_TS]
  | _, 11%Z => [AUX_RES_to_TS; TS_aux_to_TS]
  | false, 12%Z => [GRID_import_for_heat_pump_to_TS]
  | true, 12%Z | false, 13%Z => [RES_ES; ES_charging_from_RES]
  | false, 14%Z => [GRID_import_for_ES; ES_charging_from_import]
  | true, 13%Z | false, 15%Z => [RES_export; GRID_total_export]
  | _, _ => []
  end.
(** The order that applies in an hour *)
Definition order_for (P : plant) (I : hour_in) (high : bool) (order : list Z) : Prop :=
  if high then p_setpoint P < i_import_price I /\ order = p_order_above P else i_import_price I <= p_setpoint P /\ order = p_order_below P.
