(** Specification vocabulary: the energy account of a whole run. *)
From Verif Require Import Base M_Battery S_Battery M_HeatPump M_Tools M_FixedOrder S_FixedOrder.

(** Sum of a quantity over the hours of a run *)
Definition over_run (q : fields -> Q) (rs : list record) : Q := qsum (map (fun rc => q (rf rc)) rs).

(** Electricity the plant receives in an hour: generated on site or bought *)
Definition electricity_in (f : fields) : Q := f RES_generation_total + f GRID_total_import.
(** Electricity that leaves it: the demand, the heat pump (its own total leaves out what comes from the battery), the back-up if it is
    electric, and the sale *)
Definition electricity_out (electric : bool) (f : fields) : Q :=
  f ED_elec_demand + (f HP_elec_total_usage + f HP_elec_from_ES_to_demand) + (if electric then f AUX_usage else 0) + f GRID_total_export.
(** Electricity put into the battery less what is taken from it *)
Definition battery_net (f : fields) : Q := f ES_charging_total - f ES_discharging_total.

(** Heat of an hour: produced; and demanded or put into the store less what is taken from it *)
Definition heat_in (f : fields) : Q := f HP_heat_total_output + f AUX_demand.
Definition heat_out (f : fields) : Q := f HD_heat_demand + (f TS_charging_total - f TS_discharging_total).

(** Level of the battery after a run *)
Definition level_after (P : plant) (rs : list record) : Q := snd (state_before P rs (length rs)).

(** Meaningful data in every hour, and orders that serve both demands and sell what is left *)
Definition sound_year (P : plant) (year : list hour_in) : Prop :=
  plant_ok P /\ 0 <= b_initial_state (p_battery P) <= 1 /\
  forall I, In I year -> hour_ok P I /\ (forall ps, processes_of P I ps -> order_ok ps) /\
    contains P I Import_to_demand /\ contains P I AUX_to_demand /\ contains P I RES_to_export.
(** The minimum output of the heat pump never makes the controller change the dispatch. *)
Definition quiet_run (P : plant) (year : list hour_in) (first : Z) (rs : list record) : Prop :=
  forall i I, (i < length rs)%nat -> nth_error year (Z.to_nat (first + Z.of_nat i)) = Some I ->
    quiet P I (first + Z.of_nat i) (fst (state_before P rs i)) (snd (state_before P rs i)).
