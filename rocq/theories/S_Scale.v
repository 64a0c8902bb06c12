(** Specification vocabulary: the same plant and the same data, [k] times as big. *)
From Verif Require Import Base M_Battery M_HeatPump M_Tools M_FixedOrder S_FixedOrder.

Section Scale.
Variable k : Q.
(** [k] times a number *)
Definition times (x x' : Q) : Prop := x' == k * x.
(** The same outcome: related results, or the same exception *)
Definition alike {A B} (R : A -> B -> Prop) (x : res A) (y : res B) : Prop :=
  match x, y with
  | Ok a, Ok b => R a b
  | Err e, Err e' => e = e'
  | _, _ => False
  end.
Definition times_battery (b b' : battery) : Prop :=
  times (b_capacity b) (b_capacity b') /\ b_initial_state b == b_initial_state b' /\ times (b_charge_max b) (b_charge_max b') /\ times (b_discharge_max b) (b_discharge_max b') /\
  b_charge_eff b == b_charge_eff b' /\ b_discharge_eff b == b_discharge_eff b' /\ b_self_discharge b == b_self_discharge b'.
(** [k] stores side by side: each takes its share, so that the temperatures are those of one store. *)
Definition times_tank (T T' : tank_ops) : Prop :=
  (t_capacity T == 0 <-> t_capacity T' == 0) /\ t_init T = t_init T' /\
  (forall s n src flow t, alike times (t_max T s n src flow t) (t_max T' s n src flow t)) /\
  (forall s n src flow h d h' d' t, times h h' -> times d d' -> t_new T' s n src flow h' d' t = t_new T s n src flow h d t).
Definition times_plant (P P' : plant) : Prop :=
  times_battery (p_battery P) (p_battery P') /\ times (p_hp_capacity P) (p_hp_capacity P') /\ p_min_runtime P == p_min_runtime P' /\ p_min_output P == p_min_output P' /\
  p_aux P = p_aux P' /\ times_tank (p_tank P) (p_tank P') /\ p_export_price P == p_export_price P' /\ p_setpoint P == p_setpoint P' /\
  p_order_above P = p_order_above P' /\ p_order_below P = p_order_below P' /\ times (p_max_heat P) (p_max_heat P').
Definition times_hour (I I' : hour_in) : Prop :=
  times (i_wind I) (i_wind I') /\ times (i_PV I) (i_PV I') /\ times (i_elec_demand I) (i_elec_demand I') /\ times (i_heat_demand I) (i_heat_demand I') /\
  i_source_temp I = i_source_temp I' /\ i_flow_temp I = i_flow_temp I' /\ i_import_price I == i_import_price I' /\
  cop (i_perf I) == cop (i_perf I') /\ times (duty (i_perf I)) (duty (i_perf I')).
(** Prices and the COP do not depend on the size; all other entries do. *)
Definition intensive (f : field) : bool :=
  match f with HP_cop | GRID_import_price | GRID_export_price => true | _ => false end.
Definition times_fields (r r' : fields) : Prop := forall f, r' f == (if intensive f then 1 else k) * r f.
Definition times_record (rc rc' : record) : Prop := times_fields (rf rc) (rf rc') /\ r_nodes rc = r_nodes rc'.
End Scale.
(** The heat pump delivers its minimum, or more than 0.1 kWh at both sizes, or at most 0.1 kWh at both sizes. *)
Definition clear_of_threshold (k : Q) (P : plant) (I : hour_in) (t : Z) (n : nodes) (soc : Q) : Prop :=
  forall c rc, uncorrected P I t n soc = Ok (c, rc) ->
    minimum_heat P I <= rf rc HP_heat_total_output \/
    (1 # 10 < rf rc HP_heat_total_output /\ 1 # 10 < k * rf rc HP_heat_total_output) \/
    (rf rc HP_heat_total_output <= 1 # 10 /\ k * rf rc HP_heat_total_output <= 1 # 10).
(** No rounded quantity matters in an hour of the low tariff: there is no store, and the grid-driven heat pump does not charge one. *)
Definition nothing_rounded (P : plant) : Prop := ~ In 12%Z (p_order_below P) /\ t_capacity (p_tank P) == 0.
(** The same hour with the generation divided differently between wind and sun *)
Definition same_generation (I I' : hour_in) : Prop :=
  i_wind I + i_PV I == i_wind I' + i_PV I' /\ i_elec_demand I == i_elec_demand I' /\ i_heat_demand I == i_heat_demand I' /\
  i_source_temp I = i_source_temp I' /\ i_flow_temp I = i_flow_temp I' /\ i_import_price I == i_import_price I' /\
  cop (i_perf I) == cop (i_perf I') /\ duty (i_perf I) == duty (i_perf I').
(** Same records but for the two entries of the generation *)
Definition same_but_source (rc rc' : record) : Prop :=
  (forall f, f <> RES_wind -> f <> RES_PV -> rf rc f == rf rc' f) /\ r_nodes rc = r_nodes rc'.
(** The store does not see how a number is written. *)
Definition tank_respects_numbers (T : tank_ops) : Prop :=
  forall s n src flow h d h' d' t, h == h' -> d == d' -> t_new T s n src flow h d t = t_new T s n src flow h' d' t.
