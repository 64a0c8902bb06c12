(** Specification vocabulary: what electricity costs over a run. *)
From Verif Require Import Base M_Battery S_Battery M_HeatPump M_Tools M_FixedOrder S_FixedOrder S_Account S_Sizing.

(** The electricity account of a run: sold less bought, in money *)
Definition earned (rs : list record) : Q := over_run (fun f => f GRID_cashflow) rs.
(** What the run has put into the battery, at a price per MWh *)
Definition gained (P : plant) (price : Q) (rs : list record) : Q := (level_after P rs - init_state (p_battery P)) * price / 1000.
(** Selling never pays better than buying costs. *)
Definition selling_pays_less (P : plant) (year : list hour_in) : Prop :=
  0 <= p_export_price P /\ forall I, In I year -> p_export_price P <= i_import_price I.
(** The orders of the year buy what the demand still needs. *)
Definition buys_the_rest (P : plant) (year : list hour_in) : Prop := forall I, In I year -> contains P I Import_to_demand.
(** The battery loses nothing by standing. *)
Definition no_leak (P : plant) : Prop := b_self_discharge (p_battery P) == 0.
(** A run in which the bigger battery leaves the account worse off, what is in the battery counted: hours and orders are meaningful, the two plants are as asked *)
Definition worse_account (P P' : plant) (year : list hour_in) : Prop :=
  bigger_battery P P' /\ plant_ok P /\ 0 <= b_initial_state (p_battery P) <= 1 /\ Forall (hour_ok P) year /\ (forall I ps, processes_of P I ps -> order_ok ps) /\
  exists n l l', run_timesteps P year 0 n = Ok l /\ run_timesteps P' year 0 n = Ok l' /\ earned l' + gained P' (p_export_price P) l' < earned l + gained P (p_export_price P) l.
