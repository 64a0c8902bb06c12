(** Specification vocabulary: a run over part of a period. *)
From Verif Require Import Base M_Battery S_Battery M_HeatPump S_HeatPump M_Tools M_FixedOrder S_FixedOrder S_Scale.

(** Two records with the same numbers and temperatures *)
Definition same_record (rc rc' : record) : Prop := (forall f, rf rc f == rf rc' f) /\ r_nodes rc = r_nodes rc'.
(** The records of the last [k] hours of a run of [m + k] hours beginning at [first], and of a run over these [k] hours alone *)
Definition window_agrees (P : plant) (year : list hour_in) (first m k : Z) : Prop :=
  forall rs, run_timesteps P year first (m + k) = Ok rs ->
  alike (Forall2 same_record) (Ok (skipn (Z.to_nat m) rs)) (run_timesteps P year (first + m) k).
(** Nothing is carried from hour to hour: the battery has no capacity and the tank is left out. *)
Definition nothing_stored (P : plant) : Prop := b_capacity (p_battery P) == 0 /\ t_capacity (p_tank P) == 0.
