(** Specification vocabulary: which columns of the weather sheet reach pvlib and windpowerlib. *)
From Coq Require Import String.
From Verif Require Import Base M_Renewables.

Definition no_gap (s : series) : Prop := forall x, In x s -> x <> None.
Definition some_value (s : series) : Prop := exists q, In (Some q) s.
(** A frame of hourly columns under their names, each name once: exactly the columns that meet [fit]. *)
Definition columns_of {name} (all : list (name * (wrow -> option Q))) (fit : series -> Prop) (w : list wrow) (f : list (name * series)) : Prop :=
  NoDup (map fst f) /\ forall n s, In (n, s) f <-> (exists column, In (n, column) all /\ s = map column w /\ fit s).
Definition sun_columns : list (string * (wrow -> option Q)) :=
  [("dni", w_DNI); ("ghi", w_GHI); ("dhi", w_DHI); ("air_temperature", w_air); ("wind_speed_10", w_wind_10)]%string.
Definition wind_sheet : list ((string * Z) * (wrow -> option Q)) :=
  [(("wind_speed"%string, 10%Z), w_wind_10); (("wind_speed"%string, 50%Z), w_wind_50); (("temperature"%string, 10%Z), w_air);
   (("pressure"%string, 0%Z), w_pressure); (("roughness_length"%string, 10%Z), w_roughness)].
