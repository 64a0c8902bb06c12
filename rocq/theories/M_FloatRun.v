(** Model of the loop over the hours of controllers/fixed_order.py in binary floating point. *)
From Coq Require Import ZArith.
From Verif Require Import Base M_Battery M_FixedOrder M_Float M_FloatHour M_FloatTotals S_FloatTotals.

(** An hour of the year: with exact numbers, in floats, and the prices and settings in floats *)
Record both := { exactly : hour_in; floats : fhour; accounts : faccounts }.
(** controllers/fixed_order.py:102-157: the hours one after the other in floats, each from the level that the one before has left.  The answers of the
    store are part of the hours. *)
Fixpoint float_loop (P : plant) (F : fplant) (hours : list both) (ts : list Z) (soc : double) : res (list ffields) :=
  match ts with
  | [] => Ok []
  | t :: ts' =>
      X <- label hours t ;;
      fr <- float_hour P (exactly X) F (floats X) (accounts X) soc ;;
      rest <- float_loop P F hours ts' (fr ES_final_soc) ;;
      Ok (fr :: rest)
  end.
(** controllers/fixed_order.py:59-164, from the initial level of the battery *)
Definition float_timesteps (P : plant) (F : fplant) (hours : list both) (first steps : Z) : res (list ffields) :=
  float_loop P F hours (zrange first (first + steps)) (finit_state (fp_battery F)).
