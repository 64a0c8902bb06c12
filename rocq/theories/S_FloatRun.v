(** Specification vocabulary for a whole run in floating point. *)
From Coq Require Import ZArith Reals QArith.
From Flocq Require Import Core.
From Verif Require Import Base M_Battery S_Battery M_HeatPump M_FixedOrder M_Float M_FloatHour M_FloatTotals M_FloatRun S_FixedOrder S_Account S_Float S_FloatHour S_FloatTotals.
Local Open Scope R_scope.

(** An hour that the floats can follow: the same numbers on both sides, sizes as in [in_scale] and [accounts_in_scale], and no heat pump close to the
    limits of the minimum output rule; [D] bounds what rounding can do to a flow. *)
Definition followed (k N m e d D : R) (P : plant) (F : fplant) (t : Z) (st : nodes * Q) (X : both) : Prop :=
  hour_ok P (exactly X) /\ same_hour (exactly X) (floats X) /\ same_store P (exactly X) t (fst st) (floats X) /\ same_accounts P (exactly X) (accounts X) /\
  in_scale k N F (floats X) f0 /\ accounts_in_scale m e d N F (accounts X) /\
  (forall ps, processes_of P (exactly X) ps -> (length ps <= 15)%nat /\ ~ In HP_import_to_TS ps /\ drift k N ps <= D) /\
  quiet_by (40 * (k * D)) P (exactly X) t (fst st) (snd st).
(** How far an entry may be off when the level of the battery at the start of the hour is off by [l] and the hour itself adds [E] *)
Definition off_by (m e d E l : R) (f : field) : R :=
  unit_of m e d f * E +
  match f with
  | GRID_total_import | GRID_import_for_elec_demand | GRID_import_below_setpoint | ED_import | GRID_total_export | RES_export | ED_ES | RES_ES
  | ES_charging_total | ES_discharging_total | ES_discharging_to_demand | ES_charging_from_RES | ES_final_soc => l
  | GRID_import_costs | GRID_export_income => m / 1000 * l
  | GRID_cashflow => 2 * (m / 1000 * l)
  | _ => 0
  end.
