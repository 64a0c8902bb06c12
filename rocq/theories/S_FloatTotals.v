(** Specification vocabulary for the totals and accounts of an hour in floating point. *)
From Coq Require Import ZArith Reals QArith.
From Flocq Require Import Core.
From Verif Require Import Base M_Battery M_HeatPump M_FixedOrder M_Float M_FloatHour M_FloatTotals S_FixedOrder S_Float S_FloatHour.
Local Open Scope R_scope.

(** The same prices, back-up and minimum output, once with exact numbers and once with floats *)
Definition same_accounts (P : plant) (I : hour_in) (A : faccounts) : Prop :=
  same_number (i_import_price I) (fa_import_price A) /\ same_number (p_export_price P) (fa_export_price A) /\
  same_number (a_efficiency (p_aux P)) (fa_efficiency A) /\
  (forall c, a_cost (p_aux P) = Some c -> exists x, fa_cost A = Some x /\ same_number c x) /\
  (forall d, a_energy_density (p_aux P) = Some d -> exists x, fa_density A = Some x /\ same_number d x) /\
  same_number (p_min_output P) (fa_min_output A) /\ same_number (p_min_runtime P) (fa_min_runtime A) /\
  (fa_no_tank A = true <-> (t_capacity (p_tank P) == 0)%Q).
(** The sizes: [m] bounds the prices, [e] the inverse of the back-up's efficiency, [d] the energy density; the battery gives
    up no more than [N] in an hour and loses none of it by a negative efficiency; the minimum output is a percentage
    and the minimum runtime a part of an hour. *)
Record accounts_in_scale (m e d N : R) (F : fplant) (A : faccounts) : Prop := {
  as_m : 1 <= m <= bpow radix2 20; as_e : 1 <= e <= bpow radix2 20; as_d : 1 <= d <= bpow radix2 20;
  as_import : Rabs (val (fa_import_price A)) <= m; as_export : Rabs (val (fa_export_price A)) <= m;
  as_efficiency : / e <= val (fa_efficiency A);
  as_cost : forall x, fa_cost A = Some x -> Rabs (val x) <= m;
  as_density : forall x, fa_density A = Some x -> Rabs (val x) <= d;
  as_discharge : 0 <= val (fb_discharge_max (fp_battery F)) <= N;
  as_discharge_eff : 0 <= val (fb_discharge_eff (fp_battery F)) <= 1;
  as_min_output : 0 <= val (fa_min_output A) <= 100;
  as_min_runtime : 0 <= val (fa_min_runtime A) <= 60 }.
(** The unit of a field: energies in kWh, costs in pounds with prices per MWh or per kWh, the use and the mass of fuel *)
Definition unit_of (m e d : R) (f : field) : R :=
  match f with
  | GRID_import_costs | GRID_export_income | GRID_cashflow => m / 1000
  | AUX_cost => m
  | AUX_usage => e
  | AUX_mass => d * e
  | _ => 1
  end.
(** The whole hour in floats, with the order that the price of the hour selects *)
Definition float_hour (P : plant) (I : hour_in) (F : fplant) (H : fhour) (A : faccounts) (soc : double) : res ffields :=
  if qlt (p_setpoint P) (i_import_price I) then fhour_step F H A true above_key (p_order_above P) soc
  else fhour_step F H A false below_key (p_order_below P) soc.
(** The hour keeps its distance [g] from the limits of the minimum output rule. *)
Definition quiet_by (g : R) (P : plant) (I : hour_in) (t : Z) (n : nodes) (soc : Q) : Prop :=
  forall c rc, uncorrected P I t n soc = Ok (c, rc) ->
    Q2R (minimum_heat P I) + g <= Q2R (rf rc HP_heat_total_output) \/ Q2R (rf rc HP_heat_total_output) + g <= Q2R (threshold P I).
