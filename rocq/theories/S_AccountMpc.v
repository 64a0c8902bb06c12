(** Specification vocabulary: the electricity account of runs under predictive control. *)
From Verif Require Import Base M_Battery S_Battery M_HeatPump S_HeatPump M_Tools M_FixedOrder S_FixedOrder M_Mpc S_Mpc S_MpcOptimal S_Account.

(** Electricity consumed and sold in an hour by a plant with electric back-up; the predictive controller's total for the heat pump includes
    what comes from the battery. *)
Definition planned_out (f : fields) : Q := f ED_elec_demand + f HP_elec_total_usage + f AUX_usage + f GRID_total_export.
(** However the differential equations are discretised: the level never rises by more than what is charged less what is discharged. *)
Definition conservative (dyn : list (Q * Q * Q * Q * Q * Q) -> Prop) : Prop :=
  forall s0 c0 d0 e0 ec0 ed0 s1 c1 d1 e1 ec1 ed1 rest,
    dyn ((s0, c0, d0, e0, ec0, ed0) :: (s1, c1, d1, e1, ec1, ed1) :: rest) -> 0 <= e1 -> 0 <= ec1 -> e1 - e0 <= ec1 - ed1.
(** The record [rc] was made from a plan (best or not). *)
Definition plan_record (dyn : list (Q * Q * Q * Q * Q * Q) -> Prop) (X : mpc) (opt : optimiser) (year : list hour_in)
  (max_cap : list Q) (hour first_hour final_hour : Z) (pv : prev) (rc : record) : Prop :=
  exists b vs nx,
    make_problem X year max_cap hour first_hour final_hour pv = Ok b /\ opt b = Ok vs /\ plan_of dyn b vs /\
    solve X opt year max_cap hour first_hour final_hour pv = Ok (rc, nx).
(** Every record after the first comes from a plan that starts from the battery level recorded before it. *)
Definition plan_run (dyn : list (Q * Q * Q * Q * Q * Q) -> Prop) (X : mpc) (opt : optimiser) (year : list hour_in)
  (max_cap : list Q) (first : Z) (rs : list record) : Prop :=
  forall i before rc, nth_error rs i = Some before -> nth_error rs (S i) = Some rc -> exists pv,
    v_soc_ES (pr_point pv) = rf before ES_final_soc /\
    plan_record dyn X opt year max_cap (first + Z.of_nat i) first (horizon_end X (first + Z.of_nat i)) pv rc.
(** The battery level at the end of a list of records, and at its beginning *)
Definition last_level (rs : list record) : Q := match rev rs with rc :: _ => rf rc ES_final_soc | [] => 0 end.
Definition first_level (rs : list record) : Q := match rs with rc :: _ => rf rc ES_final_soc | [] => 0 end.
