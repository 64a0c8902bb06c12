(** Properties C39, C40, C51. *)
From Verif Require Import Base M_HeatPump S_HeatPump L_HeatPump M_Tools S_Tools L_Tools.

(** C39 *)
Theorem C39_months_give_the_year_back :
  forall (A : Type) (year : list A), full_year year -> concat (month_split year) = year.
Proof. exact @month_split_concat. Qed.
Print Assumptions C39_months_give_the_year_back.

Theorem C39_months_have_calendar_length :
  forall (A : Type) (year : list A), full_year year ->
    map (fun m => Z.of_nat (length m)) (month_split year) = map (fun d => 24 * d)%Z days_in_month.
Proof. exact @month_split_lengths. Qed.
Print Assumptions C39_months_have_calendar_length.

(** Monthly totals are reported in MWh (divided by 1000). *)
Theorem C39_monthly_totals_are_month_sums :
  forall year, sum_monthly year = map (fun m => qsum m / 1000) (month_split year).
Proof. exact sum_monthly_eq. Qed.
Print Assumptions C39_monthly_totals_are_month_sums.

Theorem C39_monthly_totals_add_up :
  forall year, full_year year -> qsum (sum_monthly year) == sum_year year / 1000.
Proof. exact sum_monthly_total. Qed.
Print Assumptions C39_monthly_totals_add_up.

Theorem C39_monthly_means_weighted_by_hours :
  forall year, full_year year ->
    qsum (zip2 (fun m d => m * inject_Z (24 * d)) (mean_monthly year) days_in_month) == sum_year year.
Proof. exact mean_monthly_total. Qed.
Print Assumptions C39_monthly_means_weighted_by_hours.

Theorem C39_monthly_means_within_range :
  forall year lo hi, full_year year -> Forall (fun x => lo <= x <= hi) year ->
    Forall (fun x => lo <= x <= hi) (mean_monthly year).
Proof. exact mean_monthly_bounds. Qed.
Print Assumptions C39_monthly_means_within_range.

Definition ramp_year : list Q := map inject_Z (zrange 0 8760).
Example ramp_year_example :
  full_year ramp_year /\ map Qred (firstn 2 (sum_monthly ramp_year)) = [69099 # 250; 90678 # 125].
Proof. split; [unfold full_year, ramp_year; rewrite map_length|]; vm_compute; reflexivity. Qed.

(** C40 *)
Theorem C40_surplus_deficit :
  forall generation demand,
    let b := surplus_deficit_hour generation demand in
    0 <= bal_surplus b /\ 0 <= bal_deficit b /\
    (bal_surplus b == 0 \/ bal_deficit b == 0) /\
    bal_surplus b - bal_deficit b == generation - demand /\
    bal_RES_used b == demand - bal_deficit b /\
    bal_RES_used b == generation - bal_surplus b /\
    bal_match b == generation - demand.
Proof. exact surplus_deficit_hour_spec. Qed.
Print Assumptions C40_surplus_deficit.

Theorem C40_surplus_deficit_values :
  forall generation demand,
    let b := surplus_deficit_hour generation demand in
    bal_surplus b == Qmax 0 (generation - demand) /\
    bal_deficit b == Qmax 0 (demand - generation) /\
    bal_RES_used b == Qmin generation demand.
Proof. exact surplus_deficit_hour_values. Qed.
Print Assumptions C40_surplus_deficit_values.

(** The yearly table has one row per hour, each computed from that hour alone;
    series of a wrong length are rejected. *)
Theorem C40_year_table :
  forall gen dem,
  match surplus_deficit_year gen dem with
  | Ok l => full_year gen /\ full_year dem /\ full_year l /\
      forall h g d, nth_error gen h = Some g -> nth_error dem h = Some d ->
        nth_error l h = Some (surplus_deficit_hour g d)
  | Err KeyError => (Z.of_nat (length gen) < 8760 \/ Z.of_nat (length dem) < 8760)%Z
  | Err ValueError => (8760 < Z.of_nat (length gen) \/ 8760 < Z.of_nat (length dem))%Z
  | Err _ => False
  end.
Proof. exact surplus_deficit_year_spec. Qed.
Print Assumptions C40_year_table.

Example balance_example :
  surplus_deficit_hour 3 5 = {| bal_match := 3 - 5; bal_deficit := -(1) * (3 - 5); bal_surplus := 0; bal_RES_used := 3 |}.
Proof. reflexivity. Qed.

(** C51: what the balance checks mean in terms of the unrounded quantities. *)
Theorem C51_heat_demand_check :
  forall demand generated,
  match heat_demand_check demand generated with
  | Ok true => - (6#100) <= demand - generated <= 6#100
  | Ok false => 4#100 <= demand - generated
  | Err e => e = SystemExit /\ 4#100 <= generated - demand
  end.
Proof. exact heat_demand_check_spec. Qed.
Print Assumptions C51_heat_demand_check.

Theorem C51_surplus_and_deficit_check :
  forall available used,
  match surplus_check available used with
  | Ok true => round2 used < round2 available
  | Ok false => round2 used == round2 available
  | Err e => e = SystemExit /\ round2 available < round2 used
  end.
Proof. exact surplus_check_spec. Qed.
Print Assumptions C51_surplus_and_deficit_check.

Example check_example :
  heat_demand_check 5 (496#100) = Ok true /\ heat_demand_check 5 4 = Ok false /\
  heat_demand_check 5 6 = Err SystemExit /\ surplus_check 5 (4999#1000) = Ok false.
Proof. repeat split; vm_compute; reflexivity. Qed.

(** The package has a second copy of the checks.  It gives the same answers, but where the first aborts it answers nothing,
    and Python takes nothing for 'not met' and 'nothing left'. *)
Theorem C51_second_copy_agrees : forall a b x,
  (tools_heat_demand_check a b = Some x <-> heat_demand_check a b = Ok x) /\ (tools_surplus_check a b = Some x <-> surplus_check a b = Ok x).
Proof.
  intros a b x. unfold tools_heat_demand_check, heat_demand_check, tools_surplus_check, surplus_check. cbv zeta.
  split; [destruct (qeq _ 0); [|destruct (qlt 0 _)]|destruct (qlt 0 _); [|destruct (qeq _ 0)]]; split; intro H; congruence.
Qed.
Print Assumptions C51_second_copy_agrees.
Theorem C51_second_copy_silent : exists demand generated, heat_demand_check demand generated = Err SystemExit /\ tools_heat_demand_check demand generated = None /\
  surplus_check demand generated = Err SystemExit /\ tools_surplus_check demand generated = None.
Proof. exists 5, 6. repeat split; vm_compute; reflexivity. Qed.
Print Assumptions C51_second_copy_silent.
