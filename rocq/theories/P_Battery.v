(** Battery properties C01-C05. *)
From Verif Require Import Base M_Battery S_Battery L_Battery.

(** C01: the charge level is in range after every request of every history,
    whatever level the history starts from. *)
Theorem C01_battery_level_in_range :
  forall (b : battery) (soc : Q) (requests : list Q),
    0 <= b_capacity b ->
    Forall (fun level => 0 <= level <= b_capacity b) (soc_history b soc requests).
Proof. exact soc_history_range. Qed.
Print Assumptions C01_battery_level_in_range.

Theorem C01_battery_initial_level_in_range :
  forall b : battery, 0 <= b_capacity b -> 0 <= b_initial_state b <= 1 ->
    0 <= init_state b <= b_capacity b.
Proof. exact init_state_range. Qed.
Print Assumptions C01_battery_initial_level_in_range.

(** A 10 kWh battery with 4 kW limits, 90 % efficiencies, 1 % self-discharge. *)
Definition bat10 : battery :=
  {| b_capacity := 10; b_initial_state := 1#2; b_charge_max := 4; b_discharge_max := 3;
     b_charge_eff := 9#10; b_discharge_eff := 9#10; b_self_discharge := 1#100 |}.
Example bat10_ok : battery_ok bat10 /\ level_ok bat10 (init_state bat10).
Proof. unfold battery_ok, level_ok, init_state, bat10; cbn; repeat split; lra. Qed.
Example bat10_history :
  map Qred (soc_history bat10 5 [6; 6; -2; -100]) = [179#20; 19821#2000; 1602279#200000; 98625621#20000000].
Proof. vm_compute. reflexivity. Qed.

(** C02: the level after one hour is exactly the intended function of request and
    level; the power limits follow. *)
Theorem C02_battery_step_exact :
  forall b m soc, battery_ok b -> level_ok b soc -> new_soc b m soc == spec_next b m soc.
Proof. exact new_soc_spec. Qed.
Print Assumptions C02_battery_step_exact.

Theorem C02_battery_charge_limits :
  forall b m soc, battery_ok b -> level_ok b soc -> 0 <= m ->
    let rise := new_soc b m soc - soc in
    rise <= m /\ rise <= b_charge_max b /\ rise <= b_capacity b - soc /\
    - (soc * b_self_discharge b) <= rise.
Proof. exact charge_limits. Qed.
Print Assumptions C02_battery_charge_limits.

Theorem C02_battery_discharge_limits :
  forall b m soc, battery_ok b -> level_ok b soc -> m < 0 ->
    let fall := soc - new_soc b m soc in
    0 <= fall /\ fall <= b_discharge_max b + soc * b_self_discharge b /\
    fall <= - m * b_discharge_eff b + soc * b_self_discharge b.
Proof. exact discharge_limits. Qed.
Print Assumptions C02_battery_discharge_limits.

Theorem C02_battery_idle :
  forall b soc, battery_ok b -> level_ok b soc ->
    new_soc b 0 soc == soc - soc * b_self_discharge b.
Proof. exact idle_spec. Qed.
Print Assumptions C02_battery_idle.

(** C03, first half: no history stores more than it was offered. *)
Theorem C03_battery_no_energy_created :
  forall b soc requests, battery_ok b -> level_ok b soc ->
    soc_final b soc requests <= soc + offered requests.
Proof. exact no_energy_created. Qed.
Print Assumptions C03_battery_no_energy_created.

(** C03, second half, is false: with a discharge efficiency below one the store
    falls by LESS than what is delivered (the efficiency is applied upside down),
    and beyond the power limit or below the stored charge the request is booked by
    the controller in full. *)
Theorem C03_battery_delivery_covered_refuted :
  exists b m soc, battery_ok b /\ level_ok b soc /\ m < 0 /\
    - m <= b_discharge_max b /\ - m <= soc /\
    soc - new_soc b m soc < - m.
Proof.
  exists {| b_capacity := 10; b_initial_state := 1#2; b_charge_max := 4; b_discharge_max := 4;
            b_charge_eff := 1; b_discharge_eff := 1#2; b_self_discharge := 0 |}, (-4), 8.
  unfold battery_ok, level_ok; cbn [b_capacity b_initial_state b_charge_max b_discharge_max b_charge_eff b_discharge_eff b_self_discharge].
  repeat split; vm_compute; reflexivity || discriminate.
Qed.
Print Assumptions C03_battery_delivery_covered_refuted.

(** What remains true: with a loss-free discharge path the fall in level is exactly
    the delivered energy plus self-discharge, if power and charge suffice. *)
Theorem C03_battery_delivery_covered_partial :
  forall b m soc, battery_ok b -> level_ok b soc -> b_discharge_eff b == 1 -> m < 0 ->
    - m <= b_discharge_max b -> - m + soc * b_self_discharge b <= soc ->
    soc - new_soc b m soc == - m + soc * b_self_discharge b.
Proof. exact lossless_delivery. Qed.
Print Assumptions C03_battery_delivery_covered_partial.

(** C04 *)
Theorem C04_fill_request_bounds :
  forall b soc, battery_ok b -> level_ok b soc ->
    0 <= charge_to_capacity b soc <= b_charge_max b /\
    (charge_to_capacity b soc == b_charge_max b \/
     b_capacity b - soc <= charge_to_capacity b soc).
Proof. exact fill_request. Qed.
Print Assumptions C04_fill_request_bounds.

Theorem C04_fill_request_exact :
  forall b soc,
    charge_to_capacity b soc ==
    Qmin (b_capacity b - soc + (soc * b_self_discharge b + (b_capacity b - soc) * b_charge_eff b))
         (b_charge_max b).
Proof. exact fill_request_exact. Qed.
Print Assumptions C04_fill_request_exact.

Theorem C04_full_battery_asks_nothing :
  forall b, battery_ok b -> b_self_discharge b == 0 -> charge_to_capacity b (b_capacity b) == 0.
Proof. exact fill_full_zero. Qed.
Print Assumptions C04_full_battery_asks_nothing.

Theorem C04_fill_request_fills :
  forall b soc, battery_ok b -> level_ok b soc ->
    let soc' := new_soc b (charge_to_capacity b soc) soc in
    soc' == b_capacity b - soc * b_self_discharge b \/
    soc' == soc + b_charge_max b - soc * b_self_discharge b.
Proof. exact fill_books. Qed.
Print Assumptions C04_fill_request_fills.

(** C05 is false: every deficit query raises TypeError ... *)
Theorem C05_battery_queries_total_refuted :
  exists m soc, discharging m soc = Err TypeError /\ forall b, total_losses b m soc = Err TypeError.
Proof. exists (-1), 5. split; [reflexivity|]. intro b. apply total_losses_error. reflexivity. Qed.
Print Assumptions C05_battery_queries_total_refuted.

(** ... exactly when the request is a deficit. *)
Theorem C05_battery_queries_fail_iff_deficit :
  forall b m soc,
    (m < 0 -> discharging m soc = Err TypeError /\ total_losses b m soc = Err TypeError) /\
    (0 <= m -> discharging m soc = Ok 0 /\
       exists v, total_losses b m soc = Ok v /\
         v == (1 - b_charge_eff b) * charging b m soc - soc * b_self_discharge b).
Proof.
  intros b m soc. split; intro H; split.
  - exact (discharging_error m soc H).
  - exact (total_losses_error b m soc H).
  - exact (discharging_ok m soc H).
  - exact (total_losses_ok b m soc H).
Qed.
Print Assumptions C05_battery_queries_fail_iff_deficit.
