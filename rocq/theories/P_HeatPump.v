(** Heat pump and back-up heater properties C06, C07, C46, C47. *)
From Coq Require Import String.
From Verif Require Import Base M_HeatPump S_HeatPump L_HeatPump.

(** C06 *)
Theorem C06_output_is_least_of_three :
  forall capacity elec (p : perf) demand, ~ capacity == 0 -> 0 < cop p ->
    fst (thermal_output capacity elec p demand) == Qmin (elec * cop p) (Qmin demand (duty p)) /\
    snd (thermal_output capacity elec p demand) * cop p == fst (thermal_output capacity elec p demand).
Proof. exact thermal_output_exact. Qed.
Print Assumptions C06_output_is_least_of_three.

Theorem C06_electricity_not_exceeded :
  forall capacity elec (p : perf) demand, 0 <= elec -> 0 < cop p ->
    snd (thermal_output capacity elec p demand) <= elec.
Proof. exact thermal_output_elec_bound. Qed.
Print Assumptions C06_electricity_not_exceeded.

Theorem C06_output_nonnegative :
  forall capacity elec (p : perf) demand, 0 <= elec -> 0 <= demand -> perf_ok p ->
    0 <= fst (thermal_output capacity elec p demand) /\ 0 <= snd (thermal_output capacity elec p demand).
Proof. exact thermal_output_nonneg. Qed.
Print Assumptions C06_output_nonnegative.

Theorem C06_zero_capacity_is_off :
  forall capacity elec (p : perf) demand, capacity == 0 -> thermal_output capacity elec p demand = (0, 0).
Proof. exact thermal_output_off. Qed.
Print Assumptions C06_zero_capacity_is_off.

Example hp_example :
  let p := {| cop := 3; duty := 10 |} in
  perf_ok p /\
  thermal_output 12 2 p 8 = (2 * 3, 2 * 3 / 3) /\
  thermal_output 12 5 p 8 = (8, 8 / 3) /\
  thermal_output 12 5 p 20 = (10, 10 / 3).
Proof. cbn. repeat split; cbn; lra. Qed.

(** C07 *)
Theorem C07_electricity_for_demand :
  forall capacity demand (p : perf), ~ capacity == 0 -> 0 < cop p ->
    elec_usage capacity demand p * cop p == Qmin demand (duty p).
Proof. exact elec_usage_exact. Qed.
Print Assumptions C07_electricity_for_demand.

Theorem C07_electricity_monotone :
  forall capacity d1 d2 (p : perf), 0 < cop p -> d1 <= d2 ->
    elec_usage capacity d1 p <= elec_usage capacity d2 p.
Proof. exact elec_usage_mono. Qed.
Print Assumptions C07_electricity_monotone.

Theorem C07_round_trip :
  forall capacity elec (p : perf) demand, 0 < cop p ->
    elec_usage capacity (fst (thermal_output capacity elec p demand)) p ==
    snd (thermal_output capacity elec p demand).
Proof. exact elec_round_trip. Qed.
Print Assumptions C07_round_trip.

Theorem C07_zero_capacity_needs_nothing :
  forall capacity demand (p : perf), capacity == 0 -> elec_usage capacity demand p = 0.
Proof. exact elec_usage_off. Qed.
Print Assumptions C07_zero_capacity_needs_nothing.

Example elec_usage_example : elec_usage 12 8 {| cop := 4; duty := 10 |} == 2.
Proof. reflexivity. Qed.

(** C46 *)
Theorem C46_fuel_balances_heat :
  forall efficiency demand,
    (efficiency == 0 -> fuel_usage efficiency demand = Err ZeroDivisionError) /\
    (~ efficiency == 0 -> exists used, fuel_usage efficiency demand = Ok used /\ used * efficiency == demand).
Proof. exact fuel_usage_spec. Qed.
Print Assumptions C46_fuel_balances_heat.

Theorem C46_construction :
  forall f e t,
  match make_aux f e t with
  | Ok a => a_fuel a = f /\ a_efficiency a = e /\
            (f = ELECTRIC -> a_cost a = None /\ a_energy_density a = None) /\
            (f <> ELECTRIC -> exists c d, In (f, (c, d)) t /\ a_cost a = Some c /\ a_energy_density a = Some d)
  | Err x => x = KeyError /\ f <> ELECTRIC /\ ~ exists cd, In (f, cd) t
  end.
Proof. exact make_aux_spec. Qed.
Print Assumptions C46_construction.

Example aux_example :
  (exists a, make_aux WOOD (8#10) [(GAS, (3, 10)); (WOOD, (200, 4))] = Ok a /\ a_cost a = Some 200) /\
  make_aux KEROSENE (8#10) [(GAS, (3, 10)); (WOOD, (200, 4))] = Err KeyError /\
  fuel_usage (8#10) 8 = Ok (8 / (8#10)).
Proof. repeat split. eexists. split; reflexivity. Qed.

(** Fuel names in the workbook: read case-insensitively, anything else is a KeyError. *)
Theorem C46_fuel_names :
  forall s,
    (forall f, read_fuel s = Ok f <-> fuel_value f = upper s) /\
    (forall x, read_fuel s = Err x -> x = KeyError) /\
    (read_fuel s = Err KeyError <-> ~ exists f, fuel_value f = upper s).
Proof. exact read_fuel_spec. Qed.
Print Assumptions C46_fuel_names.
Example fuel_names_example : read_fuel "Wood chips" = Ok WOOD /\ read_fuel "Coal" = Err KeyError.
Proof. split; reflexivity. Qed.

(** C47 *)
Theorem C47_scalar_becomes_year :
  forall q, exists l, check_full_year (Scalar q) = Ok (NpArray l) /\ full_year l /\ Forall (eq q) l.
Proof.
  intro q. exists (repeat q ANNUAL_HOURS). split; [apply check_full_year_scalar|]. split.
  - unfold full_year. rewrite repeat_length. apply ANNUAL_HOURS_Z.
  - apply Forall_forall. intros x H. symmetry. exact (repeat_spec _ _ _ H).
Qed.
Print Assumptions C47_scalar_becomes_year.

Theorem C47_wrong_length_rejected :
  forall l,
    (full_year l -> check_full_year (PdSeries l) = Ok (PdSeries l) /\ check_full_year (NpArray l) = Ok (NpArray l)) /\
    (~ full_year l -> check_full_year (PdSeries l) = Err ValueError /\ check_full_year (NpArray l) = Err ValueError).
Proof.
  intro l. destruct (check_full_year_series l) as [A B]. destruct (check_full_year_array l) as [C D].
  unfold full_year. split; intro H; split; auto.
Qed.
Print Assumptions C47_wrong_length_rejected.

Theorem C47_missing_model_inputs_rejected :
  make_model SIMPLE None None None = Err ValueError /\
  make_model LORENTZ None None None = Err ValueError /\
  make_model STANDARD None None None = Err ValueError.
Proof. exact make_model_missing. Qed.
Print Assumptions C47_missing_model_inputs_rejected.

(** The names in the workbook are matched up to letter case; anything else is a
    ValueError. *)
Theorem C47_names_case_insensitive :
  forall (A : Type) (members : list A) value s1 s2,
    upper s1 = upper s2 -> read_enum members value s1 = read_enum members value s2.
Proof. exact @read_enum_case_insensitive. Qed.
Print Assumptions C47_names_case_insensitive.

Theorem C47_names_checked :
  forall (A : Type) (members : list A) value s,
    (forall a, read_enum members value s = Ok a -> In a members /\ value a = upper s) /\
    (read_enum members value s = Err ValueError <-> ~ exists a, In a members /\ value a = upper s).
Proof. exact @read_enum_spec. Qed.
Print Assumptions C47_names_checked.

Example names_example :
  read_enum model_names model_name_value "Standard test regression" = Ok STANDARD /\
  read_enum hp_kinds hp_kind_value "ashp" = Ok ASHP /\
  read_enum hp_kinds hp_kind_value "boiler" = Err ValueError.
Proof. repeat split. Qed.

(** "Every model offered in the workbook can be used" is false twice over.
    The generic regression is accepted by the input reader but has no case where the
    heat pump is built. *)
Theorem C47_every_model_usable_refuted :
  exists (name : string) (m : model_name),
    read_enum model_names model_name_value name = Ok m /\
    forall ty cap dt rt mo di fl re air wat s l o,
      init_heat_pump ty m cap dt rt mo di fl re air wat s l o = Err KeyError.
Proof. exists "Generic regression"%string, GENERIC. split; [reflexivity|]. intros. apply init_generic_fails. Qed.
Print Assumptions C47_every_model_usable_refuted.

(** The Lorentz model cannot be evaluated with a constant return temperature, the
    only form the workbook reader supplies, whatever the other inputs. *)
Theorem C47_lorentz_scalar_return_always_fails :
  forall lc ty cap dt rt mo di fl q air wat s l o h,
    ~ cap == 0 ->
    init_heat_pump ty LORENTZ cap dt rt mo di fl (Scalar q) air wat s l o = Ok h ->
    performance lc h = Err AttributeError.
Proof.
  intros lc ty cap dt rt mo di fl q air wat s l o h Hc H.
  unfold init_heat_pump, make_heat_pump in H.
  destruct (check_full_year fl) as [fl'|]; cbn [bind] in H; [|discriminate].
  destruct (check_full_year (Scalar q)) as [re'|] eqn:R; cbn [bind] in H; [|discriminate].
  destruct (check_full_year (PdSeries air)); cbn [bind make_model] in H; [|discriminate].
  injection H as <-. eapply lorentz_scalar_return_fails; cbn; [exact Hc|reflexivity|exact R].
Qed.
Print Assumptions C47_lorentz_scalar_return_always_fails.

(** What does work: the simple model always, the Lorentz model on two series, the
    standard regression on a flow-temperature series (peak data only for air-source). *)
Theorem C47_simple_model_usable :
  forall lc h c, ~ h_capacity h == 0 -> h_model h = MSimple c ->
    performance lc h = Ok (repeat {| cop := c; duty := h_capacity h |} ANNUAL_HOURS).
Proof. exact performance_simple. Qed.
Print Assumptions C47_simple_model_usable.

Theorem C47_lorentz_usable_partial :
  forall lc h s f r,
  ~ h_capacity h == 0 -> h_model h = MLorentz s ->
  h_flow h = PdSeries f -> h_return h = PdSeries r ->
  full_year f -> full_year r -> full_year (heat_resource h) ->
  exists l, performance lc h = Ok l /\ full_year l /\
    forall i p, nth_error l i = Some p -> duty p <= h_capacity h.
Proof. exact performance_lorentz_series. Qed.
Print Assumptions C47_lorentz_usable_partial.

Theorem C47_standard_usable_partial :
  forall lc h o f,
  ~ h_capacity h == 0 -> h_model h = MStandard o -> h_flow h = PdSeries f ->
  full_year f -> full_year (heat_resource h) ->
  length (std_cop o (heat_resource h) f) = length f ->
  length (std_duty o (heat_resource h) f) = length f ->
  match h_data_input h, h_type h with
  | INTEGRATED, _ | PEAK, ASHP => exists l, performance lc h = Ok l /\ full_year l
  | PEAK, _ => performance lc h = Err ValueError
  end.
Proof. exact performance_standard. Qed.
Print Assumptions C47_standard_usable_partial.

Theorem C47_zero_capacity_performance :
  forall lc h, h_capacity h == 0 ->
    performance lc h = Ok (repeat {| cop := 1#2; duty := 0 |} ANNUAL_HOURS).
Proof. exact performance_zero_capacity. Qed.
Print Assumptions C47_zero_capacity_performance.

(** Generic regression (reachable through the class, not the workbook). *)
Theorem C47_generic_defrost :
  forall ty flow amb, amb <= 5 ->
  generic_cop ty flow amb == (9#10) * (match ty with
    | ASHP => (681 # 100) - (121 # 1000) * (flow - amb) + (63 # 100000) * ((flow - amb) * (flow - amb))
    | _ => (877 # 100) - (15 # 100) * (flow - amb) + (734 # 1000000) * ((flow - amb) * (flow - amb)) end).
Proof. exact generic_cop_defrost. Qed.
Print Assumptions C47_generic_defrost.

Theorem C47_generic_hotter_flow_never_better :
  forall ty f1 f2 amb, f1 <= f2 -> f2 - amb <= 96 -> generic_cop ty f2 amb <= generic_cop ty f1 amb.
Proof. exact generic_cop_antitone. Qed.
Print Assumptions C47_generic_hotter_flow_never_better.

Theorem C47_lorentz_usable_refuted :
  exists h, init_heat_pump ASHP LORENTZ 10 5 0 0 INTEGRATED (PdSeries (repeat 60 ANNUAL_HOURS)) (Scalar 40)
    (repeat 8 ANNUAL_HOURS) (repeat 8 ANNUAL_HOURS) 3
    {| l_cop := 3; l_flow := 60; l_return := 40; l_amb_in := 8; l_amb_out := 3; l_elec_capacity := 4 |}
    {| std_cop := fun a _ => a; std_duty := fun a _ => a |} = Ok h /\ full_year (heat_resource h) /\
    forall lc, performance lc h = Err AttributeError.
Proof.
  eexists. split; [|split].
  - unfold init_heat_pump, make_heat_pump. rewrite check_full_year_scalar.
    rewrite !(proj1 (check_full_year_series _)) by (rewrite repeat_length; apply ANNUAL_HOURS_Z).
    cbn. reflexivity.
  - unfold full_year, heat_resource. cbn [h_type h_air]. rewrite repeat_length. apply ANNUAL_HOURS_Z.
  - intro lc. eapply lorentz_scalar_return_fails; cbn [h_capacity h_model h_return];
      [discriminate|reflexivity|apply (check_full_year_scalar 40)].
Qed.
Print Assumptions C47_lorentz_usable_refuted.
