{
 "claims": [
  {
   "property": "C01",
   "status": "proved",
   "theorems": [
    "C01_battery_level_in_range",
    "C01_battery_initial_level_in_range"
   ],
   "note": "Level in [0,capacity] after every request of every history."
  },
  {
   "property": "C02",
   "status": "proved",
   "theorems": [
    "C02_battery_step_exact",
    "C02_battery_charge_limits",
    "C02_battery_discharge_limits",
    "C02_battery_idle"
   ],
   "note": "Exact next level plus the derived power limits."
  },
  {
   "property": "C03",
   "status": "partial",
   "theorems": [
    "C03_battery_no_energy_created",
    "C03_battery_delivery_covered_refuted",
    "C03_battery_delivery_covered_partial"
   ],
   "note": "First half (no history stores more than offered) proved. Second half (delivered energy is covered by the fall of the level) is false when discharge efficiency < 1: C03_battery_delivery_covered_refuted; C03_battery_delivery_covered_partial gives the guarded version."
  },
  {
   "property": "C04",
   "status": "proved",
   "theorems": [
    "C04_fill_request_bounds",
    "C04_fill_request_exact",
    "C04_full_battery_asks_nothing",
    "C04_fill_request_fills"
   ],
   "note": "Exact value, bounds and effect of the fill request."
  },
  {
   "property": "C05",
   "status": "partial",
   "theorems": [
    "C05_battery_queries_total_refuted",
    "C05_battery_queries_fail_iff_deficit"
   ],
   "note": "False for every deficit because an argument is missing in the call: C05_battery_queries_total_refuted; exact failure condition in C05_battery_queries_fail_iff_deficit."
  },
  {
   "property": "C06",
   "status": "proved",
   "theorems": [
    "C06_output_is_least_of_three",
    "C06_electricity_not_exceeded",
    "C06_output_nonnegative",
    "C06_zero_capacity_is_off"
   ],
   "note": "COP > 0 assumed as in the property."
  },
  {
   "property": "C07",
   "status": "proved",
   "theorems": [
    "C07_electricity_for_demand",
    "C07_electricity_monotone",
    "C07_round_trip",
    "C07_zero_capacity_needs_nothing"
   ],
   "note": "COP > 0 assumed as in the property."
  },
  {
   "property": "C08",
   "status": "partial",
   "theorems": [
    "C08_electrical_demand_met",
    "C08_electrical_demand_met_any_data",
    "C08_electrical_demand_met_any_order_refuted"
   ],
   "note": "Proved for all hours with an order in which no process precedes the one it depends on (every increasing order, C18_increasing_orders_are_safe) and, for any data, for every duplicate-free order in which the battery is not asked after the grid. False for arbitrary duplicate-free orders: refuted with a witness."
  },
  {
   "property": "C09",
   "status": "partial",
   "theorems": [
    "C09_heat_demand_met_partial",
    "C09_heat_demand_met_low_tariff_refuted"
   ],
   "note": "Proved for hours not corrected by the minimum-output rule; at low tariff the renewable share of the back-up is missing from the heat-demand section (refuted), so the balance there is stated with that share added."
  },
  {
   "property": "C10",
   "status": "partial",
   "theorems": [
    "C10_renewable_balance_partial",
    "C10_renewables_not_used_twice",
    "C10_renewable_balance_refuted"
   ],
   "note": "Never used twice: proved for all hours. Exact balance proved unless the minimum-output rule switches the heat pump off, where it is refuted."
  },
  {
   "property": "C11",
   "status": "proved",
   "theorems": [
    "C11_costs_and_cash_flow",
    "C11_total_import",
    "C11_grid_agrees_with_consumers"
   ],
   "note": "Cost identities for all inputs; totals and agreement with consumers for hours not altered by the minimum-output rule (the altered hours are C14)."
  },
  {
   "property": "C12",
   "status": "partial",
   "theorems": [
    "C12_flows_nonnegative_partial",
    "C12_flows_nonnegative_import_first_refuted",
    "C12_flows_nonnegative_backup_first_refuted"
   ],
   "note": "Proved for safe orders; refuted for two kinds of reordered processes."
  },
  {
   "property": "C13",
   "status": "partial",
   "theorems": [
    "C13_output_within_duty_refuted",
    "C13_output_bound_partial",
    "C13_output_within_duty_without_battery_partial",
    "C13_output_within_duty_battery_last_partial"
   ],
   "note": "False: with the full order 1..13 the output can reach twice the duty (refuted). Bound 2*duty + 0.005 proved for every safe order; the duty itself under the stated order restrictions."
  },
  {
   "property": "C14",
   "status": "partial",
   "theorems": [
    "C14_minimum_output_partial",
    "C14_minimum_output_refuted",
    "C14_switched_off_partial",
    "C14_switched_off_covers_demand_refuted",
    "C14_top_up_missing_from_grid_account",
    "C14_top_up_booked_refuted"
   ],
   "note": "False in three ways (refuted with witnesses): outputs up to 0.1 kWh escape the rule, a switched-off low-tariff hour with a tank leaves demand uncovered, topped-up electricity is not in the grid account. What does hold is proved."
  },
  {
   "property": "C15",
   "status": "proved",
   "theorems": [
    "C15_charge_in_range_after_every_hour",
    "C15_hours_are_chained"
   ],
   "note": "For every start state, every tank, every order; only capacity >= 0 assumed."
  },
  {
   "property": "C16",
   "status": "proved",
   "theorems": [
    "C16_one_record_per_hour",
    "C16_beyond_the_year_fails",
    "C16_negative_start_fails",
    "C16_run_succeeds"
   ],
   "note": "Record count, hour attribution, failure beyond the year, and success for every plant whose orders are valid."
  },
  {
   "property": "C17",
   "status": "proved",
   "theorems": [
    "C17_no_dependence_on_the_future"
   ],
   "note": "Relational: two runs agreeing on the past have the same records."
  },
  {
   "property": "C18",
   "status": "proved",
   "theorems": [
    "C18_increasing_orders_are_safe",
    "C18_unknown_number_high_tariff",
    "C18_unknown_number_low_tariff",
    "C18_one_is_neutral_high_tariff",
    "C18_one_is_neutral_low_tariff",
    "C18_high_tariff_ignores_low_order",
    "C18_low_tariff_ignores_high_order"
   ],
   "note": "Unknown numbers fail, 1 is neutral, only the selected order matters."
  },
  {
   "property": "C19",
   "status": "proved",
   "theorems": [
    "C19_no_diversion_while_importing"
   ],
   "note": "For safe orders, all data."
  },
  {
   "property": "C20",
   "status": "partial",
   "theorems": [
    "C20_tank_limits_partial",
    "C20_tank_limits_switched_off_refuted"
   ],
   "note": "Proved unless the heat pump is switched off by the minimum-output rule; refuted there."
  },
  {
   "property": "C21",
   "status": "partial",
   "theorems": [
    "C21_battery_delivery_partial",
    "C21_battery_delivery_efficiency_refuted",
    "C21_battery_delivery_power_refuted"
   ],
   "note": "Proved for discharge efficiency 1 and net discharge within the power limit; refuted when either fails."
  },
  {
   "property": "C22",
   "status": "proved",
   "theorems": [
    "C22_operation_shape",
    "C22_run_shape"
   ],
   "note": "For one operation and for every hour of every run of the fixed-order controller."
  },
  {
   "property": "C23",
   "status": "partial",
   "theorems": [
    "C23_discharging_step",
    "C23_charging_step",
    "C23_charging_balance_partial",
    "C23_charging_balance_refuted"
   ],
   "note": "Discharging proved. Charging proved exactly for every state; it equals the claimed balance unless a node above the bottom is exactly at source temperature, where the source heat is counted once more per tied node (refuted), or the whole tank is hotter than the source."
  },
  {
   "property": "C24",
   "status": "partial",
   "theorems": [
    "C24_step_partial",
    "C24_tie_refuted",
    "C24_overshoot_refuted"
   ],
   "note": "Per internal step for tanks without connections and without ties; refuted with a tie and, without ties, by the first-order overshoot at full flow."
  },
  {
   "property": "C25",
   "status": "partial",
   "theorems": [
    "C25_insulation",
    "C25_ambient",
    "C25_standby_exact",
    "C25_standby_towards_ambient_partial",
    "C25_standby_refuted"
   ],
   "note": "Exact standby formula for every tank; the claim holds without connections. Refuted with connections: their loss enters with the wrong sign and heats the tank."
  },
  {
   "property": "C26",
   "status": "partial",
   "theorems": [
    "C26_zero_size",
    "C26_full_tank_absorbs_nothing",
    "C26_empty_tank_releases_nothing",
    "C26_nonnegative",
    "C26_nonnegative_refuted"
   ],
   "note": "Zero cases proved; non-negativity proved when flow temperature >= return temperature, refuted below."
  },
  {
   "property": "C27",
   "status": "partial",
   "theorems": [
    "C27_one_record_per_hour",
    "C27_one_hour_run_refuted",
    "C27_beyond_the_year",
    "C27_precalculation_covers",
    "C27_crash_window",
    "C27_near_year_end_refuted",
    "C27_last_two_hours_fail",
    "C27_completes_partial"
   ],
   "note": "Runs of two or more hours return one record per hour and runs beyond the year raise ValueError; the pre-calculated capacities cover every horizon. False as stated: a one-hour run returns no records, a run ending between two and one horizons before the end of the year always raises IndexError in the pre-calculation, and the last two hours of the year never succeed. C27_completes_partial proves completion in all remaining cases, for any optimiser that answers from the initial charge level."
  },
  {
   "property": "C28",
   "status": "partial",
   "theorems": [
    "C28_electricity",
    "C28_renewables",
    "C28_heat_pump",
    "C28_import",
    "C28_import_refuted",
    "C28_import_partial",
    "C28_renewable_columns_refuted",
    "C28_tank_exclusive_refuted",
    "C28_tank_exclusive_partial",
    "C28_heat_covered_partial",
    "C28_fuel_import_refuted"
   ],
   "note": "Electricity, renewable and heat pump balances hold for every feasible answer. False as stated: battery-driven back-up heat is counted and paid as import, the renewable battery charging is missing from the renewable columns, charging and discharging the tank at equal rates is recorded as both positive, and with another fuel the import can be negative. Exact and guarded forms are proved beside each refutation. The discretisation of the two differential equations inside GEKKO is left arbitrary."
  },
  {
   "property": "C29",
   "status": "partial",
   "theorems": [
    "C29_exact",
    "C29_problem_start",
    "C29_kept_partial",
    "C29_kept_refuted"
   ],
   "note": "C29_exact characterises every record of every run. False as stated: when the optimiser fails the hour is repeated from the initial storage state (C29_kept_refuted). Kept throughout when the optimiser always answers (C29_kept_partial)."
  },
  {
   "property": "C30",
   "status": "partial",
   "theorems": [
    "C30_known_tariffs",
    "C30_complete_inputs_give_a_series",
    "C30_whole_year",
    "C30_flat_constant",
    "C30_period_prices",
    "C30_correct_weekday_partial",
    "C30_correct_weekday_refuted"
   ],
   "note": "Year length, flat series, tariff names and the exact weekday of every priced hour are proved. False as stated for leap years: the last simulated day (30 December) gets the prices of 31 December's weekday (C30_correct_weekday_refuted); every day of an ordinary year is right (C30_correct_weekday_partial)."
  },
  {
   "property": "C31",
   "status": "proved",
   "theorems": [
    "C31_market_price",
    "C31_never_above_maximum"
   ],
   "note": "Exact price of every hour, premium in hours 16-18 only, cap."
  },
  {
   "property": "C32",
   "status": "partial",
   "theorems": [
    "C32_agreement_price",
    "C32_maximum_refuted",
    "C32_maximum_partial"
   ],
   "note": "Exact price of every hour for the three agreements and the order of the bands are proved. The maximum is not respected: the penalty is added after the cap (C32_maximum_refuted); C32_maximum_partial bounds the excess by the penalty and limits it to low-wind hours."
  },
  {
   "property": "C33",
   "status": "partial",
   "theorems": [
    "C33_sweep_exact",
    "C33_requested_grid_partial",
    "C33_nothing_beyond_maximum_refuted",
    "C33_tank_beyond_maximum_refuted",
    "C33_maximum_included_refuted",
    "C33_zero_step"
   ],
   "note": "Exact set of combinations proved for all positive steps (C33_sweep_exact). False as stated: a step that does not divide the range overshoots, the tank range uses the heat pump step, and with heat pump step 0 the largest tank is missing (three _refuted theorems). C33_requested_grid_partial gives the conditions under which the statement holds."
  },
  {
   "property": "C34",
   "status": "proved",
   "theorems": [
    "C34_names_distinct",
    "C34_names_reserved",
    "C34_sizes_read_back"
   ],
   "note": "Injectivity holds for all integers; read-back for non-negative integers as quantified."
  },
  {
   "property": "C35",
   "status": "proved",
   "theorems": [
    "C35_inputs_independent",
    "C35_inputs_written"
   ],
   "note": "Includes that files of other names are untouched."
  },
  {
   "property": "C36",
   "status": "proved",
   "theorems": [
    "C36_first_in_first_out",
    "C36_normal_stop_means_all_done",
    "C36_nothing_after_stop"
   ],
   "note": "All interleavings, any number of jobs and sessions for the order; the completeness half is for a session started from a fresh process object."
  },
  {
   "property": "C37",
   "status": "proved",
   "theorems": [
    "C37_failure_reported",
    "C37_stop_tells_the_truth",
    "C37_worker_finishes"
   ],
   "note": "A slow worker (join time-out) is treated in C56."
  },
  {
   "property": "C38",
   "status": "partial",
   "theorems": [
    "C38_starts_clean_refuted",
    "C38_job_lost_silently",
    "C38_cancel_discards_refuted",
    "C38_cancel_is_stop",
    "C38_starts_clean_partial"
   ],
   "note": "False as stated: leftovers of a crashed session are run by the next one, which can then end on the old stop mark and lose new jobs silently; cancel discards nothing. Proved for histories in which every stop returned normally."
  },
  {
   "property": "C39",
   "status": "proved",
   "theorems": [
    "C39_months_give_the_year_back",
    "C39_months_have_calendar_length",
    "C39_monthly_totals_are_month_sums",
    "C39_monthly_totals_add_up",
    "C39_monthly_means_weighted_by_hours",
    "C39_monthly_means_within_range"
   ],
   "note": "Concatenation, calendar lengths, totals and hour-weighted means."
  },
  {
   "property": "C40",
   "status": "proved",
   "theorems": [
    "C40_surplus_deficit",
    "C40_surplus_deficit_values",
    "C40_year_table"
   ],
   "note": "Exact values per hour and for the whole yearly table."
  },
  {
   "property": "C41",
   "status": "partial",
   "theorems": [
    "C41_self_consumption",
    "C41_balanced_hours",
    "C41_demand_met_refuted",
    "C41_demand_met_partial",
    "C41_fixed_order_runs",
    "C41_heat_pump_share"
   ],
   "note": "Self-consumption, heat and heat-pump shares proved to be percentages (self-consumption and heat-pump share for every good fixed-order run, the others for every run satisfying the hourly balances). The demand share is false as stated: charging the battery counts as use without being demand, giving more than 100 %; proved within 100 + the charged share."
  },
  {
   "property": "C42",
   "status": "partial",
   "theorems": [
    "C42_electric",
    "C42_other_fuel_partial",
    "C42_consistent_costs_refuted"
   ],
   "note": "Electric back-up proved, with the levelised cost. Other fuels refuted: the fuel cost enters the operating cost a thousand times smaller than the lifetime cost; the exact difference is proved."
  },
  {
   "property": "C43",
   "status": "proved",
   "theorems": [
    "C43_tiered",
    "C43_monotone_continuous",
    "C43_equal_tiers",
    "C43_income",
    "C43_unknown_kinds_fail"
   ],
   "note": "Tiered income equals the two-rate specification, is monotone and Lipschitz (hence continuous, also at the limit) and agrees with the fixed tariff for equal rates; unknown kinds fail."
  },
  {
   "property": "C44",
   "status": "proved",
   "theorems": [
    "C44_no_consent_untouched",
    "C44_nothing_lost_without_consent",
    "C44_no_old_file_survives"
   ],
   "note": "For every file-system tree, workbook path, output directory and every (possibly cut short or interleaved) list of the program's file actions. The overwrite half is for workbook names whose stem is not '', '.' or '..'."
  },
  {
   "property": "C45",
   "status": "proved",
   "theorems": [
    "C45_order_read",
    "C45_written_order_read_back",
    "C45_others_rejected",
    "C45_number_cell_rejected"
   ],
   "note": "Exact grammar of accepted text. A cell holding a number instead of text raises AttributeError (C45_number_cell_rejected)."
  },
  {
   "property": "C46",
   "status": "proved",
   "theorems": [
    "C46_fuel_balances_heat",
    "C46_construction",
    "C46_fuel_names"
   ],
   "note": "Zero efficiency raises and is covered."
  },
  {
   "property": "C47",
   "status": "partial",
   "theorems": [
    "C47_scalar_becomes_year",
    "C47_wrong_length_rejected",
    "C47_missing_model_inputs_rejected",
    "C47_names_case_insensitive",
    "C47_names_checked",
    "C47_every_model_usable_refuted",
    "C47_lorentz_scalar_return_always_fails",
    "C47_simple_model_usable",
    "C47_lorentz_usable_partial",
    "C47_standard_usable_partial",
    "C47_zero_capacity_performance",
    "C47_generic_defrost",
    "C47_generic_hotter_flow_never_better",
    "C47_lorentz_usable_refuted"
   ],
   "note": "Input checks proved. \"Every model can be used\" is false: the generic regression is rejected when the classes are built, and the Lorentz model cannot be evaluated with the scalar return temperature of the workbook (two refuted theorems); the usable cases are proved."
  },
  {
   "property": "C48",
   "status": "partial",
   "theorems": [
    "C48_specification_point",
    "C48_efficiency",
    "C48_duty",
    "C48_source_partial",
    "C48_sink_partial",
    "C48_hour_partial",
    "C48_lifts",
    "C48_isothermal",
    "C48_specification_refuted",
    "C48_source_refuted"
   ],
   "note": "Proved over the reals (standard-library axioms of R): the specification point, efficiency = COP / Lorentz limit, the exact COP at all temperatures, duty = min(COP * electrical capacity, capacity), and strict monotonicity in source and sink temperatures while heat is lifted (log mean of the sink above that of the source). Refuted without that guard: a stream that keeps its temperature (e.g. equal ambient temperatures in the specification, a source cooling of 0) has no COP, and above the sink temperature the COP turns negative."
  },
  {
   "property": "C49",
   "status": "partial",
   "theorems": [
    "C49_heat_values",
    "C49_elec_values",
    "C49_length",
    "C49_heat_bounds_partial",
    "C49_elec_bounds_partial",
    "C49_constant_partial",
    "C49_constant_refuted",
    "C49_heat_bounds_refuted"
   ],
   "note": "The value of every hour of both smoothed series is stated exactly; length is proved, constants other than 0 are preserved, electricity stays within bounds for non-negative non-zero series, heat outside hours 1 to 3; from hour 4 (7) on hour h is the mean of the hours up to h. Refuted: a zero year becomes undefined in hours 1 to 3 (1 to 6), a heat peak in hour 1 is shown four times as high in hour 2."
  },
  {
   "property": "C50",
   "status": "partial",
   "theorems": [
    "C50_plots_after_solution",
    "C50_kpis_last",
    "C50_solver_error_raised",
    "C50_solver_error_propagated_refuted",
    "C50_solver_error_propagated_partial",
    "C50_single_core_kpis_last",
    "C50_single_core_error_propagated"
   ],
   "note": "Ordering and KPI clauses proved for both branches. Propagation of the solver's own error is false when a plot failed or a join timed out (another error replaces it); proved otherwise."
  },
  {
   "property": "C51",
   "status": "proved",
   "theorems": [
    "C51_heat_demand_check",
    "C51_surplus_and_deficit_check",
    "C51_second_copy_agrees",
    "C51_second_copy_silent"
   ],
   "note": "Exact tolerance of each check. The second copy of the checks in tools.py, which nothing calls, gives the same answers but returns None where the first copy aborts."
  },
  {
   "property": "C52",
   "status": "partial",
   "theorems": [
    "C52_discharged_energy",
    "C52_charged_energy",
    "C52_delivered_energy_refuted"
   ],
   "note": "Never more than requested, and exactly the requested energy when no internal step is capped; refuted when capped."
  },
  {
   "property": "C53",
   "status": "proved",
   "theorems": [
    "C53_band_share",
    "C53_band_defined"
   ],
   "note": "Counting bounds and the exact condition for a band to exist."
  },
  {
   "property": "C54",
   "status": "partial",
   "theorems": [
    "C54_fractional_size_misread",
    "C54_sizes_used_refuted"
   ],
   "note": "False: a fractional size is dropped by the name parser, so the tank size is used as heat pump size and reading the tank size fails."
  },
  {
   "property": "C55",
   "status": "partial",
   "theorems": [
    "C55_duty_proportional_partial",
    "C55_duty_proportional_refuted",
    "C55_no_duty"
   ],
   "note": "False: the ratio is rounded to two decimals. Proved within half a percent of the workbook duty; sizes below half a percent of the capacity and workbook capacity 0 give zero duty (C55_no_duty)."
  },
  {
   "property": "C56",
   "status": "partial",
   "theorems": [
    "C56_blocking_stop_waits_refuted",
    "C56_nonblocking_stop_waits"
   ],
   "note": "False as stated: with block the wait is cut at the time-out and ValueError is raised with the worker still running; without block it waits without limit. The second fact is proved."
  },
  {
   "property": "C57",
   "status": "partial",
   "theorems": [
    "C57_nothing_else_touched_partial",
    "C57_workbook_survives_refuted",
    "C57_other_projects_survive_refuted"
   ],
   "note": "False as stated: with overwrite a workbook inside its own output folder is deleted before it is read, and workbooks named '..xlsx' or '...xlsx' delete the output directory or its parent. Proved for all other names."
  },
  {
   "property": "C58",
   "status": "partial",
   "theorems": [
    "C58_windy_hours_refuted",
    "C58_windy_hours_partial",
    "C58_no_agreement"
   ],
   "note": "False as stated: the wind output is read from the start of the year, so any run not starting at hour 0 is attributed to the wrong hours. Proved for runs from hour 0 and for tariffs without agreement."
  },
  {
   "property": "C59",
   "status": "partial",
   "theorems": [
    "C59_annualised",
    "C59_levelised_cost_refuted",
    "C59_levelised_cost_partial"
   ],
   "note": "Lifetime cost, seasonal COP, self-consumption and days of storage proved. Levelised cost refuted: the incentive of the simulated period is taken as a year's; proved when the incomes agree."
  },
  {
   "property": "C60",
   "status": "partial",
   "theorems": [
    "C60_at_least_worst",
    "C60_at_most_best_refuted",
    "C60_between_partial"
   ],
   "note": "Lower bound proved for every good run. Upper bound refuted: heat made with battery electricity counts, the electricity does not; proved for orders without battery-driven heat pump and without imported tank charging."
  },
  {
   "property": "C61",
   "status": "proved",
   "theorems": [
    "C61_rows"
   ],
   "note": "All columns of the three tables; the pickles are read through an arbitrary load function."
  },
  {
   "property": "C62",
   "status": "partial",
   "theorems": [
    "C62_heat_part_of_imports_partial",
    "C62_burnt_gas_counts_as_renewable_refuted"
   ],
   "note": "Proved for electric back-up. Refuted for other fuels: heat of a gas burner in a windy hour counts as renewable."
  },
  {
   "property": "C63",
   "status": "partial",
   "theorems": [
    "C63_fuel_with_tank_fails",
    "C63_fuels_refuted",
    "C63_fuels_partial"
   ],
   "note": "False: a tank together with a back-up that is not electric makes every run fail (final node temperatures never assigned). Proved for electric back-up or no tank."
  },
  {
   "property": "C64",
   "status": "partial",
   "theorems": [
    "C64_own_hour_partial",
    "C64_first_hour",
    "C64_last_hour",
    "C64_own_hour_refuted"
   ],
   "note": "Proved for every position except the first and the last hour of the year; those two records are made up (C64_first_hour, C64_last_hour, refutation C64_own_hour_refuted)."
  },
  {
   "property": "C65",
   "status": "partial",
   "theorems": [
    "C65_electric_bounded",
    "C65_fuel_unbounded",
    "C65_bounded_refuted"
   ],
   "note": "Proved for electric back-up with the explicit bound of exporting all generation; with any other fuel the objective is unbounded below as soon as a feasible plan exists."
  },
  {
   "property": "C66",
   "status": "partial",
   "theorems": [
    "C66_backup_cost",
    "C66_electric_cost_refuted"
   ],
   "note": "Proved for fuels; for electric back-up the recorded cost is always zero (the price is read before it is set)."
  },
  {
   "property": "C67",
   "status": "proved",
   "theorems": [
    "C67_self_consumption",
    "C67_size_ratio",
    "C67_utilisation",
    "C67_storage_days",
    "C67_capital_cost",
    "C67_electricity_cost"
   ],
   "note": "Rounded ratios are stated within half a unit of their last digit; the price of a store per cubic metre is a parameter."
  },
  {
   "property": "C68",
   "status": "partial",
   "theorems": [
    "C68_exact",
    "C68_cost_of_heat_partial",
    "C68_cost_of_heat_refuted"
   ],
   "note": "Proved for electric back-up. For other fuels the fuel cost enters divided by 1000, so the cost of heat is too small (C68_cost_of_heat_refuted); C68_exact gives both costs exactly."
  },
  {
   "property": "C69",
   "status": "proved",
   "theorems": [
    "C69_heat_hour",
    "C69_heat_total",
    "C69_sheet",
    "C69_factor",
    "C69_more_dwellings",
    "C69_more_smoothed"
   ],
   "note": "Exact hourly formula, totality, factor table, sheet for every temperature, proportionality before and after smoothing."
  },
  {
   "property": "C70",
   "status": "partial",
   "theorems": [
    "C70_elec_hour",
    "C70_elec_total",
    "C70_calendar",
    "C70_season_partial",
    "C70_season_refuted",
    "C70_no_dwellings_refuted"
   ],
   "note": "Exact hourly formula with the Gregorian calendar proved; refuted: autumn lasts until mid December although the comments end it on 27 October, and without dwellings the smoothed series has 13 values."
  },
  {
   "property": "C71",
   "status": "partial",
   "theorems": [
    "C71_with_tables_partial",
    "C71_heat_never",
    "C71_elec_never"
   ],
   "note": "Refuted for the shipped files: both functions look for paths that do not exist, C71_heat_never and C71_elec_never hold for all inputs. C71_with_tables_partial: were the tables at those paths, a year of 8760 values results."
  },
  {
   "property": "C72",
   "status": "partial",
   "theorems": [
    "C72_value",
    "C72_hours",
    "C72_nonneg",
    "C72_none",
    "C72_missing",
    "C72_proportional",
    "C72_monotone",
    "C72_wrong_year",
    "C72_completes",
    "C72_month_partial",
    "C72_month_refuted",
    "C72_given"
   ],
   "note": "Everything proved except the month: the year is cut into blocks of 730 hours, so 20:00 on 31 January gets February's factor (C72_month_refuted); C72_given: which weather columns are handed to pvlib; C72_month_partial: the factor is that of the month of an hour at most 44 hours away."
  },
  {
   "property": "C73",
   "status": "partial",
   "theorems": [
    "C73_user",
    "C73_database",
    "C73_farm",
    "C73_none",
    "C73_hours",
    "C73_nonneg",
    "C73_missing",
    "C73_scaling",
    "C73_same_turbine_refuted",
    "C73_same_turbine_partial",
    "C73_given"
   ],
   "note": "Formulas, bounds, scaling proved, and which weather columns are handed to windpowerlib (C73_given). Refuted: the same turbine delivers half as much when taken from the database (factor 0.5 applied there only); C73_same_turbine_partial gives the exact relation."
  },
  {
   "property": "C74",
   "status": "partial",
   "theorems": [
    "C74_sum",
    "C74_complete",
    "C74_complete_refuted"
   ],
   "note": "Sums proved. Refuted: a missing value of windpowerlib leaves the total missing although PV counts it as zero; C74_complete for complete library answers."
  },
  {
   "property": "C75",
   "status": "partial",
   "theorems": [
    "C75_ignored",
    "C75_inverter_refuted",
    "C75_module_partial",
    "C75_air_temperature",
    "C75_air_temperature_refuted"
   ],
   "note": "Refuted: the inverter is a constant, surface type, location name and altitude are never read, and air temperature and wind speed are handed to pvlib under names it does not know (C75_ignored, C75_air_temperature hold for all inputs). C75_module_partial: what is used."
  },
  {
   "property": "C76",
   "status": "partial",
   "theorems": [
    "C76_wind_user_never",
    "C76_wind_database_never",
    "C76_total_never",
    "C76_wind_refuted",
    "C76_PV_partial"
   ],
   "note": "Refuted for all inputs: the wind helpers ask for the other helper's column (KeyError), the total calls them without arguments (TypeError). C76_PV_partial: the PV helper works."
  },
  {
   "property": "C77",
   "status": "partial",
   "theorems": [
    "C77_found",
    "C77_refused",
    "C77_library_name",
    "C77_distinct_refuted",
    "C77_distinct_partial"
   ],
   "note": "Found/refused proved for all names. Refuted: names that differ in separators only are not told apart; C77_distinct_partial for names without separators."
  },
  {
   "property": "C78",
   "status": "proved",
   "theorems": [
    "C78_contract_met",
    "C78_best",
    "C78_exact",
    "C78_balanced",
    "C78_mean",
    "C78_unique",
    "C78_scaled",
    "C78_hour"
   ],
   "note": "for every fitting function that minimises the sum of squared errors (contract of LinearRegression, met by an executable Gram-Schmidt fit): best quadratic surface for COP and duty, exact reproduction, errors cancel against every quadratic weight, uniqueness up to row order and algorithm, scaling with the sweep ratio, value of every hour."
  },
  {
   "property": "C79",
   "status": "partial",
   "theorems": [
    "C79_used",
    "C79_refused",
    "C79_built",
    "C79_lengths",
    "C79_needed_refuted",
    "C79_needed_partial"
   ],
   "note": "exact set of rows: the first eight of each table without any empty cell. False as stated: a row lacking only the capacity percentage, which the regression never uses, is silently left out (refuted); with the percentage filled in it is used (partial)."
  },
  {
   "property": "C80",
   "status": "partial",
   "theorems": [
    "C80_positive_refuted",
    "C80_duty_refuted",
    "C80_positive_partial"
   ],
   "note": "false: six positive results on a plane, tested from -5 to 5 degrees, give a COP of -1 at -15 degrees (and a negative heat output at -40) with every least-squares fit (refuted); at the tested temperatures results on a quadratic surface stay positive (partial)."
  },
  {
   "property": "C81",
   "status": "proved",
   "theorems": [
    "C81_completes",
    "C81_sweep",
    "C81_controller",
    "C81_heating",
    "C81_grid",
    "C81_backup",
    "C81_tank",
    "C81_heat_pump",
    "C81_choices"
   ],
   "note": "for every workbook without headings in the first row; success for every workbook reaching far enough with readable texts (C81_completes), each value equal to its cell, choices read in any case."
  },
  {
   "property": "C82",
   "status": "proved",
   "theorems": [
    "C82_weather",
    "C82_demand",
    "C82_wind_farm",
    "C82_tariffs",
    "C82_dwellings",
    "C82_length"
   ],
   "note": "weather, demand, wind farm, tariffs, dwellings: column and rows exactly; dwellings also take every row after 37."
  },
  {
   "property": "C83",
   "status": "partial",
   "theorems": [
    "C83_battery",
    "C83_battery_missing",
    "C83_PV",
    "C83_PV_missing",
    "C83_turbines",
    "C83_power_curve",
    "C83_note_refuted",
    "C83_note_partial"
   ],
   "note": "exact rule proved (first row without an empty cell, C83_battery, C83_PV, C83_turbines, C83_power_curve; errors without one). False as stated: a note in a column right of the table makes every row incomplete and the run stops with IndexError (C83_note_refuted); with a sheet ending at the last column of the table the filled-in row is used (C83_note_partial)."
  },
  {
   "property": "C84",
   "status": "partial",
   "theorems": [
    "C84_used",
    "C84_eighth_row_refuted",
    "C84_eighth_row_partial",
    "C84_extra_column"
   ],
   "note": "exact set of results proved (C84_used). False as stated: the eighth row of the two lower tables is never read (C84_eighth_row_refuted); rows 41 to 47 are always used (C84_eighth_row_partial); anything right of column S makes the tables unusable (C84_extra_column)."
  },
  {
   "property": "C85",
   "status": "proved",
   "theorems": [
    "C85_battery",
    "C85_tank",
    "C85_turbines",
    "C85_PV",
    "C85_backup",
    "C85_tariff",
    "C85_heat_pump",
    "C85_completes"
   ],
   "note": "every parameter traced to its cell; C85_completes: a filled-in workbook (filled_in) with one of the tariffs flat, variable periods or wholesale always sets up; the PPA tariffs, which run the wind farm model, are covered by C85_tariff once set up. Libraries (pvlib, windpowerlib, sklearn, the cube root of the tank width) are parameters."
  },
  {
   "property": "C86",
   "status": "proved",
   "theorems": [
    "C86_sizes_only",
    "C86_independent"
   ],
   "note": "for every workbook without headings in the first row and reaching as far as the program reads."
  },
  {
   "property": "C87",
   "status": "partial",
   "theorems": [
    "C87_ignored",
    "C87_entered_refuted"
   ],
   "note": "false: the cells for capacity, height, width and insulation thickness of the tank have no effect whatsoever (C87_ignored, for all workbooks and sizes; C87_entered_refuted)."
  },
  {
   "property": "C88",
   "status": "partial",
   "theorems": [
    "C88_usable_partial",
    "C88_lorentz_refuted",
    "C88_lorentz_always",
    "C88_generic_never",
    "C88_peak_never"
   ],
   "note": "false as stated: the Lorentz approach always fails with AttributeError (C88_lorentz_refuted, C88_lorentz_always), the generic regression never sets up (C88_generic_never), peak data of ground and water source heat pumps fail (C88_peak_never). All other choices give a full year (C88_usable_partial)."
  },
  {
   "property": "C89",
   "status": "partial",
   "theorems": [
    "C89_points",
    "C89_nodes",
    "C89_node_names",
    "C89_hours_partial",
    "C89_start_refuted",
    "C89_operation_refuted",
    "C89_captions",
    "C89_cashflow_unit_refuted"
   ],
   "note": "Content, legend, order, titles and labels of all curves proved for any results. The position on the axis is proved for runs starting with the year, except the operation figure of the winter and summer week; both exceptions are refuted (and the cash flow in pounds is labelled Pounds/MWh): a later start is drawn from hour 0 on, and the weeks of the operation figure from 0 to 167."
  },
  {
   "property": "C90",
   "status": "partial",
   "theorems": [
    "C90_heights",
    "C90_electrical_demand",
    "C90_generation",
    "C90_heat_demand",
    "C90_thermal_output",
    "C90_electrical_usage",
    "C90_usage_partial",
    "C90_usage_refuted",
    "C90_recorded_total_refuted",
    "C90_backup_band"
   ],
   "note": "Proved for demand, generation, heat demand, thermal output and electrical usage. 'Renewable power usage' has no band for battery charging: proved with that amount added, refuted as stated. The recorded total usage of the heat pump lacks the battery share shown by the stack (refuted)."
  },
  {
   "property": "C91",
   "status": "partial",
   "theorems": [
    "C91_months",
    "C91_bars_add_up",
    "C91_unit_refuted",
    "C91_partial_year_refuted"
   ],
   "note": "Proved for a whole year in MWh. Refuted: the axis says kWh, and a run that does not start with the year is put under the wrong months."
  },
  {
   "property": "C92",
   "status": "partial",
   "theorems": [
    "C92_all_figures",
    "C92_enough_records",
    "C92_missing_records",
    "C92_no_hours_refuted",
    "C92_predictive_hour_refuted"
   ],
   "note": "Proved for every run with a tank of at least one hour and for any stored results with enough records. Refuted for a run of no hours and for the one-hour predictive run, which stores no record."
  },
  {
   "property": "C93",
   "status": "partial",
   "theorems": [
    "C93_surfaces",
    "C93_complete",
    "C93_both_sizes_vary",
    "C93_one_size_stops",
    "C93_single_design_refuted"
   ],
   "note": "Content of all surfaces proved for any stored results, completeness for sweeps in which both sizes vary. Refuted otherwise: with one design, or one size fixed, the program stops with an exception after the tables. Assumes that plot_trisurf fails exactly when the points span no triangle."
  },
  {
   "property": "C94",
   "status": "partial",
   "theorems": [
    "C94_own_row",
    "C94_generation",
    "C94_heat_pump",
    "C94_price",
    "C94_money",
    "C94_charge",
    "C94_demand_met",
    "C94_predictive_partial",
    "C94_predictive_first",
    "C94_predictive_refuted",
    "C94_plant",
    "C94_setpoint"
   ],
   "note": "Proved for the fixed-order controller (C94_plant: every part of the simulated plant is the one in its cell; C94_setpoint: the price in cell D7 decides which order counts; demand balance for orders of processes that list the import once and the battery before it). Under predictive control proved for all records but the first and the last hour of the year; the first record shows no demand whatever the sheet says (refuted)."
  },
  {
   "property": "C95",
   "status": "proved",
   "theorems": [
    "C95_hours_needed",
    "C95_predictive_hours_needed"
   ],
   "note": "For both controllers; the predictive one needs at least two hours."
  },
  {
   "property": "C96",
   "status": "proved",
   "theorems": [
    "C96_sweep_independent",
    "C96_fewer_hours"
   ],
   "note": "The sweep for both controllers, fewer hours for the fixed-order controller."
  },
  {
   "property": "C97",
   "status": "proved",
   "theorems": [
    "C97_combinations",
    "C97_rows"
   ],
   "note": "For every run that wrote its tables."
  },
  {
   "property": "C98",
   "status": "partial",
   "theorems": [
    "C98_end_refuted",
    "C98_completes_without_store",
    "C98_predictive_completes_without_store",
    "C98_tables"
   ],
   "note": "Completion proved for workbooks without a thermal store, for both controllers; tables proved for every completed run with a tariff without wind farm, known incentive and no negative size. Surfaces only if both sizes vary: otherwise the program ends in an exception after the tables (C93, C98_end_refuted). With a store completion is false in general: C101_switch_off_refuted stops runs of an ordinary plant in the first hour."
  },
  {
   "property": "C99",
   "status": "proved",
   "theorems": [
    "C99_level_in_range",
    "C99_history_in_range",
    "C99_initial_in_range",
    "C99_fill_in_range",
    "C99_idle",
    "C99_nan_request",
    "C99_nan_level"
   ],
   "note": "IEEE 754 binary64 (Flocq), round to nearest even, with overflow and NaN. A NaN level is never repaired (C99_nan_level)."
  },
  {
   "property": "C100",
   "status": "partial",
   "theorems": [
    "C100_hour",
    "C100_history",
    "C100_initial",
    "C100_year",
    "C100_fill",
    "C100_exact_refuted"
   ],
   "note": "False as stated: 0.1 kWh put on 0.2 kWh gives more than their sum (C100_exact_refuted). Proved instead: each hour adds at most 2^-53 (12 capacity + 4 discharging limit) of error, errors add up and are never amplified, and over a year the levels differ by less than 1.2e-11 of capacity and limit together (C100_hour, C100_history, C100_year, from the rounded initial level: C100_initial). The fill request is within one such hourly error of the exact one (C100_fill)."
  },
  {
   "property": "C101",
   "status": "partial",
   "theorems": [
    "C101_cold_store",
    "C101_no_store_partial",
    "C101_switch_off_refuted"
   ],
   "note": "False for a store whose top is at the return temperature, as in the first hour of every run: C101_cold_store shows for every plant with a tank of non-zero capacity that such an hour stops with an error, and C101_switch_off_refuted gives whole runs of an ordinary oversized heat pump (100 kW, minimum output 50 %, 400 kg of water, 5 kW of demand) that stop with ZeroDivisionError above and below the setpoint. True without a store (C101_no_store_partial): the hour completes with heat pump output 0 and the temperatures unchanged. C101_case shows a warm store with which the hour completes."
  },
  {
   "property": "C102",
   "status": "proved",
   "theorems": [
    "C102_hour",
    "C102_run",
    "C102_repricing",
    "C102_side_matters"
   ],
   "note": "C102_hour for one hour, C102_run for whole runs (including equal errors), C102_repricing computes the cash flow of the second run from the energies of the first. C102_side_matters shows that the condition on the side of the setpoint is needed. Nothing is assumed about the plant, the tank or the series."
  },
  {
   "property": "C103",
   "status": "partial",
   "theorems": [
    "C103_left_out",
    "C103_no_purchase_for_storage",
    "C103_quiet_partial",
    "C103_left_out_refuted"
   ],
   "note": "Proved for all entries of all processes but two, without any condition (C103_left_out, C103_no_purchase_for_storage). False for the grid-driven charging of the store and for the back-up: topping the heat pump up to its minimum output buys electricity for the store at a high price, and switching it off starts a back-up that is in no order (C103_left_out_refuted); true for both in hours without that correction (C103_quiet_partial)."
  },
  {
   "property": "C104",
   "status": "partial",
   "theorems": [
    "C104_hour_partial",
    "C104_run_partial",
    "C104_year_partial",
    "C104_increasing_orders",
    "C104_buying_refuted",
    "C104_battery_first_refuted",
    "C104_heat_hour_partial",
    "C104_heat_back_up_partial",
    "C104_heat_run_partial",
    "C104_heat_year_partial",
    "C104_heat_increasing_orders",
    "C104_heat_order_refuted"
   ],
   "note": "False as stated: with purchase for the battery in the low-price order a bigger battery buys more (C104_buying_refuted, orders 1..13 and 1..15), and a battery charged before the heat pump takes its electricity away (C104_battery_first_refuted). C104_hour_partial, C104_run_partial, C104_year_partial prove all of it for orders in which the battery is charged after the heat side only from renewables and serves the electrical demand only; C104_increasing_orders: increasing numbers without 7 above, without 8 and 14 below the setpoint are such orders. With a battery that also drives the heat pump, and no heat store: C104_heat_hour_partial, C104_heat_back_up_partial, C104_heat_run_partial, C104_heat_year_partial for orders in which the heat pump and the back-up have their share of the surplus before the battery drives the heat pump (C104_heat_increasing_orders: increasing numbers, 7 above and 8 below only together with 4, no 14 below), at any self-discharge; C104_heat_order_refuted: without process 4 a leaking bigger battery can end the hour with less. Not covered: battery-driven heat pump with a heat store."
  },
  {
   "property": "C105",
   "status": "partial",
   "theorems": [
    "C105_loop_partial",
    "C105_record_partial",
    "C105_balance_partial",
    "C105_rounding_refuted",
    "C105_run_partial",
    "C105_total_partial",
    "C105_hour_partial",
    "C105_minimum_output_refuted"
   ],
   "note": "The loop over the order string in binary64. Proved for orders without 'HP import to TS' and of at most fifteen processes: the run succeeds, every flow is finite and within k*drift of the exact one, where drift = 2^-53 (3 + 4 length) growth N is explicit (C105_loop_partial), and so are the flows of the hour's record when the minimum output rule leaves the hour alone (C105_record_partial); for the concrete plant of C105_example this is below 1e-7 kWh. Refuted with 'HP import to TS', whose rounding to hundredths turns one ulp into 0.01 kWh (C105_rounding_refuted). The grid balance booked before the loop is within 3, 3 and 14 roundings of size N (C105_balance_partial). C105_hour_partial does the whole hour with its totals and accounts: every one of the entries of the record is finite and within 150 units times k*drift of the exact one (the unit is 1 kWh for energies, the price scale for money, the inverse efficiency and the density for fuel), when the heat pump's output keeps 40*k*drift from the limits of the minimum output rule; C105_hour_case is a concrete hour. At those limits it is false: C105_minimum_output_refuted has an hour in which 1.1e-16 kWh left by rounding are made 1.6 kWh of heat pump output. C105_run_partial follows whole runs, each hour from the level the float hour before has left: for orders in which the battery takes surplus last, does not drive the heat pump and is not filled from the grid, every entry of hour i is off by 150 units times k*drift, and those the battery has a part in by the error of the level besides, which is that of the initial level plus i times 150*k*drift; C105_total_partial does the sums over the run, and C105_run_case is a year of 8760 hours. For other orders the level at the start of each hour has to be taken as it is in the float run. Not covered: the store's own arithmetic, whose two answers are inputs of the hour."
  },
  {
   "property": "C106",
   "status": "partial",
   "theorems": [
    "C106_no_negative_partial",
    "C106_demand_met_partial",
    "C106_heat_met_partial",
    "C106_surplus_used_partial",
    "C106_negative_refuted",
    "C106_exact_demand_refuted"
   ],
   "note": "False as stated: the demand is missed by an ulp at 0.1 kWh of generation and 0.4 kWh of demand (C106_exact_demand_refuted), and an export of -5.6e-17 kWh is booked (C106_negative_refuted). Proved: each balance holds up to 3, 6 or 7 times the bound of C105 (C106_demand_met_partial, C106_heat_met_partial, C106_surplus_used_partial), and no flow is more negative than that bound (C106_no_negative_partial)."
  },
  {
   "property": "C107",
   "status": "partial",
   "theorems": [
    "C107_hour_partial",
    "C107_bought_partial",
    "C107_import_partial",
    "C107_run_partial",
    "C107_year_partial",
    "C107_increasing_orders",
    "C107_sizes",
    "C107_minimum_output_refuted",
    "C107_order_refuted",
    "C107_store_refuted"
   ],
   "note": "False as stated: the minimum output of a bigger heat pump is bigger, so that it is switched off where the smaller one runs (C107_minimum_output_refuted), and a heat pump that runs on bought electricity before the surplus leaves less heat demand for the surplus (C107_order_refuted). C107_hour_partial, C107_bought_partial, C107_import_partial, C107_run_partial, C107_year_partial prove it for plants without a store, orders in which surplus goes to heat before bought electricity and before the battery (C107_increasing_orders gives them), and hours that the minimum output rule leaves alone (or minimum output 0). C107_sizes: in all four performance models a larger capacity gives at least the duty at the same COP. With a hot-water tank it is false even then: C107_store_refuted runs four hours with 400 litres, where the bigger heat pump passes the flow temperature, spends the heat in a cheap hour and needs more back-up, more fuel and more import in total."
  },
  {
   "property": "C108",
   "status": "partial",
   "theorems": [
    "C108_hour_partial",
    "C108_money_partial",
    "C108_level_partial",
    "C108_back_up_partial",
    "C108_run_partial",
    "C108_year_partial",
    "C108_increasing_orders",
    "C108_minimum_output_refuted",
    "C108_order_refuted",
    "C108_self_discharge_refuted",
    "C108_store_refuted"
   ],
   "note": "False as stated: less heat demand can fall below the minimum output, so that the heat pump is switched off and the back-up does it all (C108_minimum_output_refuted); above the setpoint in the default order the limit of the heat pump does not count what the battery drove, so that a little surplus makes the plant buy more (C108_order_refuted); and a fuller battery that discharges by itself can be the emptier one two hours later (C108_self_discharge_refuted). C108_hour_partial, C108_money_partial (nonnegative prices), C108_level_partial, C108_back_up_partial (hours that the minimum output rule leaves alone), C108_run_partial and C108_year_partial (no self-discharge) prove it for plants without a store and orders in which the battery serves the demand before it is filled from the grid and drives the heat pump only after the grid; C108_increasing_orders gives such orders. The hours of the two runs need not start at the same level. With a hot-water tank it is false even then: C108_store_refuted runs four hours in which more sun in the first makes the plant buy more in total. Missing: other orders."
  },
  {
   "property": "C109",
   "status": "partial",
   "theorems": [
    "C109_hour_partial",
    "C109_run_partial",
    "C109_no_minimum",
    "C109_threshold_refuted",
    "C109_rounding_refuted"
   ],
   "note": "False as stated, and the two causes are exhibited: the minimum-output rule compares with the absolute 0.1 kWh (C109_threshold_refuted) and the grid-driven heat pump rounds what it gives the store to 0.01 kWh (C109_rounding_refuted); the store state below the set point is moreover advanced with flows rounded to 0.1 kWh. Proved for one hour (C109_hour_partial) and for whole runs by induction over the hours (C109_run_partial), for every factor k > 0, every order and every store whose limits scale: in hours of the high tariff when the heat pump's output is on the same side of 0.1 kWh at both sizes, or reaches its minimum (always the case without a minimum output, C109_no_minimum), and in hours of the low tariff for plants without a store whose order has no grid-to-store process. Both directions of failure are covered (alike). The program's own tank does not scale with its capacity (its surface does not), so for plants with a store the hypothesis on the store describes k equal tanks side by side."
  },
  {
   "property": "C110",
   "status": "proved",
   "theorems": [
    "C110_hour",
    "C110_run",
    "C110_store"
   ],
   "note": "C110_hour for one hour and C110_run for whole runs by induction over the hours, for all plants, both tariffs and all orders; failures included. The only hypothesis on the plant is that the store depends on the values of the numbers it is given; C110_store proves it for the modelled tank (tank_instance) with any constants. Numbers are exact rationals: in floating point the two sums wind + PV may round differently, and this claim says nothing about that."
  },
  {
   "property": "C111",
   "status": "partial",
   "theorems": [
    "C111_plan",
    "C111_record_partial",
    "C111_total_refuted"
   ],
   "note": "C111_plan proves the claim for plans: with an electric back-up, in a planned hour that exports at an import price more than 0.01 above the export price, the purchases for the demand, the battery, the heat pump and the back-up are all zero (the margin comes from the term 0.00001*ESc_res of the objective). C111_record_partial proves that the record of the hour shows no import for the demand, the heat pump or the battery, and that its total import is what the battery gave to the back-up. The total itself is refuted (C111_total_refuted): the record counts battery-driven back-up heat as imported, so an hour can show an import beside an export. Best means least objective among the plans that obey the problem given to the solver; that the solver finds one is not modelled."
  },
  {
   "property": "C112",
   "status": "proved",
   "theorems": [
    "C112_plan",
    "C112_best",
    "C112_plants"
   ],
   "note": "C112_plan and C112_best compare the problems (electric back-up, the same starting values, the same COP and demands, the same store equations); C112_plants derives their hypotheses from two plants and years of data with the same store and minimum output times minimum run time within 0..6000 (percent times minutes). Best means least objective among the plans that obey the problem given to the solver; that the solver finds one is not modelled."
  },
  {
   "property": "C113",
   "status": "partial",
   "theorems": [
    "C113_minimum_partial",
    "C113_no_effect",
    "C113_minimum_refuted"
   ],
   "note": "Refuted (C113_minimum_refuted): a best plan, and the record made of it, in which a heat pump with a minimum output of 4 kW delivers 2 kW. The solver options at mpc.py:322-342 always relax the on/off variable to a number between 0 and 1 (the choice computed from the minimum output is never used). C113_no_effect proves that, as a result, the minimum output has no effect: with any two minimum outputs that the heat pump can reach, each plan of one problem has a plan of the other with the same heat pump output, the same other flows and the same cost. C113_minimum_partial proves the claim for hours in which the variable is 0 or 1."
  },
  {
   "property": "C114",
   "status": "partial",
   "theorems": [
    "C114_hour_partial",
    "C114_run_partial",
    "C114_refuted"
   ],
   "note": "False in general: with a battery and a horizon of two hours every plan is optimal, yet the run loses 0.20 where the fixed order loses nothing, because the plan of the sunny hour does not see the demand of the next one (C114_refuted). Proved for plants without stores and with electric back-up: every hour and the whole run cost no more than in the fixed order, for every optimiser that returns best plans. Assumes that the order serves both demands and sells the rest, and that the fixed-order controller does not correct the heat pump's output."
  },
  {
   "property": "C115",
   "status": "partial",
   "theorems": [
    "C115_electricity_partial",
    "C115_no_free_electricity_partial",
    "C115_heat_partial",
    "C115_battery_refuted",
    "C115_backup_refuted",
    "C115_minimum_output_refuted",
    "C115_planned_hour_partial",
    "C115_planned_run_partial",
    "C115_planned_reset_refuted"
   ],
   "note": "False as stated, refuted four times: a battery with losses delivers over three hours more than was charged into it (C115_battery_refuted), an electric back-up with efficiency 1/2 uses 60 where 30 were generated and bought (C115_backup_refuted), the top-up to the minimum heat pump output is not bought (C115_minimum_output_refuted), and a reset of the predictive controller after a failed optimisation refills the battery from nothing (C115_planned_reset_refuted). Proved for runs of any length: under fixed-order control the accounts of electricity (C115_electricity_partial, C115_no_free_electricity_partial) and heat (C115_heat_partial) close for undisturbed hours, electric back-up of efficiency 1 and the batteries named there; under predictive control every hour made from a plan, and every run without resets, covers its consumption whatever the efficiencies of the battery, for every discretisation that does not create charge (C115_planned_hour_partial, C115_planned_run_partial)."
  },
  {
   "property": "C116",
   "status": "partial",
   "theorems": [
    "C116_restart_partial",
    "C116_window_partial",
    "C116_window_refuted",
    "C116_planned_first_hour"
   ],
   "note": "False: with a battery the part run alone starts from the initial charge level and buys 5 units that the whole run takes from the battery (C116_window_refuted); under predictive control the first record of the part is made up, so the two never agree in an hour with a demand (C116_planned_first_hour, for all plants and plans). Proved under fixed-order control: a run that is in the initial state again continues exactly as one that begins there (C116_restart_partial), and a plant without battery and tank can be run in parts (C116_window_partial)."
  },
  {
   "property": "C117",
   "status": "partial",
   "theorems": [
    "C117_hour_partial",
    "C117_money_partial",
    "C117_level_partial",
    "C117_back_up_partial",
    "C117_run_partial",
    "C117_year_partial",
    "C117_typed",
    "C117_cooler_flow",
    "C117_years",
    "C117_workbook_partial",
    "C117_order_refuted",
    "C117_self_discharge_refuted",
    "C117_plan_battery_partial",
    "C117_best_battery_partial",
    "C117_planned_battery_partial",
    "C117_plan_partial",
    "C117_best_partial",
    "C117_problems",
    "C117_store_refuted"
   ],
   "note": "Proved for plants without a heat store whose orders let the battery serve the demand before it is filled from the grid, and let it drive the heat pump only after the grid: per hour for all amounts bought and sold, money and battery level (C117_hour/money/level_partial), for the back-up in hours the minimum output rule leaves alone (C117_back_up_partial), for whole runs with a battery that does not discharge by itself (C117_run/year_partial). C117_typed, C117_years and C117_workbook_partial carry a higher typed coefficient from the workbook to the run; C117_cooler_flow does the heat pump part for the generic regression. False in general: C117_order_refuted (the order with every process: twice the coefficient, more import and more back-up) and C117_self_discharge_refuted (three hours with a leaky battery). For the predictive controller C117_problems and C117_plan_partial show that every plan in which the battery does not drive the heat pump can be followed at no greater cost with the better heat pump, so best plans without a battery cost no more (C117_best_partial). With a hot-water tank the fixed order claim is false: C117_store_refuted runs four hours in which a better coefficient in the first makes the plant buy more in total. With the storage equations taken hour by hour (implicit Euler) every plan, including those in which the battery drives the heat pump, can be followed at no greater cost (C117_plan_battery_partial), and best plans cost no more (C117_best_battery_partial, C117_planned_battery_partial)."
  },
  {
   "property": "C118",
   "status": "partial",
   "theorems": [
    "C118_hour_partial",
    "C118_run_partial",
    "C118_every_hour_partial",
    "C118_total_partial",
    "C118_limit_refuted",
    "C118_order_refuted"
   ],
   "note": "Proved for orders in which the battery takes surplus after all other uses of it, does not drive the heat pump and is not filled from the grid: for an hour from any two levels (C118_hour_partial), for every hour of a run (C118_run/every_hour_partial), and in total for a battery that can give up all its charge within an hour (C118_total_partial). With a smaller discharge limit the battery delivers more than it loses and the difference is delivered again in every hour (C118_limit_refuted). An order that fills the battery from the grid buys the difference and the losses of charging (C118_order_refuted)."
  },
  {
   "property": "C119",
   "status": "partial",
   "theorems": [
    "C119_hour_partial",
    "C119_run_partial",
    "C119_year_partial",
    "C119_discharging_reversed",
    "C119_self_discharge_refuted",
    "C119_charging_limit_refuted",
    "C119_discharging_limit_refuted",
    "C119_discharging_efficiency_refuted",
    "C119_charging_efficiency_refuted"
   ],
   "note": "False as stated, for each of the five figures: C119_discharging_limit_refuted and C119_discharging_efficiency_refuted (both only bound or scale what is taken off the level, not what is delivered, so a better figure empties the battery sooner; C119_discharging_reversed proves that for batteries without self-discharge a lower limit or efficiency never makes the plant buy more), C119_charging_efficiency_refuted (it is bought on top when the battery is filled from the grid), C119_self_discharge_refuted and C119_charging_limit_refuted (the loss is taken off after the room left by the old level has been filled, so a fuller leaking battery ends the hour with less). C119_hour_partial, C119_run_partial and C119_year_partial prove the claim for a better battery that discharges alike and has no self-discharge, against any battery, for orders in which the battery takes surplus last and serves the electrical demand only; C119_case is a concrete pair. Better batteries that leak as much in proportion to a larger size are the subject of C104."
  },
  {
   "property": "C120",
   "status": "partial",
   "theorems": [
    "C120_hour_partial",
    "C120_run_partial",
    "C120_account_partial",
    "C120_leak_refuted",
    "C120_price_refuted",
    "C120_no_import_refuted",
    "C120_buying_refuted",
    "C120_end_refuted"
   ],
   "note": "False as stated: C120_leak_refuted (a bigger battery that leaks keeps electricity that is lost before it is needed), C120_price_refuted (export paid better than import), C120_no_import_refuted (an order that does not buy for the demand, so that what the battery gives saves nothing), C120_buying_refuted (a battery filled from the grid); C120_end_refuted shows that what is left at the end has to be counted. C120_hour_partial (every hour) and C120_run_partial (a run of any length) prove it for a battery without self-discharge, an export price between zero and the import price of every hour, orders that buy what the demand still needs and in which the battery takes surplus last and serves the electrical demand only; the discharging efficiency and limits are arbitrary. C120_account_partial states the bill alone for runs that leave the small battery no emptier and the big one no fuller than they began. C120_case is a concrete pair."
  },
  {
   "property": "C121",
   "status": "partial",
   "theorems": [
    "C121_heat_partial",
    "C121_cost_of_heat_partial",
    "C121_trade_partial",
    "C121_own_use_partial",
    "C121_demand_met_partial",
    "C121_costs_partial",
    "C121_battery_pump_refuted",
    "C121_wind_farm_refuted",
    "C121_end_refuted"
   ],
   "note": "False as stated: C121_battery_pump_refuted (a battery that drives the heat pump: the electricity it gives is missing from the heat pump's, so with a coefficient of performance of 3 the seasonal figure shown is 5 with the small and 15 with the big battery), C121_wind_farm_refuted (with a wind farm agreement imports of windy hours count as renewable, and the battery lowers them: 50 per cent become 0), C121_end_refuted (what is left in the bigger battery was not sold). For orders in which the battery takes surplus last and serves the electrical demand only, all 25 columns are covered: C121_heat_partial (11 columns equal), C121_cost_of_heat_partial (2 equal), C121_trade_partial (4 no larger), C121_own_use_partial (2 no smaller), C121_demand_met_partial (2 no smaller, tariffs without a wind farm agreement), C121_costs_partial (4 no larger, under the conditions of C120). C121_case meets all of them with different figures."
  },
  {
   "property": "C122",
   "status": "proved",
   "theorems": [
    "C122_no_negative_flows",
    "C122_battery_level",
    "C122_generation",
    "C122_electrical_demand"
   ],
   "note": "For the fixed order controller. Standard-test, Lorentz and generic regression heat pumps are covered under the condition that the COP and duty computed for the year are sensible (a polynomial fitted to test points need not be positive everywhere); for a heat pump of constant COP the condition is the COP cell alone. The answers of windpowerlib are assumed not negative; those of pvlib are clipped by the program. C122_case gives a workbook with a battery, three heat pumps and 24 hours that meets all conditions."
  },
  {
   "property": "C123",
   "status": "partial",
   "theorems": [
    "C123_heat_partial",
    "C123_trade_partial",
    "C123_own_use_partial",
    "C123_demand_met_partial",
    "C123_costs_partial"
   ],
   "note": "False as stated for the reasons of C121 (a battery that drives the heat pump, wind farm agreements, energy left in the battery at the end). Proved for whole runs of the program from two workbooks that differ only in the capacity cells, all conditions being about cells: orders that use the battery last (C123_heat_partial, C123_trade_partial, C123_own_use_partial), tariffs without a wind farm agreement (C123_demand_met_partial), and for the costs a flat rate no lower than the export price, no self-discharge, orders that buy the rest, and a run after which the smaller battery is no emptier and the bigger one no fuller (C123_costs_partial). C123_case: no battery against a half full one of 20 kWh."
  },
  {
   "property": "C124",
   "status": "partial",
   "theorems": [
    "C124_back_up_heat_partial",
    "C124_heat_pump_heat_partial",
    "C124_purchases_partial",
    "C124_capital_cost_partial"
   ],
   "note": "False as stated for the reasons of C107, refuted there for single runs: a minimum output (C107_minimum_output_refuted), orders that run the heat pump on bought electricity first (C107_order_refuted), a heat store (C107_store_refuted). Proved for whole runs of the program, all conditions being about cells: a heat pump of constant COP of at least one without a minimum output, no heat store, orders that use surplus for heat first and do not drive the heat pump from the battery; for the electricity bought also an electric back-up that both orders use and no battery. Not covered: the standard-test model, which scales the test points to the size and fits them again with a regression library about which nothing is assumed (the Lorentz and generic models never complete a run of the program). C124_case: rows for 10 and 30 kW of a sweep of three."
  },
  {
   "property": "C125",
   "status": "partial",
   "theorems": [
    "C125_totals",
    "C125_no_more_sold_than_generated",
    "C125_own_use_share",
    "C125_heat_pump_share",
    "C125_heat_share_partial",
    "C125_demand_share_partial",
    "C125_seasonal_factor_partial"
   ],
   "note": "False as stated: the share of the demand met by renewables passes 100 % when the battery is charged (C41_demand_met_refuted), and the seasonal performance factor leaves out electricity from the battery (C60_at_most_best_refuted). Proved for whole runs of the program of every sensible workbook: the totals, sales against generation, the share of own use and the heat pump's share of renewables. Proved under conditions on cells: the share of heat (orders that export, no minimum output), the share of demand (the same; at most 100 % if the orders do not charge the battery), and the seasonal performance factor (heat pump not driven from the battery and not used to fill the store from the grid). C125_case: the 20 kW row of a sweep of three."
  },
  {
   "property": "C126",
   "status": "partial",
   "theorems": [
    "C126_purchases_partial",
    "C126_sales_partial",
    "C126_costs_partial"
   ],
   "note": "False as stated for the reasons of C108, whose refutations name them (other orders, a battery that loses charge, a minimum output for the fuel of the back-up). Proved for whole runs of the program, all conditions being about cells: no heat store, no self-discharge, orders in which the battery serves the demand before it is filled from the grid and drives the heat pump only after the grid, a flat rate, prices not negative; the operating cost for an electric back-up. Not covered: a heat store. C126_case: a sweep of three heat pumps and the same workbook with 1 kWh in every hour."
  },
  {
   "property": "C127",
   "status": "proved",
   "theorems": [
    "C127_energy_columns",
    "C127_bill",
    "C127_dearer"
   ],
   "note": "Proved for whole runs of the program. C127_energy_columns: 19 of the 25 columns are the same (for sizes that are not negative they are also shown to be there). C127_bill: the cost of electricity, and the operating cost with an electric back-up, are flat rate times purchases minus export price times sales, for one workbook and any prices, negative ones included. C127_dearer: the exact difference between two workbooks, and its sign for a sensible one. A price on the other side of the setpoint changes the order and so the energies (C102). C127_case: a sweep of three heat pumps at 902/5 and at 1000/4 a MWh."
  },
  {
   "property": "C128",
   "status": "partial",
   "theorems": [
    "C128_purchases_partial",
    "C128_sales_partial",
    "C128_costs_partial"
   ],
   "note": "False as stated for the reasons of C117, whose refutations name them (an order in which the battery drives the heat pump, a battery that loses charge, a heat store). Proved for whole runs of the program, all conditions being about cells: no heat store, no self-discharge, orders in which the battery serves the demand before it is filled from the grid and drives the heat pump only after the grid, a flat rate, prices not negative; the operating cost for an electric back-up. C128_case: a sweep of three heat pumps with a coefficient of 3 and of 4."
  },
  {
   "property": "C129",
   "status": "partial",
   "theorems": [
    "C129_add_up_partial",
    "C129_capital_cost",
    "C129_first_part",
    "C129_longer"
   ],
   "note": "False as stated with a battery, because the later part begins with its initial charge (C116_window_refuted); with a heat store, whose initial temperatures return in the same way, it is not proved; and the columns about wind farm agreements are not sums because they read the wind from the start of the year. Proved for whole runs of the program without battery and heat store, for all orders, tariffs and fuels (C129_add_up_partial). With any stores: the first part gives the first hours of the whole run record by record (C129_first_part), the capital cost is the same (C129_capital_cost), and in a sensible workbook no total falls when the period is made longer (C129_longer). C129_case: hours 100 to 123 in parts of 10 and 14 hours."
  }
 ]
}