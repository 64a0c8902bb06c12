{"id": "C01", "title": "Battery charge level always stays between empty and full", "statement": "Whatever sequence of surplus/deficit requests a battery receives, the state of charge reported after each request is between 0 and the battery capacity.", "quantifier": "for every battery specification with non-negative capacity, every starting charge level (even out of range) and every finite sequence of requests", "why_tests_cant": "a unit test fixes one specification and a few requests; the claim is an invariant over unbounded histories and all real-valued specifications", "anchors": ["pylesa/storage/electrical_storage.py:ElectricalStorage.new_soc", "pylesa/storage/electrical_storage.py:ElectricalStorage.init_state"]}
{"id": "C02", "title": "Battery respects its power limits in each hour", "statement": "In one hour the charge level never rises by more than the smaller of the offered surplus, the charge power limit and the free room; a deficit never raises it; it never falls by more than the discharge power limit plus the self-discharge of that hour; with no request it only falls by self-discharge.", "quantifier": "for every battery with non-negative limits, self-discharge fraction and efficiency in [0,1], every charge level in range and every request", "why_tests_cant": "the branch conditions partition the real line; tests sample a few points of each branch", "anchors": ["pylesa/storage/electrical_storage.py:ElectricalStorage.max_charging", "pylesa/storage/electrical_storage.py:ElectricalStorage.max_discharging", "pylesa/storage/electrical_storage.py:ElectricalStorage.new_soc"]}
{"id": "C03", "title": "Battery never creates energy over a history", "statement": "Over any history of surplus requests the charge level never exceeds the initial level plus the energy offered; and energy delivered to satisfy deficits is never more than the energy removed from the store.", "quantifier": "for every specification with efficiencies in [0,1] and every finite history of requests", "why_tests_cant": "energy conservation is a sum over unbounded histories; sampled runs cannot establish it", "anchors": ["pylesa/storage/electrical_storage.py:ElectricalStorage.new_soc", "pylesa/storage/electrical_storage.py:ElectricalStorage.max_discharging"]}
{"id": "C04", "title": "Filling the battery from the grid", "statement": "The amount requested to bring the battery to full never exceeds the charge power limit, is non-negative, is zero for a full battery without self-discharge, and booking it really brings the store to full or charges at full power.", "quantifier": "for every specification and every charge level in range", "why_tests_cant": "the losses term couples three real parameters; needs all values", "anchors": ["pylesa/storage/electrical_storage.py:ElectricalStorage.charge_to_capacity", "pylesa/storage/electrical_storage.py:ElectricalStorage.new_soc"]}
{"id": "C05", "title": "Every battery query answers for every request", "statement": "Asking the battery for its charging, discharging or losses returns a number for every request, surplus or deficit.", "quantifier": "for every specification, charge level and request", "why_tests_cant": "the failing branch is only reached for deficits; absence of crashes is a for-all statement", "anchors": ["pylesa/storage/electrical_storage.py:ElectricalStorage.discharging", "pylesa/storage/electrical_storage.py:ElectricalStorage.total_losses", "pylesa/storage/electrical_storage.py:ElectricalStorage.charging"]}
{"id": "C06", "title": "Heat pump output never exceeds electricity, demand or duty", "statement": "Given electricity available, a heat demand and the hour's performance, the delivered heat is exactly the least of electricity x COP, demand and duty; the electricity reported is delivered heat / COP and never exceeds the electricity offered; a zero-capacity heat pump delivers nothing and uses nothing.", "quantifier": "for every non-negative electricity, demand and duty and every positive COP", "why_tests_cant": "three-way minimum over real inputs", "anchors": ["pylesa/heat/heatpump.py:HeatPump.thermal_output"]}
{"id": "C07", "title": "Electricity needed by the heat pump is consistent with its output", "statement": "Electricity needed for a demand is the demand (capped at duty) divided by COP; it is monotone in the demand; asking how much electricity the delivered heat needs gives back exactly the electricity that was reported with it.", "quantifier": "for every demand, duty >= 0, COP > 0", "why_tests_cant": "round-trip law between two API calls over all reals", "anchors": ["pylesa/heat/heatpump.py:HeatPump.elec_usage", "pylesa/heat/heatpump.py:HeatPump.thermal_output"]}
{"id": "C08", "title": "Electrical demand is met exactly every hour", "statement": "In every simulated hour of the fixed-order controller whose order contains 'import to demand', renewable + battery + imported electricity recorded against the electrical demand add up exactly to the demand.", "quantifier": "for every duplicate-free order of processes, plant, prices, weather-derived series and incoming storage state", "why_tests_cant": "there are 13!/15! orders and real-valued inputs; regression tests fix one", "anchors": ["pylesa/controllers/fixed_order.py:FixedOrder.above_setpoint", "pylesa/controllers/fixed_order.py:FixedOrder.below_setpoint", "pylesa/controllers/fixed_order.py:FixedOrder.run_process", "pylesa/controllers/fixed_order.py:FixedOrder.processes", "pylesa/controllers/fixed_order.py:CheckFunctions.electrical_surplus_deficit"]}
{"id": "C09", "title": "Heat demand is met exactly every hour", "statement": "In every hour whose order contains the back-up heater and in which the minimum-output correction does not intervene, heat pump + tank + back-up heat to demand add up exactly to the heat demand.", "quantifier": "for every duplicate-free order, plant, series and incoming state", "why_tests_cant": "as C08; also depends on the order-sensitive interplay of eight heat processes", "anchors": ["pylesa/controllers/fixed_order.py:FixedOrder.above_setpoint", "pylesa/controllers/fixed_order.py:FixedOrder.below_setpoint", "pylesa/controllers/fixed_order.py:FixedOrder.run_process"]}
{"id": "C10", "title": "Every unit of renewable generation is accounted for once", "statement": "If the order contains 'export', generation = used directly + heat pump + electric back-up + battery + exported in every hour.", "quantifier": "for every duplicate-free order, plant, series and incoming state", "why_tests_cant": "needs all permutations of processes and real inputs", "anchors": ["pylesa/controllers/fixed_order.py:FixedOrder.run_timesteps", "pylesa/controllers/fixed_order.py:FixedOrder.run_process"]}
{"id": "C11", "title": "Grid accounts and cash flow", "statement": "Total import equals import for electrical demand + heat pump + battery (+ grid-fed electric back-up); costs, income and cash flow are import x price/1000, export x price/1000 and their difference.", "quantifier": "for every order, plant, series and state in which the minimum-output correction does not intervene", "why_tests_cant": "accounting identity across roughly seventy result fields; tests compare totals of one workbook", "anchors": ["pylesa/controllers/fixed_order.py:FixedOrder.above_setpoint", "pylesa/controllers/fixed_order.py:FixedOrder.below_setpoint"]}
{"id": "C12", "title": "All energy flows are non-negative", "statement": "No recorded energy flow of an hour is negative.", "quantifier": "for every duplicate-free order, plant with non-negative ratings, non-negative demands and generation and every reachable storage state", "why_tests_cant": "depends on sign invariants preserved through an arbitrary ordering of processes", "anchors": ["pylesa/controllers/fixed_order.py:FixedOrder.run_process", "pylesa/controllers/fixed_order.py:FixedOrder.processes"]}
{"id": "C13", "title": "Heat pump never delivers more than its duty", "statement": "The heat pump's total heat output in an hour never exceeds the duty available in that hour.", "quantifier": "for every order, plant, series and state", "why_tests_cant": "needs every combination of the five heat-pump processes", "anchors": ["pylesa/controllers/fixed_order.py:FixedOrder.processes", "pylesa/controllers/fixed_order.py:FixedOrder.run_process"]}
{"id": "C14", "title": "Minimum-output rule of the heat pump", "statement": "After the correction the heat pump is either off or runs at least at the minimum output implied by minimum_output and minimum_runtime; switching it off leaves the hour's heat demand covered by tank and back-up, and topping it up books the extra electricity with the grid.", "quantifier": "for every plant, order, series and state", "why_tests_cant": "the correction only triggers in a band of part loads depending on all inputs", "anchors": ["pylesa/controllers/fixed_order.py:FixedOrder.above_setpoint", "pylesa/controllers/fixed_order.py:FixedOrder.below_setpoint"]}
{"id": "C15", "title": "Battery charge is in range after every simulated hour", "statement": "Along any run of the fixed-order controller the battery charge recorded at the end of every hour lies in [0, capacity] and each hour starts from the charge recorded at the end of the previous hour.", "quantifier": "for every run length, start hour, order, plant and series", "why_tests_cant": "history invariant over up to 8760 steps", "anchors": ["pylesa/controllers/fixed_order.py:FixedOrder.run_timesteps", "pylesa/storage/electrical_storage.py:ElectricalStorage.new_soc"]}
{"id": "C16", "title": "A run returns one record per requested hour or fails loudly", "statement": "A run of n hours starting at hour s returns exactly n records, for hours s..s+n-1 in order, unless s+n exceeds 8760, in which case it raises ValueError and writes nothing.", "quantifier": "for every start hour and number of hours", "why_tests_cant": "quantifies over all (s,n)", "anchors": ["pylesa/controllers/fixed_order.py:FixedOrder.run_timesteps"]}
{"id": "C17", "title": "Results do not depend on the future", "statement": "The record of an hour depends only on the inputs of hours up to that hour (and the annual peak heat demand); extending the run never changes earlier records.", "quantifier": "for all pairs of runs agreeing up to that hour", "why_tests_cant": "2-safety (hyper-)property over input histories", "anchors": ["pylesa/controllers/fixed_order.py:FixedOrder.run_timesteps"]}
{"id": "C18", "title": "Process order numbers", "statement": "An order containing a number that names no process fails with KeyError; 'RES to demand' (1) can be placed anywhere or omitted without changing any result; the low- and high-tariff orders are selected by comparing the price with the setpoint, equality counting as low.", "quantifier": "for every order list and every hour", "why_tests_cant": "quantifies over all lists", "anchors": ["pylesa/controllers/fixed_order.py:FixedOrder.process_key", "pylesa/controllers/fixed_order.py:FixedOrder.run_timesteps", "pylesa/controllers/fixed_order.py:FixedOrder.run_process"]}
{"id": "C19", "title": "No import for demand while exporting", "statement": "In an hour in which electricity is imported (or taken from the battery) for electrical demand, no renewable electricity is exported or diverted to heat or battery.", "quantifier": "for every duplicate-free order, plant, series and state", "why_tests_cant": "depends on case split generation vs demand over reals and all orders", "anchors": ["pylesa/controllers/fixed_order.py:CheckFunctions.electrical_surplus_deficit", "pylesa/controllers/fixed_order.py:FixedOrder.run_process"]}
{"id": "C20", "title": "Tank charging and discharging stay within what the tank can take or give", "statement": "Heat put into the tank in an hour never exceeds its charging capability plus what is taken out, and heat taken out never exceeds its discharging capability plus what is put in (up to the 0.005 kWh rounding of the grid-driven top-up).", "quantifier": "for every duplicate-free order, plant, series and tank state", "why_tests_cant": "interplay of four tank processes in arbitrary order", "anchors": ["pylesa/controllers/fixed_order.py:FixedOrder.processes", "pylesa/controllers/fixed_order.py:FixedOrder.run_process"]}
{"id": "C21", "title": "Battery energy delivered by the controller was really in the battery", "statement": "Electricity recorded as delivered from the battery is never more than the fall in charge level plus what was charged in the same hour.", "quantifier": "for every order, plant, series and state", "why_tests_cant": "needs all efficiencies and power limits", "anchors": ["pylesa/controllers/fixed_order.py:FixedOrder.processes", "pylesa/storage/electrical_storage.py:ElectricalStorage.new_soc"]}
{"id": "C22", "title": "Tank state keeps its shape", "statement": "After any number of hours the tank state has the configured number of node temperatures, sorted from hottest (top) to coldest (bottom).", "quantifier": "for every tank with at least two nodes and every sequence of operations", "why_tests_cant": "history invariant", "anchors": ["pylesa/storage/hot_water_tank.py:HotWaterTank.new_nodes_temp"]}
{"id": "C23", "title": "Tank energy balance", "statement": "In one internal step of a charging or discharging tank the heat content changes exactly by the heat carried in at source/return temperature minus the heat carried out at bottom/top temperature minus losses to ambient.", "quantifier": "for every number of nodes, temperatures, mass flow and coefficients", "why_tests_cant": "telescoping sum over an arbitrary number of nodes", "anchors": ["pylesa/storage/hot_water_tank.py:HotWaterTank.new_nodes_temp", "pylesa/storage/hot_water_tank.py:HotWaterTank.set_of_coefficients", "pylesa/storage/hot_water_tank.py:HotWaterTank.mixing_function"]}
{"id": "C24", "title": "Tank temperatures stay within the physical range", "statement": "If all node temperatures, the source, return and ambient temperatures lie in [lo,hi], all node temperatures still do after any operation.", "quantifier": "for every tank, operation and state", "why_tests_cant": "maximum principle for an arbitrary number of nodes and reals; corner cases have measure zero", "anchors": ["pylesa/storage/hot_water_tank.py:HotWaterTank.new_nodes_temp", "pylesa/storage/hot_water_tank.py:HotWaterTank.charging_function"]}
{"id": "C25", "title": "A tank in standby only loses heat towards ambient", "statement": "In standby each node temperature moves towards ambient and never past it; a tank at ambient temperature stays there.", "quantifier": "for every tank and ambient temperature", "why_tests_cant": "real-valued for-all; includes connection-loss parameters no test sets", "anchors": ["pylesa/storage/hot_water_tank.py:HotWaterTank.connection_losses", "pylesa/storage/hot_water_tank.py:HotWaterTank.coefficient_D"]}
{"id": "C26", "title": "Tank capability queries", "statement": "The energy a tank reports it can absorb or release is non-negative, zero for a zero-size tank, zero for charging when the mean temperature has reached the source temperature and zero for discharging when the mean has fallen to the return temperature.", "quantifier": "for every tank, state and temperatures", "why_tests_cant": "for-all over real state vectors of any length", "anchors": ["pylesa/storage/hot_water_tank.py:HotWaterTank.max_energy_in_out"]}
{"id": "C27", "title": "MPC returns one record per requested hour", "statement": "A predictive-control run of n hours returns n records, or raises ValueError if the run extends beyond the year; the pre-calculation covers every horizon it will be asked for.", "quantifier": "for every start hour, number of hours and horizon", "why_tests_cant": "index arithmetic near the end of the year for every (s,n,horizon)", "anchors": ["pylesa/controllers/mpc.py:Scheduler.moving_horizon", "pylesa/controllers/mpc.py:Scheduler.pre_calculation"]}
{"id": "C28", "title": "MPC records satisfy the balances the optimiser was given", "statement": "Whenever the optimiser returns a point satisfying its constraints, the recorded electricity, renewable and import figures of that hour satisfy the corresponding balances, and charging and discharging of the tank are never both positive.", "quantifier": "for every feasible optimiser answer, plant and hour", "why_tests_cant": "the optimiser is external; the claim must hold for whatever feasible point it returns", "anchors": ["pylesa/controllers/mpc.py:Scheduler.solve"]}
{"id": "C29", "title": "MPC keeps storage state across hours", "statement": "Each hour of an MPC run starts from the storage state recorded at the end of the previous hour.", "quantifier": "for every run and every optimiser behaviour, including failures", "why_tests_cant": "depends on solver failures that tests do not provoke", "anchors": ["pylesa/controllers/mpc.py:Scheduler.moving_horizon"]}
{"id": "C30", "title": "Tariff series cover the year", "statement": "Every supported tariff yields 8760 hourly prices; flat tariffs are constant; period tariffs repeat the entered weekly pattern on the correct weekday for every day of the year.", "quantifier": "for every tariff input and year", "why_tests_cant": "all years including leap years; all hours", "anchors": ["pylesa/power/grid.py:Grid.import_cost_series", "pylesa/power/grid.py:Grid.variable_periods_series", "pylesa/power/grid.py:Grid.flat_rates_series"]}
{"id": "C31", "title": "Wholesale tariff is capped and peak premium only 16-19h", "statement": "The wholesale-linked price is the capped 2.2 x market price plus the premium exactly in hours 16,17,18 of each day, never above the maximum.", "quantifier": "for every market series and every hour", "why_tests_cant": "all hours and values", "anchors": ["pylesa/power/grid.py:Grid.tou_wm_series"]}
{"id": "C32", "title": "Wind PPA price bands", "statement": "With a PPA each hour's price is the base price, minus the discount when wind output is at or above the high band, plus the penalty when at or below the low band (discount wins); the high band is at least the low band when its exceedance is smaller; the maximum price is respected.", "quantifier": "for every wind series, percentages, base tariff and hour", "why_tests_cant": "order statistics of arbitrary series", "anchors": ["pylesa/power/grid.py:Grid.flat_rates_wind", "pylesa/power/grid.py:Grid.variable_periods_wind", "pylesa/power/grid.py:Grid.tou_wm_wind_ppa", "pylesa/power/grid.py:Grid.wind_farm_info"]}
{"id": "C33", "title": "Parametric sweep covers exactly the requested grid", "statement": "The sweep runs every combination of heat pump size and tank size from min to max in the given steps, includes min and max, and nothing beyond max.", "quantifier": "for every min, max and step", "why_tests_cant": "range arithmetic for all integers", "anchors": ["pylesa/parametric_analysis.py:Para.__init__", "pylesa/io/outputs.py:ThreeDPlots"]}
{"id": "C34", "title": "Every combination has its own folder and can be read back", "statement": "Distinct combinations have distinct folder names and the sizes recovered from a folder name by the KPI stage are exactly the sizes of that combination.", "quantifier": "for every pair of non-negative integer sizes", "why_tests_cant": "string round-trip for all integers", "anchors": ["pylesa/parametric_analysis.py:Para.__init__", "pylesa/io/outputs.py:Calcs.__init__"]}
{"id": "C35", "title": "Sweep inputs are independent of each other", "statement": "The inputs written for a combination depend only on the workbook and that combination, not on which combinations were written before; only capacities and duty tables differ from the workbook.", "quantifier": "for every list of combinations and every position", "why_tests_cant": "absence of accumulation across an unbounded loop", "anchors": ["pylesa/parametric_analysis.py:Para.create_pickles"]}
{"id": "C36", "title": "Output jobs run exactly once, in submission order", "statement": "If the output process ends normally after stop, every submitted job has been executed exactly once, in submission order, and nothing after stop.", "quantifier": "for every interleaving of submitting and executing and every number of jobs", "why_tests_cant": "all interleavings of two processes", "anchors": ["pylesa/mp/process.py:OutputProcess.submit", "pylesa/mp/process.py:OutputProcess.stop", "pylesa/mp/process.py:OutputProcess._run_job"]}
{"id": "C37", "title": "A failing output job is reported", "statement": "If any job raises, later jobs are not executed and stop raises SystemError; if no job raises and the worker is given time, stop does not raise.", "quantifier": "for every interleaving and position of the failing job", "why_tests_cant": "all schedules", "anchors": ["pylesa/mp/process.py:OutputProcess.stop", "pylesa/mp/process.py:OutputProcess._run_job"]}
{"id": "C38", "title": "Restarting the output process starts clean", "statement": "After stop or cancel, start runs only jobs submitted after it; cancel discards jobs not yet started.", "quantifier": "for every history of submit/stop/cancel/start", "why_tests_cant": "depends on leftovers in the queue after crashes", "anchors": ["pylesa/mp/process.py:OutputProcess.start", "pylesa/mp/process.py:OutputProcess.cancel"]}
{"id": "C39", "title": "Monthly totals partition the year", "statement": "Splitting an annual series by month loses and duplicates nothing: concatenating the months gives the series back, and monthly totals add up to the annual total.", "quantifier": "for every series of 8760 values", "why_tests_cant": "all series", "anchors": ["pylesa/tools.py:month_split", "pylesa/tools.py:sum_monthly", "pylesa/tools.py:mean_monthly"]}
{"id": "C40", "title": "Surplus and deficit", "statement": "For each hour surplus and deficit are non-negative, never both positive, surplus - deficit = generation - demand, and renewable use = demand - deficit.", "quantifier": "for every pair of generation and demand values", "why_tests_cant": "all reals", "anchors": ["pylesa/controllers/fixed_order.py:CheckFunctions.electrical_surplus_deficit", "pylesa/tools.py:CheckFunctions.electrical_surplus_deficit"]}
{"id": "C41", "title": "Self-consumption and demand-met KPIs are percentages", "statement": "Renewable self-consumption and the share of demand met by renewables computed from a run that satisfies the hourly balances lie in [0,100].", "quantifier": "for every run satisfying the hourly balances", "why_tests_cant": "aggregates over arbitrary runs", "anchors": ["pylesa/io/outputs.py:Calcs.RES_self_consumption", "pylesa/io/outputs.py:Calcs.demand_met_RES"]}
{"id": "C42", "title": "Cost KPIs use consistent units", "statement": "Lifetime cost and levelised cost of energy equal capital cost plus twenty years of the operating cost reported by the same run (scaled to a full year).", "quantifier": "for every run and every back-up fuel", "why_tests_cant": "only visible when comparing KPIs over all runs and fuels", "anchors": ["pylesa/io/outputs.py:Calcs.operating_cost", "pylesa/io/outputs.py:Calcs.lifetime_cost", "pylesa/io/outputs.py:Calcs.levelised_cost_of_energy"]}
{"id": "C43", "title": "Renewable heat incentive is continuous and monotone", "statement": "Tiered RHI income is continuous at the tier limit, non-decreasing in eligible heat and equals the fixed tariff when both tiers are equal.", "quantifier": "for every heat total, capacity and rates", "why_tests_cant": "piecewise-linear function over reals", "anchors": ["pylesa/io/outputs.py:Calcs.RHI_income"]}
{"id": "C44", "title": "Existing results are never overwritten without consent", "statement": "If the output directory already exists and overwrite is not set, the program raises FileExistsError and leaves the file system untouched; with overwrite, no old file survives.", "quantifier": "for every file-system state and input path", "why_tests_cant": "all file-system states", "anchors": ["pylesa/main.py:main"]}
{"id": "C45", "title": "Order strings are read back exactly", "statement": "Reading a comma-separated list of process numbers yields exactly those numbers in that order; anything that is not a list of integers is rejected.", "quantifier": "for every list of integers", "why_tests_cant": "string round trip for all lists", "anchors": ["pylesa/io/read_excel.py:XlsxInput.controller"]}
{"id": "C46", "title": "Back-up heater", "statement": "Fuel used times efficiency equals heat delivered; only the electric back-up has no fuel price; missing fuel data is rejected at construction.", "quantifier": "for every fuel, efficiency and demand", "why_tests_cant": "all reals and all fuel tables", "anchors": ["pylesa/heat/auxiliary.py:Aux"]}
{"id": "C47", "title": "Heat pump model selection and yearly inputs", "statement": "A scalar input is expanded to a full year, a series of any length other than 8760 is rejected, missing model inputs are rejected and every model offered in the workbook can be used.", "quantifier": "for every input length and model", "why_tests_cant": "all lengths and all model/input combinations", "anchors": ["pylesa/heat/heatpump.py:HeatPump", "pylesa/initialise_classes.py:init", "pylesa/io/inputs.py:Inputs.heatpump_basics"]}
{"id": "C48", "title": "Lorentz model reproduces its specification point", "statement": "At the specified operating temperatures the Lorentz model returns the specified COP, its efficiency is COP divided by the Lorentz limit, duty never exceeds capacity, and COP rises when ambient rises and falls when the flow temperature rises.", "quantifier": "for every specification and operating temperatures", "why_tests_cant": "transcendental functions over all reals", "anchors": ["pylesa/heat/models/lorentz.py:Lorentz"]}
{"id": "C49", "title": "Demand smoothing keeps the year length and bounds", "statement": "The smoothed annual demand has 8760 values, smoothing preserves constants and keeps values between the minimum and the maximum of the original, and hour h of the output belongs to hour h of the input.", "quantifier": "for every annual series", "why_tests_cant": "all series", "anchors": ["pylesa/demand/heat_demand.py:predicted_demand", "pylesa/demand/electricity_demand.py:predicted_demand"]}
{"id": "C50", "title": "Every simulated hour is solved before it is plotted, and KPIs come last", "statement": "In a multi-core run a combination's plots are only requested after its solution has been written, KPIs are computed only after the output process ended successfully, and any solver error is propagated.", "quantifier": "for every number of combinations and every point of failure", "why_tests_cant": "all failure points and interleavings", "anchors": ["pylesa/main.py:main", "pylesa/mp/process.py:OutputProcess"]}
{"id": "C51", "title": "Balance checks have a known tolerance", "statement": "The demand check answers 'met' only when heat generated is within 0.06 of the demand, answers 'not met' only when it falls short by at least 0.04 and aborts only when it exceeds the demand by at least 0.04; the surplus and deficit checks are exactly the three-way comparison of the two quantities rounded to cents.", "quantifier": "for every pair of real quantities", "why_tests_cant": "nested rounding over all reals", "anchors": ["pylesa/controllers/fixed_order.py:CheckFunctions.heat_demand_check", "pylesa/controllers/fixed_order.py:CheckFunctions.surplus_check", "pylesa/controllers/fixed_order.py:CheckFunctions.deficit_check"]}
{"id": "C52", "title": "A storage hour moves exactly the requested energy", "statement": "When a loss-free tank with constant specific heat is asked to charge or discharge a net energy in an hour that it reports it can take or give, its heat content changes by exactly that energy, and never by more.", "quantifier": "for every tank, state, temperatures and energy, over all internal steps of the hour", "why_tests_cant": "the number of internal steps depends on the data and each may cap the flow", "anchors": ["pylesa/storage/hot_water_tank.py:HotWaterTank.new_nodes_temp", "pylesa/storage/hot_water_tank.py:HotWaterTank.mass_flow_calc"]}
{"id": "C53", "title": "Wind bands split the year in the entered proportion", "statement": "The band for an entered exceedance percentage is one of the wind farm's hourly outputs; the share of hours at or above it is at least the percentage less half a percent, and the share strictly above it is below the percentage plus half a percent. A band exists exactly for whole percentages from 0 to 100; any other entry raises ValueError.", "quantifier": "for every wind series of at least 200 hours and every percentage", "why_tests_cant": "order statistics of arbitrary series, with ties", "anchors": ["pylesa/power/grid.py:Grid.wind_farm_info"]}
{"id": "C54", "title": "KPIs use the sizes that were simulated", "statement": "For every sweep the tool accepts, including one fractional size, the KPI stage computes with the heat pump and tank sizes of the combination it reads.", "quantifier": "for every spelling of a size", "why_tests_cant": "all spellings of a size", "anchors": ["pylesa/parametric_analysis.py:Para.__init__", "pylesa/io/outputs.py:Calcs.capital_cost", "pylesa/io/outputs.py:Calcs.RHI_income"]}
{"id": "C55", "title": "Duty tables scale with the heat pump size", "statement": "Resizing the heat pump multiplies every duty of the four regression tables by new size over workbook capacity.", "quantifier": "for every workbook, size and table row", "why_tests_cant": "rounding of an arbitrary ratio", "anchors": ["pylesa/parametric_analysis.py:Para.create_pickles"]}
{"id": "C56", "title": "Blocking stop waits for outstanding output jobs", "statement": "stop with block set returns only when every submitted job has been executed or a job has raised; stop without block returns without waiting.", "quantifier": "for every interleaving, number of jobs and job duration", "why_tests_cant": "depends on timing of two processes; needs all schedules", "anchors": ["pylesa/mp/process.py:OutputProcess.stop"]}
{"id": "C57", "title": "Only the workbook's own output folder is touched", "statement": "A run creates, changes or deletes nothing outside the folder <outdir>/<workbook name>; in particular the input workbook and the results of other projects survive.", "quantifier": "for every file-system state, workbook path, output directory, overwrite flag and point of failure", "why_tests_cant": "all file-system states and names; a violation destroys user data", "anchors": ["pylesa/main.py:main", "pylesa/io/read_excel.py:XlsxInput.__init__", "pylesa/parametric_analysis.py:Para.__init__"]}
{"id": "C58", "title": "Grid renewables are attributed to the hours simulated", "statement": "With a wind power purchase agreement, the imported energy reported as renewable is the import of exactly those simulated hours in which the wind farm reached the higher band; with any other tariff it is zero.", "quantifier": "for every run, start hour, wind series and tariff", "why_tests_cant": "needs the relation between simulated hour and wind hour for all start hours; a test starting at hour 0 cannot see a shift", "anchors": ["pylesa/io/outputs.py:Calcs.grid_RES_used", "pylesa/io/outputs.py:Calcs.HP_from_grid_RES"]}
{"id": "C59", "title": "Annualised indicators do not depend on the simulated duration", "statement": "Simulating the same period several times in a row leaves lifetime cost, levelised costs, seasonal COP, self-consumption and days of storage unchanged.", "quantifier": "for every run and every number of repetitions", "why_tests_cant": "relates two runs for every length", "anchors": ["pylesa/io/outputs.py:Calcs.lifetime_cost", "pylesa/io/outputs.py:Calcs.levelised_cost_of_energy", "pylesa/io/outputs.py:Calcs.days_storage_content"]}
{"id": "C60", "title": "Seasonal COP lies between the worst and best hourly COP", "statement": "The seasonal coefficient of performance of a fixed-order run is at least the smallest and at most the largest hourly coefficient of performance of the run.", "quantifier": "for every plant, year, order, start hour and duration", "why_tests_cant": "inequality over all orders and data", "anchors": ["pylesa/io/outputs.py:Calcs.calc_scop"]}
{"id": "C61", "title": "KPI tables pair sizes with the right run", "statement": "Row i of each KPI table shows the sizes of combination i and, column by column, the indicators computed from the results stored under that combination's name; there is one row per combination.", "quantifier": "for every sweep and every set of stored results", "why_tests_cant": "positions of rows and columns for sweeps of any size", "anchors": ["pylesa/io/outputs.py:ThreeDPlots.KPIs_to_csv"]}
{"id": "C62", "title": "Only electricity counts as grid renewable heat input", "statement": "The heat input attributed to grid renewables never exceeds the imported electricity attributed to grid renewables; heat from burnt fuel is not reported as renewable.", "quantifier": "for every run, tariff and back-up fuel", "why_tests_cant": "aggregate over arbitrary runs and fuels", "anchors": ["pylesa/io/outputs.py:Calcs.heat_grid_RES_used", "pylesa/io/outputs.py:Calcs.heat_met_RES"]}
{"id": "C63", "title": "Predictive control works with every back-up fuel", "statement": "A predictive-control run completes, with one record per hour, for every back-up fuel the program accepts, whenever the optimiser answers.", "quantifier": "for every plant, fuel, period and answering optimiser", "why_tests_cant": "needs a solver that answers and every plant configuration; the failing combination raises only deep inside the run", "anchors": ["pylesa/controllers/mpc.py:Scheduler.solve"]}
{"id": "C64", "title": "Each predictive-control record describes its own hour", "statement": "The record at position i of a predictive-control run starting at hour s shows the demands, generation, prices and heat-pump performance of hour s+i.", "quantifier": "for every run and every position", "why_tests_cant": "index shifts show only in particular positions (first, last hour of the year) of arbitrarily long runs", "anchors": ["pylesa/controllers/mpc.py:Scheduler.moving_horizon", "pylesa/controllers/mpc.py:Scheduler.solve"]}
{"id": "C65", "title": "The optimisation problem is bounded", "statement": "The cost the optimiser is asked to minimise has a finite lower bound over the feasible plans of every problem the program builds.", "quantifier": "for every problem and every feasible plan", "why_tests_cant": "a statement about all feasible points of an infinite set", "anchors": ["pylesa/controllers/mpc.py:Scheduler.solve"]}
{"id": "C66", "title": "Predictive control records what the back-up heat costs", "statement": "The recorded cost of back-up heat is the price of its energy source times the heat delivered, and the recorded usage times the efficiency is the heat delivered.", "quantifier": "for every plant, hour and optimiser answer", "why_tests_cant": "holds for one fuel kind and fails for the other whatever the numbers; needs every answer of an external solver", "anchors": ["pylesa/controllers/mpc.py:Scheduler.solve"]}
{"id": "C67", "title": "Every published indicator equals its formula", "statement": "The self-consumption, the heat pump size ratio and utilisation, the days of storage, the capital cost and the electricity cost reported for a run equal the ratios, peaks and totals over the run's hourly records that their names denote.", "quantifier": "for every complete run", "why_tests_cant": "formulas over runs of arbitrary length, including zero denominators", "anchors": ["pylesa/io/outputs.py:Calcs.HP_size_ratio", "pylesa/io/outputs.py:Calcs.HP_utilisation", "pylesa/io/outputs.py:Calcs.RES_self_consumption", "pylesa/io/outputs.py:Calcs.days_storage_content", "pylesa/io/outputs.py:Calcs.capital_cost", "pylesa/io/outputs.py:Calcs.cost_elec"]}
{"id": "C68", "title": "The cost of heat counts every pound spent on heat", "statement": "The cost of heat times the heat produced, plus the incentive, equals what was paid for the heat: the imports not serving the electrical demand and the fuel burnt.", "quantifier": "for every complete run and fuel", "why_tests_cant": "a unit slip in one fuel branch is invisible unless every pound is traced over arbitrary runs", "anchors": ["pylesa/io/outputs.py:Calcs.cost_of_heat", "pylesa/io/outputs.py:Calcs.levelised_cost_of_heat"]}
{"id": "C69", "title": "Heat demand follows dwellings, day temperature and hot water", "statement": "Every hour of the generated heat demand is the sum over the rows of dwellings of number times floor-area factor times the standard profile of type, age and rounded day temperature (limited to -3...14) at that hour of the day, plus 1.5 persons per bedroom times the daily hot water spread evenly; every temperature finds a profile, known dwellings never fail, unknown ones raise KeyError, and k times the dwellings give k times the demand, also after smoothing.", "quantifier": "for every list of dwellings, profile table, temperature year and hot-water figure", "why_tests_cant": "all tables, temperatures and lists of dwellings", "anchors": ["pylesa/demand/heat_demand.py:aggregate", "pylesa/demand/heat_demand.py:floor_area_scaling_factor", "pylesa/demand/heat_demand.py:hot_water_addition"]}
{"id": "C70", "title": "Electricity demand follows season, weekday and hour", "statement": "Every hour of the generated electricity demand is the number of dwellings times the mean of the two half-hourly values of that hour in the column of the season and kind of day (Saturday, Sunday, other) of that date in the Gregorian calendar; the seasons are the documented ones and the year has 8760 values.", "quantifier": "for every year, profile table and list of dwellings", "why_tests_cant": "all years and tables", "anchors": ["pylesa/demand/electricity_demand.py:profile_from_input", "pylesa/demand/electricity_demand.py:time_of_year", "pylesa/demand/electricity_demand.py:day_of_week"]}
{"id": "C71", "title": "The demand generators find the tables shipped with the package", "statement": "With the files of the package, the heat and electricity demand of any list of known dwellings can be generated.", "quantifier": "for every list of dwellings, year and weather", "why_tests_cant": "all inputs; the failure does not depend on them", "anchors": ["pylesa/demand/heat_demand.py:standard_day_profile", "pylesa/demand/electricity_demand.py:import_elexon_profile"]}
{"id": "C72", "title": "PV generation is pvlib's power, scaled, corrected and never negative", "statement": "Every hour of the PV generation is the power computed by pvlib (rounded to 0.01 W) in kW, times 0.7225, times the number of systems, times the correction factor of the month of that hour, and 0 instead of a negative or missing value; there are 8760 values, none negative, zero systems give zero, generation is proportional to the number of systems and monotone in pvlib's power; a weather sheet of another length is refused.", "quantifier": "for every plant, weather year and behaviour of pvlib", "why_tests_cant": "all weather years, plants and behaviours of the external library", "anchors": ["pylesa/power/renewables.py:PV.power_output", "pylesa/environment/weather.py:Weather.PV"]}
{"id": "C73", "title": "Wind generation is windpowerlib's power times the number of turbines", "statement": "Every hour of the generation of user-defined turbines is, to within 0.005 kW, the power computed by windpowerlib times the number of turbines; turbines of the database and farms likewise (corrected by one half); zero turbines give a year of zeros, non-negative library output gives non-negative generation, missing hours stay missing, doubling the turbines doubles the output up to rounding; the same turbine gives the same power however it is entered.", "quantifier": "for every turbine, number, weather year and behaviour of windpowerlib", "why_tests_cant": "all turbines, weather years and behaviours of the external library", "anchors": ["pylesa/power/renewables.py:Windturbine.user_power", "pylesa/power/renewables.py:Windturbine.database_power", "pylesa/power/renewables.py:Windturbine.wind_farm_power"]}
{"id": "C74", "title": "The generation the controllers use is complete and adds up", "statement": "For every hour of the year the wind series is the sum of both kinds of turbines, the total is wind plus PV, and both are non-negative numbers, never a missing value.", "quantifier": "for every combination of turbines, PV plant, weather and library behaviour", "why_tests_cant": "all hours, weather years and behaviours of the libraries", "anchors": ["pylesa/controllers/fixed_order.py:FixedOrder.run_timesteps", "pylesa/controllers/mpc.py:Scheduler.pre_calculation"]}
{"id": "C75", "title": "Every input of the PV plant has an effect", "statement": "The module, the inverter, the surface type, the altitude and the weather columns (including air temperature and wind speed) entered by the user are those the PV model works with.", "quantifier": "for every set of PV inputs, libraries and behaviour of pvlib that reads weather by column name", "why_tests_cant": "non-interference: compares all pairs of runs", "anchors": ["pylesa/power/renewables.py:PV.__init__", "pylesa/power/renewables.py:PV.power_output", "pylesa/environment/weather.py:Weather.PV"]}
{"id": "C76", "title": "The helper functions return the yearly generation", "statement": "wind_user_power, wind_database_power, PV_power and sum_renewable_generation return the yearly generation of the plant described by the inputs.", "quantifier": "for all inputs and library behaviours", "why_tests_cant": "all inputs", "anchors": ["pylesa/power/renewables.py:wind_user_power", "pylesa/power/renewables.py:wind_database_power", "pylesa/power/renewables.py:sum_renewable_generation", "pylesa/power/renewables.py:PV_power"]}
{"id": "C77", "title": "PV modules are found under their catalogue name", "statement": "A module listed by the CEC or Sandia library is found under its catalogue name (separators and all) and under its library name, any other name raises KeyError, and two different products are never confused.", "quantifier": "for every name and library content", "why_tests_cant": "all strings and library contents", "anchors": ["pylesa/power/renewables.py:PV.__init__"]}
{"id": "C78", "title": "Standard test regression is the best quadratic surface", "statement": "A heat pump given by standard test results has in every hour the COP and the heat output of the quadratic surface in ambient and flow temperature that fits the test results best (least squares): results lying on a quadratic surface are reproduced exactly, the errors over the test points cancel, neither the row order nor the fitting algorithm matters, and a pump sized by a factor in a sweep has its heat output multiplied by that factor with unchanged COP. Peak data are derated by a tenth at or below five degrees.", "quantifier": "for all tables of test results, all hourly temperatures, all size factors and every fitting function that minimises the sum of squared errors", "why_tests_cant": "tests compare a handful of predictions of one data set with stored numbers; optimality, uniqueness and scaling quantify over all surfaces and all data sets", "anchors": ["pylesa/heat/models/standard_regression.py:43-130", "pylesa/heat/heatpump.py:265-290", "pylesa/parametric_analysis.py:86-116"]}
{"id": "C79", "title": "Which test results enter the regression", "statement": "Exactly the rows of the test tables that give ambient temperature, COSP and duty (with a flow temperature for the table) enter the regression; without any such row the model is refused with an error, and inputs of different lengths are refused.", "quantifier": "for all test tables with any pattern of empty cells", "why_tests_cant": "the pattern of empty cells is unbounded and the dropped rows are silent", "anchors": ["pylesa/io/inputs.py:247-326", "pylesa/heat/models/standard_regression.py:43-96"]}
{"id": "C80", "title": "Predicted COP and heat output are positive", "statement": "If all test results are positive, the COP and the heat output predicted for any hour are positive.", "quantifier": "for all test results and all hourly temperatures", "why_tests_cant": "the fitted surface is evaluated at temperatures outside the tested range; no finite set of predictions settles the sign everywhere", "anchors": ["pylesa/heat/models/standard_regression.py:98-130", "pylesa/heat/heatpump.py:265-290"]}
{"id": "C81", "title": "Every single setting of the workbook reaches the run from its own cell", "statement": "When a workbook in the layout of the template is read, each single setting handed to the simulation (sweep bounds and steps, controller, hours, set point, horizon, control orders, tariff choice and rates, hot water, return temperature, wind farm, back-up fuel and fuel data, tank, heat pump, renewable heat incentive) is the content of the one cell of the sheet that is labelled for it, and reading succeeds for every workbook whose sheets reach the cells read and whose text cells hold readable text.", "quantifier": "for every workbook without headings in its first row: any number of rows and columns, any cell contents", "why_tests_cant": "A test reads one workbook; a swapped row or column between two cells that happen to hold similar values, or a shift that depends on the size of the sheet, stays unnoticed.", "anchors": ["pylesa/io/read_excel.py:81-127", "pylesa/io/read_excel.py:149-189", "pylesa/io/read_excel.py:257-282", "pylesa/io/read_excel.py:301-464", "pylesa/io/read_excel.py:466-545", "pylesa/io/inputs.py:155-246"]}
{"id": "C82", "title": "Every hourly series is one column of its sheet, hour by hour", "statement": "Each series handed to the simulation (weather, demands, flow and source temperatures, wind farm weather, wholesale, balancing and power-purchase series, periods of the variable tariff, table of dwellings) is one column of its sheet: its h-th value is the cell h rows below the first data row, none is skipped or repeated, and a sheet with a year of rows gives 8760 values.", "quantifier": "for every workbook without headings in its first row, every series, every hour", "why_tests_cant": "A slip by one row or one column changes every hour by a plausible amount; a test compares few hours of one workbook.", "anchors": ["pylesa/io/read_excel.py:129-189", "pylesa/io/read_excel.py:257-282", "pylesa/io/read_excel.py:340-392", "pylesa/io/inputs.py:100-153"]}
{"id": "C83", "title": "A filled-in row for the battery, the PV array or a turbine is used", "statement": "The battery, the PV location and array, the two turbines and the power curve are read from the rows the user filled in; with the listed columns of such a row filled in, its values are used.", "quantifier": "for every workbook without headings in its first row, every row, any contents of all other cells", "why_tests_cant": "The row is found by dropping all rows with an empty cell, so whether it is found depends on every other cell of the sheet, including ones outside the table; a test has one arrangement.", "anchors": ["pylesa/io/read_excel.py:191-255", "pylesa/io/read_excel.py:284-299", "pylesa/io/inputs.py:36-97", "pylesa/io/inputs.py:392-412"]}
{"id": "C84", "title": "All test results of the heat pump on the sheet are used for the regression", "statement": "Each of the four tables of the heat pump sheet has room for eight test results; every complete result entered there, with its flow temperature, is among the data the performance surface is fitted to, and nothing else is.", "quantifier": "for every workbook without headings in its first row, every row of the four tables, any numbers", "why_tests_cant": "A lost row changes the fitted surface slightly everywhere; no test compares against the surface of the full table.", "anchors": ["pylesa/io/read_excel.py:545-628", "pylesa/io/inputs.py:247-326"]}
{"id": "C85", "title": "Every component is built from its cells of the workbook", "statement": "The battery, the tank, both kinds of turbines, the PV array, the back-up heater, the tariff and the heat pump that are simulated have exactly the parameters of the cells labelled so in the workbook, with the sizes of the combination; and whenever the sheets are filled in with numbers and texts where these are expected and 8760 hours of weather and demand, the plant can be set up.", "quantifier": "for every workbook, every pair of sizes, every fit, turbine and PV library", "why_tests_cant": "needs every arrangement of the workbook, including gaps, unknown names and any number of rows", "anchors": ["pylesa/initialise_classes.py:init", "pylesa/io/inputs.py:Inputs", "pylesa/parametric_analysis.py:Para.create_pickles"]}
{"id": "C86", "title": "A sweep varies only the two sizes", "statement": "Two combinations of one workbook differ only in the heat pump's capacity (and the heat outputs of the regression) and in the tank's capacity and the width derived from it; the coefficient of performance for given temperatures, all temperatures, limits, the renewables, the battery, the back-up and the tariff are the same; equal sizes give equal objects.", "quantifier": "for every workbook and any two pairs of sizes", "why_tests_cant": "relates two set-ups for all workbooks and sizes", "anchors": ["pylesa/initialise_classes.py:init", "pylesa/io/inputs.py:Inputs", "pylesa/parametric_analysis.py:Para.create_pickles"]}
{"id": "C87", "title": "The tank is simulated with the dimensions entered", "statement": "The height, width and insulation thickness entered on the sheet of the thermal storage are those of the simulated tank.", "quantifier": "for every workbook", "why_tests_cant": "that cells have no effect at all is a statement about all pairs of workbooks", "anchors": ["pylesa/storage/hot_water_tank.py:HotWaterTank.__init__", "pylesa/io/inputs.py:Inputs.thermal_storage"]}
{"id": "C88", "title": "Every modelling approach of the workbook gives a year of performance", "statement": "Whichever modelling approach, data input and heat pump type is chosen in the workbook, a plant that is set up can compute 8760 hourly coefficients of performance and heat outputs; with the simple approach these are the entered coefficient and the size.", "quantifier": "for every workbook, size and choice", "why_tests_cant": "all workbooks and all combinations of choices", "anchors": ["pylesa/heat/heatpump.py:HeatPump.performance", "pylesa/initialise_classes.py:init"]}
{"id": "C89", "title": "The curves of the figures are the recorded quantities", "statement": "In every figure of a run each curve or band is the quantity named by its subplot and legend, one value per drawn hour, and the value above hour x of the axis 'Hour of the year' is the one recorded for hour x of the year.", "quantifier": "for every list of hourly results, run length, start hour, folder, figure, subplot, curve and abscissa", "why_tests_cant": "Needs every result of every run length; a picture test compares a few files, not which record each point comes from.", "anchors": ["pylesa/io/outputs.py:Plot", "pylesa/io/outputs.py:run_plots"]}
{"id": "C90", "title": "The stacked areas add up to what their title says", "statement": "The stacks 'Electrical demand', 'Renewable power generation', 'Renewable power usage', 'Heat demand', 'Heat pump thermal output' and 'Heat pump electrical usage' reach the electrical demand, the generation, the generation, the heat demand, the recorded heat output and the electricity behind that output in each hour.", "quantifier": "for every plant, year, start hour and run length of the fixed-order controller and every drawn hour", "why_tests_cant": "Equality of sums over all inputs, states and process orders.", "anchors": ["pylesa/io/outputs.py:Plot.elec_demand_and_RES", "pylesa/io/outputs.py:Plot.HP_and_heat_demand", "pylesa/controllers/fixed_order.py:FixedOrder"]}
{"id": "C91", "title": "The bar charts show the production of each month", "statement": "Each bar of the renewable bar charts is the production of the calendar month named under it, in the unit of the axis, and the number in the title is the total of the run.", "quantifier": "for every list of hourly results, start hour and run length", "why_tests_cant": "All hourly series and all run windows.", "anchors": ["pylesa/io/outputs.py:Plot.RES_bar", "pylesa/tools.py:sum_monthly"]}
{"id": "C92", "title": "A completed run gets its complete set of figures", "statement": "Drawing the figures of a completed run succeeds and leaves the folders and files the documentation lists: year, winter and summer for a whole year, one folder otherwise.", "quantifier": "for every plant, year, start hour and run length", "why_tests_cant": "Absence of exceptions for all run lengths and results.", "anchors": ["pylesa/io/outputs.py:run_plots", "pylesa/io/outputs.py:Plot.TS"]}
{"id": "C93", "title": "The surfaces over the two sizes show the right run", "statement": "After a sweep, each surface has above each pair of heat pump and tank size the indicator it is labelled with, computed from the run of that pair, and every sweep gets the eight surfaces and the tables.", "quantifier": "for every sweep, stored results and store price", "why_tests_cant": "All sweeps; the pairing of axes, labels and runs must hold for each of them.", "anchors": ["pylesa/io/outputs.py:run_KPIs", "pylesa/io/outputs.py:ThreeDPlots"]}
{"id": "C94", "title": "Every stored hour belongs to its own row of the workbook", "statement": "After a run, stored record number i is about hour (first hour + i): it shows the electrical and heat demand in that hour's row of the sheet 'Demand input', the generation and the heat pump performance computed for that hour from the components described in the workbook, and the import and export prices the workbook states for it; the three supplies add up to the electrical demand, and the battery content continues from record to record.", "quantifier": "for every workbook, library answer, optimiser and completed run, every combination of the sweep and every record", "why_tests_cant": "An offset by one hour anywhere between sheet and result shows only in single hours; all workbooks, start hours and sizes are concerned.", "anchors": ["pylesa/main.py:main", "pylesa/io/read_excel.py:read_inputs", "pylesa/controllers/fixed_order.py:FixedOrder.run_timesteps", "pylesa/controllers/mpc.py:Scheduler.moving_horizon"]}
{"id": "C95", "title": "A run that completes has had all its hours", "statement": "If the program completes, the demand sheet had exactly 8760 rows with a number in each needed column, the first hour and the number of hours were whole numbers inside the year, and exactly the stated number of records was stored for every combination.", "quantifier": "for every workbook and completed run, every combination", "why_tests_cant": "Universal over malformed workbooks: no incomplete one may slip through.", "anchors": ["pylesa/main.py:main", "pylesa/controllers/fixed_order.py:FixedOrder.run_timesteps"]}
{"id": "C96", "title": "A simulation depends on its own inputs only", "statement": "The results of a combination do not depend on which other sizes are tried in the same sweep, and simulating fewer hours from the same first hour gives the beginning of the results of the longer run.", "quantifier": "for every two workbooks that differ in the sizes to be tried, or in the number of hours, only", "why_tests_cant": "Relates two runs, for all pairs of sweeps.", "anchors": ["pylesa/main.py:main", "pylesa/parametric_analysis.py:Para.create_pickles", "pylesa/controllers/fixed_order.py:FixedOrder.run_timesteps"]}
{"id": "C97", "title": "Every row of the tables belongs to its own simulation", "statement": "The combinations simulated are those of the ranges on the sheet 'Parametric'; row i of each of the three tables shows the sizes of combination i and the indicators computed from the records of that simulation with the hours, fuel, tariff and incentive stated in the workbook.", "quantifier": "for every workbook, completed run with tables, and combination", "why_tests_cant": "Pairing of rows and simulations for all sweeps.", "anchors": ["pylesa/main.py:main", "pylesa/io/outputs.py:run_KPIs", "pylesa/parametric_analysis.py:Para"]}
{"id": "C98", "title": "A correctly filled-in workbook is simulated to the end", "statement": "A workbook with every needed cell filled in correctly is run to the end: every combination is simulated, its figures are drawn, the three tables are written and, after them, the surfaces.", "quantifier": "for every filled-in workbook, every library that answers and every optimiser that answers", "why_tests_cant": "Absence of exceptions for all workbooks.", "anchors": ["pylesa/main.py:main"]}
{"id": "C99", "title": "Rounding never takes the battery out of range", "statement": "Computed in Python's floating-point numbers, the level of the battery is after every hour a number between 0 and the capacity; the initial level and the request that fills the battery are in range too; with nothing asked and no self-discharge the level does not change at all; a request that is not a number stops the run.", "quantifier": "for every battery with finite attributes, self-discharge between 0 and 1 and every history of finite requests of any length and size", "why_tests_cant": "Rounding, overflow and special values for all 2^64 floats in every operand.", "anchors": ["pylesa/storage/electrical_storage.py:Battery.new_soc", "pylesa/storage/electrical_storage.py:Battery.max_charging", "pylesa/storage/electrical_storage.py:Battery.max_discharging", "pylesa/storage/electrical_storage.py:Battery.charge_to_capacity"]}
{"id": "C100", "title": "The level of the battery is computed exactly", "statement": "The level reported after every hour is the level that exact arithmetic gives for the same attributes and requests.", "quantifier": "for every battery with ordinary attributes, and every history of finite requests", "why_tests_cant": "Accumulation of rounding errors over all histories.", "anchors": ["pylesa/storage/electrical_storage.py:Battery.new_soc"]}
{"id": "C101", "title": "The heat pump can be switched off in every hour", "statement": "In an hour in which the heat pump would run below its minimum output and the hot water store cannot take the difference, the controller switches the heat pump off and the simulation goes on, whatever the state of the store.", "quantifier": "for every plant, every hour, every state of the store (temperatures) and of the battery, on both sides of the price setpoint", "why_tests_cant": "It fails only in a combination of a small store, a cold store, an oversized heat pump and a small demand; which hours of a year are such hours depends on all series and all earlier hours.", "anchors": ["pylesa/controllers/fixed_order.py:335-436", "pylesa/controllers/fixed_order.py:615-722", "pylesa/storage/hot_water_tank.py:new_nodes_temp"]}
{"id": "C102", "title": "Prices reach the fixed-order dispatch through the setpoint only", "statement": "Two runs of the fixed-order controller whose plants differ only in the export price, the price of the back-up fuel and the price setpoint, and whose hours differ only in the price of imported electricity, take the same decisions in every hour as long as in each hour the price lies on the same side of the setpoint in both runs: all energies, charge levels and node temperatures of all hours are equal, only the money entries differ, and if one run stops with an error so does the other with the same error. In particular a finished run can be priced afresh from its own energies.", "quantifier": "for all plants, all years of inputs, all tariffs, all first hours and lengths of run", "why_tests_cant": "It relates two runs over all tariffs; a test compares a few tariffs on one plant, and a dependence of a flow on a price could sit in any of the branches of the two orders.", "anchors": ["pylesa/controllers/fixed_order.py:59-164", "pylesa/controllers/fixed_order.py:166-436", "pylesa/controllers/fixed_order.py:438-722"]}
{"id": "C103", "title": "A process left out of the order does not happen", "statement": "If a number is left out of the order of the fixed-order controller that applies in an hour (the one for prices above the setpoint or the one for prices up to it), the result of that hour shows nothing for that process: no battery discharge to demand without its number, no export without its number, and so on; and above the setpoint nothing is bought from the grid to be stored in the battery or the hot water store.", "quantifier": "for all plants, orders (also with repetitions and in any sequence), hours, states of battery and store", "why_tests_cant": "There are 2^28 choices of numbers for the two orders, times their sequences; the claim is about entries staying zero along every path through totals and minimum-output corrections.", "anchors": ["pylesa/controllers/fixed_order.py:192-199", "pylesa/controllers/fixed_order.py:335-436", "pylesa/controllers/fixed_order.py:726-919"]}
{"id": "C104", "title": "A bigger battery never means buying more electricity", "statement": "If a plant is simulated again with a battery of larger capacity (same limits, efficiencies, self-discharge and starting fraction) and everything else unchanged, then in every hour of the fixed-order run no more electricity is imported and no more renewable electricity is exported than before, the battery delivers at least as much to the demand and ends the hour at least as full, and heat pump, back-up and hot water store do exactly the same.", "quantifier": "for all plants, all battery sizes, all years of inputs, all orders, all first hours and lengths of run", "why_tests_cant": "It compares two whole runs for every pair of sizes; the charge levels drift apart over thousands of hours and a fuller battery loses more by self-discharge, so that the order of the two levels has to be kept by an invariant, not by looking at examples.", "anchors": ["pylesa/storage/electrical_storage.py:41-138", "pylesa/controllers/fixed_order.py:166-722", "pylesa/controllers/fixed_order.py:1028-1043", "pylesa/controllers/fixed_order.py:1224-1232"]}
{"id": "C105", "title": "An hour's flows are the ones exact arithmetic gives", "statement": "Every energy flow that the fixed order controller books for an hour equals the flow that exact arithmetic gives for the same inputs, up to an amount far below what the results are printed with.", "quantifier": "for every plant, hour and battery level with finite numbers, every order string of up to fifteen processes, and every pair of answers of the hot water store", "why_tests_cant": "Comparisons and minima branch on rounded numbers; no finite set of hours shows that a rounded comparison never sends a sizeable flow elsewhere.", "anchors": ["pylesa/controllers/fixed_order.py:FixedOrder.run_process", "pylesa/heat/heatpump.py:HeatPump.elec_usage", "pylesa/heat/heatpump.py:HeatPump.thermal_output"]}
{"id": "C106", "title": "Balances and signs survive floating point", "statement": "With floating-point numbers, too, the sources of the electrical demand add up to the demand, those of the heat demand to the heat demand, the uses of the surplus to the surplus, and no flow is negative.", "quantifier": "for every plant, hour and battery level with finite numbers and an admissible order string", "why_tests_cant": "Whether the roundings of an hour cancel depends on every input; the balances are claimed for all of them.", "anchors": ["pylesa/controllers/fixed_order.py:FixedOrder.run_process"]}
{"id": "C107", "title": "A bigger heat pump never means more back-up heat", "statement": "If a plant is simulated again with a heat pump of larger capacity and everything else unchanged, then in every hour of the fixed-order run the heat pump delivers at least as much heat, the back-up delivers no more heat and uses no more fuel or electricity, and what is bought for heat (grid electricity for the heat pump plus back-up heat not made from renewables) does not grow.", "quantifier": "for all plants, all pairs of heat pump sizes, all performance models, all years of inputs, all orders, all first hours and lengths of run", "why_tests_cant": "It compares two whole runs for every pair of sizes; the rule for the minimum output and minimum runtime reacts to the size as well, and the order decides what is left for the back-up, so that examples show nothing about other orders and sizes.", "anchors": ["pylesa/controllers/fixed_order.py:166-722", "pylesa/controllers/fixed_order.py:1045-1102", "pylesa/controllers/fixed_order.py:1143-1147", "pylesa/heat/heatpump.py:220-339"]}
{"id": "C108", "title": "More wind or sun, or less demand, never makes the plant buy more or earn less", "statement": "For the same plant and the same prices and temperatures, an hour or a year with at least as much generation and at most as much electrical and heat demand has in the fixed order results no more import in total, for the electrical demand, for the heat pump and for the battery, no less export, no higher import costs, no lower export income and cash flow, no less charge in the battery, and no more back-up heat that was not made from surplus.", "quantifier": "for all plants, all pairs of hours or years of which the second is the easier one, all charge levels of which the second is at least the first, all orders of processes and all temperatures of the store", "why_tests_cant": "It compares two runs for every pair of inputs and every order: tests compare single pairs, and the failures need a minimum output, a leaky battery over three hours, or a particular order.", "anchors": ["pylesa/controllers/fixed_order.py:59-164", "pylesa/controllers/fixed_order.py:166-722", "pylesa/controllers/fixed_order.py:1028-1251", "pylesa/storage/electrical_storage.py:41-190"]}
{"id": "C109", "title": "Twice the plant for twice the demand gives twice the flows", "statement": "A fixed-order simulation does not depend on the unit of energy: if every size of the plant (heat pump, battery, its power limits, store, back-up) and the demands and generation of every hour are multiplied by the same positive number, every energy flow and every sum of money of every hour is multiplied by that number, while the prices, the COP and the store temperatures stay the same, and the run fails exactly where the smaller one fails.", "quantifier": "for all plants, all years of data, all positive factors, all start hours and lengths, all states of charge", "why_tests_cant": "A hidden absolute constant (a threshold of 0.1 kWh, a rounding to 0.01 kWh) only shows for sizes near it; tests run a few sizes, and the claim is about every factor and every order of the dispatch.", "anchors": ["pylesa/controllers/fixed_order.py:59-164", "pylesa/controllers/fixed_order.py:166-722", "pylesa/controllers/fixed_order.py:1028-1251", "pylesa/storage/electrical_storage.py:41-190", "pylesa/heat/heatpump.py:297-339"]}
{"id": "C110", "title": "Only the total of wind and sun matters to the dispatch", "statement": "Two years that differ only in how each hour's generation is divided between wind and photovoltaics give the same fixed-order simulation: apart from the two entries that report the wind and the photovoltaic generation, every entry of every hour, the store temperatures and any failure are the same.", "quantifier": "for all plants with the program's hot water tank (or any store that depends only on values), all pairs of years with equal hourly totals, all start hours and lengths", "why_tests_cant": "A term that uses one source only (say, a surplus computed from photovoltaics alone) is invisible in every test whose data have one source; the claim is about all divisions of all totals.", "anchors": ["pylesa/controllers/fixed_order.py:59-164", "pylesa/controllers/fixed_order.py:166-722", "pylesa/controllers/fixed_order.py:1028-1251", "pylesa/storage/electrical_storage.py:41-190", "pylesa/heat/heatpump.py:297-339", "pylesa/storage/hot_water_tank.py:602-703"]}
{"id": "C111", "title": "The predictive controller does not buy in an hour in which it sells", "statement": "Under predictive control with an electric back-up, when a best plan exports in an hour whose import price is above the export price (by more than 0.01), nothing is bought in that hour: the hour's record shows an export and no import.", "quantifier": "for all plants with an electric back-up, all data, all planning windows and states, all best plans of the planner's problem, all planned hours", "why_tests_cant": "The plan comes from an external solver; that no best plan can buy and sell at once is a statement about all the plans of all problems, and the recorded hour adds flows the plan does not price.", "anchors": ["pylesa/controllers/mpc.py:110-342", "pylesa/controllers/mpc.py:344-544"]}
{"id": "C112", "title": "A bigger plant never makes the best plan dearer", "statement": "From the same state, with an electric back-up, the same demands and the same COP: if the battery and its power limits, the heat pump's output, the generation, the back-up and the export price are at least as big and the import prices at most as high, then the best plan of the predictive controller costs no more; every plan of the smaller plant has a counterpart that costs no more.", "quantifier": "for all pairs of plants and of data ordered in this way, all planning windows, all states, all plans", "why_tests_cant": "The comparison is between optima of two whole families of problems; a solver run compares two numbers for one pair and can miss both optima.", "anchors": ["pylesa/controllers/mpc.py:110-342", "pylesa/controllers/mpc.py:344-544"]}
{"id": "C113", "title": "Under predictive control the heat pump is off or delivers its minimum output", "statement": "In every hour of a best plan of the predictive controller, and in the record made of it, the heat pump is off or delivers at least the minimum output entered for it, as it does under fixed-order control.", "quantifier": "for all plants, all data, all planning windows and states, all best plans, all planned hours", "why_tests_cant": "Whether the minimum binds depends on how the on/off variable of the solver is treated, for every problem it may be given; a test with ample demand never sees the heat pump below its minimum.", "anchors": ["pylesa/controllers/mpc.py:110-342", "pylesa/controllers/mpc.py:344-544", "pylesa/heat/heatpump.py:297-339"]}
{"id": "C114", "title": "Planning ahead never costs more than the fixed order", "statement": "For the same plant, data and period, a run with the predictive controller whose plans are optimal ends with at least the cash flow of the run with the fixed-order controller: choosing \"Model predictive control\" instead of \"Fixed order\" cannot make the plant more expensive to run.", "quantifier": "All plants with electric back-up, all years of data and periods, all horizons, all discretisations of the storage equations, all optimisers that return best plans, and every record after the made-up first one.", "why_tests_cant": "A test compares two runs of one plant with one solver; the claim quantifies over all plants, data, horizons and optimal solvers, and the two controllers share no code for the hour, so no finite set of comparisons settles it.", "anchors": ["pylesa/controllers/mpc.py:119-342", "pylesa/controllers/mpc.py:344-544", "pylesa/controllers/mpc.py:546-675", "pylesa/controllers/fixed_order.py:59-164", "pylesa/controllers/fixed_order.py:166-722"]}
{"id": "C115", "title": "The energy account of a whole run closes", "statement": "Summed over all hours of a run, the electricity generated and bought covers what the records say was used for the electric demand, the heat pump and the back-up, what was sold, and the rise of the battery level; the difference is never negative, and it is zero for a battery without losses. Likewise the heat delivered by heat pump, tank and back-up equals the heat demand plus what was charged into the tank. No energy appears from nothing over a run.", "quantifier": "for all plants with electric back-up, all years of data, all starting hours and lengths of the run, both controllers, all battery efficiencies and self-discharge rates, all tanks, all optimisers and discretisations", "why_tests_cant": "A test adds up the columns of one run; the claim is an invariant of the sum over runs of any length and start, through every order of processes and every sequence of battery levels, and a small gain per hour hides in the rounding of one test case.", "anchors": ["pylesa/controllers/fixed_order.py:59-164", "pylesa/controllers/fixed_order.py:166-722", "pylesa/storage/electrical_storage.py:41-211", "pylesa/controllers/mpc.py:344-544", "pylesa/controllers/mpc.py:546-675", "pylesa/heat/auxiliary.py:1-63"]}
{"id": "C116", "title": "A period can be simulated in parts", "statement": "Running a later part of a period on its own (its own first hour and number of timesteps) gives for every hour the record that the run over the whole period gives for that hour: a user may split a year into months or look again at one week.", "quantifier": "for all plants, all years of data, all starting hours, all lengths of the part skipped and of the part simulated, both controllers", "why_tests_cant": "A test splits one run at one hour; the claim quantifies over every split of every run, and whether it holds depends on what state is carried from hour to hour, which a test with an idle store never shows.", "anchors": ["pylesa/controllers/fixed_order.py:59-164", "pylesa/controllers/mpc.py:546-675", "pylesa/storage/electrical_storage.py:37-39"]}
{"id": "C117", "title": "A heat pump that needs less electricity never makes the plant buy more or earn less", "statement": "For the same plant, demands, generation and prices, a heat pump with the same greatest output and at least the coefficient of performance in every hour - a higher coefficient typed into the workbook, or a cooler flow or warmer source - gives fixed order results with no more import in total, for the electrical demand, for the heat pump and for the battery, no less export, no higher import costs, no lower export income and cash flow, no less charge in the battery, and no more back-up heat that was not made from surplus.", "quantifier": "for all plants, all pairs of hours or years that differ in the temperatures and in the coefficient of performance, all charge levels of which the second is at least the first, and all orders of processes", "why_tests_cant": "It compares two runs for every pair of coefficients and every order: tests compare single pairs, and the failures need a battery that drives the heat pump before the grid does, or a leaky battery over three hours.", "anchors": ["pylesa/controllers/fixed_order.py:59-164", "pylesa/controllers/fixed_order.py:166-722", "pylesa/controllers/fixed_order.py:1028-1251", "pylesa/heat/heatpump.py:220-310", "pylesa/heat/models/simple.py:1-17", "pylesa/heat/models/performance.py:10-31"]}
{"id": "C118", "title": "A different charge of the battery at the start changes a run by no more than that charge", "statement": "Take the same plant, demands, generation and prices, and start the run with another charge in the battery. In every hour the purchases, the sales, what the battery delivers, what it takes and its level at the end of the hour differ by at most the difference of the charges at the start, everything else is equal, and over the whole run the purchases differ by at most that difference divided by the discharge efficiency.", "quantifier": "for all plants with or without a heat store, all initial charges, all years and all lengths of runs, all orders of processes, all charge levels at the start of an hour", "why_tests_cant": "It bounds the influence of a guessed input over runs of any length: a test compares a few pairs of charges, and the difference that comes back in every hour needs a battery whose delivery is not limited while its loss is.", "anchors": ["pylesa/controllers/fixed_order.py:59-164", "pylesa/controllers/fixed_order.py:166-722", "pylesa/storage/electrical_storage.py:37-138"]}
{"id": "C119", "title": "A better battery never means buying more electricity", "statement": "If the battery of a plant is replaced by one that is nowhere worse - at least the same capacity and the same charge at the start, at least the same charging and discharging limits, at least the same charging and discharging efficiency, at most the same self-discharge - and everything else stays as it is, then in every hour of the fixed-order run no more electricity is imported, the battery delivers at least as much to the demand and ends the hour at least as full, and heat pump, back-up and hot water store do exactly the same.", "quantifier": "for all plants with or without a heat store, all pairs of batteries, all years and all lengths of runs, all orders of processes", "why_tests_cant": "A test compares a few pairs of batteries over a few hours; the claim is about every pair and runs of any length, in which the levels drift apart, and it fails for each of the five figures in a different way.", "anchors": ["pylesa/storage/electrical_storage.py:12-138", "pylesa/storage/electrical_storage.py:177-190", "pylesa/controllers/fixed_order.py:59-164", "pylesa/controllers/fixed_order.py:166-722"]}
{"id": "C120", "title": "A bigger battery never makes the electricity bill worse", "statement": "If the battery of a plant is replaced by a bigger one of the same kind and everything else stays as it is, then over any fixed-order run the electricity account (income from export less cost of import, as recorded in the results) is at least as good as before, provided what the run has put into the battery is counted at the price it could have been sold for.", "quantifier": "for all plants with or without a heat store, all battery sizes, all prices, all years and all lengths of runs, all orders of processes", "why_tests_cant": "A test compares two sizes over a few hours at a few prices; the claim is about every pair of sizes, every price series and runs of any length, in which a kWh kept now may be used hundreds of hours later.", "anchors": ["pylesa/controllers/fixed_order.py:166-722", "pylesa/storage/electrical_storage.py:12-138"]}
{"id": "C121", "title": "The tables show a bigger battery as no worse", "statement": "If two runs differ in the size of the battery only, then every column of the indicator tables agrees with what the battery can do: the columns about the heat pump, the back-up and the cost of heat are the same; import, import for the electrical demand, export and the grid renewables used are no larger; the use of the own generation and the share of the demand met by renewables are no smaller; operating cost, cost of electricity, lifetime cost and the levelised cost of energy are no larger.", "quantifier": "for all plants with or without a heat store, all battery sizes, all years, all lengths of runs, all tariffs, fuels and incentives, all orders of processes", "why_tests_cant": "A test compares the tables of two example runs; the claim is about all 25 indicators for every pair of sizes, every series of hours and every tariff, and the indicators combine sums over the whole run.", "anchors": ["pylesa/io/outputs.py:680-1584", "pylesa/io/outputs.py:1947-2077", "pylesa/controllers/fixed_order.py:166-722"]}
{"id": "C122", "title": "A sensibly filled-in workbook gives sensible results", "statement": "If the cells of the workbook are physically sensible (battery sizes and limits not negative and its shares between 0 and 1, a positive back-up efficiency, demands, costs and numbers of turbines not negative, a positive COP, a flow temperature not below the return temperature, orders that list no process twice and none before one it would overrule), then in every hour of every combination that the fixed order controller completes no flow of energy, no fuel use and no battery level is negative, the battery never holds more than the capacity in its cell, the generation is not used twice, and with orders that buy the rest the electrical demand is met exactly.", "quantifier": "for all workbooks with such cells, all sweeps of sizes, all first hours and lengths of runs, all answers of the wind and PV libraries that are not negative, all hours", "why_tests_cant": "Tests run single example workbooks; the claim links conditions on single cells to every hour of every combination of every such workbook, through reading, set-up, renewables, heat pump performance and controller.", "anchors": ["pylesa/main.py:75-140", "pylesa/io/inputs.py:19-290", "pylesa/controllers/fixed_order.py:166-722"]}
{"id": "C123", "title": "Raising the battery capacity in the workbook makes the tables no worse", "statement": "If the number in the capacity cell of the battery is raised and the program is run again with the fixed order controller, then for each combination of sizes the indicator tables show the same heat side, no more import and export, no smaller use of the own generation, no smaller share of renewables, and no larger operating, electricity, lifetime and levelised energy cost.", "quantifier": "for all sensible workbooks (C122), all pairs of capacities, all sweeps, all combinations of sizes, all tariffs and orders, all lengths of runs", "why_tests_cant": "A test compares two example workbooks; the claim compares the published tables of all pairs of workbooks that differ in one cell, through the whole program.", "anchors": ["pylesa/main.py:75-140", "pylesa/io/read_excel.py:284-299", "pylesa/io/outputs.py:1947-2077", "pylesa/controllers/fixed_order.py:166-722"]}
{"id": "C124", "title": "Down the tables, a bigger heat pump shows no more back-up heat", "statement": "Within one sweep, of two combinations with the same heat store the one with the bigger heat pump shows in the published tables at least as much heat from the heat pump, no more heat from the back-up and no more electricity bought, and its capital cost is higher by exactly the price of the difference in size.", "quantifier": "for all sensible workbooks (C122), all sweeps, all pairs of rows with the same heat store, all first hours and lengths of runs, all heat pump models, fuels and orders", "why_tests_cant": "A test compares the rows of one example; the claim is about any two rows of any table, each of which sums a whole run of hours in which the size decides about the minimum output, the order and what is left for the back-up.", "anchors": ["pylesa/main.py:75-140", "pylesa/io/outputs.py:1381-1406", "pylesa/io/outputs.py:1947-2077", "pylesa/heat/heatpump.py:220-339", "pylesa/controllers/fixed_order.py:166-722"]}
{"id": "C125", "title": "The figures in the tables of a sensibly filled-in workbook make sense", "statement": "For a sensibly filled-in workbook, every total in the published tables (heat from the heat pump and the back-up, electricity used, generated, bought and sold) is a number that is not negative, no more is sold than generated, every share lies between 0 and 100 %, and the seasonal performance factor of a heat pump of constant COP is the number in its cell.", "quantifier": "for all sensible workbooks (C122), all rows of the tables, all first hours and lengths of runs, all orders, tariffs and fuels", "why_tests_cant": "A test looks at the tables of one workbook; whether a share leaves its range depends on the sums over whole runs, on the order and on what the battery did before the run.", "anchors": ["pylesa/main.py:75-140", "pylesa/io/outputs.py:680-1342", "pylesa/io/outputs.py:1947-2077", "pylesa/controllers/fixed_order.py:166-722"]}
{"id": "C126", "title": "Less demand in the workbook means no more purchases in the tables", "statement": "If the hourly demands for heat and electricity in the workbook are lowered in any hours and nothing else is changed, the published tables of the second run show for every combination of sizes no more electricity bought, in total and for the electrical demand, no less electricity sold, and no higher operating cost and cost of electricity.", "quantifier": "for all pairs of sensible workbooks (C122) that differ in the demand columns only, all combinations of sizes, all first hours and lengths of runs, all orders, tariffs and fuels", "why_tests_cant": "A test compares two workbooks; the demand of every hour can be lowered by any amount, and what the battery keeps carries over to all later hours.", "anchors": ["pylesa/main.py:75-140", "pylesa/io/inputs.py:145-157", "pylesa/io/outputs.py:680-1342", "pylesa/io/outputs.py:1947-2077", "pylesa/controllers/fixed_order.py:166-722"]}
{"id": "C127", "title": "Another electricity price in the workbook changes only the money in the tables", "statement": "If a workbook with a flat rate is given other electricity prices that lie on the same side of the price setpoint, and nothing else is changed, the published tables under fixed order control keep every column that is not about money or depends only on the sizes, entry by entry. The cost of electricity (with an electric back-up also the operating cost) is exactly the flat rate times the electricity bought minus the export price times the electricity sold, so it changes by the change of the two prices times these totals, and dearer purchases and worse-paid sales never lower it.", "quantifier": "for all pairs of workbooks that differ in the sheet of the tariff only, both with a flat rate on the same side of the setpoint, all combinations of sizes with and without a heat store, all first hours and lengths of runs, all orders and fuels; the last clause for sensible workbooks (C122)", "why_tests_cant": "A test compares two price pairs for one plant; whether a price leaks into the dispatch of some hour, and whether the yearly bill is exactly the prices times the totals, is a statement about all prices, plants and sums.", "anchors": ["pylesa/main.py:75-140", "pylesa/power/grid.py:47-108", "pylesa/io/outputs.py:680-1342", "pylesa/io/outputs.py:1408-1431", "pylesa/io/outputs.py:1542-1553", "pylesa/io/outputs.py:1947-2077", "pylesa/controllers/fixed_order.py:166-722"]}
{"id": "C128", "title": "A higher coefficient of performance in the workbook means no more purchases in the tables", "statement": "If the coefficient of performance entered for a heat pump of the simple approach is raised and nothing else that the dispatch uses is changed, the published tables of the second run show for every combination of sizes no more electricity bought, in total and for the electrical demand, no less electricity sold, and no higher operating cost and cost of electricity.", "quantifier": "for all pairs of sensible workbooks (C122) that differ in the sheet of the heat pump only and agree in least run time and least output, all coefficients, all combinations of sizes, all first hours and lengths of runs, all orders, tariffs and fuels", "why_tests_cant": "A test compares two coefficients for one workbook; what the heat pump leaves over reaches the battery and so all later hours, and the sums of whole runs are compared.", "anchors": ["pylesa/main.py:75-140", "pylesa/io/read_excel.py:466-628", "pylesa/heat/heatpump.py:148-295", "pylesa/io/outputs.py:680-1342", "pylesa/io/outputs.py:1947-2077", "pylesa/controllers/fixed_order.py:166-722"]}
{"id": "C129", "title": "The tables of two consecutive periods add up to the table of the whole period", "statement": "If a period is simulated under fixed order control once as a whole and once in two consecutive parts, by changing only the first hour and the number of hours in the workbook, then for every combination of sizes the totals of heat pump output and usage, back-up heat, purchases, generation, sales and own consumption, the operating cost and the cost of electricity in the table of the whole are the sums of those in the tables of the parts, while the capital cost is the same in all three. The hours of the first part are the first hours of the whole, so no total falls when the period is made longer.", "quantifier": "for all workbooks, all first hours, all lengths of the two parts, all combinations of sizes, all orders, tariffs and fuels", "why_tests_cant": "A test splits one period of one workbook at one hour; that no state, hour number or tariff period leaks across the split has to hold for every split and every workbook.", "anchors": ["pylesa/main.py:99-127", "pylesa/controllers/fixed_order.py:59-164", "pylesa/io/outputs.py:680-1342", "pylesa/io/outputs.py:1947-2077"]}
