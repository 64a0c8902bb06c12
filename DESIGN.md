# Formal model of PyLESA in Rocq/Coq 8.16.1

## Scope and method

`/repo` is read as text. Each Python function that carries energy, money, state
or control flow is transcribed branch by branch into a total, computable Gallina
function. Every definition cites the file and the lines it mirrors.

* **Numbers.** Python floats are modelled as exact rationals (`Q`), without rounding
  and overflow. `M_Float` is the battery once more in IEEE 754 binary64 (Flocq's
  `binary_float 53 1024`, round to nearest even, overflow, NaN), with a proved bound on
  its distance from the exact model (C99, C100); `M_FloatHour` is the loop of an hour of the
  fixed order controller in binary64, `M_FloatTotals` what follows it in the hour and `M_FloatRun` the loop over the hours (C105, C106). Equality of numbers in theorems is `==`
  on `Q`. `min(a,b)` is Python's (first argument on ties), `round(x, n)` is
  round-half-even on the exact value. Where numpy answers a division by zero with
  nan or an infinity instead of raising, the model has an explicit `NotFinite`
  value; where a data frame has a gap, an explicit `None`.
* **Exceptions** are values: `Ok v | Err e`. A theorem about a function that can
  raise says which inputs raise and what the successful result satisfies.
* **Dictionaries of results** are total maps from an enumeration of the result
  fields, initialised to 0.0 like the Python dictionaries.
* **External libraries** (scipy odeint, GEKKO, pvlib, windpowerlib, sklearn,
  pandas/numpy I/O, multiprocessing queues) are oracles: universally quantified
  parameters of the model, constrained only by hypotheses that are stated in the
  theorem. `odeint` is applied by the code to a right-hand side that does not
  depend on the integration variable, so its exact solution over one unit of time
  is the Euler step `T + dT`; the model uses that.
* **Concurrency.** The worker process and the main process are transition
  systems; theorems hold for every interleaving (invariants over reachable
  states).
* **File system.** The effects of a run are lists of actions on an abstract tree.
* **Transcendental functions** (`ln` in the Lorentz model) are treated over the
  standard-library reals in separate files; these and the floating-point files are the only
  ones that use axioms.

## Layout (`rocq/theories`)

| file | content |
|---|---|
| `Base.v`, `BaseL.v` | result type, Python `min`/`max`/`round`/`range`/slices on `Q`, `Z`, lists; their lemmas |
| `M_*.v` | models, one per Python module, no proofs |
| `S_*.v` | small independent specifications used by the theorems |
| `L_*.v` | lemmas |
| `P_*.v` | final theorems `Cnn_...`, each followed by `Print Assumptions`, with examples showing that the hypotheses can be met |

| model | Python code |
|---|---|
| `M_Battery` | `storage/electrical_storage.py` |
| `M_Float` | `storage/electrical_storage.py` in binary64 floating point |
| `M_FloatHour` | the loop of an hour, `controllers/fixed_order.py:172-200, 726-887, 1028-1307`, in binary64 floating point, the two answers of the store given |
| `M_FloatTotals` | the totals, accounts and minimum output rule of an hour, `controllers/fixed_order.py:138-150, 200-436, 476-724`, in binary64 floating point; the node temperatures of the store are left out |
| `M_FloatRun` | the loop over the hours, `controllers/fixed_order.py:59-164`, in binary64 floating point |
| `M_Tank` | `storage/hot_water_tank.py` |
| `M_HeatPump` | `heat/heatpump.py`, `heat/enums.py`, `heat/auxiliary.py`, `heat/models/{performance,simple,generic_regression}.py`, heat-pump part of `io/inputs.py` |
| `M_Lorentz` | `heat/models/lorentz.py` (over `R`) |
| `M_Regression` | `heat/models/standard_regression.py`, `io/inputs.py:247-326` |
| `M_Excel` | `io/read_excel.py`, `io/inputs.py` (cells to parameters) |
| `M_Init` | `initialise_classes.py` (`init`), the accessors of `io/inputs.py`, `parametric_analysis.py:69-128` (one combination) |
| `M_Tools` | `tools.py`, helper class at the end of `controllers/fixed_order.py` |
| `M_FixedOrder` | `controllers/fixed_order.py` |
| `M_Mpc` | `controllers/mpc.py` (problem construction, post-processing, rolling loop) |
| `M_Grid` | `power/grid.py`, tariff selection of `initialise_classes.py` |
| `M_Renewables` | `power/renewables.py`, `environment/weather.py` |
| `M_Demand` | `demand/heat_demand.py`, `demand/electricity_demand.py` |
| `M_Sweep` | `parametric_analysis.py`, name parsing of `io/outputs.py`, order strings of `io/read_excel.py` |
| `M_Kpi` | class `Calcs` and `ThreeDPlots.KPIs_to_csv` of `io/outputs.py` |
| `M_Plots` | `run_plots`, `run_KPIs`, class `Plot` and the surfaces of `ThreeDPlots` in `io/outputs.py`: the data, titles, labels and legends given to matplotlib |
| `M_Program` | `main` and `run_solver` in `main.py` from the workbook to results, figures and tables: composes the models above |
| `M_Process` | `mp/process.py`, the two-process run of `main.py` |
| `M_Main` | file-system effects of `main.py`, `io/paths.py`, `logging.py`, `io/read_excel.py`, `parametric_analysis.py`, controllers, outputs |

## Proof ideas by area

* Battery: clamp in `new_soc`; induction on histories of requests.
* Heat pump, auxiliary: nested minima over `Q`, case analysis on constructors.
* Fixed order: an invariant over the fold of processes (each remaining quantity =
  initial quantity - booked fields); duplicate-free and safe orders; induction on
  the hours of a run; relational induction for causality.
* Tank: list induction, telescoping sums, convexity of mixing.
* Predictive controller: any answer of the optimiser that satisfies the stated
  constraints; exact post-processing; induction on hours of the rolling loop.
* Grid, demand, renewables: exact value of every hour; calendar arithmetic on `Z`.
* Sweep: Python `range` lemmas; decimal printing/parsing round trip.
* Processes: invariants over all interleavings.
* KPIs: sums over result lists; exact formulas, then derived bounds.
* Lorentz: logarithmic-mean inequalities over `R`.
* Regression: optimality of least squares (perturbation argument); Gram-Schmidt as an
  executable fit meeting the assumed contract.
* Workbook: frames as labelled selections of a sheet; an invariant (labels are the original
  coordinates) preserved by every selection; column arithmetic for transposed blocks.

* Set-up: every parameter traced through the selections to its cell; completeness by
  running the model on a workbook described cell by cell.
* Figures: data compared with slices of the records; months by sums over ranges.
* Whole program: inversion of a completed run into set-up, records and indicators; the
  claims of the parts are lifted to the files written.
* Floating point: rounding is monotone, so clamps keep the range; the exact hour does not
  expand distances, so rounding errors only add up. In the hour's loop every process enlarges
  errors by at most a fixed factor, also where a comparison goes the other way.

## Properties

A property that is false for the code has status `partial`: a `..._refuted`
theorem with a concrete witness and a guarded `..._partial` version that holds
(see Findings).

| id | title | code | status |
|---|---|---|---|
| C01 | Battery charge level always stays between empty and full | `storage/electrical_storage.py` | proved |
| C02 | Battery respects its power limits in each hour | `storage/electrical_storage.py` | proved |
| C03 | Battery never creates energy over a history | `storage/electrical_storage.py` | partial |
| C04 | Filling the battery from the grid | `storage/electrical_storage.py` | proved |
| C05 | Every battery query answers for every request | `storage/electrical_storage.py` | partial |
| C06 | Heat pump output never exceeds electricity, demand or duty | `heat/heatpump.py` | proved |
| C07 | Electricity needed by the heat pump is consistent with its output | `heat/heatpump.py` | proved |
| C08 | Electrical demand is met exactly every hour | `controllers/fixed_order.py` | partial |
| C09 | Heat demand is met exactly every hour | `controllers/fixed_order.py` | partial |
| C10 | Every unit of renewable generation is accounted for once | `controllers/fixed_order.py` | partial |
| C11 | Grid accounts and cash flow | `controllers/fixed_order.py` | proved |
| C12 | All energy flows are non-negative | `controllers/fixed_order.py` | partial |
| C13 | Heat pump never delivers more than its duty | `controllers/fixed_order.py` | partial |
| C14 | Minimum-output rule of the heat pump | `controllers/fixed_order.py` | partial |
| C15 | Battery charge is in range after every simulated hour | `controllers/fixed_order.py`, `storage/electrical_storage.py` | proved |
| C16 | A run returns one record per requested hour or fails loudly | `controllers/fixed_order.py` | proved |
| C17 | Results do not depend on the future | `controllers/fixed_order.py` | proved |
| C18 | Process order numbers | `controllers/fixed_order.py` | proved |
| C19 | No import for demand while exporting | `controllers/fixed_order.py` | proved |
| C20 | Tank charging and discharging stay within what the tank can take or give | `controllers/fixed_order.py` | partial |
| C21 | Battery energy delivered by the controller was really in the battery | `controllers/fixed_order.py`, `storage/electrical_storage.py` | partial |
| C22 | Tank state keeps its shape | `storage/hot_water_tank.py` | proved |
| C23 | Tank energy balance | `storage/hot_water_tank.py` | partial |
| C24 | Tank temperatures stay within the physical range | `storage/hot_water_tank.py` | partial |
| C25 | A tank in standby only loses heat towards ambient | `storage/hot_water_tank.py` | partial |
| C26 | Tank capability queries | `storage/hot_water_tank.py` | partial |
| C27 | MPC returns one record per requested hour | `controllers/mpc.py` | partial |
| C28 | MPC records satisfy the balances the optimiser was given | `controllers/mpc.py` | partial |
| C29 | MPC keeps storage state across hours | `controllers/mpc.py` | partial |
| C30 | Tariff series cover the year | `power/grid.py` | partial |
| C31 | Wholesale tariff is capped and peak premium only 16-19h | `power/grid.py` | proved |
| C32 | Wind PPA price bands | `power/grid.py` | partial |
| C33 | Parametric sweep covers exactly the requested grid | `io/outputs.py`, `parametric_analysis.py` | partial |
| C34 | Every combination has its own folder and can be read back | `io/outputs.py`, `parametric_analysis.py` | proved |
| C35 | Sweep inputs are independent of each other | `parametric_analysis.py` | proved |
| C36 | Output jobs run exactly once, in submission order | `mp/process.py` | proved |
| C37 | A failing output job is reported | `mp/process.py` | proved |
| C38 | Restarting the output process starts clean | `mp/process.py` | partial |
| C39 | Monthly totals partition the year | `tools.py` | proved |
| C40 | Surplus and deficit | `controllers/fixed_order.py`, `tools.py` | proved |
| C41 | Self-consumption and demand-met KPIs are percentages | `io/outputs.py` | partial |
| C42 | Cost KPIs use consistent units | `io/outputs.py` | partial |
| C43 | Renewable heat incentive is continuous and monotone | `io/outputs.py` | proved |
| C44 | Existing results are never overwritten without consent | `main.py` | proved |
| C45 | Order strings are read back exactly | `io/read_excel.py` | proved |
| C46 | Back-up heater | `heat/auxiliary.py` | proved |
| C47 | Heat pump model selection and yearly inputs | `heat/heatpump.py`, `initialise_classes.py`, `io/inputs.py` | partial |
| C48 | Lorentz model reproduces its specification point | `heat/models/lorentz.py` | partial |
| C49 | Demand smoothing keeps the year length and bounds | `demand/electricity_demand.py`, `demand/heat_demand.py` | partial |
| C50 | Every simulated hour is solved before it is plotted, and KPIs come last | `main.py`, `mp/process.py` | partial |
| C51 | Balance checks have a known tolerance | `controllers/fixed_order.py` | proved |
| C52 | A storage hour moves exactly the requested energy | `storage/hot_water_tank.py` | partial |
| C53 | Wind bands split the year in the entered proportion | `power/grid.py` | proved |
| C54 | KPIs use the sizes that were simulated | `io/outputs.py`, `parametric_analysis.py` | partial |
| C55 | Duty tables scale with the heat pump size | `parametric_analysis.py` | partial |
| C56 | Blocking stop waits for outstanding output jobs | `mp/process.py` | partial |
| C57 | Only the workbook's own output folder is touched | `io/read_excel.py`, `main.py`, `parametric_analysis.py` | partial |
| C58 | Grid renewables are attributed to the hours simulated | `io/outputs.py` | partial |
| C59 | Annualised indicators do not depend on the simulated duration | `io/outputs.py` | partial |
| C60 | Seasonal COP lies between the worst and best hourly COP | `io/outputs.py` | partial |
| C61 | KPI tables pair sizes with the right run | `io/outputs.py` | proved |
| C62 | Only electricity counts as grid renewable heat input | `io/outputs.py` | partial |
| C63 | Predictive control works with every back-up fuel | `controllers/mpc.py` | partial |
| C64 | Each predictive-control record describes its own hour | `controllers/mpc.py` | partial |
| C65 | The optimisation problem is bounded | `controllers/mpc.py` | partial |
| C66 | Predictive control records what the back-up heat costs | `controllers/mpc.py` | partial |
| C67 | Every published indicator equals its formula | `io/outputs.py` | proved |
| C68 | The cost of heat counts every pound spent on heat | `io/outputs.py` | partial |
| C69 | Heat demand follows dwellings, day temperature and hot water | `demand/heat_demand.py` | proved |
| C70 | Electricity demand follows season, weekday and hour | `demand/electricity_demand.py` | partial |
| C71 | The demand generators find the tables shipped with the package | `demand/electricity_demand.py`, `demand/heat_demand.py` | partial |
| C72 | PV generation is pvlib's power, scaled, corrected and never negative | `environment/weather.py`, `power/renewables.py` | partial |
| C73 | Wind generation is windpowerlib's power times the number of turbines | `power/renewables.py` | partial |
| C74 | The generation the controllers use is complete and adds up | `controllers/fixed_order.py`, `controllers/mpc.py` | partial |
| C75 | Every input of the PV plant has an effect | `environment/weather.py`, `power/renewables.py` | partial |
| C76 | The helper functions return the yearly generation | `power/renewables.py` | partial |
| C77 | PV modules are found under their catalogue name | `power/renewables.py` | partial |
| C78 | Standard test regression is the best quadratic surface | `heat/heatpump.py`, `heat/models/standard_regression.py`, `parametric_analysis.py` | proved |
| C79 | Which test results enter the regression | `heat/models/standard_regression.py`, `io/inputs.py` | partial |
| C80 | Predicted COP and heat output are positive | `heat/heatpump.py`, `heat/models/standard_regression.py` | partial |
| C81 | Every single setting of the workbook reaches the run from its own cell | `io/inputs.py`, `io/read_excel.py` | proved |
| C82 | Every hourly series is one column of its sheet, hour by hour | `io/inputs.py`, `io/read_excel.py` | proved |
| C83 | A filled-in row for the battery, the PV array or a turbine is used | `io/inputs.py`, `io/read_excel.py` | partial |
| C84 | All test results of the heat pump on the sheet are used for the regression | `io/inputs.py`, `io/read_excel.py` | partial |
| C85 | Every component is built from its cells of the workbook | `initialise_classes.py`, `io/inputs.py`, `parametric_analysis.py` | proved |
| C86 | A sweep varies only the two sizes | `initialise_classes.py`, `io/inputs.py`, `parametric_analysis.py` | proved |
| C87 | The tank is simulated with the dimensions entered | `io/inputs.py`, `storage/hot_water_tank.py` | partial |
| C88 | Every modelling approach of the workbook gives a year of performance | `heat/heatpump.py`, `initialise_classes.py` | partial |
| C89 | The curves of the figures are the recorded quantities | `io/outputs.py` | partial |
| C90 | The stacked areas add up to what their title says | `controllers/fixed_order.py`, `io/outputs.py` | partial |
| C91 | The bar charts show the production of each month | `io/outputs.py`, `tools.py` | partial |
| C92 | A completed run gets its complete set of figures | `io/outputs.py` | partial |
| C93 | The surfaces over the two sizes show the right run | `io/outputs.py` | partial |
| C94 | Every stored hour belongs to its own row of the workbook | `controllers/fixed_order.py`, `controllers/mpc.py`, `io/read_excel.py`, `main.py` | partial |
| C95 | A run that completes has had all its hours | `controllers/fixed_order.py`, `main.py` | proved |
| C96 | A simulation depends on its own inputs only | `controllers/fixed_order.py`, `main.py`, `parametric_analysis.py` | proved |
| C97 | Every row of the tables belongs to its own simulation | `io/outputs.py`, `main.py`, `parametric_analysis.py` | proved |
| C98 | A correctly filled-in workbook is simulated to the end | `main.py` | partial |
| C99 | Rounding never takes the battery out of range | `storage/electrical_storage.py` | proved |
| C100 | The level of the battery is computed exactly | `storage/electrical_storage.py` | partial |
| C101 | The heat pump can be switched off in every hour | `controllers/fixed_order.py`, `storage/hot_water_tank.py` | partial |
| C102 | Prices reach the fixed-order dispatch through the setpoint only | `controllers/fixed_order.py` | proved |
| C103 | A process left out of the order does not happen | `controllers/fixed_order.py` | partial |
| C104 | A bigger battery never means buying more electricity | `controllers/fixed_order.py`, `storage/electrical_storage.py` | partial |
| C105 | An hour's flows are the ones exact arithmetic gives | `controllers/fixed_order.py`, `heat/heatpump.py` | partial |
| C106 | Balances and signs survive floating point | `controllers/fixed_order.py` | partial |
| C107 | A bigger heat pump never means more back-up heat | `controllers/fixed_order.py`, `heat/heatpump.py` | partial |
| C108 | More wind or sun, or less demand, never makes the plant buy more or earn less | `controllers/fixed_order.py`, `storage/electrical_storage.py` | partial |
| C109 | Twice the plant for twice the demand gives twice the flows | `controllers/fixed_order.py`, `heat/heatpump.py`, `storage/electrical_storage.py` | partial |
| C110 | Only the total of wind and sun matters to the dispatch | `controllers/fixed_order.py`, `heat/heatpump.py`, `storage/electrical_storage.py`, `storage/hot_water_tank.py` | proved |
| C111 | The predictive controller does not buy in an hour in which it sells | `controllers/mpc.py` | partial |
| C112 | A bigger plant never makes the best plan dearer | `controllers/mpc.py` | proved |
| C113 | Under predictive control the heat pump is off or delivers its minimum output | `controllers/mpc.py`, `heat/heatpump.py` | partial |
| C114 | Planning ahead never costs more than the fixed order | `controllers/fixed_order.py`, `controllers/mpc.py` | partial |
| C115 | The energy account of a whole run closes | `controllers/fixed_order.py`, `controllers/mpc.py`, `heat/auxiliary.py`, `storage/electrical_storage.py` | partial |
| C116 | A period can be simulated in parts | `controllers/fixed_order.py`, `controllers/mpc.py`, `storage/electrical_storage.py` | partial |
| C117 | A heat pump that needs less electricity never makes the plant buy more or earn less | `controllers/fixed_order.py`, `heat/heatpump.py`, `heat/models/performance.py`, `heat/models/simple.py` | partial |
| C118 | A different charge of the battery at the start changes a run by no more than that charge | `controllers/fixed_order.py`, `storage/electrical_storage.py` | partial |
| C119 | A better battery never means buying more electricity | `controllers/fixed_order.py`, `storage/electrical_storage.py` | partial |
| C120 | A bigger battery never makes the electricity bill worse | `controllers/fixed_order.py`, `storage/electrical_storage.py` | partial |
| C121 | The tables show a bigger battery as no worse | `controllers/fixed_order.py`, `io/outputs.py` | partial |
| C122 | A sensibly filled-in workbook gives sensible results | `controllers/fixed_order.py`, `io/inputs.py`, `main.py` | proved |
| C123 | Raising the battery capacity in the workbook makes the tables no worse | `controllers/fixed_order.py`, `io/outputs.py`, `io/read_excel.py`, `main.py` | partial |
| C124 | Down the tables, a bigger heat pump shows no more back-up heat | `controllers/fixed_order.py`, `heat/heatpump.py`, `io/outputs.py`, `main.py` | partial |
| C125 | The figures in the tables of a sensibly filled-in workbook make sense | `controllers/fixed_order.py`, `io/outputs.py`, `main.py` | partial |
| C126 | Less demand in the workbook means no more purchases in the tables | `controllers/fixed_order.py`, `io/inputs.py`, `io/outputs.py`, `main.py` | partial |
| C127 | Another electricity price in the workbook changes only the money in the tables | `controllers/fixed_order.py`, `io/outputs.py`, `main.py`, `power/grid.py` | proved |
| C128 | A higher coefficient of performance in the workbook means no more purchases in the tables | `controllers/fixed_order.py`, `heat/heatpump.py`, `io/outputs.py`, `io/read_excel.py`, `main.py` | partial |
| C129 | The tables of two consecutive periods add up to the table of the whole period | `controllers/fixed_order.py`, `io/outputs.py`, `main.py` | partial |

## Findings (properties refuted, or true only in part)

* **C03** First half (no history stores more than offered) proved. Second half (delivered energy is covered by the fall of the level) is false when discharge efficiency < 1: C03_battery_delivery_covered_refuted; C03_battery_delivery_covered_partial gives the guarded version.
* **C05** False for every deficit because an argument is missing in the call: C05_battery_queries_total_refuted; exact failure condition in C05_battery_queries_fail_iff_deficit.
* **C08** Proved for all hours with an order in which no process precedes the one it depends on (every increasing order, C18_increasing_orders_are_safe) and, for any data, for every duplicate-free order in which the battery is not asked after the grid. False for arbitrary duplicate-free orders: refuted with a witness.
* **C09** Proved for hours not corrected by the minimum-output rule; at low tariff the renewable share of the back-up is missing from the heat-demand section (refuted), so the balance there is stated with that share added.
* **C10** Never used twice: proved for all hours. Exact balance proved unless the minimum-output rule switches the heat pump off, where it is refuted.
* **C12** Proved for safe orders; refuted for two kinds of reordered processes.
* **C13** False: with the full order 1..13 the output can reach twice the duty (refuted). Bound 2*duty + 0.005 proved for every safe order; the duty itself under the stated order restrictions.
* **C14** False in three ways (refuted with witnesses): outputs up to 0.1 kWh escape the rule, a switched-off low-tariff hour with a tank leaves demand uncovered, topped-up electricity is not in the grid account. What does hold is proved.
* **C20** Proved unless the heat pump is switched off by the minimum-output rule; refuted there.
* **C21** Proved for discharge efficiency 1 and net discharge within the power limit; refuted when either fails.
* **C23** Discharging proved. Charging proved exactly for every state; it equals the claimed balance unless a node above the bottom is exactly at source temperature, where the source heat is counted once more per tied node (refuted), or the whole tank is hotter than the source.
* **C24** Per internal step for tanks without connections and without ties; refuted with a tie and, without ties, by the first-order overshoot at full flow.
* **C25** Exact standby formula for every tank; the claim holds without connections. Refuted with connections: their loss enters with the wrong sign and heats the tank.
* **C26** Zero cases proved; non-negativity proved when flow temperature >= return temperature, refuted below.
* **C27** Runs of two or more hours return one record per hour and runs beyond the year raise ValueError; the pre-calculated capacities cover every horizon. False as stated: a one-hour run returns no records, a run ending between two and one horizons before the end of the year always raises IndexError in the pre-calculation, and the last two hours of the year never succeed. C27_completes_partial proves completion in all remaining cases, for any optimiser that answers from the initial charge level.
* **C28** Electricity, renewable and heat pump balances hold for every feasible answer. False as stated: battery-driven back-up heat is counted and paid as import, the renewable battery charging is missing from the renewable columns, charging and discharging the tank at equal rates is recorded as both positive, and with another fuel the import can be negative. Exact and guarded forms are proved beside each refutation. The discretisation of the two differential equations inside GEKKO is left arbitrary.
* **C29** C29_exact characterises every record of every run. False as stated: when the optimiser fails the hour is repeated from the initial storage state (C29_kept_refuted). Kept throughout when the optimiser always answers (C29_kept_partial).
* **C30** Year length, flat series, tariff names and the exact weekday of every priced hour are proved. False as stated for leap years: the last simulated day (30 December) gets the prices of 31 December's weekday (C30_correct_weekday_refuted); every day of an ordinary year is right (C30_correct_weekday_partial).
* **C31** Exact price of every hour, premium in hours 16-18 only, cap.
* **C32** Exact price of every hour for the three agreements and the order of the bands are proved. The maximum is not respected: the penalty is added after the cap (C32_maximum_refuted); C32_maximum_partial bounds the excess by the penalty and limits it to low-wind hours.
* **C33** Exact set of combinations proved for all positive steps (C33_sweep_exact). False as stated: a step that does not divide the range overshoots, the tank range uses the heat pump step, and with heat pump step 0 the largest tank is missing (three _refuted theorems). C33_requested_grid_partial gives the conditions under which the statement holds.
* **C38** False as stated: leftovers of a crashed session are run by the next one, which can then end on the old stop mark and lose new jobs silently; cancel discards nothing. Proved for histories in which every stop returned normally.
* **C41** Self-consumption, heat and heat-pump shares proved to be percentages (self-consumption and heat-pump share for every good fixed-order run, the others for every run satisfying the hourly balances). The demand share is false as stated: charging the battery counts as use without being demand, giving more than 100 %; proved within 100 + the charged share.
* **C42** Electric back-up proved, with the levelised cost. Other fuels refuted: the fuel cost enters the operating cost a thousand times smaller than the lifetime cost; the exact difference is proved.
* **C47** Input checks proved. "Every model can be used" is false: the generic regression is rejected when the classes are built, and the Lorentz model cannot be evaluated with the scalar return temperature of the workbook (two refuted theorems); the usable cases are proved.
* **C48** Proved over the reals (standard-library axioms of R): the specification point, efficiency = COP / Lorentz limit, the exact COP at all temperatures, duty = min(COP * electrical capacity, capacity), and strict monotonicity in source and sink temperatures while heat is lifted (log mean of the sink above that of the source). Refuted without that guard: a stream that keeps its temperature (e.g. equal ambient temperatures in the specification, a source cooling of 0) has no COP, and above the sink temperature the COP turns negative.
* **C49** The value of every hour of both smoothed series is stated exactly; length is proved, constants other than 0 are preserved, electricity stays within bounds for non-negative non-zero series, heat outside hours 1 to 3; from hour 4 (7) on hour h is the mean of the hours up to h. Refuted: a zero year becomes undefined in hours 1 to 3 (1 to 6), a heat peak in hour 1 is shown four times as high in hour 2.
* **C50** Ordering and KPI clauses proved for both branches. Propagation of the solver's own error is false when a plot failed or a join timed out (another error replaces it); proved otherwise.
* **C52** Never more than requested, and exactly the requested energy when no internal step is capped; refuted when capped.
* **C54** False: a fractional size is dropped by the name parser, so the tank size is used as heat pump size and reading the tank size fails.
* **C55** False: the ratio is rounded to two decimals. Proved within half a percent of the workbook duty; sizes below half a percent of the capacity and workbook capacity 0 give zero duty (C55_no_duty).
* **C56** False as stated: with block the wait is cut at the time-out and ValueError is raised with the worker still running; without block it waits without limit. The second fact is proved.
* **C57** False as stated: with overwrite a workbook inside its own output folder is deleted before it is read, and workbooks named '..xlsx' or '...xlsx' delete the output directory or its parent. Proved for all other names.
* **C58** False as stated: the wind output is read from the start of the year, so any run not starting at hour 0 is attributed to the wrong hours. Proved for runs from hour 0 and for tariffs without agreement.
* **C59** Lifetime cost, seasonal COP, self-consumption and days of storage proved. Levelised cost refuted: the incentive of the simulated period is taken as a year's; proved when the incomes agree.
* **C60** Lower bound proved for every good run. Upper bound refuted: heat made with battery electricity counts, the electricity does not; proved for orders without battery-driven heat pump and without imported tank charging.
* **C62** Proved for electric back-up. Refuted for other fuels: heat of a gas burner in a windy hour counts as renewable.
* **C63** False: a tank together with a back-up that is not electric makes every run fail (final node temperatures never assigned). Proved for electric back-up or no tank.
* **C64** Proved for every position except the first and the last hour of the year; those two records are made up (C64_first_hour, C64_last_hour, refutation C64_own_hour_refuted).
* **C65** Proved for electric back-up with the explicit bound of exporting all generation; with any other fuel the objective is unbounded below as soon as a feasible plan exists.
* **C66** Proved for fuels; for electric back-up the recorded cost is always zero (the price is read before it is set).
* **C68** Proved for electric back-up. For other fuels the fuel cost enters divided by 1000, so the cost of heat is too small (C68_cost_of_heat_refuted); C68_exact gives both costs exactly.
* **C70** Exact hourly formula with the Gregorian calendar proved; refuted: autumn lasts until mid December although the comments end it on 27 October, and without dwellings the smoothed series has 13 values.
* **C71** Refuted for the shipped files: both functions look for paths that do not exist, C71_heat_never and C71_elec_never hold for all inputs. C71_with_tables_partial: were the tables at those paths, a year of 8760 values results.
* **C72** Everything proved except the month: the year is cut into blocks of 730 hours, so 20:00 on 31 January gets February's factor (C72_month_refuted); C72_given: which weather columns are handed to pvlib; C72_month_partial: the factor is that of the month of an hour at most 44 hours away.
* **C73** Formulas, bounds, scaling proved, and which weather columns are handed to windpowerlib (C73_given). Refuted: the same turbine delivers half as much when taken from the database (factor 0.5 applied there only); C73_same_turbine_partial gives the exact relation.
* **C74** Sums proved. Refuted: a missing value of windpowerlib leaves the total missing although PV counts it as zero; C74_complete for complete library answers.
* **C75** Refuted: the inverter is a constant, surface type, location name and altitude are never read, and air temperature and wind speed are handed to pvlib under names it does not know (C75_ignored, C75_air_temperature hold for all inputs). C75_module_partial: what is used.
* **C76** Refuted for all inputs: the wind helpers ask for the other helper's column (KeyError), the total calls them without arguments (TypeError). C76_PV_partial: the PV helper works.
* **C77** Found/refused proved for all names. Refuted: names that differ in separators only are not told apart; C77_distinct_partial for names without separators.
* **C79** exact set of rows: the first eight of each table without any empty cell. False as stated: a row lacking only the capacity percentage, which the regression never uses, is silently left out (refuted); with the percentage filled in it is used (partial).
* **C80** false: six positive results on a plane, tested from -5 to 5 degrees, give a COP of -1 at -15 degrees (and a negative heat output at -40) with every least-squares fit (refuted); at the tested temperatures results on a quadratic surface stay positive (partial).
* **C83** exact rule proved (first row without an empty cell, C83_battery, C83_PV, C83_turbines, C83_power_curve; errors without one). False as stated: a note in a column right of the table makes every row incomplete and the run stops with IndexError (C83_note_refuted); with a sheet ending at the last column of the table the filled-in row is used (C83_note_partial).
* **C84** exact set of results proved (C84_used). False as stated: the eighth row of the two lower tables is never read (C84_eighth_row_refuted); rows 41 to 47 are always used (C84_eighth_row_partial); anything right of column S makes the tables unusable (C84_extra_column).
* **C87** false: the cells for capacity, height, width and insulation thickness of the tank have no effect whatsoever (C87_ignored, for all workbooks and sizes; C87_entered_refuted).
* **C88** false as stated: the Lorentz approach always fails with AttributeError (C88_lorentz_refuted, C88_lorentz_always), the generic regression never sets up (C88_generic_never), peak data of ground and water source heat pumps fail (C88_peak_never). All other choices give a full year (C88_usable_partial).
* **C89** Content, legend, order, titles and labels of all curves proved for any results. The position on the axis is proved for runs starting with the year, except the operation figure of the winter and summer week; both exceptions are refuted (and the cash flow in pounds is labelled Pounds/MWh): a later start is drawn from hour 0 on, and the weeks of the operation figure from 0 to 167.
* **C90** Proved for demand, generation, heat demand, thermal output and electrical usage. 'Renewable power usage' has no band for battery charging: proved with that amount added, refuted as stated. The recorded total usage of the heat pump lacks the battery share shown by the stack (refuted).
* **C91** Proved for a whole year in MWh. Refuted: the axis says kWh, and a run that does not start with the year is put under the wrong months.
* **C92** Proved for every run with a tank of at least one hour and for any stored results with enough records. Refuted for a run of no hours and for the one-hour predictive run, which stores no record.
* **C93** Content of all surfaces proved for any stored results, completeness for sweeps in which both sizes vary. Refuted otherwise: with one design, or one size fixed, the program stops with an exception after the tables. Assumes that plot_trisurf fails exactly when the points span no triangle.
* **C94** Proved for the fixed-order controller (C94_plant: every part of the simulated plant is the one in its cell; C94_setpoint: the price in cell D7 decides which order counts; demand balance for orders of processes that list the import once and the battery before it). Under predictive control proved for all records but the first and the last hour of the year; the first record shows no demand whatever the sheet says (refuted).
* **C98** Completion proved for workbooks without a thermal store, for both controllers; tables proved for every completed run with a tariff without wind farm, known incentive and no negative size. Surfaces only if both sizes vary: otherwise the program ends in an exception after the tables (C93, C98_end_refuted). With a store completion is false in general: C101_switch_off_refuted stops runs of an ordinary plant in the first hour.
* **C100** False as stated: 0.1 kWh put on 0.2 kWh gives more than their sum (C100_exact_refuted). Proved instead: each hour adds at most 2^-53 (12 capacity + 4 discharging limit) of error, errors add up and are never amplified, and over a year the levels differ by less than 1.2e-11 of capacity and limit together (C100_hour, C100_history, C100_year, from the rounded initial level: C100_initial). The fill request is within one such hourly error of the exact one (C100_fill).
* **C101** False for a store whose top is at the return temperature, as in the first hour of every run: C101_cold_store shows for every plant with a tank of non-zero capacity that such an hour stops with an error, and C101_switch_off_refuted gives whole runs of an ordinary oversized heat pump (100 kW, minimum output 50 %, 400 kg of water, 5 kW of demand) that stop with ZeroDivisionError above and below the setpoint. True without a store (C101_no_store_partial): the hour completes with heat pump output 0 and the temperatures unchanged. C101_case shows a warm store with which the hour completes.
* **C103** Proved for all entries of all processes but two, without any condition (C103_left_out, C103_no_purchase_for_storage). False for the grid-driven charging of the store and for the back-up: topping the heat pump up to its minimum output buys electricity for the store at a high price, and switching it off starts a back-up that is in no order (C103_left_out_refuted); true for both in hours without that correction (C103_quiet_partial).
* **C104** False as stated: with purchase for the battery in the low-price order a bigger battery buys more (C104_buying_refuted, orders 1..13 and 1..15), and a battery charged before the heat pump takes its electricity away (C104_battery_first_refuted). C104_hour_partial, C104_run_partial, C104_year_partial prove all of it for orders in which the battery is charged after the heat side only from renewables and serves the electrical demand only; C104_increasing_orders: increasing numbers without 7 above, without 8 and 14 below the setpoint are such orders. With a battery that also drives the heat pump, and no heat store: C104_heat_hour_partial, C104_heat_back_up_partial, C104_heat_run_partial, C104_heat_year_partial for orders in which the heat pump and the back-up have their share of the surplus before the battery drives the heat pump (C104_heat_increasing_orders: increasing numbers, 7 above and 8 below only together with 4, no 14 below), at any self-discharge; C104_heat_order_refuted: without process 4 a leaking bigger battery can end the hour with less. Not covered: battery-driven heat pump with a heat store.
* **C105** The loop over the order string in binary64. Proved for orders without 'HP import to TS' and of at most fifteen processes: the run succeeds, every flow is finite and within k*drift of the exact one, where drift = 2^-53 (3 + 4 length) growth N is explicit (C105_loop_partial), and so are the flows of the hour's record when the minimum output rule leaves the hour alone (C105_record_partial); for the concrete plant of C105_example this is below 1e-7 kWh. Refuted with 'HP import to TS', whose rounding to hundredths turns one ulp into 0.01 kWh (C105_rounding_refuted). The grid balance booked before the loop is within 3, 3 and 14 roundings of size N (C105_balance_partial). C105_hour_partial does the whole hour with its totals and accounts: every one of the entries of the record is finite and within 150 units times k*drift of the exact one (the unit is 1 kWh for energies, the price scale for money, the inverse efficiency and the density for fuel), when the heat pump's output keeps 40*k*drift from the limits of the minimum output rule; C105_hour_case is a concrete hour. At those limits it is false: C105_minimum_output_refuted has an hour in which 1.1e-16 kWh left by rounding are made 1.6 kWh of heat pump output. C105_run_partial follows whole runs, each hour from the level the float hour before has left: for orders in which the battery takes surplus last, does not drive the heat pump and is not filled from the grid, every entry of hour i is off by 150 units times k*drift, and those the battery has a part in by the error of the level besides, which is that of the initial level plus i times 150*k*drift; C105_total_partial does the sums over the run, and C105_run_case is a year of 8760 hours. For other orders the level at the start of each hour has to be taken as it is in the float run. Not covered: the store's own arithmetic, whose two answers are inputs of the hour.
* **C106** False as stated: the demand is missed by an ulp at 0.1 kWh of generation and 0.4 kWh of demand (C106_exact_demand_refuted), and an export of -5.6e-17 kWh is booked (C106_negative_refuted). Proved: each balance holds up to 3, 6 or 7 times the bound of C105 (C106_demand_met_partial, C106_heat_met_partial, C106_surplus_used_partial), and no flow is more negative than that bound (C106_no_negative_partial).
* **C107** False as stated: the minimum output of a bigger heat pump is bigger, so that it is switched off where the smaller one runs (C107_minimum_output_refuted), and a heat pump that runs on bought electricity before the surplus leaves less heat demand for the surplus (C107_order_refuted). C107_hour_partial, C107_bought_partial, C107_import_partial, C107_run_partial, C107_year_partial prove it for plants without a store, orders in which surplus goes to heat before bought electricity and before the battery (C107_increasing_orders gives them), and hours that the minimum output rule leaves alone (or minimum output 0). C107_sizes: in all four performance models a larger capacity gives at least the duty at the same COP. With a hot-water tank it is false even then: C107_store_refuted runs four hours with 400 litres, where the bigger heat pump passes the flow temperature, spends the heat in a cheap hour and needs more back-up, more fuel and more import in total.
* **C108** False as stated: less heat demand can fall below the minimum output, so that the heat pump is switched off and the back-up does it all (C108_minimum_output_refuted); above the setpoint in the default order the limit of the heat pump does not count what the battery drove, so that a little surplus makes the plant buy more (C108_order_refuted); and a fuller battery that discharges by itself can be the emptier one two hours later (C108_self_discharge_refuted). C108_hour_partial, C108_money_partial (nonnegative prices), C108_level_partial, C108_back_up_partial (hours that the minimum output rule leaves alone), C108_run_partial and C108_year_partial (no self-discharge) prove it for plants without a store and orders in which the battery serves the demand before it is filled from the grid and drives the heat pump only after the grid; C108_increasing_orders gives such orders. The hours of the two runs need not start at the same level. With a hot-water tank it is false even then: C108_store_refuted runs four hours in which more sun in the first makes the plant buy more in total. Missing: other orders.
* **C109** False as stated, and the two causes are exhibited: the minimum-output rule compares with the absolute 0.1 kWh (C109_threshold_refuted) and the grid-driven heat pump rounds what it gives the store to 0.01 kWh (C109_rounding_refuted); the store state below the set point is moreover advanced with flows rounded to 0.1 kWh. Proved for one hour (C109_hour_partial) and for whole runs by induction over the hours (C109_run_partial), for every factor k > 0, every order and every store whose limits scale: in hours of the high tariff when the heat pump's output is on the same side of 0.1 kWh at both sizes, or reaches its minimum (always the case without a minimum output, C109_no_minimum), and in hours of the low tariff for plants without a store whose order has no grid-to-store process. Both directions of failure are covered (alike). The program's own tank does not scale with its capacity (its surface does not), so for plants with a store the hypothesis on the store describes k equal tanks side by side.
* **C111** C111_plan proves the claim for plans: with an electric back-up, in a planned hour that exports at an import price more than 0.01 above the export price, the purchases for the demand, the battery, the heat pump and the back-up are all zero (the margin comes from the term 0.00001*ESc_res of the objective). C111_record_partial proves that the record of the hour shows no import for the demand, the heat pump or the battery, and that its total import is what the battery gave to the back-up. The total itself is refuted (C111_total_refuted): the record counts battery-driven back-up heat as imported, so an hour can show an import beside an export. Best means least objective among the plans that obey the problem given to the solver; that the solver finds one is not modelled.
* **C113** Refuted (C113_minimum_refuted): a best plan, and the record made of it, in which a heat pump with a minimum output of 4 kW delivers 2 kW. The solver options at mpc.py:322-342 always relax the on/off variable to a number between 0 and 1 (the choice computed from the minimum output is never used). C113_no_effect proves that, as a result, the minimum output has no effect: with any two minimum outputs that the heat pump can reach, each plan of one problem has a plan of the other with the same heat pump output, the same other flows and the same cost. C113_minimum_partial proves the claim for hours in which the variable is 0 or 1.
* **C114** False in general: with a battery and a horizon of two hours every plan is optimal, yet the run loses 0.20 where the fixed order loses nothing, because the plan of the sunny hour does not see the demand of the next one (C114_refuted). Proved for plants without stores and with electric back-up: every hour and the whole run cost no more than in the fixed order, for every optimiser that returns best plans. Assumes that the order serves both demands and sells the rest, and that the fixed-order controller does not correct the heat pump's output.
* **C115** False as stated, refuted four times: a battery with losses delivers over three hours more than was charged into it (C115_battery_refuted), an electric back-up with efficiency 1/2 uses 60 where 30 were generated and bought (C115_backup_refuted), the top-up to the minimum heat pump output is not bought (C115_minimum_output_refuted), and a reset of the predictive controller after a failed optimisation refills the battery from nothing (C115_planned_reset_refuted). Proved for runs of any length: under fixed-order control the accounts of electricity (C115_electricity_partial, C115_no_free_electricity_partial) and heat (C115_heat_partial) close for undisturbed hours, electric back-up of efficiency 1 and the batteries named there; under predictive control every hour made from a plan, and every run without resets, covers its consumption whatever the efficiencies of the battery, for every discretisation that does not create charge (C115_planned_hour_partial, C115_planned_run_partial).
* **C116** False: with a battery the part run alone starts from the initial charge level and buys 5 units that the whole run takes from the battery (C116_window_refuted); under predictive control the first record of the part is made up, so the two never agree in an hour with a demand (C116_planned_first_hour, for all plants and plans). Proved under fixed-order control: a run that is in the initial state again continues exactly as one that begins there (C116_restart_partial), and a plant without battery and tank can be run in parts (C116_window_partial).
* **C117** Proved for plants without a heat store whose orders let the battery serve the demand before it is filled from the grid, and let it drive the heat pump only after the grid: per hour for all amounts bought and sold, money and battery level (C117_hour/money/level_partial), for the back-up in hours the minimum output rule leaves alone (C117_back_up_partial), for whole runs with a battery that does not discharge by itself (C117_run/year_partial). C117_typed, C117_years and C117_workbook_partial carry a higher typed coefficient from the workbook to the run; C117_cooler_flow does the heat pump part for the generic regression. False in general: C117_order_refuted (the order with every process: twice the coefficient, more import and more back-up) and C117_self_discharge_refuted (three hours with a leaky battery). For the predictive controller C117_problems and C117_plan_partial show that every plan in which the battery does not drive the heat pump can be followed at no greater cost with the better heat pump, so best plans without a battery cost no more (C117_best_partial). With a hot-water tank the fixed order claim is false: C117_store_refuted runs four hours in which a better coefficient in the first makes the plant buy more in total. With the storage equations taken hour by hour (implicit Euler) every plan, including those in which the battery drives the heat pump, can be followed at no greater cost (C117_plan_battery_partial), and best plans cost no more (C117_best_battery_partial, C117_planned_battery_partial).
* **C118** Proved for orders in which the battery takes surplus after all other uses of it, does not drive the heat pump and is not filled from the grid: for an hour from any two levels (C118_hour_partial), for every hour of a run (C118_run/every_hour_partial), and in total for a battery that can give up all its charge within an hour (C118_total_partial). With a smaller discharge limit the battery delivers more than it loses and the difference is delivered again in every hour (C118_limit_refuted). An order that fills the battery from the grid buys the difference and the losses of charging (C118_order_refuted).
* **C119** False as stated, for each of the five figures: C119_discharging_limit_refuted and C119_discharging_efficiency_refuted (both only bound or scale what is taken off the level, not what is delivered, so a better figure empties the battery sooner; C119_discharging_reversed proves that for batteries without self-discharge a lower limit or efficiency never makes the plant buy more), C119_charging_efficiency_refuted (it is bought on top when the battery is filled from the grid), C119_self_discharge_refuted and C119_charging_limit_refuted (the loss is taken off after the room left by the old level has been filled, so a fuller leaking battery ends the hour with less). C119_hour_partial, C119_run_partial and C119_year_partial prove the claim for a better battery that discharges alike and has no self-discharge, against any battery, for orders in which the battery takes surplus last and serves the electrical demand only; C119_case is a concrete pair. Better batteries that leak as much in proportion to a larger size are the subject of C104.
* **C120** False as stated: C120_leak_refuted (a bigger battery that leaks keeps electricity that is lost before it is needed), C120_price_refuted (export paid better than import), C120_no_import_refuted (an order that does not buy for the demand, so that what the battery gives saves nothing), C120_buying_refuted (a battery filled from the grid); C120_end_refuted shows that what is left at the end has to be counted. C120_hour_partial (every hour) and C120_run_partial (a run of any length) prove it for a battery without self-discharge, an export price between zero and the import price of every hour, orders that buy what the demand still needs and in which the battery takes surplus last and serves the electrical demand only; the discharging efficiency and limits are arbitrary. C120_account_partial states the bill alone for runs that leave the small battery no emptier and the big one no fuller than they began. C120_case is a concrete pair.
* **C121** False as stated: C121_battery_pump_refuted (a battery that drives the heat pump: the electricity it gives is missing from the heat pump's, so with a coefficient of performance of 3 the seasonal figure shown is 5 with the small and 15 with the big battery), C121_wind_farm_refuted (with a wind farm agreement imports of windy hours count as renewable, and the battery lowers them: 50 per cent become 0), C121_end_refuted (what is left in the bigger battery was not sold). For orders in which the battery takes surplus last and serves the electrical demand only, all 25 columns are covered: C121_heat_partial (11 columns equal), C121_cost_of_heat_partial (2 equal), C121_trade_partial (4 no larger), C121_own_use_partial (2 no smaller), C121_demand_met_partial (2 no smaller, tariffs without a wind farm agreement), C121_costs_partial (4 no larger, under the conditions of C120). C121_case meets all of them with different figures.

## Not modelled

* What matplotlib makes of the data of a figure: colours, layout, the file. `plot_trisurf`
  is assumed to fail with `ValueError` for fewer than three different points and with
  `RuntimeError` (Qhull) for points on one line, deciding exactly, and never otherwise.
* Logging text, progress bars.
* `pd.read_excel`, `pickle`, `np.savetxt` themselves: a sheet is a table of cells, a
  pickle is the object stored.
* The physics inside pvlib and windpowerlib, the solver of GEKKO, the numerical
  linear algebra of sklearn: oracles with the stated contracts.
* Binary floating point outside `M_Float`, `M_FloatHour`, `M_FloatTotals` and `M_FloatRun`; wall-clock time; signals; operating-system failures
  other than the stated exceptions.
* `controllers/mpc.py`: the discretisation of the two differential equations is a
  parameter (`dynamics`).
* `data/` files: their contents are parameters, except the paths at which they are
  looked up (C71).

## Trusted base

1. Coq's kernel, version 8.16.1 (`coqc`, re-checked by `coqchk`).
2. The transcription from Python to Gallina described above and in the comments of
   each definition.
3. What `Print Assumptions` lists:
   * every theorem outside `P_Lorentz.v`, `P_Float.v`, `P_FloatHour.v`, `P_FloatTotals.v` and `P_FloatRun.v`: *Closed under the global context* (no
     axioms at all);
   * `C48_duty`: `ClassicalDedekindReals.sig_forall_dec`,
     `FunctionalExtensionality.functional_extensionality_dep`;
   * the other theorems of `P_Lorentz.v` (`C48_specification_point`,
     `C48_efficiency`, `C48_source_partial`, `C48_sink_partial`,
     `C48_hour_partial`, `C48_lifts`, `C48_isothermal`,
     `C48_specification_refuted`, `C48_source_refuted`):
     `ClassicalDedekindReals.sig_forall_dec`, `ClassicalDedekindReals.sig_not_dec`,
     `Classical_Prop.classic`,
     `FunctionalExtensionality.functional_extensionality_dep` - the axioms of the
     standard library's real numbers;
   * every theorem of `P_Float.v`, `P_FloatHour.v`, `P_FloatTotals.v` and `P_FloatRun.v` (all of C99, C100, C105 and C106): the same
     four axioms.

   No other axiom and no plugin is used. The floating-point files use the definitions and
   theorems of the installed Flocq 4.1.0, which brings no axiom of its own.
