# Design: a machine-checked model of EcosizerEngine in Rocq (Coq 8.16.1)

The source modelled is `/repo/src/ecoengine` (Python) at the pinned commit. `properties.jsonl` lists the
properties in English, `MANIFEST.json` maps each to theorems, this file says what is modelled, how each
property is proved, what has to be trusted, and which defects of the program the proofs brought to light.

## 1. Modelling decisions

* **Numbers.** Python `float` values are modelled as exact rationals (`Q`). The model is executable
  (`vm_compute`) and axiom-free. Rounding, overflow, NaN and infinities of IEEE doubles are *not* modelled, except in C86, C87 and C89.
  Python `int` is `Z` (or `nat` for lengths and indices).
* **Exceptions are values.** Every function that can raise returns `res A := Ok a | Err e`. Division by a float
  that can be zero in the source is a checked division returning `Err ZeroDivisionError`; it is never totalised.
  (numpy divisions by zero, which yield `nan`/`inf` with a warning, are also errors in the model. The comments say where.)
* **Objects** become records. A method that mutates returns the new record. A mutation that survives an
  exception is modelled as a pair (final state, result), which is what makes properties about clean-up on the error
  path (C40, C46, C49) expressible.
* **Loops** become structural recursion over a list or a fixed iteration count.
  Python's early `break` is an explicit branch. `while` loops over a float become recursion on explicit fuel with
  an out-of-fuel error, and the theorems prove that the error is not reached.
* **numpy** arrays of 24 or 8760 numbers become `list Q`. Negative indices such as `hourly_diff[-1]` go through
  `py_nth`, which has Python's wrap-around meaning.
* **External data and libraries** (JSON tables, `scipy` interpolators, `NormalDist.inv_cdf`, CSV number
  formatting) become function arguments, so every theorem holds for whatever they return, under stated hypotheses.
  Where a property is about the shipped data (load shapes, climate tables, model list), the data are
  transcribed by a script into `D_*.v`.
* **A property that turned out false** is stated as what is true, and the failing part becomes a theorem whose name
  ends in `_refuted`: it exhibits inputs on which the expected behaviour does not hold.

## 2. Trusted base

* Coq 8.16.1's kernel, including `vm_compute`. No flag changes. `coqchk` accepts every compiled file.
* `Print Assumptions` follows each property theorem in its `P_*.v` file, and prints **"Closed under the global
  context" for every one of them but thirteen**. `C86_hour`, `C86_hour_any`, `C86_billed`, `C87_drift`,
  `C87_settles`, `C87_sized`, `C87_exact`, `C87_loop_volume`, `C89_capacity`, `C89_running`, `C89_never_runs_out`, `C89_minimal` and `C89_storage` use Flocq's theory of rounding over the
  reals, and depend on four axioms of the standard library: `ClassicalDedekindReals.sig_not_dec`,
  `ClassicalDedekindReals.sig_forall_dec`, `FunctionalExtensionality.functional_extensionality_dep` and
  `Classical_Prop.classic`. No other theorem depends on any axiom. (`coqchk -o` and `vcheck`
  list 30 names: these four, 19 opaque fields of the standard library's modules `Coq.Reals.Rdefinitions.RbaseSymbolsImpl` and
  `RinvImpl`, through which it defines the reals, and seven of `Coq.ssr.ssrunder`. The latter 26 are fields of sealed
  modules of the standard library, which `coqchk` reports as axioms; `Print Assumptions` sees their definitions.)
* That the model is faithful to the Python code: section 4 says which parts are modelled, and each definition
  cites the lines it models and names its simplifications.
* That the transcription scripts for `D_Building.v`, `D_Climate.v` and `D_Models.v` copied the shipped data correctly.
* Floating-point arithmetic: the theorems are about exact arithmetic. Equalities hold in the program up to
  rounding, and comparisons that are exactly on a boundary can go the other way there.

## 3. File layout (`/verif/rocq/theories`)

* `Prelude.v` — result monad, `Q` min/max/sum helpers and lemmas.
* `M_*.v` — the model: definitions only, each citing file and lines in `/repo`.
* `D_*.v` — shipped data files, transcribed.
* `S_*.v` — small specifications written without the model's helpers (integral of a monotone profile, tariff
  table, running-out predicate, physical step, record of a run, ...).
* `L_*.v` — lemmas.
* `P_*.v` — property theorems, each followed by `Print Assumptions`, with `Example`s beside them showing that a
  concrete case meets the hypotheses.
* `/verif/seeded/LOG.jsonl` — one line per wrong program tried against the theorems.

## 4. What is modelled and what is not

| Source file | Modelled | Not modelled |
|---|---|---|
| `building/Building.py` | all functions | — (file reading of shapes is `D_Building.v` or an argument) |
| `building/ClimateZone.py` | all functions | CSV parsing itself |
| `building/UtilityCostTracker.py` | all functions; CSV rows are abstract | number formatting and parsing |
| `simulation/SimulationRun.py` | all; of `to_plotly` the drawn series and shaded blocks | colours, titles, layout, HTML |
| `interfaces/Simulator.py` | all functions | `print` |
| `components/storage/*.py` | all functions of the four tanks | abstract base class |
| `components/heating/*.py` | all functions; `scipy` interpolators are arguments | pickle loading; the shipped lab-test tables |
| `dhwsystems/DHWSystem.py` | `__init__`, `from_size`, `from_components`, `size`, getters, curves, `check_for_outage`, all `_calc_*`, warnings, `simulate_step` | colours, fonts and layout of plots |
| `dhwsystems/InstantWHSystem.py` | all functions | — |
| `dhwsystems/utils.py` | `mixing_valve_behavior` | — |
| `recirc_systems/*.py` | all functions of the parallel loop, swing tank and swing tank with resistance trade-off | docstrings' plots |
| `rtp_systems/*.py` | all classes (three are placeholders with empty methods, as is `MPNoRecircSystem`) | — |
| `interfaces/EcosizerEngine.py` | construction (sized and pre-sized), controls, location, queries, listing, simulation, results, sizing-curve plots (points, slider texts, marked point), `plot_simulation`, `get_annual_utility_comparison_graph` | figure layout, HTML output, ImportError without plotly |

## 5. Plan per property

| Id | Model | Proof idea |
|----|-------|-----------|
| C01 | `get_dhw_load`, shapes as lists | regroup the sum over steps by hour; non-divisor timestep refuted by a witness |
| C02 | same | division/modulo arithmetic on `Z` |
| C03 | `_validate_load_shape`, constructor | accept-iff statement against a declarative predicate; a shape-only building is characterised completely |
| C04 | `_from_multi_use`, `_normalize_multi_use_shapes` | induction over the list of parts; succeeds-iff statement in terms of the parts built alone (shapes of one entry, which numpy would broadcast, are treated as a length mismatch) |
| C05 | shape switching as state machine | case analysis; custom-shape loss refuted |
| C06 | `ClimateZone` lookups | month table as a finite sweep over 365 days lifted to all steps |
| C07 | `min` of series | list minimum lemmas |
| C08 | bucket dictionary as association list | induction over days |
| C09 | `_validate_params` | accept-iff against declarative predicate; empty tariff refuted |
| C10 | `_fill_period_maps` | invariant over the nested loops, then case analysis per hour |
| C11 | `to_csv`/`from_csv` on abstract rows | invariant of the row fold; discount case refuted |
| C12 | lookups with errors | from C10's invariant |
| C13 | cost loop with dictionary | loop invariant: dictionary = per-period maximum |
| C14, C15 | monthly breakdowns | sum regrouping; TM discrepancy refuted |
| C16 | energy sums | sum lemmas, splitting at month boundaries |
| C17 | deficit counter | history induction |
| C18 | `simulate` over an arbitrary step function | loop invariant |
| C19 | recording of optional TM data | induction / refutation |
| C20 | StratifiedTank | piecewise-linear analysis, induction over histories |
| C21 | zone average | squeezed-sum characterisation of the integral of a monotone function, with uniqueness |
| C22 | usable volume | super-level set of a monotone profile |
| C23 | `draw` incl. the bisection | bisection invariant |
| C24 | tank operations | monotonicity in the profile offset; refutation by witness |
| C25, C26 | MixedStorageTank | linear arithmetic, convexity, induction |
| C27, C28 | EnergyTank incl. bisection | integral characterisation, bisection invariant, history induction, refutations |
| C29 | SlugOverlayTank | state-machine case analysis |
| C30, C31 | Controls, WaterHeater | history induction |
| C32–C34 | PerformanceMap | interpolation algebra, list search lemmas, refutations; answers for every condition and no heat short of the power, by cases of the lookup, carried to simulated runs (`P_ShippedRun2.v`) |
| C35, C36 | running volume | reservoir argument: worst cyclic partial sum, induction over hours |
| C37 | capacity | field arithmetic |
| C38 | stratification factor | integral characterisation |
| C39 | load-shift sizing | max/monotonicity, schedule list lemmas |
| C40 | `size` and the curves as state transformers | case analysis on every exit, normal and exceptional |
| C41, C42 | sizing curves | invariants of the sweep; the shown hours are exactly the swept grid (`P_Curve.v`) |
| C43–C45 | SwingSystem | invariant over draw sequence, table search |
| C46 | resistance trade-off sizing | maximum over two folds |
| C47 | ParallelLoopSystem | field arithmetic, accept-iff |
| C48 | mixing valve | field arithmetic |
| C49 | growing slug; the boost loop of `from_size` | fold invariants over the minutes; the boost rounds as a relation in `S_MPRTP2.v`, proved determined by what was simulated (`L_MPRTP4.v`, `P_Boost.v`) |
| C50 | InstantWHSystem | arithmetic; composed with `simulate` |
| C51, C52 | engine | list reasoning, inversion of the constructor |
| C53, C54 | engine queries | arithmetic, list partition; shipped list by computation; that the query answers for every shipped model from the C34 and C77 facts about each kind of map (`P_Query.v`) |
| C55 | base `simulate_step` in the loop | invariant composed with the loop theorem of C17 |
| C56, C57 | climate tables | list search lemmas; shipped tables by computation |
| C58 | `to_csv` of a run | follows the recording invariant |
| C59–C62 | `simulate_step` of the other systems in the loop | per-step inversion, one invariant per system, unbounded steps; refuting runs by computation |
| C63 | `_warn_if_short_cycling` | iff over the control states, composed with `size` |
| C64 | `_build_climate_zone` with the shipped tables | declarative relation "stands for", proved functional; shipped keys by computation |
| C65 | engine construction composed with simulation | inversion of the constructor gives each system's simulation theorem its hypotheses; completion needs only that the heaters' queries answer (`rated`), the multi-pass case also that capacities are not negative in the building's own weather (`productive`); both are discharged for the shipped models in `P_ShippedRun2.v` |
| C66 | two simulations of one engine | bisimulation of runs that start with equal on/off states |
| C67 | Sizing results of the engine, per schematic, for buildings with 24 hourly values | Inversion of construction into the system's own sizing (C35-C39, C43-C45, C47, C49), then the reservoir argument with the share of the tank that is usable at the trigger as an integral (`share`); totality by following each branch (`P_Engine7.v`) |
| C68 | The points a sizing-curve plot returns and marks (`M_EngineOut.v`: curve methods of all systems, figure as text of its series) | The grid starts at the run hours the system was sized with, so its first point repeats `size` (C40-C42, C67); reversal puts it last; the load-shift curve repeats sizing at each percentage; running volume is antitone in capacity (`P_EngineOut.v`) |
| C69 | Bars of the comparison graph (`M_Plot.v`), billing as in C13/C14 | Interleaving by induction; labels are distinct, so a stack is the sum of five nth elements; `detailed_months` says what the breakdown of C14 holds month by month (`P_Plot.v`) |
| C70 | Lines and shaded blocks of `to_plotly`, `plot_simulation` (`M_Plot.v`) | Block loop: induction on fuel with the invariant that the loop stands at a block's start; every simulated step's mode is the schedule's entry of its hour (`L_Plot2.engine_says`, from C65 and C51) (`P_Plot.v`) |
| C71 | Whole runs of `simulate_step` for the pooled systems (no new model) | Invariant on the hot part of the stratified tank: the shortfall of every suffix of the run that ends in heating is at most what the aquastat left (`L_Lasts.v`, `L_Lasts2.v`); minutes are convex combinations of hours and days repeat (`L_Lasts3.v`); sizing facts from C67 (`P_Lasts.v`) |
| C72 | `eng_new` followed by `eng_simulate` (no new model) | C67 (sizing succeeds, sign of the results) gives the hypotheses of C65 (simulation completes); the reservoir of C67 is positive iff some hour exceeds the output; with no volume the first control query divides by zero (`L_Whole.v`, `P_Whole.v`) |
| C73 | `M_SwingER2.v`: `er_from_components`, `er_from_size`, `get_er_kbtuh`, `get_er_kw`, `er_figure` | C46 applied to the sizing state taken from the parts; C45/C44 for the sized parts; C60 for the simulations; totality of the sweep by induction on the percentages (`P_SwingER2.v`) |
| C74 | the same | invariant "at or above supply" over the two days for the ample element; for the refutation the two days of a concrete plant are proved equal to a run in whole hundredths of a degree, which is then evaluated (`L_SwingER3.v`, `P_SwingER3.v`) |
| C75 | `M_Session.v`: the getters, `from_components`, `check_for_outage`, and a session: a list of size and curve calls folded over one object | sizing reads nothing an earlier sizing stored (by conversion on the record fields), then induction over the session (`L_Session.v`, `P_Session.v`) |
| C76 | the swing step of `M_Step.v` run by `M_Engine.v`; `S_Lasts2.v`: the course of a swing tank always fed with hot water | by induction over the steps the primary stays hot (as for C71) and the swing tank follows that course; the course's draws are at most the demand because its temperature never falls below supply (`L_Lasts4.v`, `P_Lasts2.v`) |
| C77 | the generated `D_Models.v` with `M_Heater.v`/`M_Engine.v`; `S_Shipped.v` | a checker for quadratics on an interval (endpoints, slope sign or discriminant), proved sound, run by the kernel over every shipped table; brackets are blended convexly, the last segment being closed at 114 F by its extrapolated bracket (`L_Shipped.v`, `P_Shipped.v`); in simulation, a relation between capacity and power that is closed under sums is carried from the active heaters to each step's record (`L_ShippedRun.v`, `P_ShippedRun.v`); the same checker bounds the COP above, which with the plant heat account of C91 bounds the energy of a run from below (`P_ShippedCop.v`) |
| C78 | the control map and schedule of `M_Engine.v` with the step models of `M_Step.v`, `simulate` of `M_SimRun.v`; `S_Shift.v` | C51's schedule and settings give the controls in effect in each hour; an invariant on the hot gallons (at least the reserve of the last hour the heaters were off less what was drawn, or the start plus what was brought) carried over every step, for three kinds of step (`L_Shift.v`); the heaters' rest by following the flags from a full tank (`P_Shift.v`); on the design days, the minute conditions from the 24 hours of one day (`L_Shift2.v`, `P_Shift2.v`) |
| C79 | the thermostat, tank and step models of `M_Heater.v`, `M_StratifiedTank.v`, `M_Step.v` under the schedules of `M_Engine.v`, `simulate` of `M_SimRun.v`; `S_Cycle.v` | from the step at which the output starts or stops: a bound on the hot gallons carried step by step together with the thermostat flag, needing no assumption that water lasts since a draw leaves at most what was there or a profile below the turn-on level (`L_Cycle.v`, `P_Cycle.v`); the estimate by comparing the band in gallons with `C63`'s dead band |
| C80 | `swing_size` under load shifting, `swing_prelim`, `swing_gen_ls`, `swing_running_ls` of `M_Swing.v`; `S_SwingLS.v` (the minutes' draws of a window of hours) | inversion of the load-shift sizing; each window is a run of `sim_just_swing`, unfolded to the minute recursion of `S_Swing.v`; the day after the shed by the running-maximum lemma of `C44` with a rate of 0 in shed hours (`L_SwingLS.v`, `P_SwingLS.v`) |
| C81 | `get_summary` of `M_SimRun.v`; `S_Summary.v` (energy of a step) | the run is the list of executed steps (`C17`); each field by induction over that list (`P_Summary.v`) |
| C82 | `M_CaGpd.v` (sorting, percentile, rounding as numpy and Python do them), shipped table in `D_CaGpd.v`; `S_CaGpd.v` (ranks by counting, nearest tenth) | insertion sort gives the ranked values; the 98th percentile of 365 values lies between ranks 356 and 357; bounds by averaging (`L_CaGpd.v`, `P_CaGpd.v`) |
| C83 | `from_building_type`, `compute_single` of `M_Building.v`; `S_Built.v` (figures per type, shapes and climate given) | case analysis of the constructor against the specification's tables, both directions (`P_Built.v`) |
| C84 | `mp_sizing_curve` of `M_MPRTP.v`; `S_MPCurve.v` (the designs of the sweep, the day's heat) | the loop keeps exactly the points with strictly fewer hours; each point is inverted to its design (`P_MPCurve.v`) |
| C85 | `M_UtilityRaw.v` (arguments as given, `_to_list`) in front of `M_Utility.v`; `S_UtilityRaw.v` (`uniform`, `charged`) | validation of the one-season lists spelled out; billing from C10 (`P_UtilityRaw.v`) |
| C86 | `M_Float.v`: the two divisions and the floor in Coq's executable IEEE-754 specification (`SpecFloat`, 53 bits, round to nearest even) | Flocq relates the specification to rounding of reals; the two relative errors are far below the distance 1/60 to the next full hour, and integers are exact (`L_Float.v`, `P_Float.v`) |
| C87 | `M_Float2.v`: the loop-volume formula, the addition and the subtraction in `SpecFloat` binary64 | Flocq: the sum's rounding error bounds the drift, and rounding the sum of the result again gives the same sum, so the trip is idempotent (`L_Float2.v`, `P_Float2.v`); error of each operation of the formula, multiplied up (`L_Float6.v`, `P_Float4.v`) |
| C88 | signatures of constructors, `size`, `simulate_step`; keyword binding; factory inheritance | keyword binding characterised for all signatures; case analysis over the classes; the simulation loop's first step |
| C89 | `M_Float3.v`: capacity, hourly differences, transitions, cumulative sums and the loop of the running volume in `SpecFloat` binary64 | Flocq error bound for each operation; comparisons are exact, so the float loop is the exact loop on the rounded differences up to summation error; perturbing the differences moves the running volume little even if transitions change (raise the hours that are not in deficit until the sum is no deficit, which keeps all transitions) (`L_Float3.v`-`L_Float5.v`, `P_Float3.v`, `P_Float4.v`) |
| C90 | `M_EnergyTank.v` (slug overlay), `M_MPRTP.v` (`simulate_step`) | heat held by an active tank in closed form (slug plus integral of the shifted profile); induction over the calls of a cycle; for a simulated step, cases of the slug's life cycle, heating and draws that fit above the slug, exceed it or exceed the tank (`L_SlugCycle.v`-`L_SlugCycle3.v`, `P_SlugCycle.v`) |
| C91 | the simulated systems of C71 and their run record | upper bound on the gallons above supply temperature after heat, draw (fast path and search) and loop return; usable water means that amount is positive, so the floor of draw never adds heat; induction over the executed steps (`S_Audit.v`, `L_Audit.v`, `P_Audit.v`); for swing tanks the accounts of both tanks are added up step by step, the heat of the feed cancelling (`S_Audit2.v`, `L_Audit2.v`, `P_Audit2.v`); the energy bound from the heaters' efficiency: each step's output and power are sums over the same active heaters (`L_Audit3.v`, `P_Audit3.v`, with a heat-pump-map case) |
| C92 | every sizing, curve and simulation function applied to a building without climate | the first look-up of the design inlet temperature, or of the outdoor temperature in the first step, raises; the run hours capped for load shifting are put back, so the system is the one given (`P_NoClimate.v`) |
| C93 | `M_RecircShare.v`: the object with the attribute that size() adds, any list of size() calls | induction over the calls, with `C40_size_keeps_system`; the capacity balances of C37 subtracted; load shifting refuted by a witness |
<!--ROWS-->
## 6. Findings

Theorems named `..._refuted` are proved counterexamples. These are the places where the program, its documentation or
a reasonable expectation disagree.

**Proved, by theorem**

| Theorem | Finding |
|---|---|
| `C01_non_divisor_refuted` | a timestep that does not divide 60 loses or adds load |
| `C03_shape_only_unvalidated_refuted` | one constructor path accepts an unvalidated shape |
| `C05_custom_lost_refuted` | switching to annual and back replaces a custom shape by the built-in one |
| `C09_empty_accepted_refuted` | an empty tariff is accepted |
| `C11_flags_refuted`, `C11_hourly_rates_refuted` | some tariffs change when saved to CSV and loaded back |
| `C12_missing_rate_refuted` | a period that can be billed can lack a demand charge |
| `C14_csv_periods_refuted` | monthly detail does not add up for tariffs loaded from CSV with shared periods |
| `C15_maintenance_omitted_refuted`, `C16_maintenance_omitted_refuted` | plain monthly cost and energy ignore temperature-maintenance power |
| `C18_stopped_yet_successful_refuted` | a run stopped for cold water can still be reported successful |
| `C18_zero_inlet_refuted` | a design inlet of 0 counts as missing |
| `C19_shifted_refuted`, `C19_parallel_power_missing_refuted` | maintenance power is appended only when present, so later entries move to earlier steps |
| `C22_over_reports_above_outlet_refuted`, `C22_under_reports_below_inlet_refuted` | usable volume is wrong when supply is outside the inlet–outlet range |
| `C24_draw_creates_heat_refuted` | a draw can raise the tank's stored heat |
| `C25_recirculating_more_than_volume_refuted`, `C26_heating_cap_refuted` | mixed tank leaves its bounds; heating is not capped |
| `C28_warmer_inlet_exceeds_full_refuted` | a warmer mains temperature makes stored energy exceed "full" |
| `C29_documented_caps_refuted`, `C29_average_above_hottest_refuted` | slug overlay lacks its documented caps |
| `C32_fallback_is_zero_without_nominal_refuted`, `C33_fallback_scales_with_units_refuted`, `C34_nearest_outlet_always_refuted` | performance-map fall-backs |
| `C35_tolerance_refuted` | a nearly flat load gives a storage volume of 0 |
| `C38_trigger_above_storage_refuted` | a trigger above storage temperature gives a meaningless factor |
| `C39_storage_less_refuted`, `C39_second_block_refuted` | load-shift storage can be smaller than normal; only the first shed block is covered |
| `C40_size_annual_error_refuted` | an error during sizing leaves an annual building switched to daily |
| `C43_full_draw_refuted` | a draw equal to the swing tank's volume raises |
| `C46_points_error_refuted`, `C46_points_index_refuted` | resistance points: state not restored on error; recommended index can be 120 % |
| `C47_advice_refuted` | the error text of the parallel loop advises a value that is rejected |
| `C50_always_fails` | an instantaneous system counts every step as an outage |
| `C51_missing_load_up_raises` | load-up hours without load-up aquastat make the simulation raise |
| `C55_dead_heater_goes_unnoticed_refuted` | the draw floor keeps the tank top at supply, so a dead heater never stops the run |
| `C56_zone_zero_refuted` | zone 0 and small negative numbers load another zone's weather |
| `C60_small_element_refuted` | an element smaller than the loop loss lets the swing tank fall below mains temperature |
| `C61_annual_overshoot_refuted` | ten-minute steps can exchange more than the maintenance tank |
| `C62_top_sensor_refuted`, `C62_completes_refuted`, `C62_oat_refuted` | multi-pass simulation: division by zero; reported outdoor temperature is the tank's |
| `C63_zero_capacity_raises` | required capacity 0 raises after the results are stored |
| `C64_integer_zip_refuted`, `C64_frozen_mains_refuted`, `C64_multi_family_needs_gpdpp` | documented integer zip codes are refused; some shipped mains temperatures are below freezing; the documented example raises |
| `C66_repeat_refuted` | heater state is not reset, so a second identical simulation can differ |
| `C68_marks_size_refuted`, `C68_off_the_curve` | with few run hours the sized system is not on its own sizing curve, and another point is marked as recommended |
| `C71_sized_lasts_refuted` | a freshly sized system can have an outage in its own three-day simulation: it starts with mains temperature at the aquastat, so the transition zone can fill the tank's top |
| `C72_sized_simulates_refuted` | an even load needs no storage: the engine is sized with a tank of zero gallons and every simulation of it raises ZeroDivisionError |
| `C73_figure_refuted` | the trade-off figure marks the 120 percent point as the system's when its sweep stops before 100 percent |
| `C74_sized_element_refuted` | a swing tank with the resistance element that sizing asked for still falls below supply on the design days: sizing the same plant again with that element asks for three and a half times as much more |
| `C75_raised_refuted` | `size` for a building without hot-water use raises ZeroDivisionError but has already overwritten the earlier figures with zeros |
| `C75_swing_mixed_refuted` | a swing sizing that raises (aquastat at the very top of the tank) leaves the new swing tank beside the old primary capacity |
| `C75_outage_refuted` | `check_for_outage(1000)` is False for a 100-gallon tank: the demand is ignored |
| `C77_hot_air_refuted` | SANCO2 at 120 F outdoors with 145 F water: the extrapolated COP is below 1 |
| `C78_shed_off_refuted` | shed from midnight with the shed sensor above the normal one: the heater runs in the first minute of the shed hour, since the tank starts with mains water at that height |
| `C39_share_of_long_ramp_refuted` | with slope 1/4 the ramp from the on-sensor leaves the tank below storage temperature, and the share of the tank counted as usable is twice the surplus heat actually there |
| `C86_other_lengths_refuted` | steps of 29 minutes: the step starting at 16:00 on 10 January is billed as 15:00, off-peak, because 480 / (60.0 / 29) rounds below 232 |
| `C87_unchanged_refuted` | after load-shift sizing of a single-pass return-to-primary system the building's daily use is 720.0000000000001 instead of 720 (720 gal/day, 3 gpm, 120/110 F, inlet 60 F), because the loop's volume is added and subtracted in floating point |
| `C88_from_components_refuted` | `SinglePassRTPSystem.from_components(...)` (inherited; likewise for the parallel loop, swing, multi-pass and instantaneous classes) always raises TypeError: it does not pass the constructor's required return temperature and flow |
| `C88_placeholder_size` | `size()` of the four placeholder classes returns without an error and without a result |
| `C89_exact_refuted` | the computed running volume is not exactly the smallest store that lasts (1000 gal, run time 3 of 4 periods): rounding leaves it off in the last places, never by more than one part in 2^40 of the daily use |
| `C90_empty_slug_drops_heat_refuted` | `heat_slug` on an active but empty slug discards the heat: a full tank activated and heated for ten minutes at 60 kBTU/h stores nothing |
| `C90_reported_output_refuted` | a simulated multi-pass step reports 50 kBTU/h although no water is heated, because all stored water is hotter than supply and the slug is empty |
| `C37_loop_counted_twice` | with load shifting a single-pass return-to-primary system gets capacity for twice the heat the loop loses: the demand is raised by the loop's daily volume, and the loop loss is added to the result again |
| `C16_estimate_of_short_run` | `get_annual_cost_estimate` holds energies, no costs, and is twelve zeros (no error) for a three-day run |
| `C91_overdraw_refuted` | `draw()` takes out at most the tank's volume: a 100-gallon tank at 130 F to 150 F asked for a million gallons at 120 F still reports 10 usable gallons, so a step of more than a tankful need not show as an outage |
| `C77_cop_twelve_refuted` | an AO Smith HPTS50 in 114 F air with 32 F water is credited with more than twelve times the heat of the power it draws: nothing caps the tabulated COP polynomial |
| `C93_load_shift_refuted` | `get_recirc_capacity_kbtuh()` of a load-shifting single-pass RTP system understates the loop's part of the capacity: `size()` computes it after restoring the configured run hours, so in the ten hours outside shed a heater of that share cannot make up the loop's daily loss |
<!--FINDINGS-->

**Seen while reading, not stated as theorems**

* `_idx_nearest_inlet` is seeded with the last entry; `get_hpwh_output_capacity` uses 3.41214 where the rest uses 3.412142.
* The simulation uses the average load when the map has "loadUp" or "shed"; sizing looks only for "shed".
* A shed block that runs over midnight is cut at midnight.
* `from_size` systems use a nominal map, whose power is unknown, so their simulated energy and cost are 0.
* Engine docstring defaults are wrong for `tm_on_temp_f`, `tm_off_temp_f` and `tm_safety_factor`.
  `hpwh_model`, `num_heaters` and `heating_capacity` are ignored without a message when sizing. `utility_cost_tracker` is
  documented as attached to the building but not passed on.
* The multi-pass slug resets at storage temperature although the documentation says supply.
* `heater_power` of the swing system excludes the element although the docstring says it is included.
* The swing system's curve leaves the mixed-water share at the last probed value; its load-shift curve computes the
  normal capacity with the share of an earlier sizing, so that capacity may differ from what `size` gives.
* A load-shift percentage below 25 % or not whole is marked at another point of the load-shift curve.
* The plot of an instantaneous system shows tank volumes although its sized volume is 0.
* `check_for_outage` ignores its demand argument. `MixedTank.add_recirc_return` has no `supply_temp_f`.
* The docstring of `get_annual_utility_comparison_graph` promises keys `energy`, `demand` and `base` with `return_as_array`; the
  five-part breakdown is returned. `get_annual_cost_estimate` returns monthly energy only, no cost.
* Pre-sized engines accept `num_heaters` 0 (division by zero) and negative (no heaters).
* Pre-sized swing systems accept `tm_model` without `tm_capacity`; the element then gives no heat.

## 7. Not expressible in the model

Plot rendering (what plotly and a browser make of a figure), file-system behaviour, pickle loading, the shipped lab-test tables
(binary), and floating-point rounding (outside C86, C87 and C89).

## 8. Testing the theorems

`seeded/LOG.jsonl` records wrong programs: each edits one model definition the way a bug would, rebuilds the theorems
and lists those that fail. A mutant that no theorem caught led to a stronger theorem (`theorems_tightened`),
or has a note saying why it is equivalent to the original program.
