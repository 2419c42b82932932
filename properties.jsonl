{"id": "C01", "title": "Hot-water load is conserved over a day", "statement": "Summing Building.get_dhw_load_supplyT_gal over the timesteps of any whole day gives the daily gallons times the sum of the selected 24-hour load shape (so exactly the daily gallons for a normalised shape), for the peak and for the average shape, whenever the timestep divides an hour. For timesteps that do not divide an hour the claim made in the documentation fails.", "quantifier": "every daily volume, every 24-hour load shape, every timestep in minutes, every day index, peak and average", "why_tests_cant": "Tests pick one or two timesteps and shapes; conservation is a sum identity over all steps, shapes and days, and the failing timesteps are exactly the ones nobody tries.", "anchors": ["src/ecoengine/objects/building/Building.py: Building.get_dhw_load_supplyT_gal, Building.__init__"]}
{"id": "C02", "title": "The load at a step is the load of its hour, repeating every day (or year)", "statement": "For every step the returned load is the fraction of the hour of day (or of year for an annual shape) that contains the step times daily gallons divided by steps per hour; it is non-negative for non-negative shapes, and advancing by a whole day (year) of steps gives the same load. No step index is rejected.", "quantifier": "every step index >= 0, every timestep dividing an hour, every shape of length 24 or 8760", "why_tests_cant": "Wrap-around at arbitrary step indices and shapes of two different lengths cannot be enumerated.", "anchors": ["src/ecoengine/objects/building/Building.py: Building.get_dhw_load_supplyT_gal"]}
{"id": "C03", "title": "Load-shape validation accepts exactly the valid shapes", "statement": "Constructing a building of a named type with a custom load shape succeeds only if every entry is non-negative, there are 24 entries and they sum to 1 within 0.001; otherwise construction raises. Every stored shape sums to 1 within the tolerance, so it accounts for the whole daily volume; all shapes shipped with the library are valid. A building given by its shape alone is rescaled instead and its sign and length are then not checked; given without a size, its entries are the gallons of each hour.", "quantifier": "every list of numbers given as a shape", "why_tests_cant": "The set of malformed shapes is unbounded; a test can only show that particular bad shapes are rejected.", "anchors": ["src/ecoengine/objects/building/Building.py: _validate_load_shape, Building.__init__, Building._compute_single_gal_and_shapes"]}
{"id": "C04", "title": "Mixed-use buildings are the sum of their parts", "statement": "A building made from several use types has a daily volume equal to the sum of the individual volumes, and in every hour its peak and average load equals the sum of the loads the individual buildings would have; its blended shape is again normalised. It can be built exactly when there is one size (and, if any, one custom-shape entry) per use, every use can be built on its own, the shapes have the same length and the total volume is not zero; otherwise it raises the error of the first use that cannot be built.", "quantifier": "every non-empty list of use types with their volumes and normalised shapes", "why_tests_cant": "Superposition has to hold for any number of parts, any weights and every hour.", "anchors": ["src/ecoengine/objects/building/Building.py: Building._from_multi_use, Building._normalize_multi_use_shapes, Building.from_building_type"]}
{"id": "C05", "title": "Switching between annual and daily load shapes is loss-free for built-in shapes", "statement": "set_to_daily_load_shape and set_to_annual_load_shape only change the shapes; the daily volume, the type and the climate are untouched, the two switches undo one another for shapes that came from the library, is_annual_load_shape reports the current state, and a building type without an annual shape is rejected without any change. Custom shapes do not survive the round trip.", "quantifier": "every building and every sequence of switches", "why_tests_cant": "The defect only appears for particular histories of calls.", "anchors": ["src/ecoengine/objects/building/Building.py: Building.set_to_annual_load_shape, Building.set_to_daily_load_shape, Building.is_annual_load_shape"]}
{"id": "C06", "title": "Weather lookups pick the right hour and month of the year and wrap every year", "statement": "For every step, get_oat_f returns the hourly value of the hour of year containing the step, and get_inlet_water_temp_f returns the monthly value of the calendar month containing that hour; both repeat after a whole year of steps and never fail for complete data.", "quantifier": "every step index, every timestep dividing an hour, every 8760-value year and 12 monthly values", "why_tests_cant": "Twelve month boundaries, wrap-around and arbitrary horizons give far more cases than tests cover.", "anchors": ["src/ecoengine/objects/building/ClimateZone.py: ClimateZone.get_oat_f, ClimateZone.get_inlet_water_temp_f, _day_of_year_to_month"]}
{"id": "C07", "title": "Design temperatures bound the simulated weather", "statement": "The design outdoor temperature and the design inlet temperature used for sizing are attained by the data and are no higher than any outdoor/inlet temperature the same climate ever reports in a simulation, when they are derived from the data.", "quantifier": "every climate series, every step", "why_tests_cant": "It is a for-all over the year and over all climate files, including user-supplied ones.", "anchors": ["src/ecoengine/objects/building/ClimateZone.py: ClimateZone.get_design_oat_f, get_design_inlet_water_temp_f, get_oat_f, get_inlet_water_temp_f"]}
{"id": "C08", "title": "Outdoor-temperature buckets partition the year", "statement": "get_oat_buckets counts each of the 365 days exactly once: the counts are positive and add up to 365, bucket starts are distinct multiples of 5 degrees, and each count is the number of days whose daily mean lies in the bucket, so every day has exactly one bucket. A climate given only by design conditions raises.", "quantifier": "every list of hourly temperatures", "why_tests_cant": "The partition property quantifies over every possible temperature year, including negative temperatures and exact bucket boundaries.", "anchors": ["src/ecoengine/objects/building/ClimateZone.py: ClimateZone.get_oat_buckets", "src/ecoengine/interfaces/EcosizerEngine.py: get_oat_buckets"]}
{"id": "C09", "title": "Utility-rate parameters are accepted exactly when they describe a whole year", "statement": "UtilityCostTracker.from_params succeeds exactly when a base charge is given, all required parameter lists have one length and numeric entries, each season starts in the month the previous one ended (the first in January), ends later and the last ends after December, every peak window starts at 0-23 and ends at or before 24 and not before it starts, and each discount list has an entry per season; otherwise it raises ValueError (IndexError for short discount lists). A non-empty accepted tariff covers every month by exactly one season. The degenerate empty tariff is accepted and then fails on first use.", "quantifier": "every list of seasons and hours", "why_tests_cant": "The space of malformed tariffs is unbounded and the empty case is the one forgotten.", "anchors": ["src/ecoengine/objects/building/UtilityCostTracker.py: _validate_params, UtilityCostTracker.from_params"]}
{"id": "C10", "title": "Every hour of the year is billed at the tariff entry that covers it", "statement": "For an accepted tariff and every hour of the year, the energy rate returned is the peak rate of the season containing that month if the hour of day is in the peak window, else the discount rate if the hour is in the (possibly overnight) discount window, else the off-peak rate; the demand period is unique to that month and window, and its demand rate is the corresponding one.", "quantifier": "every accepted tariff, every hour of the year, every step and timestep dividing an hour", "why_tests_cant": "8760 hours times arbitrary seasons and overlapping windows; precedence and month boundaries are where bugs hide.", "anchors": ["src/ecoengine/objects/building/UtilityCostTracker.py: _fill_period_maps, _hour_to_month, _is_hour_in_range, get_energy_charge_at_step, get_demand_period_at_step, get_demand_charge_for_period"]}
{"id": "C11", "title": "A two-period tariff survives saving to CSV and loading back", "statement": "For every tracker built without discount periods, from_csv applied to to_csv reproduces the energy rate and demand period of every hour, the demand rate and the peak/off-peak classification of every period that occurs, and the base charge; every row is dated with the hour it is for. With discount periods the rates survive but a period's peak flag only in even-numbered months and its discount flag never; a missing discount rate makes the saved file unloadable, and rates that vary within a period of a loaded file are lost when it is saved again.", "quantifier": "every accepted tariff", "why_tests_cant": "A round trip is a universally quantified law; the failing class (three periods per month) needs a second tariff shape.", "anchors": ["src/ecoengine/objects/building/UtilityCostTracker.py: UtilityCostTracker.to_csv, UtilityCostTracker.from_csv"]}
{"id": "C12", "title": "Demand charges exist for every period that can be billed and nothing else", "statement": "get_demand_charge_for_period returns rate times peak kW for every period key handed out by get_demand_period_at_step of an accepted tariff whose discount rates are given (TypeError for a missing one) and raises for every unknown key; steps beyond the year are rejected rather than billed at a wrong rate.", "quantifier": "every accepted tariff, every step, every key, every kW", "why_tests_cant": "Totality over all keys a tariff can produce cannot be sampled.", "anchors": ["src/ecoengine/objects/building/UtilityCostTracker.py: get_demand_charge_for_period, get_demand_period_at_step, get_all_period_keys"]}
{"id": "C13", "title": "Annual cost is energy plus per-period peak demand plus base", "statement": "get_annual_utility_cost equals the sum over steps of kW times hours times the rate of that step, plus for every demand period that occurs the demand rate times the largest kW seen in that period, plus twelve base charges, where kW is primary plus temperature-maintenance power of the same step.", "quantifier": "every recorded power series (with missing values), every tariff, every timestep", "why_tests_cant": "The running-maximum dictionary must equal a mathematical maximum for every series and any interleaving of periods.", "anchors": ["src/ecoengine/objects/simulation/SimulationRun.py: SimulationRun.get_annual_utility_cost"]}
{"id": "C14", "title": "The detailed monthly breakdown adds up to the annual cost", "statement": "The sum over months and charge types of get_monthly_cost_breakdown_detailed plus twelve base charges equals get_annual_utility_cost for every run of at most a year under a tariff built from parameters; every step's energy is booked in the month that contains it and as peak exactly if it is billed in a peak window, and each demand charge in the month and kind of the steps of its period. Under a tariff loaded from CSV with period numbers of the user's own, demand charges can be missing from every month.", "quantifier": "every recorded series, every accepted tariff", "why_tests_cant": "An accounting identity over arbitrary data.", "anchors": ["src/ecoengine/objects/simulation/SimulationRun.py: get_monthly_cost_breakdown_detailed, get_annual_utility_cost, _step_to_month"]}
{"id": "C15", "title": "The plain monthly breakdown adds up to the annual cost only without temperature-maintenance power", "statement": "get_monthly_cost_breakdown sums to get_annual_utility_cost when no temperature-maintenance power was recorded, and never exceeds it otherwise (non-negative powers and rates): what it omits is exactly the maintenance power.", "quantifier": "every recorded series, every accepted tariff", "why_tests_cant": "The discrepancy needs a run with a second heater and a comparison of two reports.", "anchors": ["src/ecoengine/objects/simulation/SimulationRun.py: get_monthly_cost_breakdown, get_annual_utility_cost"]}
{"id": "C16", "title": "Energy totals", "statement": "get_total_energy_kwh is the sum of all recorded power times step length with missing entries counted as zero; it is additive over concatenated records and non-negative for non-negative powers; the monthly energies of a complete annual run add up to the primary part of the total, and omit the temperature-maintenance part; the reported peak demand is the largest primary power and ignores maintenance power. get_annual_cost_estimate returns these monthly energies, no costs, and twelve zeros for a run that is not annual.", "quantifier": "every recorded series", "why_tests_cant": "Sums over arbitrary series, partial years and missing entries.", "anchors": ["src/ecoengine/objects/simulation/SimulationRun.py: get_total_energy_kwh, get_monthly_energy_kwh, get_peak_demand_kw"]}
{"id": "C17", "title": "A simulation stops exactly when the outlet has been too cold for too long", "statement": "check_outlet_deficit signals stop at a step exactly when the unbroken run of deficit steps ending there lasts longer than the allowed minutes; any non-deficit step restarts the count; once simulate stops, no further step is executed or recorded.", "quantifier": "every history of delivered temperatures, every threshold and timestep", "why_tests_cant": "It is a property of all histories of a counter.", "anchors": ["src/ecoengine/objects/simulation/SimulationRun.py: check_outlet_deficit", "src/ecoengine/interfaces/Simulator.py: simulate"]}
{"id": "C18", "title": "A run is successful exactly when no recorded step ended without usable hot water", "statement": "After simulate, total outage minutes equal the timestep times the number of recorded steps whose usable volume is not positive; is_successful holds exactly if there are at most max_outage_min such minutes; all recorded series have the number of executed steps as length, which is the full duration unless stopped early. The failure message names the outage minutes, the day of the first such step and the mean top temperature over them. Being stopped early for cold water does not by itself make a run unsuccessful.", "quantifier": "every system behaviour (any sequence of step results), both durations", "why_tests_cant": "Quantifies over every possible step function and history length.", "anchors": ["src/ecoengine/interfaces/Simulator.py: simulate", "src/ecoengine/objects/simulation/SimulationRun.py: record_timestep, record_outage, is_successful, get_summary"]}
{"id": "C19", "title": "Temperature-maintenance power is recorded at the step where it was used", "statement": "For swing systems the i-th recorded temperature-maintenance power belongs to step i for every i. For parallel-loop systems it does not: steps with the heater off record nothing, so later powers shift to earlier steps and are billed at the wrong time.", "quantifier": "every history of step results", "why_tests_cant": "The shift only shows up for histories with off-steps, and only in time-of-use cost.", "anchors": ["src/ecoengine/objects/simulation/SimulationRun.py: record_timestep, get_annual_utility_cost", "src/ecoengine/objects/dhwsystems/recirc_systems/ParallelLoopSystem.py: simulate_step", "src/ecoengine/objects/dhwsystems/recirc_systems/SwingSystem.py: simulate_step"]}
{"id": "C20", "title": "Stratified tank temperatures are physical", "statement": "At every height the stratified tank's temperature lies between the inlet and the outlet temperature and never decreases with height, after every history of initialise, draw, heat and recirculation-return operations with inlet not above outlet.", "quantifier": "every tank, every operation history, every height", "why_tests_cant": "An invariant over unbounded histories and a continuum of heights.", "anchors": ["src/ecoengine/objects/components/storage/StratifiedTank.py: get_temperature_at_fraction, draw, heat, add_recirc_return, initialize"]}
{"id": "C21", "title": "Average draw temperature is the exact mean of the profile", "statement": "get_average_draw_temp_f(v) equals the mean of the temperature profile over the top v gallons (the integral of the profile divided by v), for every v between 0 and the tank volume; it lies between inlet and outlet and never rises as v grows.", "quantifier": "every tank state, every draw volume", "why_tests_cant": "An integral identity over a continuum with five geometric cases.", "anchors": ["src/ecoengine/objects/components/storage/StratifiedTank.py: get_average_draw_temp_f"]}
{"id": "C22", "title": "Usable volume is the volume at or above supply temperature", "statement": "get_usable_volume_supplyT_gal is the measure of the part of the tank whose temperature is at least the supply temperature, always between 0 and the tank volume and non-increasing in supply temperature, whenever the supply temperature lies strictly above the inlet and not above the outlet temperature; above the outlet temperature it over-reports and below the inlet temperature it under-reports.", "quantifier": "every tank state, every supply temperature", "why_tests_cant": "Measure of a super-level set, for a continuum of states; over-reporting needs a mis-set outlet temperature.", "anchors": ["src/ecoengine/objects/components/storage/StratifiedTank.py: get_usable_volume_supplyT_gal"]}
{"id": "C23", "title": "Drawing hot water removes the energy that was delivered", "statement": "draw() removes a physical volume whose heat content relative to the inlet equals the requested gallons at supply temperature (exactly on the fast path, within the search tolerance otherwise, and never more than the tank holds).", "quantifier": "every tank state, every requested volume", "why_tests_cant": "The binary search has to be right for every profile.", "anchors": ["src/ecoengine/objects/components/storage/StratifiedTank.py: draw, draw_physical_gal, get_average_draw_temp_f"]}
{"id": "C24", "title": "Draws never create hot water and heating never removes it", "statement": "Heating never lowers any temperature in the tank and is capped at full; drawing or returning recirculation water never raises any temperature. The draw half fails when the tank is already below its floor.", "quantifier": "every tank state and operation", "why_tests_cant": "Needs the rare state reached after recirculation return below the draw floor.", "anchors": ["src/ecoengine/objects/components/storage/StratifiedTank.py: draw, draw_physical_gal, heat, add_recirc_return"]}
{"id": "C25", "title": "Mixed tank obeys the heat balance and stays between its sources", "statement": "Every draw, inflow, heat, fixed loss and recirculation return changes the stored heat of the mixed tank by exactly the heat carried in minus the heat carried out; without heating the temperature stays between the lowest and highest of its initial, inlet, inflow and return temperatures for every history of operations in which no more than a tank volume is exchanged per step.", "quantifier": "every history of operations", "why_tests_cant": "Invariant over unbounded histories.", "anchors": ["src/ecoengine/objects/components/storage/MixedStorageTank.py: draw, heat, add_recirc_return, apply_fixed_heat_loss_kbtuh, mix_primary_inflow, draw_physical_gal"]}
{"id": "C26", "title": "Mixed tank heating is not capped at the outlet temperature", "statement": "The documented cap of heat() at outlet_temp_f does not exist: the tank can be heated beyond it by an arbitrary amount in one step.", "quantifier": "every tank, every outlet temperature", "why_tests_cant": "Documentation and behaviour disagree only for large heat inputs.", "anchors": ["src/ecoengine/objects/components/storage/MixedStorageTank.py: heat"]}
{"id": "C27", "title": "Energy tank profile and stored energy agree", "statement": "The temperature profile the energy tank reports holds exactly the stored energy (up to the search tolerance): the energy-to-profile search inverts the profile-to-energy integral, temperatures lie between cold and storage temperature, and never decrease with height.", "quantifier": "every stored energy between empty and full, every tank", "why_tests_cant": "Correctness of a search over a continuum.", "anchors": ["src/ecoengine/objects/components/storage/EnergyTank.py: _energy_at_shift_pct, _shift_pct_from_energy, get_temperature_at_fraction, get_average_draw_temp_f"]}
{"id": "C28", "title": "Energy tank never stores negative or more than full energy", "statement": "For every history of operations at one constant inlet temperature the stored energy stays between 0 and full. If the inlet temperature rises during the history the tank can hold more than full, and heating can then remove energy.", "quantifier": "every history of operations", "why_tests_cant": "Needs histories that change the inlet temperature.", "anchors": ["src/ecoengine/objects/components/storage/EnergyTank.py: draw, heat, add_energy_btu, add_recirc_return, draw_physical_gal, initialize"]}
{"id": "C29", "title": "Slug overlay lifecycle", "statement": "While the slug is active, queries in its zone return its temperature and draws/heat act on it by the mixing rule; deactivating returns its heat, together with the heat of the hot zone left above it, to the tank (never negative, but not capped at full), and activating and at once deactivating keeps the stored energy; activation when active and deactivation when inactive change nothing; the documented caps on slug volume and temperature are not enforced.", "quantifier": "every history of activate, add, heat, draw, deactivate", "why_tests_cant": "State-machine property over histories.", "anchors": ["src/ecoengine/objects/components/storage/SlugOverlayTank.py: activate_slug, add_to_slug, heat_slug, deactivate_slug, draw_physical_gal"]}
{"id": "C30", "title": "Heater hysteresis", "statement": "update_state turns a heater on only when it was off and the on-sensor is below the on-trigger, off only when it was on and the off-sensor has reached the off-trigger, and leaves it unchanged otherwise; hence over every history the heater is on exactly if the latest effective trigger was an on-trigger. An hour without controls raises and changes nothing.", "quantifier": "every history of tank states and hours, every control map and schedule", "why_tests_cant": "Histories are unbounded.", "anchors": ["src/ecoengine/objects/components/heating/Controls.py: should_turn_on, should_turn_off", "src/ecoengine/objects/components/heating/WaterHeater.py: update_state, get_controls_for_hour"]}
{"id": "C31", "title": "Heater output is zero when off and the map's capacity when on", "statement": "get_output_kbtuh is 0 for an inactive heater and the performance-map capacity otherwise; total output of identical heaters is number times one; nominal maps return their constant for all conditions.", "quantifier": "every heater, every condition", "why_tests_cant": "All operating conditions.", "anchors": ["src/ecoengine/objects/components/heating/WaterHeater.py: get_output_kbtuh, get_outlet_temp_f", "src/ecoengine/objects/components/heating/PerformanceMap.py: NominalPerformanceMap"]}
{"id": "C32", "title": "Performance-map interpolation is exact, continuous and bounded", "statement": "For polynomial (HPWHsim-style) maps, at each tabulated temperature the input power and COP equal the tabulated polynomial, between two tabulated temperatures they are the linear blend (so between the two values), above the top they extrapolate from the last pair, and below the lowest they fall back to resistance with COP 1.", "quantifier": "every sorted table, every outdoor, inlet and outlet temperature", "why_tests_cant": "Interpolation over a continuum and arbitrary tables.", "anchors": ["src/ecoengine/objects/components/heating/PerformanceMap.py: HPWHsimPerformanceMap"]}
{"id": "C33", "title": "COP is output over input", "statement": "get_cop equals capacity divided by power in consistent units for all map types, and capacity and power scale linearly with the number of units except in the resistance fallback.", "quantifier": "every map and condition", "why_tests_cant": "Universal identity across map types.", "anchors": ["src/ecoengine/objects/components/heating/PerformanceMap.py: get_cop, get_capacity_kbtuh, get_power_in_kw"]}
{"id": "C34", "title": "Nearest-point fallback of tabulated maps", "statement": "When conditions fall outside a tabulated map the lookup is repeated at the nearest tabulated outlet/inlet temperatures. The nearest-outlet search is seeded from the wrong column and can return a farther entry. With at least one tabulated outdoor temperature, a row of inlets for each and outlets for each inlet, a query at a known outdoor temperature always answers, whatever the interpolators leave out; and if the pickled data never claim less heat than power then no answer, no simulated step and no simulated run of a plant with such a model does.", "quantifier": "every table, every condition", "why_tests_cant": "Needs tables where the seed wins.", "anchors": ["src/ecoengine/objects/components/heating/PerformanceMap.py: PklPerformanceMap"]}
{"id": "C35", "title": "Sized storage never runs out", "statement": "For a load shape summing to at most 24/run hours, a tank that starts full with the sized usable volume (sized storage times stratification factor), refilled at the generation rate implied by the daily run hours (capped at full) and drained by the peak load shape, never goes below zero at any hour of any day, forever. Load shapes accepted by the 0.001 tolerance but summing above 24/run hours can be sized to zero storage and do run out.", "quantifier": "every 24-hour load shape, every daily volume, every run-hours value, every starting hour and number of hours", "why_tests_cant": "An unbounded-horizon safety property.", "anchors": ["src/ecoengine/objects/dhwsystems/DHWSystem.py: _calc_running_volume_supplyT_gal, _get_peak_indices"]}
{"id": "C36", "title": "Sized storage is minimal", "statement": "No smaller volume than the sized running volume survives one day cycle starting full at the critical hour.", "quantifier": "every load shape, volume and run hours", "why_tests_cant": "Minimality quantifies over all smaller tanks.", "anchors": ["src/ecoengine/objects/dhwsystems/DHWSystem.py: _calc_running_volume_supplyT_gal"]}
{"id": "C37", "title": "Sized capacity delivers the daily demand in the allowed run hours", "statement": "Sized capacity times defrost factor times run hours equals the heat needed to raise the daily demand from design inlet to supply temperature (plus 24 h of recirculation loss for return-to-primary systems, and twice that with load shifting, where the loop is counted in the demand and again on top); it decreases as run hours grow and increases with demand.", "quantifier": "every building, temperatures, run hours, defrost factor", "why_tests_cant": "Universal formula over all inputs.", "anchors": ["src/ecoengine/objects/dhwsystems/DHWSystem.py: _calc_required_capacity", "src/ecoengine/objects/dhwsystems/rtp_systems/RTPSystem.py: _calc_required_capacity, get_recirc_loss_kbtuh"]}
{"id": "C38", "title": "Stratification factor is the usable fraction of the tank at the on-trigger", "statement": "The stratification factor used for sizing is the integral, over the part of the tank above supply temperature when the on-sensor is at its trigger, of the profile's heat relative to inlet, per unit heat of supply water; sized storage times factor equals running volume.", "quantifier": "every control setting, slope and temperatures", "why_tests_cant": "Integral identity with several geometric cases.", "anchors": ["src/ecoengine/objects/dhwsystems/DHWSystem.py: _calc_stratification_factor, _calc_supply_temp_gal_from_100gal_tank, _calc_storage_volume_storageT_gal"]}
{"id": "C39", "title": "Load-shift sizing covers the first shed window", "statement": "The shed window considered is exactly the first maximal run of shed hours and the load-up hours counted are exactly those immediately preceding it. With load shifting the sized capacity is at least that without, and the sized storage at least that of ordinary sizing at the run hours load shifting allows; it can be less than ordinary sizing at the configured run hours, because load shifting caps them. The sized storage, between the off level of load-up and the on level of shed, covers the demand of the first shed window hour by hour with no generation (a second shed window need not be covered); the load-up rate refills it in the load-up hours. A map with shed controls but a schedule without shed hours always raises.", "quantifier": "every schedule, control map and building", "why_tests_cant": "Quantifies over all 3^24 schedules and all buildings.", "anchors": ["src/ecoengine/objects/dhwsystems/DHWSystem.py: size, _calc_running_volume_ls_supplyT_gal, _calc_gen_rate_ls_gph, _get_first_shed_block_and_load_up_hours"]}
{"id": "C40", "title": "Sizing leaves its inputs as it found them", "statement": "size keeps every configured input of the system on every exit; it keeps a daily building unchanged on every exit and restores an annual building on success, but leaves an annual building in daily form when sizing raises. The two sizing curves restore the system and the building on every exit, errors included; so do the temporary load boosts of the return-to-primary systems.", "quantifier": "every outcome of the inner computation, including every raised error", "why_tests_cant": "Needs fault injection at every inner call.", "anchors": ["src/ecoengine/objects/dhwsystems/DHWSystem.py: size, get_sizing_curve, get_ls_sizing_curve", "src/ecoengine/objects/dhwsystems/rtp_systems/SinglePassRTPSystem.py", "src/ecoengine/objects/dhwsystems/recirc_systems/SwingSystem.py: size"]}
{"id": "C41", "title": "Sizing curve is well-formed", "statement": "All returned series have equal length; run hours strictly decrease, starting from 24 when the configured hours are at most 24; the recommended index is valid whenever the curve is non-empty and refers to the configured run hours whenever the sweep gets there; each point is what size returns at those run hours; capacity strictly increases along the curve and required storage never increases (fewer hours buy a larger heater and a smaller tank), for non-negative load shapes summing to at most 1. The hours shown are among those 24 minus whole steps, while above the configured hours, and the configured hours minus whole steps, while some hour of the day takes more than 1.001 of what the heaters bring in it; no such hour above a shown one is left out, and for the sizable single-pass systems none at all is.", "quantifier": "every building, run hours, step", "why_tests_cant": "Monotonicity along an arbitrary sweep.", "anchors": ["src/ecoengine/objects/dhwsystems/DHWSystem.py: get_sizing_curve", "src/ecoengine/interfaces/EcosizerEngine.py: plot_sizing_curve"]}
{"id": "C42", "title": "Load-shift percentile curve", "statement": "The load-shift fraction is monotone in the requested percentile, capped at 1 and undefined only at or below percentile 0; the curve has 76 points from 25 to 100 percent with series of equal length and a valid recommended index; each point is what size returns for the fraction of its percentile; the capacity never decreases with the percentile when load-up heats at least as much of the tank as normal operation.", "quantifier": "every percentile", "why_tests_cant": "Monotonicity over a continuum.", "anchors": ["src/ecoengine/objects/dhwsystems/DHWSystem.py: _load_shift_fract_total_vol, get_ls_sizing_curve"]}
{"id": "C43", "title": "Swing-tank sizing simulation never drops below supply temperature", "statement": "With a safety factor above 1 and storage temperature at or above supply, the swing tank of the sizing simulation stays between supply temperature and max(storage, supply+8) for every sequence of draws that are smaller than the tank, follows the heat balance and the 8-degree thermostat uniquely, and so never raises the 'dropped below supply' or 'undersized' errors: sizing a daily building without load shifting succeeds under these conditions. A minute that draws exactly the tank volume raises although the size table admits it. For any tank, element and draws the simulation ends with no temperature below supply after the first, or raises ValueError: a cold swing tank is never passed over.", "quantifier": "every draw sequence of any length, every tank size and loss", "why_tests_cant": "Invariant over unbounded sequences.", "anchors": ["src/ecoengine/objects/dhwsystems/recirc_systems/SwingSystem.py: _run_one_swing_step, _sim_just_swing"]}
{"id": "C44", "title": "The swing tank never increases the demand on the primary", "statement": "Each minute's draw on the primary is at most the building demand, so the effective mix fraction is at most 1 for a normalised shape. The sized capacity makes the mixed daily demand at storage temperature in the run hours, and the sized volume covers a full day starting at every probed hour (first hour of each deficit block and the hour after it) and is attained by one of them; load shifting only raises both.", "quantifier": "every draw sequence", "why_tests_cant": "Follows from an invariant over all histories.", "anchors": ["src/ecoengine/objects/dhwsystems/recirc_systems/SwingSystem.py: _sim_just_swing, _calc_running_volume_supplyT_gal"]}
{"id": "C45", "title": "Swing-tank volume is the smallest listed size that suffices", "statement": "The swing volume is an entry of the size table, at least the required volume, with no smaller adequate entry; requirements above the largest entry are rejected; the California volume is the smallest adequate approved size when the standard size is below 480 gallons and 480 otherwise; the capacity is the safety factor times the recirculation loss, and safety factors of at most 1 are refused.", "quantifier": "every loss and peak draw", "why_tests_cant": "For-all over a continuum with table boundaries.", "anchors": ["src/ecoengine/objects/dhwsystems/recirc_systems/SwingSystem.py: _size_tm_system"]}
{"id": "C46", "title": "Resistance trade-off sizing closes the worst deficit", "statement": "For a sized daily building the resistance addition is non-negative, is zero exactly when no minute of the two two-day scenarios (primary empty, primary full, starting at the first deficit hour) falls below supply, and delivers in one minute the safety factor times the heat of the worst shortfall over the whole tank. An annual building can never be sized. The percent-coverage sweep leaves system and building as they were when it succeeds, its points are 10 percent apart ending at 120, and its index points at 100 percent when that point is present; when it raises, the building magnitude and the element stay changed, and when it stops early its index points at 120 percent.", "quantifier": "every building and system", "why_tests_cant": "Maximum over all simulated minutes and two scenarios.", "anchors": ["src/ecoengine/objects/dhwsystems/recirc_systems/SwingERTrdOffSystem.py: _size_er_element, _run_one_swing_step_er, get_er_sized_points"]}
{"id": "C47", "title": "Parallel-loop temperature-maintenance sizing", "statement": "Accepted parameters give a tank that cools from off- to on-temperature in exactly the off-time under the design loss, a heater that exceeds the loss by the safety factor and whose run time to recover is above 20 minutes; unacceptable parameters raise.", "quantifier": "every parameter combination", "why_tests_cant": "Exact validation boundaries over a continuum.", "anchors": ["src/ecoengine/objects/dhwsystems/recirc_systems/ParallelLoopSystem.py: size_tm_system, _validate_tm_inputs"]}
{"id": "C48", "title": "Mixing valve balances heat and mass", "statement": "mixing_valve_behavior draws from storage exactly the heat needed for the load and the recirculation loss in both regimes, agrees at the boundary between regimes, returns an inlet temperature between cold and return temperature, and never draws less than the load in the recirculation-dominated regime; it divides by zero when storage equals supply temperature or nothing flows.", "quantifier": "every load, flow and temperatures", "why_tests_cant": "Continuum of inputs with two regimes.", "anchors": ["src/ecoengine/objects/dhwsystems/utils.py: mixing_valve_behavior"]}
{"id": "C49", "title": "Growing-slug sizing", "statement": "Sizing a multi-pass return-to-primary system returns a capacity that meets the daily demand and 24 hours of loop loss in the allowed run hours, and a storage volume that, times the stratification factor, is the largest volume of water still waiting to reach storage temperature over two days of peak demand behind the mixing valve. Run hours, temperatures and building are left as they were. Shed controls, missing controls, sensors below the inlet and triggers that leave no water hotter than supply are refused; everything else is sized. Building the system from the sizing never lowers the capacity and never changes the volume. It raises the capacity in rounds: each simulates the given days with the capacity so far, and if some minute had no usable water and a top below supply, adds the heat missing in the coldest such minute over the minutes since the heater last came on; it ends when no minute is short, when the coldest short minute is the one the heater came on in, or when the rounds are used up.", "quantifier": "every building, control map, temperatures, loop, and every number of boost trials", "why_tests_cant": "The largest batch over 2880 minutes depends on the whole demand history; unit tests sample a few buildings.", "anchors": ["src/ecoengine/objects/dhwsystems/rtp_systems/MultiPassRTPSystem.py: size, _calc_running_volume_supplyT_gal, from_size", "src/ecoengine/objects/dhwsystems/DHWSystem.py: _calc_avg_hot_temp_at_on_trigger"]}
{"id": "C50", "title": "Instantaneous heaters", "statement": "In simulation the instantaneous heater's output equals the heat of the demanded water in every step; its sized capacity is at least the output of every simulated step at design inlet conditions (it is sixty times the peak). Because it reports zero usable volume, every simulated run is reported as failed.", "quantifier": "every building and step", "why_tests_cant": "For-all over steps; the outage classification needs the simulator and the system together.", "anchors": ["src/ecoengine/objects/dhwsystems/InstantWHSystem.py: size, simulate_step", "src/ecoengine/interfaces/Simulator.py: simulate"]}
{"id": "C51", "title": "Control schedule construction", "statement": "Without a load-shift schedule every hour is normal; otherwise an hour is shed exactly if its entry is 0, load-up exactly if it is one of the load_up_hours hours directly before the first shed hour, and normal otherwise; every label used in the schedule has controls whenever the load-up aquastat is given, and a load-up schedule without load-up aquastat makes the simulation raise.", "quantifier": "every 24-entry schedule, every number of load-up hours", "why_tests_cant": "All 2^24 schedules and the missing-control combination.", "anchors": ["src/ecoengine/interfaces/EcosizerEngine.py: _build_control_map"]}
{"id": "C52", "title": "Schematic dispatch", "statement": "Every documented schematic name and alias builds the corresponding system type, unknown names and missing recirculation parameters raise, and the multi-pass schematic ignores the run-hours argument.", "quantifier": "every string and parameter combination", "why_tests_cant": "All strings.", "anchors": ["src/ecoengine/interfaces/EcosizerEngine.py: _build_dhw_system, _build_presized_dhw_system, _require_recirc_params, _require_tm_params"]}
{"id": "C53", "title": "Model-capacity query", "statement": "get_hpwh_output_capacity is the model's capacity times the number of heaters times one minus the derate, converted to kW on request; invalid derates and counts are rejected. On the shipped database it answers exactly when the model is listed, at least one heater is asked for and the derate is between 0 and 1, at any temperature, given that the interpolation files contain their grid; and with air up to 114 F and water from 32 to 145 F the answer is never negative.", "quantifier": "every model, condition, count and derate", "why_tests_cant": "Continuum of inputs.", "anchors": ["src/ecoengine/interfaces/EcosizerEngine.py: get_hpwh_output_capacity"]}
{"id": "C54", "title": "Model listing partitions the database", "statement": "For the same filters, the single-pass and the multi-pass listing are disjoint and together contain exactly the models that pass the other filters, each once and in database order; exclusions and the SGIP flag are respected.", "quantifier": "every database and filter", "why_tests_cant": "All databases.", "anchors": ["src/ecoengine/interfaces/EcosizerEngine.py: get_list_of_models"]}
{"id": "C55", "title": "Whole-simulation safety of the base system", "statement": "For every building, weather and control setting and any number of steps, a simulated base system keeps its tank between physical temperature bounds, reports a usable volume between 0 and the tank volume, never reports negative output, and reports exactly the demand the building asked for.", "quantifier": "every history of loads and weather, unbounded steps", "why_tests_cant": "Invariant over unbounded runs.", "anchors": ["src/ecoengine/objects/dhwsystems/DHWSystem.py: simulate_step", "src/ecoengine/interfaces/Simulator.py: simulate"]}
{"id": "C56", "title": "Climate data come from the requested zone", "statement": "Loading a climate zone z between 1 and the number of data columns gives exactly column z of the outdoor and inlet tables; a zip code or weather station gives the zone of the first table row with that key and an unknown key raises ValueError; a zone above the range raises IndexError. Zone 0 and small negative numbers are silently accepted and load another zone's weather.", "quantifier": "every table, every zone number and every key", "why_tests_cant": "Every integer and every string; the accepted out-of-range numbers are exactly those a test author would not try.", "anchors": ["src/ecoengine/objects/building/ClimateZone.py: ClimateZone.from_zone_id, from_zip_code, from_weather_station, _load_oat_data, _load_inlet_water_data, _lookup_zone_for_zip, _lookup_zone_for_station"]}
{"id": "C57", "title": "Station listing matches station lookup", "statement": "get_weather_stations lists exactly the stations whose zone is not excluded (zone 96 by default), and every listed station, when used to build a climate, resolves to the zone it is listed with and to an existing data column.", "quantifier": "every station table without duplicate names (the shipped one included) and every exclusion list", "why_tests_cant": "All exclusion lists and all stations.", "anchors": ["src/ecoengine/interfaces/EcosizerEngine.py: get_weather_stations", "src/ecoengine/objects/building/ClimateZone.py: ClimateZone._lookup_zone_for_station"]}
{"id": "C58", "title": "The exported time series has one row per simulated step", "statement": "SimulationRun.to_csv writes exactly one row per executed step, in order, holding that step's index, minute, demand, usable volume, heat output, power, outdoor and inlet temperature and its six tank temperatures.", "quantifier": "every system behaviour and both durations", "why_tests_cant": "Quantifies over every step function and every early stop.", "anchors": ["src/ecoengine/objects/simulation/SimulationRun.py: to_csv, record_timestep"]}
{"id": "C59", "title": "Whole-simulation safety of single-pass return-to-primary systems", "statement": "For every building, weather, control setting, loop flow and return temperature and any number of steps, a simulated single-pass return-to-primary system reports exactly the building's demand, a usable volume between 0 and the tank volume and six temperatures that rise with height and lie between inlet and delivery temperature; each step is the base system's step followed by the loop's return; with complete weather, profiles and controls the run never raises.", "quantifier": "every history of loads and weather, unbounded steps, every loop", "why_tests_cant": "Invariant over unbounded runs.", "anchors": ["src/ecoengine/objects/dhwsystems/rtp_systems/SinglePassRTPSystem.py: simulate_step", "src/ecoengine/objects/dhwsystems/DHWSystem.py: simulate_step", "src/ecoengine/interfaces/Simulator.py: simulate"]}
{"id": "C60", "title": "The swing tank stays within bounds during simulation", "statement": "In a simulated swing-tank system the primary tank's report is physical in every step, and as long as the element can cover the loop loss the swing tank's temperature stays between the coldest of inlet, design inlet and element trigger and the hottest setpoint plus one step's heating; an element smaller than the loop loss lets the swing tank fall below the mains temperature.", "quantifier": "every history of loads and weather, unbounded steps, every loop and element", "why_tests_cant": "Invariant over unbounded runs.", "anchors": ["src/ecoengine/objects/dhwsystems/recirc_systems/SwingSystem.py: simulate_step", "src/ecoengine/interfaces/Simulator.py: simulate"]}
{"id": "C61", "title": "The parallel loop's maintenance tank stays within its band during simulation", "statement": "In the simulation of a parallel-loop system built from sizing results, the primary part behaves exactly as a base system; if a step exchanges at most the whole maintenance tank, every reported maintenance temperature lies between just below the on-temperature (or the heater's balance temperature if lower) and one step's heating above the off-temperature. If the balance temperature return + safety * (supply - return) does not exceed the off-temperature the heater never turns off again once on. With a short accepted off-time an annual (ten-minute) run exchanges more than the tank and reports temperatures below the return temperature.", "quantifier": "every accepted parameter set, every building and weather, unbounded steps", "why_tests_cant": "Invariant over unbounded runs and every parameter set.", "anchors": ["src/ecoengine/objects/dhwsystems/recirc_systems/ParallelLoopSystem.py: from_size, simulate_step, size", "src/ecoengine/interfaces/Simulator.py: simulate"]}
{"id": "C62", "title": "Simulation of multi-pass systems: bounds and the one way it fails", "statement": "However long a multi-pass return-to-primary plant is simulated, each reported step has exactly the building's demand and mains temperature, a usable volume between 0 and the tank's usable share, and six temperatures between the mains and the storage temperature. A step fails only with a division by zero, exactly when the water at the top of the tank is at supply temperature or as cold as the mains, or when neither users nor loop take heat; a tank without heat therefore always fails, as does a plant whose aquastat is at the very top, and small plants can fail mid-run. The outdoor temperature reported is the tank's top temperature, not the building's.", "quantifier": "every plant with mains no warmer than the return and colder than supply, every history of loads and weather, unbounded steps", "why_tests_cant": "Invariant over unbounded runs; the failing states are a measure-zero set tests miss.", "anchors": ["src/ecoengine/objects/dhwsystems/rtp_systems/MultiPassRTPSystem.py: simulate_step", "src/ecoengine/objects/dhwsystems/utils.py", "src/ecoengine/interfaces/Simulator.py: simulate"]}
{"id": "C63", "title": "Sizing warns about exactly the risky controls", "statement": "Every successful sizing with a positive capacity and storage hotter than supply issues a 'sensors reversed' warning for exactly the control states whose on-sensor is below the off-sensor, and a short-cycling warning for exactly those whose water between the sensors the sized heater takes from supply to storage temperature in less than ten minutes. With storage no hotter than supply nothing is ever reported; with a required capacity of zero sizing raises ZeroDivisionError after storing its results.", "quantifier": "every system class using the common sizing, every building, schedule and control map", "why_tests_cant": "The threshold depends on the sized capacity and volume; tests check single configurations.", "anchors": ["src/ecoengine/objects/dhwsystems/DHWSystem.py: size, _warn_if_short_cycling"]}
{"id": "C64", "title": "The location argument selects the climate the tables give it", "statement": "The building of every engine that is constructed carries exactly the climate its location argument stands for: the two design values of a dictionary, the zone the shipped table lists for a 5-digit zip code, the zone listed for a weather station (blanks around the name do not matter), or zone 1-96 by number; that climate is unique. Any other argument is refused (TypeError for an unknown dictionary key, ValueError otherwise). All 2708 shipped zip codes, 77 stations and 96 zones are accepted. A zip code passed as an integer, although documented, is always refused; at least one shipped station has mains water below freezing; a multi-family building without a per-person demand is always refused although the documented example omits it.", "quantifier": "every location argument, every table with unique keys, every shipped zip code, station and zone", "why_tests_cant": "2708 zip codes, 77 stations and 96 zones, and every string that is none of them.", "anchors": ["src/ecoengine/interfaces/EcosizerEngine.py: EcosizerEngine._build_climate_zone", "src/ecoengine/objects/building/ClimateZone.py: from_zip_code, from_weather_station, from_zone_id, from_design_conditions", "src/ecoengine/data/climate_data"]}
{"id": "C65", "title": "An engine's simulation runs and reports its own system", "statement": "run_simulation on any engine that was constructed runs the system it was built with (with the loop values it was given) against its own building. Its record has one entry per executed step, in order; it stops early exactly when the delivered water has been below supply minus the threshold for longer than the allowed minutes, and otherwise covers the whole 3-day or annual period. For systems with a stratified primary tank every reported step is physical. Nothing but tank contents and heaters' on/off state is changed: building, sizing results, temperatures, loop, volumes and heaters stay. With complete data, positive volumes and heaters whose capacity and power queries answer (whatever the sign) the run never raises, except that a multi-pass plant can fail, and then only with a division by zero. In particular a plant of any shipped model, tabulated or pickled on a complete grid, runs to the end. A multi-pass plant of a shipped table in air up to 114 F, or of pickled data that never claim less heat than power, has only possible steps.", "quantifier": "every engine that can be constructed, every duration, threshold and number of minutes", "why_tests_cant": "Every constructor argument combined with every load and weather history.", "anchors": ["src/ecoengine/interfaces/EcosizerEngine.py: EcosizerEngine.run_simulation", "src/ecoengine/interfaces/Simulator.py: simulate", "src/ecoengine/objects/simulation/SimulationRun.py"]}
{"id": "C66", "title": "Running a simulation again gives the same result only if the heaters are where they were", "statement": "If a simulation ends with every heater on or off exactly as it was at the start, then any further simulation (of any duration) from the used engine gives the same record, or the same exception, as from the fresh engine. Heaters of a presized engine start off. The on/off state is not reset, so in general a second identical simulation can report a different result from the first.", "quantifier": "every engine and every pair of simulations", "why_tests_cant": "History property: depends on the state a whole previous simulation leaves behind.", "anchors": ["src/ecoengine/interfaces/Simulator.py: simulate", "src/ecoengine/objects/dhwsystems/DHWSystem.py: initialize_simulation", "src/ecoengine/interfaces/EcosizerEngine.py: EcosizerEngine.run_simulation"]}
{"id": "C67", "title": "Results of a sizing engine", "statement": "An engine built without a tank volume reports a capacity and a volume (and, for parallel-loop and swing systems, temperature-maintenance equipment). Without a schedule the capacity makes a day's hot water (plus a day of recirculation loss for return-to-primary systems; at least that, in 14 hours, for multi-pass) in the run hours after defrost; an instantaneous heater gets sixty times the peak hour's heat. For no-recirculation, parallel and single-pass return-to-primary systems the volume is the smallest whose usable share at the trigger never runs out whenever the day starts; a swing system's primary covers a day from every probed hour. With a schedule the no-recirculation and parallel tanks last through the first shed hours, and so does the single-pass return-to-primary tank with the loop's volume added to the use. Parallel maintenance equipment balances the loop loss, the swing tank is the smallest listed size that suffices. Documented single-pass systems with sensible parameters are always sized.", "quantifier": "every engine built by sizing, every schematic, building with 24 hourly values, temperature and control setting; every start hour and every number of hours; for the last claim every parameter set meeting the stated conditions", "why_tests_cant": "the results are real numbers that depend on the shape, temperatures and sensor heights together; tests fix one building and compare against stored numbers", "anchors": ["src/ecoengine/interfaces/EcosizerEngine.py: EcosizerEngine.__init__, _build_dhw_system, get_sizing_results", "src/ecoengine/objects/dhwsystems/DHWSystem.py: DHWSystem.size, from_size", "src/ecoengine/objects/dhwsystems/recirc_systems/ParallelLoopSystem.py: from_size", "src/ecoengine/objects/dhwsystems/recirc_systems/SwingSystem.py: from_size", "src/ecoengine/objects/dhwsystems/rtp_systems/SinglePassRTPSystem.py: from_size", "src/ecoengine/objects/dhwsystems/InstantWHSystem.py: from_size"]}
{"id": "C68", "title": "The sizing-curve plot shows the sizing results", "statement": "plot_sizing_curve draws exactly the points it returns, one slider position per point, opened at a valid point (with a load-shift schedule the points are 25 to 100 percent). It leaves building, system and results as they were, but for the swing tank's mixed-water share. Without a schedule the point the plot opens at is the system's own sized volume and capacity, for no-recirculation, parallel, single-pass return-to-primary and swing engines (the plot then always succeeds) and for multi-pass systems when it succeeds; along the curve of the pooled systems more volume never needs more capacity. With a schedule the plot of a pooled engine succeeds and the marked point is its own percentage and volume, if the percentage is whole and at least 25. When the run hours are no more than 1.001 over the peak-hour share the sized system is not on the curve at all and another, smaller-capacity point is marked. get_sizing_curve_plot marks the index it is given and raises IndexError if there is no such point.", "quantifier": "every engine built by sizing, every building with 24 hourly values, every slope of the slider text, every list of points and index", "why_tests_cant": "The mark is found by stepping back from the run hours over a real-valued grid; whether it meets the sized system depends on all numbers together.", "anchors": ["src/ecoengine/interfaces/EcosizerEngine.py: EcosizerEngine.plot_sizing_curve, get_sizing_curve_plot", "src/ecoengine/objects/dhwsystems/DHWSystem.py: get_sizing_curve, get_ls_sizing_curve, plot_sizing_curve", "src/ecoengine/objects/dhwsystems/recirc_systems/SwingSystem.py: get_sizing_curve", "src/ecoengine/objects/dhwsystems/rtp_systems/MultiPassRTPSystem.py: get_sizing_curve"]}
{"id": "C69", "title": "The utility comparison graph adds up to the annual costs", "statement": "get_annual_utility_comparison_graph raises ValueError unless both runs are annual. Otherwise, whenever both runs can be billed, it succeeds and draws ten traces (base, peak and off-peak energy, peak and off-peak demand charges, for each run) over the same 24 distinct labels. The stack at a month's name is exactly what that month costs with the first run (base charge, energy charges of its steps, demand charges of its billing periods); the stack beside it is what it costs with the second. The twelve stacks of a run add up to its annual utility cost. return_as_array gives the numbers that are drawn.", "quantifier": "every pair of annual runs with any step series and positive interval, every accepted tariff", "why_tests_cant": "The stacked heights combine five splits of every step and billing period; tests look at trace names of one run.", "anchors": ["src/ecoengine/interfaces/EcosizerEngine.py: get_annual_utility_comparison_graph", "src/ecoengine/objects/simulation/SimulationRun.py: get_detailed_utility_cost, get_annual_utility_cost"]}
{"id": "C70", "title": "The simulation plot shows the simulated steps", "statement": "plot_simulation fails exactly when the three-day simulation does, with the same exception; otherwise it draws, at the minute each step begins, that step's usable volume, demand per hour, heat as gallons per hour at the supply temperature and, on request, air, inlet and six tank temperatures, with a second panel for the maintenance tank exactly for swing systems. The shaded blocks are exactly the unbroken runs of shed and of load-up steps, in order and without overlap, and only the first of each kind is labelled. An instant is shaded as shed (load-up) exactly if its step was run so: for an engine with a load-shift schedule exactly in the schedule's shed (load-up) hours of each day; without a schedule nothing is shaded.", "quantifier": "every engine, schedule and simulated run; every step and every instant of it", "why_tests_cant": "The block search is a loop over all mode histories, and the drawn series depend on whole runs; tests check that some figure comes back.", "anchors": ["src/ecoengine/interfaces/EcosizerEngine.py: EcosizerEngine.plot_simulation", "src/ecoengine/objects/simulation/SimulationRun.py: to_plotly", "src/ecoengine/interfaces/Simulator.py: simulate"]}
{"id": "C71", "title": "A tank with enough hot reserve never runs out", "statement": "For engines without recirculation, with a parallel loop tank or returning to the primary tank, without a load-shift schedule: if, over every stretch of steps, what is drawn and lost beyond what the running heaters can bring, plus one step's draw, fits into the part of the tank that is at full storage temperature when the aquastat calls for heat, and the same stretches from the start fit into what is hot at the start, then the simulation has no minute of outage, is not stopped, every step has usable water (with an explicit lower bound), and the top of the tank stays at the storage temperature. For the design days it is enough to check stretches of up to 24 whole hours of one day. A sized system rebuilt with its capacity and a tank whose hot part covers the sized reserve and one minute of the busiest hour never runs out. The sized tank itself can: its own three-day simulation may have an outage.", "quantifier": "every engine of the three types, every building, weather, tank and heaters; runs of three days and of a year", "why_tests_cant": "The outcome depends on the whole history of draws, heat and aquastat switching; tests simulate a handful of sizes.", "anchors": ["src/ecoengine/interfaces/EcosizerEngine.py: EcosizerEngine.simulate_3day, simulate_annual", "src/ecoengine/interfaces/Simulator.py: simulate", "src/ecoengine/objects/dhwsystems/DHWSystem.py: simulate_step, size", "src/ecoengine/objects/components/storage/StratifiedTank.py", "src/ecoengine/objects/dhwsystems/rtp_systems/SinglePassRTPSystem.py: simulate_step", "src/ecoengine/objects/dhwsystems/recirc_systems/ParallelLoopSystem.py: simulate_step"]}
{"id": "C72", "title": "What is sized can be simulated, if it has storage", "statement": "An order for a documented single-pass or instantaneous system, with sensible parameters and weather for every hour, is sized and its three-day and annual simulations run to the end, provided the sized primary tank is larger than nothing (an instantaneous heater always runs). If the tank came out as zero gallons, every simulation of the engine raises ZeroDivisionError in its first step. For no-recirculation, parallel and single-pass return-to-primary systems the sized volume is never negative and is positive exactly if some hour of the design day takes more water than a heater running evenly over its run hours makes in an hour; a flat load is therefore sized and then cannot be simulated.", "quantifier": "every order meeting the stated conditions, every outage threshold and duration limit, runs of three days and of a year", "why_tests_cant": "Sizing and simulating meet only through numbers that depend on the whole order; tests use peaky shapes, which all need storage.", "anchors": ["src/ecoengine/interfaces/EcosizerEngine.py: EcosizerEngine.__init__, simulate_3day, simulate_annual", "src/ecoengine/objects/dhwsystems/DHWSystem.py: size, simulate_step", "src/ecoengine/interfaces/Simulator.py: simulate", "src/ecoengine/objects/components/storage/StratifiedTank.py: get_temperature_at_fraction"]}
{"id": "C73", "title": "A resistance trade-off system has the element its sizing found", "statement": "SwingERTrdOffSystem.from_components keeps the heaters and tanks it is given and succeeds whenever every heater has a performance map and the design draws fit the swing tank; its element has the initial capacity plus the addition get_er_capacity_kbtuh reports, under the swing tank's thermostat, and that addition is exactly the safety factor times the worst minute's shortfall of the two design days, with the heaters giving their rated capacity at design conditions all day. A heater without a performance map is refused. from_size builds the primary tank and heater of the plain swing system's results, its swing tank, and an element of safety factor times loop loss plus the addition. Both can then be simulated. The accessors raise RuntimeError until the system is sized, and the two units agree. get_er_sizing_curve succeeds for a system with an addition whose draws at 120 percent still fit; it leaves system and building as they were, draws one point per ten percent ending at 120, and marks the 100 percent point with the system's capacity if the sweep reaches it; otherwise it marks the 120 percent point.", "quantifier": "every list of heaters, tanks, building, temperatures and safety factor; every sized system and additional safety factor; simulations of three days and of a year", "why_tests_cant": "The addition is a maximum over 5760 simulated minutes and the figure repeats it for a dozen loads; tests check single plants.", "anchors": ["src/ecoengine/objects/dhwsystems/recirc_systems/SwingERTrdOffSystem.py: SwingERTrdOffSystem.from_components, from_size, _size_er_element, get_er_capacity_kbtuh, get_er_capacity_kw, get_er_sizing_curve"]}
{"id": "C74", "title": "When a resistance element is enough", "statement": "If the swing tank's element can heat the largest draw from the inlet temperature to supply and cover the loop's loss besides, sizing finds nothing to add, whatever the primary. The element that sizing asks for need not be enough: with it installed the tank cycles differently, and sizing the same plant again, starting from that element, can find a larger shortfall than before.", "quantifier": "every plant and building meeting the stated conditions; two design days from an empty and from a full primary", "why_tests_cant": "Whether the shortfall is closed depends on the thermostat's whole history with the larger element, which the sizing never simulates.", "anchors": ["src/ecoengine/objects/dhwsystems/recirc_systems/SwingERTrdOffSystem.py: _size_er_element, from_components"]}
{"id": "C75", "title": "A system reports its last sizing", "statement": "Whatever sequence of size and sizing-curve calls is made on a system object, with whatever buildings and controls, raising or not, the capacity and storage volume it reports are those a new system with the same settings reports after just the last call that makes one report any; before any such call, and after curves alone, the getters raise RuntimeError. A size call that returns always leaves figures; one that raises leaves the earlier figures alone, unless it found a capacity of exactly zero (a building that uses no hot water raises ZeroDivisionError with zero already stored). A sizing curve asked for after any such sequence is that of a new system, drawn with the stratification slope of the last sizing instead of the one given. Each of a swing system's five figures likewise belongs to the last call that made it; they need not belong together, since a sizing that raises has already replaced the swing tank. The outage check of a system tells whether any usable water is left and ignores the demand it is given.", "quantifier": "every system of the plain, parallel-loop, single-pass return-to-primary and swing kinds, every finite sequence of calls with any arguments, every tank and demand", "why_tests_cant": "Histories are unbounded and mix successes with failures; tests size a fresh object once.", "anchors": ["src/ecoengine/objects/dhwsystems/DHWSystem.py: DHWSystem.size, get_minimum_capacity_kbtuh, get_minimum_storage_storageT_gal, get_sizing_curve, get_ls_sizing_curve, from_components, check_for_outage", "src/ecoengine/objects/dhwsystems/recirc_systems/SwingSystem.py: SwingSystem.size, get_sizing_curve, get_minimum_tm_volume_gal, get_minimum_tm_ca_volume_gal, get_minimum_tm_capacity_kbtuh", "src/ecoengine/objects/dhwsystems/rtp_systems/SinglePassRTPSystem.py: SinglePassRTPSystem"]}
{"id": "C76", "title": "A swing tank fed from enough hot reserve never goes cold", "statement": "For swing-tank engines without a load-shift schedule whose element covers the loop's loss: if, over every stretch of steps, the water the mixing valve draws through the swing tank (at most the demand) beyond what the running heaters can bring, plus one step's draw, fits into the part of the primary tank that is hot when the aquastat calls for heat, and the stretches from the start fit into what is hot at the start, then the simulation reports no minute of outage and is not stopped, the primary's top stays at storage temperature with an explicit amount of usable water, and the swing tank's reported temperatures are those of a tank always fed with storage-temperature water under its own thermostat, never below supply. It is enough that the demand itself fits, and for the design days to check stretches of up to 24 whole hours.", "quantifier": "every swing-tank engine without load shifting, every building, weather, tanks, heaters and element; runs of three days and of a year", "why_tests_cant": "The two tanks, the valve and both thermostats interact over thousands of steps; tests simulate a handful of sizes.", "anchors": ["src/ecoengine/objects/dhwsystems/recirc_systems/SwingSystem.py: SwingSystem.simulate_step", "src/ecoengine/interfaces/EcosizerEngine.py: EcosizerEngine.simulate_3day, simulate_annual", "src/ecoengine/interfaces/Simulator.py: simulate", "src/ecoengine/objects/components/storage/MixedStorageTank.py", "src/ecoengine/objects/components/storage/StratifiedTank.py"]}
{"id": "C77", "title": "Shipped table models never give less heat than they draw", "statement": "Every model of the shipped equipment database that is rated by a coefficient table (forty of 126) can be built for any number of units, and for every outdoor temperature up to 114 F, every inlet from 32 to 145 F and any outlet it draws positive power and delivers at least the heat that power is worth (COP at least 1), and exactly that heat below its coldest rating. The capacity query therefore answers with a positive number for each of them at any derate below 1. A simulation of a plant given such a model runs to the end whatever the weather, and with air no hotter than 114 F and water from 32 to 145 F every recorded step, and so the whole run, gives at least the heat its electricity is worth (every system with storage). Above 114 F the tables are extrapolated and this fails: a SANCO2 with 145 F water and 120 F air is credited with less heat than it draws. Nor is any such model credited with more than 12.5 times the heat of its power over the same range (12 times is exceeded), so in a simulated run without an outage the energy recorded, 12.5 times over, and the heat the full tank held cover the heat delivered to the building and the loop.", "quantifier": "every shipped model with a table and no pickled interpolators, all outdoor temperatures up to 114 F, inlets in 32..145 F, outlets, unit counts, positive nominal capacities and derates", "why_tests_cant": "The temperatures range over a continuum and the curves are quadratics in each of several hundred brackets; tests sample a few points of a few models.", "anchors": ["src/ecoengine/data/preformanceMaps/maps.json", "src/ecoengine/objects/components/heating/PerformanceMap.py: HPWHsimPerformanceMap.get_capacity_kbtuh, get_power_in_kw, PerformanceMap.from_model_name", "src/ecoengine/interfaces/EcosizerEngine.py: get_hpwh_output_capacity"]}
{"id": "C78", "title": "Simulated load shifting: when the water lasts and when the heaters rest", "statement": "For plain, parallel-loop and single-pass return-to-primary engines with a load-shift schedule: the sensor heights and temperatures in force in each simulated hour are those configured for its mode (normal, load-up, shed). If, from every step on, what the building and the loop take beyond what the running heaters bring, plus that step's own draw, fits into the hot water which the sensor of that step's hour guarantees, and the stretches from the start fit into what is hot at the start, the simulation reports no minute of outage. If in addition a given number of hot gallons is in the tank when some step begins, that is enough to satisfy the turn-off sensor of that hour, and the gallons not yet drawn keep each hour's sensor satisfied through the following steps, then in all these steps the recorded heat output is zero and no power is recorded: the load is shifted. On the three design days both conditions follow from the whole hours of one day: hourly takings, what the heaters bring in an hour, and each hour's reserve decide them for every minute of every day. A shed hour by itself forbids nothing: it only moves the sensors, and a heater whose shed sensor is cold runs in the shed hour.", "quantifier": "every engine of the three kinds with a schedule, every building, weather, tank, heaters and sensor settings in order; three-day and annual runs, every start step and length of the rest", "why_tests_cant": "The claim spans thousands of steps of thermostat history under settings that change by the hour; tests simulate a few sizes and look at totals.", "anchors": ["src/ecoengine/interfaces/EcosizerEngine.py: EcosizerEngine.simulate_3day, simulate_annual, _build_control_map", "src/ecoengine/interfaces/Simulator.py: simulate", "src/ecoengine/objects/dhwsystems/DHWSystem.py: DHWSystem.simulate_step", "src/ecoengine/objects/dhwsystems/recirc_systems/ParallelLoopSystem.py: ParallelLoopSystem.simulate_step", "src/ecoengine/objects/dhwsystems/rtp_systems/SinglePassRTPSystem.py: SinglePassRTPSystem.simulate_step"]}
{"id": "C79", "title": "How long simulated heaters run and rest", "statement": "For plain, parallel-loop and single-pass return-to-primary engines, with a load-shift schedule or without: once the heaters have come on in a simulation they heat in every step for as long as what they can heat in the time, added to the hot water at which they come on, stays below the level at which the settings of the hour turn them off, whatever is drawn meanwhile and even if the water runs out; once they have gone off they stay off for as long as the water taken since fits between that level and the one at which the settings of the hour turn them on. A run therefore lasts at least the cycle time the short-cycling warning estimates, lengthened by as much as the mains water is colder than the supply temperature, provided no change of mode lowers the turn-off level; where the sizing does not warn, no run is shorter than ten minutes. The heaters of a sized system give exactly the capacity it reports.", "quantifier": "every engine of the three kinds, every building, weather, draw, tank, heaters and sensor settings in order, three-day and annual runs, every step at which heaters come on or go off and every number of steps after it", "why_tests_cant": "Cycle lengths depend on thousands of steps of thermostat history; the warning is a formula about the sized tank that no test compares with a simulation.", "anchors": ["src/ecoengine/objects/dhwsystems/DHWSystem.py: DHWSystem.simulate_step, size", "src/ecoengine/objects/dhwsystems/recirc_systems/ParallelLoopSystem.py: ParallelLoopSystem.simulate_step", "src/ecoengine/objects/dhwsystems/rtp_systems/SinglePassRTPSystem.py: SinglePassRTPSystem.simulate_step", "src/ecoengine/objects/components/heating/WaterHeater.py: should_heat", "src/ecoengine/objects/components/storage/StratifiedTank.py"]}
{"id": "C80", "title": "What load-shift sizing of a swing-tank system provides", "statement": "Sizing a swing-tank system with a load-shift schedule follows the swing tank minute by minute through the first shed block, the load-up hours before it and the day after it, drawing on the primary what the swing tank lets through at the hour's average demand. The capacity it reports is at least that of the same system sized without load shifting for the hours that are not shed; where there are load-up hours, it brings in them what they draw and the load-up setting's part of the shifted draw. The storage between the load-up and the shed setting holds the given part of the draw of the shed block and, at every minute of the day after, what has been drawn beyond what the heaters bring outside shed hours. Neither is larger than that asks for. The sizing returns whenever the one without load shifting does, some hour is shed, the sensors can be placed and the average day's draw fits the swing tank.", "quantifier": "every swing-tank system, building, schedule with a shed hour, settings, average day of 24 hours and shifted share", "why_tests_cant": "The sized numbers come out of a minute-by-minute recursion over more than a day for an arbitrary schedule; tests pin the result of a few schedules.", "anchors": ["src/ecoengine/objects/dhwsystems/recirc_systems/SwingSystem.py: SwingSystem.size, _calc_prelim_vols_supplyT_gal, _calc_gen_rate_ls_gph, _calc_required_capacity_ls_kbtuh, _calc_running_volume_ls_supplyT_gal, _calc_running_volume_ls_swing, _sim_just_swing", "src/ecoengine/objects/dhwsystems/DHWSystem.py: DHWSystem._calc_storage_volume_ls_storageT_gal"]}
{"id": "C81", "title": "What a simulation's summary says", "statement": "The summary of a finished simulation describes exactly the steps that were executed: it is successful exactly if every step ended with usable water in the tank; the outage minutes are those of the steps that did not; the energy is that of primary and maintenance heaters over all steps; the peak is the largest recorded primary power and 0 if none was recorded; the number of steps is right; and it says stopped exactly if the run was ended because the water had been too cold for too long at the last step, otherwise the steps fill the whole duration.", "quantifier": "every system, duration, temperature threshold, time limit and run", "why_tests_cant": "The figures are folds over runs of any length with missing entries; tests look at a few short runs.", "anchors": ["src/ecoengine/objects/simulation/SimulationRun.py: get_summary", "src/ecoengine/interfaces/EcosizerEngine.py: EcosizerEngine.get_simulation_summary", "src/ecoengine/interfaces/Simulator.py: simulate"]}
{"id": "C82", "title": "The California daily-demand figure of an apartment mix", "statement": "For any six unit counts of non-zero sum and a table of six unit sizes over 365 days, the figure used by the California standard is the 98th percentile (linear interpolation between the days ranked 357th and 358th) of the year's daily totals of that mix, per unit, rounded to the nearest tenth; at most eight days exceed the percentile. Multiplying all counts by the same positive number leaves it alone; a building with one unit size has that size's figure whatever the number; it lies between the least and the most any size uses on any day, up to the rounding. A multifamily building by this standard gets the figure times the magnitude; without six counts, or with counts adding to nothing, construction raises ValueError. With the shipped table the figures for one size are 34.6, 32.5, 27.7, 25.9, 24.7 and 24.5 gallons, so it falls with the unit size.", "quantifier": "every table of six years of days, every six unit counts, every magnitude, and the shipped table", "why_tests_cant": "A percentile of weighted sums over all mixes; tests pin one mix.", "anchors": ["src/ecoengine/objects/building/Building.py: Building.from_building_type, _compute_single_gal_and_shapes", "src/ecoengine/data/load_shapes"]}
{"id": "C83", "title": "What a building of a named type consists of", "statement": "from_building_type with one use type succeeds exactly for a positive magnitude, a known gallons-per-unit figure (the type's own, or for multifamily the given one, the named standard's or the California figure) and shapes that are given and valid or found in the library; the building then has daily volume figure times magnitude, those shapes, and the given climate, else constant design temperatures, else none. Anything else raises ValueError (or what reading the standard's table raised). Asked for the annual shape, it is the same building with both shapes replaced by the library's year, which exists for multifamily only. With the shipped files every documented type can be built from any positive magnitude, with valid shapes.", "quantifier": "every library, type name, magnitude, standard, bedroom counts, shapes, climate and design temperatures", "why_tests_cant": "The constructor's arguments combine freely; tests build a dozen buildings.", "anchors": ["src/ecoengine/objects/building/Building.py: Building.from_building_type, Building.__init__, set_to_annual_load_shape"]}
{"id": "C84", "title": "What a multi-pass sizing curve shows", "statement": "Every point of a multi-pass return-to-primary system's sizing curve is a whole design: the system's own capacity and storage, or those a new from_size with the same order and fewer run hours (from its own downward by the step, never below nine, and only while some hour of the day asks for more than such a heater brings) ends with after its trial days. The hours shown with a point are the day's heat, water and loop, divided by its capacity, to the nearest tenth; the storage is never zero. The curve starts with the system itself, which is the point marked; after it hours strictly decrease, capacities strictly increase, and hours are at most the hours designed for plus a twentieth. No design of the sweep is missing unless a point with as few hours is on the curve; one with fewer hours than all before it is on it.", "quantifier": "every multi-pass system, building, slope and positive step", "why_tests_cant": "Each point is a sizing followed by simulated trial days, and the selection compares rounded figures of all earlier points; tests look at one curve.", "anchors": ["src/ecoengine/objects/dhwsystems/rtp_systems/MultiPassRTPSystem.py: MultiPassRTPSystem.get_sizing_curve, from_size"]}
{"id": "C85", "title": "Tariffs given by single numbers", "statement": "A tariff with one value for each rate and hour is accepted exactly if the base charge and the four rates are numbers and the peak window lies within the day (start at most 23, end at most 24 and not before the start), and raises ValueError otherwise; every hour of the year is then charged by its hour of day alone: peak rates inside the window, discount rates in the remaining hours of a discount window (which may run past midnight), off-peak rates otherwise. In a seasonal tariff, discount values given singly hold in every season; a single value for any other rate, window end or month among several seasons raises ValueError.", "quantifier": "every base charge, hours and rates, missing or not; every seasonal tariff; every hour of the year and step length", "why_tests_cant": "8760 hours times all windows, wrapping past midnight or empty; tests look at some hours of a few tariffs.", "anchors": ["src/ecoengine/objects/building/UtilityCostTracker.py: UtilityCostTracker.from_params, get_energy_charge_at_step, get_demand_period_at_step, get_demand_charge_for_period"]}
{"id": "C86", "title": "Billing hours survive floating-point rounding", "statement": "A step whose length divides the hour (1, 2, 3, 4, 5, 6, 10, 12, 15, 20, 30 or 60 minutes) is billed with the rates of the hour it starts in, with the hour computed in IEEE double arithmetic as the program does; for any other step length a step starting after the full hour is too, and one starting exactly on the hour is placed in that hour or the hour before, which does happen (steps of 29 minutes).", "quantifier": "every step of every step length within 2^30 hours; every tariff, season and window", "why_tests_cant": "Rounding errors show at isolated steps of isolated step lengths; tests with one-minute steps never meet them.", "anchors": ["src/ecoengine/objects/building/UtilityCostTracker.py: UtilityCostTracker.get_energy_charge_at_step, get_demand_period_at_step"]}
{"id": "C87", "title": "What sizing leaves of the building's daily use", "statement": "Load-shift sizing of a single-pass return-to-primary system adds the loop's daily loss volume to the building's daily hot-water use while it works and takes it off again, three times per sizing. In IEEE double arithmetic, as the program computes, the daily use afterwards differs from the original by at most one part in 2^52 of the sum, however often the system is sized with the same loop (later sizings change nothing more); it is exactly the original when the sum is representable (whole gallons, say). In general it is not: 720 gallons a day with 3 gpm returning at 110 F to a 120 F supply and 60 F inlet become slightly more than 720. The loss and the loop's volume themselves are computed to within one part in 2^49 and 2^48 of their formulas.", "quantifier": "every positive binary64 daily use and loop volume of sum up to 2^1023, every number of sizings", "why_tests_cant": "Rounding shows in the last bit for particular pairs; repeated sizing needs an induction.", "anchors": ["src/ecoengine/objects/dhwsystems/rtp_systems/SinglePassRTPSystem.py: SinglePassRTPSystem._calc_gen_rate_ls_gph, _calc_running_volume_ls_supplyT_gal", "src/ecoengine/objects/dhwsystems/DHWSystem.py: DHWSystem.size"]}
{"id": "C88", "title": "Which factory builds which kind of system", "statement": "from_size reaches sizing exactly in the seven implemented classes (plain, instantaneous, parallel loop, swing, swing with resistance trade-off, single-pass and multi-pass return-to-primary); in the intermediate and placeholder classes the factory they inherit always raises TypeError. from_components is usable only for the plain system and for the swing system with resistance trade-off; in every other class it raises TypeError whatever is given. The four placeholder classes accept size() silently any number of times without becoming sized (the results still raise RuntimeError, nothing is changed), and cannot be simulated: every accepted duration raises TypeError at the first step.", "quantifier": "every system class, every set of keyword arguments, every number of size() calls, every simulated state and duration", "why_tests_cant": "Tests exercise the factories class by class with particular arguments; the placeholder classes and the inherited factories are not tested at all.", "anchors": ["src/ecoengine/objects/dhwsystems/DHWSystem.py: DHWSystem.from_size, DHWSystem.from_components", "src/ecoengine/objects/dhwsystems/MPNoRecircSystem.py: MPNoRecircSystem", "src/ecoengine/objects/dhwsystems/rtp_systems/MP_RTPInSeriesSystem.py: MP_RTPInSeriesSystem", "src/ecoengine/objects/dhwsystems/rtp_systems/SP_RTPInParallelSystem.py: SP_RTPInParallelSystem", "src/ecoengine/objects/dhwsystems/rtp_systems/SP_RTPInSeriesSystem.py: SP_RTPInSeriesSystem"]}
{"id": "C89", "title": "Sizing in floating-point arithmetic", "statement": "Computed in IEEE double arithmetic, as the program does, the required capacity is within one part in 2^49 of what its formula gives exactly, and the running volume is within one part in 2^40 of the daily use of the smallest store that lasts: a store of the computed volume plus that part never runs out on any day from any hour, and one smaller by more than that part runs out within a day. Rounding can move, add or remove surplus-to-deficit transitions, also when generation exactly equals the day's use; it never changes the volume by more than this. The computed volume is in general not exactly the exact one. Dividing by the usable fraction of the tank adds at most one part in 2^52.", "quantifier": "every finite double daily use (2^-900 to 2^900 gallons), run time of at least an hour, and shape of up to 24 fractions that the generation covers; capacity for inputs between 0.001 and 10^9", "why_tests_cant": "The algorithm branches on the signs of rounded differences; whether some input makes a rounding error select a wrong peak cannot be seen from samples.", "anchors": ["src/ecoengine/objects/dhwsystems/DHWSystem.py: DHWSystem._calc_required_capacity, DHWSystem._calc_running_volume_supplyT_gal, _get_peak_indices"]}
{"id": "C90", "title": "Heat in a multi-pass tank", "statement": "From any reachable overlay tank holding at most its full energy, a heating cycle (activation that leaves some water in the slug, then any draws and heater runs that do not draw more than the water above the slug, then deactivation) changes the stored energy by exactly the heater's output plus the inlet water's heat less the heat of the drawn water, which is the integral of the profile reported before the cycle over the drawn top of the tank; only the tolerance of the profile search is left over, once per cycle, and the order of the calls does not matter. In every step of a simulation of a multi-pass plant the tank loses no more than the drawn water's heat at the hottest temperature in the tank and gains no more than the heater's output and the returning water's heat. When the slug is empty the heater's output is reported but lost.", "quantifier": "every reachable tank, supply temperature and sequence of calls in a cycle; every simulated state and step of every plant with sensible temperatures, tank not over-full and slug not colder than the mains", "why_tests_cant": "The balance is over whole call histories and over an integral of the reported profile; tests compare a few temperatures.", "anchors": ["src/ecoengine/objects/components/storage/SlugOverlayTank.py: SlugOverlayTank.activate_slug, add_to_slug, heat_slug, deactivate_slug, draw_physical_gal", "src/ecoengine/objects/dhwsystems/rtp_systems/MultiPassRTPSystem.py: MultiPassRTPSystem.simulate_step"]}
{"id": "C91", "title": "A run without an outage has made its heat", "statement": "If the record of a simulation shows no outage, the heat in the water the building took (at supply temperature, above the warmest mains) plus the heat the recirculation loop took back from the primary tank is at most one tankful of storage-temperature water plus the heat the recorded heater output adds up to; so a run asked for more than that shows an outage, and with heaters that never give more than a given COP times the power they draw, that COP times the recorded energy use (with a swing tank: the total of heaters and element) covers it too. With a swing tank the same holds for both tanks together: the water taken and the loop's loss over the run are covered by one primary tankful, the recorded output of the heaters and of the element, and what the swing tank cooled down from its initial temperature (supply + 8 F). The only condition on the demand is that no single step asks for more than a tankful (a swing tankful, where there is one): draw() never takes out more than the tank holds, so a tank warm to the bottom yields any larger amount in one call and still reports usable water.", "quantifier": "every new engine whose primary tank serves the demand alone (plain, parallel loop, single-pass return-to-primary) or through a swing tank, with or without load shifting, every weather and profile within the stated ranges, both simulation lengths", "why_tests_cant": "A leak of a fraction of a gallon per step is invisible in one step and adds up over 52560 steps of a year; the bound is over whole histories of arbitrary draws, schedules and weather.", "anchors": ["src/ecoengine/interfaces/Simulator.py: simulate", "src/ecoengine/objects/dhwsystems/DHWSystem.py: DHWSystem.simulate_step", "src/ecoengine/objects/dhwsystems/recirc_systems/SwingSystem.py: SwingSystem.simulate_step", "src/ecoengine/objects/components/storage/StratifiedTank.py: StratifiedTank.heat, draw, draw_physical_gal, add_recirc_return"]}
{"id": "C92", "title": "No climate, no results", "statement": "For a building whose climate is not known (no zone and no design temperatures), size() of every system class raises and leaves the system's sizes as they were: ValueError, unless the annual profile could not be exchanged for the daily one first. The constructors that size, every sizing curve and load-shift curve of an engine, and every simulation raise too: no default mains temperature ever gets into a result.", "quantifier": "every system class, system, profile, schedule, control map, slope and simulation length", "why_tests_cant": "Nine call paths look up the inlet temperature separately and the simulator substitutes 50 F while initialising the tanks; a test checks one path.", "anchors": ["src/ecoengine/objects/dhwsystems/DHWSystem.py: DHWSystem._require_design_inlet_temp, DHWSystem.size, get_sizing_curve, get_ls_sizing_curve", "src/ecoengine/interfaces/Simulator.py: simulate", "src/ecoengine/objects/building/Building.py: Building.get_design_inlet_water_temp_f, get_oat_f"]}
{"id": "C93", "title": "The loop's share of a sized capacity", "statement": "A single-pass return-to-primary system refuses to report the recirculation share of its capacity (RuntimeError) exactly while no size() on it has succeeded, whatever sizings were tried; from then on it reports the heat the loop loses in a day, spread over the configured run hours and raised for defrost. Without load shifting that is exactly what the loop adds to the capacity of a system without one sized for the same building, and in every case it is at most the capacity. With load shifting it is not what the loop adds, and where shed hours leave less time than the configured run hours it falls short of the loop's daily loss: the capacity is sized for the hours outside shed but the share is computed after the run hours have been restored.", "quantifier": "every sequence of size() calls with any buildings, schedules, controls, slopes and fractions, succeeding or failing, and every loop", "why_tests_cant": "The claim is about all histories of calls on one object, including failing ones, over a continuum of temperatures and flows.", "anchors": ["src/ecoengine/objects/dhwsystems/rtp_systems/SinglePassRTPSystem.py: SinglePassRTPSystem.size, get_recirc_capacity_kbtuh", "src/ecoengine/objects/dhwsystems/DHWSystem.py: DHWSystem.size"]}
