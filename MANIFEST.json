{
 "claims": [
  {
   "property": "C01",
   "status": "proved",
   "theorems": [
    "C01_day_conserved",
    "C01_cycle_conserved",
    "C01_non_divisor_refuted"
   ],
   "note": ""
  },
  {
   "property": "C02",
   "status": "proved",
   "theorems": [
    "C02_load_of_its_hour",
    "C02_every_step_has_a_load",
    "C02_every_step_has_an_hour",
    "C02_periodic",
    "C02_nonneg"
   ],
   "note": ""
  },
  {
   "property": "C03",
   "status": "proved",
   "theorems": [
    "C03_validation_exact",
    "C03_named_type",
    "C03_named_type_rejects",
    "C03_shape_only",
    "C03_shape_only_unvalidated_refuted",
    "C03_shipped_valid",
    "C03_shape_only_building",
    "C03_shape_in_gallons",
    "C03_shape_needed"
   ],
   "note": ""
  },
  {
   "property": "C04",
   "status": "proved",
   "theorems": [
    "C04_sum_of_parts",
    "C04_annual_ignored",
    "C04_builds",
    "C04_counts",
    "C04_first_error"
   ],
   "note": ""
  },
  {
   "property": "C05",
   "status": "proved",
   "theorems": [
    "C05_history",
    "C05_annual_daily_round_trip",
    "C05_daily_annual_round_trip",
    "C05_other_types_rejected",
    "C05_is_annual_reports",
    "C05_custom_lost_refuted"
   ],
   "note": ""
  },
  {
   "property": "C06",
   "status": "proved",
   "theorems": [
    "C06_oat_of_its_hour",
    "C06_inlet_of_its_month",
    "C06_every_step_dated",
    "C06_yearly",
    "C06_constant"
   ],
   "note": ""
  },
  {
   "property": "C07",
   "status": "proved",
   "theorems": [
    "C07_design_oat_lower_bound",
    "C07_design_inlet_lower_bound",
    "C07_design_oat_attained",
    "C07_design_inlet_attained",
    "C07_building"
   ],
   "note": ""
  },
  {
   "property": "C08",
   "status": "proved",
   "theorems": [
    "C08_partition",
    "C08_available",
    "C08_engine",
    "C08_engine_ambiguous"
   ],
   "note": ""
  },
  {
   "property": "C09",
   "status": "proved",
   "theorems": [
    "C09_accepted_iff",
    "C09_rejected",
    "C09_covers_year",
    "C09_empty_accepted_refuted"
   ],
   "note": ""
  },
  {
   "property": "C10",
   "status": "proved",
   "theorems": [
    "C10_hour_billed",
    "C10_case_unique",
    "C10_period_identity",
    "C10_period_month"
   ],
   "note": ""
  },
  {
   "property": "C11",
   "status": "proved",
   "theorems": [
    "C11_round_trip",
    "C11_discount_round_trip",
    "C11_flags_refuted",
    "C11_missing_rate",
    "C11_dates",
    "C11_hourly_rates_refuted"
   ],
   "note": ""
  },
  {
   "property": "C12",
   "status": "proved",
   "theorems": [
    "C12_total",
    "C12_unknown_key",
    "C12_keys",
    "C12_beyond_year",
    "C12_missing_rate_refuted"
   ],
   "note": ""
  },
  {
   "property": "C13",
   "status": "proved",
   "theorems": [
    "C13_annual_cost",
    "C13_total",
    "C13_beyond_year"
   ],
   "note": ""
  },
  {
   "property": "C14",
   "status": "proved",
   "theorems": [
    "C14_sums_to_annual",
    "C14_booked",
    "C14_csv_periods_refuted"
   ],
   "note": ""
  },
  {
   "property": "C15",
   "status": "proved",
   "theorems": [
    "C15_sums_to_primary_cost",
    "C15_no_maintenance",
    "C15_under_reports",
    "C15_maintenance_omitted_refuted"
   ],
   "note": ""
  },
  {
   "property": "C16",
   "status": "proved",
   "theorems": [
    "C16_total",
    "C16_additive",
    "C16_nonneg",
    "C16_monthly",
    "C16_monthly_total",
    "C16_maintenance_omitted_refuted",
    "C16_peak_demand",
    "C16_annual_estimate",
    "C16_estimate_of_short_run"
   ],
   "note": ""
  },
  {
   "property": "C17",
   "status": "proved",
   "theorems": [
    "C17_stops_exactly",
    "C17_durations",
    "C17_terminates"
   ],
   "note": ""
  },
  {
   "property": "C18",
   "status": "proved",
   "theorems": [
    "C18_outage_minutes",
    "C18_message",
    "C18_stopped_yet_successful_refuted",
    "C18_initial_fraction",
    "C18_zero_inlet_refuted"
   ],
   "note": ""
  },
  {
   "property": "C19",
   "status": "proved",
   "theorems": [
    "C19_aligned_iff",
    "C19_always_reported",
    "C19_shifted_refuted",
    "C19_parallel_power_missing_refuted",
    "C19_swing_aligned"
   ],
   "note": ""
  },
  {
   "property": "C20",
   "status": "proved",
   "theorems": [
    "C20_stratified_temperatures_physical"
   ],
   "note": ""
  },
  {
   "property": "C21",
   "status": "proved",
   "theorems": [
    "C21_average_draw_is_mean",
    "C21_average_draw_antitone"
   ],
   "note": ""
  },
  {
   "property": "C22",
   "status": "proved",
   "theorems": [
    "C22_usable_volume_is_measure",
    "C22_level_length_unique",
    "C22_usable_volume_bounded",
    "C22_usable_volume_antitone",
    "C22_over_reports_above_outlet_refuted",
    "C22_under_reports_below_inlet_refuted",
    "C22_initial_profile"
   ],
   "note": ""
  },
  {
   "property": "C23",
   "status": "proved",
   "theorems": [
    "C23_draw_removes_delivered_heat",
    "C23_oversized_draw_empties_tank"
   ],
   "note": ""
  },
  {
   "property": "C24",
   "status": "proved",
   "theorems": [
    "C24_heating_never_removes_heat",
    "C24_heating_amount",
    "C24_recirculation_never_adds_heat",
    "C24_draw_never_adds_heat",
    "C24_draw_creates_heat_refuted"
   ],
   "note": ""
  },
  {
   "property": "C25",
   "status": "proved",
   "theorems": [
    "C25_draw_heat_balance",
    "C25_draw_nearly_cold",
    "C25_heating_heat_balance",
    "C25_fixed_loss_heat_balance",
    "C25_inflow_heat_balance",
    "C25_physical_draw_heat_balance",
    "C25_recirculation_heat_balance",
    "C25_stays_between_sources",
    "C25_recirculating_more_than_volume_refuted",
    "C25_usable_volume",
    "C25_one_temperature"
   ],
   "note": ""
  },
  {
   "property": "C26",
   "status": "proved",
   "theorems": [
    "C26_heating_ignores_outlet_temperature",
    "C26_heating_cap_refuted"
   ],
   "note": ""
  },
  {
   "property": "C27",
   "status": "proved",
   "theorems": [
    "C27_profile_holds_stored_energy",
    "C27_profile_monotone_and_bounded",
    "C27_profile_total",
    "C27_average_draw_is_mean",
    "C27_usable_volume_is_measure"
   ],
   "note": ""
  },
  {
   "property": "C28",
   "status": "proved",
   "theorems": [
    "C28_energy_between_empty_and_full",
    "C28_energy_never_negative",
    "C28_new_tank_fills",
    "C28_warmer_inlet_exceeds_full_refuted"
   ],
   "note": ""
  },
  {
   "property": "C29",
   "status": "proved",
   "theorems": [
    "C29_lifecycle_invariant",
    "C29_queries_see_the_slug",
    "C29_adding_mixes",
    "C29_heating_warms_the_slug",
    "C29_draws_act_on_the_slug",
    "C29_deactivation_returns_heat",
    "C29_activation_round_trip",
    "C29_idempotent",
    "C29_documented_caps_refuted",
    "C29_average_above_hottest_refuted",
    "C29_usable_volume",
    "C29_average_with_slug"
   ],
   "note": ""
  },
  {
   "property": "C30",
   "status": "proved",
   "theorems": [
    "C30_one_update",
    "C30_update_succeeds",
    "C30_no_controls_raises",
    "C30_latch",
    "C30_triggers_exclusive",
    "C30_conflicting_triggers_toggle"
   ],
   "note": ""
  },
  {
   "property": "C31",
   "status": "proved",
   "theorems": [
    "C31_output",
    "C31_nominal_constant",
    "C31_real_maps_need_outdoor_temperature",
    "C31_outlet"
   ],
   "note": ""
  },
  {
   "property": "C32",
   "status": "proved",
   "theorems": [
    "C32_linear_between_brackets",
    "C32_exact_at_brackets",
    "C32_between_neighbours",
    "C32_power_continuous",
    "C32_resistance_below_table",
    "C32_resistance_below_table_without_nominal",
    "C32_fallback_is_zero_without_nominal_refuted",
    "C32_single_bracket",
    "C32_operating_bounds"
   ],
   "note": ""
  },
  {
   "property": "C33",
   "status": "proved",
   "theorems": [
    "C33_cop_is_output_over_input",
    "C33_units_scale_polynomial_maps",
    "C33_units_scale_tabulated_maps",
    "C33_fallback_scales_with_units_refuted"
   ],
   "note": ""
  },
  {
   "property": "C34",
   "status": "proved",
   "theorems": [
    "C34_nearest_outdoor",
    "C34_nearest_inlet",
    "C34_nearest_outlet",
    "C34_nearest_outlet_always_refuted",
    "C34_fallback_source",
    "C34_operating_bounds",
    "C34_inlet_clipped",
    "C34_heat_exchanger",
    "C34_always_answers",
    "C34_never_short",
    "C34_simulated"
   ],
   "note": ""
  },
  {
   "property": "C35",
   "status": "proved",
   "theorems": [
    "C35_never_runs_out",
    "C35_tolerance_refuted"
   ],
   "note": ""
  },
  {
   "property": "C36",
   "status": "proved",
   "theorems": [
    "C36_minimal"
   ],
   "note": ""
  },
  {
   "property": "C37",
   "status": "proved",
   "theorems": [
    "C37_capacity_balance",
    "C37_capacity_balance_rtp",
    "C37_monotone",
    "C37_load_shift_rtp",
    "C37_loop_counted_twice"
   ],
   "note": ""
  },
  {
   "property": "C38",
   "status": "proved",
   "theorems": [
    "C38_factor_is_integral",
    "C38_no_controls",
    "C38_without_normal",
    "C38_storage_times_factor",
    "C38_trigger_above_storage_refuted",
    "C38_average_hot"
   ],
   "note": ""
  },
  {
   "property": "C39",
   "status": "proved",
   "theorems": [
    "C39_first_block_exact",
    "C39_capacity_at_least_normal",
    "C39_storage_at_least_same_hours",
    "C39_storage_less_refuted",
    "C39_shed_window_covered",
    "C39_second_block_refuted",
    "C39_load_up_rate",
    "C39_no_shed_hour_fails",
    "C39_run_hours",
    "C39_share_is_surplus",
    "C39_share_of_long_ramp_refuted",
    "C39_load_up_setting",
    "C39_load_up_setting_rate",
    "C39_loop_shed_window"
   ],
   "note": ""
  },
  {
   "property": "C40",
   "status": "proved",
   "theorems": [
    "C40_size_keeps_system",
    "C40_size_keeps_daily_building",
    "C40_size_restores_annual",
    "C40_size_error_loses_annual",
    "C40_size_annual_error_refuted",
    "C40_curve_restores",
    "C40_ls_curve_restores",
    "C40_boost_restored",
    "C40_swing_size_keeps_system",
    "C40_swing_curve_keeps_system"
   ],
   "note": ""
  },
  {
   "property": "C41",
   "status": "proved",
   "theorems": [
    "C41_well_formed",
    "C41_points_agree_with_size",
    "C41_trade_off",
    "C41_swing_points_agree_with_size",
    "C41_swing_well_formed",
    "C41_swing_curve_succeeds",
    "C41_no_gap",
    "C41_complete",
    "C41_swing_no_gap",
    "C41_swing_complete"
   ],
   "note": ""
  },
  {
   "property": "C42",
   "status": "proved",
   "theorems": [
    "C42_fraction_monotone",
    "C42_fraction_defined",
    "C42_curve_well_formed",
    "C42_points_agree_with_size",
    "C42_capacity_never_decreases",
    "C42_recommended_nearest"
   ],
   "note": ""
  },
  {
   "property": "C43",
   "status": "proved",
   "theorems": [
    "C43_stays_at_supply",
    "C43_trajectory_unique",
    "C43_sizing_succeeds",
    "C43_full_draw_refuted",
    "C43_cold_raises"
   ],
   "note": ""
  },
  {
   "property": "C44",
   "status": "proved",
   "theorems": [
    "C44_draw_at_most_demand",
    "C44_sized_for_every_probed_day",
    "C44_load_shift_at_least_normal"
   ],
   "note": ""
  },
  {
   "property": "C45",
   "status": "proved",
   "theorems": [
    "C45_smallest_adequate",
    "C45_too_large_rejected",
    "C45_safety_factor"
   ],
   "note": ""
  },
  {
   "property": "C46",
   "status": "proved",
   "theorems": [
    "C46_er_closes_worst_shortfall",
    "C46_sizing_succeeds",
    "C46_annual_never_sized",
    "C46_points_restore",
    "C46_points_shape",
    "C46_points_error_refuted",
    "C46_points_index_refuted"
   ],
   "note": ""
  },
  {
   "property": "C47",
   "status": "proved",
   "theorems": [
    "C47_rejects",
    "C47_sized",
    "C47_run_time",
    "C47_unsized",
    "C47_advice_refuted"
   ],
   "note": ""
  },
  {
   "property": "C48",
   "status": "proved",
   "theorems": [
    "C48_heat",
    "C48_regimes",
    "C48_answers",
    "C48_cold_storage",
    "C48_raises",
    "C48_raises_in_range"
   ],
   "note": ""
  },
  {
   "property": "C49",
   "status": "proved",
   "theorems": [
    "C49_sized",
    "C49_restores",
    "C49_rejects",
    "C49_completes",
    "C49_boost",
    "C49_sensor_below_inlet",
    "C49_boost_rounds",
    "C49_round_determined",
    "C49_trial_start"
   ],
   "note": ""
  },
  {
   "property": "C50",
   "status": "proved",
   "theorems": [
    "C50_heat",
    "C50_capacity",
    "C50_always_fails",
    "C50_completes"
   ],
   "note": ""
  },
  {
   "property": "C51",
   "status": "proved",
   "theorems": [
    "C51_schedule",
    "C51_no_schedule",
    "C51_short_schedule",
    "C51_accepts",
    "C51_settings",
    "C51_labelled",
    "C51_missing_load_up_raises",
    "C51_has_heaters"
   ],
   "note": ""
  },
  {
   "property": "C52",
   "status": "proved",
   "theorems": [
    "C52_dispatch",
    "C52_names_unambiguous",
    "C52_unknown_rejected",
    "C52_missing_recirc",
    "C52_missing_equipment",
    "C52_presized_builds",
    "C52_parts",
    "C52_presized_heaters",
    "C52_presized_results",
    "C52_sized_ignores_equipment",
    "C52_run_hours_ignored",
    "C52_run_hours_kept",
    "C52_tm_thresholds",
    "C52_swing_element",
    "C52_parallel_loop",
    "C52_swing_tank",
    "C52_multi_pass_tank",
    "C52_magnitude"
   ],
   "note": ""
  },
  {
   "property": "C53",
   "status": "proved",
   "theorems": [
    "C53_formula",
    "C53_measured",
    "C53_answer",
    "C53_rejects",
    "C53_derate",
    "C53_answers_exactly",
    "C53_not_negative"
   ],
   "note": ""
  },
  {
   "property": "C54",
   "status": "proved",
   "theorems": [
    "C54_members",
    "C54_order",
    "C54_partition",
    "C54_total",
    "C54_shipped"
   ],
   "note": ""
  },
  {
   "property": "C55",
   "status": "proved",
   "theorems": [
    "C55_every_step_physical",
    "C55_heating",
    "C55_tank_operations",
    "C55_completes",
    "C55_top_never_below_supply",
    "C55_never_stops_early",
    "C55_dead_heater_goes_unnoticed_refuted"
   ],
   "note": ""
  },
  {
   "property": "C56",
   "status": "proved",
   "theorems": [
    "C56_zone_column",
    "C56_zone_out_of_range",
    "C56_lookup",
    "C56_zone_zero_refuted"
   ],
   "note": ""
  },
  {
   "property": "C57",
   "status": "proved",
   "theorems": [
    "C57_listing_exact",
    "C57_listed_resolves",
    "C57_shipped_stations"
   ],
   "note": ""
  },
  {
   "property": "C58",
   "status": "proved",
   "theorems": [
    "C58_csv_rows"
   ],
   "note": ""
  },
  {
   "property": "C59",
   "status": "proved",
   "theorems": [
    "C59_every_step_physical",
    "C59_step",
    "C59_completes"
   ],
   "note": ""
  },
  {
   "property": "C60",
   "status": "proved",
   "theorems": [
    "C60_bounds",
    "C60_heat_balance",
    "C60_usable",
    "C60_completes",
    "C60_small_element_refuted"
   ],
   "note": ""
  },
  {
   "property": "C61",
   "status": "proved",
   "theorems": [
    "C61_band",
    "C61_never_turns_off",
    "C61_primary",
    "C61_completes",
    "C61_annual_overshoot_refuted"
   ],
   "note": ""
  },
  {
   "property": "C62",
   "status": "proved",
   "theorems": [
    "C62_bounds",
    "C62_completed",
    "C62_step",
    "C62_fails_only_there",
    "C62_drained_raises",
    "C62_top_sensor_refuted",
    "C62_completes_refuted",
    "C62_oat_refuted"
   ],
   "note": ""
  },
  {
   "property": "C63",
   "status": "proved",
   "theorems": [
    "C63_warns_exactly",
    "C63_silent_without_lift",
    "C63_zero_capacity_raises"
   ],
   "note": ""
  },
  {
   "property": "C64",
   "status": "proved",
   "theorems": [
    "C64_location",
    "C64_unique",
    "C64_rejects",
    "C64_integer_zip_refuted",
    "C64_shipped",
    "C64_shipped_sites",
    "C64_frozen_mains_refuted",
    "C64_multi_family_needs_gpdpp"
   ],
   "note": ""
  },
  {
   "property": "C65",
   "status": "proved",
   "theorems": [
    "C65_runs_its_system",
    "C65_reported",
    "C65_same_plant",
    "C65_completes",
    "C65_multi_pass",
    "C65_shipped_models",
    "C65_shipped_multi_pass"
   ],
   "note": ""
  },
  {
   "property": "C66",
   "status": "proved",
   "theorems": [
    "C66_repeatable",
    "C66_new_off",
    "C66_repeat_refuted"
   ],
   "note": ""
  },
  {
   "property": "C67",
   "status": "proved",
   "theorems": [
    "C67_building",
    "C67_capacity",
    "C67_storage",
    "C67_shed_window",
    "C67_maintenance",
    "C67_sizes",
    "C67_swing",
    "C67_loop_shed_window"
   ],
   "note": ""
  },
  {
   "property": "C68",
   "status": "proved",
   "theorems": [
    "C68_figure",
    "C68_unchanged",
    "C68_marks_size",
    "C68_shift",
    "C68_multi_pass",
    "C68_multi_pass_sized",
    "C68_off_the_curve",
    "C68_replot",
    "C68_marks_size_refuted",
    "C68_swing_not_below_normal"
   ],
   "note": ""
  },
  {
   "property": "C69",
   "status": "proved",
   "theorems": [
    "C69_refused",
    "C69_stacks",
    "C69_traces"
   ],
   "note": ""
  },
  {
   "property": "C70",
   "status": "proved",
   "theorems": [
    "C70_lines",
    "C70_no_interval",
    "C70_blocks",
    "C70_instants",
    "C70_engine",
    "C70_hours",
    "C70_unshaded"
   ],
   "note": ""
  },
  {
   "property": "C71",
   "status": "proved",
   "theorems": [
    "C71_never_runs_out",
    "C71_design_day",
    "C71_sized_plus_margin",
    "C71_sized_lasts_refuted"
   ],
   "note": ""
  },
  {
   "property": "C72",
   "status": "proved",
   "theorems": [
    "C72_storage_positive",
    "C72_sized_simulates",
    "C72_sized_simulates_refuted"
   ],
   "note": ""
  },
  {
   "property": "C73",
   "status": "proved",
   "theorems": [
    "C73_components",
    "C73_unrated_refused",
    "C73_components_simulate",
    "C73_sized_parts",
    "C73_sized_simulates",
    "C73_accessors",
    "C73_not_sized",
    "C73_figure",
    "C73_figure_exists",
    "C73_figure_refuted"
   ],
   "note": ""
  },
  {
   "property": "C74",
   "status": "proved",
   "theorems": [
    "C74_ample_element",
    "C74_sized_element_refuted"
   ],
   "note": ""
  },
  {
   "property": "C75",
   "status": "proved",
   "theorems": [
    "C75_reports_last",
    "C75_never_sized",
    "C75_sizing_answers",
    "C75_raised",
    "C75_raised_refuted",
    "C75_curves",
    "C75_outage",
    "C75_outage_refuted",
    "C75_swing_reports_last",
    "C75_swing_mixed_refuted",
    "C75_components_kept"
   ],
   "note": ""
  },
  {
   "property": "C76",
   "status": "proved",
   "theorems": [
    "C76_swing_never_runs_out",
    "C76_demand_covered",
    "C76_design_day"
   ],
   "note": ""
  },
  {
   "property": "C77",
   "status": "proved",
   "theorems": [
    "C77_never_below_resistance",
    "C77_query_positive",
    "C77_forty",
    "C77_hot_air_refuted",
    "C77_completes",
    "C77_simulated",
    "C77_run_cop",
    "C77_cop_at_most",
    "C77_cop_twelve_refuted",
    "C77_energy_is_used",
    "C77_swing_energy_is_used"
   ],
   "note": ""
  },
  {
   "property": "C78",
   "status": "proved",
   "theorems": [
    "C78_lasts",
    "C78_rest",
    "C78_shed_off_refuted",
    "C78_design_day",
    "C78_shed_hours"
   ],
   "note": ""
  },
  {
   "property": "C79",
   "status": "proved",
   "theorems": [
    "C79_run",
    "C79_rest",
    "C79_estimate",
    "C79_unwarned",
    "C79_sized_heaters"
   ],
   "note": ""
  },
  {
   "property": "C80",
   "status": "proved",
   "theorems": [
    "C80_sized",
    "C80_succeeds"
   ],
   "note": ""
  },
  {
   "property": "C81",
   "status": "proved",
   "theorems": [
    "C81_summary"
   ],
   "note": ""
  },
  {
   "property": "C82",
   "status": "proved",
   "theorems": [
    "C82_figure",
    "C82_scaling",
    "C82_one_size",
    "C82_bounds",
    "C82_building",
    "C82_shipped"
   ],
   "note": ""
  },
  {
   "property": "C83",
   "status": "proved",
   "theorems": [
    "C83_built",
    "C83_builds",
    "C83_annual",
    "C83_shipped"
   ],
   "note": ""
  },
  {
   "property": "C84",
   "status": "proved",
   "theorems": [
    "C84_points",
    "C84_order",
    "C84_complete"
   ],
   "note": ""
  },
  {
   "property": "C85",
   "status": "proved",
   "theorems": [
    "C85_uniform_accepted",
    "C85_uniform_billing",
    "C85_discount_all_year",
    "C85_single_among_seasons"
   ],
   "note": ""
  },
  {
   "property": "C86",
   "status": "proved",
   "theorems": [
    "C86_hour",
    "C86_hour_any",
    "C86_billed",
    "C86_other_lengths_refuted"
   ],
   "note": ""
  },
  {
   "property": "C87",
   "status": "proved",
   "theorems": [
    "C87_drift",
    "C87_settles",
    "C87_sized",
    "C87_exact",
    "C87_unchanged_refuted",
    "C87_loop_volume"
   ],
   "note": ""
  },
  {
   "property": "C88",
   "status": "proved",
   "theorems": [
    "C88_keywords",
    "C88_from_size",
    "C88_from_components",
    "C88_from_components_refuted",
    "C88_placeholder_size",
    "C88_placeholder_simulation",
    "C88_simulated"
   ],
   "note": ""
  },
  {
   "property": "C89",
   "status": "proved",
   "theorems": [
    "C89_capacity",
    "C89_running",
    "C89_never_runs_out",
    "C89_minimal",
    "C89_exact_refuted",
    "C89_storage"
   ],
   "note": ""
  },
  {
   "property": "C90",
   "status": "proved",
   "theorems": [
    "C90_cycle_keeps_the_heat",
    "C90_order_does_not_matter",
    "C90_empty_slug_drops_heat_refuted",
    "C90_simulated_step",
    "C90_reported_output_refuted"
   ],
   "note": ""
  },
  {
   "property": "C91",
   "status": "proved",
   "theorems": [
    "C91_heat_is_made",
    "C91_shortage_shows",
    "C91_energy_is_used",
    "C91_overdraw_refuted",
    "C91_swing_heat_is_made",
    "C91_swing_shortage_shows",
    "C91_swing_energy_is_used",
    "C91_plant_energy",
    "C91_swing_plant_energy"
   ],
   "note": ""
  },
  {
   "property": "C92",
   "status": "proved",
   "theorems": [
    "C92_size",
    "C92_swing_size",
    "C92_multipass_size",
    "C92_instant_size",
    "C92_from_size",
    "C92_curves",
    "C92_simulate"
   ],
   "note": ""
  },
  {
   "property": "C93",
   "status": "proved",
   "theorems": [
    "C93_reports",
    "C93_is_what_the_loop_adds",
    "C93_within_capacity",
    "C93_short_under_load_shift",
    "C93_load_shift_refuted"
   ],
   "note": ""
  }
 ]
}