C01 | proved | C01_clock_advances_one_normal_step | any number type
C02 | proved | C02_clock_advances_by_executed_steps, C02_time_can_be_lost | loss witnessed on a binary64 run
C03 | proved | C03_one_record_per_data_step | any number type
C04 | proved | C04_one_record_per_run_step, C04_record_is_the_state | any number type
C05 | proved | C05_subdivision_policy, C05_no_coarse_step_on_thin_pack, C05_recursion_stops | any number type
C06 | proved | C06_precipitation_is_shared_out, C07_records_of_a_run | reals; any state of the model object
C07 | proved | C07_forcing_is_interpolated_linearly, C07_records_of_a_run | reals; any state; complete law for the clipped vapour pressure
C08 | proved | C08_only_the_first_record_changes, C08_records_reach_their_step_unchanged | any number type; records as heap objects with references, refinement to the by-value model, also for runs that raise
C09 | proved | C09_vapour_pressure_is_clipped | reals; every run step over snow of every run
C10 | proved | C10_energy_columns_are_time_weighted_means | reals; every output record of every run, both modes
C11 | proved | C11_mass_columns_are_totals | reals; every output record of every run, both modes
C12 | proved | C12_precipitation_phase | reals
C13 | proved | C13_only_snow_without_density_is_rejected, C13_over_the_reals | any number type
C14 | proved | C14_layer_partition | reals
C15 | proved | C15_layer_bookkeeping | reals; every run step and every output record of every run
C16 | proved | C16_mass_balance_of_a_run_step, C16_mass_balance_of_consecutive_records | reals
C17 | proved | C17_bare_ground_passes_precipitation | reals
C18 | proved | C18_surplus_when_a_pack_forms, C18_surplus_when_a_pack_disappears | reals
C19 | proved | C19_water_is_not_negative | reals
C20 | proved | C20_cold_content_is_never_positive | reals; run steps that start above 0 K
C21 | proved | C21_snow_is_never_warmer_than_freezing | reals; run steps that start above 0 K
C22 | proved | C22_density_limit | reals
C23 | proved | C23_ageing, C23_liquid_water | each densification routine keeps mass, never lowers density, keeps the layer structure; over the reals
C24 | proved | C24_energy_budget_closes | reals; every output record of every run
C25 | proved | C25_no_snow_no_exchange, C25_bare_ground_never_raises, C25_snow_free_runs_complete | over the reals
C26 | proved | C26_melt_and_refreezing_conserve_energy | per layer: cold content + energy = new cold content + melt - refreezing latent heat; over the reals
C27 | proved | C27_bare_ground_record, C27_depth_of_the_bare_ground_record | reals
C28 | proved | C28_snow_state_reads_are_current, C28_vapour_pressures_are_current, C28_direct_depth_assignment_is_not_seen, C28_input_reads_are_current | any number type; histories of assignments and reads on the objects with their caches
C29 | proved | C29_status_is_always_zero, C29_not_converged_is_never_raised, C29_unconverged_calls_return_normally | any number type; unconverged case witnessed on binary64
C30 | proved | C30_neutral_stability_raises | reals
C31 | proved | C31_guards, C31_buried_sensor_raises | reals
C32 | proved | C32_stable_air, C32_latent_heat_has_the_sign_of_the_vapour_flux, C32_in_the_model | reals
C33 | proved | C33_saturation_vapour_pressure, C33_formulas, C33_ice_within_tolerance | reals
C34 | proved | C34_air_pressure | reals
C35 | proved | C35_conduction_goes_from_warm_to_cold | reals
C36 | proved | C36_vapour_diffusion_adds_conductivity, C36_formula | reals
C37 | proved | C37_specific_humidity_and_virtual_temperature | reals
C38 | proved | C38_initial_pack_stops_the_run | over the reals; any error counts as raising
C39 | proved | C39_relative_heights_has_no_effect, C39_heights_are_always_above_ground | any arithmetic
C40 | proved | C40_input_window, C40_file_order_is_irrelevant, C40_reversed_file_is_clipped_short, C40_number_and_dates_of_results, C40_results_at_record_times | any arithmetic; dates are integers (minutes)
C41 | proved | C41_prefix_of_the_run, C41_ending_earlier_gives_a_prefix | any arithmetic
C42 | proved | C42_completed_runs_write_everything, C42_a_failing_step_writes_nothing, C42_unusable_input_raises | any arithmetic; a raise is modelled as no file written
C43 | proved | C43_columns, C43_every_line | any arithmetic; the text formatting of the numbers is not modelled
C44 | proved | C44_gridded_layers_cannot_run, C44_same_depths_if_assignable, C44_active_depth_with_zero_threshold | reals
C45 | proved | C45_ageing_increment, C45_heavy_packs_age_per_step, C45_subdivision_ages_heavy_packs_more | below 2000 kg/m2 the increment is proportional to the step, above it is per step whatever its length
C46 | proved | C46_water_is_never_lost, C46_water_is_never_lost_in_a_run | reals
C47 | proved | C47_stale_water_runs_off_again_and_again | reals
C48 | proved | C48_stable_fluxes_stay_below_neutral | reals
C49 | proved | C49_unconverged_fluxes_can_go_the_wrong_way | binary64 witness
C50 | proved | C50_layer_changes_and_cold_content, C50_merging_forgets | for ageing and for any change of depth and mass; over the reals
C51 | proved | C51_what_stops_a_run_step, C51_calm_dry_run_steps_return, C51_stable_dry_run_steps_return | over the reals
C52 | proved | C52_when_a_pack_forms | over the reals
C53 | proved | C53_same_temperatures, C53_opposite_cold_contents, C53_same_conductivity_and_dry_density | reals
C54 | proved | C54_why_a_pack_disappears, C54_packs_stay | reals
C55 | proved | C55_melt_is_paid_for, C55_cold_snow_does_not_melt | reals; hypotheses met by Witness2.w_second
C56 | proved | C56_vapour_exchange | reals; hypotheses met by Witness2.w_second
C57 | proved | C57_energy_terms, C57_conduction_goes_from_warm_to_cold, C57_conduction_formulas | reals; hypotheses met by Witness2.w_second, C57_formulas_witness
C58 | proved | C58_still_air | reals; run of Witness3 (C58_witness)
C59 | proved | C59_stable_air | reals; run of Witness3 (C59_witness)
C60 | proved | C60_runoff_only_from_a_saturated_pack | reals; run of Witness2 (C60_C61_C62_witness)
C61 | proved | C61_cold_shallow_pack_is_dry, C61_cold_deep_pack_is_dry, C61_dry_pack_stores_the_energy | reals; run of Witness2 (C60_C61_C62_witness); the hypotheses of the two-layer form are not met by that run
C62 | proved | C62_temperatures_follow_cold_content, C62_below_freezing_iff_cold | reals; run of Witness2 (C60_C61_C62_witness)
C63 | proved | C63_output_mode_only_selects | reals; both files of a run exist in C63_witness, binary64 runs over snow thin_run and thin_run_all
C64 | proved | C64_results_do_not_depend_on_the_calendar | any Num (so reals and binary64); C64_runs_exist
C65 | proved | C65_last_precipitation_is_ignored, C65_files | any Num (so reals and binary64); C65_hypotheses_met
C66 | proved | C66_more_radiation_never_melts_less | reals; C66_witness (a run reaches a state from which the step returns under any radiation)
C67 | proved | C67_formatted_file, C67_order_is_kept | reals (so no negative zero, inf, nan); C67_witness, fixed_example, sci_example
C68 | proved | C68_depth_grows_only_by_what_is_added, C68_depth_never_grows_in_a_dry_spell | reals; C68_witness
C69 | proved | C69_a_new_pack_is_the_snowfall | reals; C69_witness
C70 | proved | C70_fluxes, C70_fluxes_of_a_run_step | reals; C70_witness, C70_converging_call (binary64)
C71 | proved | C71_law_of_a_run_step, C71_quiet_step | reals; the amounts refrozen are existentially quantified; C71_witness
C72 | proved | C72_time_stands_still, C72_for_ever, C72_first_data_step_raises | any number type; C72_witness, C72_first_step are binary64 runs with steps 60/15/30 min
C73 | proved | C73_water_budget_of_the_files | reals; C73_witness
C74 | proved | C74_water_balances_from_line_to_line | reals; C74_witness
C75 | proved | C75_every_line_is_sensible | reals; non-negative mass is not claimed: it is false, see C76; C75_witness
C76 | proved | C76_runoff_is_water_at_hand, C76_mass_stays_positive, C76_light_packs_go, C76_negative_snow_is_written | reals; the last is a binary64 run; C76_witness_reals
C77 | proved | C77_unshared_cells_are_points, C77_value_to_bar_cells_are_points, C77_zero_grid_is_overwritten, C77_set_zeros_sets_the_sum, C77_amounts_are_doubled | any number type; rests on xarray's in-place +=; C77_witness_sharing, C77_witness_unshared
C78 | proved | C78_snow_in_the_file_is_cold | reals; 'all' mode, bare start, no line below absolute zero; C79_witness meets the hypotheses
C79 | proved | C79_melt_is_paid_for_line_by_line, C79_energy_budget_of_a_part, C79_all_melt_is_paid_for | reals; same hypotheses as C78; C79_witness
C80 | proved | C80_bare_ground_forgets, C80_bare_ground_forgets_in_runs, C80_a_snow_free_beginning_can_be_left_out | the first for every number type, the others over the reals; C80_witness; bare_ground_forgets_in_floats shows that the iteration start values do matter
C81 | proved | C81_a_run_starts_from_the_configured_pack | reals; C81_witness; that such a pack then stops the run is C38
C82 | proved | C82_array_saturation_vapour_pressure, C82_array_saturation_over_water, C82_positive_temperatures_have_a_pressure | the first two for every number type, the third over the reals; entries exactly 0 (inf in numpy) and the array branch of hle1 are not covered; C82_witness
C83 | proved | C83_construction_needs, C83_construction_raises, C83_no_measurement_heights, C83_run_raises, C83_run_needs | name and method lookup only: what the methods found then do is arbitrary; C83_witness
C84 | proved | C84_running_water_budget, C84_snow_comes_from_the_sky, C84_snow_comes_from_the_sky_in_summaries, C84_no_snow_from_nowhere | reals; C84_witness
C85 | proved | C85_dates_only_select_and_order | every number type; C85_witness (a gap of seven hours); the dates of the lines are those of C40
C86 | proved | C86_no_precipitation_no_effect, C86_over_the_reals, C86_missing_precipitation_is_none | the first for every number type, the third for binary64 and every configuration (nan and zero amounts); C86_witness
C87 | proved | C87_weather_before_the_first_snowfall, C87_weather_in_the_file, C87_over_the_reals | the first two for every number type (also nan in binary64); C87_witness
C88 | proved | C88_run_steps_in_double_precision, C88_snow_is_cold_in_double_precision, C88_melt_column_in_double_precision | binary64 with arbitrary exp, log, pow, sqrt, cos, atan; comparisons as the code makes them, which a nan passes; C88_witness
C89 | proved | C89_fixed_offset_zones_agree, C89_zone_with_constant_offset_over_the_run, C89_dates_not_shown_exactly_once_raise, C89_records_across_a_clock_change_raise | for every number type; C89_witness, C89_change_met
C90 | proved | C90_columns_are_found_by_name, C90_order_and_further_columns_are_immaterial, C90_the_last_of_two_names_is_used, C90_missing_columns_raise | for every number type; C90_hypotheses_met, C90_runs_exist
C91 | proved | C91_run_after_any_calls, C91_run_can_be_called, C91_again, C91_file_changes_only_when_a_call_returns | for every number type; config and input file do not change meanwhile; C91_witness
C92 | proved | C92_snow_never_reaches_the_instruments, C92_mass_is_bounded_by_the_instruments, C92_initial_snow_leaves_the_instruments_free | over the reals; the only bound on depth in the program; the sensors are taken at fixed heights above the ground (relative_heights false as PySnobal sets it); C92_witness
C93 | proved | C93_no_file_with_a_finer_step_longer_than_normal, C93_over_the_reals, C93_in_binary64, C93_light_snow_is_not_simulated, C93_and_never_again, C93_no_file_from_a_light_pack | extends C72 (one data step, every later state) to whole files and to steps longer than the normal one; no validity hypotheses; the division by int(norm/fine) = 0 is a ZeroDivisionError because to_dict gives Python floats; slow_dates runs a file with three lines of the same date; C93_witness
C94 | proved | C94_shipped_defaults, C94_default_model, C94_default_snow, C94_default_heights, C94_snow_free_season, C94_short_normal_step, C94_pack_without_temperatures | over the reals; that inicheck casts the settings, lowers the keys and applies the default recipe is trusted; C94_witness, C94_witness_short, C94_witness_pack
C95 | proved | C95_second_record_unseen, C95_last_record_unseen, C95_forcing_stays_between | C95_bare_ground, C95_heavy_snow and C95_thin_snow run data steps in binary64: the first two do not see the second record, the last does
C96 | proved | C96_a_step_that_keeps_snow_drains, C96_lines_with_snow_show_runoff, C96_frost_stops_the_run | a division by zero ends the run of the model; for numpy scalars the code goes on with a saturation that is not a number (DESIGN section 1). C96_frost_witness meets the hypotheses of the third theorem; C96_hot_day_in_binary64 is a file of five lines with snow, melt and runoff, C96_frost_in_binary64 a division by zero that vanishes with max_h2o = 0.01
C97 | proved | C97_value_errors, C97_unbound_local, C97_any_other_error_is_a_division_by_zero, C97_when_a_run_step_raises_ValueError | over the reals; C97_low_sensor, C97_neutral and C97_step_witness are concrete cases
C98 | proved | C98_what_a_run_raises, C98_too_few_rows, C98_one_row | any arithmetic, binary64 included; C98_ends and C98_without_ordered_steps are concrete binary64 runs
C99 | proved | C99_what_precipitation_columns_say, C99_each_temperature_on_its_side, C99_rain_is_not_cold_and_snow_not_warm, C99_missing_density_spoils_the_water | any arithmetic and reals; C99_any_temperature_below_zero, C99_missing_density_wipes_out_the_snow and C99_witness in binary64, C99_witness_reals
C100 | proved | C100_any_fraction_is_accepted, C100_more_snow_than_falls, C100_more_snow_than_falls_in_a_data_step | reals; C100_witness, and C100_in_binary64 (percent_snow = 100: 25 kg/m2 of snow from 0.25 mm, runoff -24.75)
