# Formal model of pysnobal in Rocq (Coq 8.16.1)

## 1. Approach

The code under study is a numerical, stateful simulation written in Python.
The model is a shallow embedding: every Python function becomes a Gallina
function with the same branches in the same order, exceptions are values
(`Ok`/`Err`), object mutation becomes returning a new record.

* **Arithmetic is a parameter.**  `Num T` (theories/Num.v) is a record of bare
  operations (no laws).  The whole model is written once over an arbitrary
  `Num T`.
  * Theorems about control flow, scheduling, output, caching, causality are
    proved for *every* `Num T`, hence also for IEEE doubles with rounding and NaN.
  * Theorems about physics are proved for the instance `RNum` (Coq's reals):
    rounding error, overflow and NaN are *not* covered there.
  * The instance `FNum` (Coq primitive binary64 floats, theories/FloatNum.v)
    makes the very same model executable; theories/Gold.v replays rows of the
    repository's gold CSV files through it (a test of the reading of the code, not a proof).
* **Division by zero** is an `Err` in the model wherever the denominator is not
  a non-zero literal.  In Python it is a ZeroDivisionError or, for numpy scalars, a
  non-finite value; neither counts as a normal result: a theorem about a completed run of the
  model speaks of runs in which every division is defined.  The Obukhov length in `hle1`, where the
  code carries on with a non-finite value, is modelled with an `option`.  With max_h2o = 0 the code can
  also carry on with `h2o_sat` = 0/0 (numpy scalars warn and give NaN), where the model stops;
  C51 and C25 list what stops a run step (max_h2o > 0 is among C51's hypotheses), C96 says when max_h2o = 0 does.
* **Ghost trace.** The Snobal object of the model carries a ghost list of executed
  run steps; the code never reads it.  Properties about "run steps since the last
  output" are stated on it.

## 2. Files

Model (every definition cites the lines of /repo it models):

| file | models |
|------|--------|
| Num.v | arithmetic interface, `result` (values / exceptions) |
| Constants.v | core/constants.py |
| Functions.v | core/functions.py, core/snow.py |
| Libsnobal.v | point/libsnobal.py (satw, sati, spec_hum, psi, hle1, efcon, ssxfr) |
| Input.v | point/input.py (InputData, InputDeltas), by value |
| SnowState.v | point/snow_state.py, by value, caches recomputed |
| Snobal.v | point/snobal.py, every method |
| PySnobal.v | pysnobal.py: parse_time_steps, read_input_data, run, output_to_file |
| Format.v | pysnobal.py:355-387: the text of the numbers with format_output |
| Cache.v | the cached properties of SnowState and InputData (flags + stored values) |
| Heap.v | input records as heap objects with references, mutation in place, state after an exception |
| Spatial.v | spatial/isnobal.py calc_layers, spatial/snow_state.py temperatures |
| Grid.v | spatial/snow_state.py accumulation and derived properties; SnowState.__init__ and set_zeros on arrays |
| Arrays.v | the array versions of satw and sati |
| Gridded.v | construction and run of the gridded model: lookup of methods and names |
| TimeZone.v | time zones: tz_localize, dates as written |
| Columns.v | pysnobal.py: the input table with its header |
| Object.v | the attributes of a PySnobal object and the calls on it |
| Config.v | the defaults of pysnobal_core_config.ini and how the settings are read |
| FloatNum.v, Gold.v | binary64 instance; replay of 560 hours of the repository's regression year (a test) |

Specifications separate from the model: SchedSpec.v (run-step schedules), Spec.v
(valid set-ups and records, what a run is, storage, consecutive outputs), plus the small
definitions at the head of each Thm_*.v.  Proof libraries: Real, Sched, Frame, SchedProps,
Averages, Forcing, Phys, Turb, Turb2, Turb3, Mass, MassEnd, RunMass, Run, Progress, Progress2, MeltEnergy, Kept, Depth, Laws, Strip, Modes, and
Witness, Witness2, Witness3 (whole runs over the reals that meet the hypotheses).
Theorems: Thm_*.v.

## 3. Plan per property and how it was proved

| id | modelled | how |
|----|----------|-----|
| C01, C02 | parse_time_steps, divide_tstep, do_tstep | any Num; divide_tstep refines a schedule relation (SchedSpec), sum of executed steps; loss of time on a binary64 run |
| C03, C04 | output, divide_tstep | any Num; induction over executed run steps |
| C05 | below_thold, divide_tstep | any Num; ghost trace records the state at the start of each run step |
| C06, C07 | InputData, InputDeltas, do_tstep | R; induction over the schedule |
| C08 | Heap.v | any Num; refinement of the by-value model, frame property also under exceptions |
| C09 | h_le | R; for every executed run step |
| C10, C11 | time_average, value_to_bar, output | R; induction over the ghost trace since the last output |
| C12, C13 | InputData | R / any Num |
| C14 | calc_layers | R; case analysis against a declarative specification |
| C15, C19-C22, C27 | whole mass balance | R; one inductive invariant over run steps, lifted to runs |
| C16, C17, C18, C46, C47, C52 | mass balance | R; stage by stage mass accounting, lifted to runs |
| C23, C45 | time_compact, h2o_compact | R |
| C24, C25 | energy_balance, averages | R; C25 also a progress theorem for whole snow-free runs |
| C26 | snowmelt | R; per layer |
| C28 | Cache.v | any Num; state machine over operation histories |
| C29-C32, C48, C49 | hle1, psi | any Num / R; induction over the iteration; C49 binary64 |
| C33-C37 | core functions | R; monotonicity by derivatives; C33_formulas: the closed forms (Thm_Vapour.v) |
| C38, C39 | init, configuration | R / any Num |
| C40-C43 | read_input_data, run, output_to_file | any Num; lists, sorting |
| C54 | the reasons for the removal of a pack, carried by the run invariant (MassEnd.collapsed) | R |
| C44, C53 | gridded calc_layers, adjust_layer_temps | R |
| C50 | adj_layers, adj_snow | R |
| C55-C57 | energy_balance, snowmelt, evap_cond | R; energy accounted for stage by stage, lifted to runs by run_executes |
| C58, C59 | h_le, hle1 along runs | R; invariant of the warm-start pair over all runs, the iteration from any such pair |
| C60-C62 | mass_balance to its end: runoff, adjust_layer_temps | R; the stages of a step that keeps its pack (Kept.v), then runs |
| C63 | divide_tstep, do_tstep, output in both modes, output_to_file | R; every routine commutes with erasing the running means (Strip, any Num), relational induction over the recursion (Modes), then files |
| C64 | pysnobal_run, read_input_data, run_steps, output_to_file | any Num; the whole run commutes with shifting dates, routine by routine (Thm_Shift) |
| C65 | simulate, do_data_tstep, level_deltas, pysnobal_run | any Num; the deltas of a data step read no precipitation of the second record |
| C66 | do_tstep, energy_balance, snowmelt, mass_balance | R; two executions side by side: compaction and precipitation do not read the energy terms, melt is a maximum of zero and an affine function of the energy |
| C67 | Format: float_map, "%.kf" and "%.ke", format_output | R; decimal digits of N (value read back), rounding half to even, decimal exponent |
| C68 | do_tstep: mass_balance, precip_event, time_compact, snowmelt, evap_cond, adj_snow | R; each stage bounds the depth; saturation vapour pressure increases with temperature, so soil no warmer than the snow gives no vapour; induction over the spell |
| C69 | precip_event, init_snow, calc_layers | R; case analysis of the outcome of a run step that starts bare |
| C70 | hle1, psi, h_le | R; invariant of the iteration: the current fluxes are the profile for the current length, the length is that of the previous fluxes |
| C71 | mass_balance: every stage | R; each stage's effect on (depth, mass) as an exact function, composed; the two-branch density cap is a maximum |
| C72 | divide_tstep with medium < small, output | any number type; the integer quotient medium/small is 0, so the recursion runs no step; induction over data steps |
| C73 | whole runs from records to lines | reals; sum of C46 over the run steps, precipitation shares sum to the records' precipitation, column sums per output mode |
| C74 | as C73, 'all' mode | reals; C16/C46 between consecutive run steps, read off the columns |
| C75 | columns of every line | reals; C15, C19, C22, C24, C27 read off the columns |
| C76 | runoff, snowmelt, time_compact | reals; the laws of C71 with the provenance of the water; binary64 run with a negative line |
| C77 | SpatialSnowState.__init__, set_zeros, value_to_bar, time_average over a heap of arrays (Grid.v) | any number type; attributes are references, `+=` writes in place; case analysis on which references coincide |
| C78 | as C73, with cold_content, adj_layer_temps | R; C20/C21 along the chain of run steps, read off the columns (bare start, `all` mode) |
| C79 | as C73, with snowmelt and the energy balance | R; C55/C61 per pair of lines, then induction over a stretch of lines |
| C80 | two states on bare ground related by `same_ground` (all attributes but the last step's results); the run loop | any number type, by the step functions commuting with replacing these results; then R for whole files: induction over the snow-free lines |
| C81 | `create_snow_state` and `init_snow` against a record spelling out every attribute of the initial pack | R; computation by cases on the layering |
| C82 | Arrays.v: arrays as lists of entries (nan = None), masks, `a[mask] = b`, np.empty as arbitrary contents, the argument written in place | generic: mask lemmas by induction on the array; R for positivity |
| C83 | Gridded.v: classes as method tables with arities, the constructor and `iPySnobal.run` as sequences of lookups around arbitrary behaviours | inversion of the sequence of calls; the tables are read off the def and import lines |
| C84 | prefixes of the file; `fallen`: precipitation until a date, each record evenly over its period | R; C74 (extended by an upper bound) by induction over the lines; the normal mode through C63 |
| C85 | `read_input_data` and `simulate`: only the values of the used records reach the model | generic; rewriting |
| C86 | two runs side by side, inputs related by equal weather columns and no precipitation | generic; a simulation relation through `do_tstep`, `divide_tstep`, `run_steps`; binary64 with the specification axioms of the primitive floats (div_spec, ltb_spec) |
| C87 | two runs side by side on bare ground, inputs related by equal precipitation columns without snow | generic simulation relation with `layer_count = 0`; the rows of the file split at the given time (sorted); reals: `init_bare` |
| C88 | the model over Coq's primitive floats (IEEE 754 binary64), exp/log/pow/sqrt/cos/atan universally quantified | FloatLaws.v: signs of sums, differences, products and quotients from the `*_spec` axioms of the standard library and Flocq's correctness theorems; an invariant of the pack (`book`) and per-routine lemmas; trace induction |
| C89 | TimeZone.v: a zone is the offset at every instant; `tz_localize` searches the instants whose clock shows the time and raises unless there is exactly one; `zoned_run` localises configured dates and records, runs and writes clock times with offsets | tz_localize is characterised (exactly one instant); fixed offsets by C64; for the clock change some record falls in the skipped or repeated period |
| C90 | Columns.v: the data frame as header and rows; attribute access, `+=` on a column, `.loc` assignment, rename, to_dict (last of equal names wins), `data[k]` | induction on the header; preparing a table commutes with taking the records by name, so the run is `pysnobal_run` of the records |
| C91 | Object.v: the attributes of a PySnobal object and the file on disk; each public method as a relation between the objects before and after, with what it returned or raised; the snobal attribute may become anything after an exception or in the user's hands | every call keeps the attributes __init__ computed (renaming twice is renaming once), by induction on the history |
| C92 | hle1 raises unless every height above the snow exceeds z_0 > 0 (C31); a line followed by another is the state before a later step | C09's equation for each step over snow, z_0 kept by every step (frame), lines matched to steps; normal mode through C63 |
| C93 | parse_time_steps: int(norm/medium) and int(norm/small) divide the input differences, int(medium/small) is the argument of range | a zero count of small steps leaves the core alone (iteration of divide_tstep that keeps the core), by induction on the file |
| C94 | Config.v: the settings of the ini file with a default, a user configuration as a list of settings, and which setting PySnobal reads for what | lookups of absent and present keys; then C25, C38, C63 and C93 applied to the resulting parameters |
| C95 | the differences between the records enter through add_deltas, after each run step; the precipitation of a step comes from the first record | two executions compared (same precipitation differences); C07 and the chain of starts for the values in between |
| C96 | runoff's saturation, water over room, has room 0 when max_h2o = 0 | every kept step takes the draining branch; mass law of C71 for melt or rain; a still frosty first step has no melt, rain or flux |
| C97 | hle1 with its domain errors of log and sqrt and its divisions | case analysis up to the loop; no pass of the loop raises anything but a division by zero, since psi only takes logarithms and roots of positive numbers; lifted to do_tstep by C51; the vapour pressure used is within the tolerance of the guard, by bounds on decimal logarithms (C33) |
| C98 | pysnobal_run with its exceptions | a predicate that leaves only the three numeric exceptions is carried through every routine; induction over levels and records shows that the accumulators are set before they are read and that a data step writes a result |
| C99 | precipitation_inputs, precip_event, pysnobal_run | two executions side by side: what is left of the two columns after input_data is the same; the density is only read in the liquid water of the snowfall, which is zero, and the increments add no snow |
| C100 | precipitation_inputs, mass_balance on bare ground | R; case analysis of the phases, then the routines of a step without snow cover in sequence, and the data step made of them (single_data_step) |
| C51 | do_tstep | R; progress: every division, root and logarithm of a run step shown defined |

## 4. What is modelled and what is not

Modelled: everything a point run executes, from the rows of the CSV (already parsed
to numbers and dates) to the rows of the output file (before text formatting): see the table of files.

Simplifications, each also stated at its definition:

* Dates are integers (minutes); TimeZone.v (C89) adds time zones.  CSV parsing, the text of
  numbers when `format_output` is off, inicheck's configuration casting and warnings are not modelled (Config.v, C94, has the defaults of the ini file).
* `int(a / b)` on step lengths is the exact integer quotient (true of binary64 for step
  lengths in minutes below 2^53).
* A division whose denominator is zero is an error.  For numpy scalars Python would carry on
  with inf/nan; only the Obukhov length, where the code relies on that, is modelled so.
* A non-positive base of a real power, root or logarithm is an error (nan in numpy).
  A nan argument of a logarithm is also an error in the model, while `math.log(nan)` is nan: the binary64 instance is not faithful
  once a nan reaches a logarithm (turbulent fluxes over snow).  The nan of C86 and C87 never get there.
* Python's recursion is bounded by fuel 3 in `divide_tstep`; C05_recursion_stops proves
  that the bound is never met.  `range(n)` with negative n is empty (`Z.to_nat`).
* `to_dict('index')` raises on duplicate dates.  The order pandas gives equal dates is immaterial for that reason.
* Real-number theorems do not cover rounding, overflow or NaN (C88 does, for the signs of cold content, melt and runoff and the freezing limit).  `npow`, `exp`, `ln`, `cos`, `atan`, `sqrt`
  are the mathematical functions there; in the binary64 instance they are polynomial/series implementations
  written in Coq (accurate to the last digits, not bit-identical to libm).
* Grid.v: arrays are functions of the cell; `a += b` on xarray objects writes in place (xarray's documented behaviour, trusted);
  dtypes and coordinates are not modelled.
* Arrays.v: numpy arrays as lists of entries; division by an entry 0 (inf, no exception in numpy) is outside the theorems.
* `dict` iteration order in InputDeltas is immaterial and not modelled; the deltas are looked up by level.

Not modelled: cli.py, the reading of files in ipysnobal.py, plotting, logging, `@profile`, the array branch of hle1.
Of `iSnobal.__init__` and `iPySnobal.run` only the lookup of names and methods is modelled (Gridded.v: tables of the
methods and of the module's names, transcribed from the def and import lines; all else arbitrary); C44 is about
`iSnobal.calc_layers` taken alone.

## 5. Conformance (a test, not part of the proof)

The binary64 instance of the model was run on the whole regression year of the repository
(8759 hourly records, 25 columns, 218 975 values) and compared with tests/data/gold.pysnobal.csv:
503 values differ, all of them in the last printed digit.  Gold.v keeps 560 hours of that comparison in the build.

## 6. Trusted base

* Coq 8.16.1's kernel, including its virtual machine (`vm_compute`, used for binary64 examples
  and the three binary64 theorems) and its primitive integers and floats.
* The reading of the Python code into Gallina, documented per definition, supported by section 5 and by the seeded
  edits of section 7.
* No axioms of our own; no functors, module types, Admitted, or disabled checks.
  What `Print Assumptions` lists for each claimed theorem (generated by tools/assumptions.py; the standard library's
  Reals axioms, and the primitive float/integer operations, which Print Assumptions lists as axioms although the kernel computes them):

<!-- assumptions -->
No axioms ("Closed under the global context"):

`C01_clock_advances_one_normal_step`, `C02_clock_advances_by_executed_steps`, `C03_one_record_per_data_step`, `C04_one_record_per_run_step`, `C04_record_is_the_state`, `C05_subdivision_policy`, `C05_no_coarse_step_on_thin_pack`, `C05_recursion_stops`, `C08_only_the_first_record_changes`, `C08_records_reach_their_step_unchanged`, `C13_only_snow_without_density_is_rejected`, `C28_snow_state_reads_are_current`, `C28_vapour_pressures_are_current`, `C28_direct_depth_assignment_is_not_seen`, `C28_input_reads_are_current`, `C29_status_is_always_zero`, `C29_not_converged_is_never_raised`, `C39_relative_heights_has_no_effect`, `C39_heights_are_always_above_ground`, `C40_input_window`, `C40_file_order_is_irrelevant`, `C40_reversed_file_is_clipped_short`, `C40_number_and_dates_of_results`, `C40_results_at_record_times`, `C41_prefix_of_the_run`, `C41_ending_earlier_gives_a_prefix`, `C42_completed_runs_write_everything`, `C42_a_failing_step_writes_nothing`, `C42_unusable_input_raises`, `C43_columns`, `C43_every_line`, `C44_gridded_layers_cannot_run`, `C53_same_conductivity_and_dry_density`, `C64_results_do_not_depend_on_the_calendar`, `C65_last_precipitation_is_ignored`, `C65_files`, `C72_time_stands_still`, `C72_for_ever`, `C72_first_data_step_raises`, `C77_unshared_cells_are_points`, `C77_value_to_bar_cells_are_points`, `C77_zero_grid_is_overwritten`, `C77_set_zeros_sets_the_sum`, `C77_amounts_are_doubled`, `C80_bare_ground_forgets`, `C82_array_saturation_vapour_pressure`, `C82_array_saturation_over_water`, `C83_construction_needs`, `C83_construction_raises`, `C83_no_measurement_heights`, `C83_run_raises`, `C83_run_needs`, `C85_dates_only_select_and_order`, `C86_no_precipitation_no_effect`, `C87_weather_before_the_first_snowfall`, `C87_weather_in_the_file`, `C89_fixed_offset_zones_agree`, `C89_zone_with_constant_offset_over_the_run`, `C89_dates_not_shown_exactly_once_raise`, `C89_records_across_a_clock_change_raise`, `C90_columns_are_found_by_name`, `C90_order_and_further_columns_are_immaterial`, `C90_the_last_of_two_names_is_used`, `C90_missing_columns_raise`, `C91_run_after_any_calls`, `C91_run_can_be_called`, `C91_again`, `C91_file_changes_only_when_a_call_returns`, `C93_no_file_with_a_finer_step_longer_than_normal`, `C93_light_snow_is_not_simulated`, `C93_and_never_again`, `C93_no_file_from_a_light_pack`, `C95_second_record_unseen`, `C95_last_record_unseen`, `C98_what_a_run_raises`, `C98_too_few_rows`, `C98_one_row`, `C99_what_precipitation_columns_say`.

Axioms: `ClassicalDedekindReals.sig_forall_dec`, `ClassicalDedekindReals.sig_not_dec`, `Classical_Prop.classic`, `FunctionalExtensionality.functional_extensionality_dep`:

`C06_precipitation_is_shared_out`, `C07_records_of_a_run`, `C07_forcing_is_interpolated_linearly`, `C07_records_of_a_run`, `C09_vapour_pressure_is_clipped`, `C10_energy_columns_are_time_weighted_means`, `C11_mass_columns_are_totals`, `C12_precipitation_phase`, `C13_over_the_reals`, `C14_layer_partition`, `C15_layer_bookkeeping`, `C16_mass_balance_of_a_run_step`, `C16_mass_balance_of_consecutive_records`, `C17_bare_ground_passes_precipitation`, `C18_surplus_when_a_pack_forms`, `C18_surplus_when_a_pack_disappears`, `C19_water_is_not_negative`, `C20_cold_content_is_never_positive`, `C21_snow_is_never_warmer_than_freezing`, `C22_density_limit`, `C23_ageing`, `C23_liquid_water`, `C24_energy_budget_closes`, `C25_no_snow_no_exchange`, `C25_bare_ground_never_raises`, `C25_snow_free_runs_complete`, `C26_melt_and_refreezing_conserve_energy`, `C27_bare_ground_record`, `C27_depth_of_the_bare_ground_record`, `C30_neutral_stability_raises`, `C31_guards`, `C31_buried_sensor_raises`, `C32_stable_air`, `C32_latent_heat_has_the_sign_of_the_vapour_flux`, `C32_in_the_model`, `C33_saturation_vapour_pressure`, `C33_formulas`, `C33_ice_within_tolerance`, `C34_air_pressure`, `C35_conduction_goes_from_warm_to_cold`, `C36_vapour_diffusion_adds_conductivity`, `C36_formula`, `C37_specific_humidity_and_virtual_temperature`, `C38_initial_pack_stops_the_run`, `C44_same_depths_if_assignable`, `C44_active_depth_with_zero_threshold`, `C45_ageing_increment`, `C45_heavy_packs_age_per_step`, `C45_subdivision_ages_heavy_packs_more`, `C46_water_is_never_lost`, `C46_water_is_never_lost_in_a_run`, `C47_stale_water_runs_off_again_and_again`, `C48_stable_fluxes_stay_below_neutral`, `C50_layer_changes_and_cold_content`, `C50_merging_forgets`, `C51_what_stops_a_run_step`, `C51_calm_dry_run_steps_return`, `C51_stable_dry_run_steps_return`, `C52_when_a_pack_forms`, `C53_same_temperatures`, `C53_opposite_cold_contents`, `C54_why_a_pack_disappears`, `C54_packs_stay`, `C55_melt_is_paid_for`, `C55_cold_snow_does_not_melt`, `C56_vapour_exchange`, `C57_energy_terms`, `C57_conduction_goes_from_warm_to_cold`, `C57_conduction_formulas`, `C58_still_air`, `C59_stable_air`, `C60_runoff_only_from_a_saturated_pack`, `C61_cold_shallow_pack_is_dry`, `C61_cold_deep_pack_is_dry`, `C61_dry_pack_stores_the_energy`, `C62_temperatures_follow_cold_content`, `C62_below_freezing_iff_cold`, `C63_output_mode_only_selects`, `C66_more_radiation_never_melts_less`, `C67_formatted_file`, `C67_order_is_kept`, `C68_depth_grows_only_by_what_is_added`, `C68_depth_never_grows_in_a_dry_spell`, `C69_a_new_pack_is_the_snowfall`, `C70_fluxes`, `C70_fluxes_of_a_run_step`, `C71_law_of_a_run_step`, `C71_quiet_step`, `C73_water_budget_of_the_files`, `C74_water_balances_from_line_to_line`, `C75_every_line_is_sensible`, `C76_runoff_is_water_at_hand`, `C76_mass_stays_positive`, `C76_light_packs_go`, `C78_snow_in_the_file_is_cold`, `C79_melt_is_paid_for_line_by_line`, `C79_energy_budget_of_a_part`, `C79_all_melt_is_paid_for`, `C80_bare_ground_forgets_in_runs`, `C80_a_snow_free_beginning_can_be_left_out`, `C81_a_run_starts_from_the_configured_pack`, `C82_positive_temperatures_have_a_pressure`, `C84_running_water_budget`, `C84_snow_comes_from_the_sky`, `C84_snow_comes_from_the_sky_in_summaries`, `C84_no_snow_from_nowhere`, `C86_over_the_reals`, `C87_over_the_reals`, `C92_snow_never_reaches_the_instruments`, `C92_mass_is_bounded_by_the_instruments`, `C92_initial_snow_leaves_the_instruments_free`, `C93_over_the_reals`, `C94_shipped_defaults`, `C94_default_model`, `C94_default_snow`, `C94_default_heights`, `C94_snow_free_season`, `C94_short_normal_step`, `C94_pack_without_temperatures`, `C95_forcing_stays_between`, `C96_a_step_that_keeps_snow_drains`, `C96_lines_with_snow_show_runoff`, `C96_frost_stops_the_run`, `C97_value_errors`, `C97_unbound_local`, `C97_any_other_error_is_a_division_by_zero`, `C97_when_a_run_step_raises_ValueError`, `C99_each_temperature_on_its_side`, `C99_rain_is_not_cold_and_snow_not_warm`, `C100_any_fraction_is_accepted`, `C100_more_snow_than_falls`, `C100_more_snow_than_falls_in_a_data_step`.

Axioms: `PrimFloat.abs`, `PrimFloat.add`, `PrimFloat.div`, `PrimFloat.eqb`, `PrimFloat.float`, `PrimFloat.frshiftexp`, `PrimFloat.ldshiftexp`, `PrimFloat.leb`, `PrimFloat.ltb`, `PrimFloat.mul`, `PrimFloat.normfr_mantissa`, `PrimFloat.of_uint63`, `PrimFloat.opp`, `PrimFloat.sqrt`, `PrimFloat.sub`, `PrimInt63.eqb`, `PrimInt63.int`, `PrimInt63.land`, `PrimInt63.lor`, `PrimInt63.lsl`, `PrimInt63.lsr`, `PrimInt63.sub`:

`C02_time_can_be_lost`, `C29_unconverged_calls_return_normally`, `C49_unconverged_fluxes_can_go_the_wrong_way`, `C76_negative_snow_is_written`, `C93_in_binary64`.

Axioms: `FloatAxioms.div_spec`, `FloatAxioms.ltb_spec`, `PrimFloat.abs`, `PrimFloat.add`, `PrimFloat.div`, `PrimFloat.eqb`, `PrimFloat.float`, `PrimFloat.frshiftexp`, `PrimFloat.ldshiftexp`, `PrimFloat.leb`, `PrimFloat.ltb`, `PrimFloat.mul`, `PrimFloat.normfr_mantissa`, `PrimFloat.of_uint63`, `PrimFloat.opp`, `PrimFloat.sqrt`, `PrimFloat.sub`, `PrimInt63.eqb`, `PrimInt63.int`, `PrimInt63.land`, `PrimInt63.lor`, `PrimInt63.lsl`, `PrimInt63.lsr`, `PrimInt63.sub`:

`C86_missing_precipitation_is_none`.

Axioms: `FloatAxioms.add_spec`, `FloatAxioms.div_spec`, `FloatAxioms.mul_spec`, `FloatAxioms.sub_spec`, `PrimFloat.abs`, `PrimFloat.add`, `PrimFloat.div`, `PrimFloat.eqb`, `PrimFloat.float`, `PrimFloat.frshiftexp`, `PrimFloat.ldshiftexp`, `PrimFloat.leb`, `PrimFloat.ltb`, `PrimFloat.mul`, `PrimFloat.normfr_mantissa`, `PrimFloat.of_uint63`, `PrimFloat.opp`, `PrimFloat.sqrt`, `PrimFloat.sub`, `PrimInt63.eqb`, `PrimInt63.int`, `PrimInt63.land`, `PrimInt63.lor`, `PrimInt63.lsl`, `PrimInt63.lsr`, `PrimInt63.sub`:

`C99_missing_density_spoils_the_water`.

Axioms: `ClassicalDedekindReals.sig_forall_dec`, `ClassicalDedekindReals.sig_not_dec`, `Classical_Prop.classic`, `FloatAxioms.Prim2SF_SF2Prim`, `FloatAxioms.Prim2SF_valid`, `FloatAxioms.SF2Prim_Prim2SF`, `FloatAxioms.add_spec`, `FloatAxioms.div_spec`, `FloatAxioms.eqb_spec`, `FloatAxioms.leb_spec`, `FloatAxioms.ltb_spec`, `FloatAxioms.mul_spec`, `FloatAxioms.sub_spec`, `FunctionalExtensionality.functional_extensionality_dep`, `PrimFloat.abs`, `PrimFloat.add`, `PrimFloat.div`, `PrimFloat.eqb`, `PrimFloat.float`, `PrimFloat.frshiftexp`, `PrimFloat.ldshiftexp`, `PrimFloat.leb`, `PrimFloat.ltb`, `PrimFloat.mul`, `PrimFloat.normfr_mantissa`, `PrimFloat.of_uint63`, `PrimFloat.opp`, `PrimFloat.sub`, `PrimInt63.eqb`, `PrimInt63.int`, `PrimInt63.land`, `PrimInt63.lor`, `PrimInt63.lsl`, `PrimInt63.lsr`, `PrimInt63.sub`:

`C88_run_steps_in_double_precision`, `C88_snow_is_cold_in_double_precision`, `C88_melt_column_in_double_precision`.
<!-- /assumptions -->

## 7. Seeded edits

seeded/LOG.jsonl records edits of the model, each the way a realistic bug would change the program,
made in a scratch copy; for each, the proofs that stop compiling are replaced one by one by a scratch axiom
until everything else builds, and a claimed theorem counts as failed if its proof then depends on that axiom.
`theorems_failed` lists the claimed theorems for the broken claims that failed, `first_failures` the lemmas whose own
proof broke.

## 8. Findings about the code

Behaviours the theorems establish and a user may not expect: lost model time for step lengths that do
not divide (C02); water created when packs form wet or vanish wet (C18), and again in every later step (C47);
negative reported depth after a step that melts the whole pack (C27); hle1 never reports non-convergence (C29, C49) and
crashes in exactly neutral air (C30); initial packs in the documented unit stop the run, as do
two-layer ones (C38); relative_heights has no effect (C39); a file in reverse order is clipped short (C40);
snow mass and density can become negative when one step melts nearly the whole pack (C76);
the array versions of the vapour pressure functions overwrite negative entries of the array they are given (C82);
the gridded sums write into the arrays they sum and into the shared zero grid (C77);
a sensor within 4.9 roughness lengths of the snow stops the run, although the check asks for one only (C92, C97);
the check of the vapour pressure against saturation over water can never fail in the model, whose own cap is tighter (C33, C97);
max_h2o = 0 is accepted, but the first dry frosty step over snow then divides zero by zero (C96);
with a small step longer than the medium one time stops over thin snow, and the file repeats one line (C72, C93);
gaps in the input file go unnoticed (C85); percent_snow given in per cent is accepted and makes snow out of negative runoff (C100); a missing snow density in a record of rain makes the snowpack under it vanish without an exception (C99); a further column of the input file named as the model names a variable silently replaces the documented one (C90); hourly records in a zone with daylight saving cannot be run across a change, even one outside the simulated period (C89); a missing precipitation amount counts as none (C86);
heavy packs age per step whatever its length (C45); cold content is discarded when layers merge (C50); the gridded partition cannot run (C44), and the gridded model can be neither constructed nor run (C83).
