{"id": "C01", "title": "Model clock advances by exactly one normal time step per data step", "statement": "If the configured medium run step divides the normal one and the small step divides the medium one, every call of Snobal.do_data_tstep that returns advances the model clock by exactly the configured normal time step, whatever mixture of normal, medium and small run steps the thin-snow rule chose.", "quantifier": "every configuration with evenly dividing steps, every snow state, every pair of forcing records, every arithmetic (real or IEEE)", "why_tests_cant": "the mixture of run steps depends on how the layer masses evolve inside the step; a test sees a handful of mixtures", "anchors": ["pysnobal/point/snobal.py:Snobal.divide_tstep", "pysnobal/point/snobal.py:Snobal.do_tstep", "pysnobal/pysnobal.py:PySnobal.parse_time_steps"]}
{"id": "C02", "title": "Step lengths that do not divide evenly silently lose model time", "statement": "parse_time_steps accepts step lengths that do not divide evenly; the clock advance of a data step is then the sum of the run steps actually executed, can be strictly less than the normal time step, and never exceeds it (positive step lengths).", "quantifier": "every positive choice of the three step lengths and every execution", "why_tests_cant": "tests use only the default 60/15/1 minutes", "anchors": ["pysnobal/pysnobal.py:PySnobal.parse_time_steps", "pysnobal/point/snobal.py:Snobal.divide_tstep"]}
{"id": "C03", "title": "Normal output mode: exactly one record per data step", "statement": "With output_mode 'normal', each returning do_data_tstep appends exactly one record to the output list, stamped with the model clock at the end of the data step and holding the snow state at that moment; all earlier records are unchanged.", "quantifier": "every configuration, snow state and forcing pair", "why_tests_cant": "a missed or duplicated record only shows up for particular subdivision patterns", "anchors": ["pysnobal/point/snobal.py:Snobal.output", "pysnobal/point/snobal.py:Snobal.divide_tstep"]}
{"id": "C04", "title": "'all' output mode: exactly one record per executed run step", "statement": "With output_mode 'all', a returning do_data_tstep appends exactly one record per executed run step, in execution order, stamped with the clock right after that run step; no extra record is appended at the end of the data step.", "quantifier": "every configuration, snow state and forcing pair", "why_tests_cant": "depends on every subdivision pattern", "anchors": ["pysnobal/point/snobal.py:Snobal.output", "pysnobal/point/snobal.py:Snobal.do_tstep"]}
{"id": "C05", "title": "Thin-snow subdivision policy", "statement": "A run step of normal or medium length is executed only when there is no snow or every existing layer's mass is at least that level's threshold; an interval is subdivided exactly when some layer's mass is below the threshold at its start; small steps are never subdivided, and the recursion always stops within three levels.", "quantifier": "every threshold setting, snow state and forcing pair", "why_tests_cant": "the decision is re-taken before every interval from state produced by the previous run steps", "anchors": ["pysnobal/point/snobal.py:Snobal.divide_tstep", "pysnobal/point/snobal.py:Snobal.below_thold"]}
{"id": "C06", "title": "Precipitation is neither lost nor duplicated by subdivision", "statement": "When the steps divide evenly, the precipitation mass (and its snow and rain parts and the new-snow depth) applied by the run steps of one data step add up exactly to the record's precip_mass (and snow, rain, depth).", "quantifier": "every evenly dividing configuration, subdivision pattern and precipitation record", "why_tests_cant": "the pattern of levels is state dependent; each level uses its own pre-computed share", "anchors": ["pysnobal/point/input.py:InputDeltas.calculate", "pysnobal/point/input.py:InputData.update_precip_deltas", "pysnobal/point/snobal.py:Snobal.do_tstep"]}
{"id": "C07", "title": "Forcing is interpolated linearly inside a data step", "statement": "At the start of every run step, at any level, net solar, incoming thermal, air temperature, wind speed and soil temperature used by the model equal x1 + (x2 - x1) * elapsed / normal_step, where x1 and x2 are the k-th and next record of the input for the k-th data step of the run; the vapour pressure follows the same law until it is clipped to saturation.", "quantifier": "every evenly dividing configuration, every subdivision pattern, every pair of records", "why_tests_cant": "increments are accumulated one run step at a time at mixed levels", "anchors": ["pysnobal/point/input.py:InputData.add_deltas", "pysnobal/point/input.py:InputDeltas.calculate", "pysnobal/point/snobal.py:Snobal.do_tstep"]}
{"id": "C08", "title": "Interpolation does not leak from one data step into the next", "statement": "The second record of a data step is never modified by the model: the next data step starts from exactly the values of that record, whatever clipping or accumulation happened before, so the run is determined by the records, not by rounding left over in the running inputs.", "quantifier": "every history of data steps", "why_tests_cant": "aliasing between input objects shows only over several steps", "anchors": ["pysnobal/point/snobal.py:Snobal.do_data_tstep", "pysnobal/pysnobal.py:PySnobal.run", "pysnobal/point/input.py:InputDeltas.calculate"]}
{"id": "C09", "title": "Vapour pressure never exceeds saturation in the turbulent fluxes", "statement": "Whenever the turbulent-flux routine is called by the model, the vapour pressure it receives is at most the saturation vapour pressure over ice of the current air temperature; it is left unchanged if it already was.", "quantifier": "every state and input", "why_tests_cant": "interpolation can push vapour pressure above saturation at any sub-step", "anchors": ["pysnobal/point/snobal.py:Snobal.h_le", "pysnobal/point/input.py:InputData.sat_vp"]}
{"id": "C10", "title": "Energy columns are exact time-weighted means since the last output", "statement": "In every output record each energy term (R_n, H, L_v_E, G, G_0, M, delta_Q, delta_Q_0) equals the sum of value*duration over the run steps executed since the previous output divided by the sum of the durations.", "quantifier": "every sequence of run steps of any lengths between two outputs", "why_tests_cant": "running averages drift only for particular patterns of step lengths", "anchors": ["pysnobal/point/snow_state.py:SnowState.time_average", "pysnobal/point/snow_state.py:SnowState.value_to_bar", "pysnobal/core/functions.py:time_average", "pysnobal/point/snobal.py:Snobal.do_tstep"]}
{"id": "C11", "title": "Mass columns are exact totals since the last output", "statement": "In every output record E_s, melt and swi are the sums of the per-run-step values over the run steps executed since the previous output.", "quantifier": "every sequence of run steps between two outputs", "why_tests_cant": "same as above", "anchors": ["pysnobal/point/snow_state.py:SnowState.time_average", "pysnobal/point/snow_state.py:SnowState.value_to_bar"]}
{"id": "C12", "title": "Precipitation phase partition", "statement": "For every record with precipitation the derived snow and rain masses add up to the precipitation mass; with 0<=percent_snow<=1 both are non-negative; rain is never colder than freezing, snow never warmer; mixed or warm snow is saturated, cold snow dry; snow depth times snow density equals snow mass.", "quantifier": "every record with finite values", "why_tests_cant": "tests cover four literal records", "anchors": ["pysnobal/point/input.py:InputData.precipitation_inputs", "pysnobal/point/input.py:InputData.__init__"]}
{"id": "C13", "title": "Snowfall with non-positive density is rejected, nothing else is", "statement": "Constructing an input record raises ValueError exactly when it has positive precipitation, positive snow mass and a snow density that is not positive; otherwise it succeeds.", "quantifier": "every record", "why_tests_cant": "needs all combinations of signs", "anchors": ["pysnobal/point/input.py:InputData.precipitation_inputs"]}
{"id": "C14", "title": "Layer partition", "statement": "calc_layers splits the pack so that depth = surface + lower depth; a pack whose mass is at most the small threshold gets depth zero and no layer; otherwise depth is preserved, the surface layer has the configured maximum depth iff the remainder carries at least the threshold mass, and is the whole pack otherwise; layer_count is 0, 1 or 2 accordingly.", "quantifier": "every mass, depth, density, threshold and maximum active depth", "why_tests_cant": "tests have four literals away from the boundaries", "anchors": ["pysnobal/point/snow_state.py:SnowState.calc_layers", "pysnobal/point/snow_state.py:SnowState.layer_count"]}
{"id": "C15", "title": "Layer bookkeeping stays consistent in every run", "statement": "At the end of every run step: total depth = surface + lower depth, total mass = surface + lower mass, each layer's mass is density times its depth, the lower layer is absent (zero depth, mass, cold content, temperature -75C) in a one-layer pack, and the surface layer of a two-layer pack has exactly the configured maximum depth.", "quantifier": "every reachable state over every forcing history", "why_tests_cant": "needs an induction over all run steps and all branches that change depth, mass or density", "anchors": ["pysnobal/point/snobal.py:Snobal.adj_layers", "pysnobal/point/snobal.py:Snobal.adj_snow", "pysnobal/point/snobal.py:Snobal.init_snow", "pysnobal/point/snow_state.py:SnowState.layer_mass"]}
{"id": "C16", "title": "Mass balance of a persisting snowpack", "statement": "For a pack that persists through a run step, new mass = old mass + precipitation + evaporation/condensation (E_s) - runoff (swi), exactly; summed over a data step, consecutive output records satisfy m_s' = m_s + precip_mass + E_s - swi.", "quantifier": "every state, input and subdivision pattern for which the pack persists", "why_tests_cant": "six routines modify mass in sequence, each with clipping branches", "anchors": ["pysnobal/point/snobal.py:Snobal.mass_balance", "pysnobal/point/snobal.py:Snobal.runoff", "pysnobal/point/snobal.py:Snobal.evap_cond", "pysnobal/point/snobal.py:Snobal.precip_event"]}
{"id": "C17", "title": "Bare ground passes rain through", "statement": "On bare ground with no liquid water in store, rain (and snowfall too light to form a pack) leaves as runoff in the same run step, mass exactly conserved, and no energy, melt or evaporation is reported.", "quantifier": "every bare-ground state and every valid input", "why_tests_cant": "continuous family of inputs", "anchors": ["pysnobal/point/snobal.py:Snobal.precip_event", "pysnobal/point/snobal.py:Snobal.runoff", "pysnobal/point/snobal.py:Snobal.init_snow"]}
{"id": "C18", "title": "Where the water balance is not closed", "statement": "The balance storage change = precipitation + E_s - runoff is NOT kept when a pack is created from wet snow on bare ground (the retained water also leaves as runoff) nor when a pack containing liquid water disappears (that water is counted twice); for a new pack the surplus is exactly the liquid water kept in it, for a vanishing pack it is never negative and at most the liquid water it held, received, melted or condensed.", "quantifier": "every such step", "why_tests_cant": "conservation tests on typical seasons average this away", "anchors": ["pysnobal/point/snobal.py:Snobal.precip_event", "pysnobal/point/snobal.py:Snobal.adj_layers", "pysnobal/point/snobal.py:Snobal.runoff"]}
{"id": "C19", "title": "Runoff, melt and retained water are never negative and saturation is a fraction", "statement": "After every run step runoff, melt and liquid water are >= 0 and the relative saturation lies in [0,1], for valid inputs.", "quantifier": "every reachable state over every valid forcing history", "why_tests_cant": "needs invariants through refreezing, evaporation and clipping", "anchors": ["pysnobal/point/snobal.py:Snobal.runoff", "pysnobal/point/snobal.py:Snobal.snowmelt", "pysnobal/point/snobal.py:Snobal.evap_cond"]}
{"id": "C20", "title": "Cold content is never positive", "statement": "After every run step that starts above 0 K the cold content of both layers is <= 0.", "quantifier": "every reachable state over every valid forcing history", "why_tests_cant": "depends on all melt/refreeze branches and on layer creation", "anchors": ["pysnobal/point/snobal.py:Snobal.snowmelt", "pysnobal/point/snobal.py:Snobal.cold_content", "pysnobal/point/snobal.py:Snobal.adj_layers"]}
{"id": "C21", "title": "Snow is never warmer than freezing", "statement": "After every run step that starts above 0 K the surface, lower and average snow temperatures are <= 0C whenever the pack has positive mass.", "quantifier": "every reachable state over every valid forcing history", "why_tests_cant": "depends on sign of cold content, layer masses and specific heat in every branch", "anchors": ["pysnobal/point/snow_state.py:SnowState.adjust_layer_temps", "pysnobal/core/snow.py:new_tsno"]}
{"id": "C22", "title": "Density never exceeds the maximum", "statement": "After every run step the pack density is at most 600 kg/m3 when snowfall density inputs are at most 600, although compaction by ageing can exceed it in the middle of the step.", "quantifier": "every reachable state over every valid forcing history", "why_tests_cant": "the cap is enforced in one routine only; other routines change density without a cap", "anchors": ["pysnobal/point/snobal.py:Snobal.adj_snow", "pysnobal/point/snobal.py:Snobal.time_compact", "pysnobal/point/snobal.py:Snobal.h2o_compact"]}
{"id": "C23", "title": "Compaction conserves mass and only densifies", "statement": "Ageing and liquid-water compaction never change the mass of a pack that survives them, never lower its density, and liquid-water compaction never takes it beyond 550 kg/m3.", "quantifier": "every state", "why_tests_cant": "continuous family", "anchors": ["pysnobal/point/snobal.py:Snobal.time_compact", "pysnobal/point/snobal.py:Snobal.h2o_compact"]}
{"id": "C24", "title": "Energy budget columns close", "statement": "In every output record delta_Q_0 = R_n + H + L_v_E + G_0 + M and delta_Q = R_n + H + L_v_E + G + M.", "quantifier": "every run", "why_tests_cant": "must survive averaging over arbitrary step patterns and snow/no-snow transitions", "anchors": ["pysnobal/point/snobal.py:Snobal.energy_balance", "pysnobal/point/snow_state.py:SnowState.time_average"]}
{"id": "C25", "title": "No snow, no exchange", "statement": "A run step that starts without snow reports zero for all energy terms, melt and evaporation, and never raises for valid inputs.", "quantifier": "every bare-ground state and input", "why_tests_cant": "continuous family; hidden divisions by zero mass or depth", "anchors": ["pysnobal/point/snobal.py:Snobal.energy_balance", "pysnobal/point/snobal.py:Snobal.snowmelt", "pysnobal/point/snobal.py:Snobal.evap_cond"]}
{"id": "C26", "title": "Melt and refreezing conserve energy", "statement": "In the melt routine the change of cold content equals energy input minus latent heat of melt plus latent heat of refreezing, layer by layer, and the refrozen mass is between 0 and the liquid available (up to the 1e-8 rounding rule).", "quantifier": "every pack and every energy input", "why_tests_cant": "continuous family with nine branches", "anchors": ["pysnobal/point/snobal.py:Snobal.snowmelt", "pysnobal/core/snow.py:melt"]}
{"id": "C27", "title": "Canonical bare-ground record", "statement": "Whenever a run step ends without snow, reported mass, density, layer masses and cold contents are zero and all snow temperatures are -75C; depth is zero unless one step melted at least the whole pack and what fell on it, in which case the reported depth is negative and stays so until the next snowfall.", "quantifier": "every reachable state", "why_tests_cant": "depends on the route by which the pack vanished", "anchors": ["pysnobal/point/snobal.py:Snobal.adj_layers", "pysnobal/point/snobal.py:Snobal.init_snow"]}
{"id": "C28", "title": "Lazily cached quantities are never stale", "statement": "Reading saturation vapour pressure of a snow layer, of the air or of the soil always returns the value for the current temperature, whatever the history of assignments and reads; the cached layer count always matches the current layer depths as long as depths are changed through calc_layers, and can be stale otherwise.", "quantifier": "every interleaving of reads and writes", "why_tests_cant": "staleness depends on histories", "anchors": ["pysnobal/point/snow_state.py:SnowState.e_s_0", "pysnobal/point/snow_state.py:SnowState.e_s_l", "pysnobal/point/snow_state.py:SnowState.layer_count", "pysnobal/point/input.py:InputData.sat_vp", "pysnobal/point/input.py:InputData.e_g"]}
{"id": "C29", "title": "Turbulent-flux convergence status", "statement": "hle1 documents status -1 for no convergence, but every returning call reports 0, also when 50 iterations did not converge; hence the model's 'hle1 did not converge' exception can never be raised.", "quantifier": "every input of hle1", "why_tests_cant": "needs all inputs; the gold test only checks truthiness of approx()", "anchors": ["pysnobal/point/libsnobal.py:hle1", "pysnobal/point/snobal.py:Snobal.h_le"]}
{"id": "C30", "title": "Neutral stability crashes the turbulent-flux routine", "statement": "If the potential air temperature equals the surface temperature, hle1 raises UnboundLocalError instead of returning the neutral closed form, for every otherwise valid input.", "quantifier": "every valid input with equal potential temperatures", "why_tests_cant": "a measure-zero set of inputs that tests do not hit", "anchors": ["pysnobal/point/libsnobal.py:hle1"]}
{"id": "C31", "title": "Input guards of the turbulent-flux routine", "statement": "hle1 raises ValueError whenever the roughness length is not positive, a height is not above it, a temperature is not positive, or a vapour pressure is not strictly between 0 and the air pressure; in particular the model raises as soon as the snow surface comes within the roughness length of a sensor.", "quantifier": "every input", "why_tests_cant": "boundaries in eight variables", "anchors": ["pysnobal/point/libsnobal.py:hle1", "pysnobal/point/snobal.py:Snobal.h_le"]}
{"id": "C32", "title": "Direction of turbulent fluxes in a stable atmosphere", "statement": "When wind is positive, the instruments are more than 5.9 roughness lengths above the snow, the potential air temperature is above the surface temperature and the air is at least as humid as the surface, hle1 returns and gives sensible heat toward the surface (H > 0) and latent heat and vapour flux toward the surface or zero; latent heat always has the sign of the vapour flux for surface temperatures up to 60C.", "quantifier": "every such input and any number of iterations", "why_tests_cant": "iterative solution", "anchors": ["pysnobal/point/libsnobal.py:hle1", "pysnobal/point/libsnobal.py:psi"]}
{"id": "C33", "title": "Saturation vapour pressure is positive and increasing", "statement": "sati and satw are defined and positive for every positive Kelvin temperature, raise for non-positive ones, and are strictly increasing (ice: up to freezing, water: up to boiling); sati(273.16) = 610.71 Pa and satw(373.15) = 101324.6 Pa. Both follow the Goff-Gratch formulas with the published coefficients, and below freezing the value over ice is never more than 25 Pa above that over water.", "quantifier": "every temperature", "why_tests_cant": "continuum", "anchors": ["pysnobal/point/libsnobal.py:sati", "pysnobal/point/libsnobal.py:satw"]}
{"id": "C34", "title": "Air pressure decreases with elevation", "statement": "The site pressure is positive, equals sea-level pressure at elevation 0, and is strictly decreasing in elevation below 44.3 km.", "quantifier": "every elevation", "why_tests_cant": "continuum", "anchors": ["pysnobal/core/functions.py:hysat", "pysnobal/point/snobal.py:Snobal.__init__"]}
{"id": "C35", "title": "Heat conduction goes from warm to cold", "statement": "The steady-state conduction between two layers has the sign of the temperature difference, is zero for equal temperatures, is antisymmetric under exchange of the layers, and is bounded by what either layer alone would conduct.", "quantifier": "every positive conductivity and thickness", "why_tests_cant": "continuum", "anchors": ["pysnobal/point/libsnobal.py:ssxfr"]}
{"id": "C36", "title": "Vapour diffusion only adds to conductivity", "statement": "The effective conductivity of a layer exceeds the dry conductivity whenever the layer's vapour pressure is between 0 and the air pressure and its temperature is between 0 K and 60C. The addition is the product of latent heat, diffusion coefficient and mixing ratio, the latent heat being that of vaporisation above freezing, of sublimation below it and their mean exactly at freezing.", "quantifier": "every temperature, pressure and conductivity", "why_tests_cant": "continuum", "anchors": ["pysnobal/point/libsnobal.py:efcon", "pysnobal/core/functions.py:diffusion_coef", "pysnobal/core/functions.py:mix_ratio"]}
{"id": "C37", "title": "Specific humidity is a fraction increasing with vapour pressure", "statement": "For 0 < e < P specific humidity lies strictly between 0 and 1 and strictly increases with e; virtual temperature is never below temperature.", "quantifier": "every e and P", "why_tests_cant": "continuum", "anchors": ["pysnobal/point/libsnobal.py:spec_hum", "pysnobal/core/functions.py:virtual_temperature"]}
{"id": "C38", "title": "Initial snowpack given in the documented unit crashes", "statement": "The initial snow temperatures are documented in Celsius but used as Kelvin: with any initial pack heavy enough to form a layer and a surface temperature <= 0, the first data step raises; and any initial pack deep enough for two layers raises at the first step because the lower-layer temperature cannot be configured.", "quantifier": "every initial pack and every first data step", "why_tests_cant": "tests start from bare ground", "anchors": ["pysnobal/point/snobal.py:Snobal.create_snow_state", "pysnobal/point/snobal.py:Snobal.init_snow", "pysnobal/pysnobal_core_config.ini"]}
{"id": "C39", "title": "relative_heights has no effect", "statement": "The configuration switch relative_heights does not influence any result.", "quantifier": "every configuration and forcing", "why_tests_cant": "requires comparing all runs", "anchors": ["pysnobal/point/snobal.py:Snobal.__init__", "pysnobal/point/snobal.py:Snobal.h_le", "pysnobal/pysnobal.py:PySnobal.parse_params"]}
{"id": "C40", "title": "Input window and number of results", "statement": "A run uses exactly the CSV records whose time lies in [start_date, end_date + data interval], in time order, with temperatures converted to Kelvin, precipitation that is partly rain not below freezing and everything else as in the file, whatever order they were in (the interval is the difference of the first two rows of the file, so a file in reverse order is clipped before end_date); a completed normal-mode run yields one result per consecutive pair, the k-th stamped start_date + k*normal_step; they coincide with record times when the data starts at start_date with spacing equal to the normal step.", "quantifier": "every CSV content and configuration", "why_tests_cant": "depends on order, gaps and boundaries", "anchors": ["pysnobal/pysnobal.py:PySnobal.read_input_data", "pysnobal/pysnobal.py:PySnobal.run"]}
{"id": "C41", "title": "Results never depend on the future", "statement": "Running a prefix of the records yields exactly the corresponding prefix of the output records.", "quantifier": "every record sequence and split point", "why_tests_cant": "all histories", "anchors": ["pysnobal/pysnobal.py:PySnobal.run", "pysnobal/point/snobal.py:Snobal.do_data_tstep"]}
{"id": "C42", "title": "All or nothing output file", "statement": "If any step of a run raises, nothing is written; if the window holds fewer than two records the run raises; otherwise the file holds every record.", "quantifier": "every run and crash point", "why_tests_cant": "every crash point", "anchors": ["pysnobal/pysnobal.py:PySnobal.run", "pysnobal/pysnobal.py:PySnobal.output_to_file"]}
{"id": "C43", "title": "Output column mapping", "statement": "The CSV has exactly the documented 25 columns, each holding the corresponding model quantity (averages for energy terms, sums for mass terms, Celsius for temperatures), with no duplicate columns, sorted by time.", "quantifier": "every run", "why_tests_cant": "all values", "anchors": ["pysnobal/pysnobal.py:PySnobal.output_to_file", "pysnobal/point/snobal.py:Snobal.init_output"]}
{"id": "C44", "title": "The gridded layer partition cannot run", "statement": "In the gridded snow state the layer count is a property without a setter, so the gridded calc_layers stops at its first assignment with an AttributeError and changes no cell. If the count were assignable, every cell would get the point model's layer depths, and cells with snow its layer count (for a positive mass threshold), but cells without snow would be reported as having one layer.", "quantifier": "every grid, threshold and active-layer depth", "why_tests_cant": "gridded code is untested; every cell state", "anchors": ["pysnobal/spatial/isnobal.py:iSnobal.calc_layers", "pysnobal/point/snow_state.py:SnowState.calc_layers", "pysnobal/spatial/snow_state.py:SnowState"]}
{"id": "C45", "title": "Ageing of very heavy packs ignores the step length", "statement": "The ageing increment of a pack lighter than 2000 kg/m2 is proportional to the run step length; at or above 2000 kg/m2 it is the same for every step length, so subdivided steps age the pack more.", "quantifier": "every state and step length", "why_tests_cant": "needs varying both mass and step length", "anchors": ["pysnobal/point/snobal.py:Snobal.time_compact"]}
{"id": "C46", "title": "Water is never lost, only created", "statement": "For valid records, in every run step and summed over every run, storage after plus runoff is at least storage before plus precipitation plus E_s: the model may report more water than came in (C18) but never less.", "quantifier": "every valid configuration, record sequence and history", "why_tests_cant": "an inequality over all histories", "anchors": ["pysnobal/point/snobal.py:Snobal.mass_balance", "pysnobal/point/snobal.py:Snobal.runoff", "pysnobal/point/snobal.py:Snobal.precip_event"]}
{"id": "C47", "title": "Liquid water left on bare ground runs off again in every run step", "statement": "When a pack disappears without its liquid-water store being reset, each later run step without snowfall reports that water again as runoff, and leaves it in store, so the reported total grows without bound.", "quantifier": "every history that leaves water in store", "why_tests_cant": "needs a rare sequence of drain and collapse; unbounded repetition", "anchors": ["pysnobal/point/snobal.py:Snobal.runoff", "pysnobal/point/snobal.py:Snobal.precip_event", "pysnobal/point/snobal.py:Snobal.adj_layers"]}
{"id": "C48", "title": "Stable turbulent fluxes never exceed the neutral ones", "statement": "When the potential air temperature is above the surface temperature and the air is at least as humid as the surface, friction velocity and sensible heat returned by hle1 are strictly below, and the vapour flux at most, the closed-form values of neutral stratification, whatever warm-start values it is given.", "quantifier": "every call with meaningful inputs and any warm start", "why_tests_cant": "a bound on the result of an iteration over all inputs", "anchors": ["pysnobal/point/libsnobal.py:hle1", "pysnobal/point/libsnobal.py:psi"]}
{"id": "C49", "title": "Unconverged turbulent fluxes are returned as valid, in the wrong direction", "statement": "There are inputs (air 20 K colder and drier than the surface, wind 0.5 m/s) for which hle1 gives up after 50 iterations, reports success, and returns a sensible heat flux of thousands of W/m2 from the cold air to the warm surface.", "quantifier": "existence; the status part for every call", "why_tests_cant": "tests only compare against converged values", "anchors": ["pysnobal/point/libsnobal.py:hle1"]}
{"id": "C50", "title": "Layer changes and cold content", "statement": "When a change of depth (ageing, snowfall, sublimation, melt) leaves a pack in place, the surface layer's cold content is unchanged; the lower layer's is unchanged while both layers exist, is discarded when the pack becomes a single layer, and is created from the mean pack temperature when a second layer appears. So total cold content is not conserved across layer changes, by exactly these amounts.", "quantifier": "every pack with consistent layers and every change of depth and mass that leaves it", "why_tests_cant": "an accounting identity over all layer layouts", "anchors": ["pysnobal/point/snobal.py:Snobal.adj_layers", "pysnobal/point/snobal.py:Snobal.adj_snow", "pysnobal/point/snobal.py:Snobal.time_compact"]}
{"id": "C51", "title": "What can stop a run step over snow", "statement": "A run step over a pack with sane values either returns, or raises the error raised by the turbulent-transfer routine, or raises a division by zero when melt, evaporation and drainage use up the pack's mass exactly; there is no other way for it to fail. At any point of any run, in dry, stable conditions over a dry pack (no precipitation, any wind, surface colder and no more humid than the air) it returns.", "quantifier": "every sane pack, site and input", "why_tests_cant": "absence of failures over all inputs", "anchors": ["pysnobal/point/snobal.py:Snobal.do_tstep", "pysnobal/point/snobal.py:Snobal.mass_balance", "pysnobal/point/snobal.py:Snobal.h_le"]}
{"id": "C52", "title": "When a pack forms on bare ground", "statement": "On bare ground a run step leaves a snow pack exactly when it has precipitation whose snow mass exceeds the smallest run-step mass threshold; otherwise the ground stays bare and at least all the precipitation runs off.", "quantifier": "every valid configuration, record sequence and history", "why_tests_cant": "all histories and every threshold", "anchors": ["pysnobal/point/snobal.py:Snobal.precip_event", "pysnobal/point/snow_state.py:SnowState.calc_layers", "pysnobal/point/snobal.py:Snobal.init_snow"]}
{"id": "C53", "title": "Gridded and point layer temperatures agree", "statement": "On one cell the gridded class computes the same layer temperatures as the point class whenever neither layer's cold content is positive, which holds in every run; with opposite non-zero cold contents only the point class calls the pack isothermal. The thermal conductivity and dry snow density of a cell are the point model's.", "quantifier": "every snow state", "why_tests_cant": "every cell state", "anchors": ["pysnobal/spatial/snow_state.py:SnowState", "pysnobal/point/snow_state.py:SnowState.adjust_layer_temps"]}
{"id": "C54", "title": "Why a pack disappears", "statement": "A run step removes a snow pack only if the pack's mass, before the step or with the step's precipitation and vapour exchange added, is at most the smallest run-step mass threshold, or the step melts at least the pack plus what fell on it. Otherwise the pack is still there after the step and its mass changed by exactly precipitation plus vapour exchange minus surface water input.", "quantifier": "every valid configuration, record sequence and history", "why_tests_cant": "all histories and every threshold", "anchors": ["pysnobal/point/snobal.py:Snobal.adj_layers", "pysnobal/point/snobal.py:Snobal.mass_balance", "pysnobal/point/snobal.py:Snobal.calc_layers"]}
{"id": "C55", "title": "Melt is paid for by energy", "statement": "In a run step over snow that has no warm (positive) cold content, the mass melted in the surface layer times the latent heat of fusion (333600 J/kg) is at most the surface energy of the step left after the layer's cold content is used up, and, if the pack was above the smallest threshold, no less than it; the lower layer melts at most what the heat entering it pays for. If the pack stays, the surface layer's cold content changes by exactly the energy of the step minus melt plus refreezing, and a layer that melts ends with no cold content. In particular snow whose cold content is not used up does not melt.", "quantifier": "every valid configuration, record sequence, history and run step over snow", "why_tests_cant": "an energy accounting identity over all histories", "anchors": ["pysnobal/point/snobal.py:Snobal.snowmelt", "pysnobal/point/snobal.py:Snobal.mass_balance", "pysnobal/point/snobal.py:Snobal.energy_balance"]}
{"id": "C56", "title": "Vapour exchange of a run step", "statement": "The vapour exchange reported by a run step over snow is the surface vapour flux times the length of the step plus the diffusion between the soil and the bottom snow layer over the step, computed from the saturation vapour pressures at the soil temperature and at the layer's temperature.", "quantifier": "every valid configuration, record sequence, history and run step over a pack that stays or that reports any vapour exchange", "why_tests_cant": "the identity must hold through ageing, precipitation and melt of the same step", "anchors": ["pysnobal/point/snobal.py:Snobal.evap_cond", "pysnobal/point/snobal.py:Snobal.mass_balance"]}
{"id": "C57", "title": "Energy terms of a run step", "statement": "In a run step over snow, net radiation is net solar plus 0.98 times (incoming thermal minus the black-body radiation of the surface); advected heat is the heat of the step's rain and snow relative to the surface, per second, and zero without precipitation; both energy sums are the sums of their terms; with one layer the conduction into the snow and into the surface layer are the same. Heat is conducted from warm to cold between soil and bottom layer and between the layers. Both conduction terms follow the steady-state formula 2 k1 k2 (t2 - t1)/(k2 d1 + k1 d2) with the conductivities of dry snow of that density and of moist sand, each increased by vapour diffusion.", "quantifier": "every valid configuration, record sequence, history and run step over snow", "why_tests_cant": "sign and identity over all temperatures and layer layouts", "anchors": ["pysnobal/point/snobal.py:Snobal.energy_balance", "pysnobal/point/snobal.py:Snobal.net_rad", "pysnobal/point/snobal.py:Snobal.heat_transfer", "pysnobal/point/snobal.py:Snobal.advec", "pysnobal/point/libsnobal.py:ssxfr"]}
{"id": "C58", "title": "Still air exchanges nothing", "statement": "In a run step without wind, sensible heat, latent heat and the surface vapour flux are exactly zero, whatever the stratification, the snow and the preceding run steps (whose friction velocity the next step starts from); in stable air such a step does not raise.", "quantifier": "every valid configuration, record sequence, history and run step with zero wind", "why_tests_cant": "holds for every warm start left by every history", "anchors": ["pysnobal/point/snobal.py:Snobal.h_le", "pysnobal/point/libsnobal.py:hle1"]}
{"id": "C59", "title": "Stable air warms and feeds the snow in every run", "statement": "In a run step over snow with wind, air whose potential temperature is above the surface temperature and which is at least as humid as the surface: sensible heat is positive, latent heat and vapour flux are not negative (positive if the air is more humid), and both stay below the closed form for neutral stratification; this holds whatever friction velocity and transfer factor earlier run steps left as starting values, including negative ones.", "quantifier": "every configuration, record sequence, history and run step over snow in stable humid air", "why_tests_cant": "the starting values of the iteration depend on the whole history", "anchors": ["pysnobal/point/snobal.py:Snobal.h_le", "pysnobal/point/snobal.py:Snobal._hle1_init", "pysnobal/point/libsnobal.py:hle1", "pysnobal/point/libsnobal.py:psi"]}
{"id": "C60", "title": "Water runs off only from a saturated pack", "statement": "After a run step that keeps its pack, the pack holds no more liquid than its pores can hold for its depth and dry mass; the reported saturation is the liquid over that capacity, the liquid volume fraction is the saturation times the configured maximum, and if any water ran off in the step the pack is exactly saturated.", "quantifier": "every valid configuration, record sequence, history and run step over a pack that stays and is not above freezing", "why_tests_cant": "capacity depends on depth and density after ageing, precipitation, melt, evaporation and compaction of the same step", "anchors": ["pysnobal/point/snobal.py:Snobal.runoff", "pysnobal/point/snobal.py:Snobal.mass_balance"]}
{"id": "C61", "title": "Cold snow is dry", "statement": "After a run step that keeps its pack: a pack no deeper than the surface layer that got no precipitation and still has negative cold content holds no liquid water and nothing ran off; the same for a pack of two layers, both with negative cold content, in a step without rain or melt. What refreezes is at most the liquid present, and a dry pack without melt or precipitation changes its surface cold content by exactly the energy it received.", "quantifier": "every valid configuration, record sequence, history and run step over a pack that stays and is not above freezing", "why_tests_cant": "refreezing, evaporation and drainage interact within a step; must hold for every split of energy and water", "anchors": ["pysnobal/point/snobal.py:Snobal.snowmelt", "pysnobal/point/snobal.py:Snobal.evap_cond", "pysnobal/point/snobal.py:Snobal.runoff", "pysnobal/point/snobal.py:Snobal.mass_balance"]}
{"id": "C62", "title": "Temperatures follow the cold contents", "statement": "After a run step that keeps its pack, the temperature of each layer is freezing plus its cold content over (its mass times the specific heat of ice at the temperature it had before), and likewise for the whole pack; so a layer is below freezing exactly if its cold content is negative, at freezing exactly if it is zero, and the pack is below freezing exactly if one of its layers is.", "quantifier": "every valid configuration, record sequence, history and run step over a pack that stays and is not above freezing", "why_tests_cant": "layer masses change several times between the energy balance and the temperature update", "anchors": ["pysnobal/point/snobal.py:Snobal.mass_balance", "pysnobal/point/snow_state.py:SnowState.adjust_layer_temps", "pysnobal/point/snow_state.py:SnowState.isothermal", "pysnobal/core/snow.py:new_tsno"]}
{"id": "C63", "title": "The output mode only selects what is written", "statement": "Running the same configuration and input in the normal and in the 'all' output mode simulates the same snow: either both runs raise the same exception, or both write a file and each line of the normal file summarises the consecutive lines of the 'all' file of that data step - same date and same snow state as the last of them, evaporation, melt and runoff their totals, energy fluxes their time-weighted means - with no line of the 'all' file left over.", "quantifier": "every configuration with 0 < small <= medium <= normal, every initial state, measurement heights, window and input file", "why_tests_cant": "relates two executions of arbitrary length whose internal running means differ at every step", "anchors": ["pysnobal/point/snobal.py:Snobal.do_tstep", "pysnobal/point/snobal.py:Snobal.divide_tstep", "pysnobal/point/snobal.py:Snobal.output", "pysnobal/point/snow_state.py:SnowState.time_average", "pysnobal/point/snow_state.py:SnowState.value_to_bar", "pysnobal/pysnobal.py:PySnobal.output_to_file"]}
{"id": "C64", "title": "Results do not depend on the calendar", "statement": "Moving the start date, the end date and every date of the input file by the same amount moves the dates of the output lines by that amount and changes nothing else: the same values are written, or the same exception is raised.", "quantifier": "every configuration, initial state, measurement heights, output mode, input file and shift; any arithmetic, including binary64", "why_tests_cant": "relates two executions of arbitrary length over every input", "anchors": ["pysnobal/pysnobal.py:PySnobal.run", "pysnobal/pysnobal.py:PySnobal.read_input_data", "pysnobal/pysnobal.py:PySnobal.output_to_file", "pysnobal/point/snobal.py:Snobal.do_tstep", "pysnobal/point/snobal.py:Snobal.output"]}
{"id": "C65", "title": "The precipitation of the last record is ignored", "statement": "The precipitation of a record falls in the data step that starts at it, so the precipitation columns of the last record in the window have no effect: two input files that differ only there give the same output file, or raise the same exception.", "quantifier": "every configuration, initial state, output mode, input file with at least two records in the window and pair of acceptable last precipitations; any arithmetic, including binary64", "why_tests_cant": "relates two executions of arbitrary length over every input", "anchors": ["pysnobal/point/snobal.py:Snobal.do_data_tstep", "pysnobal/point/input.py:InputDeltas", "pysnobal/pysnobal.py:PySnobal.run"]}
{"id": "C66", "title": "More radiation is passed on in full and never melts less", "statement": "Two run steps from the same state and over snow, whose inputs differ only by x >= 0 more net solar and y >= 0 more incoming thermal radiation: net radiation and both energy sums are larger by exactly x + 0.98 y, the other energy terms are the same, and the melt is no smaller, by at most (x + 0.98 y) * seconds / 333600. Without snow the resulting state is the same.", "quantifier": "every environment, state, deltas, step length and input for which both steps return", "why_tests_cant": "relates pairs of executions through compaction, precipitation, energy balance and melt for every state", "anchors": ["pysnobal/point/snobal.py:Snobal.energy_balance", "pysnobal/point/snobal.py:Snobal.net_radiation", "pysnobal/point/snobal.py:Snobal.snowmelt", "pysnobal/point/snobal.py:Snobal.mass_balance", "pysnobal/point/snobal.py:Snobal.do_tstep"]}
{"id": "C67", "title": "Formatted output shows the numbers", "statement": "With format_output, a run that would write a file writes one with the same lines, dates and columns; every cell is a decimal numeral with the documented number of decimals (3 for fluxes, masses and density, 5 for temperatures, 6 for depths, 8 for evaporation, melt and runoff), within half a unit of its last decimal, or for cold contents scientific notation with 9 decimals and relative error at most 5e-10; signs are kept, and the printed numbers of a fixed-point column are in the order of the numbers.", "quantifier": "every run that completes; every real value of every column", "why_tests_cant": "must hold for every number, including ties and carries into a new digit", "anchors": ["pysnobal/pysnobal.py:PySnobal.output_to_file"]}
{"id": "C68", "title": "Depth grows only by what is added", "statement": "In a run step over snow of at most 600 kg/m3 the depth of the snow cover grows by no more than the depth of the new snow, 1 m for each 600 kg/m2 of rain (rain on the densest snow deepens it) and the vapour deposited from the air and from the soil, at the density of the snow. So over any spell of consecutive run steps without precipitation, without vapour from the air and with soil no warmer than the snow, the snow cover never gets deeper, whatever melts, drains, refreezes or settles.", "quantifier": "every configuration, input, run prefix and spell of run steps of a run", "why_tests_cant": "compaction, melt, evaporation, drainage and the disappearance of layers all change depth; the claim is about every state and spells of any length", "anchors": ["pysnobal/point/snobal.py:Snobal.mass_balance", "pysnobal/point/snobal.py:Snobal.precip_event", "pysnobal/point/snobal.py:Snobal.time_compact", "pysnobal/point/snobal.py:Snobal.snowmelt", "pysnobal/point/snobal.py:Snobal.evap_cond", "pysnobal/point/snow_state.py:SnowState.adj_snow"]}
{"id": "C69", "title": "A new pack is the snowfall", "statement": "When a run step that starts without snow ends with a snow cover, that step had snowfall, and the pack has exactly its depth, density, mass, temperature (at most freezing) and water saturation, with the cold content of ice of each layer's mass at that temperature and the water capacity that the configured share of its pores gives; it is heavier than the smallest threshold, and nothing melts or evaporates in that step.", "quantifier": "every configuration, input, run prefix and run step of a run", "why_tests_cant": "must hold at every point of every history at which snow reappears", "anchors": ["pysnobal/point/snobal.py:Snobal.precip_event", "pysnobal/point/snobal.py:Snobal.init_snow", "pysnobal/point/snow_state.py:SnowState.calc_layers"]}
{"id": "C70", "title": "Turbulent fluxes satisfy the flux-profile relations", "statement": "Whatever warm start it is given, a call of the turbulent transfer routine that returns reports a friction velocity, a sensible heat flux and a vapour flux that satisfy the Monin-Obukhov flux-profile relations for one Obukhov length, the length of the preceding approximation; the latent heat flux is the vapour flux times the latent heat of sublimation (snow) or vaporisation. The vapour pressure used is limited to saturation over water. If the iteration passed its convergence test, the fluxes that gave that length satisfy the relations for a length within 1e-5, absolutely and relatively. The fluxes of every run step over snow are of this kind.", "quantifier": "every pressure, temperature, vapour pressure, wind, height and roughness for which a call returns, every warm start; every run step over snow of every run", "why_tests_cant": "the loop stops after a data-dependent number of rounds and its answer depends on the warm start", "anchors": ["pysnobal/point/libsnobal.py:hle1", "pysnobal/point/libsnobal.py:psi", "pysnobal/point/snobal.py:Snobal.h_le"]}
{"id": "C71", "title": "Law of depth, density and mass of a run step", "statement": "In a run step that keeps its pack, of positive density at most 600 kg/m3, mass and depth after the step follow from the state before, precipitation, melt, evaporation and runoff: the snow first ages (destructive metamorphism and overburden, slower for packs lighter than 2000 kg/m2, none above 550 kg/m3), then gains the depth and mass of the precipitation, loses the depth but not the mass of the melt, changes by the vapour exchanged (half its depth), moves towards 550 kg/m3 by melt and rain relative to its mass, and loses the mass but not the depth of the runoff; the liquid water evaporation and runoff draw on is the water that was in the pack, fell as liquid or melted, less what refroze, and the surface layer refreezes at most what its cold content pays for; no stage leaves it denser than 600 kg/m3 except ageing and wetting. In a quiet step (no precipitation, melt, vapour or runoff) the mass is kept and the density is what ageing makes of it, at most 600.", "quantifier": "every configuration, input, run prefix and run step of a run", "why_tests_cant": "the law composes six stages whose branches depend on state and forcing; it must hold at every step of every history", "anchors": ["pysnobal/point/snobal.py:Snobal.mass_balance", "pysnobal/point/snobal.py:Snobal.time_compact", "pysnobal/point/snobal.py:Snobal.precip_event", "pysnobal/point/snobal.py:Snobal.snowmelt", "pysnobal/point/snobal.py:Snobal.evap_cond", "pysnobal/point/snobal.py:Snobal.h2o_compact", "pysnobal/point/snobal.py:Snobal.runoff", "pysnobal/point/snow_state.py:SnowState.adj_snow"]}
{"id": "C72", "title": "A small step longer than the medium one stops the clock over thin snow", "statement": "The three sub-steps are not required to decrease. If the small step is longer than the medium one, a data step that starts on a pack whose layers are thin for both the normal and the medium threshold executes no run step: clock and snow are unchanged, and stay so for ever whatever records follow; with one record per data step it still writes a record carrying the old date, unless it is the first data step, which raises.", "quantifier": "every configuration with medium < small, every state with such a pack, every sequence of later records", "why_tests_cant": "must hold for every later history", "anchors": ["pysnobal/pysnobal.py:PySnobal.parse_time_steps", "pysnobal/point/snobal.py:Snobal.divide_tstep", "pysnobal/point/snobal.py:Snobal.output"]}
{"id": "C73", "title": "Water budget of the written file", "statement": "For a completed run whose configured steps divide evenly, whatever the output mode: the mass of the initial snow, plus the precipitation of every input record used except the last, plus the evaporation/condensation summed over the file's lines, is at most the snow mass of the last line plus the surface water input summed over the lines. No water is lost between the input file and the output file.", "quantifier": "every configuration with evenly dividing steps, every initial state, every valid input file and both output modes, for every run that completes", "why_tests_cant": "the file is the only thing a user sees; the budget must telescope over every run step of every history, also where packs form and disappear", "anchors": ["pysnobal/pysnobal.py:PySnobal.run", "pysnobal/pysnobal.py:PySnobal.read_input_data", "pysnobal/point/snobal.py:Snobal.run", "pysnobal/point/snobal.py:Snobal.output"]}
{"id": "C74", "title": "Water balances from line to line", "statement": "With a line per run step, take the line of the initial state or of any later step and the next one, and the share of the precipitation of the record in force that falls in between: mass plus share plus evaporation is at most the next mass plus surface water input, and equal to it if the first line's mass is above the smallest layer threshold and the next line's mass is positive.", "quantifier": "every configuration with evenly dividing steps, valid input file and pair of consecutive lines of the file of a completed run", "why_tests_cant": "must hold between any two lines of any file, whichever sub-steps were chosen", "anchors": ["pysnobal/pysnobal.py:PySnobal.run", "pysnobal/point/snobal.py:Snobal.do_tstep", "pysnobal/point/snobal.py:Snobal.output"]}
{"id": "C75", "title": "Every written line is sensible", "statement": "Every line of the output file of a completed run satisfies, by its own columns: depth and mass are the sums over the two layers and mass is density times depth; cold content is the sum over the layers; an absent lower layer has no mass, no cold content and temperature -75 C; with a lower layer the surface layer has its maximal depth; lower depth, liquid water, melt and surface water input are not negative; a line without depth has no mass, density or cold content and temperatures -75 C; the energy columns add up. If new snow is never denser than 600 kg/m3, no line shows a density above 600.", "quantifier": "every configuration, initial state, valid input file and output mode, every line of the file of a completed run", "why_tests_cant": "must hold for every line of every file", "anchors": ["pysnobal/pysnobal.py:PySnobal.run", "pysnobal/point/snobal.py:Snobal.output", "pysnobal/point/snow_state.py:SnowState.calc_layers"]}
{"id": "C76", "title": "Runoff can exceed the snow that is left", "statement": "Runoff is taken off the mass without comparing the two. In a step that keeps its pack (density positive, at most 600), the liquid water after the step plus the runoff is at most the water at hand: water before, liquid precipitation, melt and liquid condensation. So the mass stays non-negative if the water at hand is at most the mass before plus precipitation and vapour exchange; otherwise it can become negative, together with the density, and both are written to the file: there is a run over ordinary weather that does so. Below density 550 a pack with at most the smallest threshold's mass is gone after the next run step.", "quantifier": "every configuration, input, run prefix and run step of a run; the negative line is a concrete binary64 run", "why_tests_cant": "the sign depends on how much melts in one step; no finite set of inputs settles when it stays positive", "anchors": ["pysnobal/point/snobal.py:Snobal.runoff", "pysnobal/point/snobal.py:Snobal.snowmelt", "pysnobal/point/snobal.py:Snobal.time_compact", "pysnobal/point/snow_state.py:SnowState.adj_snow"]}
{"id": "C77", "title": "Gridded states share arrays: sums overwrite what they sum", "statement": "The attributes of a gridded snow state are references to arrays; value_to_bar binds the sums to the arrays of the amounts and time_average adds to the sums in place. If no sum shares its array with another attribute, every cell behaves like a point: both methods leave in it what the point model's methods leave, and change nothing else. Otherwise they do not: time_average right after value_to_bar doubles the evaporation, melt and surface water input themselves; and if the three amounts were zeroed before value_to_bar (as they are in a new state), a time_average after the next amounts are assigned writes their total into the shared zero grid, so that every attribute still referring to it (depth, density, mass, temperature... of a new state) and all three sums read that total, and set_zeros sets that total from then on.", "quantifier": "every gridded state, grid, pair of time weights and amounts, any number type", "why_tests_cant": "a matter of aliasing: must hold for every history of assignments that leads to a shared or unshared array", "anchors": ["pysnobal/spatial/snow_state.py:SpatialSnowState.value_to_bar", "pysnobal/spatial/snow_state.py:SpatialSnowState.time_average", "pysnobal/point/snow_state.py:SnowState.__init__", "pysnobal/point/snow_state.py:SnowState.set_zeros"]}
{"id": "C78", "title": "No line of the file shows warm snow", "statement": "In a file with a line per run step, of a run that starts on bare ground and whose lines show no temperature below absolute zero: no line shows a positive cold content in either layer, and every line that shows snow shows temperatures of at most 0 C for the pack and its layers.", "quantifier": "every configuration, valid input file with precipitation temperatures above absolute zero, and line of the file of a completed run", "why_tests_cant": "must hold for every line of every file, through every way packs form, melt and split into layers", "anchors": ["pysnobal/pysnobal.py:PySnobal.run", "pysnobal/point/snobal.py:Snobal.output", "pysnobal/point/snobal.py:Snobal.cold_content", "pysnobal/point/snow_state.py:SnowState.adjust_layer_temps"]}
{"id": "C79", "title": "The melt shown in the file is paid for by the energy shown in it", "statement": "Under the same conditions: between two consecutive lines the melt shown in the second times the latent heat of fusion (333600 J/kg) is at most the cold content of the first line plus surface energy (delta_Q_0 times the seconds between the lines), as far as positive, plus the energy the lower layer gained, as far as positive; if the first line's mass is above the threshold and the second's is not zero, the surface cold content changes by exactly that surface energy less the heat of the water melted plus that of the water refrozen, and nothing refreezes at the surface if something melts there. Summed over any stretch of lines with snow, and over the whole file, the melt never exceeds the energy supplied.", "quantifier": "every configuration, valid input file, pair and stretch of consecutive lines of the file of a completed run", "why_tests_cant": "an energy budget over arbitrarily many lines whose number and spacing depend on the snow", "anchors": ["pysnobal/pysnobal.py:PySnobal.run", "pysnobal/point/snobal.py:Snobal.snowmelt", "pysnobal/point/snobal.py:Snobal.energy_balance", "pysnobal/point/snobal.py:Snobal.output"]}
{"id": "C80", "title": "Bare ground forgets", "statement": "What a run writes after a date at which the ground is bare depends on the past only through the water still booked from the vanished pack, the depth shown and the start values of the turbulent transfer iteration: two runs with the same settings that agree in these at that date, whatever their earlier start, initial snow and records, go on to write the same lines or to raise the same exception. In particular, if a run starts on bare ground and the first lines of its file show no snow, then starting at the date of the last of these lines gives exactly the rest of the file.", "quantifier": "every pair of runs of the same configuration, every date at which both are on bare ground, every continuation; every file with one record per normal step and every snow-free beginning", "why_tests_cant": "independence of the past is a statement about pairs of histories; tests compare single runs", "anchors": ["pysnobal/point/snobal.py:Snobal.do_data_tstep", "pysnobal/point/snobal.py:Snobal.do_tstep", "pysnobal/point/snobal.py:Snobal.energy_balance", "pysnobal/point/snobal.py:Snobal.output", "pysnobal/pysnobal.py:PySnobal.run"]}
{"id": "C81", "title": "A run starts from the configured pack", "statement": "If the configured initial density times depth exceeds the mass threshold of the small step (and the depth is positive), the run starts with that depth, density and mass, split at the active layer depth unless the part below is lighter than the threshold; with the configured mean and surface temperature, the lower layer at 0 K; with the cold content of each layer for its temperature and mass; and with the configured saturation of a water holding capacity computed from depth, density and the maximum water volume fraction. Otherwise it starts from bare ground (all masses, depths and water zero, temperatures -75 C). The first date is the start date and nothing is written yet.", "quantifier": "every valid configuration and initial pack", "why_tests_cant": "every depth, density, temperature and saturation, at and around the thresholds", "anchors": ["pysnobal/point/snobal.py:Snobal.create_snow_state", "pysnobal/point/snobal.py:Snobal.init_snow", "pysnobal/point/snobal.py:Snobal.cold_content", "pysnobal/point/snow_state.py:SnowState.calc_layers"]}
{"id": "C82", "title": "Vapour pressure of arrays", "statement": "The array versions of the saturation vapour pressure (over water, and over ice or water) return an array of the same shape whose entry is, wherever the scalar function would return a value, exactly that value, for every mixture of entries above and below freezing and whatever np.empty found in memory; entries that are negative or nan give nan instead of an exception. They also overwrite the negative entries of the caller's own array by nan and leave its other entries as they are. Positive temperatures always get a positive pressure.", "quantifier": "every array of temperatures of any length and mixture, every content of uninitialised memory", "why_tests_cant": "every mixture of masks and lengths, and memory contents a test cannot choose", "anchors": ["pysnobal/point/libsnobal.py:satw_np", "pysnobal/point/libsnobal.py:sati_np"]}
{"id": "C83", "title": "The gridded model cannot be used", "statement": "Constructing the gridded model raises an exception for all parameters, time steps, initial conditions and measurement heights, whatever its methods compute: it passes an argument to the initialisation of the snow, which takes none, and it calls a method for the measurement heights that neither class defines, so that repairing the first alone does not help. Running the gridded wrapper raises even if the class is replaced by any other, because its loop refers to a name that is not defined in the module, and the loop body to a second one.", "quantifier": "all arguments, all behaviours of the methods and functions called, every replacement class", "why_tests_cant": "a failure for every input and every behaviour of the parts that work; a test shows one failing call", "anchors": ["pysnobal/spatial/isnobal.py:iSnobal.__init__", "pysnobal/ipysnobal.py:iPySnobal.run", "pysnobal/point/snobal.py:Snobal.init_snow"]}
{"id": "C84", "title": "Running water budget of a file", "statement": "At every line of the output file, not only the last: the snow mass shown is at most the initial snow, the precipitation fallen until the date of the line (each record evenly over its period) and what condensed until then; and the initial snow, that precipitation and the vapour exchanged until then are at most the snow shown and the runoff until then. Without precipitation and condensation the snow never exceeds the initial snow.", "quantifier": "every valid configuration with step lengths that divide, valid input file, line of the file of a completed run, in either output mode", "why_tests_cant": "a bound at every line of files of any length, whose lines depend on the snow", "anchors": ["pysnobal/pysnobal.py:PySnobal.run", "pysnobal/point/snobal.py:Snobal.mass_balance", "pysnobal/point/snobal.py:Snobal.precip_event", "pysnobal/point/snobal.py:Snobal.evap_cond", "pysnobal/point/snobal.py:Snobal.output"]}
{"id": "C85", "title": "The dates of the records only select and order them", "statement": "Two input files of which the same records in the same order fall into the window give the same output file, dates included, or the same exception, whatever the dates of these records (as long as none occurs twice): each pair of consecutive records is one data step of the normal length. So a gap in the input goes unnoticed, and after it the output is dated too early.", "quantifier": "every pair of input files and windows, every configuration, in either output mode", "why_tests_cant": "a statement about pairs of files with arbitrary dates", "anchors": ["pysnobal/pysnobal.py:PySnobal.read_input_data", "pysnobal/pysnobal.py:PySnobal.run", "pysnobal/point/snobal.py:Snobal.do_data_tstep"]}
{"id": "C86", "title": "Without precipitation its columns have no effect", "statement": "Replacing the precipitation amount, percentage of snow, snow density and precipitation temperature of records without precipitation by those of any others without precipitation (amount zero or negative) gives the same output file or the same exception. In binary64 a missing amount (nan) is silently taken as no precipitation.", "quantifier": "every pair of input files that differ in this way in any number of records, every configuration, in either output mode", "why_tests_cant": "a statement about pairs of runs and all values of four columns, including nan", "anchors": ["pysnobal/point/input.py:InputData", "pysnobal/point/input.py:InputDeltas", "pysnobal/point/snobal.py:Snobal.precip_event", "pysnobal/point/snobal.py:Snobal.advec", "pysnobal/point/snobal.py:Snobal.h2o_compact", "pysnobal/point/snobal.py:Snobal.do_tstep"]}
{"id": "C87", "title": "Before the first snowfall the weather has no effect", "statement": "In a run that starts on bare ground, the radiation, air temperature, vapour pressure, wind and soil temperature of the records dated before any time up to which no snow falls can be replaced by anything, missing values included: the output file, or the exception, is the same. Rain may fall in these records.", "quantifier": "every pair of input files that differ in this way, every time, every configuration, in either output mode", "why_tests_cant": "a statement about pairs of runs and all values of six columns, including nan", "anchors": ["pysnobal/point/snobal.py:Snobal.do_tstep", "pysnobal/point/snobal.py:Snobal.energy_balance", "pysnobal/point/snobal.py:Snobal.mass_balance", "pysnobal/point/snobal.py:Snobal.precip_event", "pysnobal/point/input.py:InputDeltas", "pysnobal/pysnobal.py:PySnobal.run"]}
{"id": "C88", "title": "Invariants that survive rounding", "statement": "In IEEE double precision, whatever the mathematical library returns for exp, log, pow, sqrt, cos and atan, rounding, overflow, underflow and missing values included: no run step's melt and no entry of the melt column of the output file is negative; if the pack lasts through a run step its runoff is not negative and it holds no more liquid water than it can; and if no state of the run is below absolute zero, no cold content is positive and no temperature of snow of non-negative mass is above freezing (a value that is nan counts as satisfying a bound).", "quantifier": "every configuration and input file of doubles, every behaviour of the mathematical library, every run step of every completed run and line of every file", "why_tests_cant": "a statement about all double inputs and all rounding errors; tests compare a few runs with recorded output", "anchors": ["pysnobal/point/snobal.py:Snobal.snowmelt", "pysnobal/point/snobal.py:Snobal.adj_layers", "pysnobal/point/snobal.py:Snobal.runoff", "pysnobal/point/snobal.py:Snobal.cold_content", "pysnobal/point/snow_state.py:SnowState.adjust_layer_temps", "pysnobal/point/snow_state.py:SnowState.calc_layers", "pysnobal/core/snow.py:new_tsno", "pysnobal/pysnobal.py:PySnobal.run"]}
{"id": "C89", "title": "Time zones", "statement": "Among time zones whose clocks are always equally far from UTC the choice has no effect on a run but for the offset written after each date. In any zone, a run whose configured dates and records fall in a period of constant offset writes the values the run in UTC writes for the same clock times, each at the same instant. A clock time that the zone shows never or twice - of any record in the input file, also outside the simulated period, or a configured one - makes the run raise; so do records at regular clock times across a daylight-saving change, in spring and autumn, if their interval is not longer than the clocks are moved.", "quantifier": "every zone (any function giving offsets of less than a day), every clock change, every configuration and input file", "why_tests_cant": "a statement about pairs of runs, all zones and all instants; tests use one zone", "anchors": ["pysnobal/pysnobal.py:PySnobal.parse_params", "pysnobal/pysnobal.py:PySnobal.read_input_data", "pysnobal/pysnobal.py:PySnobal.run", "pysnobal/pysnobal_core_config.ini"]}
{"id": "C90", "title": "Columns of the input file are found by name", "statement": "The ten values of a record are taken from the columns of the documented names: the order of the columns and any further columns have no effect on the output file, unless a further column has one of the names the model uses itself. A column named S_n, I_lw, e_a or u replaces net_solar, incoming_thermal, vapor_pressure or wind_speed if it stands to its right and is ignored if it stands to its left. If a documented column is missing (and no column with the model's name stands in for one of those) the run raises.", "quantifier": "every header, every number and position of further columns, every input file and configuration", "why_tests_cant": "a statement about all tables and pairs of runs; tests use one file layout", "anchors": ["pysnobal/pysnobal.py:PySnobal.read_input_data", "pysnobal/pysnobal.py:PySnobal.map_input_data", "pysnobal/pysnobal.py:PySnobal.run", "pysnobal/point/input.py:InputData"]}
{"id": "C91", "title": "A run depends on config and input file only", "statement": "Whatever public methods were called on a PySnobal object before (parse_params, parse_time_steps, read_input_data, map_input_data, run, output_to_file, in any order and any number of times, exceptions caught), and whatever was done with its snobal attribute, run does what it does on a new object: it writes the same file, or raises the same exception and leaves the file on disk alone. Calling run or output_to_file after a finished run leaves the file as it is. Only run and output_to_file change the file on disk, and only when they return.", "quantifier": "every history of calls on an object, every configuration, every input file", "why_tests_cant": "a statement about all call histories; tests make an object, run it once and compare one file", "anchors": ["pysnobal/pysnobal.py:PySnobal.__init__", "pysnobal/pysnobal.py:PySnobal.run", "pysnobal/pysnobal.py:PySnobal.read_input_data", "pysnobal/pysnobal.py:PySnobal.map_input_data", "pysnobal/pysnobal.py:PySnobal.output_to_file", "pysnobal/pysnobal.py:PySnobal.parse_time_steps"]}
{"id": "C92", "title": "Snow that reaches the instruments stops the run", "statement": "In a file that run writes, in either output mode, every line with snow that is followed by another line shows a snow depth which together with 4.9 roughness lengths z_0 (z_0 is positive) stays below both the wind sensor height z_u and the temperature sensor height z_t, and a surface temperature above absolute zero. With new snow of at most 600 kg/m3 the mass on such a line is below 600 times the height of the lower sensor less 4.9 z_0. A run that starts from a snowpack and writes a line started with the sensors free and a surface temperature above 0 K.", "quantifier": "every valid configuration, every input file of valid records, every line of the file but the last", "why_tests_cant": "needs every depth, height and weather, along a whole run; a unit test sees one buried sensor raise", "anchors": ["pysnobal/pysnobal.py:PySnobal.run", "pysnobal/point/snobal.py:Snobal.do_data_tstep", "pysnobal/point/snobal.py:Snobal.h_le", "pysnobal/point/libsnobal.py:hle1", "pysnobal/point/snobal.py:Snobal.__init__"]}
{"id": "C93", "title": "Step lengths must be ordered to get a file", "statement": "parse_time_steps accepts any positive step lengths. With a medium or small step longer than the normal one no run writes a file. With a small step longer than the medium one, a data step that starts with snow of which some layer is lighter than both norm_threshold and medium_threshold simulates nothing: the snow, the clock and the record of executed steps stay as they are, and so for every later data step of the file; normal mode appends the same record, with the same date, once per data step, and mode 'all' appends none. A run that starts from such a pack writes no file.", "quantifier": "every configuration with positive step lengths, every weather, every state with light snow, every number of remaining records; every number type (reals and binary64)", "why_tests_cant": "ranges over all step lengths, states and lengths of the input; tests use 60/15/1", "anchors": ["pysnobal/pysnobal.py:PySnobal.parse_time_steps", "pysnobal/point/snobal.py:Snobal.do_data_tstep", "pysnobal/point/snobal.py:Snobal.divide_tstep", "pysnobal/point/input.py:InputDeltas.calculate"]}
{"id": "C94", "title": "The shipped defaults are sound", "statement": "A user who gives only the elevation, the two dates and the files gets a run with the defaults of pysnobal_core_config.ini (steps of 60, 15 and 1 minutes, thresholds 60, 10 and 1, sensors at 5 m, no snow), and these meet every validity condition the other properties ask of a configuration, with step lengths that divide evenly. With them a season without snowfall (two usable records or more, distinct dates, any weather, elevation below 44307 m) always gives a file. Leaving out the medium step while giving a normal step below 15 minutes never gives a file; giving an initial pack by depth and density only (heavier than 1 kg/m2), leaving its temperatures to their default 0, always stops the run with an exception.", "quantifier": "every user configuration with the named settings present or absent (in any order, among any others), every input file", "why_tests_cant": "ranges over all configurations and files; tests use one configuration", "anchors": ["pysnobal/pysnobal_core_config.ini:model", "pysnobal/pysnobal.py:PySnobal.parse_params", "pysnobal/pysnobal.py:PySnobal.parse_time_steps", "pysnobal/pysnobal.py:PySnobal.run", "pysnobal/point/snobal.py:Snobal.create_snow_state", "pysnobal/point/snow_state.py:SnowState.set_from_dict"]}
{"id": "C95", "title": "What the second record of a data step can change", "statement": "A data step that starts without thin snow (bare ground, or every layer at least as heavy as norm_threshold) does not see its second record: it ends in the same state, with the same output and clock, or the same exception, whatever that record holds. Hence the last record of the input has no effect at all on a run that reaches it without thin snow. In a subdivided data step net solar, thermal radiation, air temperature, wind and soil temperature of every run step lie between the two records' values, short of the second's.", "quantifier": "every state, every pair of alternative second records, every configuration; every number type for the first two parts, reals and step lengths that divide evenly for the third", "why_tests_cant": "quantifies over pairs of runs that differ in a record, and over all states and subdivisions", "anchors": ["pysnobal/point/snobal.py:Snobal.do_data_tstep", "pysnobal/point/snobal.py:Snobal.divide_tstep", "pysnobal/point/snobal.py:Snobal.do_tstep", "pysnobal/point/input.py:InputDeltas.calculate", "pysnobal/point/input.py:InputData.add_deltas"]}
{"id": "C96", "title": "A pack that may hold no water", "statement": "The configuration accepts max_h2o = 0. Then the pack holds no water before or after any run step that completes without dividing by zero, and every such step that starts and ends with snow has drained something: it melted snow or had rain (for densities up to 600). So in an all-mode file whose divisions are all defined, two consecutive lines with snow mean runoff on the second, and melt when there is no rain. A dry frosty step over a uniformly frozen one-layer pack has nothing to drain: its saturation is 0/0 (a ZeroDivisionError, or not-a-number when the numbers are numpy scalars), so no such run completes with all its divisions defined, in either mode.", "quantifier": "every run and file with max_h2o = 0, any valid set-up, any records; for the last part any depth and density of one uniformly frozen layer and any records of dry still frost", "why_tests_cant": "ranges over all configurations with max_h2o = 0 and all forcing histories", "anchors": ["pysnobal/point/snobal.py:Snobal.runoff", "pysnobal/point/snobal.py:Snobal.h2o_compact", "pysnobal/core/snow.py:h2o_left", "pysnobal/pysnobal_core_config.ini:max_h2o"]}
{"id": "C97", "title": "Exactly which inputs the turbulent-flux routine rejects", "statement": "hle1 raises ValueError exactly if the roughness length is not positive, a height is not more than 4.9 roughness lengths (its own check asks for more than one), a temperature is not positive, a vapour pressure is not positive or not below the air pressure, or the air holds more than 25 Pa above saturation over water; the wind and the start values of the iteration play no part. It raises UnboundLocalError exactly if none of this holds, the air has the surface's potential temperature and no height is exactly 5.9 roughness lengths. Anything else it raises is a division by zero. In the model, a run step over a sound pack raises ValueError exactly if the snow surface is within 4.9 roughness lengths of a sensor (or there is no roughness length), the vapour pressure of the air is not positive, or its value capped at saturation reaches the air pressure; the check against saturation over water never fails there, since the capped value is at most 25 Pa above it.", "quantifier": "every argument of hle1, any wind and start values; every run step over a sound pack with sane site and weather", "why_tests_cant": "an exact characterisation over nine real arguments and an iteration of up to 50 passes", "anchors": ["pysnobal/point/libsnobal.py:hle1", "pysnobal/point/libsnobal.py:psi", "pysnobal/point/libsnobal.py:satw", "pysnobal/point/snobal.py:Snobal.h_le", "pysnobal/point/snobal.py:Snobal.do_tstep"]}
{"id": "C98", "title": "What a run can raise", "statement": "When the step lengths are ordered (small <= medium <= data step, all positive), a run that does not write its file ends in ValueError, ZeroDivisionError or UnboundLocalError, all from the numbers; or in IndexError, and exactly then the file has fewer than two rows or none between the start date and the end date plus the interval of its first two rows; or in KeyError, and then exactly one row is in that window. No attribute is read before it is set, no step description is missing, and the recursion through the step levels stays within its three levels. With a small step longer than the medium one an AttributeError is reached.", "quantifier": "every site, initial pack, sensor heights, output mode and sequence of records, in any arithmetic", "why_tests_cant": "a run passes through every routine any number of times; the claim is about all the ways it can fail", "anchors": ["pysnobal/pysnobal.py:PySnobal.run", "pysnobal/pysnobal.py:PySnobal.read_input_data", "pysnobal/point/snobal.py:Snobal.divide_tstep", "pysnobal/point/snobal.py:Snobal.do_tstep"]}
{"id": "C99", "title": "Rain is never cold, snow is never warm, and only snow has a density", "statement": "The precipitation temperature counts only on its side of freezing: in a record with some rain every temperature below 0 C is as good as 0 C, in a record of snow only every temperature above 0 C is as good as 0 C (the snow is then wet), and the snow density of a record without snowfall counts for nothing. Two files that agree but for this give the same output file or the same exception. In binary64 a missing density is not a density that counts for nothing: in a record of rain on snow it makes the pack disappear and the runoff nan, without an exception.", "quantifier": "every pair of input files that differ in this way in any number of records, every configuration, in either output mode; any arithmetic for the general form (C99_what_precipitation_columns_say), reals for the form in degrees Celsius", "why_tests_cant": "a statement about pairs of runs and all values of two columns; the increments of the subdivided steps are built from the same columns again", "anchors": ["pysnobal/point/input.py:InputData", "pysnobal/point/input.py:InputDeltas", "pysnobal/point/snobal.py:Snobal.precip_event", "pysnobal/point/snobal.py:Snobal.advec", "pysnobal/pysnobal.py:PySnobal.read_input_data"]}
{"id": "C100", "title": "The fraction of snow is not checked", "statement": "A record is accepted whatever its percent_snow, if the density is positive where snow falls: the snowfall is the precipitation times percent_snow, the rest counts as rain. Above 1 (e.g. per cent instead of a fraction) more snow falls than precipitation and the rain is negative: a run step that takes the record on bare ground leaves a pack of percent_snow times the precipitation, and the surplus is taken off the runoff, which for snow below freezing is negative. Below 0 no snow falls, and more rain than precipitation.", "quantifier": "every record, every site and pack settings; every state of bare ground without water on it", "why_tests_cant": "all values of a column, including those no test has; the claim is about what is not rejected", "anchors": ["pysnobal/point/input.py:InputData", "pysnobal/point/snobal.py:Snobal.precip_event", "pysnobal/point/snobal.py:Snobal.runoff"]}
