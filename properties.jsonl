{"id": "C01", "title": "Safety layers only ever soften a command", "statement": "Whatever action the caller passes to BalloonArena.step / Balloon.simulate_step, the altitude-control command that is actually executed is never more aggressive towards descending: in the order DOWN < STAY < UP it is at least the requested one. In particular a requested UP is always executed as UP, a requested STAY is executed as STAY or UP, and DOWN is executed only if DOWN was requested.", "quantifier": "every requested action, every state of the three safety layers reachable through any history of calls, every altitude, superpressure, battery level and time of day, power layer enabled or not", "why_tests_cant": "the composition of three stateful layers has a state space (3 x 5 x 2 x continuous readings x arbitrary histories) that a unit test only samples one layer and one transition at a time", "anchors": ["balloon_learning_environment/env/balloon/balloon.py:Balloon.simulate_step", "balloon_learning_environment/env/balloon/altitude_safety.py:AltitudeSafetyLayer.get_action", "balloon_learning_environment/env/balloon/envelope_safety.py:EnvelopeSafetyLayer.get_action", "balloon_learning_environment/env/balloon/power_safety.py:PowerSafetyLayer.get_action"]}
{"id": "C02", "title": "Altitude floor", "statement": "On every step that starts below 50,000 ft the executed command is UP; on every step that starts below 50,500 ft, and on every later step until the balloon has been seen at 51,000 ft or higher, DOWN is never executed. Once the balloon is seen at or above 51,000 ft (or at/above 50,500 ft without a preceding low reading) the layer stops interfering.", "quantifier": "every finite history of altitude readings and requested actions", "why_tests_cant": "hysteresis is a property of the whole history of readings; tests exercise a handful of three-reading sequences", "anchors": ["balloon_learning_environment/env/balloon/altitude_safety.py:AltitudeSafetyLayer", "balloon_learning_environment/env/balloon/balloon.py:Balloon.simulate_step"]}
{"id": "C03", "title": "Envelope superpressure guard", "statement": "On every step that starts with superpressure below 150 Pa, or at/above max-150 Pa, the executed command is UP. On every step that starts below 250 Pa or at/above max-250 Pa, DOWN is not executed, and that restriction persists on later steps until superpressure has been seen at 300 Pa or more (resp. below max-300 Pa). Outside those bands, and without such a memory, the layer passes the command through unchanged. What the layer does depends on nothing but the history of superpressure readings.", "quantifier": "every finite history of superpressure readings and requested actions, every maximum superpressure for which the bands are ordered (max >= 600 Pa)", "why_tests_cant": "history property over real-valued readings; tests check isolated transitions", "anchors": ["balloon_learning_environment/env/balloon/envelope_safety.py:EnvelopeSafetyLayer", "balloon_learning_environment/env/balloon/balloon.py:Balloon.simulate_step"]}
{"id": "C04", "title": "Power guard pauses and resumes only for its stated reasons", "statement": "The power layer changes a command only from DOWN to STAY. It starts pausing only at night, exactly when the battery projected to sunrise (charge minus night load times time to sunrise, over capacity) is below 2.5%; once paused it stays paused all night and into the day until a daytime step with state of charge at least 5%; it then resumes at once.", "quantifier": "every history of (time, action, charge, load, capacity) observations, every sunrise/sunset oracle", "why_tests_cant": "depends on arbitrarily long alternations of days and nights", "anchors": ["balloon_learning_environment/env/balloon/power_safety.py:PowerSafetyLayer"]}
{"id": "C05", "title": "Power guard keeps its sunrise/sunset forecast current", "statement": "After every call the remembered next sunrise (plus hysteresis) and next sunset are not in the past, differ from the values computed at construction by a whole number of days, and are the earliest such instants; the catch-up loops terminate for any jump of the clock, and the day/night decision therefore equals the one computed directly from the construction-time forecast and the current time.", "quantifier": "every construction time and every sequence of call times, including jumps of any number of days", "why_tests_cant": "while loops over datetimes: termination and exactness for unbounded jumps cannot be enumerated", "anchors": ["balloon_learning_environment/env/balloon/power_safety.py:PowerSafetyLayer.get_action"]}
{"id": "C06", "title": "Navigation-paused flag tells the truth", "statement": "The navigation_is_paused flag reported to the agent after a step is true iff at least one safety layer is currently restricting commands; while it is false the executed command equals the requested command, and a balloon whose power layer is disabled is never reported paused by power.", "quantifier": "every reachable state and requested action", "why_tests_cant": "relates a flag to behaviour on all commands over all histories", "anchors": ["balloon_learning_environment/env/balloon/balloon.py:BalloonState.navigation_is_paused", "balloon_learning_environment/env/balloon/balloon.py:Balloon.simulate_step"]}
{"id": "C07", "title": "Battery charge stays within physical limits", "statement": "After every sub-step, for any solar and load power, the battery charge lies between 0 and the battery capacity, hence the reported state of charge lies in [0, 1]; and the balloon is OUT_OF_POWER after a sub-step iff the charge is then 0.", "quantifier": "every number of steps, every sequence of commands, solar elevations, loads, strides", "why_tests_cant": "inductive invariant over unbounded trajectories", "anchors": ["balloon_learning_environment/env/balloon/balloon.py:Balloon._simulate_step_internal", "balloon_learning_environment/env/balloon/balloon.py:_clip", "balloon_learning_environment/env/balloon/balloon.py:BalloonState.battery_soc"]}
{"id": "C08", "title": "Gas bookkeeping", "statement": "Lift gas and all vehicle parameters never change during flight; the amount of ballast air is never negative; on a sub-step executing UP the ballast never increases, on STAY it is unchanged, on DOWN it never decreases.", "quantifier": "every trajectory, every command sequence", "why_tests_cant": "frame condition over all trajectories", "anchors": ["balloon_learning_environment/env/balloon/balloon.py:Balloon._simulate_step_internal", "balloon_learning_environment/env/balloon/acs.py"]}
{"id": "C09", "title": "Terminal states are absorbing and reported exactly once", "statement": "A step that returns was made with an action 0, 1 or 2 on a balloon with status OK; it reports done iff the balloon's status is no longer OK, the info dictionary has exactly the matching one of out_of_power / envelope_burst / zeropressure set, 180 simulated seconds have passed if not done (a multiple of 10 s, at most 180 s, if done); once done every further step raises until the next reset and nothing about the balloon changes except its recorded last command.", "quantifier": "every environment state, action and continuation; any feature constructor, wind and reward function", "why_tests_cant": "needs all trajectories including ones that continue calling after done", "anchors": ["balloon_learning_environment/env/balloon_env.py:BalloonEnv.step", "balloon_learning_environment/env/balloon_env.py:BalloonEnv._get_info", "balloon_learning_environment/env/balloon/balloon.py:Balloon.simulate_step"]}
{"id": "C10", "title": "Every failure that happens is visible", "statement": "A step proceeds in sub-steps of 10 s exactly while the balloon is intact (battery not empty, superpressure above zero and at most its maximum), so every failure ends the episode and is reported in the step in which it happens. One flag is set: out_of_power if the battery is empty, else zeropressure if the superpressure is lost, else envelope_burst. (Not one flag per failure: a burst in the sub-step that empties the battery is masked.)", "quantifier": "every environment state and action; every sub-step state", "why_tests_cant": "simultaneous failures are measure-zero for sampled tests", "anchors": ["balloon_learning_environment/env/balloon/balloon.py:Balloon._simulate_step_internal", "balloon_learning_environment/env/balloon_env.py:BalloonEnv._get_info"]}
{"id": "C11", "title": "Simulated clock", "statement": "date_time and time_elapsed always advance together, by a whole number of strides. A returning step performs as many sub-steps as the whole seconds of the delta contain the whole seconds of the stride, each one full stride long, and fewer only if the balloon stops being OK; with whole-second durations (the library uses 3 minutes and 10 seconds) a step that leaves the balloon OK therefore advances both clocks by exactly the delta. A stride whose whole seconds are zero or do not divide those of the delta is rejected with the clocks unchanged. With fractional seconds the clock should also move by the delta; it does not (1.5 s by strides of 1 s moves it by 1 s, 1 s by strides of 1.5 s by 1.5 s).", "quantifier": "every stride and delta, every trajectory, every early termination point", "why_tests_cant": "parametric in stride/delta and termination point", "anchors": ["balloon_learning_environment/env/balloon/balloon.py:Balloon.simulate_step", "balloon_learning_environment/env/balloon_arena.py:BalloonArena.step"]}
{"id": "C12", "title": "Dead reckoning", "statement": "During a step the balloon's horizontal displacement is exactly the wind vector it was given multiplied by the simulated time that passed, independent of the command, the stride and everything else in the state.", "quantifier": "every wind vector, state, command, stride", "why_tests_cant": "universally quantified over real inputs and number of sub-steps", "anchors": ["balloon_learning_environment/env/balloon/balloon.py:Balloon._simulate_step_internal"]}
{"id": "C13", "title": "Envelope volume/superpressure physics", "statement": "calculate_superpressure_and_volume returns the unique positive solution of ideal-gas plus linear envelope elasticity: when the gas would not fill the envelope the volume is the free gas volume and superpressure 0; otherwise V0 < V < free volume, superpressure is strictly positive, V = V0 + dV/dP * superpressure and (pressure+superpressure)*V = nRT. Superpressure is continuous and nondecreasing in gas amount and temperature. So ZEROPRESSURE is reported iff the envelope is not full.", "quantifier": "all positive pressures, temperatures, gas amounts and envelope parameters", "why_tests_cant": "real-valued algebraic identity over a 6-dimensional domain", "anchors": ["balloon_learning_environment/env/balloon/balloon.py:Balloon.calculate_superpressure_and_volume"]}
{"id": "C14", "title": "Balloon rises iff buoyant", "statement": "In each sub-step ambient pressure at the balloon decreases if displaced air mass exceeds total mass, increases if it is smaller, and stays the same if equal, whatever the atmosphere realisation.", "quantifier": "every state, every decreasing pressure/height relation", "why_tests_cant": "sign analysis over all real states", "anchors": ["balloon_learning_environment/env/balloon/balloon.py:Balloon._simulate_step_internal", "balloon_learning_environment/env/balloon/standard_atmosphere.py"]}
{"id": "C15", "title": "Atmosphere lookups are mutually inverse", "statement": "For every seeded atmosphere, at_pressure(at_height(h).pressure) returns the same height (and temperature and density) for every height in range, and at_height(at_pressure(p).height) returns p for every pressure in range; outside the range they raise.", "quantifier": "every lapse-rate mixing parameter alpha in [0,1], every height/pressure in range", "why_tests_cant": "real analysis over a continuous family of atmospheres", "anchors": ["balloon_learning_environment/env/balloon/standard_atmosphere.py:Atmosphere"]}
{"id": "C16", "title": "Atmosphere is physical", "statement": "In every seeded atmosphere pressure is strictly decreasing in height, temperature is continuous and strictly positive over the whole supported range, density positive.", "quantifier": "every alpha, every height in range", "why_tests_cant": "real analysis over a continuous family", "anchors": ["balloon_learning_environment/env/balloon/standard_atmosphere.py:Atmosphere"]}
{"id": "C17", "title": "Reward range and optimum", "statement": "The default reward is always in (0, 1]; it equals 1 exactly when the balloon is within the station-keeping radius and no power penalty applies; it never exceeds the declared reward_range.", "quantifier": "every simulator state", "why_tests_cant": "universally quantified over real positions and power states", "anchors": ["balloon_learning_environment/env/balloon_env.py:perciatelli_reward_function", "balloon_learning_environment/env/balloon_env.py:BalloonEnv.reward_range"]}
{"id": "C18", "title": "Reward shape", "statement": "For fixed power situation the default reward is non-increasing in distance, strictly decreasing outside the radius (with a drop to dropoff value at the edge), halves for every halflife distance, tends to 0, and depends on position only through distance; descending with no excess energy multiplies it by a factor in [0.65, 0.95] that decreases with ACS power.", "quantifier": "all distances, all power levels", "why_tests_cant": "real analysis", "anchors": ["balloon_learning_environment/env/balloon_env.py:perciatelli_reward_function"]}
{"id": "C19", "title": "One station-keeping radius", "statement": "The radius given to BalloonEnv(station_keeping_radius_km=r) should be the radius inside which the environment's default reward is maximal. It is not: it influences nothing that the environment ever returns, and agrees with the reward iff r = 50.", "quantifier": "every radius r, every environment state and sequence of calls", "why_tests_cant": "requires all r; tests use the default", "anchors": ["balloon_learning_environment/env/balloon_env.py:BalloonEnv.__init__", "balloon_learning_environment/env/balloon_env.py:perciatelli_reward_function"]}
{"id": "C20", "title": "Feature transforms are invertible and bounded", "statement": "linear_rescale_with_extrapolation and undo_linear_rescale_with_extrapolation are mutually inverse for every non-degenerate range, map the range endpoints to 0 and 1 and are strictly increasing; linear_rescale_with_saturation lands in [0,1] and agrees with the former inside the range; squash_to_unit_interval maps [0,inf) into [0,1) strictly increasing, undo_squash inverts it; degenerate ranges, negative inputs and bad constants raise.", "quantifier": "all real arguments", "why_tests_cant": "algebra over all reals", "anchors": ["balloon_learning_environment/utils/transforms.py"]}
{"id": "C21", "title": "undo_squash rejects values outside [0,1)", "statement": "undo_squash_to_unit_interval should raise for any x outside [0, 1), as documented. It does not: the guard `0 > x >= 1` is unsatisfiable, so with a positive constant only x = 1 fails (division by zero), and every x below 0 or above 1 is converted to a negative number, which squash_to_unit_interval itself rejects.", "quantifier": "all real x", "why_tests_cant": "the guard must be analysed for every x", "anchors": ["balloon_learning_environment/utils/transforms.py:undo_squash_to_unit_interval"]}
{"id": "C22", "title": "Unit conversions round-trip", "statement": "Distance, Velocity, Energy and Power built from any supported unit read back the same value in that unit, conversions between units are mutually inverse, arithmetic on quantities is arithmetic on their SI values, and dimension rules hold (distance/velocity=time, velocity*time=distance, power*time=energy, energy/time...).", "quantifier": "all real magnitudes", "why_tests_cant": "algebra over all reals", "anchors": ["balloon_learning_environment/utils/units.py"]}
{"id": "C23", "title": "Quantity comparisons form an order", "statement": "Order comparisons between quantities of the same kind are those of their SI values; distances and energies have all four, powers only < and >, velocities none. == is exact for energies and powers and within 1e-9 for distances and velocities; it is reflexive and symmetric. Comparing a quantity with anything of another kind never gives a truth value. Equality should be transitive and mixed comparisons should raise; neither always holds: distance and velocity equality is not transitive, and an energy on the greater side of >= or <= gets back an exception object instead of raising.", "quantifier": "all pairs/triples of quantities", "why_tests_cant": "transitivity is a universally quantified law", "anchors": ["balloon_learning_environment/utils/units.py"]}
{"id": "C24", "title": "Feature vector layout", "statement": "get_features always returns exactly 1099 numbers: 16 ambient features followed by 361 (uncertainty, bearing, magnitude) triples; the last-command block is the one-hot code of the last command in the order up, stay, down; the two navigation entries are complementary and say whether the altitude control is paused.", "quantifier": "every observation history and wind column", "why_tests_cant": "layout must hold for every balloon pressure level", "anchors": ["balloon_learning_environment/env/features.py:PerciatelliFeatureConstructor.get_features", "balloon_learning_environment/env/features.py:NamedPerciatelliFeatures"]}
{"id": "C25", "title": "Wind column is centred on the balloon", "statement": "The wind triple at relative index 0 of the observation's wind column is the triple of the pressure level nearest to the balloon, entry k of the column belongs to absolute level (nearest + k - 180) whenever that level exists and is inside the reachable pressure range, and every other entry is the documented 'unreachable' encoding (0,1,1).", "quantifier": "every balloon pressure, every reachable pressure range", "why_tests_cant": "index arithmetic for 181 x 361 combinations and real pressures", "anchors": ["balloon_learning_environment/env/features.py:PerciatelliFeatureConstructor", "balloon_learning_environment/env/features.py:NamedPerciatelliFeatures"]}
{"id": "C26", "title": "Named features decode what was encoded", "statement": "Each accessor of NamedPerciatelliFeatures returns, after undoing the documented scaling, the balloon's quantity whose name it bears; wind_at(k) is the k-th triple, its centre is the balloon's level and level_is_valid says exactly which levels exist and are reachable. Except: navigation_enabled and navigation_paused should say what their names say; they are swapped.", "quantifier": "every feature vector", "why_tests_cant": "equality of index maps for all contents", "anchors": ["balloon_learning_environment/env/features.py:NamedPerciatelliFeatures", "balloon_learning_environment/env/features.py:PerciatelliFeatureConstructor._add_ambient_features"]}
{"id": "C27", "title": "Observations lie in the declared observation space", "statement": "The declared space is [-1,1] for the solar cycle and the heading, [1,inf) for the pressure ratio and [0,1] for every other component. Every ambient component of an observation is within observation_space.low/high; every wind triple has bearing and magnitude in [0,1] and deviation in [0, 1.00001]; and the whole observation is in the declared space whenever the regressor's standard deviations do not exceed the prior's.", "quantifier": "every simulator state with positive pressure and a battery charge within its capacity, every wind column and regressor", "why_tests_cant": "bounds of nonlinear encodings for all real inputs", "anchors": ["balloon_learning_environment/env/features.py:PerciatelliFeatureConstructor.observation_space", "balloon_learning_environment/env/features.py:PerciatelliFeatureConstructor.get_features"]}
{"id": "C28", "title": "Nearest pressure level", "statement": "The level assigned to the balloon is within half a grid step (25 Pa) of its pressure for every pressure in [5000, 14000], is monotone in pressure, and is clamped to the end levels outside.", "quantifier": "every real pressure", "why_tests_cant": "rounding (half to even) for all reals", "anchors": ["balloon_learning_environment/env/features.py:PerciatelliFeatureConstructor._nearest_pressure_level"]}
{"id": "C29", "title": "Power table", "statement": "power_table.lookup is total on every pressure ratio in [0.99, 5] and every state of charge, rejects everything else, never returns more power for less charge, and returns only listed table entries (0..350 W).", "quantifier": "all real pressure ratios and states of charge", "why_tests_cant": "piecewise constant function over a continuum", "anchors": ["balloon_learning_environment/env/balloon/power_table.py:lookup"]}
{"id": "C30", "title": "ACS curves", "statement": "The most efficient ACS power lies in [100, 400] W and is nondecreasing for every pressure ratio, efficiency stays within the tabulated [0, 0.4] range on the table's domain, and mass flow is nonnegative, so descending never vents.", "quantifier": "all real pressure ratios and powers", "why_tests_cant": "piecewise linear interpolation over a continuum", "anchors": ["balloon_learning_environment/env/balloon/acs.py"]}
{"id": "C31", "title": "Sunrise, sunset, noon and midnight search", "statement": "The sun searches terminate for every elevation function, bracket and step; they answer exactly when the bracket holds a whole step, with a sample of the bracket and its elevation; where the searched quantity ranks times by distance to one instant (or the elevation is linear) the answer is the best sample; noon and midnight of an ideal sun are found to half a step; next noon, midnight, sunrise and sunset are never in the past and at most 24 h ahead; steps-to-sunrise is the sunrise delay rounded up.", "quantifier": "every elevation oracle, bracket, step, target and start time", "why_tests_cant": "loop termination and optimality for all oracles", "anchors": ["balloon_learning_environment/env/balloon/solar.py:_find_solar_elevation_binary_search", "balloon_learning_environment/env/balloon/solar.py:get_next_sunrise_sunset", "balloon_learning_environment/env/balloon/solar.py:calculate_steps_to_sunrise"]}
{"id": "C32", "title": "Julian date", "statement": "The solar calculator's Julian day number agrees with the Gregorian calendar: consecutive days differ by exactly one for every valid date of 1902-2099 (including month, year, century and leap boundaries), and the Julian time of a timestamp is the exact number of days since the Julian epoch, to the second.", "quantifier": "every Gregorian date of 1902-2099; every timestamp from 1970 to 2100-02-28", "why_tests_cant": "all dates", "anchors": ["balloon_learning_environment/env/balloon/solar.py:solar_calculator"]}
{"id": "C33", "title": "Solar power", "statement": "Solar power is zero exactly at night, nonnegative and at most the panels' total rating by day, attenuation is in [0,1], grows with elevation and falls with pressure, the balloon-shadow factor is one of its two documented values and decided by the geometry, and the sun position computed for any place and instant (elevation in [-90,90], azimuth in [0,360]) is always accepted by the power computation.", "quantifier": "every solar elevation, pressure, place and instant", "why_tests_cant": "bounds on transcendental expressions over a continuum", "anchors": ["balloon_learning_environment/env/balloon/solar.py:solar_power", "balloon_learning_environment/env/balloon/solar.py:solar_atmospheric_attenuation", "balloon_learning_environment/env/balloon/solar.py:balloon_shadow"]}
{"id": "C34", "title": "Wind field time reflection", "statement": "For every nonnegative elapsed time the forecast time actually looked up is the elapsed time reflected into the field's horizon: it lies inside the field, equals the elapsed time inside the horizon, is 1-Lipschitz with period twice the horizon; so a forecast changes no faster in time than the field does between neighbouring slices, also across the horizon.", "quantifier": "every elapsed time, field shape, field and place", "why_tests_cant": "continuity/periodicity for all times", "anchors": ["balloon_learning_environment/env/grid_based_wind_field.py:GridBasedWindField._boomerang", "balloon_learning_environment/env/generative_wind_field.py"]}
{"id": "C35", "title": "Wind queries agree", "statement": "get_forecast is the multilinear interpolation of the sampled field at the nearest point of the field and the reflected time (hence exact at grid points and within the field's range); get_forecast_column returns, for each pressure, exactly what get_forecast returns at that pressure; get_ground_truth equals forecast plus noise; queries are refused exactly when the field was never reset or the time is negative; the static field blows in the documented direction per pressure band.", "quantifier": "every position, list of pressures, time, field", "why_tests_cant": "universally quantified agreement of two code paths", "anchors": ["balloon_learning_environment/env/grid_based_wind_field.py", "balloon_learning_environment/env/wind_field.py"]}
{"id": "C36", "title": "Wind noise is a bounded weighted mixture", "statement": "After reset the simplex wind noise is, per component, the documented five-mode mixture, with generators that depend only on the reset key; its coefficients' squares sum to one (it has the variance of one mode) and it stays below 9 m/s in each component; without reset it raises; all modes and the forecast draw from different random keys. (Inside one mode seed and offsets share a key.)", "quantifier": "every reset history, key, place and time; every noise function bounded by 1", "why_tests_cant": "bounds for all inputs; key-tree disjointness for all splits", "anchors": ["balloon_learning_environment/env/simplex_wind_noise.py"]}
{"id": "C37", "title": "Wind belief", "statement": "After any history of observe and reset calls the wind belief is the forecast with zero deviation if nothing was observed since the last reset, and otherwise the forecast plus the error predicted by the regressor trained on exactly the observations since the last reset less than six hours away; row i of a batch answer is the answer to row i alone; mixed batches are refused. (When every observation is old, the query raises instead of returning the forecast.)", "quantifier": "every history of observe/reset calls, every query", "why_tests_cant": "histories of any length", "anchors": ["balloon_learning_environment/env/wind_gp.py:WindGP"]}
{"id": "C38", "title": "Evaluation result bookkeeping", "statement": "eval_agent yields exactly one result per seed in the suite's order; time within radius is in [0,1] and equals the fraction of executed steps inside the radius; at most max_episode_length steps; cumulative reward is the sum of returned rewards; the failure flags are false unless the episode ended, and for BalloonEnv each is set exactly if the balloon's status after the last step is that failure; no earlier step ended with a failed balloon, and a flight without failure has the full length. It returns whenever the agent and the environment do and the episode length is positive.", "quantifier": "every suite, agent, environment behaviour", "why_tests_cant": "all trajectories and agents", "anchors": ["balloon_learning_environment/eval/eval_lib.py:eval_agent"]}
{"id": "C39", "title": "Episodes are reproducible", "statement": "After reset(seed=s) everything the environment returns depends only on s and the calls made since, not on what the environment object was used for before nor on how it was constructed; BalloonEnv(seed=s) behaves like any environment after reset(seed=s), and seed(s) followed by reset() like reset(seed=s). The same holds of an arena used by itself: after arena.reset(seed), for an int or a random key, everything it returns depends only on the seed and the later calls, and BalloonArena(\u2026, seed) goes on as any arena reset with that seed. (Any other seed, such as a numpy integer, is treated as None: the system time is used.)", "quantifier": "every prior history of the environment or arena objects (including calls that raised), every seed, every later sequence of calls", "why_tests_cant": "quantifies over all prior histories", "anchors": ["balloon_learning_environment/env/balloon_env.py:BalloonEnv.reset", "balloon_learning_environment/env/balloon_arena.py:BalloonArena.reset", "balloon_learning_environment/eval/eval_lib.py:eval_agent"]}
{"id": "C40", "title": "Evaluation shards partition the suite", "statement": "For every number of shards the per-shard seed lists, concatenated in shard order, are exactly the suite (no seed lost, duplicated or reordered); shard sizes are the average rounded down or up; a shard index beyond the number of shards gets no seed.", "quantifier": "every suite length below 2^53, every number of shards, with binary64 division as executed", "why_tests_cant": "all lengths x all shard counts, with float division", "anchors": ["balloon_learning_environment/eval/eval.py"]}
{"id": "C41", "title": "Combining shards loses nothing", "statement": "combine_eval_shards writes, sorted by seed, exactly the union (with multiplicity) of the results in the files whose name is the model's name, an underscore, anything and .json, and changes no other file. It should use only the shards of that model; it does not: the results of every checkpoint of an agent are also put in the file of the agent without checkpoint.", "quantifier": "every directory content, every order in which the directory is listed", "why_tests_cant": "all directory contents", "anchors": ["balloon_learning_environment/eval/combine_eval_shards.py", "balloon_learning_environment/eval/eval.py:write_result"]}
{"id": "C42", "title": "Latest checkpoint", "statement": "Every iteration number has its own checkpoint file name. get_latest_checkpoint returns the largest iteration with a checkpoint in the directory, and -1 if there is none, whatever other files are there. It should also ignore files that merely look like checkpoints; it does not: one file checkpoint_X.pkl whose X is not a number makes it return -1.", "quantifier": "every set of file names, every iteration including above 99999", "why_tests_cant": "all sets of saved iterations, including above 99999", "anchors": ["balloon_learning_environment/agents/dopamine_utils.py", "balloon_learning_environment/utils/run_helpers.py"]}
{"id": "C43", "title": "Checkpoint retention", "statement": "Cleaning up after iteration n removes exactly the checkpoints with a number below n - duration and below 100000 and keeps all other files, so the latest checkpoint is never removed, in whatever order the directory is listed. It should also remove old checkpoints from 100000 on and ignore other files; it does neither: those are kept for ever, and a file checkpoint_XXXXX.pkl that is not numbered makes it raise.", "quantifier": "every directory content, listing order, episode number and duration", "why_tests_cant": "all directory contents", "anchors": ["balloon_learning_environment/agents/dopamine_utils.py:clean_up_old_checkpoints"]}
{"id": "C44", "title": "Training resumes without gaps or repeats", "statement": "Over any sequence of training processes, each cut off anywhere except during a checkpoint write, the iterations 0, 1, 2, .. are saved in this order and each once; an iteration is run only if exactly those before it have been saved; a process restores what was saved last; a process that ends normally has brought this up to its limit, and none goes beyond. A crash during a checkpoint write should be survived too; it is not: every later process raises at once. And a checkpoint that raises ValueError when restored restarts training at 0. And a process should not go on from a checkpoint it has not restored; it does: if restoring only reports failure, training goes on after the checkpoint, and the next one saved is an agent trained in a single iteration.", "quantifier": "every history of processes with any arguments, every crash point, every listing order", "why_tests_cant": "all crash points", "anchors": ["balloon_learning_environment/train_lib.py:run_training_loop", "balloon_learning_environment/agents/dqn_agent.py:DQNAgent.save_checkpoint", "balloon_learning_environment/agents/dqn_agent.py:DQNAgent.reload_latest_checkpoint", "balloon_learning_environment/agents/dopamine_utils.py"]}
{"id": "C45", "title": "Training metrics count each transition once", "statement": "In each training episode the collectors are told about every executed transition, once and in order. The episode reward and the shares of the actions reported at its end should be those of the executed transitions; they are not: the last reward is added once more, and the last action chosen is counted once more, even if it was never executed. The episode length and the pickled transitions are right.", "quantifier": "every episode", "why_tests_cant": "all episodes", "anchors": ["balloon_learning_environment/train_lib.py:run_training_loop", "balloon_learning_environment/metrics/console_collector.py", "balloon_learning_environment/metrics/pickle_collector.py", "balloon_learning_environment/metrics/tensorboard_collector.py", "balloon_learning_environment/metrics/collector_dispatcher.py"]}
{"id": "C46", "title": "Collector fan-out", "statement": "Every collector is told about every event of the training run exactly once and in order: the start, each episode with its transitions, and the end, independently of the other collectors; the summary writer handed to the agent is that of the first collector that has one. A list of collector names makes one collector for each known name, in that order, all starting at the given episode; unknown names are ignored, the console collector logs to a file exactly if asked to and given a directory, and the pickle and tensorboard collectors cannot be made without one.", "quantifier": "every list of collectors, every event sequence; every list of names, directory and start episode", "why_tests_cant": "all lists and sequences", "anchors": ["balloon_learning_environment/metrics/collector_dispatcher.py:CollectorDispatcher"]}
{"id": "C47", "title": "Exploration schedule", "statement": "In an exploratory episode MarcoPolo exploration passes the learner's action for 4 simulated hours (80 actions, the first one included), then substitutes the exploratory agent's actions for 2 hours (40 actions), and repeats with that period for ever; the exploratory agent is asked in those 40 steps only. In a non-exploratory episode the learner's action is always passed through unchanged. The k-th episode is exploratory exactly when the k-th uniform draw is at most the configured probability, whatever happened in the episodes before.", "quantifier": "every exploratory agent, probability, seed, number of episodes, episode length and action sequence", "why_tests_cant": "periodic behaviour for unbounded episodes", "anchors": ["balloon_learning_environment/agents/marco_polo_exploration.py:MarcoPoloExploration"]}
{"id": "C48", "title": "Random-walk agent seeks a wandering target pressure", "statement": "RandomWalkAgent returns UP when the observed pressure is above its target by more than 100 Pa, DOWN when below it by more than 100 Pa, STAY otherwise, in every step of every episode; the target starts uniformly between 6500 and 11400 Pa at the beginning of each episode and then receives one normal increment per step. It should stay in the range of pressures and move in proportion to the time since the last update; it does neither: the n-th increment is scaled by the whole episode time 180 n seconds, and the target may leave the range after one step and never return, after which the agent always commands the same direction.", "quantifier": "every observation history, episode and random stream", "why_tests_cant": "all histories", "anchors": ["balloon_learning_environment/agents/random_walk_agent.py:RandomWalkAgent"]}
{"id": "C49", "title": "StationSeeker picks a best level", "statement": "On every plausible observation StationSeekerAgent moves towards a reachable level whose score is maximal (the first such, i.e. the lowest pressure), staying iff that is the balloon's level; scores are within [0, 1.06] so its assertion never fires. It fails only when no level is reachable. Every observation of the simulator with a positive pressure and a valid battery is plausible.", "quantifier": "every plausible observation vector; every observation the feature constructor returns", "why_tests_cant": "argmax over all columns; real bounds", "anchors": ["balloon_learning_environment/agents/station_seeker_agent.py:StationSeekerAgent"]}
{"id": "C50", "title": "Accessible pressure range", "statement": "The accessible pressure range of a balloon ends, on either side, at the ceiling (where the fully inflated balloon floats, interpolated in a table of twenty levels between 1000 Pa and the pressure at 50,000 ft) respectively at the pressure of 50,000 ft if the balloon is safe there (floats with a superpressure between 250 Pa and 250 Pa below its maximum), and otherwise where the superpressure, interpolated between the first safe level and the unsafe one before it, meets the violated threshold. It lies between these two pressures and contains every sampled level at which the balloon is safe; it can be inverted only if no sampled level is safe. Computing it fails only if the safe interval's upper end is not positive, or if one of the two searches finds no safe level before running out of levels or of computable ones; the atmosphere lookups and the monotonicity assertion never fail.", "quantifier": "every balloon state, position, atmosphere of the simulator; for the search, every superpressure profile and increasing list of levels", "why_tests_cant": "the range depends on a real-valued profile searched level by level; tests fix a few profiles", "anchors": ["balloon_learning_environment/env/balloon/pressure_range_builder.py: AccessiblePressureRange, get_pressure_range, _search_for_safe_pressure"]}
{"id": "C51", "title": "Geographic offset", "statement": "calculate_latlng_from_offset returns valid coordinates, and from any centre but the poles exactly the point reached by going straight (along the great circle) towards x east, y north for the distance sqrt(x^2+y^2) on a sphere of radius 6371 km; no offset returns the centre.", "quantifier": "every origin latitude/longitude and offset", "why_tests_cant": "spherical trigonometry over a continuum", "anchors": ["balloon_learning_environment/utils/spherical_geometry.py:calculate_latlng_from_offset"]}
{"id": "C52", "title": "Initial-condition sampling ranges", "statement": "Sampled start locations lie in [-10,10) x [-175,175) degrees; sampled times lie in the requested range, to the second (by default 2011-01-01 to 2014-12-31); the sampled pressure lies within its documented range and corresponds to an altitude above 15240 m (50000 ft) in every seeded atmosphere; the upwelling infrared is the first draw of the key chain that is at least 225 W/m^2 and at most 315 (logit-normal), and the sampler stops as soon as one such draw exists.", "quantifier": "every random key and every law-abiding random generator", "why_tests_cant": "all random outcomes", "anchors": ["balloon_learning_environment/utils/sampling.py"]}
{"id": "C53", "title": "Evaluation suites are immutable to callers", "statement": "get_eval_suite returns the documented suites every time, whatever callers did to previously returned suites; unknown names raise; getting a suite changes none that a caller already holds. Each stratum has 2000 seeds in increasing order and no seed is in two strata.", "quantifier": "every sequence of calls and in-place edits by callers", "why_tests_cant": "aliasing over histories", "anchors": ["balloon_learning_environment/eval/suites.py", "balloon_learning_environment/eval/strata_seeds.py"]}
{"id": "C54", "title": "Simulator state save/restore", "statement": "get_simulator_state followed by steps and set_simulator_state should restore the simulation to the saved instant. It never does: the state is returned by reference, so restoring is a no-op; after a reset the old balloon comes back but in the new weather. If the client deep-copies the saved state, restoring gives back balloon, wind and atmosphere, and the balloon then evolves as it would have (the feature constructor's memory is not restored).", "quantifier": "every state and sequence of steps before and after", "why_tests_cant": "aliasing over histories", "anchors": ["balloon_learning_environment/env/balloon_arena.py:BalloonArena.get_simulator_state", "balloon_learning_environment/env/balloon_arena.py:BalloonArena.set_simulator_state", "balloon_learning_environment/env/simulator_data.py"]}
{"id": "C55", "title": "Thermal model sanity", "statement": "Black-body conversions are Stefan and Boltzmann's law, mutually inverse and increasing; total absorptivity is the limit of the infinite series of passes through the film, in [0,1] for every accepted input, and physically possible films are accepted; the temperature rate is the heat balance of a sphere (sun, Earth infrared, convection by the Nusselt-Rayleigh law for spheres with Sutherland's viscosity, own emission) and never raises in the flight range; it strictly decreases in the balloon's temperature, so the equilibrium is unique and stable.", "quantifier": "all temperatures, absorptivities, volumes, masses, pressures, elevations and fluxes", "why_tests_cant": "real algebra", "anchors": ["balloon_learning_environment/env/balloon/thermal.py"]}
{"id": "C56", "title": "Stable initialisation", "statement": "cold_start_to_stable_params sets the ambient temperature of the atmosphere, nonnegative ballast that makes the balloon weigh what its base volume displaces (none if it is too heavy), and volume and superpressure by the gas law, and changes nothing else. (It is therefore exactly neutral only at base volume: a taut envelope has the excess lift of its stretched part.) The temperature search makes at most ten corrections, each towards the equilibrium.", "quantifier": "every starting state, place and seeded atmosphere", "why_tests_cant": "real algebra over all states", "anchors": ["balloon_learning_environment/env/balloon/stable_init.py"]}
{"id": "C57", "title": "Generated wind fields are incompressible", "statement": "Generated winds should be incompressible (they are derivatives of a stream function): on the decoder's array, with the second axis taken as x and the first as y, the central-difference divergence is zero at every interior point of every pressure and time slice, whatever the parameters and latents, and the components are bounded by half the spread of the network's outputs. But forecasts look the array up with the first axis as x; as queried, the wind is not incompressible: there are decoder parameters whose forecast has a nonzero divergence. The default field has 39690 grid points, 79380 components and 4410 stream-function values, and every network output is exactly one of these values.", "quantifier": "every field shape, decoder parameters, latents, slice and interior grid point", "why_tests_cant": "all network parameters and outputs; the axis convention is split over two modules", "anchors": ["balloon_learning_environment/generative/vae.py: Decoder, FieldShape", "balloon_learning_environment/env/grid_based_wind_field.py: _prepare_get_forecast_inputs"]}
{"id": "C58", "title": "Train/eval split of the wind dataset", "statement": "A reservoir opened on a directory has the rows of its files batch0000.pickle to batch0199.pickle, in this order and complete; if one cannot be loaded the exception of the first such is raised. All further shards should be used too; they are not. After any sequence of requests, a training batch consists of the requested number of distinct dataset rows, none among the held-out last rows; it is returned exactly if enough rows are left, and ValueError is raised otherwise. The evaluation batch never changes and is the held-out rows. With nothing held out it should be empty; it is the whole dataset.", "quantifier": "every directory, dataset, batch size, held-out size, random permutation and sequence of requests", "why_tests_cant": "all sizes and draws", "anchors": ["balloon_learning_environment/generative/dataset_wind_field_reservoir.py: DatasetWindFieldReservoir.__init__, get_batch, get_eval_batch"]}
{"id": "C59", "title": "Training objective and schedules of the wind generator", "statement": "The KL term is the sum of the KL divergences of the latents' normal distributions from the standard normal; it is nonnegative and zero exactly for standard normals. The squared error is nonnegative and zero exactly for equal fields. step_schedule starts at min(start, max), changes only every `frequency` epochs and then by the factor, never decreases and never exceeds max. The encoder's input squashing is odd, strictly increasing and has values inside (-1, 1). The latents are the mean plus the normal sample times a standard deviation whose square is the variance. The reported speed is the length of the wind vector and the reported mean speed is its mean over all grid points.", "quantifier": "all means, log-variances, fields, epochs and schedule parameters (start >= 0, factor >= 1)", "why_tests_cant": "real analysis over all inputs", "anchors": ["balloon_learning_environment/generative/learn_wind_field_generator.py: kl_divergence, mean_square_error, step_schedule", "balloon_learning_environment/generative/vae.py: _squash"]}
{"id": "C60", "title": "Model loading fallbacks", "statement": "load_offlineskies22 and load_perciatelli44 return the bytes of the first available location in the documented order, raise ValueError for an explicit path where nothing is, and RuntimeError when nowhere found. load_perciatelli44 violates the last: it lets TensorFlow's NotFoundError escape.", "quantifier": "every combination of present, absent and unreadable locations", "why_tests_cant": "all file-system states", "anchors": ["balloon_learning_environment/models/models.py"]}
{"id": "C61", "title": "Registries", "statement": "Looking an agent or its default configuration up succeeds for exactly the documented names (and acme_eval_agent if acme is installed), with exactly their class and file, and raises ValueError for every other string; the gin files parsed are the agent's (given or default) followed by the additional ones; the wind field factory knows exactly 'simple' and 'generative'. Registering the gym environment any number of times leaves one registration, changes no other one, and keeps an existing one.", "quantifier": "every string, call sequence and prior registry", "why_tests_cant": "all strings and histories", "anchors": ["balloon_learning_environment/env/gym.py: register_env", "balloon_learning_environment/agents/agent_registry.py", "balloon_learning_environment/utils/run_helpers.py"]}
{"id": "C62", "title": "Sunrise search on monotone elevations", "statement": "For an elevation that increases through the target somewhere in the bracket, the search should return a sample next to the crossing. It does so for linear elevations (the sample nearest to the crossing), but not for increasing ones in general, even when the objective is convex as the docstring asks: in every bracket there is an increasing elevation that crosses between the last two samples and for which the search answers the middle of the bracket.", "quantifier": "every increasing elevation function, bracket and resolution", "why_tests_cant": "all monotone functions; tests only try the real sun at a few dates", "anchors": ["balloon_learning_environment/env/balloon/solar.py:_find_solar_elevation_binary_search"]}
{"id": "C63", "title": "Every episode starts in a valid state", "statement": "When reset returns, the balloon is within 200 km of the station, above 50,000 ft at a pressure of at least 6500 Pa, the station lies between 10 degrees south and north, the date is between 2011-01-01 and 2014-12-31, the upwelling infrared is between 225 and 315 W/m^2, the balloon's gas and temperature come from the stable initialisation, its status is OK, no failure flag is set, the battery holds 2905.6 of 3058.56 Wh, the elapsed time is 0, the last command is STAY and no safety layer is paused. The vehicle has the published constants, and its power layer expects the night between the sunset and half an hour after the sunrise that follow the start, found in steps of three minutes. The envelope is sound: the superpressure is between 250 and 2379 Pa (it bursts at 2380 and fails at 0), and the gas is between 0.29 and 47.3 K warmer than the air.", "quantifier": "every prior environment state and seed, every random number library obeying its documented ranges", "why_tests_cant": "A test samples a few seeds; the guarantee is for all random draws.", "anchors": ["balloon_learning_environment/env/balloon_arena.py:BalloonArena.reset", "balloon_learning_environment/env/balloon_arena.py:BalloonArena._initialize_balloon", "balloon_learning_environment/env/balloon_env.py:BalloonEnv.reset"]}
{"id": "C64", "title": "Results do not depend on order, other seeds or sharding", "statement": "If the agent's answers depend only on what it saw since the episode began, the result for a seed is the same whatever other seeds are in the suite, in whatever order, and whatever the environment was used for before; hence evaluating a suite in shards and combining the files gives exactly the results of evaluating it in one go.", "quantifier": "every agent that starts afresh, every suite, every number of shards, every prior use of the environment", "why_tests_cant": "It quantifies over all histories of the environment, all partitions and all agents.", "anchors": ["balloon_learning_environment/eval/eval_lib.py:eval_agent", "balloon_learning_environment/eval/eval.py", "balloon_learning_environment/eval/combine_eval_shards.py", "balloon_learning_environment/env/balloon_env.py:BalloonEnv.reset"]}
{"id": "C66", "title": "Metrics survive a restart", "statement": "What earlier training processes recorded should survive a restart. Pickled episodes do: a later process never changes a file of an earlier episode. The console log and the step counter of tensorboard do not: console.log is emptied, and the steps start at 0 again.", "quantifier": "every earlier content, every sequence of events", "why_tests_cant": "all histories of processes", "anchors": ["balloon_learning_environment/metrics/console_collector.py:ConsoleCollector.pre_training", "balloon_learning_environment/metrics/pickle_collector.py:PickleCollector", "balloon_learning_environment/metrics/tensorboard_collector.py:TensorboardCollector.pre_training"]}
{"id": "C67", "title": "Reading a wind level", "statement": "NamedPerciatelliFeatures.wind_at(level) should answer for levels 0..360 and raise for every other level. It does not: levels -361..-2 silently return the triple of level + 361 (only -1 and levels beyond either end raise).", "quantifier": "every feature vector and every integer level", "why_tests_cant": "there are infinitely many levels and vectors; the existing guard looks like a range check but is never true", "anchors": ["env/features.py: NamedPerciatelliFeatures.wind_at"]}
{"id": "C68", "title": "Normalised solar time", "statement": "compute_sunrise_time is always in [0, 2 pi]; it is pi times the elapsed fraction of the daylight between the last sunrise and the next sunset when the sunset comes first, and pi plus pi times the elapsed fraction of the night otherwise; its assertions never fail, and its division is never by zero. Between 1970 and 2100 it returns at every latitude strictly between -60 and 60 degrees, and raises at every other.", "quantifier": "every position and every time", "why_tests_cant": "ranges over all places and instants, including those next to a sunrise or a sunset", "anchors": ["env/features.py: compute_sunrise_time", "env/balloon/solar.py: get_next_sunrise_sunset"]}
{"id": "C69", "title": "The learner stores the actions that were executed", "statement": "With any learner and any exploration strategy, in training and in evaluation, the actions the Quantile agent stores with its rewards during an episode are exactly the actions it returned to the environment, in order (not the learner's own proposals). In evaluation the exploration strategy is neither consulted nor changed; with the default strategy (none) training episodes are the learner's own as well.", "quantifier": "every learner, exploration strategy, episode and mode", "why_tests_cant": "all strategies and all episodes; a wrong stored action is silent (it only degrades learning)", "anchors": ["balloon_learning_environment/agents/quantile_agent.py:QuantileAgent", "balloon_learning_environment/agents/exploration.py", "balloon_learning_environment/agents/marco_polo_exploration.py:MarcoPoloExploration"]}
{"id": "C70", "title": "What one environment step does", "statement": "A step that returns moves the balloon by the ground-truth wind (forecast plus noise) at its position, pressure and time at the beginning of the step, times the simulated seconds; leaves the station, the atmosphere and the wind field unchanged; returns as observation the features after exactly one new measurement, of the balloon's new state and the wind there; and returns the reward of the new state.", "quantifier": "every environment state, action, forecast, noise, feature constructor and reward function", "why_tests_cant": "all states and all plug-in components", "anchors": ["balloon_learning_environment/env/balloon_arena.py:BalloonArena.step", "balloon_learning_environment/env/balloon_env.py:BalloonEnv.step"]}
{"id": "C71", "title": "Independent random keys for every draw of every episode", "statement": "After seeding, the start of the n-th episode (atmosphere, date, distance, direction, latitude, longitude, pressure, infrared, winds) is computed from nine random keys that depend on the seed and on n only, whatever steps, failed resets or changes of the balloon happen in between; no two of these keys, over all purposes and all episodes, coincide, nor do keys derived from them, provided the library's splits do not collide.", "quantifier": "every seed, number of episodes, and sequence of calls in between", "why_tests_cant": "key reuse is invisible in any single run (it only correlates draws)", "anchors": ["balloon_learning_environment/env/balloon_arena.py:BalloonArena.reset", "balloon_learning_environment/env/balloon_arena.py:BalloonArena._initialize_balloon", "balloon_learning_environment/env/balloon_env.py:BalloonEnv.reset", "balloon_learning_environment/utils/sampling.py"]}
{"id": "C72", "title": "Training of the wind generator survives interruption", "statement": "Training the wind generator should save a checkpoint after every epoch from which a killed run resumes, so that the saved parameters have been trained through epochs 1, 2, ..., once each and in order. It does not: the loop uses three names that are bound nowhere, so every call raises NameError at the end of its first epoch, before saving; no checkpoint is ever written. If the names were bound the property would hold (training `num_epochs` - 1 epochs).", "quantifier": "every sequence of calls and kill points, every optimiser and data", "why_tests_cant": "all crash points and histories", "anchors": ["balloon_learning_environment/generative/learn_wind_field_generator.py: train"]}
{"id": "C73", "title": "Perciatelli44 agent", "statement": "The Perciatelli44 agent can be built exactly for 3 actions and observation shape [1099] (ValueError otherwise, before its model is looked for) if its model can be read. In every episode, whatever the mode, the rewards and what came before, it answers each observation of 1099 numbers with the first of the three actions that its network values most for that observation, and stays as it is; it raises exactly on observations of another length.", "quantifier": "every action count, shape, state of the model files, network with three outputs, and episode", "why_tests_cant": "all observations", "anchors": ["balloon_learning_environment/agents/perciatelli44.py"]}
{"id": "C74", "title": "The sunrise search never fails at supported latitudes", "statement": "For the sun the package computes (not an idealised one), get_next_sunrise_sunset answers for every position with |latitude| < 60 degrees, every longitude, every time in 1970-2099 and every resolution dividing six hours, with a sunrise and a sunset in the next 24 hours; calculate_steps_to_sunrise is then defined and at most one day of steps; at higher latitudes get_next_sunrise_sunset raises.", "quantifier": "every latitude, longitude, time of 1970-2099 and search resolution dividing six hours", "why_tests_cant": "The search raises when its estimates of noon and midnight coincide, which would need the moving, refracted sun to fool a bisection at one particular instant and place; the failing set, if any, has tiny measure.", "anchors": ["balloon_learning_environment/env/balloon/solar.py: get_next_sunrise_sunset, get_next_solar_noon, get_next_solar_midnight, is_solar_afternoon, solar_calculator, calculate_steps_to_sunrise"]}
{"id": "C65", "title": "Construction and reset never fail", "statement": "Constructing an environment and resetting it (with or without a seed, from any state it may be in) always returns an observation: the sampled position always has a sunrise, the sampled pressure is always inside the atmosphere, the Newton search for a stable gas temperature never leaves the range in which the thermal model is defined, and the wind is always defined at the start. This holds for every seed and system time, for the package's wind fields, provided the feature constructor does not raise and the rejection sampling of the infrared radiation accepts some draw.", "quantifier": "every seed, system time, environment state and random generator respecting the documented ranges", "why_tests_cant": "A reset combines about ten random draws with an iterative solver and a search, each of which raises outside its domain; tests see a handful of seeds.", "anchors": ["balloon_learning_environment/env/balloon_env.py: BalloonEnv.__init__, BalloonEnv.reset", "balloon_learning_environment/env/balloon_arena.py: BalloonArena.reset, _initialize_balloon", "balloon_learning_environment/env/balloon/stable_init.py: calculate_stable_params_for_pressure, cold_start_to_stable_params", "balloon_learning_environment/env/balloon/thermal.py: d_balloon_temperature_dt", "balloon_learning_environment/utils/sampling.py"]}
{"id": "C75", "title": "What an observation of the environment describes", "statement": "With the default feature constructor, the observation returned by reset or by any later step of the episode describes the balloon as it is at that moment (pressure, charge, bearing and distance to the station, last command, pressure ratio), and its wind column is, for every reachable level, the forecast at the balloon's place and time corrected by the regressor trained on exactly the forecast errors met in the states of this episode (after the reset and after every step) that are less than six hours old.", "quantifier": "every environment, seed, sequence of actions, wind field, noise and regressor, as long as the calls return", "why_tests_cant": "it ranges over whole episodes: a measurement that is dropped, duplicated or kept over a reset shows only for particular histories", "anchors": ["balloon_learning_environment/env/balloon_arena.py:BalloonArena.reset", "balloon_learning_environment/env/balloon_arena.py:BalloonArena.step", "balloon_learning_environment/env/features.py:PerciatelliFeatureConstructor.observe", "balloon_learning_environment/env/wind_gp.py:WindGP.query_batch"]}
{"id": "C76", "title": "The default balloon's accessible range is always the whole range", "statement": "For a balloon with the default envelope, payload and lift gas, computing the accessible pressure range never fails and never narrows it: it goes from the ceiling (the pressure at which the fully inflated balloon floats, between 5000 and 6800 Pa) down to the pressure at the lowest allowed altitude of 50000 ft (between 11300 and 12750 Pa), and at both ends the balloon floats with a superpressure between 250 and 2130 Pa.", "quantifier": "every atmosphere the simulator draws, every place, every date from 1970 to 2100, every upwelling infrared radiation between 225 and 315 W/m2", "why_tests_cant": "whether an end is kept depends on where a ten-step Newton search for the equilibrium temperature ends, for a continuum of radiations and atmospheres", "anchors": ["balloon_learning_environment/env/balloon/pressure_range_builder.py:get_pressure_range", "balloon_learning_environment/env/balloon/stable_init.py:calculate_stable_params_for_pressure", "balloon_learning_environment/env/balloon/thermal.py:d_balloon_temperature_dt", "balloon_learning_environment/env/balloon/standard_atmosphere.py:Atmosphere"]}
{"id": "C77", "title": "The default observation always exists at the start of an episode", "statement": "With the default (Perciatelli) feature constructor, constructing an environment and resetting it always return an observation, whatever the seed and the state of the environment, provided the forecast answers, the regressor fits any non-empty data and predicts standard deviations within its prior. During an episode, right after the balloon was observed, get_features returns if and only if the balloon is strictly between 60 degrees south and north, its pressure ratio is in [0.99, 5] and it has an accessible pressure range; for the default balloon this is: a latitude strictly between -60 and 60 degrees and a superpressure of at most four times the ambient pressure. It never fails for any other reason.", "quantifier": "every seed, every environment state, every random generator in which the rejection sampling ends, every wind field and regressor as above; every balloon state, atmosphere, date between 1970 and 2100 and history of observations", "why_tests_cant": "assertions deep in the feature pipeline (solar search, power table, belief, pressure range) depend on the drawn weather, place and date; tests sample a few seeds", "anchors": ["env/features.py: PerciatelliFeatureConstructor", "env/balloon_env.py: BalloonEnv.reset, __init__", "env/balloon_arena.py: reset, _initialize_balloon", "env/wind_gp.py: WindGP.query_batch", "env/balloon/power_table.py: lookup", "env/balloon/pressure_range_builder.py: get_pressure_range"]}
{"id": "C78", "title": "The wind VAE's networks compute the documented functions and are stable", "statement": "Encoder and decoder are perceptrons with three rectified hidden layers of 1000 units; every component x of the field enters the encoder as x / (50 + |x|), and all components of all grid points do. For given parameters: latents that differ by at most c give winds that differ by at most k c at every grid point; the encoder's mean and log-variance are bounded however strong the winds are; and the reconstructions of all fields lie within one bound.", "quantifier": "all network parameters, latents, fields, noise samples, grid points", "why_tests_cant": "real analysis over all parameters and inputs; nets of 1000 units", "anchors": ["balloon_learning_environment/generative/vae.py: Encoder, Decoder, WindFieldVAE"]}
{"id": "C79", "title": "A step is eighteen Euler steps of the published equations of motion", "statement": "After a reset and any number of calls of step, whatever they returned, a step(action) that returns has advanced the balloon by one to eighteen explicit Euler steps of ten seconds, all eighteen unless the episode ended in this step. Each of them moves the balloon with the wind that blew where and when the step began; changes the pressure by the terminal speed at which drag balances buoyancy minus weight, converted by the slope of the atmosphere over 1 Pa; changes the temperature of the gas by the heat balance of the film (sunlight after the atmosphere, infrared radiation of the Earth, convection, its own radiation); gives volume and superpressure by the envelope law; changes the ballast by the orifice flow through the 4 cm valve (vent), not at all (hold), or by the fan's flow at its most efficient power (pump); and changes the battery by the panels' power minus the load of the day or of the night and the fan, within 0 and 3058.56 Wh. Action 0 pumps, 1 holds, 2 vents, unless the balloon reports that a safety layer is in charge. At every moment of the episode the vehicle is the published one, its air warmer than 0 K, its volume and its amount of gas positive.", "quantifier": "all random generators with the documented ranges, all noise functions, forecasts, feature constructors and reward functions, all seeds, all sequences of actions, all outcomes of the earlier steps", "why_tests_cant": "Every field of the next state depends on every field of the previous one over up to eighteen sub-steps; tests compare a few rates at a few states.", "anchors": ["balloon_learning_environment/env/balloon_env.py:BalloonEnv.step", "balloon_learning_environment/env/balloon_arena.py:BalloonArena.step", "balloon_learning_environment/env/balloon/balloon.py:Balloon.simulate_step", "balloon_learning_environment/env/balloon/balloon.py:Balloon._simulate_step_internal", "balloon_learning_environment/env/balloon/thermal.py:d_balloon_temperature_dt", "balloon_learning_environment/env/balloon/acs.py:get_mass_flow", "balloon_learning_environment/env/balloon/solar.py:solar_power"]}
{"id": "C80", "title": "A step never raises before the end of the episode", "statement": "After a reset that returned and any sequence of up to fourteen million calls of step, whatever they returned, step(action) returns an observation, a reward, a flag and an info exactly if the action is 0, 1 or 2 and the balloon's status is OK: the simulation itself, with its look-ups in the atmosphere, square roots, divisions and assertions, never raises, and neither do the winds. This holds for feature constructors and reward functions that do not raise. For the default feature constructor step returns exactly if in addition the balloon ends up at a latitude below 60 degrees (beyond, the search for the next sunrise refuses); so it always does within 4000 km of the station, and, if the wind never exceeds W m/s, as long as 200 km + W times the time flown is at most 4000 km. A loop that steps until the flag is true never meets an exception.", "quantifier": "all random generators with the documented ranges, all noise functions, all forecasts that answer for non-negative elapsed times, all feature constructors and reward functions that do not raise (or the default feature constructor with any regressor that fits), all seeds, all sequences of actions, all outcomes of the earlier steps", "why_tests_cant": "Whether the simulation can leave the domain of one of its functions is a question about all reachable states, a set closed under a twenty-dimensional nonlinear map; it needs an inductive invariant (bounds on pressure, temperatures, volume, superpressure and ballast that each sub-step preserves).", "anchors": ["balloon_learning_environment/env/balloon_env.py:BalloonEnv.step", "balloon_learning_environment/env/balloon_arena.py:BalloonArena.step", "balloon_learning_environment/env/balloon/balloon.py:Balloon.simulate_step", "balloon_learning_environment/env/balloon/balloon.py:Balloon._simulate_step_internal", "balloon_learning_environment/env/balloon/thermal.py:d_balloon_temperature_dt", "balloon_learning_environment/env/balloon/standard_atmosphere.py:Atmosphere.at_pressure", "balloon_learning_environment/env/features.py:PerciatelliFeatureConstructor.get_features"]}
{"id": "C81", "title": "Flight envelope of an episode", "statement": "Whatever the actions and whatever the calls of step returned, from a reset on the balloon stays between 4400 and 32000 Pa and its superpressure is at most four times the pressure outside. While its status is OK its superpressure is positive and at most the maximum of 2380 Pa, its volume is 1804 m^3 plus 0.0199 m^3 for each pascal of superpressure, the air around it is between 165 and 300 K, the gas inside between 165 and 400 K, and it holds between 0 and 15200 mol of ballast air.", "quantifier": "all random generators with the documented ranges, all noise functions, forecasts, feature constructors and reward functions, all seeds, all sequences of up to fourteen million actions, all outcomes of the calls", "why_tests_cant": "A bound over all policies and flights needs an invariant; any finite set of flights leaves the worst one out.", "anchors": ["balloon_learning_environment/env/balloon_env.py:BalloonEnv.step", "balloon_learning_environment/env/balloon/balloon.py:Balloon.simulate_step", "balloon_learning_environment/env/balloon/balloon.py:Balloon._simulate_step_internal", "balloon_learning_environment/env/balloon/altitude_safety.py:AltitudeSafetyLayer.get_action"]}
{"id": "C82", "title": "The learning agent: values, greedy choice and gradient descent", "statement": "The MLP agent's network is a perceptron with num_layers-1 rectified hidden layers; the quantile network's values are the means of its quantiles and its probabilities add up to one. Every action the MLP agent returns is the first of the actions to which its network gives the highest value for the observation. In evaluation mode it learns nothing and its answers depend on the observation alone. In training mode every step is a step of gradient descent, by the learning rate, on the squared difference of the value of the last observation and action and the reward plus the discounted value of the new observation and the action returned for it, as a function of all parameters; for a small enough learning rate the squared error of the transition shrinks, and for a single layer by an exact factor. SARSA should hold the target fixed; it does not: the value of the next action is moved as well. The parameters after an episode depend on its observations, actions and all rewards but the last; the reward given to end_episode is never learnt from.", "quantifier": "all parameters, sizes, observations, rewards, discounts and learning rates, all episodes of any length; gradients wherever max(0, .) is differentiable", "why_tests_cant": "That an update is the gradient is a statement about a limit at every point of a space of thousands of dimensions; greedy choice with ties, and independence of the history, range over all observations and all call sequences.", "anchors": ["balloon_learning_environment/agents/mlp_agent.py:MLPAgent.train", "balloon_learning_environment/agents/mlp_agent.py:MLPAgent.step", "balloon_learning_environment/agents/mlp_agent.py:MLPAgent.begin_episode", "balloon_learning_environment/agents/mlp_agent.py:MLPAgent.end_episode", "balloon_learning_environment/agents/networks.py:MLPNetwork", "balloon_learning_environment/agents/networks.py:QuantileNetwork"]}
{"id": "C83", "title": "Episodes with Acme: returns and exploration", "statement": "In the evaluation environment built for Acme every episode, whatever the actor, lasts at least one and at most max_episode_length steps, and its return is the number of steps after which the balloon was within 50 km of the station, divided by the maximal (not the actual) length of an episode; so it is between 0 and 1. The cumulative reward this package's own evaluation of the same environment reports, times the maximal length, is its time within the radius times the steps flown. The exploring actor asks the learner's actor for an action at every observation and tells it the actions that were executed; if the episode explores (drawn at its start), the random walk's action is executed instead for the actions with numbers 80 to 119, 200 to 239 and so on.", "quantifier": "all actors (any learner), environments, seeds and episode lengths", "why_tests_cant": "The return is a sum over all trajectories of any actor; the schedule and who is told what must hold at every step of an episode of any length.", "anchors": ["balloon_learning_environment/acme_utils.py:create_env", "balloon_learning_environment/acme_utils.py:_balloon_is_within_radius", "balloon_learning_environment/acme_utils.py:CombinedActor"]}
{"id": "C84", "title": "Evaluations, training episodes and whole training runs come to their end; the packaged agents always answer", "statement": "With an agent that answers every observation it is shown, an evaluation on any suite of seeds returns its results, any number of training episodes runs to its end, and so does an episode of Acme's environment loop: no call of the environment or the agent raises, whatever the state of the environment it is started with. A whole training run (with checkpoints that can be written and read) returns as well, and every iteration up to its number has then been saved, once and in order, whatever earlier runs, finished or cut off, left in the directory; the packaged collectors, in any selection, never stop it unless fine-grained logging is asked for every 0 steps. This holds for feature constructors and reward functions that do not raise and up to fourteen million steps per episode, and for the default feature constructor in winds of at most W m/s up to the number of steps K with 200 km + 180 s * W * K <= 4000 km. The station seeker has an action for every observation of every episode (there is always a reachable pressure level with a score in its range), the random walk for every observation of the default length, and the MLP agent for every observation in both modes; an actor explored with one of them answers whenever the actor does.", "quantifier": "all agents that answer, all suites of seeds, states of the environment, numbers of episodes and iterations, histories of the checkpoint directory, collectors that do not raise, random generators with the documented ranges, forecasts, noise and reward functions; all episodes for the answers of the packaged agents", "why_tests_cant": "An exception after days of simulated flight needs a rare combination of state, seed and action; only an invariant over all states reachable by any agent excludes it.", "anchors": ["balloon_learning_environment/eval/eval_lib.py:eval_agent", "balloon_learning_environment/train_lib.py:_run_one_episode", "balloon_learning_environment/env/balloon_env.py:BalloonEnv.step", "balloon_learning_environment/env/balloon_env.py:BalloonEnv.reset", "balloon_learning_environment/agents/station_seeker_agent.py:StationSeekerAgent.pick_action", "balloon_learning_environment/agents/random_walk_agent.py:RandomWalkAgent.step", "balloon_learning_environment/agents/mlp_agent.py:MLPAgent.step", "balloon_learning_environment/acme_utils.py:CombinedActor", "balloon_learning_environment/train_lib.py:run_training_loop", "balloon_learning_environment/metrics/collector_dispatcher.py:CollectorDispatcher"]}
{"id": "C85", "title": "When a column of winds supports station keeping", "statement": "is_station_keeping_winds answers yes exactly if, whatever the direction one wants to be blown to, some wind of the column is not against it; equivalently, exactly if the balloon can share its time among the levels so that the winds cancel on average, and then three levels are enough. Adding levels, reordering or repeating them never turns a yes into a no, and only the directions of the winds matter, not their strengths. Winds that all blow to one side give no. It raises exactly if all winds of the column lie on one line, in particular for fewer than three winds or for two exactly opposite winds.", "quantifier": "all finite columns of wind vectors, for every convex-hull library that meets its documented contract", "why_tests_cant": "Convexity statements range over all directions and all weightings of all columns; the tests try two columns.", "anchors": ["balloon_learning_environment/utils/wind.py:is_station_keeping_winds"]}
{"id": "C86", "title": "Rendering shows the flight and changes nothing", "statement": "An environment with a renderer gives exactly the same observations, rewards and answers as one without, over any episode of up to fourteen million steps. At any time the picture shows the position of the balloon (kilometres east and north of the station and of altitude) at the last reset and after every step that returned, in order and nothing else, with the marker at the balloon's present position and the battery charge in percent over time; 'human' shows it, 'rgb_array' returns it and 'tensorboard' returns nothing. Every other mode, also 'ansi', which the documentation of render mentions, raises. A newly constructed environment can be rendered at once; without a renderer, render does nothing.", "quantifier": "all episodes with any actions, also refused ones, all seeds, random generators with the documented ranges, feature constructors, forecasts and reward functions that do not raise", "why_tests_cant": "That recording never disturbs or fails an episode, and that the recorded path has neither gaps nor repetitions, has to hold along every history of steps and resets.", "anchors": ["balloon_learning_environment/env/rendering/matplotlib_renderer.py:MatplotlibRenderer", "balloon_learning_environment/env/balloon_env.py:BalloonEnv.step", "balloon_learning_environment/env/balloon_env.py:BalloonEnv.reset", "balloon_learning_environment/env/balloon_env.py:BalloonEnv.render"]}
{"id": "C87", "title": "The deprecated generative wind field and its replacement agree", "statement": "GenerativeWindField and GridBasedWindField(GenerativeWindFieldSampler()), which replaces it, report the same forecasts, columns of forecasts and ground truths for every query after the same resets, and refuse the same queries. After a reset everything they report is determined by the key alone, neither by the date nor by earlier resets, and every query about the present or the future is answered.", "quantifier": "all trained parameters, random generators, noise functions, histories of resets and queries", "why_tests_cant": "A migration is safe only if no query at all distinguishes the two classes; tests compare a few points.", "anchors": ["balloon_learning_environment/env/generative_wind_field.py:GenerativeWindField", "balloon_learning_environment/env/generative_wind_field.py:GenerativeWindFieldSampler", "balloon_learning_environment/env/generative_wind_field.py:generative_wind_field_factory", "balloon_learning_environment/env/grid_based_wind_field.py:GridBasedWindField"]}
{"id": "C88", "title": "The power guard brings the balloon through the night", "statement": "If at some moment of a night the battery holds at least what the night load takes until dawn (half an hour after the expected sunrise) plus a margin of at most 56.46 Wh (in particular if the projection the guard makes leaves 2.5 % of the capacity, 76.46 Wh), then at every later moment until dawn it still holds what the rest of the night takes plus that margin, whatever the policy commands: the balloon does not run out of power before dawn, nor, with a margin above 9.2 Wh, in the step that passes dawn. In particular an episode that begins in a night of at most fifteen and a half more hours never runs out of power in that night.", "quantifier": "all policies and action sequences, seeds, winds, atmospheres, feature constructors and reward functions, all moments of all episodes", "why_tests_cant": "Energy safety is a statement about every sequence of commands through a night; a test runs one sequence in one sampled night.", "anchors": ["balloon_learning_environment/env/balloon/power_safety.py:PowerSafetyLayer.get_action", "balloon_learning_environment/env/balloon/balloon.py:Balloon.simulate_step", "balloon_learning_environment/env/balloon_env.py:BalloonEnv.step"]}
{"id": "C89", "title": "When the agents built on Dopamine learn, and from what", "statement": "While training, the quantile and the DQN agent have one occasion to learn before each answer. At an occasion with more than min_replay_history rewards received so far they make one gradient step if its number is a multiple of update_period, and then, if it is a multiple of target_update_period, take their targets from the parameters just learnt; at no other time do parameters or targets change, whatever the agent is asked, explores or samples. Over complete training episodes with M answers a fresh agent makes max(h, M-1) // u - h // u gradient steps (h: minimal history, u: update period); once learning has begun the targets are never older than a target period. Losses are reported at exactly the updates whose number is a positive multiple of the reporting frequency. The replay buffer is told every reward received while training, with the observation last answered and the action answered, and nothing else. An update gives each sampled transition the root of its loss plus 1e-10 as priority. In evaluation nothing is learnt, stored, reported or explored. The importance weights of prioritized replay lie above 0 and up to 1, with 1 among them, inversely proportional to the root of the sampling probability; they should weigh the gradient, but do not: they only change the reported loss. The DQN agent behaves as the quantile agent without exploration.", "quantifier": "all sequences of calls of begin_episode, step, end_episode and set_mode, all settings, exploration wrappers, replay buffers that count what they are given, and gradient steps", "why_tests_cant": "The schedule is a statement about every history of calls, with evaluation and training mixed in any order; the tests call each method once.", "anchors": ["balloon_learning_environment/agents/quantile_agent.py:QuantileAgent._train_step", "balloon_learning_environment/agents/dqn_agent.py:DQNAgent._train_step", "balloon_learning_environment/agents/quantile_agent.py:QuantileAgent.set_mode", "balloon_learning_environment/agents/configs/quantile.gin", "balloon_learning_environment/agents/configs/dqn.gin"]}
{"id": "C90", "title": "The agent that evaluates Acme checkpoints", "statement": "Whatever was done with it before, the Acme evaluation agent answers every observation with an action that is best by the network (means of 51 quantiles for each of 3 actions) of the checkpoint last loaded, or of its construction. load_checkpoint(dir, n) loads exactly ckpt-n of the directory of the latest checkpoint; if there is no checkpoint at all, or not that one, it raises and the agent is as before; after a successful load the agent goes on as any other that loaded the checkpoint. Setting it to evaluation mode is accepted, to training mode refused, and neither changes anything. Where no two actions are equally good its answers do not depend on what it was used for, so evaluations return the same results whole, in parts and after any history. Where two are, equal observations should get equal answers; they need not: the action is drawn.", "quantifier": "every history of calls (including failed loads and refused modes), every network, observation and directory; every way the random library may draw among the best actions; every suite and environment", "why_tests_cant": "quantifies over all histories, networks and observations", "anchors": ["balloon_learning_environment/agents/acme_eval_agent.py:AcmeEvalAgent", "balloon_learning_environment/acme_utils.py:create_dqn", "balloon_learning_environment/acme_utils.py:QuantileNetwork"]}
{"id": "C91", "title": "The evaluation and training programs and the files they leave", "statement": "eval.py returns exactly if its configuration is accepted, the evaluation that its flags ask for (agent, checkpoint, wind field, the shard's part of the suite) returns results, and its file can be written; the results are then in output_dir/suite/name.json, where the name is the override or the agent with its checkpoint number, followed by the shard's index if there are several, and no other file is touched; if anything raises, no file is touched. When the shards of a suite are evaluated in processes of their own, under every interleaving and even if some die, a shard's file is at any moment as before, incomplete, or holds exactly that shard's results. Runs of train.py with another agent or run number never share a file of their run directories. It should also hold that a file named after a checkpoint holds the results of that checkpoint, that different evaluations go to different files, and that runs keep their pictures apart; none does: without --checkpoint_dir the checkpoint number only names the file, shard i of an agent and its checkpoint i are written to the same file, and all runs overwrite base_dir/balloon_path.png.", "quantifier": "all flags, all agents, environments and suites, every interleaving and crash point of any number of processes", "why_tests_cant": "quantifies over flags, interleavings and crash points", "anchors": ["balloon_learning_environment/eval/eval.py:main", "balloon_learning_environment/eval/eval.py:write_result", "balloon_learning_environment/train.py:main", "balloon_learning_environment/utils/run_helpers.py"]}
{"id": "C92", "title": "Result files as texts", "statement": "The JSON file that an evaluation writes, plain or with pretty_json, is read back by json.load as every result in order, with its seed and flags, its numbers to the precision of a float, and its whole flight path in kilometres, pascals and seconds. combine_eval_shards, given such files in any formats, returns; its file is read as all the results sorted by seed, with the same numbers, with flight paths or with empty ones as asked, and no other file changes. A result file or combined file whose writing was cut off at any character is refused by json.load, and combining with such a file raises and writes nothing. Combining should raise if a shard is missing; it does not: whichever files are left, it returns, and without any (or with a misspelt model name) it writes an empty list of results.", "quantifier": "all lists of results, both formats of each file, every directory and order in which it is listed, every character at which writing stops", "why_tests_cant": "There are unboundedly many results, paths and cut points; a test writes and reads a few files and never one that was cut off at each character.", "anchors": ["balloon_learning_environment/eval/eval_lib.py:EvalResultEncoder", "balloon_learning_environment/eval/eval.py:write_result", "balloon_learning_environment/eval/combine_eval_shards.py:main"]}
{"id": "C93", "title": "The recurrent R2D2 network", "statement": "A call of the R2D2 network for a batch of observations, last actions and rewards returns exactly if there is one state for each; each row's new state follows from its own row by the LSTM equations on eight layers of features, the one-hot action and tanh of the reward, and its action values are the value plus the advantages less their mean: they average to the value and order the actions as the advantages do. Unrolling a sequence, as the learner does, gives exactly what the actor gets step by step; it can be unrolled in parts; the rows of a batch never influence each other. From the initial state, whatever is observed, done and rewarded and for however long, the hidden state stays within (-1, 1), the cells within the number of steps, and the action values within a bound given by the parameters of the head. The torso accepts single observations and batches and refuses any other rank.", "quantifier": "all parameters, sizes of observations, numbers of actions, batches, states, sequences of any length and selections of rows", "why_tests_cant": "The parameters and inputs are real numbers and sequences have any length; a test compares a few unrolled sequences for random weights.", "anchors": ["balloon_learning_environment/acme_utils.py:R2D2Network", "balloon_learning_environment/acme_utils.py:BLETorso", "balloon_learning_environment/acme_utils.py:make_r2d2_net2work"]}
{"id": "C94", "title": "The wind belief is the best linear one", "statement": "The wind belief object corrects the forecast by the linear estimate from the recent measurements whose expected squared error is least, if errors of the forecast have mean zero, covariance 12.96 exp(-distance) at two places (distances in units of 357 km, 326 Pa and 9.6 h) and measurements an independent noise of variance 0.05: the weights are the only best ones, depend on the places and times alone and are shared by both components, and the deviation it reports is that least error as a share of 12.96. Training succeeds on any measurements but none, with places repeated or arbitrarily close. The order of measurements is irrelevant; more of them never raise the deviation; the variance stays between 0.648/(0.05+12.96 n) and 12.96, so the deviation is 0 before any measurement and strictly between 0 and 1 afterwards; where n measurements were taken the variance is at most 0.648/(0.05+12.96 n), less than the noise of one; far from all measurements the belief returns to the forecast and to full deviation; predictions are linear in the measured errors. Hence resets, steps and evaluations of the default environment return as C77, C80 and C84 say, with no assumption on the regressor.", "quantifier": "all finite sets of measurements, with repetitions, all values, all queried places and times, all histories of the belief object", "why_tests_cant": "The positive definiteness of the kernel matrix, the optimality among all weights and the bounds range over arbitrary finite sets of points in a four-dimensional space.", "anchors": ["balloon_learning_environment/env/wind_gp.py:WindGP.__init__", "balloon_learning_environment/env/wind_gp.py:WindGP.query_batch", "balloon_learning_environment/env/wind_gp.py:WindGP.query"]}
{"id": "C95", "title": "The simulator in double precision", "statement": "With Python's floats instead of real numbers, for flights of any length: the battery charge stays between 0 and the capacity and the state of charge between 0 and 1, and OUT_OF_POWER means a charge of exactly 0, or the charge is NaN; it is never NaN while the solar power and loads are below 2^100 W and the pressure ratio below 1024. The pressure ratio is at least 1. Ascending never increases the air ballast nor makes it negative, and staying leaves it exactly as it was. In a sub-step the pressure does not rise when the computed mass is at most the computed displaced mass, and does not fall otherwise, in any atmosphere whose computed height strictly falls with pressure. The position is dead reckoning: after t seconds it is within t/2^29 m of the starting position plus wind times time, coordinate by coordinate, for winds up to 1024 m/s, strides of up to 16 whole seconds and calls of up to 64 strides made within 4194 km of the station.", "quantifier": "all states, atmospheres, suns, winds, commands, numbers of calls and power functions of the C library; all rounding errors, overflows and NaN", "why_tests_cant": "Rounding differs for every input; the bounds must hold for all 2^64 values of each field and for flights of unbounded length.", "anchors": ["balloon_learning_environment/env/balloon/balloon.py:Balloon._simulate_step_internal", "balloon_learning_environment/env/balloon/balloon.py:Balloon.simulate_step", "balloon_learning_environment/env/balloon/balloon.py:BalloonState.pressure_ratio", "balloon_learning_environment/env/balloon/acs.py:get_most_efficient_power"]}
{"id": "C96", "title": "Features and units in the numbers they are computed with", "statement": "In double and single precision: linear_rescale_with_saturation gives a number between 0 and 1 that never decreases, exactly 0 up to vmin and exactly 1 from vmax. squash_to_unit_interval gives a number between 0 and 1 within 2^-52 of the exact quotient and, up to x = 2^20, below 1 even as a float32; it should increase with x and stay below 1; it does not: the double after 44.333333333333336 km is given a smaller value, and 2^62 is given 1. Storing in the float32 vector keeps the order and changes numbers up to 1 by at most 2^-25, so all 16 ambient features lie in the declared observation space and each is within 2^-24 of the exact one, in its place, the pressure can be read back to 0.0003 Pa, and a reachable wind level is never mistaken for the mark of an unreachable one. Kilometres to metres and back lose at most one part in 2^51; a conversion and its inverse should give back the distance; they do not: 1001 m through kilometres and 7 feet do not come back.", "quantifier": "all double-precision numbers in ordinary range, all balloon states and readings, all libraries whose sine and cosine stay between -1 and 1", "why_tests_cant": "Rounding differs for each of the 2^64 inputs; a test of a few values misses the inputs on which order or equality is lost.", "anchors": ["balloon_learning_environment/utils/transforms.py:linear_rescale_with_saturation", "balloon_learning_environment/utils/transforms.py:squash_to_unit_interval", "balloon_learning_environment/env/features.py:PerciatelliFeatureConstructor._add_ambient_features", "balloon_learning_environment/env/features.py:PerciatelliFeatureConstructor._add_wind_features", "balloon_learning_environment/env/features.py:PerciatelliFeatureConstructor.observation_space", "balloon_learning_environment/env/features.py:PerciatelliWindFeature.is_valid_wind", "balloon_learning_environment/utils/units.py:Distance"]}
{"id": "C97", "title": "Where a generated wind field is read, in the numbers it is computed with", "statement": "In double and single precision: for every balloon position, every pressure (infinite ones too, NaN excepted), every elapsed time from 0 to 285 years and every horizon of 1 to 2^20 whole hours, the query point built for a generated wind field lies inside the field's grid, so that reading the forecast never raises; with the default field the point is within 3 cm, 1/2048 Pa and 14 ms of the exact one (the nearest point of the field, at the time reflected at the ends of the field), and the time read never jumps, not even where the reflection turns round: the number of reflections, computed by a rounded division, is always the exact one. For a horizon that is not a whole number of hours the latter should hold too; it does not: with 60.2 hours, hour 301 is read at the beginning of the field instead of at its end.", "quantifier": "all float64 positions and pressures, all elapsed times up to 2^53 microseconds, all whole horizons up to 2^20 hours", "why_tests_cant": "A wrong number of reflections needs a quotient that is rounded up to a whole number: single floats among 2^62, which sampling does not hit; whether there are any depends on the horizon.", "anchors": ["balloon_learning_environment/env/grid_based_wind_field.py: GridBasedWindField._boomerang, _prepare_get_forecast_inputs", "balloon_learning_environment/env/generative_wind_field.py: GenerativeWindField._boomerang", "balloon_learning_environment/generative/vae.py: FieldShape", "balloon_learning_environment/utils/units.py: timedelta_to_hours"]}
{"id": "C98", "title": "Counts obtained by rounding a quotient are exact", "statement": "The whole numbers the program gets by truncating or rounding a double precision quotient are the ones exact arithmetic gives: every finite pressure is assigned the pressure level nearest to it, the even one of two equally near, infinite pressures the outermost levels, and NaN raises; the number of search steps in an interval, of steps until sunrise (rounded up), of whole seconds in a duration and the midpoints of the binary search are never one off, for durations up to 142 years.", "quantifier": "every double precision pressure; every pair of a duration and a step in microseconds below 2^52; every pair of search bounds below 2^51", "why_tests_cant": "An error of one step happens only for inputs within a rounding error of a boundary; whether the rounded quotient can cross a boundary depends on the spacing of doubles near every multiple, which no finite set of inputs covers.", "anchors": ["balloon_learning_environment/env/features.py:PerciatelliFeatureConstructor._nearest_pressure_level", "balloon_learning_environment/env/balloon/solar.py:_find_solar_elevation_binary_search", "balloon_learning_environment/env/balloon/solar.py:calculate_steps_to_sunrise", "balloon_learning_environment/env/balloon/balloon.py:Balloon.simulate_step", "balloon_learning_environment/utils/sampling.py:sample_time"]}
{"id": "C99", "title": "The reward in double precision", "statement": "The default reward as computed in double precision is a number between 0 and 1. A position within the 50 km radius always counts as within it, despite three rounded operations, and gets exactly 1 unless the descent penalty applies; a position outside by a nanometre or more gets at most 0.41, and with the penalty the reward is at most 0.951. The reward is the documented one to within 1e-9, up to 33,000 km from the station, unless the position is outside the radius by less than a nanometre: there the reward should be below 1, but it is not.", "quantifier": "every state with a finite position up to 2^400 metres (33,000 km for the accuracy) and a finite power up to 2^20 W; every exponential function of the C library with results between 0 and 1 (and accurate to 2^-50) for arguments at most 0", "why_tests_cant": "The decision at the radius is discontinuous: whether rounding can put a point on the wrong side depends on every pair of doubles near the circle, and the error of the reward must be bounded over all of them.", "anchors": ["balloon_learning_environment/env/balloon_env.py:perciatelli_reward_function", "balloon_learning_environment/utils/units.py:relative_distance", "balloon_learning_environment/utils/units.py:Distance", "balloon_learning_environment/utils/transforms.py:linear_rescale_with_saturation"]}
{"id": "C100", "title": "Training with Acme and evaluating in between", "statement": "The Acme training program runs as many rounds as it is asked to, each one episode of training and then one of evaluation, and writes for each the length and the return of the episode with the numbers of episodes and steps of training and of evaluation so far. Evaluating changes nothing in training: with any other evaluation the agent ends the same and the same is written about training. Evaluations in the environment made for it have one to max_episode_length steps and a return between 0 and 1. The evaluating actor of the distributed program takes in a whole episode actions that are best by the variables it read at its beginning, however they change meanwhile. That of the local program should take actions that are best by the variables of the agent as trained so far; all are but the first, which is best by those of the round before. In training the actions that are not best have probability epsilon/3 each, in evaluation 0, whatever epsilon is. If the exploration of MarcoPolo is asked for, only actors made for training explore.", "quantifier": "every environment, learner, number of episodes and episode limit; every network, observation and exploration rate; every way the variables change during an episode; every builder and seed", "why_tests_cant": "A test can run a few episodes of one learner; that evaluation never feeds back into training, and which variables an action was chosen by, must hold for every learner and at every point of an arbitrarily long run.", "anchors": ["balloon_learning_environment/train_acme_qrdqn.py:main", "balloon_learning_environment/distributed_train_acme_qrdqn.py:default_evaluator", "balloon_learning_environment/acme_utils.py:marco_polo_actor", "balloon_learning_environment/acme_utils.py:create_dqn"]}
{"id": "C101", "title": "The numbers of an evaluation's result in double precision", "statement": "With rewards between 0 and 1, the cumulative reward an evaluation reports for an episode of n steps is a number between 0 and n, the sum of the rewards to within 1e-10 for up to 1024 steps (and to within n 2^(e-54) for up to 2^e); it is exactly n if all rewards are 1, and only then if the others are at most 0.999; rewards that are at least as high at every step never give less. It should not depend on the order of the rewards; it does, in the last digits. The reported time within the radius is between 0 and 1, 0 only if the balloon was never there and 1 only if it always was; multiplied by the number of steps it gives back the count of steps; and comparing two of them, of episodes of any lengths up to 2^25 steps, gives the answer that exact proportions would.", "quantifier": "every list of rewards in double precision, every number of steps and of steps within the radius (up to the stated sizes)", "why_tests_cant": "A test compares a few sums and quotients; that rounding never leaves the documented range, never makes two different proportions equal and never inverts a comparison must hold for all of them.", "anchors": ["balloon_learning_environment/eval/eval_lib.py:eval_agent", "balloon_learning_environment/eval/eval_lib.py:EvaluationResult"]}
{"id": "C102", "title": "The power tables in double precision", "statement": "With Python's floats: power_table.lookup is the published table with its decimal thresholds replaced by the doubles nearest to them; it agrees with the table over real numbers for every argument that is not itself such a double. A pressure ratio that is infinite or NaN is rejected; a state of charge that is NaN is treated as a full battery. The most efficient ACS power is, for every finite non-negative pressure ratio, a finite number between 100 and 400 W that never decreases with the ratio, is 100 exactly up to the double 1.05, is 400 exactly from 1.25 on, and is within 5e-12 W of the published curve; at an infinite or NaN ratio it is NaN. In every sub-step of the simulator the ACS draws 0 W unless descending, and between 100 and 400 W when descending at a finite pressure ratio.", "quantifier": "all 2^64 doubles for the pressure ratio and the state of charge; all simulator states, atmospheres, suns, winds and strides", "why_tests_cant": "Monotonicity, the exact end values and the error bound must hold at every double; rounding could break any of them next to a knot of the curve or a threshold of the table.", "anchors": ["balloon_learning_environment/env/balloon/power_table.py:lookup", "balloon_learning_environment/env/balloon/acs.py:get_most_efficient_power", "balloon_learning_environment/env/balloon/balloon.py:Balloon._simulate_step_internal"]}
{"id": "C103", "title": "Comparing balloon states", "statement": "Two balloon states are == if and only if they differ in nothing but their three safety layers, and test_helpers.compare_balloon_states passes if and only if they differ in nothing but these and power_safety_layer_enabled. States that are == should fly alike; they need not: a balloon whose navigation is paused and the same balloon freshly constructed are == and pass the comparison, but the same command makes one descend and not the other. When fields to be different are named, the comparison passes if and only if every named field that it compares differs: the other fields are not looked at, and naming only unknown fields or safety layers makes it pass for any two states.", "quantifier": "all pairs of balloon states and all lists of field names", "why_tests_cant": "Tests of reproducibility rely on this comparison; what it leaves out can only be seen by considering every pair of states.", "anchors": ["balloon_learning_environment/utils/test_helpers.py:compare_balloon_states", "balloon_learning_environment/env/balloon/balloon.py:BalloonState"]}
{"id": "C104", "title": "Instants of time", "statement": "units.datetime accepts exactly the dates of the Gregorian calendar of the years 1 to 9999 with a time of day, and without a zone argument yields an instant that does not depend on the time zone of the computer: the simulator's calendar shows that date at that instant, and that time of the day. units.datetime_from_timestamp is its inverse: each whole second of these years gives a UTC datetime with that timestamp, each such datetime is recovered from its timestamp, and other timestamps are rejected. Passing None as the zone should default to UTC, as documented; it does not: the instant is then off by the offset of the computer's time zone.", "quantifier": "all dates, times of the day, timestamps and time zones of the computer", "why_tests_cant": "Every day of every year must round-trip; tests run in one time zone only.", "anchors": ["balloon_learning_environment/utils/units.py:datetime", "balloon_learning_environment/utils/units.py:datetime_from_timestamp"]}
{"id": "C105", "title": "How long the distributed training runs", "statement": "The distributed training program runs any number of actors, each in its own environment, and is ended by a limiter that looks at the count of environment steps from time to time. It is never ended before num_episodes episodes have finished; when the limiter looks it ends the program exactly if the finished episodes have num_episodes * max_episode_length steps or more. If it looks after every episode, between num_episodes and num_episodes * max_episode_length episodes finish, and num_episodes exactly if each lasted max_episode_length steps. It should train for num_episodes episodes, as the flag says; it does not: the flag is a budget of steps, and if episodes end early up to max_episode_length times as many are flown. An episode of one actor never changes another actor or its environment.", "quantifier": "every environment, actor and number of actors, every influence of the learner on the actors, every order in which episodes finish and every schedule of the limiter, all num_episodes and max_episode_length of at least one", "why_tests_cant": "The actors run concurrently for days; a test sees one order of events and cannot range over schedules or over when episodes end.", "anchors": ["balloon_learning_environment/distributed_train_acme_qrdqn.py:get_program", "balloon_learning_environment/distributed_train_acme_qrdqn.py:main", "balloon_learning_environment/acme_utils.py:create_env"]}
{"id": "C106", "title": "The agent that acts at random", "statement": "RandomAgent answers every request for an action, whatever it observed, was rewarded with or was told, with the next number below the number of actions from numpy's global generator: a valid action; it draws for nothing else, and raises exactly if it is asked for an action when there are none. An evaluation of it takes exactly one number for each step of each flight and one more for each flight. Evaluating it should be repeatable and its result on a seed should not depend on the other seeds; it does not hold: nothing seeds numpy's generator, so the result on a seed depends on how many steps the process made before.", "quantifier": "every state of numpy's generator, every number of actions, every sequence of calls, every environment and evaluation suite", "why_tests_cant": "A test with a patched or seeded generator sees a few draws; that nothing but the number of earlier requests matters is about every history of calls.", "anchors": ["balloon_learning_environment/agents/agent.py:RandomAgent", "balloon_learning_environment/eval/eval_lib.py:eval_agent"]}
{"id": "C107", "title": "Balloons made by create_balloon", "statement": "A balloon answered by create_balloon is at the asked place, pressure and time (by default 2013-03-25 09:25:32 UTC), with the asked fraction of its battery charged, and is otherwise the documented vehicle, in order and with its safety layers at their start; after a stable start it has the atmosphere's temperature outside, floats (it weighs what it displaces, or has no ballast if it is too heavy) and obeys the gas law, otherwise its gas is that of a new state. It answers exactly if the balloon is less than 60 degrees from the equator (without a stable start, for times of 1970 to 2099) and, with one, at every such place for every pressure that the given atmosphere knows up to 101325 Pa and infrared radiation of 225 to 350 W/m^2. Its default arguments should give a balloon; they do not: they ask for a stable start without an atmosphere, which raises. power_percent should be a percentage or be checked; it is neither: 95 gives 95 times the capacity of the battery.", "quantifier": "all positions, pressures, charges, times, infrared radiations and atmospheres", "why_tests_cant": "The helper is only used with a few literal arguments in the tests; that it answers (the sunrise search and the temperature iteration succeed) is a statement about every place and time.", "anchors": ["balloon_learning_environment/utils/test_helpers.py:create_balloon", "balloon_learning_environment/env/balloon/stable_init.py:cold_start_to_stable_params", "balloon_learning_environment/env/balloon/balloon.py:BalloonState"]}
