{
 "claims": [
  {
   "property": "C01",
   "status": "proved",
   "theorems": [
    "C01_executed_at_least_requested",
    "C01_cases"
   ],
   "note": "Any number type (floats included), any world, wind, durations, state."
  },
  {
   "property": "C02",
   "status": "proved",
   "theorems": [
    "C02_C03_C04_executed_command",
    "C02_altitude_floor"
   ],
   "note": "Over flights of any length; real-number readings."
  },
  {
   "property": "C03",
   "status": "proved",
   "theorems": [
    "C02_C03_C04_executed_command",
    "C03_envelope_guard"
   ],
   "note": "Requires max superpressure >= 600 Pa (2380 in the code), so that the low and high bands do not overlap."
  },
  {
   "property": "C04",
   "status": "proved",
   "theorems": [
    "C02_C03_C04_executed_command",
    "C04_power_layer_only_down_to_stay",
    "C04_power_layer_rule"
   ],
   "note": ""
  },
  {
   "property": "C05",
   "status": "proved",
   "theorems": [
    "C05_forecast_is_current",
    "C05_catch_up_terminates"
   ],
   "note": ""
  },
  {
   "property": "C06",
   "status": "proved",
   "theorems": [
    "C06_paused_flag_meaning",
    "C06_not_paused_passes_command",
    "C06_paused_iff_descent_refused"
   ],
   "note": ""
  },
  {
   "property": "C07",
   "status": "proved",
   "theorems": [
    "C07_battery_limits",
    "C07_energy_balance"
   ],
   "note": "Exact real arithmetic."
  },
  {
   "property": "C08",
   "status": "proved",
   "theorems": [
    "C08_parameters_never_change",
    "C08_ballast_never_negative",
    "C08_ballast_follows_command",
    "C08_ballast_amount"
   ],
   "note": "Exact real arithmetic."
  },
  {
   "property": "C11",
   "status": "proved",
   "theorems": [
    "C11_clocks_move_together",
    "C11_substeps",
    "C11_step_duration",
    "C11_fractional_duration_refuted"
   ],
   "note": "C11_substeps covers every duration; the fractional-second half of the statement is a refutation with witnesses."
  },
  {
   "property": "C12",
   "status": "proved",
   "theorems": [
    "C12_dead_reckoning"
   ],
   "note": "Exact real arithmetic."
  },
  {
   "property": "C13",
   "status": "proved",
   "theorems": [
    "C13_envelope_law",
    "C13_superpressure_monotone_and_lipschitz",
    "C13_substep_obeys_law"
   ],
   "note": "Exact real arithmetic."
  },
  {
   "property": "C14",
   "status": "proved",
   "theorems": [
    "C14_rises_iff_buoyant",
    "C14_pressure_change",
    "C14_in_every_seeded_atmosphere"
   ],
   "note": "For every atmosphere oracle whose height decreases with pressure, and for every seeded atmosphere of the environment (where that is proved)."
  },
  {
   "property": "C15",
   "status": "proved",
   "theorems": [
    "C15_height_then_pressure",
    "C15_pressure_then_height"
   ],
   "note": "Exact real arithmetic."
  },
  {
   "property": "C16",
   "status": "proved",
   "theorems": [
    "C16_pressure_decreases",
    "C16_values_positive",
    "C16_temperature_and_density",
    "C16_hydrostatic"
   ],
   "note": "Exact real arithmetic."
  },
  {
   "property": "C20",
   "status": "proved",
   "theorems": [
    "C20_linear_rescale",
    "C20_saturation",
    "C20_squash",
    "C20_arrays"
   ],
   "note": "Exact real arithmetic."
  },
  {
   "property": "C21",
   "status": "proved",
   "theorems": [
    "C21_undo_squash_rejects_refuted"
   ],
   "note": "The documented rejection does not happen; the theorem says exactly which inputs fail and what the others give."
  },
  {
   "property": "C22",
   "status": "proved",
   "theorems": [
    "C22_reads_back",
    "C22_constructors_si",
    "C22_arithmetic_is_dimensional",
    "C22_sums_of_one_kind_only",
    "C22_products_accepted",
    "C22_products_rejected",
    "C22_derived_conversions"
   ],
   "note": "Exact real arithmetic."
  },
  {
   "property": "C23",
   "status": "proved",
   "theorems": [
    "C23_order_is_that_of_si_values",
    "C23_which_comparisons_answer",
    "C23_equality_meaning",
    "C23_equality_laws",
    "C23_mixed_kinds",
    "C23_which_exception",
    "C23_distance_equality_transitive_refuted",
    "C23_energy_ge_foreign_refuted"
   ],
   "note": "Every pair of operands is covered; the two laws that fail are refuted with witnesses."
  },
  {
   "property": "C29",
   "status": "proved",
   "theorems": [
    "C29_power_table",
    "C29_more_charge_never_less_power",
    "C29_range"
   ],
   "note": "Exact real arithmetic."
  },
  {
   "property": "C30",
   "status": "proved",
   "theorems": [
    "C30_power_curve",
    "C30_efficiency_is_bilinear",
    "C30_efficiency_and_flow_range"
   ],
   "note": "scipy's interpolators are modelled as piecewise (bi)linear; exact real arithmetic."
  },
  {
   "property": "C17",
   "status": "proved",
   "theorems": [
    "C17_range_and_optimum"
   ],
   "note": "Exact real arithmetic."
  },
  {
   "property": "C18",
   "status": "proved",
   "theorems": [
    "C18_documented_value",
    "C18_distance",
    "C18_vanishes_far_away",
    "C18_power_penalty"
   ],
   "note": "Exact real arithmetic; the decay base exp(-0.69314718056) is within 1e-11 of one half."
  },
  {
   "property": "C31",
   "status": "proved",
   "theorems": [
    "C31_search_answers",
    "C31_symmetric_search_is_optimal",
    "C31_linear_crossing",
    "C31_noon_and_midnight_ahead",
    "C31_sunrise_sunset_ahead",
    "C31_steps_to_sunrise",
    "C31_ideal_sun"
   ],
   "note": "Any number type for termination and windows; reals for optimality."
  },
  {
   "property": "C32",
   "status": "proved",
   "theorems": [
    "C32_consecutive_days",
    "C32_julian_time",
    "C32_every_date_refuted"
   ],
   "note": "Outside the stated era the day number is wrong: refuted with witnesses in 2100."
  },
  {
   "property": "C33",
   "status": "proved",
   "theorems": [
    "C33_power_range",
    "C33_attenuation",
    "C33_formula",
    "C33_shadow",
    "C33_sun_position"
   ],
   "note": "Exact real arithmetic."
  },
  {
   "property": "C62",
   "status": "proved",
   "theorems": [
    "C62_linear_crossing",
    "C62_monotone_crossing_refuted"
   ],
   "note": "The general claim is refuted in every bracket; proved for linear elevations."
  },
  {
   "property": "C34",
   "status": "proved",
   "theorems": [
    "C34_time_reflection",
    "C34_forecast_never_jumps"
   ],
   "note": "Exact real arithmetic."
  },
  {
   "property": "C35",
   "status": "proved",
   "theorems": [
    "C35_forecast_value",
    "C35_refuses",
    "C35_column_agrees",
    "C35_environment_grid",
    "C35_exact_and_bounded",
    "C35_ground_truth",
    "C35_static_field"
   ],
   "note": "scipy's interpn is modelled; the sampled field is an oracle; exact real arithmetic."
  },
  {
   "property": "C36",
   "status": "proved",
   "theorems": [
    "C36_mixture",
    "C36_after_reset",
    "C36_size",
    "C36_unit_variance",
    "C36_keys"
   ],
   "note": "OpenSimplex is an oracle bounded by 1; key distinctness assumes splits never collide."
  },
  {
   "property": "C37",
   "status": "proved",
   "theorems": [
    "C37_belief",
    "C37_recent_exists",
    "C37_rows",
    "C37_forecast_when_all_old_refuted"
   ],
   "note": "The sklearn regressor is an oracle that predicts row by row and refuses to fit no data."
  },
  {
   "property": "C52",
   "status": "proved",
   "theorems": [
    "C52_location",
    "C52_time",
    "C52_default_time",
    "C52_pressure_default",
    "C52_pressure",
    "C52_infrared",
    "C52_infrared_stops"
   ],
   "note": "jax random is an oracle obeying its documented ranges; exact real arithmetic."
  },
  {
   "property": "C55",
   "status": "proved",
   "theorems": [
    "C55_black_body",
    "C55_total_absorptivity",
    "C55_heat_balance",
    "C55_stable_temperature"
   ],
   "note": "Exact real arithmetic; temperatures 13 K to 4000 K, ambient up to 2473 K."
  },
  {
   "property": "C56",
   "status": "proved",
   "theorems": [
    "C56_cold_start",
    "C56_excess_lift",
    "C56_search",
    "C56_search_direction"
   ],
   "note": "Exact real arithmetic; convergence of the temperature search within ten corrections is not claimed."
  },
  {
   "property": "C51",
   "status": "proved",
   "theorems": [
    "C51_valid",
    "C51_travel",
    "C51_distance",
    "C51_identity"
   ],
   "note": "Exact real arithmetic; atan2 without signed zeros."
  },
  {
   "property": "C09",
   "status": "proved",
   "theorems": [
    "C09_reported",
    "C09_absorbing"
   ],
   "note": "Default arena, no renderer; any feature constructor, wind forecast and reward function."
  },
  {
   "property": "C10",
   "status": "proved",
   "theorems": [
    "C10_visible",
    "C10_every_failure_flagged_refuted"
   ],
   "note": "The stronger reading (one flag per failure that happened) is refuted: a burst in the sub-step that empties the battery is not flagged."
  },
  {
   "property": "C19",
   "status": "proved",
   "theorems": [
    "C19_radius_ignored",
    "C19_refuted"
   ],
   "note": "The expected agreement is refuted for every radius but 50 km."
  },
  {
   "property": "C39",
   "status": "proved",
   "theorems": [
    "C39_reproducible",
    "C39_constructor",
    "C39_seed_then_reset",
    "C39_arena",
    "C39_arena_constructor"
   ],
   "note": "jax random is an oracle (pure functions of keys); the wind forecast, the feature constructor and the reward are arbitrary."
  },
  {
   "property": "C54",
   "status": "proved",
   "theorems": [
    "C54_restore_is_a_no_op",
    "C54_refuted",
    "C54_reset_changes_saved_weather",
    "C54_deep_copy"
   ],
   "note": "The expected restoration is refuted for every state; it holds for deep copies made by the client, up to the feature constructor's memory."
  },
  {
   "property": "C63",
   "status": "proved",
   "theorems": [
    "C63_start",
    "C63_sound_envelope",
    "C63_vehicle"
   ],
   "note": "jax random obeys its documented ranges; exact real arithmetic."
  },
  {
   "property": "C38",
   "status": "proved",
   "theorems": [
    "C38_results",
    "C38_returns",
    "C38_balloon_status"
   ],
   "note": "Agents and environments are arbitrary state machines; Python floats as reals."
  },
  {
   "property": "C40",
   "status": "proved",
   "theorems": [
    "C40_partition",
    "C40_episode_length",
    "C40_balanced",
    "C40_beyond"
   ],
   "note": "Division rounded to binary64 (Flocq); the suite has fewer than 2^53 seeds (C40_balanced: length times number of shards below 2^53)."
  },
  {
   "property": "C41",
   "status": "proved",
   "theorems": [
    "C41_union",
    "C41_returns",
    "C41_mixes_checkpoints_refuted",
    "C41_shard_files_distinct"
   ],
   "note": "Directories are lists of names and parsed contents; C92 covers the JSON texts. The stronger expectation is refuted."
  },
  {
   "property": "C53",
   "status": "proved",
   "theorems": [
    "C53_documented",
    "C53_independent",
    "C53_strata"
   ],
   "note": "Lists and suites are objects in a memory with references."
  },
  {
   "property": "C64",
   "status": "proved",
   "theorems": [
    "C64_same_result",
    "C64_parts",
    "C64_sharded"
   ],
   "note": "For agents satisfying starts_afresh; C64_not_afresh shows the hypothesis is needed."
  },
  {
   "property": "C42",
   "status": "proved",
   "theorems": [
    "C42_names",
    "C42_negative",
    "C42_distinct",
    "C42_latest",
    "C42_other_file_refuted"
   ],
   "note": "Strings are lists of bytes; int() also accepts signs, spaces and underscores, as in Python (ASCII only)."
  },
  {
   "property": "C43",
   "status": "proved",
   "theorems": [
    "C43_exact",
    "C43_retention",
    "C43_latest_kept",
    "C43_never_removed_refuted",
    "C43_other_file_refuted"
   ],
   "note": "The listing may be in any order."
  },
  {
   "property": "C44",
   "status": "proved",
   "theorems": [
    "C44_no_gap_no_repeat",
    "C44_complete",
    "C44_limit",
    "C44_torn_refuted",
    "C44_value_error_refuted",
    "C44_not_restored_refuted"
   ],
   "note": "Agent, environment and collectors are arbitrary; Dopamine's bundle/unbundle are oracles assumed to succeed; files of the replay buffer are not modelled."
  },
  {
   "property": "C45",
   "status": "proved",
   "theorems": [
    "C45_events",
    "C45_console",
    "C45_pickle",
    "C45_tensorboard",
    "C45_counted_once_refuted",
    "C45_never_executed_refuted"
   ],
   "note": "Rewards are real numbers; texts are modelled by the values printed."
  },
  {
   "property": "C46",
   "status": "proved",
   "theorems": [
    "C46_fan_out",
    "C46_summary_writer",
    "C46_training",
    "C46_named_collectors"
   ],
   "note": "Arbitrary collectors with hidden state."
  },
  {
   "property": "C66",
   "status": "proved",
   "theorems": [
    "C66_pickles_kept",
    "C66_console_log_refuted",
    "C66_tensorboard_steps_refuted"
   ],
   "note": ""
  },
  {
   "property": "C24",
   "status": "proved",
   "theorems": [
    "C24_layout"
   ],
   "note": "float32 storage of the vector is not modelled."
  },
  {
   "property": "C25",
   "status": "proved",
   "theorems": [
    "C25_wind_column"
   ],
   "note": "The GP regressor and the forecast are arbitrary; the hypothesis is that the forecast column agrees with the point forecast (C35)."
  },
  {
   "property": "C26",
   "status": "proved",
   "theorems": [
    "C26_named_features",
    "C26_named_winds",
    "C26_navigation_swapped_refuted"
   ],
   "note": "navigation_enabled and navigation_paused are swapped: refuted part."
  },
  {
   "property": "C27",
   "status": "proved",
   "theorems": [
    "C27_in_observation_space",
    "C27_space",
    "C27_pressure_range"
   ],
   "note": "Real arithmetic. The code's own check allows deviations up to 1.00001; within the declared space when the regressor's deviations do not exceed the prior."
  },
  {
   "property": "C28",
   "status": "proved",
   "theorems": [
    "C28_nearest_level",
    "C28_total_and_monotone"
   ],
   "note": ""
  },
  {
   "property": "C67",
   "status": "proved",
   "theorems": [
    "C67_wind_at",
    "C67_negative_levels_refuted"
   ],
   "note": "Refuted for levels -361..-2."
  },
  {
   "property": "C68",
   "status": "proved",
   "theorems": [
    "C68_solar_cycle",
    "C68_fails_only",
    "C68_always_answers"
   ],
   "note": "C68_always_answers: between 1970 and 2100 it answers at exactly the latitudes that the sunrise search supports; the two events are shown never to be a day apart"
  },
  {
   "property": "C47",
   "status": "proved",
   "theorems": [
    "C47_schedule",
    "C47_learner_actions",
    "C47_which_episodes",
    "C47_always_or_never"
   ],
   "note": ""
  },
  {
   "property": "C48",
   "status": "proved",
   "theorems": [
    "C48_episode",
    "C48_first_target",
    "C48_stays_in_range_refuted",
    "C48_time_since_update_refuted"
   ],
   "note": "The last two sentences of the property are the refuted parts."
  },
  {
   "property": "C49",
   "status": "proved",
   "theorems": [
    "C49_best_level",
    "C49_on_observations"
   ],
   "note": "Real arithmetic."
  },
  {
   "property": "C69",
   "status": "proved",
   "theorems": [
    "C69_stored_actions",
    "C69_evaluation",
    "C69_no_exploration"
   ],
   "note": "The learner (Dopamine) is abstract: any state machine with begin, step and end."
  },
  {
   "property": "C70",
   "status": "proved",
   "theorems": [
    "C70_step"
   ],
   "note": ""
  },
  {
   "property": "C71",
   "status": "proved",
   "theorems": [
    "C71_keys"
   ],
   "note": "Collision-free splitting is a hypothesis (an idealisation of threefry); C71_witness gives a library meeting it."
  },
  {
   "property": "C50",
   "status": "proved",
   "theorems": [
    "C50_search",
    "C50_range",
    "C50_contains"
   ],
   "note": "characterisation of both searches and of the builder; the superpressure at a level is that of the modelled equilibrium solver (stable_init.py)"
  },
  {
   "property": "C57",
   "status": "proved",
   "theorems": [
    "C57_decoded_divergence",
    "C57_bounded",
    "C57_sizes",
    "C57_units",
    "C57_queried_refuted"
   ],
   "note": "incompressible on the array, not as queried: decoder and lookup disagree on the axes"
  },
  {
   "property": "C58",
   "status": "proved",
   "theorems": [
    "C58_training_batches",
    "C58_eval_batch",
    "C58_empty_eval_refuted",
    "C58_directory",
    "C58_further_shards_refuted"
   ],
   "note": "jax.random.permutation and unpickling a file are oracles with their contracts"
  },
  {
   "property": "C59",
   "status": "proved",
   "theorems": [
    "C59_kl",
    "C59_squared_error",
    "C59_step_schedule",
    "C59_squash",
    "C59_latents",
    "C59_speed",
    "C59_mean_speed"
   ],
   "note": "exact real arithmetic"
  },
  {
   "property": "C60",
   "status": "proved",
   "theorems": [
    "C60_offlineskies22",
    "C60_perciatelli44",
    "C60_perciatelli44_refuted"
   ],
   "note": ""
  },
  {
   "property": "C61",
   "status": "proved",
   "theorems": [
    "C61_agents",
    "C61_gin_files",
    "C61_wind_fields",
    "C61_registration"
   ],
   "note": "gym's registry is a finite map"
  },
  {
   "property": "C72",
   "status": "proved",
   "theorems": [
    "C72_checkpoints_refuted",
    "C72_resume_if_bound"
   ],
   "note": "the optimiser is abstract, with a step counter; saving is atomic"
  },
  {
   "property": "C73",
   "status": "proved",
   "theorems": [
    "C73_perciatelli44",
    "C73_construction",
    "C73_episode",
    "C73_obliging"
   ],
   "note": "the network is an oracle"
  },
  {
   "property": "C74",
   "status": "proved",
   "theorems": [
    "C74_search_answers",
    "C74_steps_to_sunrise"
   ],
   "note": "over the reals, for the full solar_calculator model: Lipschitz bounds on declination and equation of time over a day, monotone refracted elevation near the horizon, and what a bisection ending at an end has compared"
  },
  {
   "property": "C65",
   "status": "proved",
   "theorems": [
    "C65_reset",
    "C65_construct",
    "C65_cold_start",
    "C65_forecasts"
   ],
   "note": "over the reals; the random generator is any that respects the documented ranges of its samplers, the feature constructor any that does not raise; that the rejection sampling accepts some draw is a hypothesis (it fails with probability 0)"
  },
  {
   "property": "C75",
   "status": "proved",
   "theorems": [
    "C75_balloon",
    "C75_winds"
   ],
   "note": "End to end: environment, arena, feature constructor and belief together."
  },
  {
   "property": "C76",
   "status": "proved",
   "theorems": [
    "C76_whole_range"
   ],
   "note": "over the reals; builds on C50; the Newton iteration, heat balance and gas law are the code's own"
  },
  {
   "property": "C77",
   "status": "proved",
   "theorems": [
    "C77_get_features",
    "C77_default_balloon",
    "C77_reset",
    "C77_construct"
   ],
   "note": "over the reals; the regressor is an oracle that fits non-empty data with deviations within the prior; the forecast answers (C65_forecasts, C35); rejection sampling ends (C52)"
  },
  {
   "property": "C78",
   "status": "proved",
   "theorems": [
    "C78_decoder_network",
    "C78_encoder_network",
    "C78_encoder_reads",
    "C78_generator_stable",
    "C78_encoder_bounded",
    "C78_reconstruction_bounded"
   ],
   "note": "exact real arithmetic; the parameters are arbitrary"
  },
  {
   "property": "C79",
   "status": "proved",
   "theorems": [
    "C79_equations_of_motion",
    "C79_airworthy"
   ],
   "note": "Spec/Motion.v states the Euler step; the theorems relate env_step after reset to it."
  },
  {
   "property": "C80",
   "status": "proved",
   "theorems": [
    "C80_step_returns",
    "C80_until_done",
    "C80_default_features",
    "C80_within_4000_km",
    "C80_bounded_wind"
   ],
   "note": "Over the reals. The bound on the number of steps keeps the date before 2100 (the solar formulas' range). C80_witness: on the static wind field every first step returns."
  },
  {
   "property": "C81",
   "status": "proved",
   "theorems": [
    "C81_flight_envelope"
   ],
   "note": "Over the reals; the invariant is 'steady' in Proofs/SteadyFlight.v."
  },
  {
   "property": "C82",
   "status": "proved",
   "theorems": [
    "C82_network",
    "C82_loss",
    "C82_set_mode",
    "C82_quantiles",
    "C82_greedy",
    "C82_evaluation",
    "C82_training_step",
    "C82_descent",
    "C82_target_moves",
    "C82_sarsa_refuted",
    "C82_linear",
    "C82_history",
    "C82_last_reward"
   ],
   "note": "Over the reals. The gradient is computed in the model by reverse mode (jax.value_and_grad) and proved to be the derivative stated in Spec/LearningSpec.v."
  },
  {
   "property": "C83",
   "status": "proved",
   "theorems": [
    "C83_evaluation_return",
    "C83_agrees_with_evaluation",
    "C83_exploration"
   ],
   "note": "Acme's EnvironmentLoop, StepLimitWrapper and GymWrapper are modelled from their documented behaviour."
  },
  {
   "property": "C84",
   "status": "proved",
   "theorems": [
    "C84_evaluation",
    "C84_training",
    "C84_run",
    "C84_default_run",
    "C84_collectors",
    "C84_every_zero_steps_refuted",
    "C84_acting",
    "C84_default_evaluation",
    "C84_default_training",
    "C84_default_acting",
    "C84_seeker_answers",
    "C84_station_seeker",
    "C84_random_walk",
    "C84_mlp",
    "C84_exploring_actor"
   ],
   "note": "Over the reals; 'draws' bounds the rejection sampling of a reset, and every sufficiently large bound gives the same result. C84_witness: the station seeker on the static wind field, 960 steps per episode, and an explored Acme actor; C84_run_witness: a training run of three iterations with all collectors."
  },
  {
   "property": "C85",
   "status": "proved",
   "theorems": [
    "C85_raises",
    "C85_directions",
    "C85_time_shares",
    "C85_three_levels",
    "C85_more_levels",
    "C85_one_sided",
    "C85_directions_only"
   ],
   "note": "Over the reals. scipy.spatial is any library meeting the contract of Spec/HullSpec.v (correct_qhull); plain_correct exhibits one. Qhull's numerical tolerance is not modelled."
  },
  {
   "property": "C86",
   "status": "proved",
   "theorems": [
    "C86_same_answers",
    "C86_picture",
    "C86_no_renderer",
    "C86_modes",
    "C86_ansi",
    "C86_constructed"
   ],
   "note": "The picture is modelled as the data handed to matplotlib. C86_witness: a flight of one step."
  },
  {
   "property": "C87",
   "status": "proved",
   "theorems": [
    "C87_same_winds",
    "C87_key_decides",
    "C87_answers"
   ],
   "note": "Over the reals; no hypotheses besides the quantified objects."
  },
  {
   "property": "C88",
   "status": "proved",
   "theorems": [
    "C88_night",
    "C88_episode",
    "C88_first_night"
   ],
   "note": "Over the reals. The night is the one the balloon's own power layer expects; the margin is what the projection of the guard leaves above empty. C88_witness: an eight-hour night of a witness episode."
  },
  {
   "property": "C89",
   "status": "proved",
   "theorems": [
    "C89_schedule",
    "C89_amount",
    "C89_targets",
    "C89_evaluation",
    "C89_weights",
    "C89_weighted_update_refuted",
    "C89_dqn",
    "C89_published",
    "C89_transitions",
    "C89_priorities"
   ],
   "note": "Over the reals; Dopamine's replay buffer, gradient step and choice of actions are parameters (counts: the buffer counts what it is given). C89_witness: a library that counts its gradient steps, with the settings of the gin files; C89_memory: a buffer that keeps everything."
  },
  {
   "property": "C90",
   "status": "proved",
   "theorems": [
    "C90_best",
    "C90_load",
    "C90_modes",
    "C90_no_memory",
    "C90_evaluation",
    "C90_parts",
    "C90_ties_refuted"
   ],
   "note": "Acme's learner, actor and checkpointer are modelled by their documentation; the draw among equally good actions is an oracle. Witness: C90_witness."
  },
  {
   "property": "C91",
   "status": "proved",
   "theorems": [
    "C91_eval",
    "C91_shards",
    "C91_unloaded_refuted",
    "C91_collision_refuted",
    "C91_runs_apart",
    "C91_picture_refuted"
   ],
   "note": "gin and command-line parsing, object construction and restoring checkpoints are oracles that may raise; directories, links and '..' in paths are not modelled. Witness: C91_witness."
  },
  {
   "property": "C92",
   "status": "proved",
   "theorems": [
    "C92_reads_back",
    "C92_pretty",
    "C92_cut",
    "C92_combine",
    "C92_combine_cut",
    "C92_missing_refuted",
    "C92_parsed"
   ],
   "note": "Python's float printing and reading are parameters of which only the record python_floats is assumed (a literal is printed, it is read back as the nearest float); characters are ASCII, escapes, NaN and Infinity are left out. The stronger expectation (a missing shard is noticed) is refuted. Witnesses: C92_witness, C92_witness_floats."
  },
  {
   "property": "C93",
   "status": "proved",
   "theorems": [
    "C93_equations",
    "C93_duelling",
    "C93_unroll",
    "C93_parts",
    "C93_rows",
    "C93_bounded",
    "C93_ranks"
   ],
   "note": "Over the reals. Haiku's Linear, LSTM, static_unroll and BatchApply and Acme's OAREmbedding and DuellingMLP are modelled by their documentation. Witness: C93_witness."
  },
  {
   "property": "C94",
   "status": "proved",
   "theorems": [
    "C94_best",
    "C94_fits",
    "C94_total",
    "C94_order",
    "C94_more",
    "C94_bounds",
    "C94_one",
    "C94_measured",
    "C94_far",
    "C94_linear",
    "C94_belief",
    "C94_deviation",
    "C94_regresses",
    "C94_reset",
    "C94_steps",
    "C94_evaluation"
   ],
   "note": "Over the reals, without rounding. scikit-learn's GaussianProcessRegressor (Cholesky factorisation, triangular solves, predict with return_std) and Matern kernel are modelled by their documentation. Witnesses: C94_witness, C94_belief_witness, C94_evaluation_witness."
  },
  {
   "property": "C95",
   "status": "proved",
   "theorems": [
    "C95_battery",
    "C95_ratio",
    "C95_charge_is_a_number",
    "C95_ballast",
    "C95_buoyancy",
    "C95_position"
   ],
   "note": "The functions of Model/Balloon.v run with IEEE binary64 (Flocq), rounding to nearest even. The power function of the C library is arbitrary. Pumping air in (DOWN) is not covered by the ballast clause: scipy's interpolation is modelled by its formula, not by its order of operations. Witnesses: C95_witness, C95_witness_substep."
  },
  {
   "property": "C96",
   "status": "proved",
   "theorems": [
    "C96_same_code",
    "C96_float32",
    "C96_saturation",
    "C96_squash",
    "C96_squash_monotone_refuted",
    "C96_squash_below_one_refuted",
    "C96_observation",
    "C96_entries",
    "C96_pressure",
    "C96_levels",
    "C96_km",
    "C96_feet",
    "C96_units_refuted"
   ],
   "note": "IEEE binary64 and binary32 (Flocq), rounding to nearest even. The solar angle, the time of sunrise, the distance to the station, the table's power and the wind belief are arbitrary readings; sine, cosine, arctangent and power are arbitrary functions (sine and cosine between -1 and 1). Witness: C96_witness."
  },
  {
   "property": "C97",
   "status": "proved",
   "theorems": [
    "C97_reflection",
    "C97_fraction_refuted",
    "C97_time",
    "C97_in_grid",
    "C97_point",
    "C97_no_jump"
   ],
   "note": "IEEE binary64/binary32 (Flocq); fmod, int() and np.clip by their documentation; NaN inputs excluded; the interpolation after the bounds check is not modelled in floating point (exact in C35)"
  },
  {
   "property": "C98",
   "status": "proved",
   "theorems": [
    "C98_whole_steps",
    "C98_started_steps",
    "C98_whole_seconds",
    "C98_same_counts",
    "C98_levels",
    "C98_nearest_level",
    "C98_not_finite",
    "C98_midpoint"
   ],
   "note": "IEEE binary64 (Flocq); int(), round(), math.ceil and math.floor by their documentation; Python's division of ints is the rounded quotient of two exactly represented ints, which is why durations are bounded. Witness: C98_witness."
  },
  {
   "property": "C99",
   "status": "proved",
   "theorems": [
    "C99_same_code",
    "C99_range",
    "C99_accuracy",
    "C99_edge_refuted"
   ],
   "note": "IEEE binary64 (Flocq). math.exp is a parameter with a stated contract, shown to be satisfiable (C99_exp_witness); the norm is the square root of the rounded sum of rounded squares (no fused multiply-add); default arguments. Witness: C99_witness."
  },
  {
   "property": "C100",
   "status": "proved",
   "theorems": [
    "C100_program",
    "C100_training_unchanged",
    "C100_reading",
    "C100_evaluated",
    "C100_written_evaluations",
    "C100_policies",
    "C100_make_actor",
    "C100_first_action_refuted"
   ],
   "note": "Acme's environment loop, counters and GenericActor, and the probabilities of rlax.epsilon_greedy, are modelled by their documentation; the learner is arbitrary. Of the distributed program only the evaluating actor is modelled. Witness: C100_witness."
  },
  {
   "property": "C101",
   "status": "proved",
   "theorems": [
    "C101_same_code",
    "C101_total",
    "C101_perfect",
    "C101_better",
    "C101_share",
    "C101_compare",
    "C101_order_refuted"
   ],
   "note": "IEEE 754 binary64 through Flocq, rounding to nearest even; over the reals the same code is the model of C38. Witness: C101_witness."
  },
  {
   "property": "C102",
   "status": "proved",
   "theorems": [
    "C102_same_code",
    "C102_table",
    "C102_agrees",
    "C102_not_a_number",
    "C102_curve",
    "C102_curve_error",
    "C102_no_power",
    "C102_acs_power"
   ],
   "note": "IEEE 754 binary64 through Flocq; scipy's interp1d is modelled by its formula (slope times distance plus left value). The fan efficiency table (interp2d, FITPACK) is not treated in double precision. Witness: C102_witness."
  },
  {
   "property": "C103",
   "status": "proved",
   "theorems": [
    "C103_eq",
    "C103_compare",
    "C103_named",
    "C103_fly_alike_refuted",
    "C103_switch"
   ],
   "note": "Equality of numbers stands for Python's ==; a NaN, which Python finds equal to nothing, is not treated. Witness: C103_witness."
  },
  {
   "property": "C104",
   "status": "proved",
   "theorems": [
    "C104_accepts",
    "C104_instant",
    "C104_no_zone_refuted",
    "C104_round_trip"
   ],
   "note": "Python's datetime module is modelled by its own algorithms (_ymd2ord, _ord2ymd); fold, fractional timestamps and zones with changing clocks are not modelled. Witness: C104_witness."
  },
  {
   "property": "C105",
   "status": "proved",
   "theorems": [
    "C105_at_least",
    "C105_limiter",
    "C105_actors",
    "C105_watched",
    "C105_number_of_episodes_refuted"
   ],
   "note": "Acme's episode loop, counter and steps limiter are modelled by their documentation; learner, replay, evaluator and checkpoints are left out, and an episode that raises ends the modelled run. Witness: C105_witness."
  },
  {
   "property": "C106",
   "status": "proved",
   "theorems": [
    "C106_answers",
    "C106_raises",
    "C106_draws",
    "C106_repeatable_refuted"
   ],
   "note": "numpy's generator is an arbitrary state with a randint whose numbers are in the range; it is assumed that no other code draws from it meanwhile. The refutation uses a generator that counts and a small environment. Witness: C106_witness."
  },
  {
   "property": "C107",
   "status": "proved",
   "theorems": [
    "C107_created",
    "C107_gas",
    "C107_returns",
    "C107_stable_returns",
    "C107_default_refuted",
    "C107_percent_refuted"
   ],
   "note": "Over the reals. Witness: C107_witness (the default time) and C107_percent_refuted (a balloon that is answered)."
  }
 ]
}