# Formal model of balloon-learning-environment — design

Paths to code are relative to `/repo/balloon_learning_environment/`.
Rocq/Coq 8.16.1; sources in `rocq/theories`, logical root `Verif`.

## 1. Layout

* `Model/*.v` — executable Gallina transcription of the code, function by function, no proofs.
  Every definition cites the lines it models and says where it simplifies.
* `Spec/*.v` — small independent specifications used only to *state* properties (histories, orders,
  calendars, physical laws). They do not mention the model's helpers.
* `Proofs/*.v` — lemmas.
* `Props/*.v` — the property theorems only: statement, `exact lemma`, `Print Assumptions`, and the
  `Example`s that show the hypotheses are met by a concrete non-trivial case.

## 2. Modelling conventions

* **Numbers.** The code computes with binary64. Everything that only *decides* (safety layers, status,
  loops, bookkeeping) is modelled over an arbitrary type `T` with uninterpreted operations and boolean
  comparisons (`Model/Num.v`, class `Num`): theorems stated for an arbitrary `Num` hold for IEEE floats,
  NaN included. Theorems that need arithmetic are about the instance `Num_R` (Coq's classical reals):
  they are exact-arithmetic statements, rounding is *not* modelled there. Whenever a theorem is about reals its statement
  mentions `R`.
* **Time.** `datetime`/`timedelta` are integer microseconds (`Z`), which is exactly Python's representation.
* **Exceptions** are values (`option`, `outcome`, or an error constructor).
* **Loops** are structural recursion; `while` loops carry fuel, returning `None` when exhausted, and a theorem shows
  exhaustion never happens.
* **Mutation.** A method that mutates `self` returns the new state. Where aliasing is the point (C53, C54),
  an explicit heap is used.
* **Oracles.** Outside-the-model functions (neural networks, `jax.random`, S2 geometry, simplex noise, gin,
  file system contents, GP solver) are explicit function parameters or record fields; theorems quantify over all of them.
* **Record update** uses the `RecordUpdate` notation library (no axioms).

## 3. Trusted base

1. Coq's kernel (8.16.1) and `coqchk`.
2. What `Print Assumptions` lists. Two kinds of theorem occur: *closed under the global context* (decision logic, lists, `Z`), and
   theorems about `R`, which list the standard library's axioms of the classical reals:
   `ClassicalDedekindReals.sig_forall_dec`, `ClassicalDedekindReals.sig_not_dec`,
   `FunctionalExtensionality.functional_extensionality_dep`, and sometimes `Classical_Prop.classic`
   (through `Rpower`/`sqrt`/`exp`/trigonometry lemmas). Section 7 gives the per-theorem list.
   No axiom of our own, no library axiom other than Coq's standard library.
3. The reading of the Python code: the model was written by hand from the source, which could not be run here.
4. The library behaviour stated in comments marked “(Library behaviour.)”: numpy `searchsorted`, `clip`, `argmin`,
   `roll`, scipy `interp1d`/`interp2d`/`interpn`, Python `int()`, `%`, `//`, `min`/`max`, slicing, `datetime`.

## 4. What is modelled and what is not

Modelled: see the per-property table below and the header of every `Model/*.v` file.

Not modelled (taken as oracle or left out): neural-network weights and forward passes (VAE encoder,
QR-DQN, distillation; the VAE's networks, the MLP agent's and the quantile network are modelled for arbitrary weights,
the MLP agent's gradient and update exactly), the other optimisers (Adam), `jax.random` bit streams, the simplex-noise kernel,
the rounding in scikit-learn's Gaussian-process linear algebra (modelled exactly over `R` in C94), S2 library internals (replaced by spherical trigonometry over `R`), the drawing itself
(`env/rendering`: the data that is drawn is modelled, the pixels are not), Qhull (a contract), TensorBoard/CSV/console formatting, Acme/dopamine/reverb internals, gin parsing, command-line parsing,
Python's printing and reading of floats (C92 assumes that they are inverse to each other).
Floating-point rounding is modelled in C95 (the simulator) and C96 (features and units), C97 (the point at which a wind field is read), C98 (counts obtained from quotients), C99 (the reward), C101 (results of evaluations), C102 (the power table and the ACS power curve) and where a section says so.

## 5. Plan per property

| id | modelled as | proof method |
|----|-------------|--------------|
| C01 | `Balloon.simulate_step` with the three layers over any `Num` | case analysis of layers, lifted to every call |
| C02 | altitude layer; spec is a predicate on the *history* of altitudes | invariant relating state to history, lifted to flights by induction on calls |
| C03 | envelope layer; same | same |
| C04 | power layer; spec is a predicate on the history of readings | same |
| C05 | catch-up `while` loops with fuel | fuel sufficiency + characterisation as next occurrence |
| C06 | `navigation_is_paused` against "would DOWN be passed through" | case analysis, lifted through the step |
| C07 | sub-step over `R` | invariant over sub-steps and calls |
| C08 | sub-step over `R` | invariant; frame lemma for parameters |
| C09 | step + arena + env `info` | case analysis; absorbing by induction |
| C10 | `next_status` precedence | refutation with witness + what does hold |
| C11 | step clock over `Z` | induction on sub-steps |
| C12 | step position over `R` | induction on sub-steps |
| C13 | `calculate_superpressure_and_volume` over `R` | algebra of the quadratic |
| C14 | `next_pressure` over `R` | sign analysis; any antitone atmosphere |
| C15, C16 | `standard_atmosphere` over `R` (layers with lapse rate, `Rpower`, `exp`) | induction over layers, monotonicity |
| C17, C18 | `perciatelli_reward_function` over `R` | real analysis of `Rpower` |
| C19 | env construction with gin default | refutation with witness + agreement at the default radius |
| C20, C21 | `utils/transforms.py` over `R` | algebra; refutation of the guard |
| C22, C23 | `utils/units.py` over `R` | field; refutations |
| C24–C27 | `env/features.py` feature constructor over lists | list length/index lemmas; bounds |
| C28 | nearest level | `Z`/`R` arithmetic |
| C29 | `power_table.py` | finite table monotonicity, all ratios/charges |
| C30 | `acs.py` interpolators | piecewise-linear lemmas |
| C31 | `solar.py` bisection and wrappers | induction with fuel, bracket invariant |
| C32 | `solar.py` Julian date over `Z` | against an independent calendar |
| C33 | `solar_power`, attenuation over `R` | bounds |
| C34 | boomerang over `R` | Lipschitz and periodicity |
| C35 | grid wind field with interpolation oracle | equality of the two query paths |
| C36 | noise mixture with simplex oracle bounded by 1 | triangle inequality; key reuse refutation |
| C37 | `wind_gp.py` with GP regression as oracle | window filter, row alignment |
| C38 | `eval/eval_lib.py` | induction on episode |
| C39 | env seeding chain with PRNG oracle, arena seeds (int, key, anything else) | dependence argument |
| C40 | sharding arithmetic | telescoping over shard index |
| C41 | `combine_eval_shards.py` | permutation+sorted; refutation of prefix glob |
| C42, C43 | `agents/dopamine_utils.py`, names and cleanup on directory listings | list lemmas; refutation for ≥ 6 digits |
| C44 | `train_lib.py` with `dqn_agent.py` checkpoints; a run is a trace, a crash a prefix | induction on run/crash schedule |
| C45, C46 | `train_lib.py`, collectors | event traces; refutation of double delivery |
| C47 | MarcoPolo exploration | periodicity by induction |
| C48 | random walk agent | case analysis; target of every step by induction; refuted parts by a concrete random stream |
| C49 | StationSeeker | argmax spec |
| C50 | `get_pressure_range`, `_search_for_safe_pressure` | `C50_search` characterises the search for every profile (ends exist iff computed, and are unique); `C50_range` does so for the builder in every atmosphere, with proofs that P/T is strictly increasing and all lookups succeed; `C50_contains` gives the bounds and the safe levels covered |
| C51 | spherical direct problem over `R` | trigonometry |
| C52 | sampling functions with uniform/normal oracle | range lemmas |
| C53, C54 | heap with references | reachability; refutation for C54 |
| C55 | `thermal.py` over `R` | monotonicity of fourth power |
| C56 | `stable_init.py` over `R` | algebra |
| C57 | the decoder: perceptron, `jax.image.resize`, differences, reshapes; composed with the forecast lookup | commuting central differences; resizing is a convex combination; refuted through the lookup by a creased stream function |
| C58 | `Model/Dataset.v`: the files of the dataset; reservoir: permutation oracle, Python slices | induction over the shards and over request histories |
| C59 | KL, squared error, `step_schedule`, `_squash` | `exp x >= 1 + x` with equality only at 0; monotonicity |
| C60 | loaders over the state of each location, Python and TensorFlow exceptions | case analysis; refutation |
| C61 | registries as finite maps | case analysis over all strings; idempotence by induction |
| C62 | SolarSearch.v bisection | linear elevations proved; monotone refuted by a witness |
| C63 | `balloon_arena.py`, `balloon_env.py` reset with PRNG oracle | range lemmas through the reset; for the envelope the heat balance of C76 in three bands of pressure over temperature (Proofs/StartFloat.v) |
| C64 | `eval_lib.py` on the modelled environment | simulation between environments with different pasts |
| C66 | the collectors of `metrics/` | induction over events; refutations |
| C67 | `features.py` `NamedPerciatelliFeatures.wind_at` with Python slices | slice arithmetic; refutation |
| C68 | `features.py` `compute_sunrise_time` on the modelled sunrise search | window lemma of the search; real bounds; Proofs/SunApart.v: sunrise and sunset answers are never a day apart, because the apparent elevation is monotone from midnight to noon and the search grid moves |
| C69 | `quantile_agent.py` over an abstract learner and exploration strategy | induction over the steps, with a learner that records what it stores |
| C70 | `balloon_env.py` / `balloon_arena.py` `step` | inversion of the step, dead reckoning (C12) |
| C71 | `reset`, `_initialize_balloon`, `sampling.py` over a key-splitting library | keys as derivation paths; the paths of different draws are prefix-free |
| C72 | `train` of the wind generator as a relation with kill points; optimiser and train step abstract | invariant: the saved optimiser has a lineage of whole epochs; refutation because three names are unbound |
| C73 | `Model/Perciatelli44.v`: constructor, answers and episodes of the agent; the network is an oracle | induction on the list of values and on the episode |
| C74 | the whole of `solar_calculator` over a day | Lipschitz bounds on declination and equation of time; refracted elevation is monotone across its pieces; comparisons of a bisection that ends at an end |
| C65 | reset composed of the sampling, sun search, cold start, wind and feature models | C74 for the sun; Newton invariant 120..2500 K (convex radiation, convection towards ambient air of 165-400 K); latitude of the start below 30 degrees |
| C75 | environment, arena, belief and features together (`Env.v`, `Features.v`, `WindGP.v`) | invariant along reset and steps: the feature object has seen exactly the states of the episode, then C24-C26 and the belief lemmas |
| C76 | the range builder, stable parameters, heat balance and atmosphere together (`PressureRange.v`, `StableInit.v`, `Thermal.v`, `Atmosphere.v`) | the emitted and the convected heat are convex in the temperature, so the Newton iteration from 206 K comes down on the equilibrium; bounds on both give the temperature, the gas law the superpressure; a logarithm series gives pressure over temperature at 15.2, 17 and 19.8 km in every atmosphere; then C50 |
| C77 | `features.py` `observe`/`get_features` inside the environment's `reset` and constructor | iff-specification of the vector, totality of the normalised solar time (C68), the power table (C29), the belief (C36), the accessible range (C76) and the start state (C63) |
| C78 | `vae.py` `Encoder`, `Decoder`, `WindFieldVAE.__call__` | the layers as folds; induction over the layers for values, bounds and Lipschitz constants |
| C79 | `env.step` down to `_simulate_step_internal` | a separate specification of one 10 s Euler step (Spec/Motion.v); every returned sub-step satisfies it, induction over sub-steps and over the calls after a reset |
| C80 | `env.step` after `env.reset`, any policy | inductive invariant `steady` over sub-steps (Proofs/SteadyHeat.v, SteadyAir.v, SteadyFlight.v): pressure, temperatures, superpressure, volume and ballast stay where no function of the simulation raises; the altitude layer bounds the pressure from above; then the feature constructor's domain from C77 |
| C81 | same | the bounds of that invariant |
| C82 | `mlp_agent.py`, `networks.py` `MLPNetwork`, `QuantileNetwork`: forward pass, reverse-mode gradient, agent state machine (`Mlp.v`) | induction over the layers: the value and its derivative along every direction; the loss is a quadratic of values; call sequences by induction; descent from the first-order expansion |
| C83 | `acme_utils.py` `create_env`, `CombinedActor`, `marco_polo_actor`; Acme's environment loop (`Acme.v`) | induction over the loop; agreement with the package's evaluation through C38 |
| C84 | evaluation, training and Acme loops over the environment (`Eval.v`, `Training.v`, `Acme.v`) | a loop lemma for any environment whose reset and steps answer; the environment's by C65/C77 and C80; readability of the observations by C49, C76 and the battery invariant C07; whole runs by induction over the iterations with the checkpoint invariant of C44; the packaged collectors by an invariant per collector |
| C85 | `utils/wind.py` `is_station_keeping_winds` (`StationWinds.v`), scipy's hulls by contract (`HullSpec.v`) | separation of a finite set of plane vectors from the origin, by induction over the set: origin, ray or wedge |
| C86 | `matplotlib_renderer.py`, `BalloonEnv` with a renderer (`Rendering.v`) | simulation of the plain environment; the altitude lookup never fails by the flight envelope (C81) |
| C87 | `generative_wind_field.py`, both classes (`GenerativeWind.v`) | equality of the two code paths; induction over the resets |
| C88 | `power_safety.py`, `balloon.py`, `balloon_env.py` as in C08/C11/C80; night and its energy in `Spec/NightSpec.v` | invariant over the steps of the night: a descent is let through only with 76.46 Wh to spare and costs at most 20 Wh |
| C89 | `_train_step` of `quantile_agent.py` and `dqn_agent.py`, `dqn_agent.py` as an agent, settings of the gin files (`TrainStep.v`); Dopamine by parameters, the order of calls in JaxDQNAgent as documented | induction over the calls against the schedule of `Spec/ScheduleSpec.v`; counting of multiples |
| C90 | AcmeEvalAgent over create_dqn's network, eval policy and checkpoint paths (Model/AcmeEval.v, os.path in Model/PyString.v) | induction over call histories; simulation between the agent and a rule naming the best action |
| C91 | eval.py main as a sequence of calls that may raise, with the writes it makes; os.path.join; the paths of train.py (Model/Programs.v) | case analysis of main; projection of interleaved writes to a path; string lemmas |
| C92 | `Model/Json.v`: json.dump (both formats) and json.load on character strings, the encoder of results, and combine_eval_shards on a directory of texts; float printing and reading are parameters | the reader is shown adequate (enough fuel) and monotone under appended text; the round trip by induction on values; a proper beginning is refused because reading it would leave text after the complete value; combining by simulation with `Eval.combine` |
| C93 | `Model/R2d2.v`: torso with its rank check, OAR embedding, LSTM, duelling head, call, BatchApply (merging and splitting axes), static_unroll, unroll | every call is a map over rows; BatchApply by splitting what was concatenated; unrolling by induction on the sequence; bounds from those of tanh and the logistic function |
| C94 | `Model/GaussianProcess.v`: the Matern kernel, the Cholesky factorisation row by row (refusing a pivot that is not positive), forward and back substitution, fit and predict of the regressor that `Model/WindGP.v` takes as a parameter | the kernel is positive definite: kernels built from f(x)f(y) by sums and limits are closed under products and exponentials, and exp(-r) is a limit of products of exp(-c d/(d+t^2)) (Riemann sums of the arctangent); so every pivot is positive; L and its transpose are adjoint, L L^T is the kernel matrix by induction, the weights solve the normal equations; optimality by completing the square |
| C95 | `Model/Float64.v`: IEEE 754 binary64 with Flocq's `BinarySingleNaN` (nearest even, infinities, NaN) as an instance of the numeric interface; the simulator is the same code (`Model/Balloon.v`) as for the real numbers | `Proofs/Float64Proofs.v`: floats as extended reals, each operation is rounding of the exact result cut off at the infinities, rounding is monotone and keeps numbers of the format; invariants over sub-steps; error bound by induction over sub-steps and calls |
| C96 | `Model/FloatFeatures.v`: the transforms and the distance conversions over the numeric interface (with `R`: the functions of C20, `C96_same_code`), the 16 ambient features, one wind level, the validity mark and the observation space in binary64 and binary32 | rounding is monotone and fixes 0, 1 and the bounds; absolute and relative error bounds; closed counterexamples by evaluation |
| C97 | `Model/FloatWind.v`: `_boomerang` and `_prepare_get_forecast_inputs` in binary64 with Python's `int` and `%` on floats, the query point in binary32 and interpn's check of the bounds | a quotient by a whole number below `k` is at least half a unit in the last place below `k` (neighbours in both binades), so that truncation is exact; fmod is exact; rounding commutes with clipping; reflection is 1-Lipschitz |
| C98 | `Model/FloatCounts.v`: `_nearest_pressure_level` with `np.linspace`, `int(a / b)` and `math.ceil(a / b)` of timedeltas, `int(total_seconds())` and the midpoint of the binary search in binary64 | if `k` and `k*h` are doubles, a quotient by `h` below (above) `k` is not rounded up (down) to `k`: compare the spacing of doubles at `k*h` with the one at `k`; the subtraction of 5000 Pa is exact |
| C99 | `Model/FloatReward.v`: `perciatelli_reward_function`, `relative_distance` and `Distance` generically in the numbers; with reals it is the model of C17/C18, with binary64 it is the computed reward | the rounded sum of squares of a point in the disc is at most 2.5e9 + 2^-22, which rounds (a tie, to even) to 2.5e9; errors propagated through square root, quotient, exp (Lipschitz on the negatives) and products |
| C100 | `Model/AcmeTrain.v`: the loop of `train_acme_qrdqn.py` over any two environments, learner and evaluating actor; Acme's counters and GenericActor (with and without per-episode update) by their documentation; `marco_polo_actor`; the probabilities of the two policies | induction over the rounds (appending the last), relational description of the rounds in `Spec/AcmeTrainSpec.v`; induction over the steps of an episode with changing variables; C83 for returns and exploration |
| C101 | `Model/FloatEval.v`: the sum of the rewards and the proportion of time of `eval_lib.eval_agent`, generically in the numbers; with reals they are what C38 reports, with binary64 what is computed | induction over the rewards with the error of each rounded addition; whole numbers and 1 are representable; distinct proportions differ by more than two rounding errors |
| C102 | `Model/FloatTables.v`: `power_table.lookup`, generically in the numbers (with reals it is C29's); `Model/Acs.v`'s power curve at binary64 | bisection compares with the rounded thresholds, and rounding is monotone; the curve: each piece is a composition of monotone roundings, its end values and the neighbours of its ends are evaluated, and the error is the sum of the rounding errors |
| C103 | `Model/CompareStates.v`: the fields of `BalloonState`, its `__eq__` and `test_helpers.compare_balloon_states` | field by field; the refutation evaluates one call of the simulator (C95's witness world, binary64) from two such states |
| C104 | `Model/Datetimes.v`: `units.datetime`, `datetime_from_timestamp` and the calendar algorithms of Python's datetime module | years by division with remainder, the days of a year by evaluation for leap and other years; day numbers are injective, and go up by one from a day of `Spec/Calendar.v` to the next |
| C105 | `Model/DistributedTrain.v`: actors, counter and limiter of the distributed program as a run over any sequence of events | the counter is the sum of the lengths, each in 1..max_episode_length (from the episode loop of C83), by induction on the events; runs can be continued |
| C106 | `Model/RandomAgent.v`: RandomAgent over any generator with numpy's `randint` | induction on the calls; the draws of an evaluation counted through the loop of `Model/Eval.v` |
| C107 | `Model/CreateBalloon.v`: `test_helpers.create_balloon` on top of the models of `BalloonState` and the stable start | field by field; the sunrise search answers by C74, the stable start by C65, its buoyancy by C56 |

## 6. Disagreements between documentation and code (findings)

Recorded as `…_refuted` theorems with a witness; see MANIFEST.json notes.

* C10 an envelope burst that coincides with an empty battery is reported only as out_of_power.
* C11 for strides that are not whole seconds, `int()` truncation makes the simulated time differ from the requested one.
* C19 `station_keeping_radius_km` is not forwarded to the reward.
* C21 the guard `0 > x >= 1` is never true.
* C23 tolerance equality is not transitive.
* C26 `navigation_enabled` / `navigation_paused` are swapped in the named accessor.
* C27 the deviation feature may exceed 1 slightly.
* C32 the Julian day formula divides `(month - 9) / 7` as a float, so its day numbers are wrong outside 1901-02-01 … 2100-02-28.
* C33 (no theorem) `latlng.is_valid` in `solar_calculator` names a bound method, so an invalid position is never rejected.
* C36 inside one noise mode the generator's seed and its offsets are drawn from the same random key.
* C37 when every wind measurement is older than the window, the regressor is fitted to no data and the query raises instead of falling back to the forecast.
* C41 the glob also matches other runs.
* C42 one file `checkpoint_X.pkl` with a non-numeric X hides every checkpoint.
* C43 iterations ≥ 100000 are never cleaned up; `checkpoint_XXXXX.pkl` that is not a number makes the clean-up raise.
* C44 a crash during a checkpoint write makes every later process raise; a ValueError while restoring restarts training at 0; if unbundle answers False training goes on after the checkpoint with a new agent.
* C45 the last reward of an episode is added twice and an action that was never executed is counted.
* C67 `wind_at` accepts levels -361..-2 and reads them from the other end.
* C66 `console.log` is emptied on a restart and tensorboard steps restart at 0.
* C48 the random walk's increments grow with the whole episode time, and the target may leave the pressure range.
* C54 the saved simulator state is a live alias.
* C57 the decoder differentiates the stream function as if the first axis were y, the forecast looks the array up as if it were x; as queried the wind is not incompressible.
* C72 `mse_series`, `kld_series` and `loss_series` are bound nowhere: training the wind generator raises NameError at the end of the first epoch, before saving.
* C58 `eval_batch_size=0` returns the whole dataset; shards from the 200th on are ignored.
* C62 the sunrise bisection compares distances to the target at both ends, so it can miss the crossing of a monotone, non-linear elevation.
* C60 an unexpected exception type escapes.
* C82 the target of the SARSA update is differentiated as well, so the value of the next action moves.
* C84 fine-grained logging every 0 steps makes training raise.
* C89 the weights of prioritised replay are used in the loss only.
* C90 the action among equally good ones is drawn, so equal observations can get different answers.
* C91 a checkpoint number without a directory names the file after a checkpoint that was not loaded; shard i and checkpoint i share a file; the pictures of all runs share one path.
* C92 combining does not notice a missing shard or a misspelt model name.
* C97 the time reflection of generated wind fields is safe only for whole horizons: with 60.2 hours it jumps by the whole field at hour 301.
* C99 less than a nanometre outside the 50 km radius the reward is still 1 (harmless; the other direction cannot happen).
* C100 in the local Acme training program the first action of every evaluation is chosen by the variables of the round before: the actor reads them only after a step (the distributed program sets `_per_episode_update`; `C100_first_action_refuted`). This rests on Acme's documented behaviour of its actor.
* C101 the cumulative reward depends, in its last digits, on the order of the rewards (`C101_order_refuted`; harmless).
* C102 a state of charge that is NaN is treated by the power table as a full battery (`C102_not_a_number`).
* C103 balloon states that are == can fly differently, since == leaves out the safety layers; the test helper also leaves out whether the power safety layer is enabled, and checks nothing when only unknown names are given (`C103_fly_alike_refuted`, `C103_switch`, `C103_named`).
* C104 `units.datetime(..., tzinfo=None)` is documented to default to UTC but gives a datetime in the time zone of the computer (`C104_no_zone_refuted`).
* C105 `--num_episodes` of the distributed program, "Number of episodes to train for", is a budget of num_episodes * max_episode_length steps: when episodes end early, up to max_episode_length times as many are flown (`C105_number_of_episodes_refuted`). This rests on Acme's documented behaviour of `max_num_actor_steps`.
* C106 evaluations of the random agent are not repeatable and depend on the order of the seeds and on sharding: it draws from numpy's global generator, which no program here seeds (`C106_repeatable_refuted`).
* C107 `create_balloon()` with its default arguments raises ValueError, and `power_percent` is an unchecked fraction (`C107_default_refuted`, `C107_percent_refuted`).
* C96 in double precision the distance feature is not monotone (at 44.333333333333336 km), and metres to kilometres and back changes 1001 m.

## 7. Assumptions of each theorem

As printed by `Print Assumptions` (every theorem of MANIFEST.json, grouped by the axioms listed; the same commands stand at the end of the `Props` files).

**Closed under the global context** (70):

`C01_executed_at_least_requested`, `C01_cases`, `C04_power_layer_only_down_to_stay`, `C05_catch_up_terminates`, `C11_clocks_move_together`, `C11_substeps`, `C11_step_duration`, `C31_search_answers`, `C31_noon_and_midnight_ahead`, `C31_sunrise_sunset_ahead`, `C31_steps_to_sunrise`, `C32_consecutive_days`, `C32_every_date_refuted`, `C36_keys`, `C37_recent_exists`, `C41_union`, `C41_returns`, `C41_mixes_checkpoints_refuted`, `C41_shard_files_distinct`, `C53_documented`, `C53_independent`, `C53_strata`, `C42_names`, `C42_negative`, `C42_distinct`, `C42_latest`, `C42_other_file_refuted`, `C43_exact`, `C43_retention`, `C43_latest_kept`, `C43_never_removed_refuted`, `C43_other_file_refuted`, `C46_fan_out`, `C46_summary_writer`, `C66_pickles_kept`, `C69_stored_actions`, `C69_evaluation`, `C69_no_exploration`, `C57_units`, `C58_training_batches`, `C58_eval_batch`, `C58_empty_eval_refuted`, `C58_directory`, `C58_further_shards_refuted`, `C60_offlineskies22`, `C60_perciatelli44`, `C60_perciatelli44_refuted`, `C61_agents`, `C61_gin_files`, `C61_wind_fields`, `C61_registration`, `C72_checkpoints_refuted`, `C72_resume_if_bound`, `C73_construction`, `C78_encoder_reads`, `C86_modes`, `C86_ansi`, `C91_collision_refuted`, `C91_runs_apart`, `C91_picture_refuted`, `C103_eq`, `C103_compare`, `C103_named`, `C103_switch`, `C104_accepts`, `C104_instant`, `C104_no_zone_refuted`, `C104_round_trip`, `C106_answers`, `C106_raises`.

**`ClassicalDedekindReals.sig_forall_dec`** (21):

`C52_time`, `C52_default_time`, `C44_no_gap_no_repeat`, `C44_complete`, `C44_limit`, `C44_torn_refuted`, `C44_value_error_refuted`, `C45_events`, `C45_pickle`, `C46_training`, `C66_tensorboard_steps_refuted`, `C27_space`, `C57_sizes`, `C100_program`, `C100_training_unchanged`, `C105_at_least`, `C105_limiter`, `C105_actors`, `C105_watched`, `C105_number_of_episodes_refuted`, `C44_not_restored_refuted`.

**`ClassicalDedekindReals.sig_forall_dec`, `FunctionalExtensionality.functional_extensionality_dep`** (110):

`C20_linear_rescale`, `C20_saturation`, `C20_squash`, `C20_arrays`, `C21_undo_squash_rejects_refuted`, `C22_reads_back`, `C22_constructors_si`, `C22_arithmetic_is_dimensional`, `C22_sums_of_one_kind_only`, `C22_products_accepted`, `C22_products_rejected`, `C23_order_is_that_of_si_values`, `C23_which_comparisons_answer`, `C23_equality_meaning`, `C23_equality_laws`, `C23_mixed_kinds`, `C23_which_exception`, `C23_distance_equality_transitive_refuted`, `C23_energy_ge_foreign_refuted`, `C29_power_table`, `C29_more_charge_never_less_power`, `C29_range`, `C31_symmetric_search_is_optimal`, `C32_julian_time`, `C34_time_reflection`, `C34_forecast_never_jumps`, `C35_forecast_value`, `C35_refuses`, `C35_column_agrees`, `C35_environment_grid`, `C35_exact_and_bounded`, `C35_static_field`, `C37_belief`, `C37_rows`, `C37_forecast_when_all_old_refuted`, `C52_location`, `C55_total_absorptivity`, `C56_search`, `C45_console`, `C45_tensorboard`, `C45_counted_once_refuted`, `C45_never_executed_refuted`, `C46_named_collectors`, `C66_console_log_refuted`, `C27_pressure_range`, `C67_wind_at`, `C67_negative_levels_refuted`, `C47_schedule`, `C47_learner_actions`, `C47_which_episodes`, `C47_always_or_never`, `C48_first_target`, `C57_decoded_divergence`, `C57_bounded`, `C57_queried_refuted`, `C59_squared_error`, `C59_step_schedule`, `C59_squash`, `C73_perciatelli44`, `C73_episode`, `C73_obliging`, `C65_forecasts`, `C78_decoder_network`, `C78_encoder_network`, `C78_generator_stable`, `C78_encoder_bounded`, `C82_network`, `C82_loss`, `C82_set_mode`, `C82_greedy`, `C82_evaluation`, `C82_training_step`, `C82_descent`, `C82_target_moves`, `C82_sarsa_refuted`, `C82_linear`, `C82_history`, `C82_last_reward`, `C83_exploration`, `C84_collectors`, `C84_every_zero_steps_refuted`, `C84_mlp`, `C84_exploring_actor`, `C85_raises`, `C85_directions`, `C85_time_shares`, `C85_three_levels`, `C85_more_levels`, `C85_one_sided`, `C85_directions_only`, `C87_answers`, `C90_best`, `C90_load`, `C90_modes`, `C90_no_memory`, `C90_ties_refuted`, `C92_reads_back`, `C92_pretty`, `C92_cut`, `C92_combine`, `C92_combine_cut`, `C92_missing_refuted`, `C92_parsed`, `C93_duelling`, `C93_ranks`, `C100_reading`, `C100_evaluated`, `C100_policies`, `C100_make_actor`, `C100_first_action_refuted`.

**`ClassicalDedekindReals.sig_forall_dec`, `ClassicalDedekindReals.sig_not_dec`, `FunctionalExtensionality.functional_extensionality_dep`** (32):

`C22_derived_conversions`, `C35_ground_truth`, `C36_mixture`, `C36_after_reset`, `C36_size`, `C36_unit_variance`, `C38_results`, `C38_returns`, `C59_latents`, `C59_speed`, `C59_mean_speed`, `C82_quantiles`, `C84_station_seeker`, `C87_same_winds`, `C87_key_decides`, `C89_schedule`, `C89_amount`, `C89_targets`, `C89_evaluation`, `C89_weights`, `C89_weighted_update_refuted`, `C89_dqn`, `C89_published`, `C89_transitions`, `C89_priorities`, `C90_evaluation`, `C93_equations`, `C93_unroll`, `C93_parts`, `C93_rows`, `C93_bounded`, `C106_draws`.

**`ClassicalDedekindReals.sig_forall_dec`, `ClassicalDedekindReals.sig_not_dec`, `Classical_Prop.classic`, `FunctionalExtensionality.functional_extensionality_dep`** (228):

`C02_C03_C04_executed_command`, `C02_altitude_floor`, `C03_envelope_guard`, `C04_power_layer_rule`, `C05_forecast_is_current`, `C06_paused_flag_meaning`, `C06_not_paused_passes_command`, `C06_paused_iff_descent_refused`, `C07_battery_limits`, `C07_energy_balance`, `C08_parameters_never_change`, `C08_ballast_never_negative`, `C08_ballast_follows_command`, `C08_ballast_amount`, `C11_fractional_duration_refuted`, `C12_dead_reckoning`, `C13_envelope_law`, `C13_superpressure_monotone_and_lipschitz`, `C13_substep_obeys_law`, `C14_rises_iff_buoyant`, `C14_pressure_change`, `C14_in_every_seeded_atmosphere`, `C15_height_then_pressure`, `C15_pressure_then_height`, `C16_pressure_decreases`, `C16_values_positive`, `C16_temperature_and_density`, `C16_hydrostatic`, `C30_power_curve`, `C30_efficiency_is_bilinear`, `C30_efficiency_and_flow_range`, `C17_range_and_optimum`, `C18_documented_value`, `C18_distance`, `C18_vanishes_far_away`, `C18_power_penalty`, `C31_linear_crossing`, `C31_ideal_sun`, `C33_power_range`, `C33_attenuation`, `C33_formula`, `C33_shadow`, `C33_sun_position`, `C62_linear_crossing`, `C62_monotone_crossing_refuted`, `C52_pressure_default`, `C52_pressure`, `C52_infrared`, `C52_infrared_stops`, `C55_black_body`, `C55_heat_balance`, `C55_stable_temperature`, `C56_cold_start`, `C56_excess_lift`, `C56_search_direction`, `C51_valid`, `C51_travel`, `C51_distance`, `C51_identity`, `C09_reported`, `C09_absorbing`, `C10_visible`, `C10_every_failure_flagged_refuted`, `C19_radius_ignored`, `C19_refuted`, `C39_reproducible`, `C39_constructor`, `C39_seed_then_reset`, `C39_arena`, `C39_arena_constructor`, `C54_restore_is_a_no_op`, `C54_refuted`, `C54_reset_changes_saved_weather`, `C54_deep_copy`, `C63_start`, `C63_sound_envelope`, `C63_vehicle`, `C38_balloon_status`, `C40_partition`, `C40_episode_length`, `C40_balanced`, `C40_beyond`, `C64_same_result`, `C64_parts`, `C64_sharded`, `C24_layout`, `C25_wind_column`, `C26_named_features`, `C26_named_winds`, `C26_navigation_swapped_refuted`, `C27_in_observation_space`, `C28_nearest_level`, `C28_total_and_monotone`, `C68_solar_cycle`, `C68_fails_only`, `C68_always_answers`, `C48_episode`, `C48_stays_in_range_refuted`, `C48_time_since_update_refuted`, `C49_best_level`, `C49_on_observations`, `C70_step`, `C71_keys`, `C50_search`, `C50_range`, `C50_contains`, `C59_kl`, `C74_search_answers`, `C74_steps_to_sunrise`, `C65_reset`, `C65_construct`, `C65_cold_start`, `C75_balloon`, `C75_winds`, `C76_whole_range`, `C77_get_features`, `C77_default_balloon`, `C77_reset`, `C77_construct`, `C78_reconstruction_bounded`, `C79_equations_of_motion`, `C79_airworthy`, `C80_step_returns`, `C80_until_done`, `C80_default_features`, `C80_within_4000_km`, `C80_bounded_wind`, `C81_flight_envelope`, `C83_evaluation_return`, `C83_agrees_with_evaluation`, `C84_evaluation`, `C84_training`, `C84_run`, `C84_default_run`, `C84_acting`, `C84_default_evaluation`, `C84_default_training`, `C84_default_acting`, `C84_seeker_answers`, `C84_random_walk`, `C86_same_answers`, `C86_picture`, `C86_no_renderer`, `C86_constructed`, `C88_night`, `C88_episode`, `C88_first_night`, `C90_parts`, `C91_eval`, `C91_shards`, `C91_unloaded_refuted`, `C94_best`, `C94_fits`, `C94_total`, `C94_order`, `C94_more`, `C94_bounds`, `C94_one`, `C94_measured`, `C94_far`, `C94_linear`, `C94_belief`, `C94_deviation`, `C94_regresses`, `C94_reset`, `C94_steps`, `C94_evaluation`, `C95_battery`, `C95_ratio`, `C95_charge_is_a_number`, `C95_ballast`, `C95_buoyancy`, `C95_position`, `C96_same_code`, `C96_float32`, `C96_saturation`, `C96_squash`, `C96_squash_monotone_refuted`, `C96_squash_below_one_refuted`, `C96_observation`, `C96_entries`, `C96_pressure`, `C96_levels`, `C96_km`, `C96_feet`, `C96_units_refuted`, `C97_reflection`, `C97_fraction_refuted`, `C97_time`, `C97_in_grid`, `C97_point`, `C97_no_jump`, `C98_whole_steps`, `C98_started_steps`, `C98_whole_seconds`, `C98_same_counts`, `C98_levels`, `C98_nearest_level`, `C98_not_finite`, `C98_midpoint`, `C99_same_code`, `C99_range`, `C99_accuracy`, `C99_edge_refuted`, `C100_written_evaluations`, `C101_same_code`, `C101_total`, `C101_perfect`, `C101_better`, `C101_share`, `C101_compare`, `C101_order_refuted`, `C102_same_code`, `C102_table`, `C102_agrees`, `C102_not_a_number`, `C102_curve`, `C102_curve_error`, `C102_no_power`, `C102_acs_power`, `C103_fly_alike_refuted`, `C106_repeatable_refuted`, `C107_created`, `C107_gas`, `C107_returns`, `C107_stable_returns`, `C107_default_refuted`, `C107_percent_refuted`.