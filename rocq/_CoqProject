-Q theories Verif

theories/Model/Num.v
theories/Model/Safety.v
theories/Model/Acs.v
theories/Model/Balloon.v
theories/Spec/Flight.v
theories/Spec/SafetySpec.v
theories/Spec/Envelope.v
theories/Spec/Buoyancy.v
theories/Proofs/NumR.v
theories/Proofs/SafetyProofs.v
theories/Proofs/SafetyHistory.v
theories/Proofs/SafetyFlight.v
theories/Proofs/AcsProofs.v
theories/Proofs/BalloonProofs.v
theories/Proofs/EnvelopeProofs.v
theories/Proofs/BuoyancyProofs.v
theories/Proofs/ExampleFlight.v
theories/Props/SafetyProps.v
theories/Props/BalloonProps.v
theories/Model/Atmosphere.v
theories/Spec/AtmosphereSpec.v
theories/Proofs/AtmosphereProofs.v
theories/Props/AtmosphereProps.v
theories/Model/Units.v
theories/Spec/Dimensions.v
theories/Proofs/UnitsProofs.v
theories/Props/UnitsProps.v
theories/Spec/TablesSpec.v
theories/Model/PowerTable.v
theories/Model/Transforms.v
theories/Proofs/TablesProofs.v
theories/Props/TablesProps.v
theories/Model/Reward.v
theories/Spec/RewardSpec.v
theories/Proofs/RewardProofs.v
theories/Props/RewardProps.v
theories/Model/Solar.v
theories/Model/SolarSearch.v
theories/Spec/Calendar.v
theories/Spec/SunSpec.v
theories/Proofs/CalendarProofs.v
theories/Proofs/SolarSearchProofs.v
theories/Proofs/SolarProofs.v
theories/Props/SolarProps.v
theories/Model/Prng.v
theories/Model/WindField.v
theories/Model/WindGP.v
theories/Spec/PrngSpec.v
theories/Spec/WindSpec.v
theories/Spec/BeliefSpec.v
theories/Proofs/InterpProofs.v
theories/Proofs/WindProofs.v
theories/Proofs/WindGPProofs.v
theories/Props/WindProps.v
theories/Props/WindGPProps.v
theories/Model/Sampling.v
theories/Props/SamplingProps.v
theories/Model/Thermal.v
theories/Spec/ThermalSpec.v
theories/Proofs/ThermalProofs.v
theories/Props/ThermalProps.v
theories/Model/StableInit.v
theories/Props/StableInitProps.v
theories/Model/Geometry.v
theories/Spec/Sphere.v
theories/Props/GeometryProps.v
theories/Model/Env.v
theories/Model/SimState.v
theories/Spec/Episodes.v
theories/Proofs/EnvProofs.v
theories/Props/EnvProps.v
theories/Props/SimStateProps.v
theories/Model/Agents.v
theories/Model/Eval.v
theories/Model/StrataSeeds.v
theories/Model/Suites.v
theories/Spec/EvalSpec.v
theories/Spec/SuitesSpec.v
theories/Proofs/EvalProofs.v
theories/Proofs/ShardProofs.v
theories/Proofs/StringProofs.v
theories/Proofs/CombineProofs.v
theories/Proofs/EvalOrderProofs.v
theories/Props/EvalProps.v
theories/Props/ShardProps.v
theories/Props/EvalOrderProps.v
theories/Props/SuitesProps.v
theories/Model/PyString.v
theories/Model/Checkpoints.v
theories/Spec/CheckpointSpec.v
theories/Proofs/CheckpointProofs.v
theories/Props/CheckpointProps.v
theories/Model/Collectors.v
theories/Model/Training.v
theories/Spec/TrainingSpec.v
theories/Proofs/TrainingProofs.v
theories/Proofs/CollectorProofs.v
theories/Props/TrainingProps.v
theories/Props/CollectorProps.v
theories/Model/PressureRange.v
theories/Model/Features.v
theories/Spec/FeatureSpec.v
theories/Proofs/FeatureProofs.v
theories/Props/FeatureProps.v
theories/Model/Exploration.v
theories/Spec/ExplorationSpec.v
theories/Spec/ReplaySpec.v
theories/Proofs/ExplorationProofs.v
theories/Props/ExplorationProps.v
theories/Model/FeatureAgents.v
theories/Spec/SeekerSpec.v
theories/Proofs/AgentProofs.v
theories/Props/AgentProps.v
theories/Spec/StartSpec.v
theories/Props/StartProps.v
theories/Spec/RangeSpec.v
theories/Proofs/RangeProofs.v
theories/Props/RangeProps.v
theories/Model/Vae.v
theories/Spec/VaeSpec.v
theories/Proofs/VaeProofs.v
theories/Props/VaeProps.v
theories/Model/Loading.v
theories/Props/LoadingProps.v
theories/Proofs/RealSun.v
theories/Props/RealSunProps.v
theories/Proofs/ColdStart.v
theories/Props/ResetProps.v
theories/Props/ObservationProps.v
theories/Proofs/NewtonConvex.v
theories/Proofs/Convection.v
theories/Proofs/EmissionSlope.v
theories/Proofs/FloatTemperature.v
theories/Proofs/FloatBalance.v
theories/Proofs/FloatPressure.v
theories/Proofs/FloatAtmosphere.v
theories/Props/DefaultRangeProps.v
theories/Proofs/SunApart.v
theories/Props/SolarCycleProps.v
theories/Proofs/StartFloat.v
theories/Props/PerciatelliResetProps.v
theories/Props/SoundStartProps.v
theories/Props/VehicleProps.v
theories/Spec/IntSpec.v
theories/Proofs/IntProofs.v
theories/Props/EvalBalloonProps.v
theories/Proofs/VaeNetProofs.v
theories/Props/VaeNetProps.v
theories/Spec/Motion.v
theories/Proofs/MotionProofs.v
theories/Props/MotionProps.v
theories/Proofs/SteadyHeat.v
theories/Proofs/SteadyAir.v
theories/Proofs/SteadyFlight.v
theories/Proofs/ProgressProofs.v
theories/Props/ProgressProps.v
theories/Model/Mlp.v
theories/Spec/LearningSpec.v
theories/Proofs/MlpProofs.v
theories/Props/MlpProps.v
theories/Model/Acme.v
theories/Spec/AcmeSpec.v
theories/Props/AcmeProps.v
theories/Spec/CompleteSpec.v
theories/Proofs/CompleteProofs.v
theories/Props/CompleteProps.v
theories/Model/StationWinds.v
theories/Spec/HullSpec.v
theories/Proofs/HullProofs.v
theories/Props/StationWindsProps.v
theories/Model/Rendering.v
theories/Spec/RenderingSpec.v
theories/Props/RenderingProps.v
theories/Model/GenerativeWind.v
theories/Props/GenerativeWindProps.v
theories/Spec/NightSpec.v
theories/Proofs/NightProofs.v
theories/Props/NightProps.v
theories/Model/TrainStep.v
theories/Spec/ScheduleSpec.v
theories/Props/TrainStepProps.v
theories/Proofs/RunProofs.v
theories/Props/RunProps.v
theories/Spec/ArenaSpec.v
theories/Props/ArenaProps.v
theories/Model/AcmeEval.v
theories/Spec/AcmeEvalSpec.v
theories/Proofs/PathProofs.v
theories/Props/AcmeEvalProps.v
theories/Model/Programs.v
theories/Spec/ProgramSpec.v
theories/Props/ProgramProps.v
theories/Model/Json.v
theories/Spec/JsonSpec.v
theories/Proofs/JsonProofs.v
theories/Props/JsonProps.v
theories/Model/R2d2.v
theories/Spec/R2d2Spec.v
theories/Proofs/R2d2Proofs.v
theories/Props/R2d2Props.v
theories/Model/Dataset.v
theories/Model/Perciatelli44.v
theories/Props/DatasetProps.v
theories/Props/Perciatelli44Props.v
theories/Model/GaussianProcess.v
theories/Spec/GaussianSpec.v
theories/Proofs/Kernels.v
theories/Proofs/GaussianProofs.v
theories/Props/GaussianProps.v
theories/Props/GaussianEpisodeProps.v
theories/Model/Float64.v
theories/Proofs/Float64Proofs.v
theories/Props/FloatProps.v
theories/Model/FloatFeatures.v
theories/Props/FloatFeatureProps.v
theories/Model/FloatWind.v
theories/Proofs/FloatWindProofs.v
theories/Props/FloatWindProps.v
theories/Model/FloatCounts.v
theories/Props/FloatCountProps.v
theories/Model/FloatReward.v
theories/Props/FloatRewardProps.v
theories/Model/AcmeTrain.v
theories/Spec/AcmeTrainSpec.v
theories/Props/AcmeTrainProps.v
theories/Model/FloatEval.v
theories/Props/FloatEvalProps.v
theories/Model/FloatTables.v
theories/Props/FloatTablesProps.v
theories/Model/CompareStates.v
theories/Props/CompareStatesProps.v
theories/Model/Datetimes.v
theories/Props/DatetimesProps.v
theories/Model/DistributedTrain.v
theories/Props/DistributedTrainProps.v
theories/Model/RandomAgent.v
theories/Props/RandomAgentProps.v
theories/Model/CreateBalloon.v
theories/Props/CreateBalloonProps.v
