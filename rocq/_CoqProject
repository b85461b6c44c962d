-Q theories Verif
theories/AccessActs.v
theories/AccessActsAll.v
theories/AccessActsPlasma.v
theories/AccessActsProps.v
theories/AccessActsSpec.v
theories/AccessActsWalls.v
theories/AccessAsked.v
theories/AccessAskedProps.v
theories/AccessAskedSpec.v
theories/AccessComponents.v
theories/AccessCompose.v
theories/AccessDefaults.v
theories/AccessDefaultsProps.v
theories/AccessDefaultsSpec.v
theories/AccessInputs.v
theories/AccessModel.v
theories/AccessOrder.v
theories/AccessOrderSpec.v
theories/AccessProofs.v
theories/AccessProps.v
theories/AccessReadProps.v
theories/AccessReadSpec.v
theories/AccessReads.v
theories/AccessRefuse.v
theories/AccessSpec.v
theories/AccessTables.v
theories/AmjuelTables.v
theories/ClosureLaws.v
theories/ClosureModel.v
theories/ClosureProofs.v
theories/ClosureProofs2.v
theories/ClosureProps.v
theories/ClosureSpec.v
theories/CollisionRatesProofs.v
theories/CollisionRatesProps.v
theories/CollisionRatesSpec.v
theories/CollisionsExamples.v
theories/CollisionsModel.v
theories/CollisionsProofs.v
theories/CollisionsProofs2.v
theories/CollisionsProps.v
theories/CollisionsSpec.v
theories/ControlLaws.v
theories/ControlModel.v
theories/ControlProofs.v
theories/ControlProps.v
theories/ControlSpec.v
theories/DiffusionModel.v
theories/DiffusionProofs.v
theories/DiffusionProofs2.v
theories/DiffusionProps.v
theories/DiffusionSpec.v
theories/DriftModel.v
theories/DriftProofs.v
theories/DriftProps.v
theories/DriftSpec.v
theories/EquationsProofs.v
theories/EquationsProps.v
theories/EvolveLaws.v
theories/EvolveModel.v
theories/EvolveProofs.v
theories/EvolveProps.v
theories/EvolveSpec.v
theories/ExBLaws.v
theories/ExBLaws2.v
theories/ExBModel.v
theories/ExBProofs.v
theories/ExBProps.v
theories/ExBSpec.v
theories/ExchangeModel.v
theories/ExchangeProofs.v
theories/ExchangeProps.v
theories/ExchangeSpec.v
theories/ExchangeWit.v
theories/FieldsModel.v
theories/FieldsProofs.v
theories/FieldsProps.v
theories/FieldsSpec.v
theories/FloatModel.v
theories/FloatProofs.v
theories/FloatProps.v
theories/FloatSpec.v
theories/FloatWit.v
theories/FullVelModel.v
theories/FullVelProofs.v
theories/FullVelProps.v
theories/FullVelSpec.v
theories/FullVelWit.v
theories/InitModel.v
theories/InitProofs.v
theories/InitProps.v
theories/InitSpec.v
theories/LimitersModel.v
theories/LimitersProofs.v
theories/LimitersProps.v
theories/LimitersSpec.v
theories/MetricModel.v
theories/MetricProofs.v
theories/MetricProps.v
theories/MetricSpec.v
theories/NeutralModel.v
theories/NeutralProofs.v
theories/NeutralProps.v
theories/NeutralSpec.v
theories/NumericProofs.v
theories/OptionsModel.v
theories/OptionsProofs.v
theories/OptionsProps.v
theories/OptionsSpec.v
theories/ParallelHeating.v
theories/ParallelLaws.v
theories/ParallelModel.v
theories/ParallelProofs.v
theories/ParallelProps.v
theories/ParallelSpec.v
theories/ParallelSplit.v
theories/PerpLaws.v
theories/PerpModel.v
theories/PerpProofs.v
theories/PerpProps.v
theories/PerpSpec.v
theories/PidProofs.v
theories/PidProps.v
theories/PidSpec.v
theories/PolyCheck.v
theories/PpmModel.v
theories/PpmProofs.v
theories/PpmProps.v
theories/PpmSpec.v
theories/PreconModel.v
theories/PreconProofs.v
theories/PreconProps.v
theories/PreconSpec.v
theories/RadiationFits.v
theories/RadiationModel.v
theories/RadiationProofs.v
theories/RadiationProps.v
theories/RadiationSpec.v
theories/RatesFits.v
theories/RatesLaws.v
theories/RatesOther.v
theories/RatesProofs.v
theories/RatesProps.v
theories/RatesSpec.v
theories/RatesTables.v
theories/RatesWit.v
theories/ReactionsAdasProofs.v
theories/ReactionsCxProofs.v
theories/ReactionsExamples.v
theories/ReactionsLaws.v
theories/ReactionsModel.v
theories/ReactionsProofs.v
theories/ReactionsProps.v
theories/ReactionsSpec.v
theories/ReactionsTableProofs.v
theories/RegistryLaws.v
theories/RegistryModel.v
theories/RegistryProofs.v
theories/RegistryProps.v
theories/RegistrySpec.v
theories/RegistryWit.v
theories/Revisit1Proofs.v
theories/Revisit1Props.v
theories/Revisit2Proofs.v
theories/Revisit2Props.v
theories/Revisit3Proofs.v
theories/Revisit3Props.v
theories/Revisit4Proofs.v
theories/Revisit4Props.v
theories/SchedulerModel.v
theories/SchedulerProofs.v
theories/SchedulerProps.v
theories/SchedulerSpec.v
theories/SheathLaws.v
theories/SheathLaws2.v
theories/SheathModel.v
theories/SheathProofs.v
theories/SheathProps.v
theories/SheathSpec.v
theories/SimpleModel.v
theories/SimpleProofs.v
theories/SimpleProps.v
theories/SimpleSpec.v
theories/StateEffects.v
theories/StateMonad.v
theories/StateMonadProofs.v
theories/StateSpec.v
theories/StrModel.v
theories/SystemModel.v
theories/SystemProofs.v
theories/SystemProps.v
theories/SystemSpec.v
theories/SystemWit.v
theories/ThermalForceModel.v
theories/ThermalForceProofs.v
theories/ThermalForceProps.v
theories/ThermalForceSpec.v
theories/TransformModel.v
theories/TransformProofs.v
theories/TransformProps.v
theories/TransportLaws.v
theories/TransportLaws2.v
theories/TransportModel.v
theories/TransportProofs.v
theories/TransportProps.v
theories/TransportSpec.v
theories/TransportWit.v
theories/UnitsModel.v
theories/UnitsProofs.v
theories/UnitsProps.v
theories/UnitsSpec.v
theories/VortLaws.v
theories/VortModel.v
theories/VortProofs.v
theories/VortProps.v
theories/VortSpec.v
theories/VortWit.v
theories/WallsLaws.v
theories/WallsModel.v
theories/WallsProofs.v
theories/WallsProps.v
theories/WallsSpec.v
