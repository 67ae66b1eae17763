-Q theories Verif
theories/Base.v
theories/BaseFacts.v
theories/Num.v
theories/NumFacts.v
theories/UnitModel.v
theories/UnitFacts.v
theories/SpecUnits.v
theories/UnitThms.v
theories/Properties01Units.v
theories/Sympy.v
theories/Node.v
theories/Build.v
theories/SpecExpr.v
theories/BuildFacts.v
theories/SpecDims.v
theories/ClassFacts.v
theories/DimFacts.v
theories/SpecQty.v
theories/QtyFacts.v
theories/Demo.v
theories/Properties02Quantities.v
theories/Properties03Expressions.v
theories/EquationModel.v
theories/ModelModel.v
theories/SpecModel.v
theories/EquationFacts.v
theories/EqClassFacts.v
theories/ModelFacts.v
theories/Properties04Equations.v
theories/SpecInc.v
theories/IncFacts.v
theories/Properties05Incorporation.v
theories/SpecCall.v
theories/CallFacts.v
theories/Properties06Calls.v
theories/ProblemModel.v
theories/SpecProblem.v
theories/ProblemFacts.v
theories/SessionFacts.v
theories/UsualFacts.v
theories/DofFacts.v
theories/ConnFacts.v
theories/Properties07Problems.v
theories/SolverModel.v
theories/DomainModel.v
theories/SpecSolver.v
theories/SolverFacts.v
theories/OdeFacts.v
theories/DaeFacts.v
theories/DomainFacts.v
theories/Properties08Solvers.v
theories/SimModel.v
theories/SpecSim.v
theories/SimFacts.v
theories/Properties09Simulations.v
theories/OptimModel.v
theories/SpecOptim.v
theories/OptimFacts.v
theories/Properties10Optimisation.v
theories/PackageModel.v
theories/SpecPackage.v
theories/PackageFacts.v
theories/PortsModel.v
theories/SpecPorts.v
theories/PortsFacts.v
theories/Properties11Ports.v
theories/UnitOpModel.v
theories/SpecUnitOps.v
theories/UnitOpFacts.v
theories/UnitLibFacts.v
theories/StreamFacts.v
theories/Properties12UnitOps.v
theories/SpecLookup.v
theories/LiteralFacts.v
theories/LookupFacts.v
theories/SpecSymbols.v
theories/SymbolFacts.v
theories/ValueFacts.v
theories/Properties13Lookup.v
theories/CountFacts.v
theories/Properties14Symbols.v
theories/ReportModel.v
theories/SpecReport.v
theories/ReportFacts.v
theories/Properties15Reports.v
theories/SpecWritten.v
theories/WrittenFacts.v
theories/SpecStored.v
theories/StoredFacts.v
theories/Properties16Written.v
theories/SpecOwn.v
theories/OwnFacts.v
theories/ShownFacts.v
theories/SpecRepeat.v
theories/RepeatFacts.v
theories/Properties17Models.v
theories/SpecExact.v
theories/ExactFacts.v
theories/Properties18Exact.v
theories/SpecSession.v
theories/ViewFacts.v
theories/StudyFacts.v
theories/Properties19Sessions.v
theories/UnitResolveModel.v
theories/SpecUnitResolve.v
theories/UnitResolveFacts.v
theories/Properties20UnitResolve.v
theories/EvalModel.v
theories/SpecEval.v
theories/EvalFacts.v
theories/EvalStudyFacts.v
theories/Properties21Evaluations.v
theories/SpecLink.v
theories/LinkFacts.v
theories/Properties22Links.v
theories/InfoModel.v
theories/SpecInfo.v
theories/InfoFacts.v
theories/Properties23Info.v
theories/SpecSaid.v
theories/SaidFacts.v
theories/Properties24Said.v
theories/EqInvFacts.v
theories/SpecMatrix.v
theories/MatrixFacts.v
theories/Properties25Matrix.v
theories/SpecInit.v
theories/InitFacts.v
theories/Properties26Initial.v
theories/SpecSi.v
theories/SiFacts.v
theories/Properties27Templates.v
theories/SpecTrace.v
theories/TraceFacts.v
theories/Properties28Trace.v
theories/RunModel.v
theories/SpecRun.v
theories/RunFacts.v
theories/Properties29Run.v
theories/DaeRunFacts.v
theories/Properties30Dae.v
theories/SpecConditions.v
theories/ConditionFacts.v
theories/Properties31Conditions.v
theories/SpecCompose.v
theories/ComposeFacts.v
theories/KeptFacts.v
theories/ComposeRunFacts.v
theories/Properties32Compose.v
theories/WholeModel.v
theories/SpecWhole.v
theories/WholeFacts.v
theories/Properties33Whole.v
theories/UniqueAnalysis.v
theories/SpecUnique.v
theories/TameFacts.v
theories/UniqueFacts.v
theories/Properties34Unique.v
theories/EqValueModel.v
theories/SpecEqValue.v
theories/EqValueFacts.v
theories/Properties35Values.v
theories/SpecStart.v
theories/StartFacts.v
theories/Properties36Start.v
theories/SpecSimulated.v
theories/SimulatedFacts.v
theories/Properties37Simulations.v
theories/SpecUniqueDae.v
theories/UniqueDaeFacts.v
theories/DaeAgreeFacts.v
theories/Properties38Algebraic.v
theories/SpecRefused.v
theories/RefusedFacts.v
theories/Properties39Refused.v
theories/SpecAsked.v
theories/AskedFacts.v
theories/Properties40Asked.v
theories/SpecNearly.v
theories/NearlyFacts.v
theories/Properties41Nearly.v
theories/Properties42Limits.v
theories/FlashFacts.v
theories/Properties43Flash.v
theories/SpecDepend.v
theories/DependAnalysis.v
theories/DependFacts.v
theories/Properties44Depend.v
theories/SpecDependDae.v
theories/DependDaeFacts.v
theories/Properties45DependDae.v
theories/SpecScaled.v
theories/ScaledFacts.v
theories/Properties46Forms.v
theories/SpecInlets.v
theories/InletFacts.v
theories/SpecStudySim.v
theories/StudySimFacts.v
theories/Properties47Inlets.v
theories/Properties48Counts.v
theories/SpecMeasure.v
theories/MeasureFacts.v
theories/CallInletFacts.v
theories/Properties49Measures.v
theories/SpecPhases.v
theories/PhaseFacts.v
theories/Properties50Phases.v
theories/ErrorModel.v
theories/SpecErrors.v
theories/ErrorFacts.v
theories/Properties51Errors.v
theories/DofModel.v
theories/SpecDof.v
theories/DofTextFacts.v
theories/Properties52Dof.v
theories/BoundsModel.v
theories/SpecBounds.v
theories/BoundsFacts.v
theories/Properties53Bounds.v
theories/LogModel.v
theories/SpecLog.v
theories/LogFacts.v
theories/Properties54Log.v
theories/SpecSettled.v
theories/SettledFacts.v
theories/Properties55Settled.v
theories/SpecProper.v
theories/ProperFacts.v
theories/Properties56Proper.v
theories/SpecAmounts.v
theories/AmountFacts.v
theories/Properties57Amounts.v
theories/SpecTaken.v
theories/TakenFacts.v
theories/Properties58Taken.v
theories/SpecShift.v
theories/ShiftFacts.v
theories/Properties59Shift.v
theories/DrumFacts.v
theories/Properties60Drums.v
theories/SpecDraws.v
theories/DrawFacts.v
theories/Properties61Draws.v
theories/SpecConserve.v
theories/ConserveFacts.v
theories/Properties62Conserve.v
theories/SpecSymmetry.v
theories/SymmetryFacts.v
theories/Properties63Symmetry.v
theories/SpecResume.v
theories/ResumeFacts.v
theories/Properties64Resume.v
theories/SpecMechanism.v
theories/MechanismFacts.v
theories/Properties65Mechanism.v
theories/StudiesFacts.v
theories/Properties66Studies.v
theories/FirstFacts.v
theories/Properties67First.v
