# Design

Target: the python package `sloth` in `/repo/src/sloth` (equation-oriented
process modelling: units, quantities, symbolic expressions, equations, models,
problems, simulations, optimisation, unit operations).  The code is read as
text; nothing is executed.  This file says, for each property of
`properties.jsonl`, what is modelled and how the property is proved, and what
is trusted.

## Shape of the development (`rocq/theories`)

| File | Content |
| --- | --- |
| `Base.v`, `BaseFacts.v` | Python exceptions as values, `res` monad, insertion ordered `dict`, string slicing, sorting |
| `Num.v`, `NumFacts.v` | Python numbers: `int` = `Z`, `float` = IEEE binary64 (`SpecFloat`), `+ - * / ==` with Python coercions; exactness on whole numbers up to 2^53 (through Flocq) |
| `UnitModel.v`, `UnitFacts.v`, `SpecUnits.v`, `UnitThms.v` | `core/unit.py`, `core/template_units.py` |
| `Sympy.v` | symbolic expressions as trees, real-valued denotation, free symbols, sequential substitution, `srepr` |
| `Node.v` | `core/quantity.py`, `parameter.py`, `constant.py`, `variable.py`, `core/expression_evaluation.py`, `core/equation_operators.py` |
| `Build.v`, `SpecExpr.v`, `BuildFacts.v` | the expressions a user can write, as a syntax tree run through the model of the operators; reference evaluator |
| `SpecDims.v`, `DimFacts.v`, `ClassFacts.v` | dimension typing, affine functions, classification |
| `SpecQty.v`, `QtyFacts.v` | `setValue`, quantity arithmetic, snapshots |
| `Demo.v` | concrete quantities used by the examples |
| `EquationModel.v`, `EquationFacts.v`, `EqClassFacts.v` | `core/equation.py`, automatic names (`gen_rnd_str`, one counter per thread) |
| `ModelModel.v`, `SpecModel.v`, `ModelFacts.v` | `model.py`: declarations, checks, name mangling |
| `SpecInc.v`, `IncFacts.v` | incorporation of one model in another |
| `SpecCall.v`, `CallFacts.v` | calling a model again |
| `ProblemModel.v`, `SpecProblem.v`, `ProblemFacts.v`, `SessionFacts.v`, `UsualFacts.v`, `DofFacts.v`, `ConnFacts.v` | `problem.py`, `core/equation_block.py`, `analysis.py`; sessions, unknowns, degrees of freedom, connections |
| `SolverModel.v`, `SpecSolver.v`, `SolverFacts.v`, `OdeFacts.v`, `DaeFacts.v` | data plumbing of `solvers.py` (orders, maps, initial values, residual rewriting) around arbitrary numeric engines |
| `DomainModel.v`, `DomainFacts.v` | `core/domain.py` |
| `SimModel.v`, `SpecSim.v`, `SimFacts.v` | `simulation.py`: configuration, runs, status, dump and load |
| `OptimModel.v`, `SpecOptim.v`, `OptimFacts.v` | `optimization.py` around an arbitrary evolution |
| `PackageModel.v`, `SpecPackage.v`, `PackageFacts.v` | `property_package.py` |
| `PortsModel.v`, `SpecPorts.v`, `PortsFacts.v` | ports of models and unit operations, shared default arguments |
| `UnitOpModel.v`, `SpecUnitOps.v`, `UnitOpFacts.v`, `UnitLibFacts.v`, `StreamFacts.v` | `unit_op_library.py`, streams, inlets of models |
| `UnitResolveModel.v`, `SpecUnitResolve.v`, `UnitResolveFacts.v` | `unit_op.py`: resolving unit operations |
| `SpecLookup.v`, `LiteralFacts.v`, `LookupFacts.v` | numbers with units, parameter lookup `sim[name]` |
| `SpecSymbols.v`, `SymbolFacts.v`, `ValueFacts.v` | symbols of the equations of a problem, values given at creation |
| `ReportModel.v`, `SpecReport.v`, `ReportFacts.v` | printed units, reports, result tables, residuals, plots |
| `SpecWritten.v`, `WrittenFacts.v` | what declaration scripts say, against what is stored and solved |
| `SpecOwn.v`, `OwnFacts.v`, `ShownFacts.v` | which objects a model holds and exposes |
| `SpecRepeat.v`, `RepeatFacts.v` | resolving a problem again |
| `SpecExact.v`, `ExactFacts.v` | nothing but what was written is solved and integrated |
| `SpecSession.v`, `ViewFacts.v`, `StudyFacts.v` | reading whole programs; setting parameters between resolves |
| `Properties01Units.v` ... `Properties19Sessions.v` | the property theorems only: each closed by `exact lemma`, with `Print Assumptions` beneath, and a concrete `Example` beside it |

Model definitions mirror the Python functions branch by branch and cite file
and lines.  Exceptions are values (`Raise EKey`, ...).  Where an exception
leaves partial effects behind, the model returns the state together with the
outcome.

## Plan per property

* **C01-C04 units.** `dict num` with arbitrary names; products, quotients,
  powers, coherence as folds.  Pointwise lookup lemmas.  C02 is false for
  custom names (`unit_div_refuted`); proved for units with the same names
  (all SI units).  C03: relation "exponent represents the integer z" for ints
  and for doubles; group laws by exactness lemmas; refuted for fractional
  doubles (0.1, 0.2, 0.3).  C04: refuted for custom names, equivalence relation
  proved over a common name set (NaN-free).
* **C05, C06 quantities.** Decision table of `setValue`; float with any unit is
  accepted (refuted), everything else proved.  Quantity arithmetic always
  raises (refuted; the exact exception is characterised).
* **C07 dimension typing.** Inductive relation `hasdim` over integer exponent
  vectors as separate specification; soundness and completeness by induction
  on expressions.  `x()**p()` with an expression exponent keeps the dimension of
  `x` (refuted); the rest proved.
* **C08 covariance.** Denotation over `R`; scaling lemma by induction.
* **C09-C11 meaning, display form, maps.** Induction on expressions with a
  reference evaluator.
* **C12, C13 classification.** Affine functions as separate specification;
  `k()/x()` and `Min(x(),1)` are classified linear (refuted); proved for
  expressions without these.  `x()*x.Diff()` is classified nonlinear (refuted).
* **C14** invariant; **C15** heap-indexed building; **C16** case analysis of
  argument lists (refuted: all-expression argument lists always raise).
* **C17** equation forms; **C18** interleaving of per-thread counters (unique
  inside one thread, refuted across threads).
* **C19** string lemmas (refuted: `a_b` in `c` against `a` in `b_c`; proved when
  model names contain no underscore).
* **C20-C23** state machine over heap of quantities and model states; invariants
  by induction on operation lists; incorporation by renaming lemma on
  denotations.
* **C24-C29** problem state, folds over models; refutations: late declared
  variables are dropped (C25), time variable detected by substring (C27),
  list arguments of a refused connection raise AttributeError (C28),
  input-mode connections overwrite (C29).
* **C30-C34** zips and permutations; refutations for column labels (C32),
  second registration (C33), derivative numbering (C34).
* **C35-C39** dictionary merge lemmas, small state machines; refutations for
  shared `arg_names` (C36), status (C37), maximisation flag (C38), unknown
  mechanism (C39).
* **C40, C41, C51** heap of shared default dictionaries/lists; refutations by
  two-object histories, isolation proved when arguments are explicit.
* **C42** Flocq error bounds for the two floating point operations of the flow
  conversion; exact equality refuted.
* **C43, C52** a relation "the model state after running these declarations" with
  one step lemma per declaration; real algebra on the stored residuals.  Unit
  operations that cannot be used are refuted for every state they are used in. Flash drums: every declaring command succeeds and attributes are those declared, so
  the attribute read by line 887 is missing (`FlashFacts.v`).
* **C44** calling a model as a function of its script (with C23).
* **C45-C47** the system handed to the numeric engine against the system of the
  user, as sets of solutions; refutations for `lhs == rhs` (C45), derivatives
  that do not stand alone (C46), lengths (C47).
* **C48** configuration dictionary through `json` (identity on plain data).
* **C49, C50** the evolution of `pygmo` is a parameter of the model; box
  constraints and results over all histories.
* **C54, C55** decision table of `setValue` for the quantities `u*n`, `u/n` make;
  Flocq error bound for 1/n; indistinguishability of units of one dimension.
* **C56** session invariant for collected parameters; heap addresses separate the
  collected object from those of a later call.
* **C57** a static reading of declaration scripts (which attributes hold variables or
  set parameters) against their execution, lifted to sessions; refutations by small
  problems.
* **C58** two runs of one script with different creation values compared step by step.
* **C59** words of a unit text recovered from the text (no blank or caret inside a
  word), for any printing of numbers that keeps values apart.
* **C60** session invariant: display data of an equation agree with the objects and
  class it carries; rows as relations between equation and lists of names.
* **C61-C63** tables and plots as lists of rows and curves (layout left out);
  residuals with C57; recorded columns with C32; refutations for default arguments.
* **C64** declaration scripts read on their own (attribute, last value, set or not)
  against their execution, starting from the attributes the model already has
  (`pictures`, kept by every successful call); lifted to the equations of a resolved
  problem (StoredFacts.v).
* **C65** C64 and the results of the solvers, for numeric routines whose answers are
  roots (hypothesis `honest`, met by an example routine); refuted for `lhs == rhs`.
* **C66** session invariant: every equation whose name holds an arrow comes from a
  connection of the variables named there.
* **C67** session invariant on the locations held by the models; every action is a
  step that changes only the models it is about.
* **C68** session invariant on the origin of every stored equation (a script or a
  connection of the history); with C64 and C66 this makes the solved system
  equivalent to the written one.
* **C69** C68 with the right-hand sides of C31 and the residuals of C34.
* **C70** a reading of the whole program (`SpecSession.views`: what each attribute of
  each model stands for) is kept by every action; calls and resolves read the
  declarations with it; with the origins of C68 the block is exactly what is read.
* **C71** C70 for one more setting; the number of objects of a name is bounded by the
  number of statements that make it, so the looked-up object is the attribute's.
* **C53** follows from C16: the minimum of expressions always raises.
* **C72** models UnitOp.resolve statement by statement (UnitResolveModel.v); InletFacts.v proves what the inlets leave although they raise; the refutations follow the control flow, the outlet
  equations are reduced to user-written equations (create_decided) and stated with their own residual (SpecUnitResolve.v).
* **C73** models one evaluation of a candidate (EvalModel.v: set, resolve, configure, run with an arbitrary solver, get results,
  reset).  A relation between states that may differ in the equations the declarations write and in the values of the
  targets is kept by every evaluation and closed by the next one (EvalFacts.v, EvalStudyFacts.v), so histories disappear.
* **C74** connections by expressions are stored under "conn_<origin>--><model>_<model>".  String lemmas separate this name from
  declared names, names of variable connections and those of other origins (drawn numbers only grow); an invariant keeps the
  entry over every action and the block lemmas of C64 put it into the problem (LinkFacts.v).
* **C75** models the reports of model.py 217-328 (InfoModel.v); one step lemma per statement says what a call adds to the
  dictionaries and lists (InfoFacts.v).
* **C76** says for a whole program what the problem asks (SpecSaid.v: the equations brought from outside the declarations, told apart by
  the joined variables, the origin or the name).  An invariant over the actions relates every key of the equation dictionary of a
  model to the last action that brought it or to the declarations (SaidFacts.v); the names of connections are separated by LinkFacts.
  The theorems on integrators (C69) follow for these programs.
* **C77** linear problems as matrix equations.  A syntactic shape is implied by the class "linear" (MatrixFacts.v), kept by renaming, and
  carried to every equation of a session by a generic invariant lemma (EqInvFacts.v); expressions of that shape without unknowns in
  denominators and extrema are affine, and the coefficients give the rows.
* **C78** where equations come from: `arrives` (SpecTrace.v) lists the ways an equation gets into a model (statement, declaration,
  connection, copy from a donor), `conveys` says that a stored equation means a written one under a change of names.  One induction over
  actions with an arbitrary predicate on equations (EqInvFacts.v, also used by C77) gives both; the copies of C21 are followed through
  later actions by a frame lemma on dictionary keys (TraceFacts.v).
* **C79** dynamic runs end to end: RunModel.v models DSolver.solve with the integrators as parameters; `integrated` (SpecRun.v) says
  that rows are, up to eps, states of a solution of y' = f(y, t). `obeys` says that at each moment every statement of the program
  (`program_says`, C76) is true of the functions and their derivatives. RunFacts.v joins C76, C31 and C32; the derivative is the real
  one of the standard library. Trusted besides: assimulo starts an Explicit_Problem without t0 at time 0.
* **C80** the same for DaeSolver.solve (RunModel.v): `dae_integrated` says that rows are states of a solution of F(y, y') = 0 whose marked
  components start as given; DaeRunFacts.v joins C76, C34 and C32. Trusted besides: `make_consistent('IDA_YA_YDP_INIT')` keeps the
  components whose `algvar` is true and may change the others.
  The differential equations may have the derivative anywhere among the terms of a sum (`with_rate`); with a number before it (2*dx/dt) `abs(i).args[0]`
  is the number, and no such problem is ever simulated (C80_scaled).
* **C81** `calculated_at` (SpecConditions.v) looks at the chemical objects a package refers to; ConditionFacts.v follows calculate() over
  the store and shows by induction over package programs that a chemical is stored under its own name.
* **C82** `accounts` (SpecCompose.v) reads a program action by action and keeps for each model the names, values and equations it says it has;
  incorporation adds what the flags say of the donor, with the names of the host.  It knows neither objects nor renaming of symbols.  ComposeFacts.v
  shows that the models of the session agree with it after each action; ComposeRunFacts.v uses the general forms of the run theorems of C79 and
  C80 for it.
* **C83** `whole_run` (WholeModel.v) joins the configuration (C48), the choice of solver, the check of degrees of freedom (C27), the mechanisms (C65, C76) and the runs (C79, C80);
  `whole_results` is getResults.  `SpecWhole.v`: what the options ask for.  Composition of the earlier theorems; options are shown to be read as set.
* **C84** No new model code: the trajectories of C79 and C82 are functions of which the written equations are true; SpecUnique.v says when rates are steady
  (locally Lipschitz), UniqueAnalysis.v proves (with Coquelicot's derivative, no axioms of its own) that such systems have one solution, TameFacts.v that written
  expressions without roots and broken powers are steady, UniqueFacts.v that tables of runs therefore agree, SimulatedFacts.v that this holds of
  whole simulations (C83), whatever their options, UniqueDaeFacts.v and DaeAgreeFacts.v that it holds of differential-algebraic problems whose algebraic
  equations give the variables one after the other.
* **C85** EqValueModel.v models `Equation.eval`, `getResidual` and `_getSymbolicMap` with maps of numbers or objects; SpecEqValue.v gives the value of a written equation and
  of its sides by the arithmetic meaning of C09. Proved by substitution in the symbolic form; `getResidual` is refuted (the default map holds objects).
* **C86** SpecStart.v lists what a simulation needs (`ready`); StartFacts.v proves that the choice of the solver and the solver constructors ask for exactly that, and
  lifts it to `run_sim` and to the whole simulation of C83.
* **C87** SpecRefused.v compares the states before and after an operation field by field; RefusedFacts.v goes through every operation of a session (SpecProblem.v) for the
  first sentence, and shows that calls and resolves are their statements and calls one after the other.
* SpecAsked.v and AskedFacts.v hold small theorems found missing by seeding: what the root finder is asked (C83), sides of equations (C17), members of expressions (C27),
  texts of connections (C29) and tables (C61), and which exception is raised (C28, C37, C39, C49, C52).
* C88: SpecNearly.v says what an answer within a tolerance is; NearlyFacts.v shows that the expressions handed to a solver have, for all values, the values demanded by the program, so that residuals of at most eps are residuals of what was written; a left inverse of the matrix of C77 bounds the error of the unknowns.
* SpecMechanism.v and MechanismFacts.v say which mechanisms and ends of simulations there are (C83_mechanism, C83_end, C83_times, C83_listed), also found missing by seeding.
* StudiesFacts.v and FirstFacts.v hold small theorems found missing by seeding: new studies and called problems (C38, C49), kinds in reports (C60), the default package (C41).
* Properties42Limits.v holds the witnesses against the full statements of C68, C69 and C83.
* C89: SpecDepend.v says when two sets of equations give nearly the same rates, and reads bounds off written expressions (`sways`: every form but derivatives; roots, logarithms, tangents, quotients and variable powers with a margin that keeps them off the edge of their domain); DependAnalysis.v has the estimate (the square root of the sum of squared differences, weighted with an exponential, falls), DependFacts.v applies it to the runs and simulations of C84. SpecDependDae.v and DependDaeFacts.v: differential-algebraic equations, where the other variables are bound to those with rates; without differences this is uniqueness for algebraic equations of any form (C84_dae_region).
* C90: OptimModel.v, as for C38 and C39; SpecStudySim.v says which configuration is meant, and the proof follows it through histories to the problem that is run.
* C27 also counts out both sides of the test: symbols of the equations (as defined in SpecSymbols.v) and equations of the added models (CountFacts.v).
  The hypothesis `rate_said` of C84 and C89 is about values: any written equation that makes the rate equal to the derivative will do.
* C91: SpecMeasure.v reads units and sides off names; MeasureFacts.v keeps them through every statement of the library's scripts (also those that end in an exception). CallInletFacts.v: what a call with inlets keeps (C53).
* C92: SpecPhases.v lists the fractions by class and phase; PhaseFacts.v follows the attributes through the scripts and joins PackageModel.v with UnitOpModel.v (`pack_of`).
* C93: ErrorModel.v models the errors of error_definitions.py with their attributes and texts, and repeats the refusing operations with the errors they raise; C93_same proves that they are the operations of the other files. ErrorFacts.v takes the texts of dimensions apart.
* C94: DofModel.v repeats analysis.py lines 41-105 with everything the exception shows (C94_same: same outcome as the dof_test of ProblemModel.v) and the text itself; SpecDof.v reads decimal numbers and lists of names back from texts.
* C95: BoundsModel.v adds bounds to the statements of ModelModel.v; that no other line of /repo reads them was checked by searching for the attributes.
* C96: LogModel.v models what runOptimization does after the evolution (left as a parameter in OptimModel.v): the DataFrame of the log and the points of the graph.  The columns of pygmo's logs are part of the trusted base (SpecLog.v, from its documentation).
* **C57, C27, C62, C94, continued** (SpecSettled.v, SettledFacts.v, Properties55Settled.v): the theorems on the symbols of a problem for
  sessions that also connect by expressions, write equations and set values after the declarations; the hypothesis (`all_settled`) says of
  every statement, in the state it is given in, that its equation uses variables or quantities with a value.
* **C61, continued** (SpecProper.v, ProperFacts.v, Properties56Proper.v): every quantity of a session has a unit written in the program, for
  all statements and exceptions, so that the hypothesis on the units of C61_steady_partial holds of every program.
* **C09, C64, C65 by a relation** SpecAmounts.v says what an expression comes to without the evaluation functions of Sympy.v
  (which the other specs share with the model as the trusted meaning of sympy's operations); AmountFacts.v proves that any evaluation that goes case by case agrees with it.
* **C57, C27, C62, C94 with incorporated models** (SpecTaken.v, TakenFacts.v, Properties58Taken.v): the same theorems for sessions in which
  models also declare variables after their call and take in other models with everything they have (`takes_whole`).  The proof needs that the
  displayed form of an equation has all symbols of the working form, since the objects of a copied equation are looked up from its displayed form.
* C97: no new model code.  SpecShift.v says when two sets of equations ask nearly the same and when equations determine their unknowns in a region; ShiftFacts.v joins this to the answers within a tolerance of
  C88 and to the bounds read off expressions of C89.
* C43, C52 of tanks and steady flashes: DrumFacts.v follows what each attribute is (units, variable or not, distributed or not) through the commands of a constructor and proves that the commands do that.
* C98: no new model code.  SpecConserve.v has amounts made of variables, what they are worth and how fast they change by the product rule; ConserveFacts.v uses the mean value theorem on the functions that
  C80, C82 and C83 say a run records.
* C99: no new model code.  SpecSymmetry.v has scalings and shifts of variables and time and says when they carry equations into equations; SymmetryFacts.v shows that the image of a solution is a solution and
  uses the uniqueness of C84.  Algebraic problems: an equation mapped is at most a factor as far from zero as one of the first, and the condition of the second (C97) does the rest.
* C18 as a count: SpecDraws.v counts the numbers a creation uses up; DrawFacts.v proves the name of each equation from it.
* C100: no new model code.  SpecResume.v says when a program starts with a row of a table and when one table goes on from another; ResumeFacts.v reads the functions of the first run by the clock of the second
  (C99) and bounds the distance of the two by C89.

The exact state (what is proved, what is missing from a partial theorem, what is
refuted) is in the notes of `MANIFEST.json`.

Not expressible here: convergence and accuracy of the numeric solvers
(scipy/assimulo/sympy `linsolve`), correctness of `thermo` properties, the looks of
plots, graph drawing, performance.  They are external libraries; the model stops at
the data handed to and received from them.

## Trusted base

* The Coq 8.16.1 kernel, and `coqchk`.
* `Print Assumptions` output is in the build log below each theorem.  Theorems
  that mention real numbers list the standard library axioms of the reals
  (`ClassicalDedekindReals.sig_forall_dec`, `ClassicalDedekindReals.sig_not_dec`,
  `FunctionalExtensionality.functional_extensionality_dep`, and where Flocq or
  Coquelicot is used `Classical_Prop.classic`).  No axiom is added by this development.
* The reading of Python by hand: no translator is used.
* sympy: an expression is the unsimplified tree of the operations performed and
  stands for its denotation; automatic simplification is assumed to preserve
  values where they are defined.  `free_symbols` of a tree may be a superset of
  what sympy reports after cancelling.
* Python `float` values stored in quantities and literals are exact binary64
  numbers; arithmetic on *expressions* is over the reals (rounding inside
  sympy/Python constant folding is not modelled).  Arithmetic on *dimension
  exponents* is modelled bit for bit (binary64, round to nearest even);
  `int -> float` overflow of huge ints gives infinity instead of
  `OverflowError`.
* Not modelled: names of nodes and LaTeX text (display only), text layout of tables, JSON
  file access, drawing of plots and graphs, `math_functions.py` (broken imports),
  `parameter_array.py` (does not parse), solver numerics, `thermo`, `pygmo`.
* Lambdified functions are assumed to evaluate expressions as written.  `Log10`
  makes the sympy expression `log(x, 10)`; whether numpy accepts what sympy prints for it depends
  on the version of sympy.  `sympy.linear_eq_to_matrix` gets the unknowns as text, which
  not all versions accept.
* `DaeSolver._setUpDaeSystem` (solvers.py lines 889-895) appends the list of nonlinear
  equations to the list of linear ones of the equation block.  Not modelled: afterwards these lists
  are only tested for being empty, which does not change for the problems that reach it.
