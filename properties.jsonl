{"id": "C01", "title": "Unit products and powers are computed exponent by exponent", "statement": "For units u and v, u*v has for every dimension name the sum of the two exponents (a missing name counts as absent on that side), and u**n has every exponent multiplied by n; nothing else is added or lost, whatever extra (non-SI) dimension names the units carry.", "quantifier": "all pairs of units (any dictionary of dimension names and Python int/float exponents) and all int/float powers", "why_tests_cant": "The set of dimension dictionaries and exponents is infinite, and custom dimension names change the key sets on both sides; a test only samples a few SI units.", "anchors": ["src/sloth/core/unit.py:Unit.__mul__", "src/sloth/core/unit.py:Unit.__pow__", "src/sloth/core/unit.py:Unit._re_eval_dimensions"]}
{"id": "C02", "title": "Unit quotients keep every dimension of both operands", "statement": "For units u and v, u/v has for every dimension name carried by u or by v the exponent of u minus the exponent of v.", "quantifier": "all pairs of units, including units with user-defined dimension names", "why_tests_cant": "The defect appears only when the numerator has a dimension name the denominator lacks; no finite set of SI units shows it and no finite set shows its absence for the SI ones.", "anchors": ["src/sloth/core/unit.py:Unit.__truediv__", "src/sloth/core/unit.py:Unit.__div__"]}
{"id": "C03", "title": "Units form an abelian group under the coherence check", "statement": "With whole-number exponents (ints of any size, or floats up to 2**53 in magnitude) the checks `u*v ~ v*u`, `(u*v)*w ~ u*(v*w)`, `(u*v)/v ~ u`, `u/u` dimensionless, `u**a * u**b ~ u**(a+b)`, `(u**a)**b ~ u**(a*b)` all succeed, where ~ is the library's own dimensional-coherence check.", "quantifier": "all units over the seven SI names with whole-number exponents, all whole-number powers, mixing Python ints and IEEE doubles", "why_tests_cant": "The laws are universally quantified over exponents and depend on exactness of double arithmetic; fractional doubles such as 0.1+0.2 break them.", "anchors": ["src/sloth/core/unit.py:Unit.__mul__", "src/sloth/core/unit.py:Unit.__truediv__", "src/sloth/core/unit.py:Unit.__pow__", "src/sloth/core/unit.py:Unit._check_dimensional_coherence", "src/sloth/core/unit.py:Unit._is_dimensionless"]}
{"id": "C04", "title": "The coherence check is an equivalence relation that decides sums", "statement": "Adding or subtracting two units succeeds (and returns the left unit) exactly when all their exponents agree, and otherwise raises DimensionalCoherenceError; the check is reflexive, symmetric and transitive.", "quantifier": "all pairs and triples of units", "why_tests_cant": "Symmetry and transitivity quantify over all units; asymmetry only shows when one unit carries an extra dimension name.", "anchors": ["src/sloth/core/unit.py:Unit.__add__", "src/sloth/core/unit.py:Unit.__sub__", "src/sloth/core/unit.py:Unit._check_dimensional_coherence"]}
{"id": "C05", "title": "setValue never accepts a value tagged with an incoherent unit", "statement": "q.setValue(v, unit) succeeds only if unit is dimensionally coherent with q's own units, and q.setValue(other_quantity) only if the other quantity's units are; a rejected call leaves value and specified flag unchanged.", "quantifier": "all quantities, all numeric (int or float) values, all units, all other quantities", "why_tests_cant": "The outcome depends on the Python type of the value and on all unit pairs; the accepted-but-incoherent combination is one corner of an infinite product.", "anchors": ["src/sloth/core/quantity.py:Quantity.setValue", "src/sloth/core/parameter.py:Parameter.setValue", "src/sloth/core/constant.py:Constant.setValue"]}
{"id": "C06", "title": "Quantities can be added, subtracted, multiplied and raised to powers", "statement": "q1 + q2 on coherent quantities returns a quantity with the summed value and q1's units, and incoherent quantities raise DimensionalCoherenceError.", "quantifier": "all pairs of quantities and all values", "why_tests_cant": "A statement about every operand pair; a test would show one pair.", "anchors": ["src/sloth/core/quantity.py:Quantity.__add__", "src/sloth/core/quantity.py:Quantity.__sub__", "src/sloth/core/quantity.py:Quantity.__mul__", "src/sloth/core/quantity.py:Quantity.__pow__"]}
{"id": "C07", "title": "Expressions build exactly when they are dimensionally homogeneous, and carry the right dimension", "statement": "Building an expression from declared quantities with + - * / **, mathematical functions and derivatives succeeds exactly when it obeys the rules of dimensional analysis (operands of + and - have the same dimension, function arguments and exponents are dimensionless), and then the unit of the result is the dimension that dimensional analysis assigns to the expression.", "quantifier": "all expressions of any size over any declared quantities with whole-number SI dimensions", "why_tests_cant": "Requires induction over all expression trees; every test fixes finitely many trees.", "anchors": ["src/sloth/core/expression_evaluation.py:EquationNode.__add__", "src/sloth/core/expression_evaluation.py:EquationNode.__sub__", "src/sloth/core/expression_evaluation.py:EquationNode.__mul__", "src/sloth/core/expression_evaluation.py:EquationNode.__div__", "src/sloth/core/expression_evaluation.py:EquationNode.__pow__", "src/sloth/core/equation_operators.py:wrapper", "src/sloth/core/equation_operators.py:_Diff"]}
{"id": "C08", "title": "Change-of-units covariance", "statement": "Changing the base units rescales the value of every accepted expression by exactly the factor its unit prescribes: if each quantity of dimension d is multiplied by the conversion factor for d, the expression's value is multiplied by the conversion factor of the expression's unit.", "quantifier": "all accepted expressions without bare additive literals, all positive conversion factors for the seven base units, all values of the quantities", "why_tests_cant": "Quantifies over all trees and all real conversion factors; it is the semantic meaning of dimensional correctness and cannot be enumerated.", "anchors": ["src/sloth/core/expression_evaluation.py:EquationNode.__add__", "src/sloth/core/expression_evaluation.py:EquationNode.__mul__", "src/sloth/core/expression_evaluation.py:EquationNode.__div__", "src/sloth/core/expression_evaluation.py:EquationNode.__pow__", "src/sloth/core/equation_operators.py:wrapper"]}
{"id": "C09", "title": "Expressions denote what was written", "statement": "The symbolic expression built from a Python expression evaluates, for every assignment of the unspecified quantities, to the value of the written arithmetic in which specified quantities stand for their values; this includes reflected operators such as 2-x and 2/x.", "quantifier": "all expressions, all assignments of real values to unspecified quantities and derivatives", "why_tests_cant": "Universal over expression trees and over real assignments.", "anchors": ["src/sloth/core/expression_evaluation.py:EquationNode", "src/sloth/core/quantity.py:Quantity.__call__", "src/sloth/core/equation_operators.py:wrapper", "src/sloth/core/equation_operators.py:Min", "src/sloth/core/equation_operators.py:Max", "src/sloth/core/equation_operators.py:_Diff"]}
{"id": "C10", "title": "The display form and the working form of an expression agree", "statement": "The representation kept for display (with every quantity as a symbol) evaluates, when specified quantities are given their values, to the same number as the working expression (where specified values were substituted).", "quantifier": "all expressions, all assignments", "why_tests_cant": "Universal over expression trees and assignments.", "anchors": ["src/sloth/core/expression_evaluation.py:EquationNode", "src/sloth/core/quantity.py:Quantity.__call__", "src/sloth/model.py:Model._addEquationDirectly"]}
{"id": "C11", "title": "The object maps of an expression are exact", "statement": "An expression's symbolic map lists exactly the quantities that occur in it, its variable map exactly the ones that were unspecified when they were used, and every free symbol of the working expression is a key of the variable map, provided distinct quantities have distinct names.", "quantifier": "all expressions over all quantity collections", "why_tests_cant": "Induction over trees; name clashes are a corner case of an infinite domain.", "anchors": ["src/sloth/core/expression_evaluation.py:EquationNode", "src/sloth/core/quantity.py:Quantity.__call__"]}
{"id": "C12", "title": "An expression classified linear is affine in the unspecified quantities", "statement": "If an equation is classified linear, its residual is an affine function (constant plus weighted sum) of the unspecified quantities, so that the linear solver may be used.", "quantifier": "all expressions of any size, all assignments", "why_tests_cant": "Semantic property of an infinite family of expressions; the misclassified ones form a specific corner.", "anchors": ["src/sloth/core/expression_evaluation.py:EquationNode.__mul__", "src/sloth/core/expression_evaluation.py:EquationNode.__div__", "src/sloth/core/expression_evaluation.py:EquationNode._checkEquationTypePrecedence", "src/sloth/core/equation_operators.py:Min", "src/sloth/core/equation_operators.py:Max", "src/sloth/core/equation.py:Equation._getTypeFromExpression"]}
{"id": "C13", "title": "An expression is classified differential exactly when it contains a derivative", "statement": "If an equation contains a derivative of an unspecified variable it is classified differential, and an equation classified differential contains one.", "quantifier": "all expressions of any size", "why_tests_cant": "Induction over all trees; the loss of the flag happens only in products, quotients and function arguments.", "anchors": ["src/sloth/core/expression_evaluation.py:EquationNode.__mul__", "src/sloth/core/expression_evaluation.py:EquationNode.__div__", "src/sloth/core/equation_operators.py:_Diff", "src/sloth/core/equation_operators.py:wrapper"]}
{"id": "C14", "title": "Every expression has exactly one class", "statement": "Every node the API can produce has exactly one of the linear / nonlinear / differential flags set, so equation classification never fails and the three groups of a problem partition its equations.", "quantifier": "all expressions of any size, all equation collections", "why_tests_cant": "Invariant over all construction histories.", "anchors": ["src/sloth/core/expression_evaluation.py:EquationNode._checkEquationTypePrecedence", "src/sloth/core/equation.py:Equation._getTypeFromExpression", "src/sloth/core/equation_block.py:EquationBlock._assignEquationGroups"]}
{"id": "C15", "title": "Equations keep the values their quantities had when they were built", "statement": "Changing a quantity with setValue after an expression was built never changes that expression or any equation already created from it; re-running the declaration afterwards yields the expression with the new value.", "quantifier": "all expressions, all quantities, all sequences of later setValue calls", "why_tests_cant": "Universal over histories of updates.", "anchors": ["src/sloth/core/quantity.py:Quantity.__call__", "src/sloth/core/quantity.py:Quantity.setValue", "src/sloth/model.py:Model.__call__"]}
{"id": "C16", "title": "Min and Max accept any mix of coherent arguments", "statement": "Min(a1..an) and Max(a1..an) succeed for numbers and for coherent expressions, reject incoherent ones, and are classified nonlinear when they contain an unspecified quantity.", "quantifier": "all argument lists of numbers and expressions", "why_tests_cant": "Argument lists of all lengths and mixes.", "anchors": ["src/sloth/core/equation_operators.py:Min", "src/sloth/core/equation_operators.py:Max", "src/sloth/model.py:_totalizeInletsFunction_genericMaterialStreams"]}
{"id": "C17", "title": "An elementary equation's residual is left side minus right side", "statement": "setResidual(lhs == rhs) succeeds exactly when the sides are dimensionally coherent (a numeric right side always is), stores both sides unchanged, and the residual evaluates to the left value minus the right value for every assignment; setResidual(expr) stores expr itself; anything else raises UnexpectedValueError and leaves the equation unchanged.", "quantifier": "all pairs of sides, all assignments", "why_tests_cant": "Universal over expressions and assignments.", "anchors": ["src/sloth/core/equation.py:Equation.setResidual", "src/sloth/core/equation.py:Equation._convertToResidualForm", "src/sloth/core/equation.py:Equation._getSymbolicObject", "src/sloth/core/expression_evaluation.py:EquationNode.__eq__"]}
{"id": "C18", "title": "An equation without a name gets one no other unnamed equation has", "statement": "Automatically generated names of equations (and problems) are pairwise different.", "quantifier": "all interleavings of any number of threads creating any number of unnamed equations", "why_tests_cant": "Depends on the schedule: names are unique within a thread under every interleaving but not across threads.", "anchors": ["src/sloth/core/equation.py:gen_rnd_str", "src/sloth/core/equation.py:Equation.__init__", "src/sloth/problem.py:gen_rnd_str", "src/sloth/problem.py:Problem.__init__"]}
{"id": "C19", "title": "Object names are unambiguous", "statement": "Two objects declared with different (local name, model name) pairs get different full names, and removing the model suffix from a full name gives back the local name.", "quantifier": "all local names and all model names (any strings)", "why_tests_cant": "Strings are infinite; the ambiguity needs an underscore in a name.", "anchors": ["src/sloth/model.py:Model.createVariable", "src/sloth/model.py:Model.createParameter", "src/sloth/model.py:Model.createConstant", "src/sloth/model.py:Model._addVariableDirectly"]}
{"id": "C20", "title": "A model only ever holds equations about its own objects", "statement": "createEquation succeeds exactly when every quantity occurring in the expression is declared in the model (by name) as variable, parameter or constant; otherwise it raises UnexpectedObjectDeclarationError and the model is unchanged. Hence after any sequence of declarations every stored equation refers only to declared objects.", "quantifier": "all sequences of create operations, including failing ones", "why_tests_cant": "Invariant over all operation histories.", "anchors": ["src/sloth/model.py:Model.createEquation", "src/sloth/model.py:Model._checkEquation_", "src/sloth/model.py:Model.createVariable", "src/sloth/model.py:Model.createParameter", "src/sloth/model.py:Model.createConstant"]}
{"id": "C21", "title": "Incorporating a model preserves the meaning of its equations", "statement": "incorporateFromExternalModel copies every variable, parameter, constant and equation of the other model under its local name with the host's suffix, leaves the other model untouched, and each copied equation evaluates, under the renamed assignment, to what the original evaluates to, and refers only to the host's objects.", "quantifier": "all donor models, all host models, all assignments", "why_tests_cant": "Universal over models and assignments; failures need exposed variables, numeric right-hand sides or clashing suffixes.", "anchors": ["src/sloth/model.py:Model.incorporateFromExternalModel", "src/sloth/model.py:Model._addVariableDirectly", "src/sloth/model.py:Model._addParameterDirectly", "src/sloth/model.py:Model._addConstantDirectly", "src/sloth/model.py:Model._addEquationDirectly", "src/sloth/core/equation.py:Equation._convertEquationSymbolicExpression"]}
{"id": "C22", "title": "Incorporation can be repeated", "statement": "A model that received objects from another (with or without renaming) can itself be incorporated in a third one with every object keeping its local name.", "quantifier": "all chains of incorporations with either value of rewrite_name", "why_tests_cant": "Universal over chains of operations and names.", "anchors": ["src/sloth/model.py:Model.incorporateFromExternalModel", "src/sloth/model.py:Model._addVariableDirectly"]}
{"id": "C23", "title": "Resolving a problem again does not duplicate or lose anything", "statement": "Calling a model (or resolve) any number of times leaves the same object names, the same equation names and equal equations as calling it once, and equations are counted once.", "quantifier": "all models (any declaration scripts), all numbers of calls", "why_tests_cant": "Universal over declaration scripts and repetition counts.", "anchors": ["src/sloth/model.py:Model.__call__", "src/sloth/problem.py:Problem.resolve", "src/sloth/problem.py:Problem._reloadModels", "src/sloth/problem.py:Problem._buildEquationBlock"]}
{"id": "C24", "title": "The equation block holds each model equation once, grouped by class", "statement": "After resolve the block's equations are exactly the equations of the added models, in model order then declaration order, each once; the linear, nonlinear and differential groups are disjoint and together contain every equation.", "quantifier": "all problems with any number of models and equations", "why_tests_cant": "Universal over problems.", "anchors": ["src/sloth/problem.py:Problem._buildEquationBlock", "src/sloth/core/equation_block.py:EquationBlock._assignEquationGroups"]}
{"id": "C25", "title": "The unknowns of the block are exactly the variables used", "statement": "The block's variable list contains each unspecified-or-specified variable that occurs in some equation exactly once and nothing else.", "quantifier": "all problems, all orders of addModels and of declarations", "why_tests_cant": "Universal over problems and over the order in which models are added and declare their variables.", "anchors": ["src/sloth/problem.py:Problem._buildEquationBlock", "src/sloth/problem.py:Problem.addModels"]}
{"id": "C26", "title": "Problem type and solver choice follow the equation classes", "statement": "A problem is dynamic iff it has differential equations and no others, differential-algebraic iff it has both, nonlinear-algebraic iff it has nonlinear but no differential ones, linear-algebraic iff all are linear and there is one, and has no type iff it has no equations; runSimulation picks the solver of that type and refuses a problem without type.", "quantifier": "all equation collections, all configured problem types", "why_tests_cant": "Universal over collections of equations.", "anchors": ["src/sloth/problem.py:Problem._getProblemType", "src/sloth/solvers.py:_createSolver", "src/sloth/simulation.py:Simulation.runSimulation"]}
{"id": "C27", "title": "The degree-of-freedom check is exact", "statement": "The check passes exactly when the number of unknowns (variables in the block plus unspecified parameters) equals the number of equations, where the time variable of a dynamic problem counts as known iff it occurs in a differential equation; a specified parameter never counts.", "quantifier": "all problems, all time-variable names", "why_tests_cant": "Universal over problems and names; the time-variable test is a substring test, wrong only for particular names.", "anchors": ["src/sloth/analysis.py:DOF_Analysis._dofTest", "src/sloth/analysis.py:DOF_Analysis._inspectForObjects", "src/sloth/core/equation_block.py:EquationBlock._hasVarBeenDeclared"]}
{"id": "C28", "title": "A connection is accepted only between exposed variables and balances them", "statement": "createConnection in connection mode succeeds only if every output variable is exposed as output of the first model and every input variable is exposed as input of the second; it then adds to the second model one equation whose residual is the sum of the inputs minus the sum of the outputs; otherwise it raises ExposedVariableError and changes nothing.", "quantifier": "all models, all lists of variables, all assignments", "why_tests_cant": "Universal over exposure states and lists.", "anchors": ["src/sloth/problem.py:Problem.createConnection", "src/sloth/model.py:Model._createConnection", "src/sloth/core/connection.py:Connection"]}
{"id": "C29", "title": "Every connection adds an equation", "statement": "Successive successful createConnection calls with different variables each add one equation; none replaces an earlier one.", "quantifier": "all sequences of connection calls in both modes", "why_tests_cant": "Universal over call sequences.", "anchors": ["src/sloth/problem.py:Problem.createConnection", "src/sloth/model.py:Model.createEquation"]}
{"id": "C30", "title": "Algebraic solutions are reported under the right names", "statement": "The result of an algebraic simulation maps each unknown to the solver's value at that unknown's position, with every unknown present exactly once, and the initial guess is passed position by position from the user's map; a missing guess raises KeyError.", "quantifier": "all variable lists, all solver output vectors, all guess maps", "why_tests_cant": "Universal over vectors and orders.", "anchors": ["src/sloth/solvers.py:LASolver.solve", "src/sloth/solvers.py:NLASolver.solve", "src/sloth/solvers.py:NLASolver._getInitialGuess"]}
{"id": "C31", "title": "The ODE right-hand side is evaluated at the solver's state by name", "statement": "When the integrator asks for the derivative at (t, Y), equation i is evaluated with the differential variable of equation j set to Y[j] and the time variable set to t, whatever order the variables were declared in; and component j of the initial state is the initial condition of that variable.", "quantifier": "all ODE systems with any order of variables and equations, all states", "why_tests_cant": "Universal over orders and states.", "anchors": ["src/sloth/solvers.py:DSolver.setUpDiffY", "src/sloth/solvers.py:DSolver._createMappingFromValues", "src/sloth/solvers.py:DSolver._getDiffYinOrder", "src/sloth/solvers.py:DSolver.solve"]}
{"id": "C32", "title": "Time-series columns carry the right variable names", "statement": "After a dynamic simulation, the column labelled with a variable's name holds that variable's trajectory.", "quantifier": "all dynamic problems, all orders of distributeOnDomain calls and of equations", "why_tests_cant": "Depends on two independent orders chosen by the user; only coinciding orders are right.", "anchors": ["src/sloth/solvers.py:DSolver.solve", "src/sloth/core/domain.py:Domain._register", "src/sloth/core/domain.py:Domain._createDataFramePrototype", "src/sloth/core/variable.py:Variable.distributeOnDomain"]}
{"id": "C33", "title": "Results can be appended to a domain", "statement": "Registering a second block of results on a domain appends the rows under the same column names; resetting the domain empties it and restores its columns.", "quantifier": "all result blocks, all sequences of register, reset and distribute operations", "why_tests_cant": "Universal over operation histories.", "anchors": ["src/sloth/core/domain.py:Domain._register", "src/sloth/core/domain.py:Domain._reset", "src/sloth/core/domain.py:Domain._setDomain", "src/sloth/core/domain.py:Domain._distributeOnDomain"]}
{"id": "C34", "title": "The DAE residual pairs each state with its own derivative", "statement": "In the residual function handed to the DAE integrator, the derivative of the variable at position i of the state is read from position i of the derivative vector.", "quantifier": "all DAE systems, all orders of equations and variables", "why_tests_cant": "Depends on two orders.", "anchors": ["src/sloth/core/equation_block.py:EquationBlock._getMapForRewriteSystemAsResidual", "src/sloth/core/equation_block.py:EquationBlock._getDiffList", "src/sloth/core/equation_block.py:EquationBlock._getEquationBlockAsFunction", "src/sloth/solvers.py:DaeSolver.solve"]}
{"id": "C35", "title": "Configuration precedence", "statement": "After setConfigurations, every option given in definition_dict has the given value and every other option its default or keyword value; options never disappear.", "quantifier": "all keyword values and all definition dictionaries", "why_tests_cant": "Universal over dictionaries.", "anchors": ["src/sloth/simulation.py:Simulation.setConfigurations"]}
{"id": "C36", "title": "Configurations of different simulations are independent", "statement": "Running one simulation never changes the configuration of another one.", "quantifier": "all histories of configuring and running any number of simulations", "why_tests_cant": "Universal over histories; sharing arises from mutable defaults.", "anchors": ["src/sloth/simulation.py:Simulation.setConfigurations", "src/sloth/solvers.py:DSolver.solve"]}
{"id": "C37", "title": "The simulation status tells success from failure", "statement": "getStatus returns 0 exactly when results are available.", "quantifier": "all simulation histories", "why_tests_cant": "Universal over histories.", "anchors": ["src/sloth/simulation.py:Simulation.getStatus", "src/sloth/simulation.py:Simulation.getResults"]}
{"id": "C38", "title": "Optimisation respects the declared sense", "statement": "An optimisation problem declared as maximisation compares fitness in the opposite direction of a minimisation.", "quantifier": "all fitness pairs and flags", "why_tests_cant": "Universal over reals.", "anchors": ["src/sloth/optimization.py:OptimizationProblem.__init__", "src/sloth/optimization.py:OptimizationProblem.DeclareFitnessComparison", "src/sloth/optimization.py:Optimization.__init__"]}
{"id": "C39", "title": "Optimiser options given by the user override defaults and unknown mechanisms are refused", "statement": "Every optimiser option supplied by the user is used and the others keep their defaults; an unknown mechanism name is rejected.", "quantifier": "all option dictionaries and names", "why_tests_cant": "Universal over dictionaries and strings.", "anchors": ["src/sloth/optimization.py:Optimization.__init__", "src/sloth/optimization.py:Optimization._setOptimizer", "src/sloth/optimization.py:Optimization._performSaneTests"]}
{"id": "C40", "title": "Ports of different unit operations are independent", "statement": "Setting the inlets of one model or unit operation never changes the ports of another one.", "quantifier": "all histories of creating models/unit operations and setting inlets", "why_tests_cant": "Universal over histories; sharing arises from mutable default arguments.", "anchors": ["src/sloth/model.py:Model.__init__", "src/sloth/model.py:Model._setInlets", "src/sloth/unit_op.py:UnitOp.__init__", "src/sloth/unit_op.py:UnitOp._setInlets"]}
{"id": "C41", "title": "Merging property packages yields the union of their phases", "statement": "p1 + p2 has every phase of p1 and p2 once, leaves p2 unchanged, reports the right number of phases, and does not affect packages created elsewhere.", "quantifier": "all pairs and histories of packages", "why_tests_cant": "Universal over histories; sharing arises from a mutable default argument.", "anchors": ["src/sloth/core/property_package.py:PropertyPackage.__init__", "src/sloth/core/property_package.py:PropertyPackage.__add__"]}
{"id": "C42", "title": "Stream molar and mass flows are consistent", "statement": "After declaration, whenever exactly one of molar and mass flow was specified, both are, and mass flow equals molar flow times molecular weight (g/mol) times 1e-3.", "quantifier": "all specified flows and molecular weights", "why_tests_cant": "Universal over numbers.", "anchors": ["src/sloth/unit_op_library.py:HomogeneousMaterialStream", "src/sloth/unit_op_library.py:MaterialStream"]}
{"id": "C43", "title": "Library unit operations conserve mass and impose their pressure and temperature relations", "statement": "Any assignment satisfying the equations of a pump, valve or heater conserves mass and molar flow and satisfies outlet pressure = inlet pressure plus (pump) or minus (valve, heater) the pressure change, and conversely every such assignment satisfies the equations.", "quantifier": "all assignments of the ports, all parameter values", "why_tests_cant": "Universal over reals.", "anchors": ["src/sloth/unit_op_library.py:Valve", "src/sloth/unit_op_library.py:SimplePump", "src/sloth/unit_op_library.py:Heater", "src/sloth/unit_op_library.py:Mixer"]}
{"id": "C44", "title": "Values set from outside survive resolving the problem", "statement": "A value given to a variable or parameter with setValue (in particular by a user fixing a degree of freedom) is still in force after the model is called again, as resolve does.", "quantifier": "all models (any declaration scripts), all histories before the call", "why_tests_cant": "Universal over scripts and histories.", "anchors": ["src/sloth/model.py:Model.__call__", "src/sloth/problem.py:Problem._reloadModels", "src/sloth/core/quantity.py:Quantity.setValue"]}
{"id": "C45", "title": "The algebraic system given to the solver is the user's system", "statement": "An assignment of the unknowns makes every expression handed to the algebraic solver zero exactly when it satisfies every equation of the problem.", "quantifier": "all algebraic problems, all assignments", "why_tests_cant": "Universal over problems and real assignments.", "anchors": ["src/sloth/core/equation.py:Equation._getSymbolicObject", "src/sloth/core/equation_block.py:EquationBlock._getEquationList", "src/sloth/solvers.py:LASolver", "src/sloth/solvers.py:NLASolver"]}
{"id": "C46", "title": "Accepted differential equations are integrated as written", "statement": "For every system the ODE solver accepts, the derivatives it computes at a state make the equations hold at that state.", "quantifier": "all ODE systems the solver accepts, all states", "why_tests_cant": "Universal over systems and real states.", "anchors": ["src/sloth/solvers.py:DSolver.diffYinterfaceForScipySolvers", "src/sloth/solvers.py:DSolver._getDiffYinOrder", "src/sloth/core/equation.py:Equation.eval"]}
{"id": "C47", "title": "Initial vectors of a DAE have one entry per unknown", "statement": "The initial states and the initial derivatives handed to the DAE integrator both have exactly one entry for each unknown, the states being the user's initial conditions in the order of the unknowns.", "quantifier": "all DAE systems, all initial conditions", "why_tests_cant": "Universal over the numbers of differential and algebraic unknowns.", "anchors": ["src/sloth/solvers.py:DaeSolver.solve", "src/sloth/core/equation_block.py:EquationBlock._getMapForRewriteSystemAsResidual"]}
{"id": "C48", "title": "A saved configuration can be loaded back", "statement": "Saving a configuration with dumpConfigurations and loading the file with setConfigurations(definition_file=...) gives every option its saved value.", "quantifier": "all configurations setConfigurations can produce", "why_tests_cant": "Universal over configurations.", "anchors": ["src/sloth/simulation.py:Simulation.dumpConfigurations", "src/sloth/simulation.py:Simulation.setConfigurations"]}
{"id": "C49", "title": "Optimisation keeps every parameter within its constraints", "statement": "Constraints may be given per parameter name (a dictionary) or as lower and upper limits; a run with complete constraints searches only within them, and a run whose constraints lack a studied parameter is refused without changing anything.", "quantifier": "all studies, constraints, parameters, all evolution algorithms that keep to their box", "why_tests_cant": "Universal over constraints and algorithms.", "anchors": ["src/sloth/optimization.py:OptimizationProblem.DeclareSetBounds", "src/sloth/optimization.py:Optimization.setConstraints", "src/sloth/optimization.py:Optimization._performSaneTests", "src/sloth/optimization.py:Optimization.runOptimization"]}
{"id": "C50", "title": "Optimisation results are those of the latest evolution", "statement": "getResults raises until an evolution has ended; afterwards it returns the champion of the latest evolution that ended, which ran with the mechanism, objective, limits and population size the study had at that time.", "quantifier": "all histories of setting constraints, exchanging the problem and running, successful or not", "why_tests_cant": "Universal over histories.", "anchors": ["src/sloth/optimization.py:Optimization.runOptimization", "src/sloth/optimization.py:Optimization.getResults"]}
{"id": "C51", "title": "The inlets a model or unit operation works with are those set", "statement": "The inlets a model or unit operation works with are exactly the streams set on its inlet ports, each as often as it was set.", "quantifier": "all programs creating models and unit operations and setting their ports", "why_tests_cant": "Universal over programs, ports and the number of calls.", "anchors": ["src/sloth/model.py:Model._setInlets", "src/sloth/unit_op.py:UnitOp._setInlets"]}
{"id": "C52", "title": "Every unit operation of the library can be made and used", "statement": "Every unit operation of the library can be made and its equations declared, with any property package, of one or several phases, or with none (the documented default).", "quantifier": "all unit operations, property packages, chemicals and values set in between", "why_tests_cant": "Universal over packages and phase names; each phase adds variables and equations under generated names.", "anchors": ["src/sloth/unit_op_library.py:Mixer", "src/sloth/unit_op_library.py:Valve", "src/sloth/unit_op_library.py:SimplePump", "src/sloth/unit_op_library.py:Heater", "src/sloth/unit_op_library.py:Tank", "src/sloth/unit_op_library.py:Flash_Dynamic", "src/sloth/unit_op_library.py:Flash_SteadyState"]}
{"id": "C53", "title": "A model with inlets can be called and takes the least inlet pressure", "statement": "Calling a model that has inlets succeeds; the pressure and temperature at its inlet then are the least among its inlet streams.", "quantifier": "all models and all non-empty lists of inlet streams", "why_tests_cant": "Universal over models and inlets.", "anchors": ["src/sloth/model.py:_totalizeInletsFunction_genericMaterialStreams", "src/sloth/model.py:Model.__call__"]}
{"id": "C54", "title": "A number with a unit can be assigned", "statement": "u*n is a quantity of value n and u/n a quantity of value 1/n (up to rounding), both with the dimension of u; u/0 raises ZeroDivisionError. Any variable, parameter or constant takes such a quantity through setValue exactly when the dimensions agree.", "quantifier": "all units, all ints and floats, all quantities of every class", "why_tests_cant": "Universal over units, numbers and quantities; the class of the receiving object decides, and division rounds.", "anchors": ["src/sloth/core/unit.py:Unit.__mul__", "src/sloth/core/unit.py:Unit.__truediv__", "src/sloth/core/quantity.py:Quantity.setValue"]}
{"id": "C55", "title": "A value given in a unit of another size is converted", "statement": "Setting a value together with a unit of the same dimension but another size (1 atm on a quantity in Pa) stores the converted value.", "quantifier": "all quantities, values and pairs of units of one dimension", "why_tests_cant": "Universal over units; that no two units of one dimension are ever told apart is a statement about all pairs.", "anchors": ["src/sloth/core/quantity.py:Quantity.setValue", "src/sloth/core/template_units.py:atm", "src/sloth/core/template_units.py:Pa"]}
{"id": "C56", "title": "sim[name] is the parameter the equations use", "statement": "For a resolved problem sim[name] and sim[quantity] return the Parameter object of that name which the equations of the problem refer to, and raise KeyError for every other name.", "quantifier": "all sessions of model creation, calls, incorporation, connections, additions and resolves; all names", "why_tests_cant": "Universal over sessions; which object is returned depends on when models were added and called again.", "anchors": ["src/sloth/simulation.py:Simulation.__getitem__", "src/sloth/problem.py:Problem.addModels", "src/sloth/problem.py:Problem._buildEquationBlock", "src/sloth/problem.py:Problem.resolve"]}
{"id": "C57", "title": "The unknowns of a resolved problem are the symbols of its equations", "statement": "After problem.resolve() the symbols occurring in the equations of the problem are exactly its unknowns, so that the function made of the equations can be called with one value for each unknown.", "quantifier": "all sessions of model creation, calls, connections, additions and resolves; all equations and symbols", "why_tests_cant": "Universal over sessions, models and equations; a symbol that is no unknown only shows when a solver calls the function.", "anchors": ["src/sloth/problem.py:Problem._buildEquationBlock", "src/sloth/core/equation.py:Equation._sweepObjects", "src/sloth/model.py:Model.createConstant", "src/sloth/model.py:Model.createParameter", "src/sloth/core/equation_block.py:EquationBlock._getVarList"]}
{"id": "C58", "title": "A parameter or constant created with a value stands for that value", "statement": "After createParameter(..., value=v) or createConstant(..., value=v) the object stands for the number v in the equations of the model; after setValue(k) it stands for k.", "quantifier": "all models, declarations and values", "why_tests_cant": "Universal over declarations and values: whether a value has any effect on the model compares two runs.", "anchors": ["src/sloth/model.py:Model.createParameter", "src/sloth/model.py:Model.createConstant", "src/sloth/core/quantity.py:Quantity.__call__", "src/sloth/core/quantity.py:Quantity.setValue"]}
{"id": "C59", "title": "The text of a unit tells its dimension", "statement": "Every unit can be printed; two units are printed alike exactly when they have the same dimension.", "quantifier": "all units made by the unit operations, all exponents", "why_tests_cant": "Universal over units; exponents may be ints or floats and the printing loses whatever it does not list.", "anchors": ["src/sloth/core/unit.py:Unit.__str__"]}
{"id": "C60", "title": "Reports list the equations of a problem with their variables, parameters, constants and class", "statement": "modelReport and problemReport succeed and have one row for each equation of the models, in the order of the equation block, with its name, its variables, its parameters and constants (specified objects marked with (*)) and its class.", "quantifier": "all sessions of model creation, calls, incorporation, connections, additions and resolves", "why_tests_cant": "Universal over sessions and equations; incorporated and connection equations reach the report by other paths than written ones.", "anchors": ["src/sloth/analysis.py:Analysis._inspectForObjects", "src/sloth/analysis.py:Analysis.modelReport", "src/sloth/analysis.py:Analysis.problemReport"]}
{"id": "C61", "title": "showResults prints every result with the unit of its variable", "statement": "After a simulation showResults prints one row for each unknown with its name, unit and value, and for a dynamic simulation one row for each time point with the time and the state.", "quantifier": "all resolved problems, results and configurations", "why_tests_cant": "Universal over problems, results and configurations.", "anchors": ["src/sloth/simulation.py:Simulation.showResults", "src/sloth/core/unit.py:Unit.__str__"]}
{"id": "C62", "title": "Final residuals are the residuals of the equations at the results", "statement": "With show_final_residuals=True runSimulation prints, for each equation of an algebraic problem, its name and its residual evaluated at the results; at a solution all of them are zero.", "quantifier": "all resolved problems, equations and results", "why_tests_cant": "Universal over problems and real-valued results.", "anchors": ["src/sloth/simulation.py:Simulation.runSimulation", "src/sloth/core/equation_block.py:EquationBlock._getEquationList"]}
{"id": "C63", "title": "plotTimeSeries draws the recorded trajectories", "statement": "Plotting names of recorded variables against the time of a recorded run draws one curve for each name, with the times as abscissae, the trajectory of that variable as ordinates and its label.", "quantifier": "all recorded runs, name maps, lists of names and labels", "why_tests_cant": "Universal over runs and selections; names pass through the renaming of the domain.", "anchors": ["src/sloth/plotter.py:Plotter.plotTimeSeries", "src/sloth/simulation.py:Simulation.plotTimeSeries", "src/sloth/core/domain.py:Domain.__getitem__"]}
{"id": "C64", "title": "The equations of a problem are the equations written", "statement": "After model() the equations written are stored in the order written, each under name_model (an unnamed one under a new number, a later one of the same name in place of the earlier), and the residual of each has the value of the written expression (unset quantities as unknowns, set ones as their number), and so have both sides of lhs == rhs; a call that succeeds used only attributes assigned before; after resolve() the equation block contains, for every added model, all equations not replaced by a later one of the same name.", "quantifier": "all declarations, all models, all sessions, all real assignments to the symbols", "why_tests_cant": "Universal over programs and real assignments; overloaded operators, symbol maps and the equation block stand between what is written and what is stored.", "anchors": ["src/sloth/core/equation.py:Equation.setResidual", "src/sloth/model.py:Model.__call__", "src/sloth/problem.py:Problem._buildEquationBlock", "src/sloth/core/expression_evaluation.py:ExpressionTree"]}
{"id": "C65", "title": "A reported solution satisfies every written equation", "statement": "If the numeric routine returns roots, then the values reported by solve() satisfy every equation written in the declarations of every added model.", "quantifier": "all sessions, all algebraic solvers and their options, all numeric routines whose answers are roots", "why_tests_cant": "Universal over problems, routines and real answers; order and names of unknowns and the choice of residuals have to fit together.", "anchors": ["src/sloth/solvers.py:LASolver.solve", "src/sloth/solvers.py:NLASolver.solve", "src/sloth/core/equation_block.py:EquationBlock._getEquationList", "src/sloth/core/equation.py:Equation.setResidual"]}
{"id": "C66", "title": "Connections hold in a reported solution", "statement": "After problem.createConnection of outputs and inputs, the sum of the reported values of the inputs is the sum of those of the outputs.", "quantifier": "all sessions, connections with one or more variables, and numeric routines whose answers are roots", "why_tests_cant": "Universal over sessions; a connection is kept in the dictionary of a model and may be overwritten by later ones or by calling the model again.", "anchors": ["src/sloth/problem.py:Problem.createConnection", "src/sloth/model.py:Model.createEquation", "src/sloth/solvers.py:NLASolver.solve"]}
{"id": "C67", "title": "Models are isolated from each other", "statement": "Statements on a model, calling it, incorporating into it, connecting into it, resolving a problem or an exception in any of these do not change any other model nor its variables, parameters and constants; no two models share an object.", "quantifier": "all sessions with any number of models and problems, all actions, whether they succeed or raise", "why_tests_cant": "Universal over histories; models are Python objects linked by connections, incorporation and class-level defaults, so aliasing can show up only after long histories.", "anchors": ["src/sloth/model.py:Model", "src/sloth/model.py:Model.incorporateFromExternalModel", "src/sloth/problem.py:Problem.createConnection", "src/sloth/problem.py:Problem.resolve"]}
{"id": "C68", "title": "A problem asks what was written and nothing else", "statement": "After resolve() every equation of the problem is one written in the declarations of an added model or comes from a connection that was made into an added model; an assignment of numbers solves the system handed to the solver exactly when it satisfies the written equations and the connections.", "quantifier": "all sessions of model calls, connections and resolves, all models, all real assignments", "why_tests_cant": "Universal over histories and real assignments; stale equations of earlier calls or of models not added would only show as a wrong or unsolvable system.", "anchors": ["src/sloth/problem.py:Problem._buildEquationBlock", "src/sloth/problem.py:Problem.createConnection", "src/sloth/model.py:Model.__call__", "src/sloth/core/equation_block.py:EquationBlock._getEquationList"]}
{"id": "C69", "title": "The integrator is given the written equations", "statement": "Component j of the derivatives handed to the ODE integrator is the value of the right-hand side written for the j-th differentiated variable, every equation written as x.Diff(t) == rhs has its component, and the residuals handed to the DAE integrator are the values of the written residuals.", "quantifier": "all sessions, all explicit systems, all states and times", "why_tests_cant": "Universal over systems and states; the right-hand sides pass through operators, the equation block, argument lists and compiled functions.", "anchors": ["src/sloth/solvers.py:DSolver", "src/sloth/solvers.py:DAESolver", "src/sloth/problem.py:Problem._buildEquationBlock"]}
{"id": "C70", "title": "A program asks what reading it statement by statement says", "statement": "Quantities may be made and set in the constructors of the models, in their declarations or between resolves. After resolve() the equation block consists of one equation for each equation the declarations of an added model write, under its name, whose residual and sides have the written values with unset quantities as unknowns and set ones as the number they were last given, of the connections made into added models, and of nothing else; the system handed to the solver is equivalent to these.", "quantifier": "all programs of model creation, statements, calls, connections between unset variables, additions and resolves that run without exceptions, use different model names and let declarations use quantities of their own model with different equation names; all real assignments", "why_tests_cant": "Universal over histories: what an attribute stands for depends on all earlier statements, on calls and on resolves of the whole problem.", "anchors": ["src/sloth/model.py:Model.__call__", "src/sloth/model.py:Model.createParameter", "src/sloth/core/quantity.py:Quantity.setValue", "src/sloth/problem.py:Problem.resolve", "src/sloth/problem.py:Problem._buildEquationBlock", "src/sloth/core/equation_block.py:EquationBlock._getEquationList"]}
{"id": "C71", "title": "Setting a parameter and resolving again asks the problem with the new value", "statement": "For a quantity made once, outside the declarations, sim[name] is the object the attribute holds, so sim[name].setValue(k) and model.attr.setValue(k) do the same; after resolve() the equations of that model are the written ones with k in place of the quantity, and the equations of the other models and the connections are what they were.", "quantifier": "all programs as in the previous property, all values and units", "why_tests_cant": "Universal over histories and values; a parameter study or an optimisation sets values thousands of times through dictionaries collected at different moments.", "anchors": ["src/sloth/simulation.py:Simulation.__getitem__", "src/sloth/core/quantity.py:Quantity.setValue", "src/sloth/problem.py:Problem.resolve", "src/sloth/problem.py:Problem.addModels", "src/sloth/optimization.py:OptimizationProblem"]}
{"id": "C72", "title": "A unit operation can be resolved with the streams on its ports", "statement": "After _setInlets and _setOutlets, unit_op.resolve() runs without an exception; then its model takes the least pressure and temperature and the sums of the flows of its inlets, and its outlet has the pressure, temperature, enthalpy, flows and fractions the model takes.", "quantifier": "all models, all numbers of inlet and outlet streams, all property packages", "why_tests_cant": "Universal over models, streams and packages; the equations are put together from the text of phase names and objects copied between models.", "anchors": ["src/sloth/unit_op.py:UnitOp.resolve", "src/sloth/unit_op.py:UnitOp._totalizeInlets", "src/sloth/unit_op.py:UnitOp._totalizeOutlets"]}
{"id": "C73", "title": "The value of a candidate does not depend on the candidates evaluated before", "statement": "In a parameter study or an optimisation an evaluation sets the parameters to the candidate, resolves the problem, configures and runs the simulation, reads the results and resets. The problem, the results and the value of a candidate are the same whatever candidates were evaluated before with the same simulation; the objective is a function of the candidate.", "quantifier": "all programs, all histories of candidates, all deterministic solvers and objective functions", "why_tests_cant": "Universal over histories; objects, dictionaries of equations, tables of the domain and configurations are reused and changed by every evaluation.", "anchors": ["src/sloth/optimization.py:OptimizationProblem.DeclareObjectiveFunction", "src/sloth/problem.py:Problem.resolve", "src/sloth/simulation.py:Simulation.reset", "src/sloth/simulation.py:Simulation.runSimulation", "src/sloth/model.py:Model.__call__", "src/sloth/core/domain.py:Domain._reset"]}
{"id": "C74", "title": "A connection given as expressions holds in the solution", "statement": "createConnection(m, model, out, inp) with expressions adds the equation inp = out to the problem: after resolve() it is one of the equations solved, and in every answer both expressions have the same value, with the quantities that were set as numbers and the unset ones as unknowns. This does not depend on what is declared, set, called, connected, added or resolved afterwards.", "quantifier": "all programs that run without exceptions and use different model names; all origins (a model, a string or \"\", for which a number is drawn); all expressions; all honest solvers", "why_tests_cant": "Universal over programs and expressions; connections of all kinds are stored under composed names in the dictionary that the declarations fill and every resolve refills.", "anchors": ["src/sloth/problem.py:Problem.createConnection", "src/sloth/model.py:Model.createEquation", "src/sloth/core/equation.py:Equation.setResidual", "src/sloth/problem.py:Problem.resolve", "src/sloth/problem.py:Problem._buildEquationBlock"]}
{"id": "C75", "title": "A model reports what was declared and what is left to choose", "statement": "The overview of a model lists its name, each variable declared as exposed input or output and each parameter once, as name_model, in the order written; objects_info lists each variable, parameter, constant, equation and connection once. The design degrees of freedom returned by _infoDegreesOfFreedom_ are the number of quantities without a value less the number of equations.", "quantifier": "all declarations, all numbers of calls or resolves, all programs", "why_tests_cant": "Universal over declarations and histories; lists of exposed variables grow with every call while the dictionaries do not.", "anchors": ["src/sloth/model.py:Model._getModelOverviewForGraph", "src/sloth/model.py:Model._infoInputOutputVariables", "src/sloth/model.py:Model._gatherObjectsInfo_", "src/sloth/model.py:Model._infoDegreesOfFreedom_", "src/sloth/model.py:Model.createVariable"]}
{"id": "C76", "title": "A problem asks what the whole program says", "statement": "After resolve() an assignment of values solves the problem exactly when every equation of the program holds: the equations declared in the models added, the connections of variables (also with a given expression), the connections by expressions and the equations stated later on a model, where a later equation of the same name, or a later connection of the same variables or origin, replaces the earlier one. Each equation is there once as said and there is no other; the functions given to integrators compute these equations too.", "quantifier": "all programs that run without exceptions, use different model names and incorporate nothing; all assignments; all honest solvers", "why_tests_cant": "Universal over programs: equations of all sources share one dictionary per model with composed names, and resolve() runs the declarations again.", "anchors": ["src/sloth/problem.py:Problem.createConnection", "src/sloth/problem.py:Problem.resolve", "src/sloth/problem.py:Problem._buildEquationBlock", "src/sloth/model.py:Model.createEquation", "src/sloth/model.py:Model._createConnection", "src/sloth/model.py:Model.__call__", "src/sloth/core/equation_block.py:EquationBlock._getEquationList"]}
{"id": "C77", "title": "A linear problem is a matrix equation", "statement": "When resolve() finds a problem linear, its system of equations is A x = b over its unknowns in their order: there are a matrix A and a right side b, only one of each, with which every equation is its row times x less its right side, so that the solutions of the problem are exactly those of A x = b. If A is square and there is exactly one solution, LASolver with scipy returns it with each value under the name of its unknown.", "quantifier": "all programs whose problem is found linear, all assignments", "why_tests_cant": "Universal over programs and expressions; the class of an equation is composed of those of its parts and kept through copying and renaming, while the matrix is read off the final expressions.", "anchors": ["src/sloth/solvers.py:LASolver._getABfromEquations", "src/sloth/solvers.py:LASolver.solve", "src/sloth/core/equation.py:Equation._getTypeFromExpression", "src/sloth/core/expression_evaluation.py:EquationNode.__mul__", "src/sloth/problem.py:Problem.resolve", "src/sloth/core/equation_block.py:EquationBlock._getEquationList"]}
{"id": "C78", "title": "A problem contains only what was written", "statement": "Every equation of a resolved problem was written somewhere in the program: by an equation statement, in the declarations of a model, or by a connection. It was written in a model added to the problem or came there by incorporateFromExternalModel, possibly in several steps, and means what was written: its residual, and for an equality its two sides, have the written value for all values of the unknowns, with the names changed by those incorporations only, each object of the donor to its name in the host. Conversely an equation of an incorporated model is in the problem of the model that incorporates it.", "quantifier": "all programs, including those that catch exceptions; all incorporation flags; all values of the unknowns", "why_tests_cant": "Universal over programs and values; expressions are copied, renamed symbol after symbol and stored under composed names.", "anchors": ["src/sloth/model.py:Model.incorporateFromExternalModel", "src/sloth/model.py:Model._addEquationDirectly", "src/sloth/core/equation.py:Equation._convertEquationSymbolicExpression", "src/sloth/core/equation.py:Equation.setResidual", "src/sloth/problem.py:Problem._buildEquationBlock", "src/sloth/problem.py:Problem.resolve", "src/sloth/problem.py:Problem.createConnection"]}
{"id": "C79", "title": "A recorded trajectory solves the written initial value problem", "statement": "What a dynamic simulation records in the domain solves, up to the error of the integrator, the initial value problem the program states: there are functions, one for each variable whose derivative is written, that start at the initial time with the initial values given last, and at every moment up to the last time point all equations of the program are true of them and their derivatives; the column of each variable holds its values at the time points, which run evenly from the initial time to the end time.", "quantifier": "all programs stating explicit differential equations, all solvers for differential equations, all options of the simulation", "why_tests_cant": "Universal over programs and moments: the equations hold between the time points, the state vector is ordered by equations, the table by distribution, and names, times and initial values come from different objects.", "anchors": ["src/sloth/solvers.py:DSolver.solve", "src/sloth/solvers.py:DSolver._getDiffYinOrder", "src/sloth/solvers.py:DSolver.setUpDiffY", "src/sloth/problem.py:Problem.setInitialConditions", "src/sloth/problem.py:Problem.setTimeVariableName", "src/sloth/core/domain.py:Domain._register", "src/sloth/core/domain.py:Domain._renameHeaders", "src/sloth/core/equation_block.py:EquationBlock._getEquationBlockAsFunction"]}
{"id": "C80", "title": "A recorded trajectory of a differential-algebraic problem satisfies what was written", "statement": "What a simulation of differential and algebraic equations records in the domain are, up to the error of the integrator, values of functions, one for each unknown, of which all equations of the program are true at every moment from the initial time to the end time, with the derivatives of those functions in place of the written derivatives; unknowns whose derivative is written start with the initial values given last, and the initial values of the others are guesses the equations may change. The time points are those asked for.", "quantifier": "all programs stating differential and algebraic equations, all integrators for such systems, all options of the simulation", "why_tests_cant": "Universal over programs and moments; equations, unknowns, derivatives and the marks of differential components are four lists kept in separately built orders.", "anchors": ["src/sloth/solvers.py:DaeSolver.solve", "src/sloth/solvers.py:DaeSolver.__init__", "src/sloth/core/equation_block.py:EquationBlock._getMapForRewriteSystemAsResidual", "src/sloth/core/equation_block.py:EquationBlock._getBooleanDiffFlagsForEquations", "src/sloth/core/equation_block.py:EquationBlock._getEquationBlockAsFunction", "src/sloth/core/domain.py:Domain._register", "src/sloth/problem.py:Problem.setInitialConditions"]}
{"id": "C81", "title": "A stream calculates its property package at its own conditions", "statement": "When a material stream with a property package is declared after its temperature or pressure was set, every phase of the package is calculated at that temperature and pressure, at 298.15 K or 101325 Pa in place of one that was not set; if neither was set, or the declaration raises, no package changes. Packages that have no chemical object in common with it are not affected, every chemical is found under its own name, and later the package of a stream is still at the conditions of the stream.", "quantifier": "all programs making, adding and calculating packages, all settings of all kinds of streams, all molecular weights", "why_tests_cant": "Universal over programs: chemicals are mutable objects shared by packages, and packages by streams.", "anchors": ["src/sloth/unit_op.py:MaterialStream.DeclareParameters", "src/sloth/core/property_package.py:PropertyPackage.calculate", "src/sloth/core/property_package.py:PropertyPackage.__add__", "src/sloth/core/property_package.py:PropertyPackage.__getitem__"]}
{"id": "C82", "title": "A model assembled from models says what its parts say", "statement": "A problem whose models incorporate other models is solved exactly by the values with which every equation of the program holds: those declared, those given by connections and statements, and those taken over by incorporateFromExternalModel, which speak of the host's quantities in place of the donor's, with the values the donor's parameters had; a later equation of the same name takes the place of an earlier one. The same is true at every moment of trajectories recorded for such problems.", "quantifier": "all programs of declarations, statements, connections and incorporations in any number of steps; all values of the unknowns; all simulations", "why_tests_cant": "Universal over programs and values: incorporation copies objects and renames symbols one after the other, and resolve() runs declarations again over what was incorporated.", "anchors": ["src/sloth/model.py:Model.incorporateFromExternalModel", "src/sloth/model.py:Model._addEquationDirectly", "src/sloth/model.py:Model.__call__", "src/sloth/core/equation.py:Equation._convertEquationSymbolicExpression", "src/sloth/problem.py:Problem.resolve", "src/sloth/solvers.py:DSolver.solve", "src/sloth/solvers.py:DaeSolver.solve"]}
{"id": "C83", "title": "A simulation answers its program, from its options to its results", "statement": "When a simulation with a resolved problem is configured and run with the default check and ends without exception, getResults gives, for an algebraic problem, values of which everything written in the program is true (and there are as many equations as unknowns); for a differential or differential-algebraic problem, tables in the configured domain (and in no other) of functions of which everything written is true, starting with the initial values, over number_of_time_steps equal steps from initial_time to end_time or at the times given, under the configured names. Without options an algebraic problem is given to the root finder, all unknowns starting at 1.", "quantifier": "all programs, all configurations, all domains, all numeric libraries whose answers are solutions", "why_tests_cant": "Universal over programs and option values: options pass through dictionaries and default lists shared by simulations before they reach one of four solver classes.", "anchors": ["src/sloth/simulation.py:Simulation.setConfigurations", "src/sloth/simulation.py:Simulation.runSimulation", "src/sloth/simulation.py:Simulation.getResults", "src/sloth/solvers.py:_createSolver", "src/sloth/solvers.py:LASolver.solve", "src/sloth/solvers.py:NLASolver.solve", "src/sloth/solvers.py:DSolver.solve", "src/sloth/solvers.py:DaeSolver.solve", "src/sloth/analysis.py:DOF_Analysis"]}
{"id": "C84", "title": "Simulations of the same equations agree", "statement": "Two simulations of the same differential equations from the same initial values record, at every time point they share, values that differ at most by the errors of the integrators: it does not matter whether ODEINT or CVODE is used, which other time points are asked for, how the columns are named, whether the problem was compiled, or whether the equations were written in one model or incorporated from several. This needs rates that change near every state at most in proportion to it, which all expressions have but those with square roots, fractional or variable powers.", "quantifier": "all programs and pairs of programs with explicit rates, all simulation options, all integrators exact up to an error, all time points", "why_tests_cant": "Universal over programs, options and real-valued functions: it is a statement about all solutions of the equations, of which a test sees one table.", "anchors": ["src/sloth/solvers.py:DSolver.solve", "src/sloth/solvers.py:DSolver._evaluateDiffYfromEquations", "src/sloth/solvers.py:DSolver.__init__", "src/sloth/problem.py:Problem.setInitialConditions", "src/sloth/core/domain.py:Domain._register", "src/sloth/model.py:Model.incorporateFromExternalModel"]}
{"id": "C85", "title": "An equation reports its value and the values of its sides", "statement": "eval with a map of numbers gives the left side less the right side at these numbers, or the side asked for, with specified quantities at their values; if the map lacks quantities, an expression in exactly these. An equation written as a residual has no sides (AbsentRequiredObjectError). The symbolic map of an equation or a side lists exactly the quantities written in it. getResidual() gives the left side less the right side at the present values of the quantities.", "quantifier": "all written equations, all objects, all maps, all sides", "why_tests_cant": "Universal over expressions and maps; values of quantities reach expressions when they are built or when they are evaluated, depending on whether they were specified.", "anchors": ["src/sloth/core/equation.py:Equation.eval", "src/sloth/core/equation.py:Equation.getResidual", "src/sloth/core/equation.py:Equation._getSymbolicMap", "src/sloth/core/quantity.py:Quantity.__call__"]}
{"id": "C86", "title": "A simulation is refused exactly when something it needs is missing", "statement": "With all documented options given, runSimulation reaches the solver exactly when the simulation is configured and has a resolved problem with equations; the problem type is not given or is one of the four known; for a nonlinear problem the solver name is known; for a differential or differential-algebraic problem the time variable (or, for a differential problem, every name of a list) has an initial condition and the argument names are a list (or a text or dictionary in which the time variable is); and, if asked for, the check of degrees of freedom passes. A refused simulation keeps its output, status and domain, and a missing initial condition of the time variable or an unknown solver is reported by AbsentRequiredObjectError; the exception depends only on what is missing. What the solver returns becomes the output. Options set by keywords or in a dictionary are complete.", "quantifier": "all simulations, all options, all problems, all outcomes of check and solver", "why_tests_cant": "Universal over option dictionaries and problems; the conditions are spread over the simulation, the choice of the solver and the constructors of four solver classes.", "anchors": ["src/sloth/simulation.py:Simulation.runSimulation", "src/sloth/solvers.py:_createSolver", "src/sloth/solvers.py:DSolver.__init__", "src/sloth/solvers.py:DaeSolver.__init__", "src/sloth/solvers.py:NLASolver.lookUpForSolver", "src/sloth/simulation.py:Simulation.setConfigurations"]}
{"id": "C87", "title": "An operation that raises leaves behind what was there", "statement": "When a statement of a model, a connection or an addition to a problem raises, all quantities, models and the problem are as they were before. A call of a model that raises has done exactly the statements before the one refused. An incorporation, whether it raises or not, only adds to the host: no quantity changes, no name is lost, and other models and the problem are untouched. A resolve raises only if the call of one of the models does, and then the problem keeps its previous equation block.", "quantifier": "all sessions, all operations, all exceptions", "why_tests_cant": "Universal over sessions and operations: every operation has several places where it can stop half way.", "anchors": ["src/sloth/model.py:Model.createVariable", "src/sloth/model.py:Model.createEquation", "src/sloth/model.py:Model.incorporateFromExternalModel", "src/sloth/model.py:Model.__call__", "src/sloth/core/quantity.py:Quantity.setValue", "src/sloth/problem.py:Problem.createConnection", "src/sloth/problem.py:Problem.resolve"]}
{"id": "C88", "title": "Answers within a tolerance satisfy what was written within it", "statement": "When the numeric routine that was called leaves residuals of at most eps, every equation written in the program holds up to eps for the reported values (for l == r the right side, C65), and the numbers the routine made small are those of the program and no others. If the equations determine the unknowns (numbers that differ by d come from unknowns that differ by at most K*d), the reported values differ by at most K*eps from any values for which everything written is true, and two solvers agree up to K*(eps1+eps2); a linear problem whose matrix has an inverse determines its unknowns with K the largest sum of sizes of a row of the inverse.", "quantifier": "all programs as in C76 and C82, all configurations, all tolerances, all numeric libraries, all assignments", "why_tests_cant": "Tests compare numbers of one program with a tolerance chosen by hand; they cannot say what the tolerance of the solver means for the equations written, for all programs.", "anchors": ["src/sloth/solvers.py", "src/sloth/problem.py", "src/sloth/core/equation.py", "src/sloth/simulation.py"]}
{"id": "C89", "title": "Small changes of a simulation's data change its results little", "statement": "If two programs set up ordinary differential problems in the same variables whose rates, where the solutions go, differ by at most delta plus L times the difference of the states, and whose initial values differ by at most eta, then wherever both tables have the same time the values differ by at most the errors of the two integrators plus sqrt(n)*exp(L*n*|t-t0|)*(eta+delta*|t-t0|). L and delta can be read off the written expressions and the values given to their quantities: a parameter set to another value, another initial value or another coefficient changes the results by no more than that, whatever the solver, its options, the time points and the headers.", "quantifier": "all programs as in C84, all pairs of values given to quantities, all integrators, all time points, forwards and backwards in time", "why_tests_cant": "A test compares finitely many pairs of runs; the bound is about all programs, all data and all moments, and rests on an argument about solutions of differential equations.", "anchors": ["src/sloth/solvers.py", "src/sloth/problem.py", "src/sloth/core/equation.py", "src/sloth/simulation.py"]}
{"id": "C90", "title": "An optimisation study simulates with the configuration it was given", "statement": "The simulations of a study are configured with the simulation_configuration given when the study was made, as a dictionary or a file, or else with the configuration of its simulation, whatever was done with the study before it is run; a study for which there is neither is refused.", "quantifier": "all studies, all configurations, all histories of a study, all mechanisms and evolutions", "why_tests_cant": "Universal over configurations and histories; the configuration reaches the problem only when the study is run.", "anchors": ["src/sloth/optimization.py:Optimization.__init__", "src/sloth/optimization.py:Optimization.runOptimization", "src/sloth/optimization.py:OptimizationProblem._setSimulationConfiguration"]}
{"id": "C91", "title": "The names of a unit operation's quantities say their unit and side", "statement": "Every quantity of a library unit operation or stream has the unit its name says (pressures P_, temperatures T_, flows ndot_ and mdot_, molar enthalpies H_, fractions z_ and w_, Q a heat rate, and so on), whatever the property package and the values given, before and after its equations are declared. Exposed are variables only, those whose names end in _in as inputs and all others as outputs, and every quantity named _in or _out is exposed.", "quantifier": "all classes of the library, all property packages, all phase names, all values given by the user", "why_tests_cant": "Universal over packages: quantities are made for every phase with names pasted together; a wrong unit shows only when the quantity meets another in an equation or a connection.", "anchors": ["src/sloth/unit_op_library.py:Mixer.__init__", "src/sloth/unit_op_library.py:Valve.__init__", "src/sloth/unit_op_library.py:SimplePump.__init__", "src/sloth/unit_op_library.py:Heater.__init__", "src/sloth/unit_op_library.py:Tank.__init__", "src/sloth/unit_op_library.py:Flash_Dynamic.__init__", "src/sloth/unit_op_library.py:Flash_SteadyState.__init__", "src/sloth/unit_op_library.py:MultiphasicMaterialStream.__init__"]}
{"id": "C92", "title": "A unit operation has fractions for exactly the phases of its package", "statement": "A unit operation or stream made with a property package has molar and mass fractions for each phase of the package at each of its places (inlet and outlet; inlet, liquid and vapour outlet of a steady flash; the stream itself), and fractions for nothing else; without several phases it has none.", "quantifier": "all programs about packages (also sums and shared lists), all classes of the library, all names", "why_tests_cant": "Universal over packages and their histories: names are pasted together, and whether a package has several phases is decided in two ways.", "anchors": ["src/sloth/unit_op_library.py:Mixer.__init__", "src/sloth/unit_op_library.py:Valve.__init__", "src/sloth/unit_op_library.py:SimplePump.__init__", "src/sloth/unit_op_library.py:Heater.__init__", "src/sloth/unit_op_library.py:Flash_SteadyState.__init__", "src/sloth/unit_op_library.py:MultiphasicMaterialStream.__init__", "src/sloth/core/property_package.py"]}
{"id": "C93", "title": "Refusals show what disagrees", "statement": "When an operation is refused because dimensions disagree, because an equation uses quantities the model does not have, or because a variable is not exposed, the text of the exception can be made and shows what is wrong: the two dimensions, which look different; the names used, one of which is missing in the names shown as declared; the names of the two variables and of the exposed ones.", "quantifier": "all units, expressions, quantities, values, models in any state, equations and connections", "why_tests_cant": "Universal over the operands: the text is made by another class than the one that refuses, from whatever it was handed, and only when somebody prints it.", "anchors": ["src/sloth/core/error_definitions.py", "src/sloth/core/unit.py:Unit.__add__", "src/sloth/core/expression_evaluation.py:EquationNode.__add__", "src/sloth/core/expression_evaluation.py:EquationNode.__pow__", "src/sloth/core/quantity.py:Quantity.setValue", "src/sloth/model.py:Model._checkEquation_", "src/sloth/problem.py:Problem.createConnection"]}
{"id": "C94", "title": "The degrees-of-freedom check says what is wrong with a problem", "statement": "The check of a resolved problem says nothing exactly when the unknowns and the parameters without a value are as many as the equations (one more if time occurs in a differential equation). Otherwise the text of its exception says whether the system is over- or under-specified and by how many, lists the unknowns and the parameters without value with their counts, and gives the count of the equations; the unknowns listed are those that occur in the equations.", "quantifier": "all programs that make, call, add, connect and resolve models; all values given and not given", "why_tests_cant": "Universal over programs: the numbers come from lists filled while equations are written, called and sampled; a text naming the wrong unknowns still looks plausible.", "anchors": ["src/sloth/analysis.py:DOF_Analysis._dofTest", "src/sloth/core/equation_block.py", "src/sloth/problem.py:Problem.resolve"]}
{"id": "C95", "title": "Variables keep to their bounds", "statement": "A variable made with a lower or an upper bound keeps to it: values outside are refused when they are given, and no result of a simulation is outside. The attributes is_lower_bounded and is_upper_bounded tell which bounds there are.", "quantifier": "all bounds, flags, values, programs and results", "why_tests_cant": "Universal over values and results; tests that declare bounds use values inside them.", "anchors": ["src/sloth/core/variable.py:Variable.__init__", "src/sloth/model.py:Model.createVariable", "src/sloth/core/quantity.py:Quantity.setValue"]}
{"id": "C96", "title": "An optimisation keeps the log of its run and draws its progress", "statement": "A run of an optimisation whose evolution succeeds ends successfully; with optimization_log its log is the log of this run, each column under the name of what it holds; with save_optimization_graph the best objective of this run is drawn over its evaluations. This holds for each mechanism offered.", "quantifier": "all studies and histories of a study, all mechanisms, evolutions and logs, all combinations of the arguments", "why_tests_cant": "Universal over mechanisms, logs and histories; the log is labelled by hand for each mechanism and only when the run is over, and a test of one mechanism with one setting of the arguments does not meet the others.", "anchors": ["src/sloth/optimization.py:Optimization.runOptimization", "src/sloth/optimization.py:Optimization._setOptimizer", "src/sloth/optimization.py:Optimization.getOptimizationLog"]}
{"id": "C97", "title": "Small changes of an algebraic problem's data change its answer little", "statement": "If the equations of one program determine its unknowns with condition K where the answers are, and those of another program, written as residuals, differ from them there by at most delta, then whatever solvers and options are used the answers differ in each unknown by at most K*(eps+eps'+delta), eps and eps' being what the solvers leave of the residuals. delta can be read off the written expressions and the values given to their quantities, so a parameter set to another value changes the answer by no more than that; K can be read off an inverse of the matrix of a linear problem, or off equations solved for their unknowns whose right sides change little.", "quantifier": "all pairs of programs as in C88, all values given to quantities, all solvers, options and first guesses", "why_tests_cant": "A test compares finitely many pairs of runs; the bound is about all programs, all data and all solvers.", "anchors": ["src/sloth/solvers.py", "src/sloth/problem.py", "src/sloth/core/equation.py", "src/sloth/simulation.py"]}
{"id": "C98", "title": "Results of a simulation conserve what the equations conserve", "statement": "If the equations of a program conserve an amount made of its variables and the time (a total mass, an energy), or make it change at a rate between two bounds, then in the table a simulation writes to its domain each row is, up to the error of the integrator, a state in which that amount is what it was in the initial values the user gave, plus a rate between these bounds times the time since the start. Of weighed sums the recorded numbers themselves say so, up to the error times the sum of the weights. An amount that changes in proportion to itself stays between what it was grown at the two rates; so does whatever is confined by it.", "quantifier": "all differential and differential-algebraic programs, all amounts that are sums and products of variables with rates and the time, all bounds, all mechanisms, options and headers", "why_tests_cant": "Universal over amounts, programs and moments: a test checks finitely many rows for an amount somebody thought of; an equation written with a sign or a term changed on its way to the solver gives results that look as smooth.", "anchors": ["src/sloth/solvers.py", "src/sloth/problem.py", "src/sloth/core/equation.py", "src/sloth/simulation.py", "src/sloth/core/domain.py"]}
{"id": "C99", "title": "What maps equations into equations maps results into results", "statement": "If scaling and shifting the variables and the time (other units, another zero, another start, another direction of time) turns each state in which the equations of one program are true into one in which those of another are true, and the initial values of the first into those of the second, then it turns the results of simulating the first into those of simulating the second: wherever the second table has a row for the image of a time of the first, its values are the images of the first's, up to the errors of the two integrators; and the results of algebraic problems are mapped up to the tolerances of the two solvers times the condition of the second. What starts where nothing changes stays there.", "quantifier": "all pairs of algebraic, differential or differential-algebraic programs with the same variables, all such maps, all mechanisms, options, time grids and headers", "why_tests_cant": "A metamorphic relation over all programs and maps: a test compares one pair of runs in one pair of units; the whole way from the written equations to the table has to respect the map.", "anchors": ["src/sloth/solvers.py", "src/sloth/problem.py", "src/sloth/core/equation.py", "src/sloth/simulation.py", "src/sloth/core/domain.py"]}
{"id": "C100", "title": "A simulation can be continued from where it stopped", "statement": "If a second simulation of the same equations is given as initial values the values in a row of the table of a first, and starts at the time of that row (or, for equations that do not depend on the time, at any other), then its table continues the first: wherever both have a row for one time they say the same, up to the errors of the two integrators and what becomes of the error in the row that was started from.", "quantifier": "all pairs of differential or differential-algebraic programs with the same equations, all rows, mechanisms, options, time grids and headers", "why_tests_cant": "Relates two runs of any length at every row for every program; a test continues one run once, and cannot tell a growing error from a wrong start.", "anchors": ["src/sloth/solvers.py", "src/sloth/problem.py", "src/sloth/simulation.py", "src/sloth/core/domain.py"]}
