{
 "claims": [
  {
   "property": "C01",
   "status": "proved",
   "theorems": [
    "C01_operators",
    "C01_unit_mul_exponents",
    "C01_unit_pow_exponents",
    "C01_unit_pow_unit_decided"
   ],
   "note": "For every Unit built by the constructor or the operators, any dimension names, any int/float exponents."
  },
  {
   "property": "C02",
   "status": "partial",
   "theorems": [
    "C02_unit_div_drops_missing_names",
    "C02_unit_div_exponents_partial",
    "C02_unit_div_refuted"
   ],
   "note": "Full statement refuted: a dimension name of the numerator that the denominator lacks is dropped. Proved whenever the denominator has the name (all SI units); the dropping is proved too."
  },
  {
   "property": "C03",
   "status": "proved",
   "theorems": [
    "C03_div_self",
    "C03_fractional_powers_refuted",
    "C03_mul_assoc",
    "C03_mul_comm",
    "C03_mul_div",
    "C03_names",
    "C03_names_apart",
    "C03_pow_add",
    "C03_pow_mul",
    "C03_templates"
   ],
   "note": "Whole-number exponents: Python ints of any size (WInt) or ints and doubles mixed up to 2^53 (WSmall). The refuted theorem shows the restriction is needed: fractional doubles break the laws. The ready-made units and those of the unit operations have the powers of the SI (C03_templates). Their names, taken apart as the documentation writes them (powers of symbols separated by products and quotients), say the same powers (C03_names)."
  },
  {
   "property": "C04",
   "status": "partial",
   "theorems": [
    "C04_coherence_symmetric_refuted",
    "C04_equivalence_partial",
    "C04_sum_decided_partial"
   ],
   "note": "Refuted for units with different dimension names; proved for finite exponents over the same names (all SI units)."
  },
  {
   "property": "C05",
   "status": "partial",
   "theorems": [
    "C05_setValue_coherent_partial",
    "C05_setValue_frame",
    "C05_setValue_int_decided",
    "C05_setValue_quantity_decided",
    "C05_setValue_refuted"
   ],
   "note": "Refuted for float values, which are accepted with any unit. Proved for int, Quantity and Unit-tagged values; decision and frame (nothing else changes, nothing changes on failure) proved for all."
  },
  {
   "property": "C06",
   "status": "partial",
   "theorems": [
    "C06_arithmetic_never_returns",
    "C06_arithmetic_refuted",
    "C06_incoherent_rejected_partial"
   ],
   "note": "Refuted: every arithmetic operation on two quantities raises (constructor call with wrong arguments). Proved: incoherent + and - raise the dimension error."
  },
  {
   "property": "C07",
   "status": "partial",
   "theorems": [
    "C07_added_number_refuted",
    "C07_builds_iff_homogeneous_partial",
    "C07_dimension_partial",
    "C07_expression_exponent_refuted",
    "C07_rejection_partial"
   ],
   "note": "iff proved for the plain fragment (whole powers, expression exponents on dimensionless bases, no Min/Max, no functions of bare numbers), reading bare numbers as taking the dimension of the other operand. Two refutations outside."
  },
  {
   "property": "C08",
   "status": "partial",
   "theorems": [
    "C08_covariance_partial",
    "C08_expression_exponent_refuted"
   ],
   "note": "Proved for plain expressions adding no nonzero bare numbers; refuted for expression exponents."
  },
  {
   "property": "C09",
   "status": "proved",
   "theorems": [
    "C09_amount",
    "C09_meaning",
    "C09_one_amount"
   ],
   "note": "All operators, reflected operators, functions, derivatives, Min and Max; all values and unknowns. C09_amount states it with a relation that names none of the functions used to evaluate (logarithms by exponentials, roots by squares, quotients by products, powers case by case, Min and Max as members that bound the others)."
  },
  {
   "property": "C10",
   "status": "partial",
   "theorems": [
    "C10_display_agrees",
    "C10_display_symbols_partial",
    "C10_display_symbols_refuted"
   ],
   "note": "Equal values proved for all expressions. Symbol display proved without Min/Max, refuted with them."
  },
  {
   "property": "C11",
   "status": "partial",
   "theorems": [
    "C11_independent_variable_refuted",
    "C11_maps_only",
    "C11_maps_partial"
   ],
   "note": "Proved for quantities occurring as operands; refuted for the independent variable of a derivative."
  },
  {
   "property": "C12",
   "status": "partial",
   "theorems": [
    "C12_linear_equation_partial",
    "C12_linear_is_affine_partial",
    "C12_minmax_refuted",
    "C12_quotient_refuted"
   ],
   "note": "Proved where no known is divided by an unknown and no Min/Max is applied to an unknown; both exceptions refuted by witness."
  },
  {
   "property": "C13",
   "status": "partial",
   "theorems": [
    "C13_differential_contains_derivative_partial",
    "C13_differential_equation_partial",
    "C13_differential_partial",
    "C13_product_refuted",
    "C13_specified_refuted"
   ],
   "note": "Proved where derivatives are not multiplied or divided by unknowns, wrapped in functions, or taken of specified variables; refuted otherwise."
  },
  {
   "property": "C14",
   "status": "proved",
   "theorems": [
    "C14_equation_class",
    "C14_one_class"
   ],
   "note": "All expressions."
  },
  {
   "property": "C15",
   "status": "proved",
   "theorems": [
    "C15_expressions_keep",
    "C15_new_meaning",
    "C15_old_meaning"
   ],
   "note": "Any sequence of building and setting."
  },
  {
   "property": "C16",
   "status": "partial",
   "theorems": [
    "C16_coherent_expressions_refuted",
    "C16_expressions_always_refused",
    "C16_incoherent_accepted_refuted",
    "C16_mixed_partial",
    "C16_numbers"
   ],
   "note": "Number-only calls proved. Refuted: expression-only calls always raise, incoherent mixes are accepted and classified linear."
  },
  {
   "property": "C17",
   "status": "partial",
   "theorems": [
    "C17_bad_pair_refuted",
    "C17_converted",
    "C17_elementary",
    "C17_number",
    "C17_other_partial",
    "C17_residual",
    "C17_side_index"
   ],
   "note": "All expressions, numbers and assignments. Refuted corner: a hand-written pair whose right side is neither expression nor number is accepted."
  },
  {
   "property": "C18",
   "status": "partial",
   "theorems": [
    "C18_decided",
    "C18_numbered",
    "C18_same_thread_partial",
    "C18_threads_refuted"
   ],
   "note": "Any interleaving of any threads: names drawn by one thread differ. Refuted across threads (each thread counts from 1). Which number each gets, and so when two have one name, in whichever threads: C18_numbered, C18_decided."
  },
  {
   "property": "C19",
   "status": "partial",
   "theorems": [
    "C19_flash_liquid_refuted",
    "C19_flash_refuted",
    "C19_local_name_back",
    "C19_one_model",
    "C19_two_models_partial",
    "C19_two_models_refuted"
   ],
   "note": "Stripping and injectivity within a model for all strings; across models for model names without underscore; refuted with one. Refuted also by the steady flash of the library, which makes two variables of one name (C19_flash_refuted). The liquid flow of a steady flash is known only under a misspelt name (C19_flash_liquid_refuted)."
  },
  {
   "property": "C20",
   "status": "partial",
   "theorems": [
    "C20_checked",
    "C20_derivative_refuted",
    "C20_invariant"
   ],
   "note": "createEquation decided for every well-formed equation; invariant over all sessions with check_equation=True. Refuted if the variable a derivative is taken with respect to counts as mentioned."
  },
  {
   "property": "C21",
   "status": "partial",
   "theorems": [
    "C21_clash_refuted",
    "C21_exposed_refuted",
    "C21_incorporation_partial",
    "C21_no_clash",
    "C21_number_refuted",
    "C21_scripts_partial"
   ],
   "note": "Proved for every donor with proper names, no exposed variables, sympy forms and no name clash, hence for all scripted models without underscore in the names; equations keep type, form, value under the renamed assignment and refer to the host's objects. Refuted: exposed variables, numeric right sides, clashing suffixes."
  },
  {
   "property": "C22",
   "status": "partial",
   "theorems": [
    "C22_chains_partial",
    "C22_kept_equations",
    "C22_kept_names_refuted",
    "C22_kept_quantities",
    "C22_kept_refused"
   ],
   "note": "Renaming chains of any length proved. Refuted with rewrite_name=False, for which C22_kept_* state what it does instead: copies keep the donor's names, equations keep theirs but speak of the host's names, and incorporation is refused where the host has no such object."
  },
  {
   "property": "C23",
   "status": "partial",
   "theorems": [
    "C23_calls_partial",
    "C23_exposed_refuted",
    "C23_resolve_partial",
    "C23_unnamed_refuted"
   ],
   "note": "Any number of calls of any script whose equations are named: same names in the same order, equal objects, equal equations. Resolving a problem any number of times again gives an equal equation block. Refuted: unnamed equations are duplicated, exposed lists grow."
  },
  {
   "property": "C24",
   "status": "partial",
   "theorems": [
    "C24_block_partial",
    "C24_groups",
    "C24_resolves",
    "C24_same_name_refuted"
   ],
   "note": "For models with different names the block is exactly the equations of the added models in order; grouping exact in every case; models whose declarations run always resolve. Refuted: of two models with one name only the later one is kept."
  },
  {
   "property": "C25",
   "status": "partial",
   "theorems": [
    "C25_added_early_refuted",
    "C25_unknowns_partial",
    "C25_usual_partial"
   ],
   "note": "Exact characterisation for all sessions (a variable must be declared when its model is added); exact equality with the used variables when models are called before being added. Refuted: a model added before it is called has no unknowns."
  },
  {
   "property": "C26",
   "status": "proved",
   "theorems": [
    "C26_problem_type",
    "C26_solver"
   ],
   "note": "All sessions, all configured types."
  },
  {
   "property": "C27",
   "status": "partial",
   "theorems": [
    "C27_bare_time_refuted",
    "C27_counts_partial",
    "C27_dof_partial",
    "C27_members",
    "C27_no_time_refuted",
    "C27_part_of_name_refuted",
    "C27_settled_partial",
    "C27_taken_partial"
   ],
   "note": "For differential equations with derivatives on the left only and a time name that is not part of another name. Refuted: name substring, bare time symbol on the right, no time name (TypeError). For programs of ordinary models the two sides are counted out: the symbols occurring in the equations, and the equations the added models have (C27_counts_partial). C27_settled_partial: the same with connections by expressions and equations written after the declarations. C27_taken_partial: also for models that take in others."
  },
  {
   "property": "C28",
   "status": "partial",
   "theorems": [
    "C28_accepted",
    "C28_bad_exposure",
    "C28_exposed_all",
    "C28_exposed_only",
    "C28_list_refuted",
    "C28_refused_partial",
    "C28_succeeds",
    "C28_variable_created",
    "C28_variables"
   ],
   "note": "Accepted calls, refusals (state unchanged) and success for exposed variables of one dimension, for all sessions; the exposed variables of a model are exactly those declared so (sessions without incorporation). Refuted: with lists the error is AttributeError instead of ExposedVariableError."
  },
  {
   "property": "C29",
   "status": "partial",
   "theorems": [
    "C29_connections_partial",
    "C29_key",
    "C29_nodes_refuted"
   ],
   "note": "Connection mode for all sequences of successful calls. Refuted: expression mode replaces the earlier equation of the same model pair."
  },
  {
   "property": "C30",
   "status": "proved",
   "theorems": [
    "C30_linear_symbolicsys",
    "C30_missing_guess",
    "C30_reported",
    "C30_scipy",
    "C30_symbolicsys"
   ],
   "note": "For arbitrary numeric engines (parameters of the model) returning a vector as long as the unknowns. sympy results are passed on as returned and not constrained."
  },
  {
   "property": "C31",
   "status": "partial",
   "theorems": [
    "C31_bare_time_refuted",
    "C31_conditions",
    "C31_initial",
    "C31_part_of_name_refuted",
    "C31_rhs_partial",
    "C31_time",
    "C31_written"
   ],
   "note": "For systems x.Diff(t) == rhs over the differentiated variables and time, compiled and not; initial state exact. Refuted: time name part of another name (TypeError when compiled), right-hand side that is just the time variable. The initial values and the time variable a simulation is handed are those the last statements of the session gave, whatever else the session does in between (C31_conditions, C31_time)."
  },
  {
   "property": "C32",
   "status": "partial",
   "theorems": [
    "C32_columns_exact",
    "C32_columns_partial",
    "C32_columns_refuted"
   ],
   "note": "When the variables were distributed in the order of the equations; exact description of which column gets which component in every case. Refuted for another order of distributeOnDomain."
  },
  {
   "property": "C33",
   "status": "partial",
   "theorems": [
    "C33_append_partial",
    "C33_append_refuted",
    "C33_reset"
   ],
   "note": "Reset proved for all histories. Append refuted: exact description of a second registration (refused, or column names lost)."
  },
  {
   "property": "C34",
   "status": "partial",
   "theorems": [
    "C34_by_equation",
    "C34_paired_partial",
    "C34_paired_refuted"
   ],
   "note": "When the differentiated variables come first among the unknowns in the order of the equations; exact numbering in every case. Refuted when an algebraic unknown is declared first."
  },
  {
   "property": "C35",
   "status": "partial",
   "theorems": [
    "C35_complete_partial",
    "C35_complete_refuted",
    "C35_dictionary_partial",
    "C35_dictionary_refuted",
    "C35_file",
    "C35_keywords",
    "C35_number"
   ],
   "note": "setConfigurations branch by branch over its 24 options. The dictionary wins for every option but number_parameters_to_optimize (C35_dictionary_refuted: the keyword wins there), and a file replaces the configuration whole, so options it lacks disappear (C35_complete_refuted)."
  },
  {
   "property": "C36",
   "status": "partial",
   "theorems": [
    "C36_effect",
    "C36_history_partial",
    "C36_own",
    "C36_refuted",
    "C36_step_partial"
   ],
   "note": "Mutable default lists of setConfigurations are modelled as store cells shared by all simulations. A run appends its time variable to that shared list (C36_refuted); C36_effect bounds everything a run can do to the store and the partial theorems give independence whenever the lists are not shared. C36_own: the other options of a simulation that was configured by keywords are the same after its own run."
  },
  {
   "property": "C37",
   "status": "partial",
   "theorems": [
    "C37_after_run",
    "C37_algebraic_partial",
    "C37_dynamic",
    "C37_failed_keeps",
    "C37_failed_refuted",
    "C37_never_run_refuted",
    "C37_only_zero",
    "C37_solved_partial"
   ],
   "note": "getStatus over histories of any number of simulations. It returns 0 or raises. For algebraic problems 0 exactly when a solution is stored, and that comes from a run; dynamic simulations never run and failed re-runs also report 0 (refuted)."
  },
  {
   "property": "C38",
   "status": "partial",
   "theorems": [
    "C38_comparison",
    "C38_declared_refuted",
    "C38_flag",
    "C38_minimisation_partial",
    "C38_new",
    "C38_refuted",
    "C38_sense_ignored"
   ],
   "note": "The comparison follows the attribute (exact over ints and doubles). Refuted: the constructor drops is_maximization, and neither flag has any effect on a run (C38_sense_ignored), so a maximisation returns the minimum. C38_new: a new study has no results and no success. C38_flag: the flag assigned to a problem decides what is better."
  },
  {
   "property": "C39",
   "status": "partial",
   "theorems": [
    "C39_default",
    "C39_missing",
    "C39_override",
    "C39_unknown_partial",
    "C39_unknown_refuted",
    "C39_used_partial",
    "C39_used_refuted"
   ],
   "note": "All option dictionaries; the keywords of each algorithm get the option values. Refuted: unknown names are accepted (but never give results) and the neighbourhood options of the particle swarm are dropped. A file of options lacking one the mechanism needs is refused with KeyError (C39_missing)."
  },
  {
   "property": "C40",
   "status": "partial",
   "theorems": [
    "C40_default_models",
    "C40_frame_partial",
    "C40_history_partial",
    "C40_kinds",
    "C40_refuted",
    "C40_sharing"
   ],
   "note": "All programs of creations and port settings. Proved for objects with ports dictionaries of their own. Refuted for objects made without giving ports: the default dictionary of the class is shared (C40_default_models says what they show). C40_sharing says exactly which objects share ports."
  },
  {
   "property": "C41",
   "status": "partial",
   "theorems": [
    "C41_affected",
    "C41_any_program_partial",
    "C41_chemicals_refuted",
    "C41_default",
    "C41_elsewhere_refuted",
    "C41_number",
    "C41_number_refuted",
    "C41_shared",
    "C41_union_partial"
   ],
   "note": "Union, frame and second operand proved for all programs whose packages have their own list of names; any program for packages whose names and chemicals agree. Refuted: number of phases stays that of the first package, packages made with the default list change too, chemicals stay shared. C41_default: the first package made without names has water as its one phase."
  },
  {
   "property": "C42",
   "status": "partial",
   "theorems": [
    "C42_exact_refuted",
    "C42_mass_partial",
    "C42_molar_partial",
    "C42_no_package_refuted",
    "C42_package",
    "C42_phase",
    "C42_untouched"
   ],
   "note": "All three streams, any settings, package given: the missing flow is specified and the equation holds up to a relative error of 2^-49 for values within 2^+-300 (doubles or ints). Exact equality between doubles and streams without a package are refuted. C42_package, C42_phase: which chemicals and phase the wildcard and a phase name give."
  },
  {
   "property": "C43",
   "status": "partial",
   "theorems": [
    "C43_flash_partial",
    "C43_heater_partial",
    "C43_mixer",
    "C43_mixer_phases",
    "C43_mixer_refuted",
    "C43_pump",
    "C43_valve_partial"
   ],
   "note": "For pumps (any package, any number of phases), mixers (one phase, or several), and valves and heaters of one phase: constructing the unit, setting any values and declaring the equations succeeds, and an environment solves the stored equations exactly if the values of the attributes have the intended meaning. Valves and heaters of several phases cannot be used (C52). A mixer for a package with more names than phases (as p1+p2 gives) leaves the last phase free. Of a steady flash only the molar balance is ever written (C43_flash_partial)."
  },
  {
   "property": "C44",
   "status": "partial",
   "theorems": [
    "C44_recall",
    "C44_setting_refuted"
   ],
   "note": "Refuted: a call restores the declared values. Characterised: after a call the objects equal those of a first call whatever the state before."
  },
  {
   "property": "C45",
   "status": "partial",
   "theorems": [
    "C45_system_exact_partial",
    "C45_system_partial",
    "C45_system_refuted"
   ],
   "note": "For equations given as residuals; exact description otherwise (only the right-hand side is handed over). Refuted for lhs == rhs."
  },
  {
   "property": "C46",
   "status": "partial",
   "theorems": [
    "C46_integrated_partial",
    "C46_integrated_refuted"
   ],
   "note": "For equations x.Diff(t) == rhs. Refuted: x() + x.Diff(t) == 0. is accepted and integrated as dx/dt == 0."
  },
  {
   "property": "C47",
   "status": "partial",
   "theorems": [
    "C47_initial_partial",
    "C47_initial_refuted"
   ],
   "note": "States exact; derivatives are always one more than the differential equations, so lengths agree only with one algebraic unknown. Refuted for two."
  },
  {
   "property": "C48",
   "status": "partial",
   "theorems": [
    "C48_restored_partial",
    "C48_restored_refuted"
   ],
   "note": "json of plain data is modelled as the identity (numbers, strings, booleans, lists, None); configurations with a Domain object cannot be saved (C48_restored_refuted)."
  },
  {
   "property": "C49",
   "status": "partial",
   "theorems": [
    "C49_called",
    "C49_dictionary_never",
    "C49_dictionary_refuted",
    "C49_intervals",
    "C49_missing",
    "C49_no_list",
    "C49_pairs_only",
    "C49_uncalled"
   ],
   "note": "pygmo is a parameter: any evolution that keeps to its box. Proved for limits given as vectors. Refuted: constraints given per name, the documented form, can never be run (C49_dictionary_never). C49_called, C49_uncalled: two numbers bound a problem of one dimension once it is called; a study of a problem that was not called is refused."
  },
  {
   "property": "C50",
   "status": "proved",
   "theorems": [
    "C50_latest",
    "C50_raises"
   ],
   "note": "All histories; pygmo's evolution and everything after it (log, graph) are arbitrary parameters that may fail."
  },
  {
   "property": "C51",
   "status": "partial",
   "theorems": [
    "C51_count",
    "C51_default_refuted",
    "C51_model_partial",
    "C51_model_refuted",
    "C51_unit_partial",
    "C51_unit_refuted"
   ],
   "note": "All programs. The set of inlets is right for models, the number of times is not (refuted); unit operations keep the last call only (refuted); default ports bring streams of other models (refuted)."
  },
  {
   "property": "C52",
   "status": "partial",
   "theorems": [
    "C52_density",
    "C52_equations_no_package_refuted",
    "C52_flash_dynamic_refuted",
    "C52_flash_phases_refuted",
    "C52_flash_refuted",
    "C52_flash_single_refuted",
    "C52_heater_phases_refuted",
    "C52_no_package_refuted",
    "C52_tank_flash_refuted",
    "C52_tank_made",
    "C52_tank_refuted",
    "C52_valve_phases_refuted",
    "C52_works_partial"
   ],
   "note": "Works for pumps with any package, mixers, and valves and heaters of one phase, whatever values are set in between. Refuted for no package, several phases in valves and heaters, tanks and flash drums, for every state they are used in. A steady flash of several phases is made but reads an attribute it never set (C52_flash_phases_refuted); a dynamic flash of several phases cannot be made. Tanks can be made; moles, mass, energy and level are what changes over their time (C52_tank_made)."
  },
  {
   "property": "C53",
   "status": "partial",
   "theorems": [
    "C53_inputs_partial",
    "C53_kept_partial",
    "C53_none",
    "C53_refuted"
   ],
   "note": "Refuted for every model and every non-empty list of inlets: forming the minimum of expressions raises (C16). Without inlets a call is that of any model (C53_none); with inlets what is kept of them when it raises is stated exactly (C53_kept_partial, C53_inputs_partial)."
  },
  {
   "property": "C54",
   "status": "partial",
   "theorems": [
    "C54_assigned_partial",
    "C54_assigned_refuted",
    "C54_never",
    "C54_product",
    "C54_quotient",
    "C54_quotient_zero"
   ],
   "note": "Products and quotients for all units and numbers (quotient up to 2^-49 relative, values within 2^+-300). Assignment proved for plain Quantity objects; refuted for variables, parameters and constants, which refuse every such quantity (C54_never)."
  },
  {
   "property": "C55",
   "status": "partial",
   "theorems": [
    "C55_converted_refuted",
    "C55_sizes_unseen"
   ],
   "note": "Refuted: units carry no size, so 1 atm is stored as 1 Pa. C55_sizes_unseen: no two units of one dimension are ever told apart."
  },
  {
   "property": "C56",
   "status": "partial",
   "theorems": [
    "C56_by_object",
    "C56_decided",
    "C56_found",
    "C56_refused",
    "C56_same_object_refuted",
    "C56_stale"
   ],
   "note": "Found objects are parameters of that name, and exactly the names collected when models were added and used by an equation are found. Refuted: the object found is the one from before the models were called again, never the one the equations refer to (C56_stale, for every script with named equations)."
  },
  {
   "property": "C57",
   "status": "partial",
   "theorems": [
    "C57_constant_refuted",
    "C57_fixed_variable_refuted",
    "C57_function_partial",
    "C57_ordinary_settled",
    "C57_parameter_refuted",
    "C57_settled_function_partial",
    "C57_settled_partial",
    "C57_settled_taken",
    "C57_settled_unknowns_partial",
    "C57_symbols_partial",
    "C57_taken_function_partial",
    "C57_taken_partial",
    "C57_taken_unknowns_partial",
    "C57_unknowns_partial"
   ],
   "note": "Proved for sessions whose models set every parameter and constant before use, with connections of all kinds, further equations and values set after the declarations, as long as what they are written with are variables or has a value then (symbols are unknowns, every unknown occurs, the function can be called). Refuted for constants and parameters that were not set, and for variables given a value, which stay unknowns. C57_taken_partial: also for models that declare variables later and take in other models whole. Missing: models taken in partly, under their old names, or with equations of connections."
  },
  {
   "property": "C58",
   "status": "partial",
   "theorems": [
    "C58_created_refuted",
    "C58_set",
    "C58_values_ignored"
   ],
   "note": "Refuted for values given at creation: C58_values_ignored shows they change nothing in the model for any declarations (setValue from another object excluded). After setValue the statement is proved (C58_set)."
  },
  {
   "property": "C59",
   "status": "partial",
   "theorems": [
    "C59_float_refuted",
    "C59_names_refuted",
    "C59_tells_partial",
    "C59_text",
    "C59_whole_partial"
   ],
   "note": "Every unit prints. Same text implies the same SI exponents for any printing of numbers that keeps values apart; for units of SI names with int exponents same text and same dimension are equivalent. Refuted: (m^2)**0.5 is found equal to m but prints m^1.0; dimensions with other names are not printed at all."
  },
  {
   "property": "C60",
   "status": "partial",
   "theorems": [
    "C60_kinds",
    "C60_marks_refuted",
    "C60_models",
    "C60_problem",
    "C60_written_partial"
   ],
   "note": "Proved for every session: the reports succeed and every row describes its equation; the problem report follows the equation block. New equations list exactly the quantities written (names apart). Refuted: specified variables are not marked. C60_kinds: a row names one of the three kinds of equations."
  },
  {
   "property": "C61",
   "status": "partial",
   "theorems": [
    "C61_fields",
    "C61_headers_refuted",
    "C61_programs_partial",
    "C61_run_partial",
    "C61_steady_partial",
    "C61_units"
   ],
   "note": "Steady tables for every resolved problem of every program whose units were made with the Unit class (C61_programs_partial; C61_units: every quantity of a session has a unit written in the program, copies included); dynamic tables with enough different headers. Refuted: with the default output_headers=None a dynamic table raises TypeError."
  },
  {
   "property": "C62",
   "status": "partial",
   "theorems": [
    "C62_residuals_partial",
    "C62_settled_partial",
    "C62_sides_refuted",
    "C62_taken_partial",
    "C62_zero_partial"
   ],
   "note": "Proved for equations in residual form (no derivative, parameters set before use). Refuted for equations written lhs == rhs: the value of rhs is printed instead (cf. C45). C62_settled_partial: also for connections by expressions and equations written after the declarations. C62_taken_partial: also for models that take in others."
  },
  {
   "property": "C63",
   "status": "partial",
   "theorems": [
    "C63_columns",
    "C63_labels_refuted",
    "C63_recorded_partial"
   ],
   "note": "Proved for plots with labels, on any domain and on recorded runs (with C32). Refuted: with the default labels=None TypeError is raised."
  },
  {
   "property": "C64",
   "status": "proved",
   "theorems": [
    "C64_amount",
    "C64_assigned",
    "C64_block",
    "C64_call",
    "C64_kept",
    "C64_new",
    "C64_others",
    "C64_side_amounts",
    "C64_start"
   ],
   "note": "Proved for every successful call, on new models and models called again, whatever the names: the equations are stored in order, unnamed ones under numbers above all drawn before, later ones in place of earlier ones of the same name. Resolved problems: for declarations that assign attributes before they use them. C64_amount and C64_side_amounts give the values by the relation of C09_amount."
  },
  {
   "property": "C65",
   "status": "partial",
   "theorems": [
    "C65_amount_partial",
    "C65_equation_refuted",
    "C65_residual_partial",
    "C65_right_side"
   ],
   "note": "Proved for equations written as residuals, for every algebraic solver and any numeric routine whose answers are roots. Refuted for lhs == rhs: only the right side is given to the solver; C65_right_side says that it is zero in what is reported. C65_amount_partial says the same with the relation of C09_amount."
  },
  {
   "property": "C66",
   "status": "partial",
   "theorems": [
    "C66_block_partial",
    "C66_connection_partial",
    "C66_connection_refuted"
   ],
   "note": "Proved for connections between variables in sessions without values set on variables, names without ',' and '>'. Refuted: with a ',' in a variable name a later connection can replace an earlier one. Connections given as expressions: C74 and C76."
  },
  {
   "property": "C67",
   "status": "proved",
   "theorems": [
    "C67_not_shared",
    "C67_others_kept"
   ],
   "note": "For all sessions, including failing actions: an action changes only the models it is about, and no quantity belongs to two models. Equations are values in the model; the quantities they refer to are covered when they belong to the model."
  },
  {
   "property": "C68",
   "status": "partial",
   "theorems": [
    "C68_equation_refuted",
    "C68_nothing_else_partial",
    "C68_system_partial"
   ],
   "note": "For sessions of legible models with successful or failing calls, connections between variables, adding and resolving: no other equation is in the block, and solving the block is equivalent to the written equations and connections (for lhs == rhs what is asked is rhs = 0, see C65). Not covered: incorporation, statements from outside the declarations, expression connections. Refuted for lhs == rhs: the problem is solved by values that do not satisfy it (C68_equation_refuted)."
  },
  {
   "property": "C69",
   "status": "partial",
   "theorems": [
    "C69_program_rates_partial",
    "C69_program_residuals_partial",
    "C69_rates_partial",
    "C69_residuals_partial",
    "C69_said_rates_partial",
    "C69_said_residuals_partial",
    "C69_time_refuted"
   ],
   "note": "Derivatives (ODE) and residuals (DAE) handed to the integrator are the values of the written right-hand sides and residuals, for systems covered by C31 and C34. Also for programs that make their quantities in the constructors (as in C70). And for programs that bring equations by connections and statements (C69_said_rates_partial, C69_said_residuals_partial). Refuted: for dx/dt == t alone nothing is computed (C69_time_refuted)."
  },
  {
   "property": "C70",
   "status": "proved",
   "theorems": [
    "C70_answer",
    "C70_connections",
    "C70_equations",
    "C70_nothing_else",
    "C70_system"
   ],
   "note": "Statement proved for exactly the programs of the quantifier; for lhs == rhs in an algebraic system what is asked is rhs = 0 (the defect of C65). Variables named in connections and models have names without ',' and '>'."
  },
  {
   "property": "C71",
   "status": "proved",
   "theorems": [
    "C71_answer",
    "C71_equations",
    "C71_same_object",
    "C71_system"
   ],
   "note": "Setting once between two resolves; longer studies are covered by C70. When sim[name] finds something is decided by C56."
  },
  {
   "property": "C72",
   "status": "partial",
   "theorems": [
    "C72_fractions_refuted",
    "C72_given_partial",
    "C72_inlets_refuted",
    "C72_kept_partial",
    "C72_kind_refuted",
    "C72_outlet_partial",
    "C72_package_refuted",
    "C72_phases_partial",
    "C72_plain_partial",
    "C72_unset",
    "C72_unset_refuted"
   ],
   "note": "Refuted in most cases: with any inlet resolve() always raises (least of expressions, undefined Sum), without _setInlets it always raises (misspelt attribute), with an outlet of the one-phase or multiphase stream classes it always raises, and with a phase the fraction equation links the copied quantity of the outlet with itself and holds for every assignment. Proved: with an empty list of inlets, one MaterialStream outlet and no phase the five equations pass pressure, temperature, enthalpy and flows on to the outlet and nothing else is changed; without or with several outlets resolve() is the same as calling the model. For an outlet with phases whose quantities are given the equations are stated exactly (C72_given_partial); without a property package the phase part raises (C72_package_refuted). C72_kept_partial: what the model keeps of the inlets when it raises."
  },
  {
   "property": "C73",
   "status": "partial",
   "theorems": [
    "C73_function_partial",
    "C73_history_partial",
    "C73_history_refuted",
    "C73_meaning",
    "C73_value_partial",
    "C73_value_refuted"
   ],
   "note": "Proved for models whose declarations only write named equations (quantities made in constructors): the session after an evaluation is the same whatever was evaluated before, also after evaluations that raised; the value is the same when the earlier evaluations returned. Refuted for unnamed equations (added again by every evaluation) and after an objective that raised (its results stay in the domain). The solver is an arbitrary function of quantities, problem and configuration. C73_meaning: an evaluation that returns has set the targets, resolved, solved that problem and returned the objective of its results."
  },
  {
   "property": "C74",
   "status": "partial",
   "theorems": [
    "C74_again_refuted",
    "C74_block_partial",
    "C74_current_refuted",
    "C74_solution_partial"
   ],
   "note": "Proved (block and every answer of an honest solver) when nothing later is connected by expressions from the same origin into the same model, nothing is incorporated into that model, and names have no \">\" (no \"-\" in the origin either); the numbers of set quantities are those at the time of the connection. Refuted: a second connection by expressions from the same model into the same model replaces the first, and a parameter set after the connection has no effect on it."
  },
  {
   "property": "C75",
   "status": "partial",
   "theorems": [
    "C75_connections_refuted",
    "C75_exposed_exact",
    "C75_freedom_exact",
    "C75_freedom_refuted",
    "C75_objects_partial",
    "C75_overview_partial",
    "C75_overview_refuted"
   ],
   "note": "Objects are listed once however often the model is called (named equations); the overview is right after one call. Refuted: every further call lists the exposed variables again (C75_exposed_exact says how often), connections are never listed, and the reported degrees of freedom have the wrong sign and count set quantities (C75_freedom_exact gives the reported number for every session)."
  },
  {
   "property": "C76",
   "status": "partial",
   "theorems": [
    "C76_answer_partial",
    "C76_brought_partial",
    "C76_equations_partial",
    "C76_origins_refuted",
    "C76_system_partial"
   ],
   "note": "Both directions, for declarations, connections of all kinds and later equations, with replacement. Missing: incorporation (C82), programs that raise, names with the characters used in composed names. Refuted without the condition on origins: an origin named like a drawn number loses an equation."
  },
  {
   "property": "C77",
   "status": "partial",
   "theorems": [
    "C77_matrix_partial",
    "C77_minimum_refuted",
    "C77_parameter_refuted",
    "C77_quotient_refuted",
    "C77_solution",
    "C77_unique"
   ],
   "note": "For all programs and all expressions in which unknowns stand neither below a fraction line nor in Min or Max and all symbols are unknowns of the problem. Refuted without: a known quantity divided by an unknown, a minimum of an unknown and a number, and an equation with a parameter without value are found linear, but there is no matrix. That linear_eq_to_matrix and scipy.linalg.solve do their work is an assumption on the engine (able). sympy versions differ in whether linear_eq_to_matrix accepts unknowns given as text, as LASolver._getABfromEquations does (solvers.py); able assumes it does."
  },
  {
   "property": "C78",
   "status": "partial",
   "theorems": [
    "C78_copied_partial",
    "C78_names",
    "C78_plain",
    "C78_replaced_refuted",
    "C78_written"
   ],
   "note": "The first half is proved for all programs, exceptions included (C78_written, C78_plain without incorporations, C78_names for the renaming). The converse is proved for incorporated equations under donor_ok and no_capture when nothing later stores under that name (C78_copied_partial); refuted in general since an equation of the same name replaces an earlier one (C78_replaced_refuted)."
  },
  {
   "property": "C79",
   "status": "partial",
   "theorems": [
    "C79_calls",
    "C79_cvode_partial",
    "C79_cvode_start_refuted",
    "C79_time_points",
    "C79_time_start_refuted",
    "C79_times_given",
    "C79_trajectory_partial"
   ],
   "note": "Proved end to end for the programs of C76 and the systems of C31 with ODEINT (C79_trajectory_partial) for any integrator that solves the system it is given up to eps; with CVODE the initial values hold at time 0 (C79_cvode_partial). Refuted: CVODE is given no initial time, so other initial times give wrong trajectories (C79_cvode_start_refuted); the required initial value of the time variable is not used (C79_time_start_refuted). Real numbers instead of floating-point times and states."
  },
  {
   "property": "C80",
   "status": "partial",
   "theorems": [
    "C80_marks_refuted",
    "C80_scaled",
    "C80_time_points",
    "C80_times_refuted",
    "C80_trajectory_partial"
   ],
   "note": "Proved end to end (C80_trajectory_partial) for the programs of C76 with the unknowns in the order of C34, differential equations first each a sum with one derivative among its terms (with a plus or a minus, on either side) and no explicit use of the time, for any integrator that solves F(y, y') = 0 from consistent values keeping the marked components. A derivative with a number before it is proved to be always refused (C80_scaled). Refuted: the marks are taken from the equations, so with an algebraic equation first the initial value of a differentiated unknown is overwritten (C80_marks_refuted); the time points asked for are not used (C80_times_refuted). Real numbers instead of floating-point times and states."
  },
  {
   "property": "C81",
   "status": "partial",
   "theorems": [
    "C81_calculate",
    "C81_conditions",
    "C81_names",
    "C81_none",
    "C81_shared_refuted"
   ],
   "note": "Proved for all programs of packages, all settings and all three kinds of streams (C81_conditions), for calculate() (C81_calculate) and names (C81_names), given that the package lists its phases once (C41 says when). Refuted: two streams that use one package leave it at the conditions of the stream declared last (C81_shared_refuted)."
  },
  {
   "property": "C82",
   "status": "partial",
   "theorems": [
    "C82_answer_partial",
    "C82_cvode_partial",
    "C82_dae_partial",
    "C82_equations_partial",
    "C82_names_refuted",
    "C82_rates_partial",
    "C82_residuals_partial",
    "C82_system_partial",
    "C82_trajectory_partial"
   ],
   "note": "Both directions, equation by equation, for answers, right-hand sides, residuals and recorded trajectories (ODEINT, CVODE, DAE), for programs that incorporate models or parts of them (any flags, with renaming) in any number of steps, together with declarations, statements and connections. Missing: incorporation without renaming (rewrite_name=False; see C22), donors with connections or with quantities under attributes of other names, programs that raise. Refuted: when a new name in the host is an old name in the donor, both equations become equations of one unknown and the other is free (C82_names_refuted)."
  },
  {
   "property": "C83",
   "status": "partial",
   "theorems": [
    "C83_algebraic_partial",
    "C83_asked",
    "C83_composed_dae_partial",
    "C83_composed_partial",
    "C83_cvode_partial",
    "C83_dae_dynamic",
    "C83_dae_partial",
    "C83_default",
    "C83_end",
    "C83_equation_refuted",
    "C83_listed",
    "C83_mechanism",
    "C83_ode_partial",
    "C83_times"
   ],
   "note": "The options are read as given (keyword, dictionary, file or default), the solver is chosen and made, the degrees of freedom are checked, the routines of the libraries are called and the results are read, for all programs of C76, C79 and C80. C83_composed_partial and C83_composed_dae_partial do it for programs whose models incorporate others (C82). Missing: as in C76, C79 and C80; floating-point numbers. A differential-algebraic problem with is_dynamic and the time variable left to the problem always raises (C83_dae_dynamic). The routine named by the options is asked with the equations and unknowns of the problem, started at initial_guess, improved by initial_guess_solver (C83_asked). Refuted for lhs == rhs, as in C65 (C83_equation_refuted). C83_mechanism: a simulation that gives results was asked for no mechanism or for one of the known names; anything else gives none. C83_end: a simulation in time that was not given its times was given a number to end at. C83_times, C83_listed: the times given for a simulation are an array, or for CVODE a list, which does as well."
  },
  {
   "property": "C84",
   "status": "partial",
   "theorems": [
    "C84_again_partial",
    "C84_dae_branches_refuted",
    "C84_dae_region",
    "C84_dae_simulations_partial",
    "C84_dae_unique",
    "C84_gentle",
    "C84_gentle_at",
    "C84_programs_partial",
    "C84_root_refuted",
    "C84_runs_partial",
    "C84_simulations_partial",
    "C84_tempered",
    "C84_tempered_at",
    "C84_unique"
   ],
   "note": "Uniqueness of solutions is proved for all steady rates (locally Lipschitz), steadiness for all expressions without square roots, fractional or variable powers, and the agreement of tables for all programs of C79 and C82, for the runs and for whole simulations with any options and libraries (C84_simulations_partial, C84_again_partial); likewise for differential-algebraic problems whose algebraic equations give the variables one after the other (C84_dae_unique, C84_dae_simulations_partial), and for algebraic equations of any form in states where they bind the variables (C84_dae_region). Missing: rates that are not steady (C84_root_refuted: dx/dt == 2*sqrt(x)), algebraic equations that do not bind the variables (C84_dae_branches_refuted: z*z == x), and what C79, C80 and C82 miss."
  },
  {
   "property": "C85",
   "status": "partial",
   "theorems": [
    "C85_map",
    "C85_never",
    "C85_no_sides",
    "C85_residual_partial",
    "C85_residual_refuted",
    "C85_value"
   ],
   "note": "Proved for all equations without derivatives of unspecified variables, all maps of finite numbers, all sides; for getResidual when every quantity written was specified. Refuted: getResidual of x == 2 with x.value 2 raises, since the map holds the objects and not their values; C85_never: it raises for every equation whose value depends on an unspecified quantity. That sympy refuses to substitute an object that is no number is part of the model of evalf; floating-point rounding is left out."
  },
  {
   "property": "C86",
   "status": "partial",
   "theorems": [
    "C86_complete",
    "C86_refused",
    "C86_reported",
    "C86_runs",
    "C86_starts",
    "C86_time",
    "C86_unknown_solver_refuted",
    "C86_whole",
    "C86_whole_refused"
   ],
   "note": "Proved in both directions for configurations with all documented options (C86_complete: those set by keywords or in a dictionary), and with the exception that reports each reason (C86_reported). Refuted: an unknown name of a nonlinear solver is reported by a TypeError, as the text of the AbsentRequiredObjectError cannot be put together (C86_unknown_solver_refuted). Configurations read from a file may lack options (C35)."
  },
  {
   "property": "C87",
   "status": "partial",
   "theorems": [
    "C87_call",
    "C87_call_refuted",
    "C87_incorporation",
    "C87_incorporation_refuted",
    "C87_mistyped_refuted",
    "C87_resolve",
    "C87_resolve_accepted",
    "C87_single_partial"
   ],
   "note": "Single operations in any state, without preconditions on the state; calls, incorporations and resolves as far as they went. Refuted: createVariable with is_exposed and a type other than input and output raises KeyError with the variable already in the model (C87_mistyped_refuted); a call or an incorporation that raises leaves what it did before (C87_call_refuted, C87_incorporation_refuted)."
  },
  {
   "property": "C88",
   "status": "proved",
   "theorems": [
    "C88_accuracy",
    "C88_agreement",
    "C88_answer",
    "C88_exact",
    "C88_linear",
    "C88_residuals",
    "C88_simulation",
    "C88_simulation_accuracy"
   ],
   "note": "For programs as in C76 and C82 (sets_up). Numeric routines are any functions whose answers leave residuals of at most eps; the residuals are real numbers (rounding while they are computed counts as part of eps)."
  },
  {
   "property": "C89",
   "status": "partial",
   "theorems": [
    "C89_dae_simulations_partial",
    "C89_dae_solutions",
    "C89_in_turn",
    "C89_programs_partial",
    "C89_simulations_partial",
    "C89_solutions",
    "C89_sways",
    "C89_written"
   ],
   "note": "The bound for solutions, the bounds read off expressions (C89_sways, C89_written), the bounds for runs and whole simulations, and the same for differential-algebraic equations that bind the other variables to those with rates (C89_dae_solutions, C89_dae_simulations_partial; C89_in_turn for equations that give them one after the other) are proved. The expressions whose bounds are read off are all but those with derivatives; square roots, logarithms, tangents, quotients and variable powers need a bound that keeps their argument off the edge. Missing: what C79, C80 and C82 miss."
  },
  {
   "property": "C90",
   "status": "proved",
   "theorems": [
    "C90_refused",
    "C90_used"
   ],
   "note": "For every study and history; evaluating an objective, which is user code, is not modelled."
  },
  {
   "property": "C91",
   "status": "partial",
   "theorems": [
    "C91_fractions_refuted",
    "C91_sides_partial",
    "C91_tank_refuted",
    "C91_units_partial"
   ],
   "note": "Refuted: the heat Q of a tank is an energy (C91_tank_refuted); fractions are never exposed, and those at inlets have the type of outputs (C91_fractions_refuted: is_exposed is given as text). All else is proved for all classes, packages and phase names."
  },
  {
   "property": "C92",
   "status": "partial",
   "theorems": [
    "C92_fractions_partial",
    "C92_sum_refuted"
   ],
   "note": "Exact for all packages and classes, where having several phases means number_of_phases of at least two (for a mixer: several names). Refuted for sums of packages, whose number of phases is not that of their phases (C92_sum_refuted). Missing: phase names that are no parts of identifiers."
  },
  {
   "property": "C93",
   "status": "partial",
   "theorems": [
    "C93_connections",
    "C93_differ_partial",
    "C93_equations",
    "C93_power_refuted",
    "C93_powers",
    "C93_same",
    "C93_sums",
    "C93_values"
   ],
   "note": "Proved for sums and differences of expressions, values, equations and connections of single variables (C93_same ties the operations to those of the other theorems). Refuted: the error of a power whose exponent has a dimension cannot be shown, AttributeError (C93_power_refuted, C93_powers). C93_differ_partial: units of SI dimensions with finite exponents; missing: dimension names of one's own. Texts of names with apostrophes are simplified. Connections of lists: C28."
  },
  {
   "property": "C94",
   "status": "partial",
   "theorems": [
    "C94_bare_time_refuted",
    "C94_dynamic_partial",
    "C94_fixed_variable_refuted",
    "C94_listed_partial",
    "C94_same",
    "C94_settled_partial",
    "C94_steady",
    "C94_taken_partial"
   ],
   "note": "Proved without restriction for problems without differential equations (C94_steady); with them under the hypotheses of C27 (C94_dynamic_partial). That the unknowns listed are the symbols of the equations is proved for ordinary programs (C94_listed_partial). Refuted: a variable given a value is listed although it is in no equation, and dx/dt == t is called under-specified. C94_same ties the check to that of C27. How expressions are printed is a parameter. C94_settled_partial extends it to connections by expressions and later equations. C94_taken_partial: also for models that take in others."
  },
  {
   "property": "C95",
   "status": "partial",
   "theorems": [
    "C95_flags_partial",
    "C95_ignored",
    "C95_result_refuted",
    "C95_set_refuted"
   ],
   "note": "False: bounds are stored and read nowhere. Programs do the same without them (C95_ignored), a value outside is accepted (C95_set_refuted) and a solver may answer outside (C95_result_refuted). The flags do tell which bounds were given (C95_flags_partial)."
  },
  {
   "property": "C96",
   "status": "partial",
   "theorems": [
    "C96_before_refuted",
    "C96_de_refuted",
    "C96_empty_refuted",
    "C96_finishes_partial",
    "C96_graph_partial",
    "C96_log_partial",
    "C96_same",
    "C96_stale_refuted",
    "C96_untouched"
   ],
   "note": "Proved for the mechanisms ga, sade and pso with logs as pygmo documents them. Refuted: every run of 'de' with entries in its log ends in ValueError, as seven names are given for five columns; a graph of an empty log (the default report_frequency) raises; with optimization_log=False the graph is that of an earlier run; there is no log before the first run. The entries of pygmo's logs are taken from its documentation (SpecLog.v). C96_untouched: what a run leaves alone."
  },
  {
   "property": "C97",
   "status": "proved",
   "theorems": [
    "C97_answers",
    "C97_fixed_point",
    "C97_linear",
    "C97_simulations",
    "C97_written"
   ],
   "note": "For any two programs as in C76 and C82, any solvers leaving residuals of at most eps, from the problem (C97_answers) and from the options to the results (C97_simulations). The condition of a linear problem from an inverse of its matrix (C97_linear), of equations solved for their unknowns (C97_fixed_point); the difference of the equations from written expressions (C97_written, with the bounds of C89). Of equations written lhs == rhs the right side is what counts (C65). Real numbers instead of floating-point answers."
  },
  {
   "property": "C98",
   "status": "partial",
   "theorems": [
    "C98_dae_growth_confines",
    "C98_dae_growth_partial",
    "C98_dae_simulations_partial",
    "C98_growth_confines",
    "C98_growth_partial",
    "C98_pace_confines",
    "C98_runs_partial",
    "C98_simulations_partial",
    "C98_solutions",
    "C98_sums"
   ],
   "note": "For functions obeying the equations (C98_solutions), for recorded runs and whole simulations of differential problems (C98_runs_partial, C98_simulations_partial) and of differential-algebraic ones (C98_dae_simulations_partial), and for the recorded numbers of weighed sums (C98_sums). Amounts that change in proportion to themselves (C98_growth_partial, C98_dae_growth_partial); regions that solutions cannot leave, as C89 and these theorems ask for (C98_pace_confines, C98_growth_confines, C98_dae_growth_confines). Missing: amounts that contain variables without rates or other functions than sums and products; what C80 and C82 miss (programs whose equations C76 does not cover; the integrator is taken to be right up to eps)."
  },
  {
   "property": "C99",
   "status": "partial",
   "theorems": [
    "C99_answers",
    "C99_dae_simulations_partial",
    "C99_rest",
    "C99_results",
    "C99_runs_partial",
    "C99_simulations_partial",
    "C99_solutions"
   ],
   "note": "For functions obeying the equations (C99_solutions, C99_rest), for recorded runs and whole simulations of differential problems (C99_runs_partial, C99_simulations_partial) and of differential-algebraic ones (C99_dae_simulations_partial); for answers and whole simulations of algebraic problems by the condition of the second (C99_answers, C99_results). The second equations determine their solution as C84 asks for. Missing: algebraic equations that do not give the variables one after the other; what C80 and C82 miss."
  },
  {
   "property": "C100",
   "status": "partial",
   "theorems": [
    "C100_cvode_refuted",
    "C100_dae_simulations_partial",
    "C100_dae_solutions",
    "C100_runs_partial",
    "C100_simulations_partial",
    "C100_solutions"
   ],
   "note": "For functions obeying the equations (C100_solutions, C100_dae_solutions), recorded runs (C100_runs_partial) and whole simulations of differential (C100_simulations_partial) and differential-algebraic problems (C100_dae_simulations_partial), with a bound made of the errors of both integrators and of what becomes of the error of the row started from. The condition on the equations is that of C99 for a clock set back by h; h is zero for equations that depend on the time. Refuted for CVODE, which is given no initial time (C100_cvode_refuted). Missing: what C80, C82 and C84 miss."
  }
 ]
}