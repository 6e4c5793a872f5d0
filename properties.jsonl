{"id": "C01", "title": "Parsed configuration = template leaves with user value or default", "statement": "Whenever check_params/load_params accepts a configuration, every parameter declared in the template is present in the result, holding the parse of the user's value when there is one at that path and of the template's default otherwise; every other path in the result is a section on the way to a parameter or lies inside a parameter's own value.", "quantifier": "every user configuration (arbitrary nested dictionary), every template tree", "why_tests_cant": "user configurations are arbitrary nested dictionaries; a test fixes a handful of them", "anchors": ["mimosa/common/config/parseconfig.py: parse_params, check_params, load_params", "mimosa/common/config/utils/nested_dict.py: get_nested, set_nested", "mimosa/common/config/utils/parsers.py: GeneralParser.get"]}
{"id": "C02", "title": "Unknown or misspelled configuration keys are rejected", "statement": "A configuration with an entry that is not a template parameter (and not inside a dict or datasource parameter) is never accepted, provided its keys do not contain ' -'. Finding: a key spelled with the joined name of a parameter ('emissions - carbonbudget') is accepted and silently ignored.", "quantifier": "every user configuration, every template", "why_tests_cant": "there are infinitely many misspellings and nestings; the check compares joined names, which can collide", "anchors": ["mimosa/common/config/parseconfig.py: check_obsolete_params, create_leaf_criterium", "mimosa/common/config/utils/nested_dict.py: flatten"]}
{"id": "C03", "title": "Numeric parameters respect the template's min/max", "statement": "Every int or float parameter of an accepted configuration is False (only when the template says can_be_false), nan, or a number between the template's min and max. Finding: nan passes the range check of every float parameter.", "quantifier": "every user configuration, every numeric parameter of the template", "why_tests_cant": "values range over all ints, floats (incl. nan/inf) and strings; sampling misses the non-ordered ones", "anchors": ["mimosa/common/config/utils/parsers.py: NumParser.parse, FloatParser, IntParser"]}
{"id": "C04", "title": "Enumerated parameters take a listed value", "statement": "Every enum parameter in an accepted configuration equals one of the values listed in the template, so no module dispatch on it can fall through. The default of such a parameter is one of the values too.", "quantifier": "every user configuration, every enum parameter", "why_tests_cant": "all python values, including values equal under == but of another type, must be covered", "anchors": ["mimosa/common/config/utils/parsers.py: EnumParser", "mimosa/abstract_model.py: create_abstract_model"]}
{"id": "C05", "title": "'False' normalisation of optional limits", "statement": "A can_be_false parameter given as False, 0, 0.0, 'False', 'false' or 'no' is stored as exactly False; whatever is stored as False was given as one of these; a number, text, list or dictionary parameter that is not can_be_false is never stored as False (a bool, an enum listing False, or a quantity may be).", "quantifier": "every parser, every value", "why_tests_cant": "python's == identifies 0, 0.0 and False: the set of affected inputs is infinite", "anchors": ["mimosa/common/config/utils/parsers.py: GeneralParser.check_false, is_falsy, is_truthy, BoolParser.parse"]}
{"id": "C06", "title": "Re-validating a validated configuration changes nothing", "statement": "Feeding an accepted configuration back to check_params returns the same parameters, unless an optional float limit is stored as the number 0. Finding: such a limit given as the text '0' is stored as 0.0 first and becomes False (limit off) on re-validation.", "quantifier": "every accepted user configuration", "why_tests_cant": "needs every value of every parser type, not the default configuration only", "anchors": ["mimosa/common/config/parseconfig.py: load_params, check_params", "mimosa/mimosa.py: MIMOSA.__init__"]}
{"id": "C07", "title": "Parameter references in strings are resolved", "statement": "In a parameter tree whose references are resolved, a string with one reference '...{a - b}...' to an existing string parameter becomes that string with the reference replaced by the parameter's value; a reference to a path that does not exist is left untouched; values without references are unchanged. Finding: of several references in one string only the last is resolved.", "quantifier": "every parameter tree, every string with any number of references", "why_tests_cant": "strings and reference combinations are unbounded; the documented use has several references in one string", "anchors": ["mimosa/common/config/parseconfig.py: parse_param_values"]}
{"id": "C08", "title": "Nested dictionary access laws", "statement": "set_nested followed by get_nested at the same path returns the value written; other, non-overlapping paths are unaffected; writing the value already present changes nothing; flatten lists exactly the leaves.", "quantifier": "every nested dictionary, path and value", "why_tests_cant": "depth and branching are unbounded", "anchors": ["mimosa/common/config/utils/nested_dict.py: get_nested, set_nested, flatten"]}
{"id": "C09", "title": "Default-unit placeholders are always eliminated", "statement": "In every unit text the default units (currency_unit, emissionsrate_unit, emissions_unit, temperature_unit, population_unit) are replaced by the units of default_units.yaml in brackets, the rest of the text stays (year becomes yr), and no placeholder remains; 'US$' and 't CO2' may be written for 'USD' and 'tCO2' anywhere in a quantity or unit; a quantity is converted by pint from its own text to that expanded unit.", "quantifier": "every unit string", "why_tests_cant": "replacements are sequential and emissionsrate_unit expands to a string containing emissions_unit: order matters for all strings", "anchors": ["mimosa/common/units.py: Quantity._parse_default_units", "mimosa/inputdata/config/default_units.yaml"]}
{"id": "C10", "title": "Every model parameter has a source", "statement": "Whatever modules are chosen, the '::' path of every model parameter is declared in the template; in an instance that was created, every such parameter holds the configuration's value (quantities converted to the declared unit, choices and numbers as they are), every regional parameter holds the regional parameter store's value for each region, the baseline data hold the data store's value for each step and region, time grid and regions are those of the configuration, combined damages replace the damage coefficients, and an entry of custom_mapping replaces anything else. Finding: combined damages overwrite even custom_mapping.", "quantifier": "every accepted configuration, every model parameter", "why_tests_cant": "depends on all module combinations and on the parser result for arbitrary configurations", "anchors": ["mimosa/concrete_model/instantiate_params.py: InstantiatedModel._set_instance_data_main", "mimosa/components/*.py (Param docs)"]}
{"id": "C11", "title": "The time grid starts at the start year and just covers the end year", "statement": "With start year s, end year e >= s and step dt, the model years are s, s+dt, ...; the last lies in [e, e+dt) and all earlier ones before e; the '2100 step' is the last step not after 2100. Finding: end before start is accepted; the grid is then empty, or the single start year when e is less than one step before s.", "quantifier": "every accepted start, end, dt", "why_tests_cant": "dt is a continuum; end-start need not be a multiple of dt", "anchors": ["mimosa/concrete_model/instantiate_params.py: _set_instance_data_main", "mimosa/inputdata/config/config_default.yaml: time"]}
{"id": "C12", "title": "Exogenous data are read exactly at model years", "statement": "For every model step the population/GDP/emissions parameter equals the data store's own value for that year (model years are nodes of the data grid), and in years that are years of the data file it is exactly the file's number converted to the configured unit (for any spline through its points). Finding: data stores exist only for horizons covered by the file and its extrapolation: with 2010-2100 files the start must be at least 2010 and the end at most 2200+dt, though the configuration accepts 1900-2300.", "quantifier": "every accepted start, end, dt, every data series", "why_tests_cant": "continuum of dt and series", "anchors": ["mimosa/common/data/datastore.py: DataStore.interp_data, data_years", "mimosa/concrete_model/instantiate_params.py"]}
{"id": "C13", "title": "Extrapolation of input data beyond the data file", "statement": "Data inside the file's years are unchanged by extrapolation and every extra year gets one value; beyond the file the series moves in the direction of its last change and is constant from 2150 on; when the file reaches 2100 the yearly change never exceeds the last one in the file. Finding: when the file ends before 2100 the first extrapolated change is amplified by 1+(2100-last)/50.", "quantifier": "every data series, every later year", "why_tests_cant": "every series and every horizon length", "anchors": ["mimosa/common/data/utils.py: extrapolate"]}
{"id": "C14", "title": "The data cache is transparent", "statement": "As long as the files do not change, a data store gets the same result after any history of successful and failed stores as in a fresh process, and holds the converted series of the one row of the file that carries the configured model, scenario and variable and the region's name (a region 'X#' is 'X' in the files); no such row, or several, is refused. Finding: a file changed on disk after it was first read is never re-read in the process.", "quantifier": "every history of queries, every file content", "why_tests_cant": "class-level cache shared by all models of a process: depends on the whole history", "anchors": ["mimosa/common/data/datastore.py: DataStore"]}
{"id": "C15", "title": "Regional parameter overrides", "statement": "A regional value in the 'regions' section is used for exactly that region and parameter and returned as it is; every other region gets the file's (mapped) value, unaffected by the override. A file's value is a number (text that reads as a number is converted) or a text that does not read as one.", "quantifier": "every regions section, parameter file, region and parameter", "why_tests_cant": "arbitrary override dictionaries", "anchors": ["mimosa/common/regional_params/main.py: RegionalParamStore.get", "mimosa/common/regional_params/regional_param_container.py"]}
{"id": "C16", "title": "Region mapping", "statement": "When a parameter file uses another region definition, each model region gets the mean of the numbers over the file regions mapped to it (that region's number when there is one), a text parameter the text of one of them, and a region that is not mapped raises KeyError; a missing conversion table raises KeyError when the store is created, and one given in either direction is enough; without mapping, a missing row raises KeyError and several rows TypeError. Finding: a mapped region without a number in the file silently gets nan.", "quantifier": "every mapping table and parameter table", "why_tests_cant": "arbitrary tables", "anchors": ["mimosa/common/regional_params/region_mappers.py"]}
{"id": "C17", "title": "Constraint names are unique and stable", "statement": "Building the model adds each constraint of the selected modules exactly once under its own name, and no two constraints share a name; names clash (RuntimeError) only with the globalcostpool trade module, which therefore never builds.", "quantifier": "every module combination and constraint list", "why_tests_cant": "generated names depend on the number of components already in the model", "anchors": ["mimosa/common/pyomo_utils.py: add_constraint", "mimosa/abstract_model.py: create_abstract_model"]}
{"id": "C18", "title": "Every accepted configuration builds a model", "statement": "With numbers in the accepted ranges and sound data, building the model succeeds exactly for the usable choices: not globalcostpool; per-capita convergence only together with emission trade; elasmu (and, for that welfare module, inequality aversion) different from 1; LBD scaling different from 0; a carbon budget in a horizon reaching 2100 only with fully reversible emissions; 'non increasing after 2100' only when the step before the start year is not after 2100; known damage forms. Finding: all other accepted choices raise while building. A data set with total baseline emissions of the first year, population of a year, GDP of a region or its capital factor equal to 0 is rejected as well.", "quantifier": "every accepted configuration (all module combinations, all numeric values)", "why_tests_cant": "combination of all module choices with all continuous parameters", "anchors": ["mimosa/abstract_model.py: create_abstract_model", "mimosa/components/*"]}
{"id": "C19", "title": "Constraints only mention existing variables at existing indices", "statement": "Every variable occurrence in every generated constraint is a variable declared by the selected modules, at a time step in 0..tf and a region of the model.", "quantifier": "every accepted configuration that builds, every horizon length, every region set", "why_tests_cant": "t-1 and year2100 style index arithmetic must be safe for every horizon and step", "anchors": ["mimosa/components/*.py (constraint rules)"]}
{"id": "C20", "title": "Emission accounting", "statement": "In every feasible solution global emissions are the sum of regional emissions each year, regional emissions are baseline minus abatement, and cumulative emissions at step t equal the trapezoidal (or right-endpoint) sum of global emissions over steps 1..t, starting at zero.", "quantifier": "every feasible solution, horizon, region set", "why_tests_cant": "holds for all points of a feasible set in thousands of dimensions", "anchors": ["mimosa/components/emissions.py"]}
{"id": "C21", "title": "Carbon budget", "statement": "With a carbon budget B, cumulative emissions never exceed B in any model year from 2100 on. Finding: when the horizon ends before 2100 the budget is silently ignored.", "quantifier": "every feasible solution, every accepted time grid and budget", "why_tests_cant": "needs all solutions and all grids (the model may not contain the year 2100)", "anchors": ["mimosa/components/emissions.py: carbon budget constraints"]}
{"id": "C22", "title": "Emissions after the budget year", "statement": "With a carbon budget and 'not positive after budget year', global emissions are non-positive from 2100 on, so cumulative emissions and (TCRE>=0) temperature never increase from then on. Finding: without a budget the option has no effect.", "quantifier": "every feasible solution and time grid", "why_tests_cant": "an inductive consequence along the whole horizon", "anchors": ["mimosa/components/emissions.py"]}
{"id": "C23", "title": "Temperature is TCRE-linear and respects the target", "statement": "In every feasible solution temperature(t) = T0 + TCRE * cumulative emissions(t), temperature(0)=T0, temperature never falls below T0 when TCRE>=0, and with a target T the temperature is at most T in every model year from 2100 on. Finding: when the horizon ends before 2100 the target is silently ignored.", "quantifier": "every feasible solution, grid, parameters", "why_tests_cant": "all solutions", "anchors": ["mimosa/components/emissions.py"]}
{"id": "C24", "title": "Emission-reduction speed limit", "statement": "With a regional (global) inertia limit i<=0, emissions can never fall faster than |i| of initial emissions per year: over any two steps s<=t, E(t)-E(s) >= (year(t)-year(s)) * i * baseline(0).", "quantifier": "every feasible solution, any two time steps", "why_tests_cant": "accumulated over any number of steps", "anchors": ["mimosa/components/emissions.py: inertia constraints"]}
{"id": "C25", "title": "Minimum emission levels and non-increasing emissions", "statement": "Regional and global emissions stay at or above the configured minimum level in every model year, including the initial one (so a level above initial emissions makes the model infeasible); with the option on, regional emissions never increase between model years after 2100.", "quantifier": "every feasible solution, grid, parameters", "why_tests_cant": "all solutions, all grids", "anchors": ["mimosa/components/emissions.py"]}
{"id": "C26", "title": "No abatement means baseline", "statement": "With an exogenous baseline and zero abatement in a region, its emissions equal the baseline; when all regions do so and the trapezoidal rule is chosen, cumulative emissions equal the model's own cumulative baseline emissions. Finding: with the right-endpoint rule they differ by half a step of the change in baseline emissions.", "quantifier": "every feasible solution, both integration options", "why_tests_cant": "all data series and horizons", "anchors": ["mimosa/components/emissions.py"]}
{"id": "C27", "title": "Abatement cost curve is the integral of the marginal abatement cost curve", "statement": "For every learning factor, gamma and beta in range, abatement cost is zero at zero abatement, its derivative is the marginal abatement cost, both are increasing in abatement, and cost is convex.", "quantifier": "every abatement level and parameter value", "why_tests_cant": "calculus statement over the reals", "anchors": ["mimosa/components/mitigation.py: MAC, AC"]}
{"id": "C28", "title": "Carbon price and initial year", "statement": "In every feasible solution the carbon price is the marginal abatement cost of the region's relative abatement, the carbon price in the initial year is zero and therefore no abatement happens in the initial year.", "quantifier": "every feasible solution", "why_tests_cant": "all solutions", "anchors": ["mimosa/components/mitigation.py"]}
{"id": "C29", "title": "Technological learning only lowers costs", "statement": "The learning-by-doing factor is non-increasing in cumulative mitigation and is multiplied by the LBD rate at each doubling of experience (1 + cumulative mitigation / scaling, smoothed); learning over time multiplies costs by 1/(1+rate) per model step; hence the same abatement never costs more at higher experience or later. Finding: at zero cumulative mitigation the factor is slightly below 1, because of the smoothing.", "quantifier": "every cumulative abatement path, LBD rate, LOT rate", "why_tests_cant": "continuum", "anchors": ["mimosa/components/mitigation.py: LBD_factor, LOT_factor, learning_factor"]}
{"id": "C30", "title": "GDP accounting identities", "statement": "In every feasible solution GDP_net = GDP_gross*(1 - damages) - mitigation costs - financial transfers (damages dropped with 'ignore damages'), investments = savings rate * GDP_net, and consumption + investments = GDP_net.", "quantifier": "every feasible solution, year, region", "why_tests_cant": "all solutions", "anchors": ["mimosa/components/cobbdouglas.py"]}
{"id": "C31", "title": "Capital and output stay positive and equations stay defined", "statement": "In every feasible solution with positive data, capital stock is strictly positive as long as investments are non-negative, gross GDP is strictly positive, and at every point the solver may try (within bounds, gross GDP positive) no equation of the model divides by zero or takes a power of a non-positive number.", "quantifier": "every feasible solution, every horizon", "why_tests_cant": "inductive along the horizon, continuum of values", "anchors": ["mimosa/components/cobbdouglas.py", "mimosa/common/economics.py", "mimosa/common/pyomo_utils.py: soft_min"]}
{"id": "C32", "title": "TFP calibration reproduces baseline GDP", "statement": "With the calibrated total factor productivity the production function returns exactly baseline GDP at the calibration capital stock, for every year; gross GDP equals baseline GDP exactly when the smoothed capital stock equals the calibration capital. Finding: a run without policy and damages does not reproduce baseline GDP, e.g. in a stationary economy.", "quantifier": "every data series, horizon, parameters", "why_tests_cant": "all series", "anchors": ["mimosa/common/economics.py: get_TFP_value, calc_GDP, calc_dKdt", "mimosa/components/cobbdouglas.py"]}
{"id": "C33", "title": "Emission trade is zero-sum", "statement": "In every feasible solution of the emission-trade module the traded mitigation costs sum to zero over regions each year, total mitigation costs equal the total area under the MACs; after the initial year traded reductions sum to zero, paid-for reductions sum to the reductions and allowances sum to global emissions; every traded unit has one common positive price, and the global carbon price lies between the regional ones.", "quantifier": "every feasible solution, year, region set", "why_tests_cant": "all solutions, region sets", "anchors": ["mimosa/components/emissiontrade/emissiontrade.py"]}
{"id": "C34", "title": "Payment-level limits in emission trade", "statement": "Finding: the min/max relative payment levels of emission trade, which the documentation describes as limits on each region's payment, have no effect: for all levels the feasible solutions are the same.", "quantifier": "every feasible solution", "why_tests_cant": "all solutions", "anchors": ["mimosa/components/emissiontrade/emissiontrade.py"]}
{"id": "C35", "title": "No trade means each region pays its own abatement", "statement": "With notrade, mitigation costs of a region are the area under its own MAC; every solution without trade corresponds to a solution with emission trade with the same value of every variable and the same objective (trade can only help), unless the effort-sharing regime is per-capita convergence.", "quantifier": "every feasible solution", "why_tests_cant": "relates two whole feasible sets", "anchors": ["mimosa/components/emissiontrade/notrade.py", "mimosa/components/emissiontrade/emissiontrade.py", "mimosa/components/mitigation.py"]}
{"id": "C36", "title": "Financial transfers are zero-sum and bounded", "statement": "With the global damage pool, transfers sum to zero over regions each year so total net GDP does not depend on them, no region receives more than its own damage costs, and initial transfers are zero; with notransfer all transfers are zero. Finding: regions that gain from climate change must pay, and the pool excludes every solution in which the world as a whole gains.", "quantifier": "every feasible solution", "why_tests_cant": "all solutions", "anchors": ["mimosa/components/financialtransfer/globaldamagepool.py", "mimosa/components/financialtransfer/notransfer.py"]}
{"id": "C37", "title": "Equal mitigation costs / equal total costs effort sharing", "statement": "In every feasible solution of the equal-cost regimes there is a common level such that every region's relative costs are within 0.5% of it and non-negative, so any two regions differ by a factor of at most 1005/995; equal mitigation costs bind in every year, equal total costs only up to 2100 (finding).", "quantifier": "every feasible solution, year, pair of regions", "why_tests_cant": "all solutions and pairs", "anchors": ["mimosa/components/effortsharing.py", "mimosa/common/pyomo_utils.py: RegionalSoftEqualityConstraint"]}
{"id": "C38", "title": "Per-capita convergence effort sharing", "statement": "Emission shares prescribed by per-capita convergence sum to one over regions each year; with a convergence year after the start year they equal the initial shares in the first year and population shares from the convergence year on and never leave the interval between both; allowances follow them within 0.001. Findings: with convergence year False (documented as grandfathering), or before the start year, the shares move away from the population shares linearly and without bound.", "quantifier": "every data set, time grid, convergence year", "why_tests_cant": "continuum of years", "anchors": ["mimosa/components/effortsharing.py"]}
{"id": "C39", "title": "Damages are zero in the initial year and follow the configured form", "statement": "In every feasible solution the region's damages in year t are the scaled difference of its damage function at the current and the initial temperature (sea level), hence zero in the initial year; an unknown functional form raises NotImplementedError.", "quantifier": "every feasible solution, region, form string", "why_tests_cant": "all solutions, strings", "anchors": ["mimosa/components/damages/coacch.py"]}
{"id": "C40", "title": "Damage functions are well behaved", "statement": "Linear and quadratic damage functions vanish at zero warming; every form is non-decreasing for non-negative coefficients; the logistic form is bounded by |a*b1|/100; damages are non-negative when warming and sea level do not fall below their initial values; sea-level damages are confined to [-0.5, 0.7]. Finding: the logistic form is not exactly zero at zero (at most 1/(250 pi) of its bound).", "quantifier": "every temperature, every coefficient", "why_tests_cant": "continuum", "anchors": ["mimosa/components/damages/coacch.py"]}
{"id": "C41", "title": "Sea-level rise", "statement": "In every feasible solution total sea-level rise is the sum of thermal expansion, glaciers and ice sheets each year, each component follows its recursion from its initial value, and glaciers and ice sheets never regrow and never lose more than their volume as long as dt*(T+1) < 325. Finding: with longer steps the glaciers lose more ice than exists.", "quantifier": "every feasible solution and horizon", "why_tests_cant": "inductive along the horizon", "anchors": ["mimosa/components/sealevelrise.py"]}
{"id": "C42", "title": "No-damage mode", "statement": "With the nodamage module damage costs are zero in every year and region and net GDP has no damage term.", "quantifier": "every feasible solution", "why_tests_cant": "all solutions", "anchors": ["mimosa/components/damages/nodamage.py"]}
{"id": "C43", "title": "Welfare modules are monotone and concave in consumption", "statement": "For every welfare module, more consumption in one region and no less elsewhere gives strictly more yearly welfare; utility is concave from 0.1 per capita on, so for a given total an equal distribution is best; cost-minimising welfare depends on global consumption only. Findings: utility is not concave near zero consumption; with inequality aversion above 1 the smoothing keeps welfare away from its supremum however rich all regions are.", "quantifier": "every consumption path, every accepted parameter value", "why_tests_cant": "continuum including the singular value 1", "anchors": ["mimosa/components/welfare"]}
{"id": "C44", "title": "Objective is discounted welfare", "statement": "In every feasible solution the NPV at step t equals the sum over steps 1..t of dt*exp(-PRTP*(year-begin year))*welfare (or costs, with the global-costs objective); the utility objective prefers the larger sum, the global-costs objective the smaller, and more consumption anywhere after the initial year is preferred by the utility objective.", "quantifier": "every feasible solution and horizon", "why_tests_cant": "closed form of a recursion over any horizon", "anchors": ["mimosa/components/objective/utility.py", "mimosa/components/objective/globalcosts.py"]}
{"id": "C45", "title": "Tightening a policy constraint never enlarges the feasible set", "statement": "A smaller carbon budget, lower temperature target, higher minimum emission level, slower inertia limit, or switching one of these options on, gives a subset of the feasible solutions, so the optimal objective cannot improve.", "quantifier": "every pair of configurations differing in one such parameter", "why_tests_cant": "compares two whole optimisation problems", "anchors": ["mimosa/components/emissions.py"]}
{"id": "C46", "title": "The policy path determines the climate outcome", "statement": "With an exogenous baseline, two feasible solutions with the same abatement path have the same emissions, temperature, sea-level rise, learning, damages and carbon prices; without trade and transfers also the same capital, GDP, consumption, welfare and objective, as long as the investments forgone because of mitigation do not exceed the capital stock.", "quantifier": "every pair of feasible solutions", "why_tests_cant": "relates all pairs of solutions", "anchors": ["mimosa/components/emissions.py", "mimosa/components/sealevelrise.py", "mimosa/components/damages/coacch.py"]}
{"id": "C47", "title": "Simulation mode fixes variables", "statement": "In simulation mode each prescribed variable stays within 0.001 of the prescribed value for every year and region in every solution; the active constraints are the model's own and the added ones minus exactly the deactivated names; unknown variables or constraint names and missing regions raise; a solution used as its own prescription remains a solution; without simulation mode the instance is the plain model; a consistent request always builds.", "quantifier": "every set of prescribed values, every feasible solution", "why_tests_cant": "arbitrary files", "anchors": ["mimosa/concrete_model/simulation_mode"]}
{"id": "C48", "title": "Exported results are complete and rectangular", "statement": "For every model the saved table has one row per declared global variable, one per region of each declared regional variable and of each time- and region-dependent parameter, and no other; each row has exactly one value per model year; no two rows have the same variable and region; the header is Variable, Region, Unit and the model years in order (whole years without decimals); year labels are pairwise different (rounded years, dt >= 0.5).", "quantifier": "every model, horizon, step", "why_tests_cant": "all grids; label collisions depend on dt", "anchors": ["mimosa/export/save.py", "mimosa/export/utils.py"]}
{"id": "C49", "title": "solve() reports failure faithfully", "statement": "MIMOSA.solve returns normally exactly when the solver answered with status ok; it raises SolverException exactly when the solver answered with another status; an exception of the solver propagates and leaves the status unset; exactly one problem is sent, to the chosen solver with the given options; in any history the recorded status is the one of the last solve. With NEOS the e-mail is left in the environment variable NEOS_EMAIL; otherwise that variable is untouched. Findings: the termination condition is not inspected; NEOS without e-mail raises TypeError.", "quantifier": "every sequence of solves and solver outcomes", "why_tests_cant": "histories of calls on one object", "anchors": ["mimosa/mimosa.py: MIMOSA.solve"]}
{"id": "C50", "title": "Soft minimum / maximum / switch", "statement": "soft_switch is in (0,1) and increasing; soft_min(x) is strictly above max(x,0), at most max(x,0)+scale/(25*pi), strictly increasing, and soft_min(x)-soft_min(-x)=x; soft_max(x,m) is strictly below min(x,m) and within the same distance.", "quantifier": "every real x, every positive scale", "why_tests_cant": "continuum", "anchors": ["mimosa/common/pyomo_utils.py: soft_switch, soft_min, soft_max"]}
{"id": "C51", "title": "Soft equality constraints", "statement": "A soft equality with relative tolerance eps holds exactly when lhs is within eps*rhs of rhs; with absolute tolerance, within that amount, for every step and region not ignored. Finding: with a relative tolerance it cannot be satisfied when the right-hand side is negative.", "quantifier": "every lhs/rhs expression and point", "why_tests_cant": "all real values, including negative right-hand sides", "anchors": ["mimosa/common/pyomo_utils.py: GeneralSoftEqualityConstraint, RegionalSoftEqualityConstraint"]}
{"id": "C52", "title": "The model has feasible solutions", "statement": "For every abatement path starting at zero there is a complete assignment of all model variables satisfying every equation, which is a solution exactly if it respects the policy limits and bounds: with exogenous baselines always; with the default endogenous baselines for abatement in [0,1], as long as damages cannot exceed GDP at any temperature the economy can reach. In particular a no-policy run exists, so the theorems about feasible solutions are not vacuous.", "quantifier": "every abatement path, data set, horizon", "why_tests_cant": "existence over a continuum of paths", "anchors": ["mimosa/abstract_model.py: create_abstract_model", "mimosa/components/*"]}
{"id": "C53", "title": "save() writes the current values", "statement": "MIMOSA.save writes the values the model currently holds and the parameters to two files and nothing else; after a successful solve and save the file holds that solution until a later call writes to the same path; saving before any solve or after a failed one is not refused and writes the values of the unsolved model; with no name the file is None.csv.", "quantifier": "every history of solve and save calls and every solver behaviour", "why_tests_cant": "histories of calls on one object", "anchors": ["mimosa/mimosa.py: MIMOSA.save", "mimosa/export/save.py: save_output"]}
{"id": "C54", "title": "Valid configurations are accepted", "statement": "A configuration whose every entry addresses a declared parameter (or lies inside a dictionary-valued one) and whose every value, or default where absent, passes its parameter's own check, is accepted: loading it raises no error or warning.", "quantifier": "every nested user dictionary with text keys, every oracle for unit parsing", "why_tests_cant": "infinitely many nested dictionaries", "anchors": ["mimosa/common/config/parseconfig.py: check_params, parse_params, check_obsolete_params", "mimosa/common/config/utils/parsers.py"]}
{"id": "C55", "title": "Given values mean what they say", "statement": "For a value the user gave (and that is not a switch-off of an optional limit): a bool is stored as True or False exactly for the truthy and falsy spellings; a whole number, or decimal digits as text, is stored as that integer and a fraction is truncated towards zero; a number or decimal text is stored as that number; text, listed values and quantities are kept as given; lists keep their length; dictionaries stay dictionaries, datasources with all five entries. Conversely, text given for a number is only accepted if it is one: blanks around it, an optional sign, digits (single underscores between them are allowed) and, for a number that need not be whole, a point, digits and an exponent, or inf, infinity or nan; the number stored is the one written, or infinite where no double can hold it. True and False given for a number are 1 and 0; given for a text they are written out, like whole numbers. Lists, dictionaries and nothing are never accepted for a number or a bool.", "quantifier": "every accepted configuration, template and parameter", "why_tests_cant": "infinitely many values and spellings", "anchors": ["mimosa/common/config/utils/parsers.py: parse methods"]}
{"id": "C56", "title": "Reported indicators follow their definitions", "statement": "In every solution: relative mitigation costs are mitigation costs over gross GDP (never below the configured minimum level, never negative in the first year) and the global figure is the GDP-weighted average, hence between the smallest and largest regional figure; relative cumulative emissions are 1 in the first year and cumulative emissions over cumulative baseline emissions afterwards; emission reduction per cost and cost per emission reduction underestimate the exact global ratios, by at most the smoothing error 1/(25 pi) in the denominator, and their product stays below 1 (finding: with non-positive total costs the reported reduction per cost is positive and at least 25 pi times the reductions); mortality is the regional quadratic in temperature, its cost 13000 times mortality times population, and no other variable or the objective depends on the mortality parameters.", "quantifier": "every feasible solution, step and region, all mortality parameters", "why_tests_cant": "all real-valued solutions of the optimisation problem", "anchors": ["mimosa/components/mitigation.py: get_constraints", "mimosa/components/emissions.py: relative_cumulative_emissions", "mimosa/components/damages/coacch.py: mortality"]}
{"id": "C57", "title": "The shipped inputs always load", "statement": "With the input files that ship with the package, every configuration that is accepted, keeps the default files and region mappings, uses a subset of the 26 IMAGE regions, a start year of 2010 or later, an end year of 2200 or earlier and a real (not NaN) time step can be turned into a model instance: no column, region, scenario, quantile, damage-scaling or unit lookup is missing, whatever SSP, damage module, quantile, trade, welfare or objective choice is made and however many models were constructed before in the same process.", "quantifier": "every accepted configuration with the bundled files, every earlier history of constructions", "why_tests_cant": "all configurations times all previous runs; the lookups depend on values, not only on types", "anchors": ["mimosa/concrete_model/instantiate_params.py: InstantiatedModel", "mimosa/common/regional_params", "mimosa/common/data/datastore.py", "mimosa/inputdata"]}
{"id": "C58", "title": "Sign of the shipped baselines", "statement": "With the shipped input files, in every model year that is a whole decade (2010, 2020, ..., 2250), baseline GDP and population of every IMAGE region are strictly positive, and baseline emissions are never zero; they are positive, except (finding: extrapolation beyond 2100) that they are negative for SSP1 in Brazil from 2110, Oceania and Russia from 2120, Central America and South Africa from 2130, and for SSP4 in Brazil from 2130.", "quantifier": "every constructed instance with default input files, every decade step, every IMAGE region, every SSP, horizon and time step", "why_tests_cant": "all horizons, time steps and unit factors; values beyond 2100 are extrapolated, not listed in the file", "anchors": ["mimosa/common/data/datastore.py: extrapolate, UnitValues interpolation", "mimosa/common/data/utils.py: extrapolate", "mimosa/inputdata/data/data_IMAGE_SSP.csv"]}
{"id": "C59", "title": "Simulation mode uses the given data", "statement": "With simulation mode on, every number the user gives for a variable, a region (or Global) and a model year, as a nested dictionary or in a CSV file in the format of saved results, is imposed: every solution is within 0.001 of it. A saved run can be imposed again: with at least four model years of at most two decimals, a simulation of declared variables from the file of a run starts without error, and the run's own values satisfy the simulation model as long as the imposed values are below 1000 (finding: the file has six significant digits, so with larger values a run need not satisfy the model that imposes its own output). With simulation mode off, imposed variables and deactivated constraints have no effect.", "quantifier": "every configuration, dictionary or file of given data, feasible point, variable, region and model year", "why_tests_cant": "all data tables and all solutions of the resulting optimisation problem; the round trip through the saved file depends on every printed value", "anchors": ["mimosa/concrete_model/simulation_mode/set_constraints.py: get_interp_data, fix_variable", "mimosa/concrete_model/simulation_mode/utils.py: InterpolatingData", "mimosa/export/save.py: save_output"]}
{"id": "C60", "title": "The configuration reaches the equations", "statement": "In every model created without simulation - custom_mapping, each number, limit, switch and module of the equations is the one at its documented place in the accepted configuration: quantities are converted to the model's units, an optional limit is absent exactly when it is False, the grid starts at the start year with the configured step and its last year is in [end, end+dt), the regions are those of the configuration, each once. The regional numbers are those of the documented column (which depends on the configured quantile, adaptation, combination of damages and calibration factor) or the user's override, and population, GDP and baseline emissions are the data store's series at the model years. Every constructed instance with real numbers (no nan or infinity) and a non-empty horizon gives such a model.", "quantifier": "every user configuration, input file content, custom unit behaviour and history that gives an instance", "why_tests_cant": "all configurations times all input files; a misplaced or swapped parameter gives plausible numbers, not an error", "anchors": ["mimosa/mimosa.py: MIMOSA.__init__", "mimosa/concrete_model/instantiate_params.py: InstantiatedModel", "mimosa/components: Param declarations with '::' documentation", "mimosa/abstract_model.py: create_abstract_model"]}
{"id": "C61", "title": "Which accepted configurations give a model", "statement": "With the shipped files, every accepted configuration with real numbers, default inputs, a non-empty selection of the 26 regions without own capital or damage values, a horizon within 2010-2200 and depreciation below 1 gives an instance and a model. If the baselines are positive (which they are for horizons made of whole decades with SSP2, SSP3 or SSP5, or up to 2100), the model is built without error exactly when: emission trading is not 'globalcostpool'; 'per_cap_convergence' comes with 'emissiontrade' (unless the horizon is one year); a carbon budget with a horizon reaching 2100 comes with fully reversible damages; 'non increasing emissions after 2100' does not start after 2100 plus one step; the learning scale is not 0; elasmu is not 1; and the general inequality aversion is not 1. Every other combination of the remaining values builds.", "quantifier": "every user configuration, history of earlier constructions, oracle for texts and units, number of extra components", "why_tests_cant": "the choices interact; the number of configurations is infinite and the failures occur inside pyomo, long after the configuration was accepted", "anchors": ["mimosa/mimosa.py: MIMOSA.__init__", "mimosa/abstract_model.py: create_abstract_model", "mimosa/common/config", "mimosa/concrete_model/instantiate_params.py", "mimosa/components", "mimosa/inputdata"]}
{"id": "C62", "title": "Creating a model leaves the caller's dictionary alone", "statement": "MIMOSA(params) does not change the dictionary it is given, and the model's parameters do not change when the caller edits that dictionary afterwards, so one dictionary can be edited and used for many runs (run_calibration.py). Exception: a dictionary or list that the caller stored inside a dictionary parameter, below the levels the template describes, is not copied; later edits there are seen by the model, and (finding) a text with a reference \"{...}\" in it is replaced in the caller's own dictionary, so that a second model made from it with another SSP keeps the text of the first.", "quantifier": "every accepted configuration, every place where an object is shared, every later edit", "why_tests_cant": "object identity is invisible in the returned values; all nestings of user dictionaries and all later edits", "anchors": ["mimosa/mimosa.py: MIMOSA.__init__", "mimosa/common/config/parseconfig.py: check_params, parse_param_values", "mimosa/common/config/utils/parsers.py: parse", "mimosa/common/config/utils/nested_dict.py: set_nested", "run_calibration.py"]}
{"id": "C63", "title": "A longer horizon does not change the model before it", "statement": "Two configurations that differ in the end year only (all other settings equal) give models with the same numbers at every common model year: data, parameters and equations before the end do not depend on where the horizon ends. So the plan of a longer run, cut off at the earlier end, is a feasible plan of the shorter run, and by the shorter run's own end no longer run achieves more discounted welfare (or lower discounted costs) than the optimal shorter run.", "quantifier": "every pair of configurations and constructed instances, every input file content, history of earlier constructions, feasible plan", "why_tests_cant": "all configurations, data files and plans; the horizon enters through interpolation, extrapolation and index sets", "anchors": ["mimosa/concrete_model/instantiate_params.py: InstantiatedModel", "mimosa/common/data: DataStore", "mimosa/abstract_model.py: create_abstract_model", "mimosa/components"]}
{"id": "C64", "title": "Order and selection of regions", "statement": "The order in which the regions are listed in the configuration has no effect: the models have the same numbers for every region, the same feasible plans and the same optimal plans. Leaving regions out changes no number of the regions that stay (population, GDP, baseline emissions, damage, cost and mortality coefficients, capital factor), nor any global parameter.", "quantifier": "every pair of configurations and constructed instances, every permutation or selection of the regions, every plan", "why_tests_cant": "26! orders and 2^26 selections; a positional mix-up of regions gives plausible numbers", "anchors": ["mimosa/concrete_model/instantiate_params.py: InstantiatedModel", "mimosa/common/data", "mimosa/common/regional_params", "mimosa/components: sums over m.regions"]}
{"id": "C65", "title": "The saved results satisfy the documented equations under their own names", "statement": "In the table written by save for a solved run, the numbers in the rows of the documented variable names satisfy the documented equations: 'GDP_net', 'GDP_gross', 'damage_costs', 'mitigation_costs', 'financial_transfer', 'area_under_MAC', 'import_export_mitigation_cost_balance', 'rel_mitigation_costs', 'investments', 'consumption', 'capital_stock', 'TFP', 'population' (national accounts, production and capital), 'baseline', 'relative_abatement', 'regional_emissions', 'regional_emission_reduction', 'carbonprice', the learning factors, 'global_emissions', 'cumulative_emissions', 'temperature', the sea level parts, the damage parts, the trade and transfer balances, 'utility', 'yearly_welfare' and 'NPV'. So an analysis script can recompute any of them from the others, with every choice of modules (balances that are not modelled are rows of zeros). The numbers are those before printing with six digits.", "quantifier": "every configuration, feasible solution, model year and region", "why_tests_cant": "all solutions; a name attached to the wrong variable gives plausible numbers", "anchors": ["mimosa/export/save.py: save_output, var_to_row", "mimosa/common/pyomo_utils.py: get_all_variables, get_time_region_dependent_params", "mimosa/components"]}
{"id": "C66", "title": "The configuration determines the optimisation problem", "statement": "Two models made from the same configuration are the same optimisation problem: the same named constraints with the same expressions for every step and region, the same bounds, feasible plans and optimal plans, whatever models were made before in either session (the shared data cache does not leak) and with no number left undefined: with the shipped files every series value inside the horizon and every damage, cost, capital and mortality coefficient that the chosen functional forms use is present for every IMAGE region. Data for years after the horizon, for regions that are not listed, and coefficients that a region's functional form does not use have no effect.", "quantifier": "every configuration, every pair of sessions (histories of earlier constructions), every plan", "why_tests_cant": "all configurations, histories and plans; a missing number or a leak between runs shows only in particular combinations", "anchors": ["mimosa/mimosa.py: MIMOSA.__init__", "mimosa/concrete_model/instantiate_params.py: InstantiatedModel", "mimosa/common/data", "mimosa/common/regional_params", "mimosa/components"]}
{"id": "C67", "title": "An optimal plan exists", "statement": "If the constraints of a model can be met at all, there is a plan that meets them and is at least as good as every other: the optimisation problem that MIMOSA hands to the solver has a solution (the supremum of discounted welfare, or infimum of discounted costs, is attained), so 'the optimal plan' is meaningful. For emissions that do not follow income this holds for every objective, welfare function, trade scheme, transfer and effort-sharing regime; for emissions that follow income with damages bounded below (no unlimited benefits from warming) it holds for the cost objective always, and for the utility objective when the elasticity of marginal utility (and inequality aversion, where used) exceeds 1 - the default is 1.001. Unlimited gains from warming in some regions are also allowed, without transfers, when some region's damage grows without limit: this is needed for the shipped data, whose damage function for China turns into a gain beyond about 19 degrees; with the shipped files it covers the default configuration and every configuration whose regions include one of 14 checked ones. For whole-decade horizons without damages and policy limits nothing is left to assume: the run with the shipped baseline emissions meets the constraints, and an optimal plan exists.", "quantifier": "every configuration of the model (parameters, regions, horizon) and the set of all its feasible plans", "why_tests_cant": "quantifies over the infinite set of all plans; a single unbounded direction in one region and year would make the problem ill-posed and the solver's answer an artefact", "anchors": ["mimosa/abstract_model.py: create_abstract_model, objective", "mimosa/components", "mimosa/mimosa.py: MIMOSA.solve"]}
{"id": "C68", "title": "Without damages to avoid, the optimal plan is the baseline", "statement": "Abatement costs consumption: of two plans without transfers, the one with mitigation costs and damages no higher in any year and region has no less capital, output and consumption in any year, and more consumption wherever its costs are lower. So when there is no damage to avoid (damages ignored with the utility objective, or the 'nodamage' module), and no trade or transfers, a plan without abatement that meets the constraints is optimal, for every welfare function and both objectives, and every optimal plan has zero abatement, zero carbon price and baseline emissions: an optimisation with 'ignore damages', as in run_baseline.py, returns the no-policy baseline. With the shipped files and exogenous baseline emissions over whole decades, the optimal plan exists and has exactly the shipped emissions. With emission trade the same holds for plans without mitigation costs when the lower limit on relative costs is zero (the default). Simulation mode with abatement fixed at zero (the other run of run_baseline.py) gives the baseline within the tolerance of simulation mode only: abatement up to 0.001, emissions between 99.9% and 100% of the baseline, and costs bounded accordingly.", "quantifier": "every configuration without damages, trade and transfers; all feasible plans", "why_tests_cant": "compares a plan with the infinite set of all feasible plans through a coupled capital recursion over the whole horizon", "anchors": ["run_baseline.py", "mimosa/components/cobbdouglas.py: get_constraints", "mimosa/components/mitigation.py: get_constraints", "mimosa/components/objective", "mimosa/concrete_model/simulation_mode/main.py: set_simulation_mode"]}
{"id": "C69", "title": "GDP stays within explicit factors of the baseline GDP", "statement": "The model does not reproduce the exogenous GDP exactly, even without climate policy: productivity is calibrated on a capital path that saves out of the previous period's GDP, while the model invests out of the current one and smooths capital. The deviation has explicit limits, computed from the data and the economic parameters: as long as the net GDP of a region is at most the share mu (at least the share lam) of its gross GDP, gross GDP is at most (at least) a fixed factor of the baseline GDP in every year, the factor depending on the fastest (slowest) growth from one period to the next, on the savings rate, depreciation and capital share only. In a run without mitigation costs, damages and transfers, GDP and with it the emissions that follow GDP (the default) stay between these two factors of the exogenous ones. It follows that a run without climate policy that meets all constraints exists, with temperatures bounded accordingly; with the shipped files over whole decades, default emissions and no damages, this run exists, is optimal, and every optimal plan abates nothing.", "quantifier": "every feasible plan of every model with bounded growth; every region and year", "why_tests_cant": "holds for every plan and horizon; an error that compounds over periods (a wrong lag, exponent or investment share) shows only over long horizons and certain growth paths", "anchors": ["mimosa/components/cobbdouglas.py: get_constraints", "mimosa/common/economics.py: get_TFP_value, calc_dKdt, calc_GDP", "mimosa/components/emissions.py: _get_emissions_constraints", "run_baseline.py"]}
{"id": "C70", "title": "Least-cost plans have one carbon price", "statement": "The documentation says that minimising costs with equal weights leads to uniform carbon prices across regions. For the objective that minimises global discounted costs, with prescribed baseline emissions and without damages, transfers and effort-sharing regimes (with or without emission trading): in an optimal plan, whatever the climate policy, a region that could still abate a little more in a step never has a lower carbon price in that step than a region that could abate a little less. So the carbon price is the same in all regions in which no limit that concerns the region alone (the minimum level of regional emissions, the speed limit of regional reductions, the ban on rising emissions after 2100, the ranges of abatement and of the carbon price, and zero abatement) is reached, although the regions' cost curves and emissions differ. With the default objective, maximising welfare, and without trade, this is only true of weighted prices, also with damages: in regions with room the carbon price times the value of a unit of costs there is the same, where this value is the discounted marginal welfare of the income that the unit takes, now and later through the investment that is missing. With equal weights (cost-minimising welfare), prices in the last step are equal exactly between regions in which capital has the same marginal product net of damages, are lower where it is higher, and differ by at most the factor 1/(1 - alpha). So what the documentation says does not hold literally: there is a two-region world that has welfare-optimal plans, in all of which the carbon prices of two regions with room differ.", "quantifier": "every configuration with the global-costs objective, exogenous emissions and no damages, and every configuration with the welfare objective, exogenous emissions and no trade; every optimal plan, step and pair of regions", "why_tests_cant": "compares an optimum with infinitely many other plans; a wrong weight, area under the curve or regional scaling still gives a plausible optimum", "anchors": ["mimosa/components/objective/globalcosts.py: get_constraints", "mimosa/components/mitigation.py: get_constraints, MAC, AC", "mimosa/components/emissions.py", "mimosa/components/welfare/cost_minimising.py: documentation"]}
{"id": "C71", "title": "Least-cost carbon prices rise with the discount rate", "statement": "A plan of least global discounted costs spreads abatement over time as it spreads it over regions. With prescribed baseline emissions and without damages, transfers and effort-sharing regimes, in an optimal plan, whatever budget or temperature target holds from 2100 on: take two steps before 2100 and a region in each, the same or another. If abatement does not get cheaper by doing (a learning rate of 1; autonomous technological progress is allowed) and neither region nor the world is at one of its limits in these steps (minimum emissions, speed of reduction, ranges of abatement and carbon price; cumulative emissions and the contributions to sea level are positive), the discounted carbon prices are equal: the carbon price rises with the rate of time preference (Hotelling's rule), by the factor exp(PRTP * years) between the steps, whichever way cumulative emissions are computed. With learning by doing, the discounted carbon price never rises: the discounted price in a region that could abate a little less later is not above the discounted price in a region that could abate a little more earlier.", "quantifier": "every configuration with the global-costs objective, exogenous emissions and no damages; every optimal plan, all pairs of steps before 2100 and of regions", "why_tests_cant": "compares an optimum with infinitely many other plans; a discount factor applied to the wrong year or learning that depends on the wrong emissions still gives a plausible optimum", "anchors": ["mimosa/components/objective/globalcosts.py: get_constraints", "mimosa/components/mitigation.py: _get_mac_constraints, _get_learning_constraints, MAC, AC", "mimosa/components/emissions.py: _get_emissions_constraints", "mimosa/components/sealevelrise.py: get_constraints"]}
{"id": "C72", "title": "Least-cost problems are convex", "statement": "With prescribed baseline emissions, the global-costs objective and without damages, transfers, effort-sharing regimes or learning by doing (autonomous technological progress is allowed), and if the warming without abatement stays below some 30 degrees or so (the range in which the sea-level equations keep their variables inside their bounds), the problem that MIMOSA poses is convex. (1) Take a plan that satisfies the model under one policy and a plan that satisfies it under another, and a number l between 0 and 1. Under the policy in between (every limit, that is budget, temperature target, speeds of reduction and minimum emissions, at (1-l) times one plus l times the other; a limit or rule that only one of the policies has is left out) there is a plan that satisfies the model in which every region's abatement and emissions in every step after the first, and every year's temperature, are in between in the same proportion, and which costs, discounted over all regions and steps, at most (1-l) times what the one plan costs plus l times what the other does. (2) So the least cost of keeping to a policy is a convex function of the policy's limits: the optimum of a policy in between costs at most the mean of the optima, and tightening a budget twice by the same amount costs at least as much the second time as the first. (3) Two optimal plans have the same abatement in every region and step where there are emissions to abate and the cost curve rises; if that is so everywhere they also agree in carbon prices, abatement costs, emissions, cumulative emissions and temperature. (4) A plan that satisfies the model and is not beaten by any plan whose abatement is close to its own is optimal: what a local solver finds is the global optimum. It does not depend on the starting point.", "quantifier": "every least-cost configuration with exogenous emissions and without learning by doing or damages; all pairs of policies and of plans, all proportions, all local optima", "why_tests_cant": "compares all feasible plans with each other; a solver run from one starting point cannot tell whether another would end elsewhere, and nothing in a single result shows that it is unique", "anchors": ["mimosa/components/objective/globalcosts.py: get_constraints", "mimosa/components/mitigation.py: _get_mac_constraints, _get_learning_constraints, MAC, AC", "mimosa/components/emissions.py: _get_emissions_constraints, _get_inertia_and_budget_constraints", "mimosa/components/sealevelrise.py: get_constraints", "mimosa/mimosa.py: MIMOSA.solve"]}
{"id": "C73", "title": "A temperature target is a carbon budget", "statement": "With a positive TCRE, and everything but the climate goal the same: (1) a temperature target T admits exactly the plans that the carbon budget (T - T0) / TCRE admits when the rule of no emissions after the budget year is off (with a temperature target alone, that rule has no effect, whether on or off). (2) A carbon budget B admits exactly the plans that the temperature target T0 + TCRE * B admits and, if the rule is on, whose global emissions are not positive in any step from 2100 on. (3) When both a budget and a target are given, only the tighter counts: the same plans satisfy the model as with the smaller of the two budgets. (4) A target and its budget have the same optimal plans. (5) If the horizon reaches 2100, a target below the temperature of the first year and a negative budget cannot be met by any plan. For (1)-(4), perc_reversible is at least 1 (the default; below it, a budget cannot be built).", "quantifier": "every configuration with a positive TCRE; all budgets and targets, all plans", "why_tests_cant": "the sets of plans that two configurations admit are infinite; two runs that agree do not show that the constraints do", "anchors": ["mimosa/components/emissions.py: _get_inertia_and_budget_constraints, _get_temperature_constraints"]}
