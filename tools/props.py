import json
P=[]
def p(title,statement,quant,why,anchors):
    P.append(dict(id="C%02d"%(len(P)+1),title=title,statement=statement,quantifier=quant,why_tests_cant=why,anchors=anchors))
CFG="mimosa/common/config/parseconfig.py"
PAR="mimosa/common/config/utils/parsers.py"
ND="mimosa/common/config/utils/nested_dict.py"
p("Parsed configuration = template leaves with user value or default",
  "Whenever load_params/check_params returns, the returned parameter tree contains exactly the parameters of config_default.yaml: for each template parameter the stored value is the parse of the user's value when the user gave one at that path, and of the template default otherwise; no other path exists in the result.",
  "every user configuration (arbitrary nested dictionary), every template tree",
  "user configurations are arbitrary nested dictionaries; a test fixes a handful of them",
  [CFG+": parse_params, check_params, load_params", ND+": get_nested, set_nested", PAR+": GeneralParser.get"])
p("Unknown or misspelled configuration keys are rejected",
  "If the user's configuration contains a leaf whose path is not a parameter of the template (and not inside a parameter of type dict/datasource), check_params does not return: it raises RuntimeWarning (or an earlier parse error). The check is by joined path name, so it must be determined for which key alphabets it is sound.",
  "every user configuration, every template",
  "there are infinitely many misspellings and nestings; the check compares joined names, which can collide",
  [CFG+": check_obsolete_params, create_leaf_criterium", ND+": flatten"])
p("Numeric parameters respect the template's min/max",
  "Every int or float parameter in an accepted configuration is False (only when the template says can_be_false) or a number between the template's min and max.",
  "every user configuration, every numeric parameter of the template",
  "values range over all ints, floats (incl. nan/inf) and strings; sampling misses the non-ordered ones",
  [PAR+": NumParser.parse, FloatParser, IntParser"])
p("Enumerated parameters take a listed value",
  "Every enum parameter in an accepted configuration equals one of the values listed in the template, so no module dispatch on it can fall through. The default of such a parameter is one of the values too.",
  "every user configuration, every enum parameter",
  "all python values, including values equal under == but of another type, must be covered",
  [PAR+": EnumParser", "mimosa/abstract_model.py: create_abstract_model"])
p("'False' normalisation of optional limits",
  "A can_be_false parameter given as False, 0, 0.0, 'False', 'false' or 'no' is stored as exactly False (the limit is switched off); a parameter that is not can_be_false is never switched off; a non-falsy value is never turned into False.",
  "every parser, every value",
  "python's == identifies 0, 0.0 and False: the set of affected inputs is infinite",
  [PAR+": GeneralParser.check_false, is_falsy, is_truthy, BoolParser.parse"])
p("Re-validating a validated configuration changes nothing",
  "Feeding the result of load_params back to check_params (which MIMOSA() does) returns the same parameters.",
  "every accepted user configuration",
  "needs every value of every parser type, not the default configuration only",
  [CFG+": load_params, check_params", "mimosa/mimosa.py: MIMOSA.__init__"])
p("Parameter references in strings are resolved",
  "In an accepted configuration each string value of the form '...{a - b}...' whose reference names an existing string parameter is replaced by that parameter's value; unknown references are left untouched and all values without references are unchanged.",
  "every parameter tree, every string with any number of references",
  "strings and reference combinations are unbounded; the documented use has several references in one string",
  [CFG+": parse_param_values"])
p("Nested dictionary access laws",
  "set_nested followed by get_nested at the same path returns the value written; other, non-overlapping paths are unaffected; writing the value already present changes nothing; flatten lists exactly the leaves.",
  "every nested dictionary, path and value",
  "depth and branching are unbounded",
  [ND+": get_nested, set_nested, flatten"])
p("Default-unit placeholders are always eliminated",
  "For every unit string, after replacing the default units no placeholder name (currency_unit, emissionsrate_unit, emissions_unit, temperature_unit, population_unit) remains in the target unit given to Pint.",
  "every unit string",
  "replacements are sequential and emissionsrate_unit expands to a string containing emissions_unit: order matters for all strings",
  ["mimosa/common/units.py: Quantity._parse_default_units", "mimosa/inputdata/config/default_units.yaml"])
p("Every model parameter has a source",
  "For every accepted configuration, each '::a.b' documentation path of a model parameter names an existing template parameter, so parameter instantiation never raises KeyError; quantity parameters are converted to the template's unit and all others are passed as is.",
  "every accepted configuration, every model parameter",
  "depends on all module combinations and on the parser result for arbitrary configurations",
  ["mimosa/concrete_model/instantiate_params.py: InstantiatedModel._set_instance_data_main", "mimosa/components/*.py (Param docs)"])
p("The time grid starts at the start year and just covers the end year",
  "With start year s, end year e and step dt, the model years are s, s+dt, ..., the first is s, the last lies in [e, e+dt) and the number of steps is ceil((e-s)/dt)+1; the horizon is non-empty exactly when the configuration makes it so (end before start must not give an empty model).",
  "every accepted start, end, dt",
  "dt is a continuum; end-start need not be a multiple of dt",
  ["mimosa/concrete_model/instantiate_params.py: _set_instance_data_main", "mimosa/inputdata/config/config_default.yaml: time"])
p("Exogenous data are read exactly at model years",
  "For every model step t, the population/GDP/emissions parameter equals the data-store's own value for that year (model years are nodes of the data grid, so no interpolation error is introduced and the value does not depend on neighbouring years).",
  "every accepted start, end, dt, every data series",
  "continuum of dt and series",
  ["mimosa/common/data/datastore.py: DataStore.interp_data, data_years", "mimosa/concrete_model/instantiate_params.py"])
p("Extrapolation of input data beyond the data file",
  "Data inside the file's year range are unchanged by extrapolation; beyond it the series changes monotonically in the direction of its last growth rate and is constant from the stabilising year on.",
  "every data series, every later year",
  "every series and every horizon length",
  ["mimosa/common/data/utils.py: extrapolate"])
p("The data cache is transparent",
  "Whatever sequence of data stores and queries was executed before in the same process, a query returns what it would return with an empty cache, provided the files on disk did not change; failed queries leave the cache consistent.",
  "every history of queries, every file content",
  "class-level cache shared by all models of a process: depends on the whole history",
  ["mimosa/common/data/datastore.py: DataStore"])
p("Regional parameter overrides",
  "A regional parameter value given in the 'regions' section of the configuration takes precedence over the regional parameter file for exactly that region and parameter; every other region gets the file's (mapped) value.",
  "every regions section, parameter file, region and parameter",
  "arbitrary override dictionaries",
  ["mimosa/common/regional_params/main.py: RegionalParamStore.get", "mimosa/common/regional_params/regional_param_container.py"])
p("Region mapping",
  "When a parameter file uses another region definition, each model region gets the mean of the parameter over the file's regions it is mapped to (the source region's value when it is mapped to one), or KeyError when no mapping exists.",
  "every mapping table and parameter table",
  "arbitrary tables",
  ["mimosa/common/regional_params/region_mappers.py"])
p("Constraint names are unique and stable",
  "Building the model adds each constraint of the selected modules exactly once under its own name, or raises; no constraint silently replaces another, so the names listed in deactivated_constraints denote one constraint.",
  "every module combination and constraint list",
  "generated names depend on the number of components already in the model",
  ["mimosa/common/pyomo_utils.py: add_constraint", "mimosa/abstract_model.py: create_abstract_model"])
p("Every accepted configuration builds a model",
  "For every configuration accepted by check_params, building the abstract model and its constraints raises no exception (every documented module choice can actually be used).",
  "every accepted configuration (all module combinations, all numeric values)",
  "combination of all module choices with all continuous parameters",
  ["mimosa/abstract_model.py: create_abstract_model", "mimosa/components/*"])
p("Constraints only mention existing variables at existing indices",
  "Every variable occurrence in every generated constraint is a variable declared by the selected modules, at a time step in 0..tf and a region of the model.",
  "every accepted configuration that builds, every horizon length, every region set",
  "t-1 and year2100 style index arithmetic must be safe for every horizon and step",
  ["mimosa/components/*.py (constraint rules)"])
EM="mimosa/components/emissions.py"
p("Emission accounting",
  "In every feasible solution global emissions are the sum of regional emissions each year, regional emissions are baseline minus abatement, and cumulative emissions at step t equal the trapezoidal (or right-endpoint) sum of global emissions over steps 1..t, starting at zero.",
  "every feasible solution, horizon, region set",
  "holds for all points of a feasible set in thousands of dimensions",
  [EM])
p("Carbon budget",
  "With a carbon budget B, cumulative emissions never exceed B in any model year from 2100 on; the budget is enforced for every accepted time grid.",
  "every feasible solution, every accepted time grid and budget",
  "needs all solutions and all grids (the model may not contain the year 2100)",
  [EM+": carbon budget constraints"])
p("Emissions after the budget year",
  "With 'not positive after budget year', global emissions are non-positive from 2100 on, so cumulative emissions and (TCRE>=0) temperature never increase from then on.",
  "every feasible solution and time grid",
  "an inductive consequence along the whole horizon",
  [EM])
p("Temperature is TCRE-linear and respects the target",
  "In every feasible solution temperature(t) = T0 + TCRE * cumulative emissions(t), temperature(0)=T0, temperature never falls below T0 when TCRE>=0, and with a target T the temperature is at most T in every model year from 2100 on.",
  "every feasible solution, grid, parameters",
  "all solutions",
  [EM])
p("Emission-reduction speed limit",
  "With a regional (global) inertia limit i<=0, emissions can never fall faster than |i| of initial emissions per year: over any two steps s<=t, E(t)-E(s) >= (year(t)-year(s)) * i * baseline(0).",
  "every feasible solution, any two time steps",
  "accumulated over any number of steps",
  [EM+": inertia constraints"])
p("Minimum emission levels and non-increasing emissions",
  "Regional and global emissions stay at or above the configured minimum level in every year (after the initial one); with the option on, regional emissions are non-increasing after 2100; a switched-off option imposes nothing.",
  "every feasible solution, grid, parameters",
  "all solutions, all grids",
  [EM])
p("No abatement means baseline",
  "With an exogenous baseline and zero abatement in a region, its emissions equal the baseline; when all regions do so cumulative emissions equal the model's own cumulative baseline emissions (this depends on the integration option).",
  "every feasible solution, both integration options",
  "all data series and horizons",
  [EM])
MI="mimosa/components/mitigation.py"
p("Abatement cost curve is the integral of the marginal abatement cost curve",
  "For every learning factor, gamma and beta in range, abatement cost is zero at zero abatement, its derivative is the marginal abatement cost, both are increasing in abatement, and cost is convex.",
  "every abatement level and parameter value",
  "calculus statement over the reals",
  [MI+": MAC, AC"])
p("Carbon price and initial year",
  "In every feasible solution the carbon price is the marginal abatement cost of the region's relative abatement, the carbon price in the initial year is zero and therefore no abatement happens in the initial year.",
  "every feasible solution",
  "all solutions",
  [MI])
p("Technological learning only lowers costs",
  "The learning-by-doing factor is 1 at zero cumulative abatement, is non-increasing in cumulative abatement and is multiplied by the LBD rate at each doubling; learning over time is non-increasing; hence the same relative abatement never costs more at higher learning.",
  "every cumulative abatement path, LBD rate, LOT rate",
  "continuum",
  [MI+": LBD_factor, LOT_factor, learning_factor"])
p("GDP accounting identities",
  "In every feasible solution GDP_net = GDP_gross*(1 - damages) - mitigation costs - financial transfers (damages dropped with 'ignore damages'), investments = savings rate * GDP_net, and consumption + investments = GDP_net.",
  "every feasible solution, year, region",
  "all solutions",
  ["mimosa/components/cobbdouglas.py"])
p("Capital and output stay positive and equations stay defined",
  "In every feasible solution with positive data, capital stock and gross GDP are strictly positive whenever investments are non-negative, and every power in the production function, utility and learning equations has a positive base (no undefined operation).",
  "every feasible solution, every horizon",
  "inductive along the horizon, continuum of values",
  ["mimosa/components/cobbdouglas.py", "mimosa/common/economics.py", "mimosa/common/pyomo_utils.py: soft_min"])
p("TFP calibration reproduces baseline GDP",
  "With the calibrated total factor productivity the production function returns exactly baseline GDP at the calibration capital stock, for every year; and a run without policy and damages should therefore reproduce baseline GDP.",
  "every data series, horizon, parameters",
  "all series",
  ["mimosa/common/economics.py: get_TFP_value, calc_GDP, calc_dKdt", "mimosa/components/cobbdouglas.py"])
p("Emission trade is zero-sum",
  "In every feasible solution of the emission-trade module import and export of mitigation costs sum to zero over regions each year, total mitigation costs equal total area under the MACs, traded emissions sum to zero, and allowances sum to global emissions.",
  "every feasible solution, year, region set",
  "all solutions, region sets",
  ["mimosa/components/emissiontrade/emissiontrade.py"])
p("Payment-level limits in emission trade",
  "With min/max rel payment levels set, each region pays at least/at most that share of the area under its own MAC each year; unset levels impose nothing.",
  "every feasible solution",
  "all solutions",
  ["mimosa/components/emissiontrade/emissiontrade.py"])
p("No trade means each region pays its own abatement",
  "With notrade, mitigation costs of a region are the area under its own MAC and all trade balances are zero; every solution without trade is also a solution with trade of the same objective value (trade can only help).",
  "every feasible solution",
  "relates two whole feasible sets",
  ["mimosa/components/emissiontrade/notrade.py", "mimosa/components/emissiontrade/emissiontrade.py", MI])
p("Financial transfers are zero-sum and bounded",
  "With the global damage pool, transfers sum to zero over regions each year so total net GDP does not depend on them, and no region receives more than its own damage costs; with notransfer all transfers are zero.",
  "every feasible solution",
  "all solutions",
  ["mimosa/components/financialtransfer/globaldamagepool.py", "mimosa/components/financialtransfer/notransfer.py"])
ES="mimosa/components/effortsharing.py"
p("Equal mitigation costs / equal total costs effort sharing",
  "In every feasible solution of the equal-cost regimes any two regions have relative costs within the documented tolerance of each other in every constrained year, for an arbitrary common level.",
  "every feasible solution, year, pair of regions",
  "all solutions and pairs",
  [ES, "mimosa/common/pyomo_utils.py: RegionalSoftEqualityConstraint"])
p("Per-capita convergence effort sharing",
  "Emission shares prescribed by per-capita convergence sum to one over regions each year, equal the initial shares in the first year and population shares from the convergence year on, and never leave the interval between both; with convergence year False initial shares are used throughout (grandfathering).",
  "every data set, time grid, convergence year",
  "continuum of years",
  [ES])
DM="mimosa/components/damages/coacch.py"
p("Damages are zero in the initial year and follow the configured form",
  "In every feasible solution the region's damages in year t are the scaled difference of its damage function at the current and the initial temperature (sea level), hence zero in the initial year; an unknown functional form raises NotImplementedError.",
  "every feasible solution, region, form string",
  "all solutions, strings",
  [DM])
p("Damage functions are well behaved",
  "Linear and quadratic damage functions vanish at zero warming; the logistic form is defined for all temperatures, bounded by b1/100 in absolute value, and monotone; sea-level-rise damages are confined to their declared bounds.",
  "every temperature, every coefficient",
  "continuum",
  [DM])
SL="mimosa/components/sealevelrise.py"
p("Sea-level rise",
  "In every feasible solution total sea-level rise is the sum of thermal expansion, glaciers and ice sheets each year, each component follows its recursion from its initial value, and glacier contribution never exceeds the total glacier ice available under the step-size condition.",
  "every feasible solution and horizon",
  "inductive along the horizon",
  [SL])
p("No-damage mode",
  "With the nodamage module damage costs are zero in every year and region and net GDP has no damage term.",
  "every feasible solution",
  "all solutions",
  ["mimosa/components/damages/nodamage.py"])
WF="mimosa/components/welfare"
p("Welfare modules are monotone and concave in consumption",
  "For every accepted elasmu (inequality aversion), welfare strictly increases with any region's consumption per capita; the utility function is concave; cost-minimising welfare depends on global consumption only.",
  "every consumption path, every accepted parameter value",
  "continuum including the singular value 1",
  [WF])
p("Objective is discounted welfare",
  "In every feasible solution the NPV at the last step equals the sum over steps 1..tf of dt*exp(-PRTP*(year(t)-begin year))*welfare(t); the utility objective maximises it and the global-costs objective minimises discounted costs.",
  "every feasible solution and horizon",
  "closed form of a recursion over any horizon",
  ["mimosa/components/objective/utility.py", "mimosa/components/objective/globalcosts.py"])
p("Tightening a policy constraint never enlarges the feasible set",
  "A smaller carbon budget, lower temperature target, higher minimum emission level or slower inertia gives a subset of the feasible solutions, so the optimal objective cannot improve; switching the option off gives a superset.",
  "every pair of configurations differing in one such parameter",
  "compares two whole optimisation problems",
  [EM])
p("The policy path determines the climate outcome",
  "With an exogenous baseline, two feasible solutions with the same abatement path have the same emissions, temperature, sea-level rise and damages: the model has no hidden degree of freedom.",
  "every pair of feasible solutions",
  "relates all pairs of solutions",
  [EM, SL, DM])
p("Simulation mode fixes variables",
  "In simulation mode each constrained variable stays within the stated tolerance of the prescribed value for every year and region in every feasible solution, and deactivated constraints impose nothing; an unknown constraint name raises.",
  "every set of prescribed values, every feasible solution",
  "arbitrary files",
  ["mimosa/concrete_model/simulation_mode"])
p("Exported results are complete and rectangular",
  "For every model the saved table has one row per global variable and one per region of each regional variable, each row with exactly one value per model year, with pairwise different year labels.",
  "every model, horizon, step",
  "all grids; label collisions depend on dt",
  ["mimosa/export/save.py", "mimosa/export/utils.py"])
p("solve() reports failure faithfully",
  "MIMOSA.solve returns normally exactly when the solver reports status ok and an optimal termination; otherwise it raises MimosaSolverWarning; the recorded status is always that of the last solve, also after an exception.",
  "every sequence of solves and solver outcomes",
  "histories of calls on one object",
  ["mimosa/mimosa.py: MIMOSA.solve"])
p("Soft minimum / maximum / switch",
  "soft_switch is in (0,1) and increasing; soft_min(x) is strictly above max(x,0), at most max(x,0)+scale/(25*pi), strictly increasing, and soft_min(x)-soft_min(-x)=x; soft_max(x,m) is strictly below min(x,m) and within the same distance.",
  "every real x, every positive scale",
  "continuum",
  ["mimosa/common/pyomo_utils.py: soft_switch, soft_min, soft_max"])
p("Soft equality constraints",
  "A soft equality with relative tolerance eps forces lhs within eps*rhs of rhs; with absolute tolerance, within that amount; it must be satisfiable whatever the sign of the right-hand side.",
  "every lhs/rhs expression and point",
  "all real values, including negative right-hand sides",
  ["mimosa/common/pyomo_utils.py: GeneralSoftEqualityConstraint, RegionalSoftEqualityConstraint"])
p("The model has feasible solutions",
  "For every abatement path starting at zero there is a complete assignment of all model variables satisfying all definitional constraints, so the theorems about feasible solutions are not vacuous and the solver's problem is not over-determined.",
  "every abatement path, data set, horizon",
  "existence over a continuum of paths",
  ["mimosa/abstract_model.py: create_abstract_model", "mimosa/components/*"])
p("save() writes the current values",
  "MIMOSA.save always writes the values the model currently holds: after a successful solve, and until the next solve, the named file holds that solution; saving before any solve or after a failed one is not refused and writes the values of the unsolved model; with no name the file is None.csv.",
  "every history of solve and save calls and every solver behaviour",
  "histories of calls on one object",
  ["mimosa/mimosa.py: MIMOSA.save", "mimosa/export/save.py: save_output"])
p("Valid configurations are accepted",
  "A configuration whose every entry addresses a declared parameter (or lies inside a dictionary-valued one) and whose every value, or default where absent, passes its parameter's own check, is accepted: loading it raises no error or warning.",
  "every nested user dictionary with text keys, every oracle for unit parsing",
  "infinitely many nested dictionaries",
  ["mimosa/common/config/parseconfig.py: check_params, parse_params, check_obsolete_params", "mimosa/common/config/utils/parsers.py"])
p("Given values mean what they say",
  "For a value the user gave (and that is not a switch-off of an optional limit): a bool is stored as True or False exactly for the truthy and falsy spellings; a whole number, or decimal digits as text, is stored as that integer and a fraction is truncated towards zero; a number or decimal text is stored as that number; text, listed values and quantities are kept as given; lists keep their length; dictionaries stay dictionaries, datasources with all five entries. Conversely, text given for a number is only accepted if it is one: blanks around it, an optional sign, digits (single underscores between them are allowed) and, for a number that need not be whole, a point, digits and an exponent, or inf, infinity or nan; the number stored is the one written, or infinite where no double can hold it. True and False given for a number are 1 and 0; given for a text they are written out, like whole numbers. Lists, dictionaries and nothing are never accepted for a number or a bool.",
  "every accepted configuration, template and parameter",
  "infinitely many values and spellings",
  ["mimosa/common/config/utils/parsers.py: parse methods"])
p("Reported indicators follow their definitions",
  "In every solution: relative mitigation costs are mitigation costs over gross GDP (never below the configured minimum level, never negative in the first year) and the global figure is the GDP-weighted average, hence between the smallest and largest regional figure; relative cumulative emissions are 1 in the first year and cumulative emissions over cumulative baseline emissions afterwards; emission reduction per cost and cost per emission reduction underestimate the exact global ratios, by at most the smoothing error 1/(25 pi) in the denominator, and their product stays below 1 (finding: with non-positive total costs the reported reduction per cost is positive and at least 25 pi times the reductions); mortality is the regional quadratic in temperature, its cost 13000 times mortality times population, and no other variable or the objective depends on the mortality parameters.",
  "every feasible solution, step and region, all mortality parameters",
  "all real-valued solutions of the optimisation problem",
  ["mimosa/components/mitigation.py: get_constraints", "mimosa/components/emissions.py: relative_cumulative_emissions", "mimosa/components/damages/coacch.py: mortality"])
p("The shipped inputs always load",
  "With the input files that ship with the package, every configuration that is accepted, keeps the default files and region mappings, uses a subset of the 26 IMAGE regions, a start year of 2010 or later, an end year of 2200 or earlier and a real (not NaN) time step can be turned into a model instance: no column, region, scenario, quantile, damage-scaling or unit lookup is missing, whatever SSP, damage module, quantile, trade, welfare or objective choice is made and however many models were constructed before in the same process.",
  "every accepted configuration with the bundled files, every earlier history of constructions",
  "all configurations times all previous runs; the lookups depend on values, not only on types",
  ["mimosa/concrete_model/instantiate_params.py: InstantiatedModel", "mimosa/common/regional_params", "mimosa/common/data/datastore.py", "mimosa/inputdata"])
p("Sign of the shipped baselines",
  "With the shipped input files, in every model year that is a whole decade (2010, 2020, ..., 2250), baseline GDP and population of every IMAGE region are strictly positive, and baseline emissions are never zero; they are positive, except (finding: extrapolation beyond 2100) that they are negative for SSP1 in Brazil from 2110, Oceania and Russia from 2120, Central America and South Africa from 2130, and for SSP4 in Brazil from 2130.",
  "every constructed instance with default input files, every decade step, every IMAGE region, every SSP, horizon and time step",
  "all horizons, time steps and unit factors; values beyond 2100 are extrapolated, not listed in the file",
  ["mimosa/common/data/datastore.py: extrapolate, UnitValues interpolation", "mimosa/common/data/utils.py: extrapolate", "mimosa/inputdata/data/data_IMAGE_SSP.csv"])
p("Simulation mode uses the given data",
  "With simulation mode on, every number the user gives for a variable, a region (or Global) and a model year, as a nested dictionary or in a CSV file in the format of saved results, is imposed: every solution is within 0.001 of it. A saved run can be imposed again: with at least four model years of at most two decimals, a simulation of declared variables from the file of a run starts without error, and the run's own values satisfy the simulation model as long as the imposed values are below 1000 (finding: the file has six significant digits, so with larger values a run need not satisfy the model that imposes its own output). With simulation mode off, imposed variables and deactivated constraints have no effect.",
  "every configuration, dictionary or file of given data, feasible point, variable, region and model year",
  "all data tables and all solutions of the resulting optimisation problem; the round trip through the saved file depends on every printed value",
  ["mimosa/concrete_model/simulation_mode/set_constraints.py: get_interp_data, fix_variable", "mimosa/concrete_model/simulation_mode/utils.py: InterpolatingData", "mimosa/export/save.py: save_output"])
p("The configuration reaches the equations",
  "In every model created without simulation - custom_mapping, each number, limit, switch and module of the equations is the one at its documented place in the accepted configuration: quantities are converted to the model's units, an optional limit is absent exactly when it is False, the grid starts at the start year with the configured step and its last year is in [end, end+dt), the regions are those of the configuration, each once. The regional numbers are those of the documented column (which depends on the configured quantile, adaptation, combination of damages and calibration factor) or the user's override, and population, GDP and baseline emissions are the data store's series at the model years. Every constructed instance with real numbers (no nan or infinity) and a non-empty horizon gives such a model.",
  "every user configuration, input file content, custom unit behaviour and history that gives an instance",
  "all configurations times all input files; a misplaced or swapped parameter gives plausible numbers, not an error",
  ["mimosa/mimosa.py: MIMOSA.__init__", "mimosa/concrete_model/instantiate_params.py: InstantiatedModel", "mimosa/components: Param declarations with '::' documentation", "mimosa/abstract_model.py: create_abstract_model"])
p("Which accepted configurations give a model",
  "With the shipped files, every accepted configuration with real numbers, default inputs, a non-empty selection of the 26 regions without own capital or damage values, a horizon within 2010-2200 and depreciation below 1 gives an instance and a model. If the baselines are positive (which they are for horizons made of whole decades with SSP2, SSP3 or SSP5, or up to 2100), the model is built without error exactly when: emission trading is not 'globalcostpool'; 'per_cap_convergence' comes with 'emissiontrade' (unless the horizon is one year); a carbon budget with a horizon reaching 2100 comes with fully reversible damages; 'non increasing emissions after 2100' does not start after 2100 plus one step; the learning scale is not 0; elasmu is not 1; and the general inequality aversion is not 1. Every other combination of the remaining values builds.",
  "every user configuration, history of earlier constructions, oracle for texts and units, number of extra components",
  "the choices interact; the number of configurations is infinite and the failures occur inside pyomo, long after the configuration was accepted",
  ["mimosa/mimosa.py: MIMOSA.__init__", "mimosa/abstract_model.py: create_abstract_model", "mimosa/common/config", "mimosa/concrete_model/instantiate_params.py", "mimosa/components", "mimosa/inputdata"])
p("Creating a model leaves the caller's dictionary alone",
  "MIMOSA(params) does not change the dictionary it is given, and the model's parameters do not change when the caller edits that dictionary afterwards, so one dictionary can be edited and used for many runs (run_calibration.py). Exception: a dictionary or list that the caller stored inside a dictionary parameter, below the levels the template describes, is not copied; later edits there are seen by the model, and (finding) a text with a reference \"{...}\" in it is replaced in the caller's own dictionary, so that a second model made from it with another SSP keeps the text of the first.",
  "every accepted configuration, every place where an object is shared, every later edit",
  "object identity is invisible in the returned values; all nestings of user dictionaries and all later edits",
  ["mimosa/mimosa.py: MIMOSA.__init__", "mimosa/common/config/parseconfig.py: check_params, parse_param_values", "mimosa/common/config/utils/parsers.py: parse", "mimosa/common/config/utils/nested_dict.py: set_nested", "run_calibration.py"])
p("A longer horizon does not change the model before it",
  "Two configurations that differ in the end year only (all other settings equal) give models with the same numbers at every common model year: data, parameters and equations before the end do not depend on where the horizon ends. So the plan of a longer run, cut off at the earlier end, is a feasible plan of the shorter run, and by the shorter run's own end no longer run achieves more discounted welfare (or lower discounted costs) than the optimal shorter run.",
  "every pair of configurations and constructed instances, every input file content, history of earlier constructions, feasible plan",
  "all configurations, data files and plans; the horizon enters through interpolation, extrapolation and index sets",
  ["mimosa/concrete_model/instantiate_params.py: InstantiatedModel", "mimosa/common/data: DataStore", "mimosa/abstract_model.py: create_abstract_model", "mimosa/components"])
p("Order and selection of regions",
  "The order in which the regions are listed in the configuration has no effect: the models have the same numbers for every region, the same feasible plans and the same optimal plans. Leaving regions out changes no number of the regions that stay (population, GDP, baseline emissions, damage, cost and mortality coefficients, capital factor), nor any global parameter.",
  "every pair of configurations and constructed instances, every permutation or selection of the regions, every plan",
  "26! orders and 2^26 selections; a positional mix-up of regions gives plausible numbers",
  ["mimosa/concrete_model/instantiate_params.py: InstantiatedModel", "mimosa/common/data", "mimosa/common/regional_params", "mimosa/components: sums over m.regions"])
p("The saved results satisfy the documented equations under their own names",
  "In the table written by save for a solved run, the numbers in the rows of the documented variable names satisfy the documented equations: 'GDP_net', 'GDP_gross', 'damage_costs', 'mitigation_costs', 'financial_transfer', 'area_under_MAC', 'import_export_mitigation_cost_balance', 'rel_mitigation_costs', 'investments', 'consumption', 'capital_stock', 'TFP', 'population' (national accounts, production and capital), 'baseline', 'relative_abatement', 'regional_emissions', 'regional_emission_reduction', 'carbonprice', the learning factors, 'global_emissions', 'cumulative_emissions', 'temperature', the sea level parts, the damage parts, the trade and transfer balances, 'utility', 'yearly_welfare' and 'NPV'. So an analysis script can recompute any of them from the others, with every choice of modules (balances that are not modelled are rows of zeros). The numbers are those before printing with six digits.",
  "every configuration, feasible solution, model year and region",
  "all solutions; a name attached to the wrong variable gives plausible numbers",
  ["mimosa/export/save.py: save_output, var_to_row", "mimosa/common/pyomo_utils.py: get_all_variables, get_time_region_dependent_params", "mimosa/components"])
p("The configuration determines the optimisation problem",
  "Two models made from the same configuration are the same optimisation problem: the same named constraints with the same expressions for every step and region, the same bounds, feasible plans and optimal plans, whatever models were made before in either session (the shared data cache does not leak) and with no number left undefined: with the shipped files every series value inside the horizon and every damage, cost, capital and mortality coefficient that the chosen functional forms use is present for every IMAGE region. Data for years after the horizon, for regions that are not listed, and coefficients that a region's functional form does not use have no effect.",
  "every configuration, every pair of sessions (histories of earlier constructions), every plan",
  "all configurations, histories and plans; a missing number or a leak between runs shows only in particular combinations",
  ["mimosa/mimosa.py: MIMOSA.__init__", "mimosa/concrete_model/instantiate_params.py: InstantiatedModel", "mimosa/common/data", "mimosa/common/regional_params", "mimosa/components"])
p("An optimal plan exists",
  "If the constraints of a model can be met at all, there is a plan that meets them and is at least as good as every other: the optimisation problem that MIMOSA hands to the solver has a solution (the supremum of discounted welfare, or infimum of discounted costs, is attained), so 'the optimal plan' is meaningful. For emissions that do not follow income this holds for every objective, welfare function, trade scheme, transfer and effort-sharing regime; for emissions that follow income with damages bounded below (no unlimited benefits from warming) it holds for the cost objective always, and for the utility objective when the elasticity of marginal utility (and inequality aversion, where used) exceeds 1 - the default is 1.001. Unlimited gains from warming in some regions are also allowed, without transfers, when some region's damage grows without limit: this is needed for the shipped data, whose damage function for China turns into a gain beyond about 19 degrees; with the shipped files it covers the default configuration and every configuration whose regions include one of 14 checked ones. For whole-decade horizons without damages and policy limits nothing is left to assume: the run with the shipped baseline emissions meets the constraints, and an optimal plan exists.",
  "every configuration of the model (parameters, regions, horizon) and the set of all its feasible plans",
  "quantifies over the infinite set of all plans; a single unbounded direction in one region and year would make the problem ill-posed and the solver's answer an artefact",
  ["mimosa/abstract_model.py: create_abstract_model, objective", "mimosa/components", "mimosa/mimosa.py: MIMOSA.solve"])
p("Without damages to avoid, the optimal plan is the baseline",
  "Abatement costs consumption: of two plans without transfers, the one with mitigation costs and damages no higher in any year and region has no less capital, output and consumption in any year, and more consumption wherever its costs are lower. So when there is no damage to avoid (damages ignored with the utility objective, or the 'nodamage' module), and no trade or transfers, a plan without abatement that meets the constraints is optimal, for every welfare function and both objectives, and every optimal plan has zero abatement, zero carbon price and baseline emissions: an optimisation with 'ignore damages', as in run_baseline.py, returns the no-policy baseline. With the shipped files and exogenous baseline emissions over whole decades, the optimal plan exists and has exactly the shipped emissions. With emission trade the same holds for plans without mitigation costs when the lower limit on relative costs is zero (the default). Simulation mode with abatement fixed at zero (the other run of run_baseline.py) gives the baseline within the tolerance of simulation mode only: abatement up to 0.001, emissions between 99.9% and 100% of the baseline, and costs bounded accordingly.",
  "every configuration without damages, trade and transfers; all feasible plans",
  "compares a plan with the infinite set of all feasible plans through a coupled capital recursion over the whole horizon",
  ["run_baseline.py", "mimosa/components/cobbdouglas.py: get_constraints", "mimosa/components/mitigation.py: get_constraints", "mimosa/components/objective", "mimosa/concrete_model/simulation_mode/main.py: set_simulation_mode"])
p("GDP stays within explicit factors of the baseline GDP",
  "The model does not reproduce the exogenous GDP exactly, even without climate policy: productivity is calibrated on a capital path that saves out of the previous period's GDP, while the model invests out of the current one and smooths capital. The deviation has explicit limits, computed from the data and the economic parameters: as long as the net GDP of a region is at most the share mu (at least the share lam) of its gross GDP, gross GDP is at most (at least) a fixed factor of the baseline GDP in every year, the factor depending on the fastest (slowest) growth from one period to the next, on the savings rate, depreciation and capital share only. In a run without mitigation costs, damages and transfers, GDP and with it the emissions that follow GDP (the default) stay between these two factors of the exogenous ones. It follows that a run without climate policy that meets all constraints exists, with temperatures bounded accordingly; with the shipped files over whole decades, default emissions and no damages, this run exists, is optimal, and every optimal plan abates nothing.",
  "every feasible plan of every model with bounded growth; every region and year",
  "holds for every plan and horizon; an error that compounds over periods (a wrong lag, exponent or investment share) shows only over long horizons and certain growth paths",
  ["mimosa/components/cobbdouglas.py: get_constraints", "mimosa/common/economics.py: get_TFP_value, calc_dKdt, calc_GDP", "mimosa/components/emissions.py: _get_emissions_constraints", "run_baseline.py"])
p("Least-cost plans have one carbon price",
  "The documentation says that minimising costs with equal weights leads to uniform carbon prices across regions. For the objective that minimises global discounted costs, with prescribed baseline emissions and without damages, transfers and effort-sharing regimes (with or without emission trading): in an optimal plan, whatever the climate policy, a region that could still abate a little more in a step never has a lower carbon price in that step than a region that could abate a little less. So the carbon price is the same in all regions in which no limit that concerns the region alone (the minimum level of regional emissions, the speed limit of regional reductions, the ban on rising emissions after 2100, the ranges of abatement and of the carbon price, and zero abatement) is reached, although the regions' cost curves and emissions differ. With the default objective, maximising welfare, and without trade, this is only true of weighted prices, also with damages: in regions with room the carbon price times the value of a unit of costs there is the same, where this value is the discounted marginal welfare of the income that the unit takes, now and later through the investment that is missing. With equal weights (cost-minimising welfare), prices in the last step are equal exactly between regions in which capital has the same marginal product net of damages, are lower where it is higher, and differ by at most the factor 1/(1 - alpha). So what the documentation says does not hold literally: there is a two-region world that has welfare-optimal plans, in all of which the carbon prices of two regions with room differ.",
  "every configuration with the global-costs objective, exogenous emissions and no damages, and every configuration with the welfare objective, exogenous emissions and no trade; every optimal plan, step and pair of regions",
  "compares an optimum with infinitely many other plans; a wrong weight, area under the curve or regional scaling still gives a plausible optimum",
  ["mimosa/components/objective/globalcosts.py: get_constraints", "mimosa/components/mitigation.py: get_constraints, MAC, AC", "mimosa/components/emissions.py", "mimosa/components/welfare/cost_minimising.py: documentation"])
p("Least-cost carbon prices rise with the discount rate",
  "A plan of least global discounted costs spreads abatement over time as it spreads it over regions. With prescribed baseline emissions and without damages, transfers and effort-sharing regimes, in an optimal plan, whatever budget or temperature target holds from 2100 on: take two steps before 2100 and a region in each, the same or another. If abatement does not get cheaper by doing (a learning rate of 1; autonomous technological progress is allowed) and neither region nor the world is at one of its limits in these steps (minimum emissions, speed of reduction, ranges of abatement and carbon price; cumulative emissions and the contributions to sea level are positive), the discounted carbon prices are equal: the carbon price rises with the rate of time preference (Hotelling's rule), by the factor exp(PRTP * years) between the steps, whichever way cumulative emissions are computed. With learning by doing, the discounted carbon price never rises: the discounted price in a region that could abate a little less later is not above the discounted price in a region that could abate a little more earlier.",
  "every configuration with the global-costs objective, exogenous emissions and no damages; every optimal plan, all pairs of steps before 2100 and of regions",
  "compares an optimum with infinitely many other plans; a discount factor applied to the wrong year or learning that depends on the wrong emissions still gives a plausible optimum",
  ["mimosa/components/objective/globalcosts.py: get_constraints", "mimosa/components/mitigation.py: _get_mac_constraints, _get_learning_constraints, MAC, AC", "mimosa/components/emissions.py: _get_emissions_constraints", "mimosa/components/sealevelrise.py: get_constraints"])
p("Least-cost problems are convex",
  "With prescribed baseline emissions, the global-costs objective and without damages, transfers, effort-sharing regimes or learning by doing (autonomous technological progress is allowed), and if the warming without abatement stays below some 30 degrees or so (the range in which the sea-level equations keep their variables inside their bounds), the problem that MIMOSA poses is convex. (1) Take a plan that satisfies the model under one policy and a plan that satisfies it under another, and a number l between 0 and 1. Under the policy in between (every limit, that is budget, temperature target, speeds of reduction and minimum emissions, at (1-l) times one plus l times the other; a limit or rule that only one of the policies has is left out) there is a plan that satisfies the model in which every region's abatement and emissions in every step after the first, and every year's temperature, are in between in the same proportion, and which costs, discounted over all regions and steps, at most (1-l) times what the one plan costs plus l times what the other does. (2) So the least cost of keeping to a policy is a convex function of the policy's limits: the optimum of a policy in between costs at most the mean of the optima, and tightening a budget twice by the same amount costs at least as much the second time as the first. (3) Two optimal plans have the same abatement in every region and step where there are emissions to abate and the cost curve rises; if that is so everywhere they also agree in carbon prices, abatement costs, emissions, cumulative emissions and temperature. (4) A plan that satisfies the model and is not beaten by any plan whose abatement is close to its own is optimal: what a local solver finds is the global optimum. It does not depend on the starting point.",
  "every least-cost configuration with exogenous emissions and without learning by doing or damages; all pairs of policies and of plans, all proportions, all local optima",
  "compares all feasible plans with each other; a solver run from one starting point cannot tell whether another would end elsewhere, and nothing in a single result shows that it is unique",
  ["mimosa/components/objective/globalcosts.py: get_constraints", "mimosa/components/mitigation.py: _get_mac_constraints, _get_learning_constraints, MAC, AC", "mimosa/components/emissions.py: _get_emissions_constraints, _get_inertia_and_budget_constraints", "mimosa/components/sealevelrise.py: get_constraints", "mimosa/mimosa.py: MIMOSA.solve"])
p("A temperature target is a carbon budget",
  "With a positive TCRE, and everything but the climate goal the same: (1) a temperature target T admits exactly the plans that the carbon budget (T - T0) / TCRE admits when the rule of no emissions after the budget year is off (with a temperature target alone, that rule has no effect, whether on or off). (2) A carbon budget B admits exactly the plans that the temperature target T0 + TCRE * B admits and, if the rule is on, whose global emissions are not positive in any step from 2100 on. (3) When both a budget and a target are given, only the tighter counts: the same plans satisfy the model as with the smaller of the two budgets. (4) A target and its budget have the same optimal plans. (5) If the horizon reaches 2100, a target below the temperature of the first year and a negative budget cannot be met by any plan. For (1)-(4), perc_reversible is at least 1 (the default; below it, a budget cannot be built).",
  "every configuration with a positive TCRE; all budgets and targets, all plans",
  "the sets of plans that two configurations admit are infinite; two runs that agree do not show that the constraints do",
  ["mimosa/components/emissions.py: _get_inertia_and_budget_constraints, _get_temperature_constraints"])
import os; exec(open(os.path.join(os.path.dirname(os.path.abspath(__file__)),'restate.py')).read())
for x in P:
    if x['id'] in R: x['statement']=R[x['id']]
with open('/verif/properties.jsonl','w') as f:
    for x in P: f.write(json.dumps(x)+"\n")
print(len(P))
