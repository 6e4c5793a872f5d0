# Restated properties: what the code really guarantees, with the exceptions found while proving.
R = {}
R['C01'] = "Whenever check_params/load_params accepts a configuration, every parameter declared in the template is present in the result, holding the parse of the user's value when there is one at that path and of the template's default otherwise; every other path in the result is a section on the way to a parameter or lies inside a parameter's own value."
R['C02'] = "A configuration with an entry that is not a template parameter (and not inside a dict or datasource parameter) is never accepted, provided its keys do not contain ' -'. Finding: a key spelled with the joined name of a parameter ('emissions - carbonbudget') is accepted and silently ignored."
R['C03'] = "Every int or float parameter of an accepted configuration is False (only when the template says can_be_false), nan, or a number between the template's min and max. Finding: nan passes the range check of every float parameter."
R['C05'] = "A can_be_false parameter given as False, 0, 0.0, 'False', 'false' or 'no' is stored as exactly False; whatever is stored as False was given as one of these; a number, text, list or dictionary parameter that is not can_be_false is never stored as False (a bool, an enum listing False, or a quantity may be)."
R['C06'] = "Feeding an accepted configuration back to check_params returns the same parameters, unless an optional float limit is stored as the number 0. Finding: such a limit given as the text '0' is stored as 0.0 first and becomes False (limit off) on re-validation."
R['C07'] = "In a parameter tree whose references are resolved, a string with one reference '...{a - b}...' to an existing string parameter becomes that string with the reference replaced by the parameter's value; a reference to a path that does not exist is left untouched; values without references are unchanged. Finding: of several references in one string only the last is resolved."
R['C09'] = "In every unit text the default units (currency_unit, emissionsrate_unit, emissions_unit, temperature_unit, population_unit) are replaced by the units of default_units.yaml in brackets, the rest of the text stays (year becomes yr), and no placeholder remains; 'US$' and 't CO2' may be written for 'USD' and 'tCO2' anywhere in a quantity or unit; a quantity is converted by pint from its own text to that expanded unit."
R['C10'] = "Whatever modules are chosen, the '::' path of every model parameter is declared in the template; in an instance that was created, every such parameter holds the configuration's value (quantities converted to the declared unit, choices and numbers as they are), every regional parameter holds the regional parameter store's value for each region, the baseline data hold the data store's value for each step and region, time grid and regions are those of the configuration, combined damages replace the damage coefficients, and an entry of custom_mapping replaces anything else. Finding: combined damages overwrite even custom_mapping."
R['C11'] = "With start year s, end year e >= s and step dt, the model years are s, s+dt, ...; the last lies in [e, e+dt) and all earlier ones before e; the '2100 step' is the last step not after 2100. Finding: end before start is accepted; the grid is then empty, or the single start year when e is less than one step before s."
R['C12'] = "For every model step the population/GDP/emissions parameter equals the data store's own value for that year (model years are nodes of the data grid), and in years that are years of the data file it is exactly the file's number converted to the configured unit (for any spline through its points). Finding: data stores exist only for horizons covered by the file and its extrapolation: with 2010-2100 files the start must be at least 2010 and the end at most 2200+dt, though the configuration accepts 1900-2300."
R['C13'] = "Data inside the file's years are unchanged by extrapolation and every extra year gets one value; beyond the file the series moves in the direction of its last change and is constant from 2150 on; when the file reaches 2100 the yearly change never exceeds the last one in the file. Finding: when the file ends before 2100 the first extrapolated change is amplified by 1+(2100-last)/50."
R['C14'] = "As long as the files do not change, a data store gets the same result after any history of successful and failed stores as in a fresh process, and holds the converted series of the one row of the file that carries the configured model, scenario and variable and the region's name (a region 'X#' is 'X' in the files); no such row, or several, is refused. Finding: a file changed on disk after it was first read is never re-read in the process."
R['C15'] = "A regional value in the 'regions' section is used for exactly that region and parameter and returned as it is; every other region gets the file's (mapped) value, unaffected by the override. A file's value is a number (text that reads as a number is converted) or a text that does not read as one."
R['C16'] = "When a parameter file uses another region definition, each model region gets the mean of the numbers over the file regions mapped to it (that region's number when there is one), a text parameter the text of one of them, and a region that is not mapped raises KeyError; a missing conversion table raises KeyError when the store is created, and one given in either direction is enough; without mapping, a missing row raises KeyError and several rows TypeError. Finding: a mapped region without a number in the file silently gets nan."
R['C17'] = "Building the model adds each constraint of the selected modules exactly once under its own name, and no two constraints share a name; names clash (RuntimeError) only with the globalcostpool trade module, which therefore never builds."
R['C18'] = "With numbers in the accepted ranges and sound data, building the model succeeds exactly for the usable choices: not globalcostpool; per-capita convergence only together with emission trade; elasmu (and, for that welfare module, inequality aversion) different from 1; LBD scaling different from 0; a carbon budget in a horizon reaching 2100 only with fully reversible emissions; 'non increasing after 2100' only when the step before the start year is not after 2100; known damage forms. Finding: all other accepted choices raise while building. A data set with total baseline emissions of the first year, population of a year, GDP of a region or its capital factor equal to 0 is rejected as well."
R['C21'] = "With a carbon budget B, cumulative emissions never exceed B in any model year from 2100 on. Finding: when the horizon ends before 2100 the budget is silently ignored."
R['C22'] = "With a carbon budget and 'not positive after budget year', global emissions are non-positive from 2100 on, so cumulative emissions and (TCRE>=0) temperature never increase from then on. Finding: without a budget the option has no effect."
R['C23'] = "In every feasible solution temperature(t) = T0 + TCRE * cumulative emissions(t), temperature(0)=T0, temperature never falls below T0 when TCRE>=0, and with a target T the temperature is at most T in every model year from 2100 on. Finding: when the horizon ends before 2100 the target is silently ignored."
R['C25'] = "Regional and global emissions stay at or above the configured minimum level in every model year, including the initial one (so a level above initial emissions makes the model infeasible); with the option on, regional emissions never increase between model years after 2100."
R['C26'] = "With an exogenous baseline and zero abatement in a region, its emissions equal the baseline; when all regions do so and the trapezoidal rule is chosen, cumulative emissions equal the model's own cumulative baseline emissions. Finding: with the right-endpoint rule they differ by half a step of the change in baseline emissions."
R['C29'] = "The learning-by-doing factor is non-increasing in cumulative mitigation and is multiplied by the LBD rate at each doubling of experience (1 + cumulative mitigation / scaling, smoothed); learning over time multiplies costs by 1/(1+rate) per model step; hence the same abatement never costs more at higher experience or later. Finding: at zero cumulative mitigation the factor is slightly below 1, because of the smoothing."
R['C31'] = "In every feasible solution with positive data, capital stock is strictly positive as long as investments are non-negative, gross GDP is strictly positive, and at every point the solver may try (within bounds, gross GDP positive) no equation of the model divides by zero or takes a power of a non-positive number."
R['C32'] = "With the calibrated total factor productivity the production function returns exactly baseline GDP at the calibration capital stock, for every year; gross GDP equals baseline GDP exactly when the smoothed capital stock equals the calibration capital. Finding: a run without policy and damages does not reproduce baseline GDP, e.g. in a stationary economy."
R['C33'] = "In every feasible solution of the emission-trade module the traded mitigation costs sum to zero over regions each year, total mitigation costs equal the total area under the MACs; after the initial year traded reductions sum to zero, paid-for reductions sum to the reductions and allowances sum to global emissions; every traded unit has one common positive price, and the global carbon price lies between the regional ones."
R['C34'] = "Finding: the min/max relative payment levels of emission trade, which the documentation describes as limits on each region's payment, have no effect: for all levels the feasible solutions are the same."
R['C35'] = "With notrade, mitigation costs of a region are the area under its own MAC; every solution without trade corresponds to a solution with emission trade with the same value of every variable and the same objective (trade can only help), unless the effort-sharing regime is per-capita convergence."
R['C36'] = "With the global damage pool, transfers sum to zero over regions each year so total net GDP does not depend on them, no region receives more than its own damage costs, and initial transfers are zero; with notransfer all transfers are zero. Finding: regions that gain from climate change must pay, and the pool excludes every solution in which the world as a whole gains."
R['C37'] = "In every feasible solution of the equal-cost regimes there is a common level such that every region's relative costs are within 0.5% of it and non-negative, so any two regions differ by a factor of at most 1005/995; equal mitigation costs bind in every year, equal total costs only up to 2100 (finding)."
R['C38'] = "Emission shares prescribed by per-capita convergence sum to one over regions each year; with a convergence year after the start year they equal the initial shares in the first year and population shares from the convergence year on and never leave the interval between both; allowances follow them within 0.001. Findings: with convergence year False (documented as grandfathering), or before the start year, the shares move away from the population shares linearly and without bound."
R['C40'] = "Linear and quadratic damage functions vanish at zero warming; every form is non-decreasing for non-negative coefficients; the logistic form is bounded by |a*b1|/100; damages are non-negative when warming and sea level do not fall below their initial values; sea-level damages are confined to [-0.5, 0.7]. Finding: the logistic form is not exactly zero at zero (at most 1/(250 pi) of its bound)."
R['C41'] = "In every feasible solution total sea-level rise is the sum of thermal expansion, glaciers and ice sheets each year, each component follows its recursion from its initial value, and glaciers and ice sheets never regrow and never lose more than their volume as long as dt*(T+1) < 325. Finding: with longer steps the glaciers lose more ice than exists."
R['C43'] = "For every welfare module, more consumption in one region and no less elsewhere gives strictly more yearly welfare; utility is concave from 0.1 per capita on, so for a given total an equal distribution is best; cost-minimising welfare depends on global consumption only. Findings: utility is not concave near zero consumption; with inequality aversion above 1 the smoothing keeps welfare away from its supremum however rich all regions are."
R['C44'] = "In every feasible solution the NPV at step t equals the sum over steps 1..t of dt*exp(-PRTP*(year-begin year))*welfare (or costs, with the global-costs objective); the utility objective prefers the larger sum, the global-costs objective the smaller, and more consumption anywhere after the initial year is preferred by the utility objective."
R['C45'] = "A smaller carbon budget, lower temperature target, higher minimum emission level, slower inertia limit, or switching one of these options on, gives a subset of the feasible solutions, so the optimal objective cannot improve."
R['C46'] = "With an exogenous baseline, two feasible solutions with the same abatement path have the same emissions, temperature, sea-level rise, learning, damages and carbon prices; without trade and transfers also the same capital, GDP, consumption, welfare and objective, as long as the investments forgone because of mitigation do not exceed the capital stock."
R['C47'] = "In simulation mode each prescribed variable stays within 0.001 of the prescribed value for every year and region in every solution; the active constraints are the model's own and the added ones minus exactly the deactivated names; unknown variables or constraint names and missing regions raise; a solution used as its own prescription remains a solution; without simulation mode the instance is the plain model; a consistent request always builds."
R['C48'] = "For every model the saved table has one row per declared global variable, one per region of each declared regional variable and of each time- and region-dependent parameter, and no other; each row has exactly one value per model year; no two rows have the same variable and region; the header is Variable, Region, Unit and the model years in order (whole years without decimals); year labels are pairwise different (rounded years, dt >= 0.5)."
R['C49'] = "MIMOSA.solve returns normally exactly when the solver answered with status ok; it raises SolverException exactly when the solver answered with another status; an exception of the solver propagates and leaves the status unset; exactly one problem is sent, to the chosen solver with the given options; in any history the recorded status is the one of the last solve. With NEOS the e-mail is left in the environment variable NEOS_EMAIL; otherwise that variable is untouched. Findings: the termination condition is not inspected; NEOS without e-mail raises TypeError."
R['C51'] = "A soft equality with relative tolerance eps holds exactly when lhs is within eps*rhs of rhs; with absolute tolerance, within that amount, for every step and region not ignored. Finding: with a relative tolerance it cannot be satisfied when the right-hand side is negative."
R['C52'] = "For every abatement path starting at zero there is a complete assignment of all model variables satisfying every equation, which is a solution exactly if it respects the policy limits and bounds: with exogenous baselines always; with the default endogenous baselines for abatement in [0,1], as long as damages cannot exceed GDP at any temperature the economy can reach. In particular a no-policy run exists, so the theorems about feasible solutions are not vacuous."
R['C53'] = "MIMOSA.save writes the values the model currently holds and the parameters to two files and nothing else; after a successful solve and save the file holds that solution until a later call writes to the same path; saving before any solve or after a failed one is not refused and writes the values of the unsolved model; with no name the file is None.csv."
