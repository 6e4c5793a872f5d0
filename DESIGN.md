# MIMOSA in Rocq: design

Source: `/repo` (Ditesli/MIMOSA, python), read as text. Model and proofs: `/verif/rocq/theories`, Coq 8.16.1.
This file is written by `tools/gen_design.py`; `properties.jsonl`, `MANIFEST.json` and the files `Properties_*.v`
(one statement per theorem, followed by `Print Assumptions`) are generated by `tools/props.py` and
`tools/gen_props.py`, `ConfigDefault.v` by `tools/gen_config.py` from `config_default.yaml` and `BundledData.v` by
`tools/gen_data.py` from the CSV files of `mimosa/inputdata`.

## Two layers

**A. Python-value layer** (configuration, parameter instantiation, data access, region mapping, model
assembly, simulation mode, solving and saving). Python values are an inductive `pyval`, exceptions are values
(`result A = Ok a | Err exn`), functions mirror the python branch by branch. Finite floats are exact rationals
(`Q`), plus `inf`, `-inf`, `nan`. What python gets from outside (pandas' reading of a file, pint, scipy's
splines, `str()` of floats, the solver, the disk) are universally quantified oracles: a theorem over all of
them holds for the real ones, and a hypothesis about one of them is visible in the theorem.

**B. Equation layer** (components). Each Pyomo rule is a function of the model data, a step and a region, whose
result is `Skip`, a constraint `lhs op rhs` over a syntax of expressions (deep embedding, `Expr.v`), or a python
exception. `deno` evaluates an expression over the reals; `defd` says that no operation in it is undefined.
`feasible p v`: every generated constraint is satisfied at every index and every variable respects its declared
bounds. The solver is an oracle: a theorem "in every feasible solution" holds for whatever point a solver
returns that satisfies the constraints exactly (IPOPT's tolerances are outside the model).

Statements about the equation layer are written with the names of `ModelSpec.v` (`temperature v t`,
`GDP_gross v t r`, ...), which only rename the components of a point; larger specifications are in
`ClimateSpec.v`, `WelfareSpec.v`, `PolicySpec.v`, `ExistSpec.v`, and for the configuration in `ConfigSpec.v`.
Non-vacuity: `Example.v` contains a family of concrete model data and feasible points (with and without
policy, damages, trade); the files `*Lemmas.v` and `Config*.v` contain an `Example` beside the theorems, and the
existence theorems C52 and C57 show for large families that the hypotheses "feasible" and "constructed" are met.

Properties that are false of the code are proved in the form that is true, next to a theorem named `*_refuted`
that exhibits the failure of the stronger claim (with a reachable configuration or a feasible point).

## Properties, models and proofs

| Id | Property | Modelled in / proved in | How |
|----|----|----|----|
| C01 | Parsed configuration = template leaves with user value or default (proved; 1 theorem) | Config, ConfigLemmas | induction on the template tree and on paths |
| C02 | Unknown or misspelled configuration keys are rejected (proved; 2 theorems) | Config, ConfigLemmas | flattened keys versus paths; refuted part by a computed witness |
| C03 | Numeric parameters respect the template's min/max (proved; 2 theorems) | Parsers, ConfigLemmas | case analysis of the numeric parsers; NaN witness |
| C04 | Enumerated parameters take a listed value (proved; 2 theorems) | Parsers, ConfigLemmas | case analysis |
| C05 | 'False' normalisation of optional limits (proved; 1 theorem) | Parsers, ConfigLemmas | case analysis of the accepted spellings |
| C06 | Re-validating a validated configuration changes nothing (proved; 2 theorems) | Config, ConfigLemmas | parsers are idempotent on their results; induction over the template |
| C07 | Parameter references in strings are resolved (proved; 4 theorems) | Config, RefFacts | invariants of the string search and replacement |
| C08 | Nested dictionary access laws (proved; 4 theorems) | NestedDict, ConfigLemmas | induction on paths |
| C09 | Default-unit placeholders are always eliminated (proved; 4 theorems) | Parsers (units), UnitsFacts, UnitsLemmas | string-rewriting invariants; token view of unit texts and a boundary argument for str.replace |
| C10 | Every model parameter has a source (proved; 7 theorems) | Instantiate, InstantiateLemmas | inversion of the construction; finite check of all doc strings |
| C11 | The time grid starts at the start year and just covers the end year (proved; 3 theorems) | TimeGrid | ceiling arithmetic |
| C12 | Exogenous data are read exactly at model years (proved; 5 theorems) | TimeGrid, DataStore | interpolation at nodes; inversion of the data store |
| C13 | Extrapolation of input data beyond the data file (proved; 6 theorems) | TimeGrid | induction on the extrapolated years |
| C14 | The data cache is transparent (proved; 5 theorems) | DataStore, DataStoreLemmas, DataRows | cache invariant over all histories, refinement to the cache-free semantics |
| C15 | Regional parameter overrides (proved; 5 theorems) | RegionalParams | lookup laws |
| C16 | Region mapping (proved; 11 theorems) | RegionalParams | permutation invariance of the aggregates, induction on rows |
| C17 | Constraint names are unique and stable (proved; 3 theorems) | Build, BuildLemmas | invariant of the component registry |
| C18 | Every accepted configuration builds a model (proved; 3 theorems) | Build, BuildLemmas | evaluation of every rule; equivalence with a list of usable choices |
| C19 | Constraints only mention existing variables at existing indices (proved; 1 theorem) | Expr, VarFacts | case analysis of every rule |
| C20 | Emission accounting (proved; 1 theorem) | Model, EmissionLemmas | constraints to equations; induction on steps; sums over regions |
| C21 | Carbon budget (proved; 2 theorems) | EmissionLemmas | constraints to inequalities |
| C22 | Emissions after the budget year (proved; 3 theorems) | EmissionLemmas | induction on steps |
| C23 | Temperature is TCRE-linear and respects the target (proved; 2 theorems) | EmissionLemmas | constraints to equations |
| C24 | Emission-reduction speed limit (proved; 1 theorem) | EmissionLemmas | constraints to inequalities; telescoping |
| C25 | Minimum emission levels and non-increasing emissions (proved; 3 theorems) | EmissionLemmas | constraints to inequalities |
| C26 | No abatement means baseline (proved; 2 theorems) | EmissionLemmas | induction on steps; witness for the other convention |
| C27 | Abatement cost curve is the integral of the marginal abatement cost curve (proved; 4 theorems) | MitigationLemmas | derivative and integral of the power function |
| C28 | Carbon price and initial year (proved; 1 theorem) | MitigationLemmas | constraints to equations |
| C29 | Technological learning only lowers costs (proved; 7 theorems) | MitigationLemmas | monotonicity of real powers and logarithms |
| C30 | GDP accounting identities (proved; 2 theorems) | EconLemmas | constraints to equations, sums |
| C31 | Capital and output stay positive and equations stay defined (proved; 3 theorems) | DefinedFacts, EconLemmas | every operation of every constraint is shown defined |
| C32 | TFP calibration reproduces baseline GDP (proved; 3 theorems) | EconLemmas | algebra of the calibration; witness that the baseline run differs |
| C33 | Emission trade is zero-sum (proved; 3 theorems) | TradeLemmas | sums over regions, weighted means |
| C34 | Payment-level limits in emission trade (proved; 1 theorem) | TradeLemmas | the limits occur in no constraint of a buildable model |
| C35 | No trade means each region pays its own abatement (proved; 2 theorems) | TradeLemmas | inclusion of feasible sets |
| C36 | Financial transfers are zero-sum and bounded (proved; 3 theorems) | TradeLemmas | sums over regions |
| C37 | Equal mitigation costs / equal total costs effort sharing (proved; 3 theorems) | TradeLemmas | soft equality with tolerance |
| C38 | Per-capita convergence effort sharing (proved; 5 theorems) | TradeLemmas | closed form of the shares, sums |
| C39 | Damages are zero in the initial year and follow the configured form (proved; 2 theorems) | ClimateSpec, ClimateLemmas | constraints to equations |
| C40 | Damage functions are well behaved (proved; 6 theorems) | ClimateLemmas | monotonicity of the damage curves; witnesses |
| C41 | Sea-level rise (proved; 3 theorems) | ClimateLemmas | recursions, induction on steps |
| C42 | No-damage mode (proved; 1 theorem) | ClimateLemmas | constraints to equations |
| C43 | Welfare modules are monotone and concave in consumption (proved; 7 theorems) | WelfareSpec, WelfareLemmas | convexity of powers, Jensen; witnesses for the smoothed range |
| C44 | Objective is discounted welfare (proved; 3 theorems) | WelfareLemmas | induction on steps |
| C45 | Tightening a policy constraint never enlarges the feasible set (proved; 2 theorems) | PolicySpec, PolicyLemmas | inclusion of feasible sets |
| C46 | The policy path determines the climate outcome (proved; 2 theorems) | PolicyLemmas | induction on steps, uniqueness of the capital equation |
| C47 | Simulation mode fixes variables (proved; 9 theorems) | SimMode, SimModeLemmas | inversion of the added and removed constraints |
| C48 | Exported results are complete and rectangular (proved; 5 theorems) | Export, ExportLemmas | enumeration of rows; injectivity of the year labels |
| C49 | solve() reports failure faithfully (proved; 9 theorems) | Session, SessionLemmas | induction over histories of calls |
| C50 | Soft minimum / maximum / switch (proved; 3 theorems) | SoftLemmas | real analysis of the smoothed functions |
| C51 | Soft equality constraints (proved; 3 theorems) | SoftLemmas | real arithmetic |
| C52 | The model has feasible solutions (proved; 4 theorems) | Simulate, ExistFacts, ExistLemmas, ExistExo | explicit forward simulation; existence of the implicit capital stock |
| C53 | save() writes the current values (proved; 4 theorems) | Session, SessionLemmas | induction over histories |
| C54 | Valid configurations are accepted (proved; 1 theorem) | ConfigAccept | completeness of the checks, induction over the template |
| C55 | Given values mean what they say (proved; 3 theorems) | ConfigValues, ConfigText | case analysis of the parsers; every text the number readers accept is decomposed into blanks, sign, digits, point and exponent |
| C56 | Reported indicators follow their definitions (proved; 6 theorems) | IndicatorLemmas | constraints to equations, weighted means, smoothing bounds |
| C57 | The shipped inputs always load (proved; 1 theorem) | BundledFacts, ConstructFacts | finite checks over the shipped tables lifted to all configurations and histories |
| C58 | Sign of the shipped baselines (proved; 1 theorem) | BundledSigns | exact rational extrapolation computed for all series, transferred to the reals |
| C59 | Simulation mode uses the given data (proved; 8 theorems) | SimData, SimDataLemmas | reading of the data table followed to the added constraints; decimal year labels read back |
| C60 | The configuration reaches the equations (proved; 3 theorems) | Loading, LoadingLemmas, LoadingExist | inversion of the construction for every declared parameter; existence by collecting the values |
| C61 | Which accepted configurations give a model (proved; 3 theorems) | EndToEnd, EndToEndExample | composition of C57, C58, C60 and C18; the shipped regional tables are checked by computation, the configured ranges come from C03 |
| C62 | Creating a model leaves the caller's dictionary alone (proved; 2 theorems) | Sharing, SharingSpec, SharingLemmas, SharingExample | the configuration code with object identities (new dictionary or the caller's own object), shown to compute the same values; invariant: only the described objects are shared, assignments stay in new dictionaries |
| C63 | A longer horizon does not change the model before it (proved; 5 theorems) | Setters2, Horizon, SameInputs, ScopeLemmas, ScopeExample | two constructions whose final parameters differ in the end year and the regions only: simulation relation between the two instance data dictionaries, carried through interpolation and the parameter stores to the loaded model; index sets shrink, constraints are syntactically the same |
| C64 | Order and selection of regions (proved; 5 theorems) | Setters2, RegionOrder, SameInputs, ScopeLemmas, ScopeExample | relation on constraints up to the order of sums over regions, proved for every component, sound for values and definedness; same simulation relation for the numbers |
| C65 | The saved results satisfy the documented equations under their own names (proved; 6 theorems) | SavedLemmas, SavedExample | rows of the table found by their name and region (C48: no two rows agree in both), values replaced by those of the solution, then the equation of the component |
| C66 | The configuration determines the optimisation problem (proved; 4 theorems) | Determined, DeterminedData, DeterminedExample | every rule of every component rewritten with the numbers it reads replaced by equal ones (agreement only where the rule reads: inside the horizon, listed regions, coefficients of the functional form); the numbers are functions of the instance data where present, and the shipped files checked to hold all of them |
| C67 | An optimal plan exists (proved; 5 theorems) | Limits, LimitModel, Subsequence, Compact, Bounds, Optimum, OptimumLemmas, OptimumHarm, OptimumConfig, BaselineRun, OptimumExample | the set of feasible plans at least as good as a given one is bounded (every variable is bounded once net incomes are; net incomes are bounded by the economic equations and, with income-dependent emissions, by the objective) and closed (every constraint is continuous where it is defined), so a maximising sequence has a convergent subsequence (Bolzano-Weierstrass over the finitely many variables) whose limit is feasible and optimal; uses the choice axiom of Coq.Logic.IndefiniteDescription for the sequence |
| C68 | Without damages to avoid, the optimal plan is the baseline (proved; 5 theorems) | DominanceSpec, DominanceLemmas, DominanceSim, DominanceConfig, DominanceExample | the capital equation is implicit (capital enters its own investment); its solution is unique and increasing in last period's capital and decreasing in costs and damages, so an induction over the years compares two plans; welfare monotonicity (C43, C44) turns more consumption into a better objective; with C52 and C61 the run without abatement exists for the shipped files; simulation mode through C47. |
| C69 | GDP stays within explicit factors of the baseline GDP (proved; 5 theorems) | DriftSpec, DriftLemmas, DriftExist, DriftConfig, DriftExample | induction over the years on the ratio of capital to the calibration capital: the implicit capital equation is increasing (C68), so a capital above the ceiling (below the floor) contradicts it; concavity of the Cobb-Douglas function and of the smoothing turn the capital bound into a GDP bound; the envelope of C52 is instantiated with the ceiling, and the growth of the shipped (and extrapolated) GDP is computed from the files. |
| C70 | Least-cost plans have one carbon price (proved; 5 theorems) | ReallocateSpec, Reallocate, Exchange, PriceLemmas, PriceExample, RightDeriv, ShadowSpec, ShadowLemmas, ShadowPrice, ShadowExample | shifting an amount of abatement between two regions keeps global emissions and with them climate and learning; the shifted plan is simulated and shown to be feasible when the shift is small enough for the limits with slack; the derivative of the costs along the shift is the difference of the carbon prices (cost curves, C27), and an optimum cannot have a cheaper direction; for the welfare objective the one-sided derivative of every quantity along the shift is computed, through the implicit capital equation (whose slope is bounded away from 0 by the capital share) down to discounted welfare; the refutation uses existence of an optimum (C67) |
| C71 | Least-cost carbon prices rise with the discount rate (proved; 3 theorems) | HotellingSpec, Reschedule, HotellingLemmas, HotellingExample | moving an amount of emissions between two steps before 2100 changes cumulative emissions only between them (for both ways of summing), so budget and target are untouched; the climate module is continuous in the amount, and finitely many limits with slack stay satisfied for small amounts; the moved plan is simulated and feasible; less emitted means more learned, so its costs are at most those at the old learning; then the first-order condition of C70 |
| C72 | Least-cost problems are convex (proved; 5 theorems) | ConvexSpec, Blend, ConvexLemmas, ConvexExample | the model is simulated for the mean of two abatement paths; without learning by doing emissions, cumulative emissions and temperature are the means too, and every limit of the policy in between is the mean of two limits that hold; carbon prices are monotone and costs convex in abatement (strictly where they have a price), by the tangent of the power function; moderate warming keeps the sea-level equations inside the bounds of their variables |
| C73 | A temperature target is a carbon budget (proved; 5 theorems) | TargetSpec, TargetLemmas, TargetExample | the goal only enters three constraints; every plan of the model without them satisfies them iff cumulative emissions, temperature (and emissions) respect the numbers from 2100 on; temperature is affine in cumulative emissions |

## Trusted base

* Coq's kernel (8.16.1; `vm_compute` is used for finite checks, among them over the transcribed template and
  input tables).
* The transcription: every definition of the model cites the lines it models; simplifications are named there.
* The generated tables `ConfigDefault.v` and `BundledData.v` (decimals of the files as exact rationals).
* The axioms below, all from the standard library (`Reals`, `Classical`, and for C67 `IndefiniteDescription`); no axioms of our own.

### What `Print Assumptions` lists for each theorem

* **Closed under the global context** (no axioms): C01_params_exact, C02_joined_name_ignored_refuted, C02_unknown_key_rejected, C03_bounds, C03_nan_accepted_refuted, C04_enum_default_listed, C04_enum_listed, C05_false_normalised, C06_revalidation_idempotent, C06_zero_string_refuted, C07_no_reference_unchanged, C07_reference_resolved, C07_two_references_refuted, C07_unknown_reference_kept, C08_flatten, C08_set_same, C08_set_succeeds, C08_set_then_get, C09_no_placeholder, C09_quantity_converted, C09_spellings, C09_units_expanded, C10_every_path_declared, C15_every_region, C15_file_values_are_numbers, C15_otherwise_file_value, C15_override_is_local, C15_override_wins, C16_configured_mean, C16_configured_row_missing, C16_configured_same_regions, C16_mean_of_sources, C16_missing_mapping, C16_no_data_is_nan, C16_same_regions, C16_single_source, C16_store_created, C16_text_from_a_source, C16_unmapped_region, C49_neos_email_environment, C49_neos_needs_email, C49_one_request, C49_returns_iff_status_ok, C49_solver_crash_propagates, C49_solver_exception_iff, C49_termination_not_inspected, C53_default_file_name, C54_valid_accepted, C55_other_kinds, C55_text_is_number, C55_value_kept, C62_caller_unchanged, C62_shared_reference_refuted.
* **`ClassicalDedekindReals.sig_forall_dec`, `FunctionalExtensionality.functional_extensionality_dep`**: C10_combined_damages, C10_custom_mapping_wins, C10_data_values, C10_grid_values, C10_regional_values, C10_scalar_values, C11_end_before_start, C11_grid_covers_horizon, C11_year2100, C12_file_years_exact, C12_horizon_must_be_covered, C12_interpolation_exact_at_nodes, C12_model_years_are_data_years, C12_requested_years, C13_bundled_files, C13_data_unchanged, C13_early_end_amplified, C13_growth_bounded, C13_monotone_then_constant, C13_total, C14_ambiguous_row_refused, C14_cache_transparent, C14_configured_row, C14_first_version_wins, C14_store_holds_file_data, C38_convergence_before_start_refuted, C38_convergence_path, C38_grandfathering_never_used_refuted, C38_shares_sum_to_one, C48_header, C48_year_labels_distinct, C57_bundled_constructs, C58_bundled_signs, C59_mode_off, C60_configuration_reaches_model, C60_inputs_reach_model, C60_loadable, C61_decade_baselines, C63_same_numbers, C64_left_out, C66_shipped_known.
* **`ClassicalDedekindReals.sig_forall_dec`, `ClassicalDedekindReals.sig_not_dec`, `Classical_Prop.classic`, `FunctionalExtensionality.functional_extensionality_dep`**: C17_globalcostpool_clashes_refuted, C17_names_never_clash, C17_no_constraint_replaced, C18_builds_iff_usable, C18_globalcostpool_refuted, C18_zero_data_rejected, C19_declared_variables_in_range, C20_emission_accounting, C21_budget_ignored_before_2100_refuted, C21_budget_respected, C22_emissions_after_budget_year, C22_no_increase_after_2100, C22_option_needs_budget_refuted, C23_target_ignored_before_2100_refuted, C23_temperature, C24_speed_limit, C25_initial_year_included, C25_minimum_levels, C25_non_increasing, C26_no_abatement_baseline, C26_right_endpoint_differs_refuted, C27_cost_curve_in_solution, C27_cost_is_integral_of_marginal_cost, C27_increasing_convex, C27_scale_positive, C28_initial_year, C29_doubling, C29_experience, C29_factor_one_at_zero_refuted, C29_learning_by_doing_monotone, C29_learning_over_time, C29_no_mitigation_factor, C29_same_abatement_costs_no_more, C30_accounting, C30_global_accounting, C31_GDP_positive, C31_all_operations_defined, C31_capital_positive, C32_baseline_run_refuted, C32_calibration, C32_reproduction_iff_capital, C33_global_price_between, C33_single_trade_price, C33_trade_zero_sum, C34_payment_limits_have_no_effect_refuted, C35_notrade_own_costs, C35_trade_can_only_help, C36_beneficiaries_must_pay_refuted, C36_no_transfers_without_module, C36_transfers_zero_sum, C37_equal_mitigation_costs, C37_equal_total_costs, C37_equal_total_costs_only_until_2100_refuted, C38_allowances_follow_shares, C39_damages_follow_curve, C39_unknown_form, C40_damages_monotone, C40_logistic_bounded, C40_logistic_not_zero_at_zero_refuted, C40_no_damage_without_warming, C40_no_negative_damages, C40_sealevel_damages_bounded, C41_ice_is_limited, C41_long_steps_melt_too_much_refuted, C41_sealevel_recursion, C42_no_damage_mode, C43_cost_minimising_ignores_distribution, C43_equal_distribution_is_best, C43_inequality_aversion_saturates_refuted, C43_not_concave_near_zero_refuted, C43_utility_concave, C43_utility_values, C43_welfare_monotone, C44_NPV_is_discounted_sum, C44_more_consumption_is_better, C44_objective_direction, C45_stricter_policy_fewer_solutions, C45_stricter_policy_not_better, C46_abatement_determines_climate, C46_abatement_determines_economy, C47_deactivation_exact, C47_fixed_global_variable, C47_fixed_regional_variable, C47_missing_region_raises, C47_off_is_plain_model, C47_simulation_builds, C47_solution_reproduced, C47_unknown_constraint_raises, C47_unknown_variable_raises, C48_rows_distinct, C48_table_complete, C48_table_rectangular, C49_no_status_before_solving, C49_status_is_last_solves, C50_soft_max, C50_soft_min, C50_soft_switch, C51_negative_rhs_infeasible_refuted, C51_soft_equality, C51_soft_equality_exact, C52_baseline_run_exists, C52_every_path_simulates, C52_every_path_simulates_endogenous, C52_no_policy_run_exists, C53_file_holds_the_solution, C53_save_writes_current_values, C53_unsolved_values_are_saved, C56_mortality, C56_mortality_only_reported, C56_relative_cumulative_emissions, C56_relative_mitigation_costs, C56_unit_costs, C56_unit_costs_nonpositive_costs_refuted, C59_file_global_values_imposed, C59_file_values_imposed, C59_given_global_values_imposed, C59_given_values_imposed, C59_rounded_file_refuted, C59_saved_file_accepted, C59_saved_run_reproduced, C61_builds_iff_usable, C61_whole_decades, C63_cut_off, C63_cut_off_any, C63_longer_run_no_better, C63_shorter_horizon, C64_listing_order, C64_listing_order_any, C64_region_order, C64_region_order_optimal, C65_damages_and_trade, C65_economy, C65_emissions, C65_indicators, C65_readable, C65_welfare, C66_instance_determines, C66_reproducible, C66_same_constraints, C68_lower_costs_more_consumption, C68_no_costs_is_optimal, C68_not_abating_is_optimal, C68_shipped_baseline_is_optimal, C68_simulated_baseline, C69_GDP_ceiling, C69_GDP_floor, C69_no_policy_run_exists, C69_run_without_policy, C69_shipped_no_policy, C70_last_step_prices, C70_price_order, C70_uniform_carbon_price, C70_weighted_price_order, C70_weighted_prices_equal, C71_discounted_price_never_rises, C71_discounted_price_order, C71_hotelling_rule, C72_costs_convex_in_policy, C72_local_optimum_is_optimal, C72_plans_in_between, C72_unique_abatement, C72_unique_plan, C73_budget_is_target, C73_same_optimal_plans, C73_target_is_budget, C73_tighter_goal_counts, C73_unattainable_goal.
* **`ClassicalDedekindReals.sig_forall_dec`, `ClassicalDedekindReals.sig_not_dec`, `Classical_Prop.classic`, `FunctionalExtensionality.functional_extensionality_dep`, `IndefiniteDescription.constructive_indefinite_description`**: C67_optimum_exists, C67_optimum_exists_endogenous, C67_optimum_exists_harm, C67_shipped_baseline, C67_shipped_optimum_exists.

## What is modelled

| Code | Model |
|----|----|
| `common/config` (nested_dict, parsers, parseconfig: check_params, parse_params, parse_param_values), `config_default.yaml` | `NestedDict`, `Parsers`, `Config`, `ConfigDefault` |
| `common/units.py` (placeholder replacement) | `Parsers` (pint itself is an oracle) |
| `common/data` (datastore, utils) | `DataStore`, `TimeGrid` |
| `common/regional_params` | `RegionalParams` |
| `concrete_model/instantiate_params.py`, docs of all Params, `mimosa.py` constructor | `Instantiate` |
| `inputdata/*.csv`, default regional parameter files | `BundledData` |
| `components/*`, `common/economics.py`, `common/pyomo_utils.py` (soft functions, constraint classes) | `Model` |
| `abstract_model.py`, `pyomo_utils.add_constraint`, rule evaluation at instantiation | `Build`, `Names` |
| `concrete_model/simulation_mode` | `SimMode`, `SimData` |
| `export/save.py`, `mimosa.py` solve and save | `Export`, `Session` |

## What is not modelled

* Floating-point rounding; complex numbers from powers of negative constants; IPOPT's tolerances and the solver
  itself; pyomo's preprocessing transformations (`mimosa.py` 115-140: they change the representation handed to
  the solver, not the constraints of the model), pyomo's units on expressions and its domain checks of data.
* pint's unit arithmetic (oracle `o_pint`, `uf`), scipy's cubic splines (oracle; where needed with the hypotheses
  that the curve exists for increasing years and passes through its points), pandas' CSV reading and merge order.
* Reading YAML text (`load_params` is modelled from the parsed dictionary on); logging and console output;
  documentation rendering (`to_markdown`, docs/, tests/, run scripts).
* `socialcostofcarbon/scc.py`: its constructor always raises TypeError at this commit, so there is no behaviour
  to model.
* Existence of feasible points (C52) excludes a capital share alpha = 1.

## Tests against wrong programs

`seeded/LOG.jsonl`: one line per edit of the model in a scratch copy (`tools/mutate.py`), the claim it breaks and
the theorems that fail. Theorems that survived an edit were tightened (field `tightened`).

