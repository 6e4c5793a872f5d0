TEXT1='''# MIMOSA in Rocq: design

Source: `/repo` (Ditesli/MIMOSA, python), read as text. Model and proofs: `/verif/rocq/theories`, Coq 8.16.1.
This file is written by `tools/gen_design.py`; `properties.jsonl`, `MANIFEST.json` and the files `Properties_*.v`
(one statement per theorem, followed by `Print Assumptions`) are generated by `tools/props.py` and
`tools/gen_props.py`, `ConfigDefault.v` by `tools/gen_config.py` from `config_default.yaml` and `BundledData.v` by
`tools/gen_data.py` from the CSV files of `mimosa/inputdata`.

## Two layers

**A. Python-value layer** (configuration, parameter instantiation, data access, region mapping, model
assembly, simulation mode, solving and saving). Python values are an inductive `pyval`, exceptions are values
(`result A = Ok a | Err exn`), functions mirror the python branch by branch. Finite floats are exact rationals
(`Q`), plus `inf`, `-inf`, `nan`. What python gets from outside (pandas' reading of a file, pint, scipy's
splines, `str()` of floats, the solver, the disk) are universally quantified oracles: a theorem over all of
them holds for the real ones, and a hypothesis about one of them is visible in the theorem.

**B. Equation layer** (components). Each Pyomo rule is a function of the model data, a step and a region, whose
result is `Skip`, a constraint `lhs op rhs` over a syntax of expressions (deep embedding, `Expr.v`), or a python
exception. `deno` evaluates an expression over the reals; `defd` says that no operation in it is undefined.
`feasible p v`: every generated constraint is satisfied at every index and every variable respects its declared
bounds. The solver is an oracle: a theorem "in every feasible solution" holds for whatever point a solver
returns that satisfies the constraints exactly (IPOPT's tolerances are outside the model).

Statements about the equation layer are written with the names of `ModelSpec.v` (`temperature v t`,
`GDP_gross v t r`, ...), which only rename the components of a point; larger specifications are in
`ClimateSpec.v`, `WelfareSpec.v`, `PolicySpec.v`, `ExistSpec.v`, and for the configuration in `ConfigSpec.v`.
Non-vacuity: `Example.v` contains a family of concrete model data and feasible points (with and without
policy, damages, trade); the files `*Lemmas.v` and `Config*.v` contain an `Example` beside the theorems, and the
existence theorems C52 and C57 show for large families that the hypotheses "feasible" and "constructed" are met.

Properties that are false of the code are proved in the form that is true, next to a theorem named `*_refuted`
that exhibits the failure of the stronger claim (with a reachable configuration or a feasible point).

## Properties, models and proofs
'''
TEXT2='''
## Trusted base

* Coq's kernel (8.16.1; `vm_compute` is used for finite checks, among them over the transcribed template and
  input tables).
* The transcription: every definition of the model cites the lines it models; simplifications are named there.
* The generated tables `ConfigDefault.v` and `BundledData.v` (decimals of the files as exact rationals).
* The axioms below, all from the standard library (`Reals`, `Classical`, and for C67 `IndefiniteDescription`); no axioms of our own.

### What `Print Assumptions` lists for each theorem
'''
TEXT3='''
## What is modelled

| Code | Model |
|----|----|
| `common/config` (nested_dict, parsers, parseconfig: check_params, parse_params, parse_param_values), `config_default.yaml` | `NestedDict`, `Parsers`, `Config`, `ConfigDefault` |
| `common/units.py` (placeholder replacement) | `Parsers` (pint itself is an oracle) |
| `common/data` (datastore, utils) | `DataStore`, `TimeGrid` |
| `common/regional_params` | `RegionalParams` |
| `concrete_model/instantiate_params.py`, docs of all Params, `mimosa.py` constructor | `Instantiate` |
| `inputdata/*.csv`, default regional parameter files | `BundledData` |
| `components/*`, `common/economics.py`, `common/pyomo_utils.py` (soft functions, constraint classes) | `Model` |
| `abstract_model.py`, `pyomo_utils.add_constraint`, rule evaluation at instantiation | `Build`, `Names` |
| `concrete_model/simulation_mode` | `SimMode`, `SimData` |
| `export/save.py`, `mimosa.py` solve and save | `Export`, `Session` |

## What is not modelled

* Floating-point rounding; complex numbers from powers of negative constants; IPOPT's tolerances and the solver
  itself; pyomo's preprocessing transformations (`mimosa.py` 115-140: they change the representation handed to
  the solver, not the constraints of the model), pyomo's units on expressions and its domain checks of data.
* pint's unit arithmetic (oracle `o_pint`, `uf`), scipy's cubic splines (oracle; where needed with the hypotheses
  that the curve exists for increasing years and passes through its points), pandas' CSV reading and merge order.
* Reading YAML text (`load_params` is modelled from the parsed dictionary on); logging and console output;
  documentation rendering (`to_markdown`, docs/, tests/, run scripts).
* `socialcostofcarbon/scc.py`: its constructor always raises TypeError at this commit, so there is no behaviour
  to model.
* Existence of feasible points (C52) excludes a capital share alpha = 1.

## Tests against wrong programs

`seeded/LOG.jsonl`: one line per edit of the model in a scratch copy (`tools/mutate.py`), the claim it breaks and
the theorems that fail. Theorems that survived an edit were tightened (field `tightened`).
'''
HOW={
'C01':('Config, ConfigLemmas','induction on the template tree and on paths'),
'C02':('Config, ConfigLemmas','flattened keys versus paths; refuted part by a computed witness'),
'C03':('Parsers, ConfigLemmas','case analysis of the numeric parsers; NaN witness'),
'C04':('Parsers, ConfigLemmas','case analysis'),
'C05':('Parsers, ConfigLemmas','case analysis of the accepted spellings'),
'C06':('Config, ConfigLemmas','parsers are idempotent on their results; induction over the template'),
'C07':('Config, RefFacts','invariants of the string search and replacement'),
'C08':('NestedDict, ConfigLemmas','induction on paths'),
'C09':('Parsers (units), UnitsFacts, UnitsLemmas','string-rewriting invariants; token view of unit texts and a boundary argument for str.replace'),
'C10':('Instantiate, InstantiateLemmas','inversion of the construction; finite check of all doc strings'),
'C11':('TimeGrid','ceiling arithmetic'),
'C12':('TimeGrid, DataStore','interpolation at nodes; inversion of the data store'),
'C13':('TimeGrid','induction on the extrapolated years'),
'C14':('DataStore, DataStoreLemmas, DataRows','cache invariant over all histories, refinement to the cache-free semantics'),
'C15':('RegionalParams','lookup laws'),
'C16':('RegionalParams','permutation invariance of the aggregates, induction on rows'),
'C17':('Build, BuildLemmas','invariant of the component registry'),
'C18':('Build, BuildLemmas','evaluation of every rule; equivalence with a list of usable choices'),
'C19':('Expr, VarFacts','case analysis of every rule'),
'C20':('Model, EmissionLemmas','constraints to equations; induction on steps; sums over regions'),
'C21':('EmissionLemmas','constraints to inequalities'),
'C22':('EmissionLemmas','induction on steps'),
'C23':('EmissionLemmas','constraints to equations'),
'C24':('EmissionLemmas','constraints to inequalities; telescoping'),
'C25':('EmissionLemmas','constraints to inequalities'),
'C26':('EmissionLemmas','induction on steps; witness for the other convention'),
'C27':('MitigationLemmas','derivative and integral of the power function'),
'C28':('MitigationLemmas','constraints to equations'),
'C29':('MitigationLemmas','monotonicity of real powers and logarithms'),
'C30':('EconLemmas','constraints to equations, sums'),
'C31':('DefinedFacts, EconLemmas','every operation of every constraint is shown defined'),
'C32':('EconLemmas','algebra of the calibration; witness that the baseline run differs'),
'C33':('TradeLemmas','sums over regions, weighted means'),
'C34':('TradeLemmas','the limits occur in no constraint of a buildable model'),
'C35':('TradeLemmas','inclusion of feasible sets'),
'C36':('TradeLemmas','sums over regions'),
'C37':('TradeLemmas','soft equality with tolerance'),
'C38':('TradeLemmas','closed form of the shares, sums'),
'C39':('ClimateSpec, ClimateLemmas','constraints to equations'),
'C40':('ClimateLemmas','monotonicity of the damage curves; witnesses'),
'C41':('ClimateLemmas','recursions, induction on steps'),
'C42':('ClimateLemmas','constraints to equations'),
'C43':('WelfareSpec, WelfareLemmas','convexity of powers, Jensen; witnesses for the smoothed range'),
'C44':('WelfareLemmas','induction on steps'),
'C45':('PolicySpec, PolicyLemmas','inclusion of feasible sets'),
'C46':('PolicyLemmas','induction on steps, uniqueness of the capital equation'),
'C47':('SimMode, SimModeLemmas','inversion of the added and removed constraints'),
'C48':('Export, ExportLemmas','enumeration of rows; injectivity of the year labels'),
'C49':('Session, SessionLemmas','induction over histories of calls'),
'C50':('SoftLemmas','real analysis of the smoothed functions'),
'C51':('SoftLemmas','real arithmetic'),
'C52':('Simulate, ExistFacts, ExistLemmas, ExistExo','explicit forward simulation; existence of the implicit capital stock'),
'C53':('Session, SessionLemmas','induction over histories'),
'C54':('ConfigAccept','completeness of the checks, induction over the template'),
'C55':('ConfigValues, ConfigText','case analysis of the parsers; every text the number readers accept is decomposed into blanks, sign, digits, point and exponent'),
'C56':('IndicatorLemmas','constraints to equations, weighted means, smoothing bounds'),
'C57':('BundledFacts, ConstructFacts','finite checks over the shipped tables lifted to all configurations and histories'),
'C58':('BundledSigns','exact rational extrapolation computed for all series, transferred to the reals'),
'C59':('SimData, SimDataLemmas','reading of the data table followed to the added constraints; decimal year labels read back'),
'C60':('Loading, LoadingLemmas, LoadingExist','inversion of the construction for every declared parameter; existence by collecting the values'),
'C61':('EndToEnd, EndToEndExample','composition of C57, C58, C60 and C18; the shipped regional tables are checked by computation, the configured ranges come from C03'),
'C62':('Sharing, SharingSpec, SharingLemmas, SharingExample','the configuration code with object identities (new dictionary or the caller\'s own object), shown to compute the same values; invariant: only the described objects are shared, assignments stay in new dictionaries'),
'C63':('Setters2, Horizon, SameInputs, ScopeLemmas, ScopeExample','two constructions whose final parameters differ in the end year and the regions only: simulation relation between the two instance data dictionaries, carried through interpolation and the parameter stores to the loaded model; index sets shrink, constraints are syntactically the same'),
'C64':('Setters2, RegionOrder, SameInputs, ScopeLemmas, ScopeExample','relation on constraints up to the order of sums over regions, proved for every component, sound for values and definedness; same simulation relation for the numbers'),
'C66':('Determined, DeterminedData, DeterminedExample','every rule of every component rewritten with the numbers it reads replaced by equal ones (agreement only where the rule reads: inside the horizon, listed regions, coefficients of the functional form); the numbers are functions of the instance data where present, and the shipped files checked to hold all of them'),
'C65':('SavedLemmas, SavedExample','rows of the table found by their name and region (C48: no two rows agree in both), values replaced by those of the solution, then the equation of the component'),
'C67':('Limits, LimitModel, Subsequence, Compact, Bounds, Optimum, OptimumLemmas, OptimumHarm, OptimumConfig, BaselineRun, OptimumExample','the set of feasible plans at least as good as a given one is bounded (every variable is bounded once net incomes are; net incomes are bounded by the economic equations and, with income-dependent emissions, by the objective) and closed (every constraint is continuous where it is defined), so a maximising sequence has a convergent subsequence (Bolzano-Weierstrass over the finitely many variables) whose limit is feasible and optimal; uses the choice axiom of Coq.Logic.IndefiniteDescription for the sequence'),
'C68':('DominanceSpec, DominanceLemmas, DominanceSim, DominanceConfig, DominanceExample','the capital equation is implicit (capital enters its own investment); its solution is unique and increasing in last period\'s capital and decreasing in costs and damages, so an induction over the years compares two plans; welfare monotonicity (C43, C44) turns more consumption into a better objective; with C52 and C61 the run without abatement exists for the shipped files; simulation mode through C47.'),
'C69':('DriftSpec, DriftLemmas, DriftExist, DriftConfig, DriftExample','induction over the years on the ratio of capital to the calibration capital: the implicit capital equation is increasing (C68), so a capital above the ceiling (below the floor) contradicts it; concavity of the Cobb-Douglas function and of the smoothing turn the capital bound into a GDP bound; the envelope of C52 is instantiated with the ceiling, and the growth of the shipped (and extrapolated) GDP is computed from the files.'),
'C70':('ReallocateSpec, Reallocate, Exchange, PriceLemmas, PriceExample, RightDeriv, ShadowSpec, ShadowLemmas, ShadowPrice, ShadowExample','shifting an amount of abatement between two regions keeps global emissions and with them climate and learning; the shifted plan is simulated and shown to be feasible when the shift is small enough for the limits with slack; the derivative of the costs along the shift is the difference of the carbon prices (cost curves, C27), and an optimum cannot have a cheaper direction; for the welfare objective the one-sided derivative of every quantity along the shift is computed, through the implicit capital equation (whose slope is bounded away from 0 by the capital share) down to discounted welfare; the refutation uses existence of an optimum (C67)'),
'C71':('HotellingSpec, Reschedule, HotellingLemmas, HotellingExample','moving an amount of emissions between two steps before 2100 changes cumulative emissions only between them (for both ways of summing), so budget and target are untouched; the climate module is continuous in the amount, and finitely many limits with slack stay satisfied for small amounts; the moved plan is simulated and feasible; less emitted means more learned, so its costs are at most those at the old learning; then the first-order condition of C70'),
'C72':('ConvexSpec, Blend, ConvexLemmas, ConvexExample','the model is simulated for the mean of two abatement paths; without learning by doing emissions, cumulative emissions and temperature are the means too, and every limit of the policy in between is the mean of two limits that hold; carbon prices are monotone and costs convex in abatement (strictly where they have a price), by the tangent of the power function; moderate warming keeps the sea-level equations inside the bounds of their variables'),
'C73':('TargetSpec, TargetLemmas, TargetExample','the goal only enters three constraints; every plan of the model without them satisfies them iff cumulative emissions, temperature (and emissions) respect the numbers from 2100 on; temperature is affine in cumulative emissions'),
}
