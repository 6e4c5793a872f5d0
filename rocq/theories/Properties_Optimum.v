(** Property theorems (generated by tools/gen_props.py from the proved lemmas; statements only). *)
From Verif Require Import PyBase NestedDict Parsers Config ConfigDefault ConfigSpec TimeGrid DataStore DataStoreLemmas RegionalParams Instantiate InstFacts InstantiateLemmas
  ConstructFacts BundledData BundledFacts BundledSigns Model ModelSpec ClimateSpec WelfareSpec Build BuildLemmas DefinedFacts ExistSpec ExistLemmas
  Loading LoadingLemmas LoadingExist EndToEnd OptimumLemmas OptimumHarm OptimumConfig BaselineRun.
From Coq Require Import QArith Qreals Permutation Reals.
Import ListNotations.
Open Scope string_scope.
Open Scope list_scope.
Open Scope R_scope.

(** Emissions independent of income: every objective, welfare function, trade, transfer and effort-sharing scheme. *)
Theorem C67_optimum_exists : forall p, numeric_ranges p -> sound_data p -> usable_choices p -> slr_logistic_ok p -> 0 <= alpha p < 1 ->
  use_carbon_intensity p = false -> (exists v, feasible p v) -> exists v, optimal p v.
Proof. exact C67_optimum_exists_pf. Qed.
Print Assumptions C67_optimum_exists.

(** Emissions that follow income. *)
Theorem C67_optimum_exists_endogenous : forall p, numeric_ranges p -> sound_data p -> usable_choices p -> slr_logistic_ok p -> 0 <= alpha p < 1 ->
  0 <= TCRE p -> benefits_limited p -> (transfer p = globaldamagepool -> ignore_damages p = false) ->
  (objective p = utility -> poverty_matters p) -> (exists v, feasible p v) -> exists v, optimal p v.
Proof. exact C67_optimum_exists_endogenous_pf. Qed.
Print Assumptions C67_optimum_exists_endogenous.

(** Emissions that follow income, and regions that gain from warming: with a welfare function that counts the consumption of every region and
    without transfers an optimal plan exists as soon as one region is harmed more and more by warming (or damages are ignored). *)
Theorem C67_optimum_exists_harm : forall p, numeric_ranges p -> sound_data p -> usable_choices p -> slr_logistic_ok p -> 0 <= alpha p < 1 ->
  0 <= TCRE p -> objective p = utility -> welfare p <> cost_minimising -> poverty_matters p -> transfer p = notransfer ->
  (ignore_damages p = false -> harm_grows p) -> (exists v, feasible p v) -> exists v, optimal p v.
Proof. exact C67_optimum_exists_harm_pf. Qed.
Print Assumptions C67_optimum_exists_harm.

(** With the shipped files, whatever was constructed before: a well-posed accepted configuration (real numbers, a horizon within 2010-2200, some
    of the 26 regions, depreciation below 1) whose model is built from positive baselines and whose constraints can be met has an optimal plan. *)
Theorem C67_shipped_optimum_exists : forall o mo uf sp h user raw params tree d start stop,
  accepted o user raw params tree -> default_inputs user -> plain_quantities raw -> real_numbers params -> (forall name, ~ customised params name) ->
  lookup params ["regions"] = Some (VDict d) -> d <> [] -> no_own_values d -> (forall k x, In (k, x) d -> exists r, k = KStr r /\ In r image_regions) ->
  number_at params ["time"; "start"] start -> number_at params ["time"; "end"] stop -> (2010 <= start)%Q -> (start <= stop)%Q -> (stop <= 2200)%Q ->
  (forall x, number_in params ["economics"; "GDP"; "depreciation of capital"] x -> x < 1) ->
  prints_quantiles o -> rejects_false o -> (forall l, Permutation l (mo l)) -> units_known uf -> spline_defined sp ->
  (forall disk a, In (disk, a) h -> disk = bundled) -> well_posed o params d ->
  exists inst, construct o bundled mo uf sp (after uf sp h empty_caches) user = Ok inst /\ i_params inst = params /\ (exists p, loads inst p) /\
    forall p, loads inst p -> positive_baselines p -> forall extra n comps, build extra n p = Ok comps ->
      (exists v, feasible p v) -> exists v, optimal p v.
Proof. exact C67_shipped_optimum_exists_pf. Qed.
Print Assumptions C67_shipped_optimum_exists.

(** Horizons in whole decades (C61), emissions that do not follow income, no policy limits, and no damages (or sea-level damages inside their
    bounds): the constraints can be met without any abatement, with exactly the shipped emissions, and an optimal plan exists. Nothing about the
    model is left to assume. *)
Theorem C67_shipped_baseline : forall o mo uf sp h user raw params tree d start stop,
  accepted o user raw params tree -> default_inputs user -> plain_quantities raw -> real_numbers params -> (forall name, ~ customised params name) ->
  lookup params ["regions"] = Some (VDict d) -> d <> [] -> no_own_values d -> (forall k x, In (k, x) d -> exists r, k = KStr r /\ In r image_regions) ->
  number_at params ["time"; "start"] start -> number_at params ["time"; "end"] stop -> (2010 <= start)%Q -> (start <= stop)%Q -> (stop <= 2200)%Q ->
  (forall x, number_in params ["economics"; "GDP"; "depreciation of capital"] x -> x < 1) -> whole_decades params start -> no_negative_emissions params stop ->
  prints_quantiles o -> rejects_false o -> (forall l, Permutation l (mo l)) -> units_known uf -> positive_units uf -> spline_defined sp -> through_points sp ->
  uf "Mt CO2/yr" "emissionsrate_unit" = Ok (1/1000) ->
  (forall disk a, In (disk, a) h -> disk = bundled) ->
  exists inst, construct o bundled mo uf sp (after uf sp h empty_caches) user = Ok inst /\ i_params inst = params /\ (exists p, loads inst p) /\
    forall p Tmax, loads inst p -> usable_configuration o params (Q2R start) (Q2R stop) (dt p) ->
      use_carbon_intensity p = false -> no_limits p -> alpha p < 1 -> 0 <= MAC_gamma p -> 0 <= T0 p -> 0 <= TCRE p ->
      T0 p + TCRE p * (112 * (INR (tf p) * dt p)) <= Tmax -> dt p * (Tmax + 1) < 325 ->
      (dmg_module p = COACCH -> forall r x y, In r (regions p) -> T0 p <= x <= Tmax -> 0 <= y <= sea_level_ceiling p Tmax ->
         -5/10 <= damages_at p r (T0 p) y <= 7/10 /\ (transfer p = globaldamagepool -> 0 <= damages_at p r x y)) ->
      (exists v, feasible p v /\ forall t r, model_step p t -> In r (regions p) ->
         relative_abatement v t r = 0 /\ mitigation_costs v t r = 0 /\ regional_emissions v t r = baseline_emissions p t r) /\
      exists v, optimal p v.
Proof. exact C67_shipped_baseline_pf. Qed.
Print Assumptions C67_shipped_baseline.
