(** Property theorems (generated by tools/gen_props.py from the proved lemmas; statements only). *)
From Verif Require Import PyBase NestedDict Parsers Config ConfigDefault ConfigSpec TimeGrid DataStore DataStoreLemmas RegionalParams Instantiate InstFacts InstantiateLemmas
  ConstructFacts BundledData BundledFacts BundledSigns Model ModelSpec SoftFacts ClimateSpec WelfareSpec Build BuildLemmas DefinedFacts ExistSpec ExistLemmas ExistExo
  Loading LoadingLemmas LoadingExist EndToEnd DeterminedData SimMode EconLemmas DominanceSpec DominanceLemmas DominanceConfig DriftSpec DriftLemmas DriftExist DriftConfig.
From Coq Require Import QArith Qreals Permutation Reals.
Import ListNotations.
Open Scope string_scope.
Open Scope list_scope.
Open Scope R_scope.

(** No plan with net GDP at most [mu] times gross GDP makes a region richer than this. *)
Theorem C69_GDP_ceiling : forall p v r gmin gmax kap eps mu c,
  feasible p v -> In r (regions p) -> 0 < dt p -> 0 <= dk p < 1 -> 0 <= sr p -> 0 <= alpha p <= 1 -> positive_data p -> 0 <= mu ->
  growth_between p r gmin gmax -> capital_ratio_at_most p r gmin kap -> smoothing_at_most p r eps -> capital_ceiling p gmax kap eps mu c ->
  (forall t, (0 < t <= tf p)%nat -> GDP_net v t r <= mu * GDP_gross v t r) ->
  forall t, model_step p t -> GDP_gross v t r <= (1 + eps) * Rpower c (alpha p) * baseline_GDP p t r.
Proof. exact C69_GDP_ceiling_pf. Qed.
Print Assumptions C69_GDP_ceiling.

(** As long as costs, damages and transfers leave the share [lam] of gross GDP, no region falls below this. *)
Theorem C69_GDP_floor : forall p v r gmin gmax lam b,
  feasible p v -> In r (regions p) -> 0 < dt p -> 0 <= dk p < 1 -> 0 <= sr p -> 0 <= alpha p <= 1 -> positive_data p -> 0 <= lam -> 0 <= gmin ->
  growth_between p r gmin gmax -> capital_floor p gmin lam b ->
  (forall t, (0 < t <= tf p)%nat -> lam * GDP_gross v t r <= GDP_net v t r) ->
  forall t, model_step p t -> Rpower b (alpha p) * baseline_GDP p t r <= GDP_gross v t r.
Proof. exact C69_GDP_floor_pf. Qed.
Print Assumptions C69_GDP_floor.

Theorem C69_no_policy_run_exists : forall p mu eps c Tmax,
  numeric_ranges p -> sound_data p -> usable_choices p -> slr_logistic_ok p -> 0 <= alpha p < 1 ->
  use_carbon_intensity p = true -> no_limits p ->
  (forall t r, model_step p t -> In r (regions p) -> 0 <= baseline_emissions p t r) ->
  (forall r, In r (regions p) -> 0 <= MAC_scaling p r) -> 0 <= MAC_gamma p -> 0 <= T0 p -> 0 <= TCRE p ->
  1 <= mu -> grows_within p mu eps c ->
  (forall t, model_step p t -> T0 p + TCRE p * (mu * ((1 + eps) * Rpower c (alpha p)) * baseline_cumulative p t) <= Tmax) ->
  dt p * (Tmax + 1) < 325 ->
  (dmg_module p = COACCH -> forall r x y, In r (regions p) ->
     T0 p <= x <= Tmax -> 0 <= y <= sea_level_ceiling p Tmax ->
     (ignore_damages p = false -> 1 - mu <= damages_at p r x y <= 1) /\ -5/10 <= damages_at p r (T0 p) y <= 7/10 /\
     (transfer p = globaldamagepool -> 0 <= damages_at p r x y)) ->
  exists v, feasible p v /\
    (forall t r, model_step p t -> In r (regions p) -> relative_abatement v t r = 0 /\ mitigation_costs v t r = 0 /\
       ((1 <= t)%nat -> regional_emissions v t r = baseline v t r)) /\
    forall t, model_step p t -> T0 p <= temperature v t <= Tmax.
Proof. exact C69_no_policy_run_exists_pf. Qed.
Print Assumptions C69_no_policy_run_exists.

(** A run without costs, damages and transfers: GDP stays within the factors of the two theorems above, and so do the emissions that follow GDP. *)
Theorem C69_run_without_policy : forall p v r gmin gmax kap eps b c,
  feasible p v -> In r (regions p) -> 0 < dt p -> 0 <= dk p < 1 -> 0 <= sr p -> 0 <= alpha p <= 1 -> positive_data p -> 0 <= gmin ->
  growth_between p r gmin gmax -> capital_ratio_at_most p r gmin kap -> smoothing_at_most p r eps ->
  capital_ceiling p gmax kap eps 1 c -> capital_floor p gmin 1 b ->
  transfer p = notransfer -> (forall t, (0 < t <= tf p)%nat -> mitigation_costs v t r = 0 /\ (ignore_damages p = true \/ damage_costs v t r = 0)) ->
  let lo := Rpower b (alpha p) in let hi := (1 + eps) * Rpower c (alpha p) in
  forall t, (0 < t <= tf p)%nat ->
    lo * baseline_GDP p t r <= GDP_net v t r <= hi * baseline_GDP p t r /\ GDP_gross v t r = GDP_net v t r /\
    (use_carbon_intensity p = true -> 0 <= baseline_emissions p t r ->
       lo * baseline_emissions p t r <= baseline v t r <= hi * baseline_emissions p t r).
Proof. exact C69_run_without_policy_pf. Qed.
Print Assumptions C69_run_without_policy.

(** The shipped files with emissions that follow the model's own GDP (the default): the run without climate policy exists, and when there are no
    damages to avoid it is optimal and every optimal plan abates nothing. *)
Theorem C69_shipped_no_policy : forall o mo uf sp h user raw params tree d start stop,
  accepted o user raw params tree -> default_inputs user -> plain_quantities raw -> real_numbers params -> (forall name, ~ customised params name) ->
  lookup params ["regions"] = Some (VDict d) -> d <> [] -> no_overrides d -> (forall k x, In (k, x) d -> exists r, k = KStr r /\ In r image_regions) ->
  number_at params ["time"; "start"] start -> number_at params ["time"; "end"] stop -> (2010 <= start)%Q -> (start <= stop)%Q -> (stop <= 2200)%Q ->
  (forall x, number_in params ["economics"; "GDP"; "depreciation of capital"] x -> x < 1) -> whole_decades params start -> no_negative_emissions params stop ->
  prints_quantiles o -> rejects_false o -> (forall l, Permutation l (mo l)) -> units_known uf -> positive_units uf -> spline_defined sp -> through_points sp ->
  uf "Mt CO2/yr" "emissionsrate_unit" = Ok (1/1000) -> uf "billion US$2005/yr" "currency_unit" = Ok (1/1000) ->
  (forall disk a, In (disk, a) h -> disk = bundled) ->
  exists inst, construct o bundled mo uf sp (after uf sp h empty_caches) user = Ok inst /\ i_params inst = params /\ (exists p, loads inst p) /\
    forall p eps kap c Tmax, loads inst p -> usable_configuration o params (Q2R start) (Q2R stop) (dt p) ->
      use_carbon_intensity p = true -> no_limits p -> alpha p < 1 -> 0 < MAC_gamma p -> 0 <= T0 p -> 0 <= TCRE p ->
      shipped_growth_allows p eps kap c ->
      let hi := (1 + eps) * Rpower c (alpha p) in
      T0 p + TCRE p * (hi * (112 * (INR (tf p) * dt p))) <= Tmax -> dt p * (Tmax + 1) < 325 ->
      dmg_module p = nodamage \/ (ignore_damages p = true /\ forall r y, In r (regions p) -> 0 <= y <= sea_level_ceiling p Tmax -> -5/10 <= damages_at p r (T0 p) y <= 7/10) ->
      transfer p = notransfer ->
      let no_abatement v := forall t r, model_step p t -> In r (regions p) -> relative_abatement v t r = 0 /\ mitigation_costs v t r = 0 in
      (exists v, feasible p v /\ no_abatement v /\
         forall t r, (1 <= t <= tf p)%nat -> In r (regions p) -> regional_emissions v t r = baseline v t r /\
           GDP_gross v t r <= hi * baseline_GDP p t r /\ regional_emissions v t r <= hi * baseline_emissions p t r) /\
      (sr p < 1 -> no_damages_counted p -> trade p = notrade -> (exists v, optimal p v /\ no_abatement v) /\ forall v, optimal p v -> no_abatement v).
Proof. exact C69_shipped_no_policy_pf. Qed.
Print Assumptions C69_shipped_no_policy.
