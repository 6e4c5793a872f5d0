(** Property theorems (generated by tools/gen_props.py from the proved lemmas; statements only). *)
From Verif Require Import PyBase NestedDict Parsers Config ConfigDefault ConfigSpec TimeGrid DataStore DataStoreLemmas RegionalParams Instantiate InstFacts InstantiateLemmas
  ConstructFacts BundledData BundledFacts BundledSigns Model ModelSpec ClimateSpec WelfareSpec Build BuildLemmas DefinedFacts ExistSpec ExistLemmas
  Loading LoadingLemmas LoadingExist EndToEnd DeterminedData SimMode EconLemmas DominanceSpec DominanceLemmas DominanceSim DominanceConfig.
From Coq Require Import QArith Qreals Permutation Reals.
Import ListNotations.
Open Scope string_scope.
Open Scope list_scope.
Open Scope R_scope.

(** Mitigation costs and damages no higher in any year, and affordable: no less capital, output and consumption in any year. *)
Theorem C68_lower_costs_more_consumption : forall p v w r,
  feasible p v -> feasible p w -> In r (regions p) -> transfer p = notransfer ->
  0 < dt p -> 0 <= dk p < 1 -> 0 <= sr p <= 1 -> 0 <= alpha p <= 1 -> positive_data p ->
  (forall t, model_step p t -> mitigation_costs w t r <= mitigation_costs v t r /\
     damage_share p w t r <= damage_share p v t r /\ damage_share p w t r <= 1) ->
  (forall t, (S t <= tf p)%nat -> dt p * sr p * mitigation_costs w (S t) r <= capital_stock w t r) ->
  forall t, model_step p t ->
    capital_stock v t r <= capital_stock w t r /\ GDP_gross v t r <= GDP_gross w t r /\
    GDP_net v t r <= GDP_net w t r /\ consumption v t r <= consumption w t r /\
    (sr p < 1 -> mitigation_costs w t r < mitigation_costs v t r -> consumption v t r < consumption w t r).
Proof. exact C68_lower_costs_more_consumption_pf. Qed.
Print Assumptions C68_lower_costs_more_consumption.

(** A feasible plan whose mitigation costs are zero everywhere is optimal, and every optimal plan has zero mitigation costs. *)
Theorem C68_no_costs_is_optimal : forall p w,
  0 < dt p -> 0 <= dk p < 1 -> 0 <= sr p < 1 -> 0 <= alpha p <= 1 -> positive_data p ->
  0 <= rel_mitigation_costs_min_level p -> no_damages_counted p -> transfer p = notransfer ->
  feasible p w -> (forall t r, model_step p t -> In r (regions p) -> mitigation_costs w t r = 0) ->
  optimal p w /\
  forall v, optimal p v -> forall t r, (1 <= t <= tf p)%nat -> In r (regions p) -> mitigation_costs v t r = 0.
Proof. exact C68_no_costs_is_optimal_pf. Qed.
Print Assumptions C68_no_costs_is_optimal.

(** Without damages to avoid, not abating is optimal, and it is the only optimal abatement path. *)
Theorem C68_not_abating_is_optimal : forall p w,
  numeric_ranges p -> 0 <= sr p < 1 -> 0 <= alpha p <= 1 -> positive_data p ->
  (forall t r, model_step p t -> In r (regions p) -> 0 <= baseline_emissions p t r) ->
  (forall r, In r (regions p) -> 0 <= MAC_scaling p r) -> 0 <= MAC_gamma p ->
  no_damages_counted p -> transfer p = notransfer -> trade p = notrade ->
  feasible p w -> (forall t r, model_step p t -> In r (regions p) -> relative_abatement w t r = 0) ->
  optimal p w /\
  forall v, optimal p v -> 0 < MAC_gamma p ->
    forall t r, model_step p t -> In r (regions p) -> 0 < MAC_scaling p r -> 0 < baseline_emissions p t r ->
    relative_abatement v t r = 0 /\ mitigation_costs v t r = 0 /\ carbonprice v t r = 0 /\
    ((1 <= t)%nat -> regional_emissions v t r = baseline v t r) /\
    consumption v t r = (1 - sr p) * GDP_gross v t r.
Proof. exact C68_not_abating_is_optimal_pf. Qed.
Print Assumptions C68_not_abating_is_optimal.

Theorem C68_simulated_baseline : forall extra n m p s active v data,
  create_instance p extra n m (Some s) = Ok active -> sim_deactivated s = [] -> solution_of p active v ->
  In ("relative_abatement"%string, data) (sim_fixed s) ->
  (forall r, In r (regions p) -> exists f, data r = Some f /\ forall t, model_step p t -> f (year p t) = 0) ->
  forall t r, model_step p t -> In r (regions p) ->
    0 <= relative_abatement v t r <= 1/1000 /\
    ((1 <= t)%nat -> 0 <= baseline v t r -> 999/1000 * baseline v t r <= regional_emissions v t r <= baseline v t r) /\
    (0 < MAC_beta p -> 0 <= LOT_rate p -> 0 <= MAC_scaling p r -> 0 <= MAC_gamma p -> 0 <= baseline v t r ->
       0 <= area_under_MAC v t r <= learning_factor v t * MAC_scaling p r * MAC_gamma p * Rpower (1/1000) (MAC_beta p + 1) / (MAC_beta p + 1) * baseline v t r).
Proof. exact C68_simulated_baseline_pf. Qed.
Print Assumptions C68_simulated_baseline.

(** Horizons in whole decades (C61), exogenous baseline emissions, no policy limits, damages ignored or switched off, no trade or transfers:
    the plan that follows the shipped baseline emissions is optimal, and every optimal plan does exactly that. *)
Theorem C68_shipped_baseline_is_optimal : forall o mo uf sp h user raw params tree d start stop,
  accepted o user raw params tree -> default_inputs user -> plain_quantities raw -> real_numbers params -> (forall name, ~ customised params name) ->
  lookup params ["regions"] = Some (VDict d) -> d <> [] -> no_overrides d -> (forall k x, In (k, x) d -> exists r, k = KStr r /\ In r image_regions) ->
  number_at params ["time"; "start"] start -> number_at params ["time"; "end"] stop -> (2010 <= start)%Q -> (start <= stop)%Q -> (stop <= 2200)%Q ->
  (forall x, number_in params ["economics"; "GDP"; "depreciation of capital"] x -> x < 1) -> whole_decades params start -> no_negative_emissions params stop ->
  prints_quantiles o -> rejects_false o -> (forall l, Permutation l (mo l)) -> units_known uf -> positive_units uf -> spline_defined sp -> through_points sp ->
  uf "Mt CO2/yr" "emissionsrate_unit" = Ok (1/1000) ->
  (forall disk a, In (disk, a) h -> disk = bundled) ->
  exists inst, construct o bundled mo uf sp (after uf sp h empty_caches) user = Ok inst /\ i_params inst = params /\ (exists p, loads inst p) /\
    forall p Tmax, loads inst p -> usable_configuration o params (Q2R start) (Q2R stop) (dt p) ->
      use_carbon_intensity p = false -> no_limits p -> alpha p < 1 -> sr p < 1 -> 0 < MAC_gamma p -> 0 <= T0 p -> 0 <= TCRE p ->
      T0 p + TCRE p * (112 * (INR (tf p) * dt p)) <= Tmax -> dt p * (Tmax + 1) < 325 ->
      (dmg_module p = COACCH -> forall r x y, In r (regions p) -> T0 p <= x <= Tmax -> 0 <= y <= sea_level_ceiling p Tmax -> -5/10 <= damages_at p r (T0 p) y <= 7/10) ->
      no_damages_counted p -> transfer p = notransfer -> trade p = notrade ->
      let follows_baseline v := forall t r, model_step p t -> In r (regions p) ->
         relative_abatement v t r = 0 /\ mitigation_costs v t r = 0 /\ regional_emissions v t r = baseline_emissions p t r in
      (exists v, optimal p v /\ follows_baseline v) /\ forall v, optimal p v -> follows_baseline v.
Proof. exact C68_shipped_baseline_is_optimal_pf. Qed.
Print Assumptions C68_shipped_baseline_is_optimal.
