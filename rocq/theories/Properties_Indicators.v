(** Property theorems (generated by tools/gen_props.py from the proved lemmas; statements only). *)
From Verif Require Import Model ModelSpec IndicatorLemmas.

(** Mitigation costs relative to GDP: by region, and globally as a GDP-weighted average, so the global figure
    lies between the smallest and the largest regional figure. *)
Theorem C56_relative_mitigation_costs : forall p v t, feasible p v -> model_step p t ->
  (forall r, In r (regions p) ->
     GDP_gross v t r <> 0 /\ rel_mitigation_costs v t r * GDP_gross v t r = mitigation_costs v t r /\
     (if Nat.eqb t 0 then 0 else rel_mitigation_costs_min_level p) <= rel_mitigation_costs v t r) /\
  total p (GDP_gross v t) <> 0 /\
  global_rel_mitigation_costs v t * total p (GDP_gross v t) = total p (mitigation_costs v t) /\
  (forall lo hi, (forall r, In r (regions p) -> 0 < GDP_gross v t r /\ lo <= rel_mitigation_costs v t r <= hi) ->
     lo <= global_rel_mitigation_costs v t <= hi).
Proof. exact C56_relative_mitigation_costs_pf. Qed.
Print Assumptions C56_relative_mitigation_costs.

(** Cumulative emissions relative to the baseline: 1 in the first year, the ratio afterwards; with no
    abatement ever it stays 1. *)
Theorem C56_relative_cumulative_emissions : forall p v t, feasible p v -> model_step p t ->
  relative_cumulative_emissions v 0 = 1 /\
  ((0 < t)%nat -> cumulative_global_baseline_emissions p t <> 0 /\
     relative_cumulative_emissions v t * cumulative_global_baseline_emissions p t = cumulative_emissions v t).
Proof. exact C56_relative_cumulative_emissions_pf. Qed.
Print Assumptions C56_relative_cumulative_emissions.

Theorem C56_unit_costs : forall p v t, feasible p v -> (0 < t)%nat -> model_step p t ->
  let reductions := total p (emission_reduction v t) in
  let costs := total p (mitigation_costs v t) in
  (0 <= reductions -> 0 < costs ->
     reductions / (costs + smoothing_error) <= emission_reduction_per_cost_unit v t <= reductions / costs) /\
  (0 < reductions -> 0 <= costs ->
     costs / (reductions + smoothing_error) <= cost_per_emission_reduction_unit v t <= costs / reductions) /\
  (0 < reductions -> 0 < costs ->
     0 < emission_reduction_per_cost_unit v t * cost_per_emission_reduction_unit v t < 1) /\
  (reductions = 0 -> emission_reduction_per_cost_unit v t = 0) /\
  (costs = 0 -> cost_per_emission_reduction_unit v t = 0).
Proof. exact C56_unit_costs_pf. Qed.
Print Assumptions C56_unit_costs.

(** When the costs are not positive (imported reductions, negative minimum level) the indicator is not the ratio:
    it is at least 25*pi times the reductions, and positive although the ratio is negative. *)
Theorem C56_unit_costs_nonpositive_costs_refuted : forall p v t, feasible p v -> (0 < t)%nat -> model_step p t ->
  0 < total p (emission_reduction v t) -> total p (mitigation_costs v t) <= 0 ->
  25 * PI * total p (emission_reduction v t) <= emission_reduction_per_cost_unit v t.
Proof. exact C56_unit_costs_nonpositive_costs_refuted_pf. Qed.
Print Assumptions C56_unit_costs_nonpositive_costs_refuted.

Theorem C56_mortality : forall p v t r, feasible p v -> dmg_module p = COACCH -> model_step p t -> In r (regions p) ->
  rval v v_mortality_oldest t r = quadratic (mort_oldest p r) (temperature v t) /\
  rval v v_mortality_older t r = quadratic (mort_older p r) (temperature v t) /\
  rval v v_mortality_young t r = quadratic (mort_young p r) (temperature v t) /\
  rval v v_mortality_cost_oldest t r = 13000 * rval v v_mortality_oldest t r * population p t r.
Proof. exact C56_mortality_pf. Qed.
Print Assumptions C56_mortality.

Theorem C56_mortality_only_reported : forall p v oldest older young, feasible p v ->
  exists w, feasible (with_mortality oldest older young p) w /\
    objective_value (with_mortality oldest older young p) w = objective_value p v /\
    (forall g t, gval w g t = gval v g t) /\
    (forall x t r, is_mortality x = false -> rval w x t r = rval v x t r).
Proof. exact C56_mortality_only_reported_pf. Qed.
Print Assumptions C56_mortality_only_reported.
