(** Property theorems (generated by tools/gen_props.py from the proved lemmas; statements only). *)
From Verif Require Import Model ModelSpec EmissionLemmas.

Theorem C20_emission_accounting : forall p v t, feasible p v -> model_step p t ->
  global_emissions v t = total p (regional_emissions v t) /\
  (forall r, In r (regions p) ->
     emission_reduction v t r = baseline v t r - regional_emissions v t r /\
     baseline v t r = (if use_carbon_intensity p
                       then baseline_emissions p t r / baseline_GDP p t r * GDP_net v t r
                       else baseline_emissions p t r) /\
     (t = 0%nat -> regional_emissions v t r = baseline_emissions p 0 r) /\
     ((0 < t)%nat -> regional_emissions v t r = (1 - relative_abatement v t r) * baseline v t r)) /\
  cumulative_emissions v t
  = dt p * steps_sum (fun s => if cum_trapz p then (global_emissions v s + global_emissions v (s - 1)) / 2
                               else global_emissions v s) t.
Proof. exact C20_emission_accounting_pf. Qed.
Print Assumptions C20_emission_accounting.

Theorem C21_budget_respected : forall p v B t, feasible p v -> budget p = Some B ->
  model_step p t -> 2100 <= year p t -> cumulative_emissions v t <= B.
Proof. exact C21_budget_respected_pf. Qed.
Print Assumptions C21_budget_respected.

(** "for every accepted time grid" fails: a horizon ending before 2100 silently drops the budget. *)
Theorem C21_budget_ignored_before_2100_refuted : forall p v B, 0 <= dt p -> year p (tf p) < 2100 ->
  (feasible (with_budget (Some B) p) v <-> feasible (with_budget None p) v).
Proof. exact C21_budget_ignored_before_2100_refuted_pf. Qed.
Print Assumptions C21_budget_ignored_before_2100_refuted.

Theorem C22_emissions_after_budget_year : forall p v B t, feasible p v -> budget p = Some B ->
  no_pos_after_budget_year p = true -> model_step p t -> 2100 <= year p t ->
  global_emissions v t <= 0.
Proof. exact C22_emissions_after_budget_year_pf. Qed.
Print Assumptions C22_emissions_after_budget_year.

Theorem C22_no_increase_after_2100 : forall p v B s t, feasible p v -> 0 < dt p -> 0 <= TCRE p ->
  budget p = Some B -> no_pos_after_budget_year p = true ->
  (s <= t)%nat -> model_step p t -> 2100 <= year p s ->
  cumulative_emissions v t <= cumulative_emissions v s /\ temperature v t <= temperature v s.
Proof. exact C22_no_increase_after_2100_pf. Qed.
Print Assumptions C22_no_increase_after_2100.

(** The option is ignored when no budget is set. *)
Theorem C22_option_needs_budget_refuted : forall p v, budget p = None ->
  (feasible (with_no_pos_after_budget_year true p) v <-> feasible (with_no_pos_after_budget_year false p) v).
Proof. exact C22_option_needs_budget_refuted_pf. Qed.
Print Assumptions C22_option_needs_budget_refuted.

Theorem C23_temperature : forall p v t, feasible p v -> model_step p t ->
  temperature v t = T0 p + TCRE p * cumulative_emissions v t /\ temperature v 0 = T0 p /\
  (0 <= TCRE p -> T0 p <= temperature v t) /\
  (forall T, temperature_target p = Some T -> 2100 <= year p t -> temperature v t <= T).
Proof. exact C23_temperature_pf. Qed.
Print Assumptions C23_temperature.

(** ... and the target is dropped when the horizon ends before 2100. *)
Theorem C23_target_ignored_before_2100_refuted : forall p v T, 0 <= dt p -> year p (tf p) < 2100 ->
  (feasible (with_temperature_target (Some T) p) v <-> feasible (with_temperature_target None p) v).
Proof. exact C23_target_ignored_before_2100_refuted_pf. Qed.
Print Assumptions C23_target_ignored_before_2100_refuted.

Theorem C24_speed_limit : forall p v s t i, feasible p v -> (s <= t)%nat -> model_step p t ->
  (inertia_regional p = Some i -> forall r, In r (regions p) ->
     regional_emissions v t r - regional_emissions v s r
     >= (year p t - year p s) * i * baseline_emissions p 0 r) /\
  (inertia_global p = Some i ->
     global_emissions v t - global_emissions v s
     >= (year p t - year p s) * i * total p (baseline_emissions p 0)).
Proof. exact C24_speed_limit_pf. Qed.
Print Assumptions C24_speed_limit.

Theorem C25_minimum_levels : forall p v t l, feasible p v -> model_step p t ->
  (global_min_level p = Some l -> l <= global_emissions v t) /\
  (regional_min_level p = Some l -> forall r, In r (regions p) -> l <= regional_emissions v t r).
Proof. exact C25_minimum_levels_pf. Qed.
Print Assumptions C25_minimum_levels.

(** The level also applies to the initial year, whose emissions are data: a level above the initial
    emissions has no solution. *)
Theorem C25_initial_year_included : forall p v l r, feasible p v -> regional_min_level p = Some l ->
  In r (regions p) -> l <= baseline_emissions p 0 r.
Proof. exact C25_initial_year_included_pf. Qed.
Print Assumptions C25_initial_year_included.

Theorem C25_non_increasing : forall p v s t r, feasible p v -> 0 < dt p ->
  non_increasing_after_2100 p = true -> In r (regions p) -> (s <= t)%nat -> model_step p t ->
  2100 < year p s -> regional_emissions v t r <= regional_emissions v s r.
Proof. exact C25_non_increasing_pf. Qed.
Print Assumptions C25_non_increasing.

Theorem C26_no_abatement_baseline : forall p v t, feasible p v -> use_carbon_intensity p = false ->
  model_step p t ->
  (forall r, In r (regions p) -> (0 < t)%nat -> relative_abatement v t r = 0 ->
     regional_emissions v t r = baseline_emissions p t r) /\
  (no_abatement p v t -> cum_trapz p = true ->
     cumulative_emissions v t = cumulative_global_baseline_emissions p t).
Proof. exact C26_no_abatement_baseline_pf. Qed.
Print Assumptions C26_no_abatement_baseline.

(** With the right-endpoint rule the two differ by half a step of the change in baseline emissions. *)
Theorem C26_right_endpoint_differs_refuted : forall p v t, feasible p v ->
  use_carbon_intensity p = false -> model_step p t -> no_abatement p v t -> cum_trapz p = false ->
  cumulative_emissions v t - cumulative_global_baseline_emissions p t
  = dt p / 2 * (total p (baseline_emissions p t) - total p (baseline_emissions p 0)).
Proof. exact C26_right_endpoint_differs_refuted_pf. Qed.
Print Assumptions C26_right_endpoint_differs_refuted.
