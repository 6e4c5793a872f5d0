(** Property theorems (generated by tools/gen_props.py from the proved lemmas; statements only). *)
From Verif Require Import Model ModelSpec WelfareSpec WelfareLemmas.

(** With every welfare module: more consumption in one region and no less elsewhere is more welfare. *)
Theorem C43_welfare_monotone : forall p v w t r0, feasible p v -> feasible p w -> model_step p t ->
  (forall r, In r (regions p) -> 0 < population p t r) ->
  (forall r, In r (regions p) -> consumption v t r <= consumption w t r) ->
  In r0 (regions p) -> consumption v t r0 < consumption w t r0 ->
  yearly_welfare v t < yearly_welfare w t.
Proof. exact C43_welfare_monotone_pf. Qed.
Print Assumptions C43_welfare_monotone.

(** Utility is concave in consumption per capita from 0.1 (thousand dollars) upwards, for every accepted
    elasticity (at least 0.1). *)
Theorem C43_utility_concave : forall eta x y l, 1/10 <= eta -> eta <> 1 -> 1/10 <= x -> 1/10 <= y -> 0 <= l <= 1 ->
  l * utility_of eta x + (1 - l) * utility_of eta y <= utility_of eta (l * x + (1 - l) * y).
Proof. exact C43_utility_concave_pf. Qed.
Print Assumptions C43_utility_concave.

Theorem C43_utility_values : forall p v t, feasible p v -> model_step p t ->
  (forall r, In r (regions p) -> 0 < population p t r) ->
  (welfare p = welfare_loss_minimising ->
     yearly_welfare v t = total p (fun r => population p t r * utility_of (elasmu p) (per_capita p v t r))) /\
  (welfare p = cost_minimising ->
     yearly_welfare v t = total p (population p t) * utility_of (elasmu p) (global_per_capita p v t)).
Proof. exact C43_utility_values_pf. Qed.
Print Assumptions C43_utility_values.

(** Cost-minimising welfare depends on global consumption only: redistribution is neutral. *)
Theorem C43_cost_minimising_ignores_distribution : forall p v w t, feasible p v -> feasible p w -> model_step p t ->
  welfare p = cost_minimising -> total p (consumption v t) = total p (consumption w t) ->
  yearly_welfare v t = yearly_welfare w t.
Proof. exact C43_cost_minimising_ignores_distribution_pf. Qed.
Print Assumptions C43_cost_minimising_ignores_distribution.

(** Inequality costs welfare: for the same total, equal consumption per capita is best. *)
Theorem C43_equal_distribution_is_best : forall p v t, feasible p v -> model_step p t -> regions p <> [] ->
  welfare p = welfare_loss_minimising -> (forall r, In r (regions p) -> 0 < population p t r) ->
  1/10 <= elasmu p -> (forall r, In r (regions p) -> 1/10 <= per_capita p v t r) ->
  yearly_welfare v t <= total p (population p t) * utility_of (elasmu p) (global_per_capita p v t).
Proof. exact C43_equal_distribution_is_best_pf. Qed.
Print Assumptions C43_equal_distribution_is_best.

Theorem C43_not_concave_near_zero_refuted : utility_of (1/2) ((0 + 1/100) / 2) < (utility_of (1/2) 0 + utility_of (1/2) (1/100)) / 2.
Proof. exact C43_not_concave_near_zero_refuted_pf. Qed.
Print Assumptions C43_not_concave_near_zero_refuted.

(** Inequality aversion above one: the second smooth minimum dominates, so welfare stays away from its
    theoretical supremum (zero) however rich every region is. *)
Theorem C43_inequality_aversion_saturates_refuted : forall p v t, feasible p v -> model_step p t ->
  welfare p = inequal_aversion_general -> 1 < inequal_aversion p -> 1 < elasmu p ->
  regions p <> [] -> (forall r, In r (regions p) -> 0 < population p t r) ->
  yearly_welfare v t
  <= - (total p (population p t) * (Rpower (1 / (25 * PI)) ((elasmu p - 1) / (inequal_aversion p - 1)) / (elasmu p - 1))).
Proof. exact C43_inequality_aversion_saturates_refuted_pf. Qed.
Print Assumptions C43_inequality_aversion_saturates_refuted.

(** ** C44 *)
Theorem C44_NPV_is_discounted_sum : forall p v t, feasible p v -> model_step p t ->
  NPV v t = discounted p (match objective p with
                          | utility => yearly_welfare v
                          | globalcosts => fun s => total p (mitigation_costs v s)
                                             + total p (fun r => damage_costs v s r * GDP_gross v s r)
                          end) t.
Proof. exact C44_NPV_is_discounted_sum_pf. Qed.
Print Assumptions C44_NPV_is_discounted_sum.

(** The utility objective prefers more discounted welfare, the global-costs objective lower discounted costs. *)
Theorem C44_objective_direction : forall p v w, feasible p v -> feasible p w ->
  (objective p = utility ->
     (better p v w <-> discounted p (yearly_welfare w) (tf p) <= discounted p (yearly_welfare v) (tf p))) /\
  (objective p = globalcosts ->
     let costs x := fun s => total p (mitigation_costs x s) + total p (fun r => damage_costs x s r * GDP_gross x s r) in
     (better p v w <-> discounted p (costs v) (tf p) <= discounted p (costs w) (tf p))).
Proof. exact C44_objective_direction_pf. Qed.
Print Assumptions C44_objective_direction.

Theorem C44_more_consumption_is_better : forall p v w t0 r0, feasible p v -> feasible p w -> objective p = utility -> 0 < dt p ->
  (forall t r, model_step p t -> In r (regions p) -> 0 < population p t r) ->
  (forall t r, (1 <= t <= tf p)%nat -> In r (regions p) -> consumption v t r <= consumption w t r) ->
  (1 <= t0 <= tf p)%nat -> In r0 (regions p) -> consumption v t0 r0 < consumption w t0 r0 ->
  objective_value p v < objective_value p w.
Proof. exact C44_more_consumption_is_better_pf. Qed.
Print Assumptions C44_more_consumption_is_better.
