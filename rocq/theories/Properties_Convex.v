(** Property theorems (generated by tools/gen_props.py from the proved lemmas; statements only). *)
From Verif Require Import ModelFacts SoftFacts ModelSpec Build BuildLemmas ClimateSpec ClimateLemmas WelfareSpec MitigationLemmas PolicySpec HotellingSpec ConvexSpec ConvexLemmas.
From Coq Require Import Reals List.
Import ListNotations.
Open Scope R_scope.

(** In between two plans, for two policies, there is a plan for the policy in between with every region's abatement in between, that costs no more than the mean of the two. *)
Theorem C72_plans_in_between : forall p q1 q2 v w l, least_cost_setting p -> sensible_data p -> moderate_warming p ->
  usable_choices (with_policy q1 p) -> usable_choices (with_policy q2 p) ->
  feasible (with_policy q1 p) v -> feasible (with_policy q2 p) w -> 0 <= l <= 1 ->
  exists z, feasible (with_policy (mix_policy l q1 q2) p) z /\
    (forall t r, (1 <= t <= tf p)%nat -> In r (regions p) ->
       relative_abatement z t r = mix l (relative_abatement v t r) (relative_abatement w t r) /\
       regional_emissions z t r = mix l (regional_emissions v t r) (regional_emissions w t r)) /\
    (forall t, model_step p t -> temperature z t = mix l (temperature v t) (temperature w t)) /\
    plan_costs p z <= mix l (plan_costs p v) (plan_costs p w).
Proof. exact C72_plans_in_between_pf. Qed.
Print Assumptions C72_plans_in_between.

(** So what it costs at least to keep to a policy is convex in the policy: half a step costs at most half of it, and each further step of the same size costs at least as much as the one before. *)
Theorem C72_costs_convex_in_policy : forall p q1 q2 v w z l, least_cost_setting p -> sensible_data p -> moderate_warming p ->
  usable_choices (with_policy q1 p) -> usable_choices (with_policy q2 p) ->
  optimal (with_policy q1 p) v -> optimal (with_policy q2 p) w -> 0 <= l <= 1 -> optimal (with_policy (mix_policy l q1 q2) p) z ->
  plan_costs p z <= mix l (plan_costs p v) (plan_costs p w).
Proof. exact C72_costs_convex_in_policy_pf. Qed.
Print Assumptions C72_costs_convex_in_policy.

(** The optimal plan is unique: two optimal plans have the same abatement wherever abatement has a price. *)
Theorem C72_unique_abatement : forall p v w t r, least_cost_setting p -> sensible_data p -> moderate_warming p -> 0 < MAC_gamma p ->
  optimal p v -> optimal p w -> (1 <= t <= tf p)%nat -> In r (regions p) -> 0 < MAC_scaling p r -> 0 < baseline_emissions p t r ->
  relative_abatement v t r = relative_abatement w t r.
Proof. exact C72_unique_abatement_pf. Qed.
Print Assumptions C72_unique_abatement.

(** If that is so everywhere, also emissions, temperatures, carbon prices and the costs of abatement are the same. *)
Theorem C72_unique_plan : forall p v w, least_cost_setting p -> sensible_data p -> moderate_warming p -> costly_everywhere p ->
  optimal p v -> optimal p w ->
  (forall t r, (1 <= t <= tf p)%nat -> In r (regions p) -> relative_abatement v t r = relative_abatement w t r /\ carbonprice v t r = carbonprice w t r /\
     area_under_MAC v t r = area_under_MAC w t r) /\
  (forall t, model_step p t -> (forall r, In r (regions p) -> regional_emissions v t r = regional_emissions w t r) /\ global_emissions v t = global_emissions w t /\
     cumulative_emissions v t = cumulative_emissions w t /\ temperature v t = temperature w t).
Proof. exact C72_unique_plan_pf. Qed.
Print Assumptions C72_unique_plan.

(** A plan that cannot be improved by small changes of abatement is optimal. *)
Theorem C72_local_optimum_is_optimal : forall p v, least_cost_setting p -> sensible_data p -> moderate_warming p -> locally_optimal p v -> optimal p v.
Proof. exact C72_local_optimum_is_optimal_pf. Qed.
Print Assumptions C72_local_optimum_is_optimal.
