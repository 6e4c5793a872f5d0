(** Property theorems (generated by tools/gen_props.py from the proved lemmas; statements only). *)
From Verif Require Import ModelFacts SoftFacts ModelSpec WelfareSpec PolicySpec TargetSpec TargetLemmas.
From Coq Require Import Reals List.
Open Scope R_scope.

(** The plans under a temperature target are those under the budget that brings about that temperature. *)
Theorem C73_target_is_budget : forall p T nz v, 0 < TCRE p -> 1 <= perc_reversible p ->
  (feasible (with_goal p None (Some T) nz) v <-> feasible (with_goal p (Some (budget_for p T)) None false) v).
Proof. exact C73_target_is_budget_pf. Qed.
Print Assumptions C73_target_is_budget.

(** A budget with the rule of no emissions after the budget year is a temperature target with zero emissions from 2100 on. *)
Theorem C73_budget_is_target : forall p B nz nz' v, 0 < TCRE p -> 1 <= perc_reversible p ->
  (feasible (with_goal p (Some B) None nz) v <-> feasible (with_goal p None (Some (T0 p + TCRE p * B)) nz') v /\ (nz = true -> net_zero_from_2100 p v)).
Proof. exact C73_budget_is_target_pf. Qed.
Print Assumptions C73_budget_is_target.

(** Of a budget and a target given together, only the tighter counts. *)
Theorem C73_tighter_goal_counts : forall p B T nz v, 0 < TCRE p -> 1 <= perc_reversible p ->
  (feasible (with_goal p (Some B) (Some T) nz) v <-> feasible (with_goal p (Some (Rmin B (budget_for p T))) None nz) v).
Proof. exact C73_tighter_goal_counts_pf. Qed.
Print Assumptions C73_tighter_goal_counts.

(** So they also have the same optimal plans ... *)
Theorem C73_same_optimal_plans : forall p T nz v, 0 < TCRE p -> 1 <= perc_reversible p ->
  (optimal (with_goal p None (Some T) nz) v <-> optimal (with_goal p (Some (budget_for p T)) None false) v).
Proof. exact C73_same_optimal_plans_pf. Qed.
Print Assumptions C73_same_optimal_plans.

(** ... and a target below the temperature of the first year, or a negative budget, cannot be met. *)
Theorem C73_unattainable_goal : forall p T B nz b tt t v, 0 < TCRE p -> model_step p t -> 2100 <= year p t ->
  (T < T0 p -> ~ feasible (with_goal p b (Some T) nz) v) /\ (B < 0 -> ~ feasible (with_goal p (Some B) tt nz) v).
Proof. exact C73_unattainable_goal_pf. Qed.
Print Assumptions C73_unattainable_goal.
