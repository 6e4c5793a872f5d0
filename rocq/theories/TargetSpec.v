(** Vocabulary of C73: configurations that differ in the climate goal only. *)
From Coq Require Import Reals List.
From Verif Require Import ModelFacts ModelSpec PolicySpec.
Open Scope R_scope.

(** The configuration with a carbon budget [b], a temperature target [T] and, or not, the rule of no emissions after the budget year *)
Definition with_goal (p : pars) (b T : option R) (net_zero : bool) : pars := with_policy {|
  pol_budget := b; pol_temperature := T; pol_inertia_global := inertia_global p; pol_inertia_regional := inertia_regional p;
  pol_min_global := global_min_level p; pol_min_regional := regional_min_level p;
  pol_non_increasing := non_increasing_after_2100 p; pol_net_zero := net_zero |} p.
(** The cumulative emissions that bring about a temperature *)
Definition budget_for (p : pars) (T : R) : R := (T - T0 p) / TCRE p.
(** No positive emissions from 2100 on *)
Definition net_zero_from_2100 (p : pars) (v : point) : Prop := forall t, model_step p t -> 2100 <= year p t -> global_emissions v t <= 0.
