(** Vocabulary of C72: mixtures of plans and of policies. *)
From Coq Require Import Reals List.
From Verif Require Import ModelFacts ModelSpec BuildLemmas WelfareSpec ClimateSpec PolicySpec.
Import ListNotations.
Open Scope R_scope.

Definition mix (l x y : R) : R := (1 - l) * x + l * y.
(** The limit in between; no limit if one of the two does not exist. *)
Definition mix_limit (l : R) (a b : option R) : option R :=
  match a, b with Some x, Some y => Some (mix l x y) | _, _ => None end.
(** Every limit in between, and the rules that both policies have *)
Definition mix_policy (l : R) (a b : policy) : policy := {|
  pol_budget := mix_limit l (pol_budget a) (pol_budget b); pol_temperature := mix_limit l (pol_temperature a) (pol_temperature b);
  pol_inertia_global := mix_limit l (pol_inertia_global a) (pol_inertia_global b);
  pol_inertia_regional := mix_limit l (pol_inertia_regional a) (pol_inertia_regional b);
  pol_min_global := mix_limit l (pol_min_global a) (pol_min_global b); pol_min_regional := mix_limit l (pol_min_regional a) (pol_min_regional b);
  pol_non_increasing := andb (pol_non_increasing a) (pol_non_increasing b); pol_net_zero := andb (pol_net_zero a) (pol_net_zero b) |}.
(** What a plan costs in total: discounted mitigation costs of all regions *)
Definition plan_costs (p : pars) (v : point) : R := discounted p (fun t => total p (mitigation_costs v t)) (tf p).
(** Least cost, prescribed emissions, no damages, transfers, burden-sharing, or learning by doing *)
Definition least_cost_setting (p : pars) : Prop :=
  objective p = globalcosts /\ dmg_module p = nodamage /\ use_carbon_intensity p = false /\ effort_regime p = noregime /\
  transfer p = notransfer /\ rel_mitigation_costs_min_level p <= 0 /\ LBD_rate p = 1.
(** Without abatement, the warming would stay below the range of the sea-level equations: 31 degrees for steps of ten years, 64 for steps of five. *)
Definition moderate_warming (p : pars) : Prop :=
  0 <= T0 p /\ 0 <= TCRE p /\ exists E, (forall t, model_step p t -> total p (baseline_emissions p t) <= E) /\
    dt p * (T0 p + TCRE p * (dt p * INR (tf p) * E) + 1) <= 325.
(** Cost curves that rise, and emissions to abate, everywhere *)
Definition costly_everywhere (p : pars) : Prop := 0 < MAC_gamma p /\ forall t r, model_step p t -> In r (regions p) ->
  0 < MAC_scaling p r /\ 0 < baseline_emissions p t r.
(** Two plans are close: abatement differs by at most [e] in every region after the first step, where the price is given to be nil. *)
Definition close (p : pars) (e : R) (v w : point) : Prop := forall t r, (1 <= t <= tf p)%nat -> In r (regions p) ->
  Rabs (relative_abatement w t r - relative_abatement v t r) <= e.
(** Nothing better nearby: what a local solver can establish. *)
Definition locally_optimal (p : pars) (v : point) : Prop :=
  feasible p v /\ exists e, 0 < e /\ forall w, feasible p w -> close p e v w -> better p v w.
