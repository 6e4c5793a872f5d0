(** Vocabulary of C71: moving abatement from one step to another. *)
From Coq Require Import Reals List.
From Verif Require Import ModelFacts ModelSpec BuildLemmas ClimateSpec PolicySpec ReallocateSpec.
Import ListNotations.
Open Scope R_scope.

(** The value in the first year of an amount [x] paid in step [t], as the objective discounts it. *)
Definition present_value (p : pars) (t : nat) (x : R) : R := exp (- PRTP p * (year p t - beginyear p)) * x.

(** The world as a whole can emit a little less in step [t]: global emissions are above their minimum and do not fall at the highest speed. *)
Definition world_can_emit_less (p : pars) (v : point) (t : nat) : Prop :=
  (forall l, global_min_level p = Some l -> l < global_emissions v t) /\
  (forall i u, inertia_global p = Some i -> t = S u ->
     dt p * i * total p (baseline_emissions p 0) < global_emissions v t - global_emissions v u).
(** The world can emit a little more: emissions do not fall at the highest speed to the following step. *)
Definition world_can_emit_more (p : pars) (v : point) (t : nat) : Prop :=
  forall i, inertia_global p = Some i -> (S t <= tf p)%nat ->
    dt p * i * total p (baseline_emissions p 0) < global_emissions v (S t) - global_emissions v t.
(** The quantities of the climate module that may not be negative are positive. *)
Definition climate_positive (p : pars) (v : point) : Prop := forall t, (1 <= t <= tf p)%nat ->
  0 < cumulative_emissions v t /\ 0 < thermal_SLR v t /\ 0 < glacier_SLR v t /\ 0 < icesheet_SLR v t.

(** C71 is about plans of least cost without damages, with prescribed baseline emissions and neither burden-sharing nor transfers, for sensible data. *)
Definition least_cost_plan (p : pars) (v : point) : Prop :=
  optimal p v /\ objective p = globalcosts /\ dmg_module p = nodamage /\ use_carbon_intensity p = false /\ effort_regime p = noregime /\
  transfer p = notransfer /\ rel_mitigation_costs_min_level p <= 0.
Definition sensible_data (p : pars) : Prop :=
  numeric_ranges p /\ sound_data p /\ usable_choices p /\ 0 <= alpha p < 1 /\ NoDup (regions p) /\ 0 <= MAC_gamma p /\
  (forall r, In r (regions p) -> 0 <= MAC_scaling p r) /\
  (forall t r, model_step p t -> In r (regions p) -> 0 <= baseline_emissions p t r).
(** A step after the first and before 2100, the year from which budget and temperature target hold, in which the region emits something without policy. *)
Definition early_step (p : pars) (t : nat) (r : region) : Prop :=
  (1 <= t <= tf p)%nat /\ year p t < 2100 /\ In r (regions p) /\ 0 < baseline_emissions p t r.
