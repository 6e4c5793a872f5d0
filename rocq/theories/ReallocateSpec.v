(** Vocabulary of C70: shifting abatement from one region to another. *)
From Coq Require Import Reals List.
From Verif Require Import ModelSpec SoftFacts.
Import ListNotations.
Open Scope R_scope.

(** Region [r] can abate a little more in step [t] without reaching a limit that concerns this region alone: abatement and carbon price are below
    their maximum, emissions above the regional minimum, they do not fall at the highest speed, and they are not held down to the level of
    the following step by the rule that emissions may not increase. *)
Definition can_abate_more (p : pars) (v : point) (t : nat) (r : region) : Prop :=
  relative_abatement v t r < 5/2 /\ carbonprice v t r < 2 * MAC_gamma p /\
  (forall l, regional_min_level p = Some l -> l < regional_emissions v t r) /\
  (forall i u, inertia_regional p = Some i -> t = S u ->
     dt p * i * baseline_emissions p 0 r < regional_emissions v t r - regional_emissions v u r) /\
  (non_increasing_after_2100 p = true -> (S t <= tf p)%nat -> 2100 < year p t -> regional_emissions v (S t) r < regional_emissions v t r).
(** Region [r] can abate a little less: it abates something, emissions are not at the highest speed of decrease to the following step, and they
    are below those of the step before where they may not increase. *)
Definition can_abate_less (p : pars) (v : point) (t : nat) (r : region) : Prop :=
  0 < relative_abatement v t r /\
  (forall i, inertia_regional p = Some i -> (S t <= tf p)%nat ->
     dt p * i * baseline_emissions p 0 r < regional_emissions v (S t) r - regional_emissions v t r) /\
  (forall u, non_increasing_after_2100 p = true -> t = S u -> 2100 < year p u -> regional_emissions v t r < regional_emissions v u r).
Definition has_room (p : pars) (v : point) (t : nat) (r : region) : Prop := can_abate_more p v t r /\ can_abate_less p v t r.

(** What the production function gives in region [r] and step [t] with capital [K] (C31). *)
Definition production (p : pars) (t : nat) (r : region) (K : R) : R :=
  TFP p t r * pypow (population p t r) (1 - alpha p) * pypow (smin 10 K) (alpha p).
