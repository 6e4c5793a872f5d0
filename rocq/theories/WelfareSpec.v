(** Vocabulary for welfare statements. *)
From Verif Require Export ModelSpec SoftFacts.
(** Consumption per capita. *)
Definition per_capita (p : pars) (v : point) (t : nat) (r : region) : R := consumption v t r / population p t r.
Definition global_per_capita (p : pars) (v : point) (t : nat) : R :=
  total p (consumption v t) / total p (population p t).
(** Utility of consumption per capita with constant elasticity of marginal utility [eta], at the smooth
    minimum [smin 1] of consumption (C50): ((max(c,0) + small)^(1-eta) - 1) / (1-eta). *)
Definition utility_of (eta c : R) : R := (Rpower (smin 1 c) (1 - eta) - 1) / (1 - eta).
Definition utility_level (v : point) := rval v v_utility.
(** A solution that is optimal for the selected objective. *)
Definition optimal (p : pars) (v : point) : Prop := feasible p v /\ forall w, feasible p w -> better p v w.
(** Discounted value of yearly amounts [x] over the steps 1..t. *)
Definition discounted (p : pars) (x : nat -> R) (t : nat) : R :=
  steps_sum (fun s => dt p * exp (- PRTP p * (year p s - beginyear p)) * x s) t.
