(** Vocabulary of C69: how far GDP can drift from the exogenous baseline GDP. *)
From Coq Require Import Reals List.
From Verif Require Import ModelSpec SoftFacts.
Open Scope R_scope.

(** The capital path implied by baseline GDP: initial capital, then what survives plus what is saved out of the
    previous step's baseline GDP. Total factor productivity is calibrated on it (C32). *)
Fixpoint calibration_capital (p : pars) (t : nat) (r : region) : R :=
  match t with
  | O => init_capital_factor p r * baseline_GDP p 0 r
  | S s => survival p * calibration_capital p s r + dt p * sr p * baseline_GDP p s r
  end.

(** From one model step to the next the baseline GDP of a region grows by a factor between [gmin] and [gmax]. *)
Definition growth_between (p : pars) (r : region) (gmin gmax : R) : Prop :=
  forall t, (S t <= tf p)%nat -> gmin * baseline_GDP p t r <= baseline_GDP p (S t) r <= gmax * baseline_GDP p t r.
(** [kap] bounds the capital-output ratio of the calibration: it does so initially, and at the slowest growth. *)
Definition capital_ratio_at_most (p : pars) (r : region) (gmin kap : R) : Prop :=
  init_capital_factor p r <= kap /\ survival p * kap + dt p * sr p <= gmin * kap.
(** The smoothing in the production function overstates the calibration capital by at most the share [eps]. *)
Definition smoothing_at_most (p : pars) (r : region) (eps : R) : Prop :=
  0 <= eps /\ forall t, (0 < t <= tf p)%nat -> smin 10 (calibration_capital p t r) <= (1 + eps) * calibration_capital p t r.

(** [c] times the calibration capital cannot be exceeded while net GDP is at most the share [mu] of gross GDP. *)
Definition capital_ceiling (p : pars) (gmax kap eps mu c : R) : Prop :=
  1 <= c /\
  mu * gmax * (1 + eps) * (dt p * sr p) * Rpower c (alpha p)
  <= (dt p * sr p * (2 - survival p) - (1 - survival p) * (1 - survival p) * kap) * c.
(** Capital cannot fall below [b] times the calibration capital while net GDP is at least the share [lam] of gross GDP. *)
Definition capital_floor (p : pars) (gmin lam b : R) : Prop :=
  0 < b <= 1 /\ (2 - survival p) * b <= lam * gmin * Rpower b (alpha p).

(** A common ceiling [c] for all regions. *)
Definition grows_within (p : pars) (mu eps c : R) : Prop :=
  forall r, In r (regions p) -> exists gmin gmax kap,
    growth_between p r gmin gmax /\ capital_ratio_at_most p r gmin kap /\ smoothing_at_most p r eps /\ capital_ceiling p gmax kap eps mu c.

(** The same for the shipped data, in terms of the economic parameters alone: GDP of every region and SSP grows by a factor between 0.888 and 2.383
    per decade and is at least 0.266 trillion dollars, and initial capital is at most 2.7 times GDP. *)
Definition shipped_growth_allows (p : pars) (eps kap c : R) : Prop :=
  27/10 <= kap /\ survival p * kap + dt p * sr p <= Rpower (888/1000) (dt p / 10) * kap /\
  0 <= eps /\ 134/1000 <= eps * (dt p * sr p * (266/1000)) /\ capital_ceiling p (Rpower (2383/1000) (dt p / 10)) kap eps 1 c.
