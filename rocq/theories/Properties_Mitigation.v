(** Property theorems (generated by tools/gen_props.py from the proved lemmas; statements only). *)
From Coquelicot Require Import Coquelicot.
From Verif Require Import Model ModelSpec MitigationLemmas.

Theorem C27_cost_curve_in_solution : forall p v t r, feasible p v -> model_step p t ->
  In r (regions p) -> 0 < MAC_beta p ->
  carbonprice v t r = mac p (mac_scale p v t r) (relative_abatement v t r) /\
  area_under_MAC v t r = ac p (mac_scale p v t r) (relative_abatement v t r) * baseline v t r.
Proof. exact C27_cost_curve_in_solution_pf. Qed.
Print Assumptions C27_cost_curve_in_solution.

Theorem C27_cost_is_integral_of_marginal_cost : forall p k a, 0 < MAC_beta p -> 0 <= a ->
  is_RInt (mac p k) 0 a (ac p k a) /\ derivable_pt_lim (ac p k) a (mac p k a) /\ ac p k 0 = 0.
Proof. exact C27_cost_is_integral_of_marginal_cost_pf. Qed.
Print Assumptions C27_cost_is_integral_of_marginal_cost.

Theorem C27_increasing_convex : forall p k x y, 0 < k -> 0 < MAC_beta p -> 0 <= x -> x < y ->
  mac p k x < mac p k y /\ ac p k x < ac p k y /\
  forall l, 0 <= l <= 1 -> ac p k (l * x + (1 - l) * y) <= l * ac p k x + (1 - l) * ac p k y.
Proof. exact C27_increasing_convex_pf. Qed.
Print Assumptions C27_increasing_convex.

(** ... and the scale is positive, so both curves are increasing in every solution. *)
Theorem C27_scale_positive : forall p v t r, feasible p v -> model_step p t -> 0 <= LOT_rate p ->
  0 < MAC_scaling p r -> 0 < MAC_gamma p -> 0 < mac_scale p v t r.
Proof. exact C27_scale_positive_pf. Qed.
Print Assumptions C27_scale_positive.

Theorem C28_initial_year : forall p v r, feasible p v -> In r (regions p) -> 0 < MAC_beta p ->
  0 <= LOT_rate p -> 0 < MAC_scaling p r -> 0 < MAC_gamma p ->
  carbonprice v 0 r = 0 /\ relative_abatement v 0 r = 0 /\ area_under_MAC v 0 r = 0 /\
  forall t, model_step p t -> (carbonprice v t r = 0 <-> relative_abatement v t r = 0).
Proof. exact C28_initial_year_pf. Qed.
Print Assumptions C28_initial_year.

Theorem C29_learning_by_doing_monotone : forall p v w s t, feasible p v -> feasible p w ->
  model_step p s -> model_step p t -> 0 < LBD_rate p <= 1 -> 0 < LBD_scaling p ->
  cumulative_mitigation p v s <= cumulative_mitigation p w t ->
  LBD_factor w t <= LBD_factor v s.
Proof. exact C29_learning_by_doing_monotone_pf. Qed.
Print Assumptions C29_learning_by_doing_monotone.

Theorem C29_doubling : forall p v w s t, feasible p v -> feasible p w ->
  model_step p s -> model_step p t -> 0 < LBD_rate p ->
  experience p w t = 2 * experience p v s -> LBD_factor w t = LBD_rate p * LBD_factor v s.
Proof. exact C29_doubling_pf. Qed.
Print Assumptions C29_doubling.

(** experience is 1 + cumulative mitigation / scaling, up to the smoothing (at most 1/(25 PI)) *)
Theorem C29_experience : forall p v t,
  0 < experience p v t - Rmax (1 + cumulative_mitigation p v t / LBD_scaling p) 0 <= 1 / (25 * PI).
Proof. exact C29_experience_pf. Qed.
Print Assumptions C29_experience.

(** At zero cumulative mitigation the factor is close to, but for a rate below 1 never equal to, 1. *)
Theorem C29_no_mitigation_factor : forall p v t, feasible p v -> model_step p t ->
  0 < LBD_rate p <= 1 -> cumulative_mitigation p v t = 0 ->
  Rpower (1 + 1 / (25 * PI)) (log_LBD_rate p) <= LBD_factor v t <= 1.
Proof. exact C29_no_mitigation_factor_pf. Qed.
Print Assumptions C29_no_mitigation_factor.

Theorem C29_factor_one_at_zero_refuted : forall p v t, feasible p v -> model_step p t ->
  0 < LBD_rate p < 1 -> cumulative_mitigation p v t = 0 -> LBD_factor v t < 1.
Proof. exact C29_factor_one_at_zero_refuted_pf. Qed.
Print Assumptions C29_factor_one_at_zero_refuted.

Theorem C29_learning_over_time : forall p v s t, feasible p v -> 0 <= LOT_rate p ->
  (s <= t)%nat -> model_step p t ->
  LOT_factor v t = 1 / (1 + LOT_rate p) ^ t /\ 0 < LOT_factor v t <= LOT_factor v s.
Proof. exact C29_learning_over_time_pf. Qed.
Print Assumptions C29_learning_over_time.

Theorem C29_same_abatement_costs_no_more : forall p v s t r a, feasible p v ->
  0 < LBD_rate p <= 1 -> 0 < LBD_scaling p -> 0 <= LOT_rate p -> 0 < MAC_beta p ->
  0 <= MAC_scaling p r -> 0 <= MAC_gamma p ->
  (s <= t)%nat -> model_step p t -> cumulative_mitigation p v s <= cumulative_mitigation p v t ->
  0 <= ac p (mac_scale p v t r) a <= ac p (mac_scale p v s r) a.
Proof. exact C29_same_abatement_costs_no_more_pf. Qed.
Print Assumptions C29_same_abatement_costs_no_more.
