(** Property theorems (generated by tools/gen_props.py from the proved lemmas; statements only). *)
From Verif Require Import Model ModelSpec Build VarFacts TradeLemmas.

Theorem C33_trade_zero_sum : forall p v t, feasible p v -> trade p = emissiontrade -> model_step p t ->
  total p (traded_costs v t) = 0 /\
  total p (mitigation_costs v t) = total p (area_under_MAC v t) /\
  ((0 < t)%nat ->
     total p (traded_reductions v t) = 0 /\
     total p (paid_for_reductions v t) = total p (emission_reduction v t) /\
     total p (allowances v t) = global_emissions v t).
Proof. exact C33_trade_zero_sum_pf. Qed.
Print Assumptions C33_trade_zero_sum.

(** Every traded unit has the same price, and that price is positive. *)
Theorem C33_single_trade_price : forall p v t, feasible p v -> trade p = emissiontrade -> model_step p t -> (0 < t)%nat ->
  exists price, 0 < price /\ forall r, In r (regions p) -> traded_costs v t r = price * traded_reductions v t r.
Proof. exact C33_single_trade_price_pf. Qed.
Print Assumptions C33_single_trade_price.

(** The global carbon price is a population-weighted mean of the regional ones: between their extremes. *)
Theorem C33_global_price_between : forall p v t lo hi, feasible p v -> trade p = emissiontrade -> model_step p t ->
  (forall r, In r (regions p) -> 0 <= population p t r) -> 0 < total p (population p t) ->
  (forall r, In r (regions p) -> lo <= carbonprice v t r <= hi) -> lo <= global_carbonprice v t <= hi.
Proof. exact C33_global_price_between_pf. Qed.
Print Assumptions C33_global_price_between.

(** The documented payment limits are never used. *)
Theorem C34_payment_limits_have_no_effect_refuted : forall p v lo hi,
  feasible (with_min_rel_payment_level lo (with_max_rel_payment_level hi p)) v <-> feasible p v.
Proof. exact C34_payment_limits_have_no_effect_refuted_pf. Qed.
Print Assumptions C34_payment_limits_have_no_effect_refuted.

Theorem C35_notrade_own_costs : forall p v t r, feasible p v -> trade p = notrade -> model_step p t ->
  In r (regions p) -> mitigation_costs v t r = area_under_MAC v t r /\ imported_costs p v t r = 0.
Proof. exact C35_notrade_own_costs_pf. Qed.
Print Assumptions C35_notrade_own_costs.

(** Emission trade can only help: every solution without trade is a solution with trade. *)
Theorem C35_trade_can_only_help : forall p v, trade p = notrade -> effort_regime p <> per_cap_convergence ->
  (forall t, model_step p t -> total p (population p t) <> 0) -> feasible p v ->
  exists w, feasible (with_trade emissiontrade p) w /\ objective_value (with_trade emissiontrade p) w = objective_value p v /\
            same_values (declared_r p) p v w.
Proof. exact C35_trade_can_only_help_pf. Qed.
Print Assumptions C35_trade_can_only_help.

Theorem C36_transfers_zero_sum : forall p v t, feasible p v -> transfer p = globaldamagepool -> model_step p t ->
  total p (transfer_paid p v t) = 0 /\
  total p (GDP_net v t)
  = total p (fun r => GDP_gross v t r * (1 - if ignore_damages p then 0 else damage_costs v t r)) - total p (mitigation_costs v t) /\
  (forall r, In r (regions p) ->
     - transfer_paid p v t r <= damage_costs v t r * GDP_gross v t r /\
     (t = 0%nat -> transfer_paid p v t r = 0) /\
     rel_transfer_paid p v t r * GDP_gross v t r = transfer_paid p v t r).
Proof. exact C36_transfers_zero_sum_pf. Qed.
Print Assumptions C36_transfers_zero_sum.

Theorem C36_no_transfers_without_module : forall p v t r, feasible p v -> transfer p = notransfer -> model_step p t -> In r (regions p) ->
  transfer_paid p v t r = 0 /\
  GDP_net v t r = GDP_gross v t r * (1 - (if ignore_damages p then 0 else damage_costs v t r)) - mitigation_costs v t r.
Proof. exact C36_no_transfers_without_module_pf. Qed.
Print Assumptions C36_no_transfers_without_module.

(** The bound is two-sided in effect: a region that gains from climate change must pay at least its gain,
    and the pool excludes every solution in which the world as a whole gains. *)
Theorem C36_beneficiaries_must_pay_refuted : forall p v t, feasible p v -> transfer p = globaldamagepool -> model_step p t ->
  (forall r, In r (regions p) -> damage_costs v t r * GDP_gross v t r < 0 -> 0 < transfer_paid p v t r) /\
  0 <= total p (fun r => damage_costs v t r * GDP_gross v t r).
Proof. exact C36_beneficiaries_must_pay_refuted_pf. Qed.
Print Assumptions C36_beneficiaries_must_pay_refuted.

Theorem C37_equal_mitigation_costs : forall p v t, feasible p v -> effort_regime p = equal_mitigation_costs -> model_step p t ->
  exists level, forall r, In r (regions p) ->
    0 <= level /\ Rabs (rel_mitigation_costs v t r - level) <= 5/1000 * level /\ 0 <= rel_mitigation_costs v t r /\
    forall s, In s (regions p) -> 995 * rel_mitigation_costs v t r <= 1005 * rel_mitigation_costs v t s.
Proof. exact C37_equal_mitigation_costs_pf. Qed.
Print Assumptions C37_equal_mitigation_costs.

Theorem C37_equal_total_costs : forall p v t, feasible p v -> effort_regime p = equal_total_costs -> model_step p t -> year p t <= 2100 ->
  exists level, forall r, In r (regions p) ->
    let cost r := rel_mitigation_costs v t r + damage_costs v t r + rel_transfer_paid p v t r in
    0 <= level /\ Rabs (cost r - level) <= 5/1000 * level /\ 0 <= cost r /\
    forall s, In s (regions p) -> 995 * cost r <= 1005 * cost s.
Proof. exact C37_equal_total_costs_pf. Qed.
Print Assumptions C37_equal_total_costs.

(** After 2100 equal total costs impose nothing. *)
Theorem C37_equal_total_costs_only_until_2100_refuted : forall p v, 2100 < beginyear p -> 0 < dt p ->
  (feasible (with_effort_regime equal_total_costs p) v <-> feasible (with_effort_regime noregime p) v).
Proof. exact C37_equal_total_costs_only_until_2100_refuted_pf. Qed.
Print Assumptions C37_equal_total_costs_only_until_2100_refuted.

Theorem C38_shares_sum_to_one : forall p t, total p (population p t) <> 0 -> total p (baseline_emissions p 0) <> 0 ->
  total p (percapconv_share p t) = 1.
Proof. exact C38_shares_sum_to_one_pf. Qed.
Print Assumptions C38_shares_sum_to_one.

(** With a convergence year after the start year: initial shares in the first year, population shares from the
    convergence year on, and in between a share between both. *)
Theorem C38_convergence_path : forall p y t r, percapconv_year p = Some y -> beginyear p < y -> 0 < dt p ->
  (t = 0%nat -> percapconv_share p t r = initial_share p r) /\
  (y <= year p t -> percapconv_share p t r = population_share p t r) /\
  Rmin (initial_share p r) (population_share p t r) <= percapconv_share p t r
  <= Rmax (initial_share p r) (population_share p t r).
Proof. exact C38_convergence_path_pf. Qed.
Print Assumptions C38_convergence_path.

(** The allowances follow the shares within the tolerance of 0.001. *)
Theorem C38_allowances_follow_shares : forall p v t r, feasible p v -> effort_regime p = per_cap_convergence ->
  (0 < t)%nat -> model_step p t -> In r (regions p) ->
  trade p = emissiontrade /\ Rabs (percapconv_share p t r * global_emissions v t - allowances v t r) <= 1/1000.
Proof. exact C38_allowances_follow_shares_pf. Qed.
Print Assumptions C38_allowances_follow_shares.

(** "False means grandfathering" does not hold: the shares move away from the population shares linearly. *)
Theorem C38_grandfathering_never_used_refuted : forall p t r, percapconv_year p = None -> 0 < beginyear p -> 0 < dt p ->
  percapconv_share p t r = initial_share p r + (year p t - beginyear p) / beginyear p * (initial_share p r - population_share p t r) /\
  ((0 < t)%nat -> initial_share p r <> population_share p t r -> percapconv_share p t r <> initial_share p r).
Proof. exact C38_grandfathering_never_used_refuted_pf. Qed.
Print Assumptions C38_grandfathering_never_used_refuted.

(** A convergence year before the start year (accepted) makes the shares diverge as well. *)
Theorem C38_convergence_before_start_refuted : forall p y t r, percapconv_year p = Some y -> y < beginyear p -> 0 < dt p ->
  percapconv_share p t r
  = initial_share p r + (year p t - beginyear p) / (beginyear p - y) * (initial_share p r - population_share p t r).
Proof. exact C38_convergence_before_start_refuted_pf. Qed.
Print Assumptions C38_convergence_before_start_refuted.
