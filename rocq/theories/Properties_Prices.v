(** Property theorems (generated by tools/gen_props.py from the proved lemmas; statements only). *)
From Verif Require Import ModelSpec SoftFacts ClimateSpec WelfareSpec Build BuildLemmas DefinedFacts DominanceSpec ReallocateSpec PriceLemmas ShadowSpec ShadowPrice HotellingSpec HotellingLemmas.
From Coq Require Import Reals List.
Import ListNotations.
Open Scope R_scope.

(** Where the objective counts costs and there are no damages: a region that could abate a little more never has a lower carbon price than a region
    that could abate a little less. *)
Theorem C70_price_order : forall p v t r s, optimal p v -> objective p = globalcosts -> dmg_module p = nodamage ->
  use_carbon_intensity p = false -> effort_regime p = noregime -> transfer p = notransfer ->
  numeric_ranges p -> sound_data p -> usable_choices p -> 0 <= alpha p < 1 -> NoDup (regions p) ->
  (forall q, In q (regions p) -> 0 <= MAC_scaling p q) -> 0 <= MAC_gamma p -> rel_mitigation_costs_min_level p <= 0 ->
  (forall u q, model_step p u -> In q (regions p) -> 0 <= baseline_emissions p u q) ->
  (1 <= t <= tf p)%nat -> In r (regions p) -> In s (regions p) -> 0 < baseline_emissions p t r -> 0 < baseline_emissions p t s ->
  can_abate_more p v t r -> can_abate_less p v t s -> carbonprice v t s <= carbonprice v t r.
Proof. exact C70_price_order_pf. Qed.
Print Assumptions C70_price_order.

(** So the carbon price is the same in any two regions in which no limit of the region itself is reached. *)
Theorem C70_uniform_carbon_price : forall p v t r s, optimal p v -> objective p = globalcosts -> dmg_module p = nodamage ->
  use_carbon_intensity p = false -> effort_regime p = noregime -> transfer p = notransfer ->
  numeric_ranges p -> sound_data p -> usable_choices p -> 0 <= alpha p < 1 -> NoDup (regions p) ->
  (forall q, In q (regions p) -> 0 <= MAC_scaling p q) -> 0 <= MAC_gamma p -> rel_mitigation_costs_min_level p <= 0 ->
  (forall u q, model_step p u -> In q (regions p) -> 0 <= baseline_emissions p u q) ->
  (1 <= t <= tf p)%nat -> In r (regions p) -> In s (regions p) -> 0 < baseline_emissions p t r -> 0 < baseline_emissions p t s ->
  has_room p v t r -> has_room p v t s -> carbonprice v t r = carbonprice v t s.
Proof. exact C70_uniform_carbon_price_pf. Qed.
Print Assumptions C70_uniform_carbon_price.

(** With welfare as the objective: weighted with the welfare that a unit of costs takes, a region that could abate a little more never has a lower carbon
    price than a region that could abate a little less. *)
Theorem C70_weighted_price_order : forall p v t r s mu mp, optimal p v -> objective p = utility -> trade p = notrade ->
  use_carbon_intensity p = false -> effort_regime p = noregime -> transfer p = notransfer ->
  numeric_ranges p -> sound_data p -> usable_choices p -> slr_logistic_ok p -> 0 <= alpha p < 1 -> sr p < 1 -> NoDup (regions p) ->
  (forall q, In q (regions p) -> 0 <= MAC_scaling p q) -> 0 <= MAC_gamma p -> rel_mitigation_costs_min_level p <= 0 ->
  (forall u q, model_step p u -> In q (regions p) -> 0 <= baseline_emissions p u q) ->
  (forall u q, (S u <= tf p)%nat -> In q (regions p) -> dt p * sr p * mitigation_costs v (S u) q < capital_stock v u q) ->
  (forall u q, (1 <= u <= tf p)%nat -> In q (regions p) -> damage_share p v u q <= 1) ->
  marginal_product p v mp -> marginal_welfare p v mu ->
  (1 <= t <= tf p)%nat -> In r (regions p) -> In s (regions p) -> 0 < baseline_emissions p t r -> 0 < baseline_emissions p t s ->
  can_abate_more p v t r -> can_abate_less p v t s ->
  carbonprice v t s * value_of_costs p v mu mp t s <= carbonprice v t r * value_of_costs p v mu mp t r.
Proof. exact C70_weighted_price_order_pf. Qed.
Print Assumptions C70_weighted_price_order.

(** So in regions in which no limit of the region itself is reached, prices are uniform once they are weighted with the welfare that a unit of costs takes. *)
Theorem C70_weighted_prices_equal : forall p v t r s mu mp, optimal p v -> objective p = utility -> trade p = notrade ->
  use_carbon_intensity p = false -> effort_regime p = noregime -> transfer p = notransfer ->
  numeric_ranges p -> sound_data p -> usable_choices p -> slr_logistic_ok p -> 0 <= alpha p < 1 -> sr p < 1 -> NoDup (regions p) ->
  (forall q, In q (regions p) -> 0 <= MAC_scaling p q) -> 0 <= MAC_gamma p -> rel_mitigation_costs_min_level p <= 0 ->
  (forall u q, model_step p u -> In q (regions p) -> 0 <= baseline_emissions p u q) ->
  (forall u q, (S u <= tf p)%nat -> In q (regions p) -> dt p * sr p * mitigation_costs v (S u) q < capital_stock v u q) ->
  (forall u q, (1 <= u <= tf p)%nat -> In q (regions p) -> damage_share p v u q <= 1) ->
  marginal_product p v mp -> marginal_welfare p v mu ->
  (1 <= t <= tf p)%nat -> In r (regions p) -> In s (regions p) -> 0 < baseline_emissions p t r -> 0 < baseline_emissions p t s ->
  has_room p v t r -> has_room p v t s ->
  carbonprice v t r * value_of_costs p v mu mp t r = carbonprice v t s * value_of_costs p v mu mp t s.
Proof. exact C70_weighted_prices_equal_pf. Qed.
Print Assumptions C70_weighted_prices_equal.

(** In the last step of a plan that minimises costs with equal weights ("cost_minimising"), the prices of two such regions are equal only if their marginal
    products of capital (after damages) are; the price is lower where capital produces more, at most by the factor 1 - alpha. *)
Theorem C70_last_step_prices : forall p v r s mp, optimal p v -> objective p = utility -> welfare p = cost_minimising -> trade p = notrade ->
  use_carbon_intensity p = false -> effort_regime p = noregime -> transfer p = notransfer ->
  numeric_ranges p -> sound_data p -> usable_choices p -> slr_logistic_ok p -> 0 <= alpha p < 1 -> sr p < 1 -> NoDup (regions p) ->
  (forall q, In q (regions p) -> 0 <= MAC_scaling p q) -> 0 <= MAC_gamma p -> rel_mitigation_costs_min_level p <= 0 ->
  (forall u q, model_step p u -> In q (regions p) -> 0 <= baseline_emissions p u q) ->
  (forall u q, (S u <= tf p)%nat -> In q (regions p) -> dt p * sr p * mitigation_costs v (S u) q < capital_stock v u q) ->
  (forall u q, (1 <= u <= tf p)%nat -> In q (regions p) -> damage_share p v u q <= 1) ->
  marginal_product p v mp -> (1 <= tf p)%nat ->
  In r (regions p) -> In s (regions p) -> 0 < baseline_emissions p (tf p) r -> 0 < baseline_emissions p (tf p) s ->
  has_room p v (tf p) r -> has_room p v (tf p) s ->
  let price q := carbonprice v (tf p) q in let product q := (1 - damage_share p v (tf p) q) * mp (tf p) q in
  price r * (2 - survival p - dt p * sr p * product s) = price s * (2 - survival p - dt p * sr p * product r) /\
  (1 - alpha p) * price s <= price r /\
  (0 < sr p -> 0 < price r -> (price r = price s <-> product r = product s) /\ (product s < product r -> price r < price s)).
Proof. exact C70_last_step_prices_pf. Qed.
Print Assumptions C70_last_step_prices.

(** Where doing makes abatement cheaper or leaves its price unchanged, the discounted carbon price never rises: a region that could abate a little less
    later does not have a higher discounted price than a region that could abate a little more now. *)
Theorem C71_discounted_price_never_rises : forall p v t u r s, least_cost_plan p v -> sensible_data p -> climate_positive p v ->
  0 < LBD_rate p <= 1 -> 0 < LBD_scaling p -> (t < u)%nat -> early_step p t r -> early_step p u s ->
  can_abate_more p v t r -> can_abate_less p v u s -> world_can_emit_less p v t -> world_can_emit_more p v u ->
  present_value p u (carbonprice v u s) <= present_value p t (carbonprice v t r).
Proof. exact C71_discounted_price_never_rises_pf. Qed.
Print Assumptions C71_discounted_price_never_rises.

(** Without learning by doing the order of the steps does not matter. *)
Theorem C71_discounted_price_order : forall p v t u r s, least_cost_plan p v -> sensible_data p -> climate_positive p v ->
  LBD_rate p = 1 -> t <> u -> early_step p t r -> early_step p u s ->
  can_abate_more p v t r -> can_abate_less p v u s -> world_can_emit_less p v t -> world_can_emit_more p v u ->
  present_value p u (carbonprice v u s) <= present_value p t (carbonprice v t r).
Proof. exact C71_discounted_price_order_pf. Qed.
Print Assumptions C71_discounted_price_order.

(** Hotelling's rule: where no limit of region or world is reached, the carbon price rises with the rate of time preference. *)
Theorem C71_hotelling_rule : forall p v t u r s, least_cost_plan p v -> sensible_data p -> climate_positive p v ->
  LBD_rate p = 1 -> early_step p t r -> early_step p u s -> has_room p v t r -> has_room p v u s ->
  world_can_emit_less p v t -> world_can_emit_more p v t -> world_can_emit_less p v u -> world_can_emit_more p v u -> t <> u ->
  present_value p t (carbonprice v t r) = present_value p u (carbonprice v u s) /\
  carbonprice v u s = exp (PRTP p * (year p u - year p t)) * carbonprice v t r.
Proof. exact C71_hotelling_rule_pf. Qed.
Print Assumptions C71_hotelling_rule.
