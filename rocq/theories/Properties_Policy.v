(** Property theorems (generated by tools/gen_props.py from the proved lemmas; statements only). *)
From Verif Require Import Model ModelSpec EconLemmas PolicySpec PolicyLemmas.

Theorem C45_stricter_policy_fewer_solutions : forall p q q' v, 0 <= dt p ->
  (forall r, In r (regions p) -> 0 <= baseline_emissions p 0 r) ->
  stricter q q' -> feasible (with_policy q p) v -> feasible (with_policy q' p) v.
Proof. exact C45_stricter_policy_fewer_solutions_pf. Qed.
Print Assumptions C45_stricter_policy_fewer_solutions.

(** Hence a stricter policy never has a better optimum. *)
Theorem C45_stricter_policy_not_better : forall p q q' v w, 0 <= dt p ->
  (forall r, In r (regions p) -> 0 <= baseline_emissions p 0 r) ->
  stricter q q' -> feasible (with_policy q p) v -> optimal (with_policy q' p) w ->
  (objective p = utility -> objective_value p v <= objective_value p w) /\
  (objective p = globalcosts -> objective_value p w <= objective_value p v).
Proof. exact C45_stricter_policy_not_better_pf. Qed.
Print Assumptions C45_stricter_policy_not_better.

(** With an exogenous baseline the abatement path determines emissions, climate, damages (as a share of GDP)
    and the technical mitigation costs. *)
Theorem C46_abatement_determines_climate : forall p v w, feasible p v -> feasible p w -> use_carbon_intensity p = false ->
  (forall t r, (1 <= t <= tf p)%nat -> In r (regions p) -> relative_abatement v t r = relative_abatement w t r) ->
  forall t, model_step p t ->
  global_emissions v t = global_emissions w t /\ cumulative_emissions v t = cumulative_emissions w t /\
  temperature v t = temperature w t /\ total_SLR v t = total_SLR w t /\ learning_factor v t = learning_factor w t /\
  forall r, In r (regions p) ->
    regional_emissions v t r = regional_emissions w t r /\ damage_costs v t r = damage_costs w t r /\
    ((1 <= t)%nat -> carbonprice v t r = carbonprice w t r /\ area_under_MAC v t r = area_under_MAC w t r).
Proof. exact C46_abatement_determines_climate_pf. Qed.
Print Assumptions C46_abatement_determines_climate.

(** Without trade and transfers it also determines the economy, as long as the investments forgone because of
    mitigation do not exceed the capital stock. *)
Theorem C46_abatement_determines_economy : forall p v w, feasible p v -> feasible p w -> use_carbon_intensity p = false ->
  trade p = notrade -> transfer p = notransfer ->
  0 < dt p -> 0 <= dk p < 1 -> 0 <= sr p -> 0 <= alpha p <= 1 -> 0 < MAC_beta p -> positive_data p ->
  (forall t r, (1 <= t <= tf p)%nat -> In r (regions p) -> relative_abatement v t r = relative_abatement w t r) ->
  (forall t r, (S t <= tf p)%nat -> In r (regions p) -> dt p * sr p * mitigation_costs v (S t) r <= capital_stock v t r) ->
  objective_value p v = objective_value p w /\
  forall t, model_step p t -> yearly_welfare v t = yearly_welfare w t /\
  forall r, In r (regions p) -> capital_stock v t r = capital_stock w t r /\ GDP_gross v t r = GDP_gross w t r /\
    mitigation_costs v t r = mitigation_costs w t r /\
    GDP_net v t r = GDP_net w t r /\ consumption v t r = consumption w t r.
Proof. exact C46_abatement_determines_economy_pf. Qed.
Print Assumptions C46_abatement_determines_economy.
