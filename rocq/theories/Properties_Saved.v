(** Property theorems (generated by tools/gen_props.py from the proved lemmas; statements only). *)
From Verif Require Import PyBase SoftFacts ModelSpec Build Export SavedLemmas SavedExample.
Open Scope R_scope.

(** Output, costs, consumption, capital. *)
Theorem C65_economy : forall p unit_of v G V t r, feasible p v -> reads_as (rows p unit_of v) (tf p) G V -> ~ In "Global"%string (regions p) ->
  model_step p t -> In r (regions p) ->
  V "GDP_net" t r = V "GDP_gross" t r - (if ignore_damages p then 0 else V "damage_costs" t r * V "GDP_gross" t r)
                    - V "mitigation_costs" t r - V "financial_transfer" t r /\
  V "mitigation_costs" t r = V "area_under_MAC" t r + V "import_export_mitigation_cost_balance" t r /\
  V "rel_mitigation_costs" t r = V "mitigation_costs" t r / V "GDP_gross" t r /\
  V "investments" t r = sr p * V "GDP_net" t r /\
  V "consumption" t r + V "investments" t r = V "GDP_net" t r /\
  (t = 0%nat -> V "GDP_gross" t r = V "baseline_GDP" t r) /\
  ((0 < t)%nat -> V "GDP_gross" t r = V "TFP" t r * pypow (V "population" t r) (1 - alpha p) * pypow (smin 10 (V "capital_stock" t r)) (alpha p)) /\
  ((t < tf p)%nat -> V "capital_stock" (S t) r = V "capital_stock" t r
      + ((pypow (1 - dk p) (dt p) - 1) * V "capital_stock" (S t) r + dt p * V "investments" (S t) r)).
Proof. exact C65_economy_pf. Qed.
Print Assumptions C65_economy.

(** Emissions, abatement, carbon price and temperature. *)
Theorem C65_emissions : forall p unit_of v G V t r, feasible p v -> reads_as (rows p unit_of v) (tf p) G V -> ~ In "Global"%string (regions p) ->
  model_step p t -> In r (regions p) ->
  V "baseline" t r = (if use_carbon_intensity p then V "baseline_carbon_intensity" t r * V "GDP_net" t r else V "baseline_emissions" t r) /\
  (t = 0%nat -> V "regional_emissions" t r = V "baseline_emissions" t r /\ V "carbonprice" t r = 0) /\
  ((0 < t)%nat -> V "regional_emissions" t r = (1 - V "relative_abatement" t r) * V "baseline" t r) /\
  V "regional_emission_reduction" t r = V "baseline" t r - V "regional_emissions" t r /\
  V "carbonprice" t r = G "learning_factor" t * MAC_scaling p r * MAC_gamma p * pypow (V "relative_abatement" t r) (MAC_beta p) /\
  G "learning_factor" t = G "LBD_factor" t * G "LOT_factor" t /\
  G "LOT_factor" t = 1 / (1 + LOT_rate p) ^ t /\
  G "global_emissions" t = Rsum (V "regional_emissions" t) (regions p) /\
  G "global_rel_mitigation_costs" t = Rsum (V "mitigation_costs" t) (regions p) / Rsum (V "GDP_gross" t) (regions p) /\
  G "temperature" t = T0 p + TCRE p * G "cumulative_emissions" t /\
  G "cumulative_emissions" 0%nat = 0 /\
  ((t < tf p)%nat -> G "cumulative_emissions" (S t) = G "cumulative_emissions" t +
     if cum_trapz p then dt p * (G "global_emissions" (S t) + G "global_emissions" t) / 2 else dt p * G "global_emissions" (S t)) /\
  G "total_SLR" t = G "slr_thermal" t + G "slr_cumgsic" t + G "slr_cumgis" t.
Proof. exact C65_emissions_pf. Qed.
Print Assumptions C65_emissions.

(** Damages, trade and transfers. *)
Theorem C65_damages_and_trade : forall p unit_of v G V t r, feasible p v -> reads_as (rows p unit_of v) (tf p) G V -> ~ In "Global"%string (regions p) ->
  model_step p t -> In r (regions p) ->
  (dmg_module p = COACCH -> V "damage_costs" t r = V "damage_costs_non_slr" t r + V "damage_costs_slr" t r) /\
  (dmg_module p = nodamage -> V "damage_costs" t r = 0) /\
  (trade p = emissiontrade -> Rsum (V "import_export_mitigation_cost_balance" t) (regions p) = 0 /\
    ((0 < t)%nat ->
       V "paid_for_emission_reductions" t r = V "regional_emission_reduction" t r + V "import_export_emission_reduction_balance" t r /\
       V "regional_emission_allowances" t r = V "baseline" t r - V "paid_for_emission_reductions" t r)) /\
  (transfer p = globaldamagepool -> (0 < t)%nat -> Rsum (V "financial_transfer" t) (regions p) = 0) /\
  (transfer p = globaldamagepool -> V "rel_financial_transfer" t r * V "GDP_gross" t r = V "financial_transfer" t r).
Proof. exact C65_damages_and_trade_pf. Qed.
Print Assumptions C65_damages_and_trade.

(** Mortality, the global carbon price and the cost indicators. *)
Theorem C65_indicators : forall p unit_of v G V t r, feasible p v -> reads_as (rows p unit_of v) (tf p) G V -> ~ In "Global"%string (regions p) ->
  model_step p t -> In r (regions p) ->
  let quadratic c x := fst (fst c) + snd (fst c) * x + snd c * x ^ 2 in
  (dmg_module p = COACCH ->
     V "mortality_oldest" t r = quadratic (mort_oldest p r) (G "temperature" t) /\
     V "mortality_older" t r = quadratic (mort_older p r) (G "temperature" t) /\
     V "mortality_young" t r = quadratic (mort_young p r) (G "temperature" t) /\
     V "mortality_cost_oldest" t r = V "mortality_oldest" t r * V "population" t r * 10000 * (13/10)) /\
  (trade p = emissiontrade ->
     G "global_carbonprice" t = Rsum (fun s => V "carbonprice" t s * V "population" t s) (regions p) / Rsum (V "population" t) (regions p)) /\
  ((0 < t)%nat ->
     G "global_emission_reduction_per_cost_unit" t
       = Rsum (V "regional_emission_reduction" t) (regions p) / smin 1 (Rsum (V "mitigation_costs" t) (regions p)) /\
     G "global_cost_per_emission_reduction_unit" t
       = Rsum (V "mitigation_costs" t) (regions p) / smin 1 (Rsum (V "regional_emission_reduction" t) (regions p))).
Proof. exact C65_indicators_pf. Qed.
Print Assumptions C65_indicators.

(** Welfare and the objective: the last NPV of the file is the value that was optimised. *)
Theorem C65_welfare : forall p unit_of v G V, feasible p v -> reads_as (rows p unit_of v) (tf p) G V -> ~ In "Global"%string (regions p) ->
  G "NPV" 0%nat = 0 /\
  (forall t, (t < tf p)%nat -> G "NPV" (S t) = G "NPV" t + dt p * exp (- PRTP p * (year p (S t) - beginyear p)) *
     match objective p with
     | utility => G "yearly_welfare" (S t)
     | globalcosts => Rsum (V "mitigation_costs" (S t)) (regions p) + Rsum (fun r => V "damage_costs" (S t) r * V "GDP_gross" (S t) r) (regions p)
     end) /\
  (welfare p = welfare_loss_minimising -> forall t, model_step p t -> G "yearly_welfare" t = Rsum (fun r => V "population" t r * V "utility" t r) (regions p)) /\
  (welfare p = cost_minimising -> forall t r, model_step p t -> In r (regions p) -> V "utility" t r = V "consumption" t r / V "population" t r).
Proof. exact C65_welfare_pf. Qed.
Print Assumptions C65_welfare.

(** Every table can be read this way: no two rows have the same variable and region. *)
Theorem C65_readable : forall p unit_of v, NoDup (regions p) -> exists G V, reads_as (rows p unit_of v) (tf p) G V.
Proof. exact C65_readable_pf. Qed.
Print Assumptions C65_readable.
