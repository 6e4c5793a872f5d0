(** Vocabulary: how strict climate policy settings are. *)
From Verif Require Export ModelSpec WelfareSpec ClimateSpec.
Record policy := { pol_budget : option R; pol_temperature : option R;
                   pol_inertia_global : option R; pol_inertia_regional : option R;
                   pol_min_global : option R; pol_min_regional : option R;
                   pol_non_increasing : bool; pol_net_zero : bool }.
(** The configuration [p] with the policy settings [q], everything else unchanged. *)
Definition with_policy (q : policy) (p : pars) : pars := {|
  beginyear := beginyear p; dt := dt p; tf := tf p; regions := regions p; population := population p;
  baseline_GDP := baseline_GDP p; baseline_emissions := baseline_emissions p; use_carbon_intensity :=
  use_carbon_intensity p; cum_trapz := cum_trapz p; T0 := T0 p; TCRE := TCRE p; temperature_target :=
  pol_temperature q; perc_reversible := perc_reversible p; budget := pol_budget q; inertia_global :=
  pol_inertia_global q; inertia_regional := pol_inertia_regional q; global_min_level := pol_min_global q;
  regional_min_level := pol_min_regional q; non_increasing_after_2100 := pol_non_increasing q;
  no_pos_after_budget_year := pol_net_zero q; dmg_module := dmg_module p; damage_scale_factor :=
  damage_scale_factor p; dmg_noslr := dmg_noslr p; dmg_slr := dmg_slr p; mort_oldest := mort_oldest p;
  mort_older := mort_older p; mort_young := mort_young p; MAC_gamma := MAC_gamma p; MAC_beta := MAC_beta p;
  MAC_scaling := MAC_scaling p; rel_mitigation_costs_min_level := rel_mitigation_costs_min_level p; LBD_rate
  := LBD_rate p; LBD_scaling := LBD_scaling p; LOT_rate := LOT_rate p; trade := trade p;
  min_rel_payment_level := min_rel_payment_level p; max_rel_payment_level := max_rel_payment_level p;
  transfer := transfer p; effort_regime := effort_regime p; percapconv_year := percapconv_year p;
  init_capital_factor := init_capital_factor p; alpha := alpha p; dk := dk p; sr := sr p; ignore_damages :=
  ignore_damages p; welfare := welfare p; elasmu := elasmu p; inequal_aversion := inequal_aversion p;
  objective := objective p; PRTP := PRTP p |}.
(** A limit from above (below) that is at least as strict as another; None is no limit. *)
Definition stricter_upper (a b : option R) : Prop :=
  match b with None => True | Some y => match a with Some x => x <= y | None => False end end.
Definition stricter_lower (a b : option R) : Prop :=
  match b with None => True | Some y => match a with Some x => y <= x | None => False end end.
(** [q] is at least as strict as [q'] in every setting: lower budget and temperature, slower reductions
    (inertia is the smallest allowed yearly change), higher minimum levels, more switches on. *)
Definition stricter (q q' : policy) : Prop :=
  stricter_upper (pol_budget q) (pol_budget q') /\ stricter_upper (pol_temperature q) (pol_temperature q') /\
  stricter_lower (pol_inertia_global q) (pol_inertia_global q') /\
  stricter_lower (pol_inertia_regional q) (pol_inertia_regional q') /\
  stricter_lower (pol_min_global q) (pol_min_global q') /\ stricter_lower (pol_min_regional q) (pol_min_regional q') /\
  (pol_non_increasing q' = true -> pol_non_increasing q = true) /\ (pol_net_zero q' = true -> pol_net_zero q = true).
