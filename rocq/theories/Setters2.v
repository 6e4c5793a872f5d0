(** Changing the number of steps, or the order of the regions, and keeping everything else. *)
From Verif Require Export Model.

Definition with_tf (x : nat) (p : pars) : pars := {|
  beginyear := beginyear p; dt := dt p; tf := x; regions := regions p; population := population p; baseline_GDP := baseline_GDP p; baseline_emissions := baseline_emissions p; use_carbon_intensity := use_carbon_intensity p; cum_trapz := cum_trapz p; T0 := T0 p; TCRE := TCRE p; temperature_target := temperature_target p; perc_reversible := perc_reversible p; budget := budget p; inertia_global := inertia_global p; inertia_regional := inertia_regional p; global_min_level := global_min_level p; regional_min_level := regional_min_level p; non_increasing_after_2100 := non_increasing_after_2100 p; no_pos_after_budget_year := no_pos_after_budget_year p; dmg_module := dmg_module p; damage_scale_factor := damage_scale_factor p; dmg_noslr := dmg_noslr p; dmg_slr := dmg_slr p; mort_oldest := mort_oldest p; mort_older := mort_older p; mort_young := mort_young p; MAC_gamma := MAC_gamma p; MAC_beta := MAC_beta p; MAC_scaling := MAC_scaling p; rel_mitigation_costs_min_level := rel_mitigation_costs_min_level p; LBD_rate := LBD_rate p; LBD_scaling := LBD_scaling p; LOT_rate := LOT_rate p; trade := trade p; min_rel_payment_level := min_rel_payment_level p; max_rel_payment_level := max_rel_payment_level p; transfer := transfer p; effort_regime := effort_regime p; percapconv_year := percapconv_year p; init_capital_factor := init_capital_factor p; alpha := alpha p; dk := dk p; sr := sr p; ignore_damages := ignore_damages p; welfare := welfare p; elasmu := elasmu p; inequal_aversion := inequal_aversion p; objective := objective p; PRTP := PRTP p |}.

Definition with_regions (x : list region) (p : pars) : pars := {|
  beginyear := beginyear p; dt := dt p; tf := tf p; regions := x; population := population p; baseline_GDP := baseline_GDP p; baseline_emissions := baseline_emissions p; use_carbon_intensity := use_carbon_intensity p; cum_trapz := cum_trapz p; T0 := T0 p; TCRE := TCRE p; temperature_target := temperature_target p; perc_reversible := perc_reversible p; budget := budget p; inertia_global := inertia_global p; inertia_regional := inertia_regional p; global_min_level := global_min_level p; regional_min_level := regional_min_level p; non_increasing_after_2100 := non_increasing_after_2100 p; no_pos_after_budget_year := no_pos_after_budget_year p; dmg_module := dmg_module p; damage_scale_factor := damage_scale_factor p; dmg_noslr := dmg_noslr p; dmg_slr := dmg_slr p; mort_oldest := mort_oldest p; mort_older := mort_older p; mort_young := mort_young p; MAC_gamma := MAC_gamma p; MAC_beta := MAC_beta p; MAC_scaling := MAC_scaling p; rel_mitigation_costs_min_level := rel_mitigation_costs_min_level p; LBD_rate := LBD_rate p; LBD_scaling := LBD_scaling p; LOT_rate := LOT_rate p; trade := trade p; min_rel_payment_level := min_rel_payment_level p; max_rel_payment_level := max_rel_payment_level p; transfer := transfer p; effort_regime := effort_regime p; percapconv_year := percapconv_year p; init_capital_factor := init_capital_factor p; alpha := alpha p; dk := dk p; sr := sr p; ignore_damages := ignore_damages p; welfare := welfare p; elasmu := elasmu p; inequal_aversion := inequal_aversion p; objective := objective p; PRTP := PRTP p |}.
