(** Changing one setting of the configuration and keeping all others. *)
From Verif Require Export Model.

Definition with_temperature_target (x : option R) (p : pars) : pars := {|
  beginyear := beginyear p; dt := dt p; tf := tf p; regions := regions p; population := population p; baseline_GDP := baseline_GDP p; baseline_emissions := baseline_emissions p; use_carbon_intensity := use_carbon_intensity p; cum_trapz := cum_trapz p; T0 := T0 p; TCRE := TCRE p; temperature_target := x; perc_reversible := perc_reversible p; budget := budget p; inertia_global := inertia_global p; inertia_regional := inertia_regional p; global_min_level := global_min_level p; regional_min_level := regional_min_level p; non_increasing_after_2100 := non_increasing_after_2100 p; no_pos_after_budget_year := no_pos_after_budget_year p; dmg_module := dmg_module p; damage_scale_factor := damage_scale_factor p; dmg_noslr := dmg_noslr p; dmg_slr := dmg_slr p; mort_oldest := mort_oldest p; mort_older := mort_older p; mort_young := mort_young p; MAC_gamma := MAC_gamma p; MAC_beta := MAC_beta p; MAC_scaling := MAC_scaling p; rel_mitigation_costs_min_level := rel_mitigation_costs_min_level p; LBD_rate := LBD_rate p; LBD_scaling := LBD_scaling p; LOT_rate := LOT_rate p; trade := trade p; min_rel_payment_level := min_rel_payment_level p; max_rel_payment_level := max_rel_payment_level p; transfer := transfer p; effort_regime := effort_regime p; percapconv_year := percapconv_year p; init_capital_factor := init_capital_factor p; alpha := alpha p; dk := dk p; sr := sr p; ignore_damages := ignore_damages p; welfare := welfare p; elasmu := elasmu p; inequal_aversion := inequal_aversion p; objective := objective p; PRTP := PRTP p |}.
Definition with_budget (x : option R) (p : pars) : pars := {|
  beginyear := beginyear p; dt := dt p; tf := tf p; regions := regions p; population := population p; baseline_GDP := baseline_GDP p; baseline_emissions := baseline_emissions p; use_carbon_intensity := use_carbon_intensity p; cum_trapz := cum_trapz p; T0 := T0 p; TCRE := TCRE p; temperature_target := temperature_target p; perc_reversible := perc_reversible p; budget := x; inertia_global := inertia_global p; inertia_regional := inertia_regional p; global_min_level := global_min_level p; regional_min_level := regional_min_level p; non_increasing_after_2100 := non_increasing_after_2100 p; no_pos_after_budget_year := no_pos_after_budget_year p; dmg_module := dmg_module p; damage_scale_factor := damage_scale_factor p; dmg_noslr := dmg_noslr p; dmg_slr := dmg_slr p; mort_oldest := mort_oldest p; mort_older := mort_older p; mort_young := mort_young p; MAC_gamma := MAC_gamma p; MAC_beta := MAC_beta p; MAC_scaling := MAC_scaling p; rel_mitigation_costs_min_level := rel_mitigation_costs_min_level p; LBD_rate := LBD_rate p; LBD_scaling := LBD_scaling p; LOT_rate := LOT_rate p; trade := trade p; min_rel_payment_level := min_rel_payment_level p; max_rel_payment_level := max_rel_payment_level p; transfer := transfer p; effort_regime := effort_regime p; percapconv_year := percapconv_year p; init_capital_factor := init_capital_factor p; alpha := alpha p; dk := dk p; sr := sr p; ignore_damages := ignore_damages p; welfare := welfare p; elasmu := elasmu p; inequal_aversion := inequal_aversion p; objective := objective p; PRTP := PRTP p |}.
Definition with_inertia_global (x : option R) (p : pars) : pars := {|
  beginyear := beginyear p; dt := dt p; tf := tf p; regions := regions p; population := population p; baseline_GDP := baseline_GDP p; baseline_emissions := baseline_emissions p; use_carbon_intensity := use_carbon_intensity p; cum_trapz := cum_trapz p; T0 := T0 p; TCRE := TCRE p; temperature_target := temperature_target p; perc_reversible := perc_reversible p; budget := budget p; inertia_global := x; inertia_regional := inertia_regional p; global_min_level := global_min_level p; regional_min_level := regional_min_level p; non_increasing_after_2100 := non_increasing_after_2100 p; no_pos_after_budget_year := no_pos_after_budget_year p; dmg_module := dmg_module p; damage_scale_factor := damage_scale_factor p; dmg_noslr := dmg_noslr p; dmg_slr := dmg_slr p; mort_oldest := mort_oldest p; mort_older := mort_older p; mort_young := mort_young p; MAC_gamma := MAC_gamma p; MAC_beta := MAC_beta p; MAC_scaling := MAC_scaling p; rel_mitigation_costs_min_level := rel_mitigation_costs_min_level p; LBD_rate := LBD_rate p; LBD_scaling := LBD_scaling p; LOT_rate := LOT_rate p; trade := trade p; min_rel_payment_level := min_rel_payment_level p; max_rel_payment_level := max_rel_payment_level p; transfer := transfer p; effort_regime := effort_regime p; percapconv_year := percapconv_year p; init_capital_factor := init_capital_factor p; alpha := alpha p; dk := dk p; sr := sr p; ignore_damages := ignore_damages p; welfare := welfare p; elasmu := elasmu p; inequal_aversion := inequal_aversion p; objective := objective p; PRTP := PRTP p |}.
Definition with_inertia_regional (x : option R) (p : pars) : pars := {|
  beginyear := beginyear p; dt := dt p; tf := tf p; regions := regions p; population := population p; baseline_GDP := baseline_GDP p; baseline_emissions := baseline_emissions p; use_carbon_intensity := use_carbon_intensity p; cum_trapz := cum_trapz p; T0 := T0 p; TCRE := TCRE p; temperature_target := temperature_target p; perc_reversible := perc_reversible p; budget := budget p; inertia_global := inertia_global p; inertia_regional := x; global_min_level := global_min_level p; regional_min_level := regional_min_level p; non_increasing_after_2100 := non_increasing_after_2100 p; no_pos_after_budget_year := no_pos_after_budget_year p; dmg_module := dmg_module p; damage_scale_factor := damage_scale_factor p; dmg_noslr := dmg_noslr p; dmg_slr := dmg_slr p; mort_oldest := mort_oldest p; mort_older := mort_older p; mort_young := mort_young p; MAC_gamma := MAC_gamma p; MAC_beta := MAC_beta p; MAC_scaling := MAC_scaling p; rel_mitigation_costs_min_level := rel_mitigation_costs_min_level p; LBD_rate := LBD_rate p; LBD_scaling := LBD_scaling p; LOT_rate := LOT_rate p; trade := trade p; min_rel_payment_level := min_rel_payment_level p; max_rel_payment_level := max_rel_payment_level p; transfer := transfer p; effort_regime := effort_regime p; percapconv_year := percapconv_year p; init_capital_factor := init_capital_factor p; alpha := alpha p; dk := dk p; sr := sr p; ignore_damages := ignore_damages p; welfare := welfare p; elasmu := elasmu p; inequal_aversion := inequal_aversion p; objective := objective p; PRTP := PRTP p |}.
Definition with_global_min_level (x : option R) (p : pars) : pars := {|
  beginyear := beginyear p; dt := dt p; tf := tf p; regions := regions p; population := population p; baseline_GDP := baseline_GDP p; baseline_emissions := baseline_emissions p; use_carbon_intensity := use_carbon_intensity p; cum_trapz := cum_trapz p; T0 := T0 p; TCRE := TCRE p; temperature_target := temperature_target p; perc_reversible := perc_reversible p; budget := budget p; inertia_global := inertia_global p; inertia_regional := inertia_regional p; global_min_level := x; regional_min_level := regional_min_level p; non_increasing_after_2100 := non_increasing_after_2100 p; no_pos_after_budget_year := no_pos_after_budget_year p; dmg_module := dmg_module p; damage_scale_factor := damage_scale_factor p; dmg_noslr := dmg_noslr p; dmg_slr := dmg_slr p; mort_oldest := mort_oldest p; mort_older := mort_older p; mort_young := mort_young p; MAC_gamma := MAC_gamma p; MAC_beta := MAC_beta p; MAC_scaling := MAC_scaling p; rel_mitigation_costs_min_level := rel_mitigation_costs_min_level p; LBD_rate := LBD_rate p; LBD_scaling := LBD_scaling p; LOT_rate := LOT_rate p; trade := trade p; min_rel_payment_level := min_rel_payment_level p; max_rel_payment_level := max_rel_payment_level p; transfer := transfer p; effort_regime := effort_regime p; percapconv_year := percapconv_year p; init_capital_factor := init_capital_factor p; alpha := alpha p; dk := dk p; sr := sr p; ignore_damages := ignore_damages p; welfare := welfare p; elasmu := elasmu p; inequal_aversion := inequal_aversion p; objective := objective p; PRTP := PRTP p |}.
Definition with_regional_min_level (x : option R) (p : pars) : pars := {|
  beginyear := beginyear p; dt := dt p; tf := tf p; regions := regions p; population := population p; baseline_GDP := baseline_GDP p; baseline_emissions := baseline_emissions p; use_carbon_intensity := use_carbon_intensity p; cum_trapz := cum_trapz p; T0 := T0 p; TCRE := TCRE p; temperature_target := temperature_target p; perc_reversible := perc_reversible p; budget := budget p; inertia_global := inertia_global p; inertia_regional := inertia_regional p; global_min_level := global_min_level p; regional_min_level := x; non_increasing_after_2100 := non_increasing_after_2100 p; no_pos_after_budget_year := no_pos_after_budget_year p; dmg_module := dmg_module p; damage_scale_factor := damage_scale_factor p; dmg_noslr := dmg_noslr p; dmg_slr := dmg_slr p; mort_oldest := mort_oldest p; mort_older := mort_older p; mort_young := mort_young p; MAC_gamma := MAC_gamma p; MAC_beta := MAC_beta p; MAC_scaling := MAC_scaling p; rel_mitigation_costs_min_level := rel_mitigation_costs_min_level p; LBD_rate := LBD_rate p; LBD_scaling := LBD_scaling p; LOT_rate := LOT_rate p; trade := trade p; min_rel_payment_level := min_rel_payment_level p; max_rel_payment_level := max_rel_payment_level p; transfer := transfer p; effort_regime := effort_regime p; percapconv_year := percapconv_year p; init_capital_factor := init_capital_factor p; alpha := alpha p; dk := dk p; sr := sr p; ignore_damages := ignore_damages p; welfare := welfare p; elasmu := elasmu p; inequal_aversion := inequal_aversion p; objective := objective p; PRTP := PRTP p |}.
Definition with_non_increasing_after_2100 (x : bool) (p : pars) : pars := {|
  beginyear := beginyear p; dt := dt p; tf := tf p; regions := regions p; population := population p; baseline_GDP := baseline_GDP p; baseline_emissions := baseline_emissions p; use_carbon_intensity := use_carbon_intensity p; cum_trapz := cum_trapz p; T0 := T0 p; TCRE := TCRE p; temperature_target := temperature_target p; perc_reversible := perc_reversible p; budget := budget p; inertia_global := inertia_global p; inertia_regional := inertia_regional p; global_min_level := global_min_level p; regional_min_level := regional_min_level p; non_increasing_after_2100 := x; no_pos_after_budget_year := no_pos_after_budget_year p; dmg_module := dmg_module p; damage_scale_factor := damage_scale_factor p; dmg_noslr := dmg_noslr p; dmg_slr := dmg_slr p; mort_oldest := mort_oldest p; mort_older := mort_older p; mort_young := mort_young p; MAC_gamma := MAC_gamma p; MAC_beta := MAC_beta p; MAC_scaling := MAC_scaling p; rel_mitigation_costs_min_level := rel_mitigation_costs_min_level p; LBD_rate := LBD_rate p; LBD_scaling := LBD_scaling p; LOT_rate := LOT_rate p; trade := trade p; min_rel_payment_level := min_rel_payment_level p; max_rel_payment_level := max_rel_payment_level p; transfer := transfer p; effort_regime := effort_regime p; percapconv_year := percapconv_year p; init_capital_factor := init_capital_factor p; alpha := alpha p; dk := dk p; sr := sr p; ignore_damages := ignore_damages p; welfare := welfare p; elasmu := elasmu p; inequal_aversion := inequal_aversion p; objective := objective p; PRTP := PRTP p |}.
Definition with_no_pos_after_budget_year (x : bool) (p : pars) : pars := {|
  beginyear := beginyear p; dt := dt p; tf := tf p; regions := regions p; population := population p; baseline_GDP := baseline_GDP p; baseline_emissions := baseline_emissions p; use_carbon_intensity := use_carbon_intensity p; cum_trapz := cum_trapz p; T0 := T0 p; TCRE := TCRE p; temperature_target := temperature_target p; perc_reversible := perc_reversible p; budget := budget p; inertia_global := inertia_global p; inertia_regional := inertia_regional p; global_min_level := global_min_level p; regional_min_level := regional_min_level p; non_increasing_after_2100 := non_increasing_after_2100 p; no_pos_after_budget_year := x; dmg_module := dmg_module p; damage_scale_factor := damage_scale_factor p; dmg_noslr := dmg_noslr p; dmg_slr := dmg_slr p; mort_oldest := mort_oldest p; mort_older := mort_older p; mort_young := mort_young p; MAC_gamma := MAC_gamma p; MAC_beta := MAC_beta p; MAC_scaling := MAC_scaling p; rel_mitigation_costs_min_level := rel_mitigation_costs_min_level p; LBD_rate := LBD_rate p; LBD_scaling := LBD_scaling p; LOT_rate := LOT_rate p; trade := trade p; min_rel_payment_level := min_rel_payment_level p; max_rel_payment_level := max_rel_payment_level p; transfer := transfer p; effort_regime := effort_regime p; percapconv_year := percapconv_year p; init_capital_factor := init_capital_factor p; alpha := alpha p; dk := dk p; sr := sr p; ignore_damages := ignore_damages p; welfare := welfare p; elasmu := elasmu p; inequal_aversion := inequal_aversion p; objective := objective p; PRTP := PRTP p |}.
Definition with_trade (x : trade_module) (p : pars) : pars := {|
  beginyear := beginyear p; dt := dt p; tf := tf p; regions := regions p; population := population p; baseline_GDP := baseline_GDP p; baseline_emissions := baseline_emissions p; use_carbon_intensity := use_carbon_intensity p; cum_trapz := cum_trapz p; T0 := T0 p; TCRE := TCRE p; temperature_target := temperature_target p; perc_reversible := perc_reversible p; budget := budget p; inertia_global := inertia_global p; inertia_regional := inertia_regional p; global_min_level := global_min_level p; regional_min_level := regional_min_level p; non_increasing_after_2100 := non_increasing_after_2100 p; no_pos_after_budget_year := no_pos_after_budget_year p; dmg_module := dmg_module p; damage_scale_factor := damage_scale_factor p; dmg_noslr := dmg_noslr p; dmg_slr := dmg_slr p; mort_oldest := mort_oldest p; mort_older := mort_older p; mort_young := mort_young p; MAC_gamma := MAC_gamma p; MAC_beta := MAC_beta p; MAC_scaling := MAC_scaling p; rel_mitigation_costs_min_level := rel_mitigation_costs_min_level p; LBD_rate := LBD_rate p; LBD_scaling := LBD_scaling p; LOT_rate := LOT_rate p; trade := x; min_rel_payment_level := min_rel_payment_level p; max_rel_payment_level := max_rel_payment_level p; transfer := transfer p; effort_regime := effort_regime p; percapconv_year := percapconv_year p; init_capital_factor := init_capital_factor p; alpha := alpha p; dk := dk p; sr := sr p; ignore_damages := ignore_damages p; welfare := welfare p; elasmu := elasmu p; inequal_aversion := inequal_aversion p; objective := objective p; PRTP := PRTP p |}.
Definition with_min_rel_payment_level (x : option R) (p : pars) : pars := {|
  beginyear := beginyear p; dt := dt p; tf := tf p; regions := regions p; population := population p; baseline_GDP := baseline_GDP p; baseline_emissions := baseline_emissions p; use_carbon_intensity := use_carbon_intensity p; cum_trapz := cum_trapz p; T0 := T0 p; TCRE := TCRE p; temperature_target := temperature_target p; perc_reversible := perc_reversible p; budget := budget p; inertia_global := inertia_global p; inertia_regional := inertia_regional p; global_min_level := global_min_level p; regional_min_level := regional_min_level p; non_increasing_after_2100 := non_increasing_after_2100 p; no_pos_after_budget_year := no_pos_after_budget_year p; dmg_module := dmg_module p; damage_scale_factor := damage_scale_factor p; dmg_noslr := dmg_noslr p; dmg_slr := dmg_slr p; mort_oldest := mort_oldest p; mort_older := mort_older p; mort_young := mort_young p; MAC_gamma := MAC_gamma p; MAC_beta := MAC_beta p; MAC_scaling := MAC_scaling p; rel_mitigation_costs_min_level := rel_mitigation_costs_min_level p; LBD_rate := LBD_rate p; LBD_scaling := LBD_scaling p; LOT_rate := LOT_rate p; trade := trade p; min_rel_payment_level := x; max_rel_payment_level := max_rel_payment_level p; transfer := transfer p; effort_regime := effort_regime p; percapconv_year := percapconv_year p; init_capital_factor := init_capital_factor p; alpha := alpha p; dk := dk p; sr := sr p; ignore_damages := ignore_damages p; welfare := welfare p; elasmu := elasmu p; inequal_aversion := inequal_aversion p; objective := objective p; PRTP := PRTP p |}.
Definition with_max_rel_payment_level (x : option R) (p : pars) : pars := {|
  beginyear := beginyear p; dt := dt p; tf := tf p; regions := regions p; population := population p; baseline_GDP := baseline_GDP p; baseline_emissions := baseline_emissions p; use_carbon_intensity := use_carbon_intensity p; cum_trapz := cum_trapz p; T0 := T0 p; TCRE := TCRE p; temperature_target := temperature_target p; perc_reversible := perc_reversible p; budget := budget p; inertia_global := inertia_global p; inertia_regional := inertia_regional p; global_min_level := global_min_level p; regional_min_level := regional_min_level p; non_increasing_after_2100 := non_increasing_after_2100 p; no_pos_after_budget_year := no_pos_after_budget_year p; dmg_module := dmg_module p; damage_scale_factor := damage_scale_factor p; dmg_noslr := dmg_noslr p; dmg_slr := dmg_slr p; mort_oldest := mort_oldest p; mort_older := mort_older p; mort_young := mort_young p; MAC_gamma := MAC_gamma p; MAC_beta := MAC_beta p; MAC_scaling := MAC_scaling p; rel_mitigation_costs_min_level := rel_mitigation_costs_min_level p; LBD_rate := LBD_rate p; LBD_scaling := LBD_scaling p; LOT_rate := LOT_rate p; trade := trade p; min_rel_payment_level := min_rel_payment_level p; max_rel_payment_level := x; transfer := transfer p; effort_regime := effort_regime p; percapconv_year := percapconv_year p; init_capital_factor := init_capital_factor p; alpha := alpha p; dk := dk p; sr := sr p; ignore_damages := ignore_damages p; welfare := welfare p; elasmu := elasmu p; inequal_aversion := inequal_aversion p; objective := objective p; PRTP := PRTP p |}.
Definition with_transfer (x : transfer_module) (p : pars) : pars := {|
  beginyear := beginyear p; dt := dt p; tf := tf p; regions := regions p; population := population p; baseline_GDP := baseline_GDP p; baseline_emissions := baseline_emissions p; use_carbon_intensity := use_carbon_intensity p; cum_trapz := cum_trapz p; T0 := T0 p; TCRE := TCRE p; temperature_target := temperature_target p; perc_reversible := perc_reversible p; budget := budget p; inertia_global := inertia_global p; inertia_regional := inertia_regional p; global_min_level := global_min_level p; regional_min_level := regional_min_level p; non_increasing_after_2100 := non_increasing_after_2100 p; no_pos_after_budget_year := no_pos_after_budget_year p; dmg_module := dmg_module p; damage_scale_factor := damage_scale_factor p; dmg_noslr := dmg_noslr p; dmg_slr := dmg_slr p; mort_oldest := mort_oldest p; mort_older := mort_older p; mort_young := mort_young p; MAC_gamma := MAC_gamma p; MAC_beta := MAC_beta p; MAC_scaling := MAC_scaling p; rel_mitigation_costs_min_level := rel_mitigation_costs_min_level p; LBD_rate := LBD_rate p; LBD_scaling := LBD_scaling p; LOT_rate := LOT_rate p; trade := trade p; min_rel_payment_level := min_rel_payment_level p; max_rel_payment_level := max_rel_payment_level p; transfer := x; effort_regime := effort_regime p; percapconv_year := percapconv_year p; init_capital_factor := init_capital_factor p; alpha := alpha p; dk := dk p; sr := sr p; ignore_damages := ignore_damages p; welfare := welfare p; elasmu := elasmu p; inequal_aversion := inequal_aversion p; objective := objective p; PRTP := PRTP p |}.
Definition with_effort_regime (x : regime) (p : pars) : pars := {|
  beginyear := beginyear p; dt := dt p; tf := tf p; regions := regions p; population := population p; baseline_GDP := baseline_GDP p; baseline_emissions := baseline_emissions p; use_carbon_intensity := use_carbon_intensity p; cum_trapz := cum_trapz p; T0 := T0 p; TCRE := TCRE p; temperature_target := temperature_target p; perc_reversible := perc_reversible p; budget := budget p; inertia_global := inertia_global p; inertia_regional := inertia_regional p; global_min_level := global_min_level p; regional_min_level := regional_min_level p; non_increasing_after_2100 := non_increasing_after_2100 p; no_pos_after_budget_year := no_pos_after_budget_year p; dmg_module := dmg_module p; damage_scale_factor := damage_scale_factor p; dmg_noslr := dmg_noslr p; dmg_slr := dmg_slr p; mort_oldest := mort_oldest p; mort_older := mort_older p; mort_young := mort_young p; MAC_gamma := MAC_gamma p; MAC_beta := MAC_beta p; MAC_scaling := MAC_scaling p; rel_mitigation_costs_min_level := rel_mitigation_costs_min_level p; LBD_rate := LBD_rate p; LBD_scaling := LBD_scaling p; LOT_rate := LOT_rate p; trade := trade p; min_rel_payment_level := min_rel_payment_level p; max_rel_payment_level := max_rel_payment_level p; transfer := transfer p; effort_regime := x; percapconv_year := percapconv_year p; init_capital_factor := init_capital_factor p; alpha := alpha p; dk := dk p; sr := sr p; ignore_damages := ignore_damages p; welfare := welfare p; elasmu := elasmu p; inequal_aversion := inequal_aversion p; objective := objective p; PRTP := PRTP p |}.
Definition with_percapconv_year (x : option R) (p : pars) : pars := {|
  beginyear := beginyear p; dt := dt p; tf := tf p; regions := regions p; population := population p; baseline_GDP := baseline_GDP p; baseline_emissions := baseline_emissions p; use_carbon_intensity := use_carbon_intensity p; cum_trapz := cum_trapz p; T0 := T0 p; TCRE := TCRE p; temperature_target := temperature_target p; perc_reversible := perc_reversible p; budget := budget p; inertia_global := inertia_global p; inertia_regional := inertia_regional p; global_min_level := global_min_level p; regional_min_level := regional_min_level p; non_increasing_after_2100 := non_increasing_after_2100 p; no_pos_after_budget_year := no_pos_after_budget_year p; dmg_module := dmg_module p; damage_scale_factor := damage_scale_factor p; dmg_noslr := dmg_noslr p; dmg_slr := dmg_slr p; mort_oldest := mort_oldest p; mort_older := mort_older p; mort_young := mort_young p; MAC_gamma := MAC_gamma p; MAC_beta := MAC_beta p; MAC_scaling := MAC_scaling p; rel_mitigation_costs_min_level := rel_mitigation_costs_min_level p; LBD_rate := LBD_rate p; LBD_scaling := LBD_scaling p; LOT_rate := LOT_rate p; trade := trade p; min_rel_payment_level := min_rel_payment_level p; max_rel_payment_level := max_rel_payment_level p; transfer := transfer p; effort_regime := effort_regime p; percapconv_year := x; init_capital_factor := init_capital_factor p; alpha := alpha p; dk := dk p; sr := sr p; ignore_damages := ignore_damages p; welfare := welfare p; elasmu := elasmu p; inequal_aversion := inequal_aversion p; objective := objective p; PRTP := PRTP p |}.
Definition with_ignore_damages (x : bool) (p : pars) : pars := {|
  beginyear := beginyear p; dt := dt p; tf := tf p; regions := regions p; population := population p; baseline_GDP := baseline_GDP p; baseline_emissions := baseline_emissions p; use_carbon_intensity := use_carbon_intensity p; cum_trapz := cum_trapz p; T0 := T0 p; TCRE := TCRE p; temperature_target := temperature_target p; perc_reversible := perc_reversible p; budget := budget p; inertia_global := inertia_global p; inertia_regional := inertia_regional p; global_min_level := global_min_level p; regional_min_level := regional_min_level p; non_increasing_after_2100 := non_increasing_after_2100 p; no_pos_after_budget_year := no_pos_after_budget_year p; dmg_module := dmg_module p; damage_scale_factor := damage_scale_factor p; dmg_noslr := dmg_noslr p; dmg_slr := dmg_slr p; mort_oldest := mort_oldest p; mort_older := mort_older p; mort_young := mort_young p; MAC_gamma := MAC_gamma p; MAC_beta := MAC_beta p; MAC_scaling := MAC_scaling p; rel_mitigation_costs_min_level := rel_mitigation_costs_min_level p; LBD_rate := LBD_rate p; LBD_scaling := LBD_scaling p; LOT_rate := LOT_rate p; trade := trade p; min_rel_payment_level := min_rel_payment_level p; max_rel_payment_level := max_rel_payment_level p; transfer := transfer p; effort_regime := effort_regime p; percapconv_year := percapconv_year p; init_capital_factor := init_capital_factor p; alpha := alpha p; dk := dk p; sr := sr p; ignore_damages := x; welfare := welfare p; elasmu := elasmu p; inequal_aversion := inequal_aversion p; objective := objective p; PRTP := PRTP p |}.
Definition with_cum_trapz (x : bool) (p : pars) : pars := {|
  beginyear := beginyear p; dt := dt p; tf := tf p; regions := regions p; population := population p; baseline_GDP := baseline_GDP p; baseline_emissions := baseline_emissions p; use_carbon_intensity := use_carbon_intensity p; cum_trapz := x; T0 := T0 p; TCRE := TCRE p; temperature_target := temperature_target p; perc_reversible := perc_reversible p; budget := budget p; inertia_global := inertia_global p; inertia_regional := inertia_regional p; global_min_level := global_min_level p; regional_min_level := regional_min_level p; non_increasing_after_2100 := non_increasing_after_2100 p; no_pos_after_budget_year := no_pos_after_budget_year p; dmg_module := dmg_module p; damage_scale_factor := damage_scale_factor p; dmg_noslr := dmg_noslr p; dmg_slr := dmg_slr p; mort_oldest := mort_oldest p; mort_older := mort_older p; mort_young := mort_young p; MAC_gamma := MAC_gamma p; MAC_beta := MAC_beta p; MAC_scaling := MAC_scaling p; rel_mitigation_costs_min_level := rel_mitigation_costs_min_level p; LBD_rate := LBD_rate p; LBD_scaling := LBD_scaling p; LOT_rate := LOT_rate p; trade := trade p; min_rel_payment_level := min_rel_payment_level p; max_rel_payment_level := max_rel_payment_level p; transfer := transfer p; effort_regime := effort_regime p; percapconv_year := percapconv_year p; init_capital_factor := init_capital_factor p; alpha := alpha p; dk := dk p; sr := sr p; ignore_damages := ignore_damages p; welfare := welfare p; elasmu := elasmu p; inequal_aversion := inequal_aversion p; objective := objective p; PRTP := PRTP p |}.
Definition with_dmg_module (x : damage_module) (p : pars) : pars := {|
  beginyear := beginyear p; dt := dt p; tf := tf p; regions := regions p; population := population p; baseline_GDP := baseline_GDP p; baseline_emissions := baseline_emissions p; use_carbon_intensity := use_carbon_intensity p; cum_trapz := cum_trapz p; T0 := T0 p; TCRE := TCRE p; temperature_target := temperature_target p; perc_reversible := perc_reversible p; budget := budget p; inertia_global := inertia_global p; inertia_regional := inertia_regional p; global_min_level := global_min_level p; regional_min_level := regional_min_level p; non_increasing_after_2100 := non_increasing_after_2100 p; no_pos_after_budget_year := no_pos_after_budget_year p; dmg_module := x; damage_scale_factor := damage_scale_factor p; dmg_noslr := dmg_noslr p; dmg_slr := dmg_slr p; mort_oldest := mort_oldest p; mort_older := mort_older p; mort_young := mort_young p; MAC_gamma := MAC_gamma p; MAC_beta := MAC_beta p; MAC_scaling := MAC_scaling p; rel_mitigation_costs_min_level := rel_mitigation_costs_min_level p; LBD_rate := LBD_rate p; LBD_scaling := LBD_scaling p; LOT_rate := LOT_rate p; trade := trade p; min_rel_payment_level := min_rel_payment_level p; max_rel_payment_level := max_rel_payment_level p; transfer := transfer p; effort_regime := effort_regime p; percapconv_year := percapconv_year p; init_capital_factor := init_capital_factor p; alpha := alpha p; dk := dk p; sr := sr p; ignore_damages := ignore_damages p; welfare := welfare p; elasmu := elasmu p; inequal_aversion := inequal_aversion p; objective := objective p; PRTP := PRTP p |}.
Definition with_objective (x : objective_module) (p : pars) : pars := {|
  beginyear := beginyear p; dt := dt p; tf := tf p; regions := regions p; population := population p; baseline_GDP := baseline_GDP p; baseline_emissions := baseline_emissions p; use_carbon_intensity := use_carbon_intensity p; cum_trapz := cum_trapz p; T0 := T0 p; TCRE := TCRE p; temperature_target := temperature_target p; perc_reversible := perc_reversible p; budget := budget p; inertia_global := inertia_global p; inertia_regional := inertia_regional p; global_min_level := global_min_level p; regional_min_level := regional_min_level p; non_increasing_after_2100 := non_increasing_after_2100 p; no_pos_after_budget_year := no_pos_after_budget_year p; dmg_module := dmg_module p; damage_scale_factor := damage_scale_factor p; dmg_noslr := dmg_noslr p; dmg_slr := dmg_slr p; mort_oldest := mort_oldest p; mort_older := mort_older p; mort_young := mort_young p; MAC_gamma := MAC_gamma p; MAC_beta := MAC_beta p; MAC_scaling := MAC_scaling p; rel_mitigation_costs_min_level := rel_mitigation_costs_min_level p; LBD_rate := LBD_rate p; LBD_scaling := LBD_scaling p; LOT_rate := LOT_rate p; trade := trade p; min_rel_payment_level := min_rel_payment_level p; max_rel_payment_level := max_rel_payment_level p; transfer := transfer p; effort_regime := effort_regime p; percapconv_year := percapconv_year p; init_capital_factor := init_capital_factor p; alpha := alpha p; dk := dk p; sr := sr p; ignore_damages := ignore_damages p; welfare := welfare p; elasmu := elasmu p; inequal_aversion := inequal_aversion p; objective := x; PRTP := PRTP p |}.
Definition with_welfare (x : welfare_module) (p : pars) : pars := {|
  beginyear := beginyear p; dt := dt p; tf := tf p; regions := regions p; population := population p; baseline_GDP := baseline_GDP p; baseline_emissions := baseline_emissions p; use_carbon_intensity := use_carbon_intensity p; cum_trapz := cum_trapz p; T0 := T0 p; TCRE := TCRE p; temperature_target := temperature_target p; perc_reversible := perc_reversible p; budget := budget p; inertia_global := inertia_global p; inertia_regional := inertia_regional p; global_min_level := global_min_level p; regional_min_level := regional_min_level p; non_increasing_after_2100 := non_increasing_after_2100 p; no_pos_after_budget_year := no_pos_after_budget_year p; dmg_module := dmg_module p; damage_scale_factor := damage_scale_factor p; dmg_noslr := dmg_noslr p; dmg_slr := dmg_slr p; mort_oldest := mort_oldest p; mort_older := mort_older p; mort_young := mort_young p; MAC_gamma := MAC_gamma p; MAC_beta := MAC_beta p; MAC_scaling := MAC_scaling p; rel_mitigation_costs_min_level := rel_mitigation_costs_min_level p; LBD_rate := LBD_rate p; LBD_scaling := LBD_scaling p; LOT_rate := LOT_rate p; trade := trade p; min_rel_payment_level := min_rel_payment_level p; max_rel_payment_level := max_rel_payment_level p; transfer := transfer p; effort_regime := effort_regime p; percapconv_year := percapconv_year p; init_capital_factor := init_capital_factor p; alpha := alpha p; dk := dk p; sr := sr p; ignore_damages := ignore_damages p; welfare := x; elasmu := elasmu p; inequal_aversion := inequal_aversion p; objective := objective p; PRTP := PRTP p |}.
Definition with_mortality (oldest older young : region -> R * R * R) (p : pars) : pars := {|
  beginyear := beginyear p; dt := dt p; tf := tf p; regions := regions p; population := population p; baseline_GDP := baseline_GDP p; baseline_emissions := baseline_emissions p; use_carbon_intensity := use_carbon_intensity p; cum_trapz := cum_trapz p; T0 := T0 p; TCRE := TCRE p; temperature_target := temperature_target p; perc_reversible := perc_reversible p; budget := budget p; inertia_global := inertia_global p; inertia_regional := inertia_regional p; global_min_level := global_min_level p; regional_min_level := regional_min_level p; non_increasing_after_2100 := non_increasing_after_2100 p; no_pos_after_budget_year := no_pos_after_budget_year p; dmg_module := dmg_module p; damage_scale_factor := damage_scale_factor p; dmg_noslr := dmg_noslr p; dmg_slr := dmg_slr p; mort_oldest := oldest; mort_older := older; mort_young := young; MAC_gamma := MAC_gamma p; MAC_beta := MAC_beta p; MAC_scaling := MAC_scaling p; rel_mitigation_costs_min_level := rel_mitigation_costs_min_level p; LBD_rate := LBD_rate p; LBD_scaling := LBD_scaling p; LOT_rate := LOT_rate p; trade := trade p; min_rel_payment_level := min_rel_payment_level p; max_rel_payment_level := max_rel_payment_level p; transfer := transfer p; effort_regime := effort_regime p; percapconv_year := percapconv_year p; init_capital_factor := init_capital_factor p; alpha := alpha p; dk := dk p; sr := sr p; ignore_damages := ignore_damages p; welfare := welfare p; elasmu := elasmu p; inequal_aversion := inequal_aversion p; objective := objective p; PRTP := PRTP p |}.
