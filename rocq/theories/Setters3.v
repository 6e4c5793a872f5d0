(** Replacing the data of the model and keeping every scalar that it always declares. *)
From Verif Require Export Model.

Definition with_data (po : nat -> region -> R) (gd : nat -> region -> R) (em : nat -> region -> R) (sf : R) (dn : dmg) (ds : dmg) (mo : region -> R * R * R) (mr : region -> R * R * R) (my : region -> R * R * R) (ms : region -> R) (mi : option R) (ma : option R) (ic : region -> R) (ia : R) (p : pars) : pars := {|
  beginyear := beginyear p; dt := dt p; tf := tf p; regions := regions p; population := po; baseline_GDP := gd; baseline_emissions := em; use_carbon_intensity := use_carbon_intensity p; cum_trapz := cum_trapz p; T0 := T0 p; TCRE := TCRE p; temperature_target := temperature_target p; perc_reversible := perc_reversible p; budget := budget p; inertia_global := inertia_global p; inertia_regional := inertia_regional p; global_min_level := global_min_level p; regional_min_level := regional_min_level p; non_increasing_after_2100 := non_increasing_after_2100 p; no_pos_after_budget_year := no_pos_after_budget_year p; dmg_module := dmg_module p; damage_scale_factor := sf; dmg_noslr := dn; dmg_slr := ds; mort_oldest := mo; mort_older := mr; mort_young := my; MAC_gamma := MAC_gamma p; MAC_beta := MAC_beta p; MAC_scaling := ms; rel_mitigation_costs_min_level := rel_mitigation_costs_min_level p; LBD_rate := LBD_rate p; LBD_scaling := LBD_scaling p; LOT_rate := LOT_rate p; trade := trade p; min_rel_payment_level := mi; max_rel_payment_level := ma; transfer := transfer p; effort_regime := effort_regime p; percapconv_year := percapconv_year p; init_capital_factor := ic; alpha := alpha p; dk := dk p; sr := sr p; ignore_damages := ignore_damages p; welfare := welfare p; elasmu := elasmu p; inequal_aversion := ia; objective := objective p; PRTP := PRTP p |}.
