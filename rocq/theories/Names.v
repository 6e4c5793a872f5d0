(** Python attribute names of the declared variables, and pyomo's component order
    ([m.component_objects(Var)] and [m.component_objects(Param)] iterate in declaration order). *)
From Verif Require Export Build.

(** emissions.py 162-184, 264, 355; sealevelrise.py 103-122; mitigation.py 265-283, 373-390;
    emissiontrade.py 58; effortsharing.py 59; welfare modules; objective modules *)
Definition gname (g : gvar) : string :=
  match g with
  | g_cumulative_emissions => "cumulative_emissions" | g_global_emissions => "global_emissions"
  | g_emission_relative_cumulative => "emission_relative_cumulative" | g_temperature => "temperature"
  | g_slr_thermal => "slr_thermal" | g_slr_cumgsic => "slr_cumgsic" | g_slr_cumgis => "slr_cumgis"
  | g_total_SLR => "total_SLR" | g_global_rel_mitigation_costs => "global_rel_mitigation_costs"
  | g_global_emission_reduction_per_cost_unit => "global_emission_reduction_per_cost_unit"
  | g_global_cost_per_emission_reduction_unit => "global_cost_per_emission_reduction_unit"
  | g_LBD_factor => "LBD_factor" | g_LOT_factor => "LOT_factor" | g_learning_factor => "learning_factor"
  | g_global_carbonprice => "global_carbonprice" | g_effort_sharing_common_level => "effort_sharing_common_level"
  | g_yearly_welfare => "yearly_welfare" | g_NPV => "NPV"
  end.
(** emissions.py 162-180; coacch.py 46-94, 149, 232; nodamage.py 27; mitigation.py 196-231;
    emissiontrade.py 75-86; globalcostpool.py 40-74; globaldamagepool.py 51-52; cobbdouglas.py 93-118 *)
Definition rname (x : rvar) : string :=
  match x with
  | v_regional_emissions => "regional_emissions" | v_baseline => "baseline" | v_relative_abatement => "relative_abatement"
  | v_regional_emission_reduction => "regional_emission_reduction"
  | v_damage_costs => "damage_costs" | v_damage_costs_non_slr => "damage_costs_non_slr" | v_damage_costs_slr => "damage_costs_slr"
  | v_mortality_oldest => "mortality_oldest" | v_mortality_older => "mortality_older" | v_mortality_young => "mortality_young"
  | v_mortality_cost_oldest => "mortality_cost_oldest"
  | v_carbonprice => "carbonprice" | v_mitigation_costs => "mitigation_costs" | v_area_under_MAC => "area_under_MAC"
  | v_rel_mitigation_costs => "rel_mitigation_costs"
  | v_import_export_emission_reduction_balance => "import_export_emission_reduction_balance"
  | v_import_export_mitigation_cost_balance => "import_export_mitigation_cost_balance"
  | v_paid_for_emission_reductions => "paid_for_emission_reductions"
  | v_regional_emission_allowances => "regional_emission_allowances"
  | v_financial_transfer => "financial_transfer" | v_rel_financial_transfer => "rel_financial_transfer"
  | v_capital_stock => "capital_stock" | v_GDP_gross => "GDP_gross" | v_GDP_net => "GDP_net"
  | v_investments => "investments" | v_consumption => "consumption" | v_utility => "utility"
  end.

Inductive var := Gv (g : gvar) | Rv (x : rvar).
Definition vname (w : var) : string := match w with Gv g => gname g | Rv x => rname x end.
Definition declared (p : pars) (w : var) : bool := match w with Gv g => declared_g p g | Rv x => declared_r p x end.

(** The Var components in declaration order: emissions (emissions.py 162-184, 264, 355), sealevelrise
    (103-122), damages (coacch.py 46, 149, 232, 65-67, 94 / nodamage.py 27), mitigation (196-231, 265-283,
    373-390), emissiontrade, financialtransfer, effortsharing, cobbdouglas, welfare, objective. *)
Definition all_vars : list var :=
  [ Rv v_regional_emissions; Rv v_baseline; Rv v_relative_abatement; Rv v_regional_emission_reduction;
    Gv g_cumulative_emissions; Gv g_global_emissions; Gv g_emission_relative_cumulative; Gv g_temperature;
    Gv g_slr_thermal; Gv g_slr_cumgsic; Gv g_slr_cumgis; Gv g_total_SLR;
    Rv v_damage_costs; Rv v_damage_costs_non_slr; Rv v_damage_costs_slr;
    Rv v_mortality_oldest; Rv v_mortality_older; Rv v_mortality_young; Rv v_mortality_cost_oldest;
    Rv v_carbonprice; Rv v_mitigation_costs; Rv v_area_under_MAC; Rv v_rel_mitigation_costs;
    Gv g_global_rel_mitigation_costs; Gv g_global_emission_reduction_per_cost_unit;
    Gv g_global_cost_per_emission_reduction_unit; Gv g_LBD_factor; Gv g_LOT_factor; Gv g_learning_factor;
    Gv g_global_carbonprice; Rv v_paid_for_emission_reductions; Rv v_regional_emission_allowances;
    Rv v_import_export_emission_reduction_balance; Rv v_import_export_mitigation_cost_balance;
    Rv v_financial_transfer; Rv v_rel_financial_transfer; Gv g_effort_sharing_common_level;
    Rv v_capital_stock; Rv v_GDP_gross; Rv v_GDP_net; Rv v_investments; Rv v_consumption;
    Rv v_utility; Gv g_yearly_welfare; Gv g_NPV ].
Definition variables (p : pars) : list var := filter (declared p) all_vars.

(** [getattr(m, name)], restricted to variables *)
Definition find_var (p : pars) (name : string) : option var :=
  find (fun w => String.eqb (vname w) name) (variables p).
