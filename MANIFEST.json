{
 "claims": [
  {
   "property": "C01",
   "status": "proved",
   "theorems": [
    "C01_params_exact"
   ],
   "note": ""
  },
  {
   "property": "C02",
   "status": "proved",
   "theorems": [
    "C02_joined_name_ignored_refuted",
    "C02_unknown_key_rejected"
   ],
   "note": ""
  },
  {
   "property": "C03",
   "status": "proved",
   "theorems": [
    "C03_bounds",
    "C03_nan_accepted_refuted"
   ],
   "note": ""
  },
  {
   "property": "C04",
   "status": "proved",
   "theorems": [
    "C04_enum_default_listed",
    "C04_enum_listed"
   ],
   "note": ""
  },
  {
   "property": "C05",
   "status": "proved",
   "theorems": [
    "C05_false_normalised"
   ],
   "note": ""
  },
  {
   "property": "C06",
   "status": "proved",
   "theorems": [
    "C06_revalidation_idempotent",
    "C06_zero_string_refuted"
   ],
   "note": ""
  },
  {
   "property": "C07",
   "status": "proved",
   "theorems": [
    "C07_no_reference_unchanged",
    "C07_reference_resolved",
    "C07_two_references_refuted",
    "C07_unknown_reference_kept"
   ],
   "note": ""
  },
  {
   "property": "C08",
   "status": "proved",
   "theorems": [
    "C08_flatten",
    "C08_set_same",
    "C08_set_succeeds",
    "C08_set_then_get"
   ],
   "note": ""
  },
  {
   "property": "C09",
   "status": "proved",
   "theorems": [
    "C09_no_placeholder",
    "C09_quantity_converted",
    "C09_spellings",
    "C09_units_expanded"
   ],
   "note": ""
  },
  {
   "property": "C10",
   "status": "proved",
   "theorems": [
    "C10_combined_damages",
    "C10_custom_mapping_wins",
    "C10_data_values",
    "C10_every_path_declared",
    "C10_grid_values",
    "C10_regional_values",
    "C10_scalar_values"
   ],
   "note": ""
  },
  {
   "property": "C11",
   "status": "proved",
   "theorems": [
    "C11_end_before_start",
    "C11_grid_covers_horizon",
    "C11_year2100"
   ],
   "note": ""
  },
  {
   "property": "C12",
   "status": "proved",
   "theorems": [
    "C12_file_years_exact",
    "C12_horizon_must_be_covered",
    "C12_interpolation_exact_at_nodes",
    "C12_model_years_are_data_years",
    "C12_requested_years"
   ],
   "note": ""
  },
  {
   "property": "C13",
   "status": "proved",
   "theorems": [
    "C13_bundled_files",
    "C13_data_unchanged",
    "C13_early_end_amplified",
    "C13_growth_bounded",
    "C13_monotone_then_constant",
    "C13_total"
   ],
   "note": ""
  },
  {
   "property": "C14",
   "status": "proved",
   "theorems": [
    "C14_ambiguous_row_refused",
    "C14_cache_transparent",
    "C14_configured_row",
    "C14_first_version_wins",
    "C14_store_holds_file_data"
   ],
   "note": ""
  },
  {
   "property": "C15",
   "status": "proved",
   "theorems": [
    "C15_every_region",
    "C15_file_values_are_numbers",
    "C15_otherwise_file_value",
    "C15_override_is_local",
    "C15_override_wins"
   ],
   "note": ""
  },
  {
   "property": "C16",
   "status": "proved",
   "theorems": [
    "C16_configured_mean",
    "C16_configured_row_missing",
    "C16_configured_same_regions",
    "C16_mean_of_sources",
    "C16_missing_mapping",
    "C16_no_data_is_nan",
    "C16_same_regions",
    "C16_single_source",
    "C16_store_created",
    "C16_text_from_a_source",
    "C16_unmapped_region"
   ],
   "note": ""
  },
  {
   "property": "C17",
   "status": "proved",
   "theorems": [
    "C17_globalcostpool_clashes_refuted",
    "C17_names_never_clash",
    "C17_no_constraint_replaced"
   ],
   "note": ""
  },
  {
   "property": "C18",
   "status": "proved",
   "theorems": [
    "C18_builds_iff_usable",
    "C18_globalcostpool_refuted",
    "C18_zero_data_rejected"
   ],
   "note": ""
  },
  {
   "property": "C19",
   "status": "proved",
   "theorems": [
    "C19_declared_variables_in_range"
   ],
   "note": ""
  },
  {
   "property": "C20",
   "status": "proved",
   "theorems": [
    "C20_emission_accounting"
   ],
   "note": ""
  },
  {
   "property": "C21",
   "status": "proved",
   "theorems": [
    "C21_budget_ignored_before_2100_refuted",
    "C21_budget_respected"
   ],
   "note": ""
  },
  {
   "property": "C22",
   "status": "proved",
   "theorems": [
    "C22_emissions_after_budget_year",
    "C22_no_increase_after_2100",
    "C22_option_needs_budget_refuted"
   ],
   "note": ""
  },
  {
   "property": "C23",
   "status": "proved",
   "theorems": [
    "C23_target_ignored_before_2100_refuted",
    "C23_temperature"
   ],
   "note": ""
  },
  {
   "property": "C24",
   "status": "proved",
   "theorems": [
    "C24_speed_limit"
   ],
   "note": ""
  },
  {
   "property": "C25",
   "status": "proved",
   "theorems": [
    "C25_initial_year_included",
    "C25_minimum_levels",
    "C25_non_increasing"
   ],
   "note": ""
  },
  {
   "property": "C26",
   "status": "proved",
   "theorems": [
    "C26_no_abatement_baseline",
    "C26_right_endpoint_differs_refuted"
   ],
   "note": ""
  },
  {
   "property": "C27",
   "status": "proved",
   "theorems": [
    "C27_cost_curve_in_solution",
    "C27_cost_is_integral_of_marginal_cost",
    "C27_increasing_convex",
    "C27_scale_positive"
   ],
   "note": ""
  },
  {
   "property": "C28",
   "status": "proved",
   "theorems": [
    "C28_initial_year"
   ],
   "note": ""
  },
  {
   "property": "C29",
   "status": "proved",
   "theorems": [
    "C29_doubling",
    "C29_experience",
    "C29_factor_one_at_zero_refuted",
    "C29_learning_by_doing_monotone",
    "C29_learning_over_time",
    "C29_no_mitigation_factor",
    "C29_same_abatement_costs_no_more"
   ],
   "note": ""
  },
  {
   "property": "C30",
   "status": "proved",
   "theorems": [
    "C30_accounting",
    "C30_global_accounting"
   ],
   "note": ""
  },
  {
   "property": "C31",
   "status": "proved",
   "theorems": [
    "C31_GDP_positive",
    "C31_all_operations_defined",
    "C31_capital_positive"
   ],
   "note": ""
  },
  {
   "property": "C32",
   "status": "proved",
   "theorems": [
    "C32_baseline_run_refuted",
    "C32_calibration",
    "C32_reproduction_iff_capital"
   ],
   "note": ""
  },
  {
   "property": "C33",
   "status": "proved",
   "theorems": [
    "C33_global_price_between",
    "C33_single_trade_price",
    "C33_trade_zero_sum"
   ],
   "note": ""
  },
  {
   "property": "C34",
   "status": "proved",
   "theorems": [
    "C34_payment_limits_have_no_effect_refuted"
   ],
   "note": ""
  },
  {
   "property": "C35",
   "status": "proved",
   "theorems": [
    "C35_notrade_own_costs",
    "C35_trade_can_only_help"
   ],
   "note": ""
  },
  {
   "property": "C36",
   "status": "proved",
   "theorems": [
    "C36_beneficiaries_must_pay_refuted",
    "C36_no_transfers_without_module",
    "C36_transfers_zero_sum"
   ],
   "note": ""
  },
  {
   "property": "C37",
   "status": "proved",
   "theorems": [
    "C37_equal_mitigation_costs",
    "C37_equal_total_costs",
    "C37_equal_total_costs_only_until_2100_refuted"
   ],
   "note": ""
  },
  {
   "property": "C38",
   "status": "proved",
   "theorems": [
    "C38_allowances_follow_shares",
    "C38_convergence_before_start_refuted",
    "C38_convergence_path",
    "C38_grandfathering_never_used_refuted",
    "C38_shares_sum_to_one"
   ],
   "note": ""
  },
  {
   "property": "C39",
   "status": "proved",
   "theorems": [
    "C39_damages_follow_curve",
    "C39_unknown_form"
   ],
   "note": ""
  },
  {
   "property": "C40",
   "status": "proved",
   "theorems": [
    "C40_damages_monotone",
    "C40_logistic_bounded",
    "C40_logistic_not_zero_at_zero_refuted",
    "C40_no_damage_without_warming",
    "C40_no_negative_damages",
    "C40_sealevel_damages_bounded"
   ],
   "note": ""
  },
  {
   "property": "C41",
   "status": "proved",
   "theorems": [
    "C41_ice_is_limited",
    "C41_long_steps_melt_too_much_refuted",
    "C41_sealevel_recursion"
   ],
   "note": ""
  },
  {
   "property": "C42",
   "status": "proved",
   "theorems": [
    "C42_no_damage_mode"
   ],
   "note": ""
  },
  {
   "property": "C43",
   "status": "proved",
   "theorems": [
    "C43_cost_minimising_ignores_distribution",
    "C43_equal_distribution_is_best",
    "C43_inequality_aversion_saturates_refuted",
    "C43_not_concave_near_zero_refuted",
    "C43_utility_concave",
    "C43_utility_values",
    "C43_welfare_monotone"
   ],
   "note": ""
  },
  {
   "property": "C44",
   "status": "proved",
   "theorems": [
    "C44_NPV_is_discounted_sum",
    "C44_more_consumption_is_better",
    "C44_objective_direction"
   ],
   "note": ""
  },
  {
   "property": "C45",
   "status": "proved",
   "theorems": [
    "C45_stricter_policy_fewer_solutions",
    "C45_stricter_policy_not_better"
   ],
   "note": ""
  },
  {
   "property": "C46",
   "status": "proved",
   "theorems": [
    "C46_abatement_determines_climate",
    "C46_abatement_determines_economy"
   ],
   "note": ""
  },
  {
   "property": "C47",
   "status": "proved",
   "theorems": [
    "C47_deactivation_exact",
    "C47_fixed_global_variable",
    "C47_fixed_regional_variable",
    "C47_missing_region_raises",
    "C47_off_is_plain_model",
    "C47_simulation_builds",
    "C47_solution_reproduced",
    "C47_unknown_constraint_raises",
    "C47_unknown_variable_raises"
   ],
   "note": ""
  },
  {
   "property": "C48",
   "status": "proved",
   "theorems": [
    "C48_header",
    "C48_rows_distinct",
    "C48_table_complete",
    "C48_table_rectangular",
    "C48_year_labels_distinct"
   ],
   "note": ""
  },
  {
   "property": "C49",
   "status": "proved",
   "theorems": [
    "C49_neos_email_environment",
    "C49_neos_needs_email",
    "C49_no_status_before_solving",
    "C49_one_request",
    "C49_returns_iff_status_ok",
    "C49_solver_crash_propagates",
    "C49_solver_exception_iff",
    "C49_status_is_last_solves",
    "C49_termination_not_inspected"
   ],
   "note": ""
  },
  {
   "property": "C50",
   "status": "proved",
   "theorems": [
    "C50_soft_max",
    "C50_soft_min",
    "C50_soft_switch"
   ],
   "note": ""
  },
  {
   "property": "C51",
   "status": "proved",
   "theorems": [
    "C51_negative_rhs_infeasible_refuted",
    "C51_soft_equality",
    "C51_soft_equality_exact"
   ],
   "note": ""
  },
  {
   "property": "C52",
   "status": "proved",
   "theorems": [
    "C52_baseline_run_exists",
    "C52_every_path_simulates",
    "C52_every_path_simulates_endogenous",
    "C52_no_policy_run_exists"
   ],
   "note": ""
  },
  {
   "property": "C53",
   "status": "proved",
   "theorems": [
    "C53_default_file_name",
    "C53_file_holds_the_solution",
    "C53_save_writes_current_values",
    "C53_unsolved_values_are_saved"
   ],
   "note": ""
  },
  {
   "property": "C54",
   "status": "proved",
   "theorems": [
    "C54_valid_accepted"
   ],
   "note": ""
  },
  {
   "property": "C55",
   "status": "proved",
   "theorems": [
    "C55_other_kinds",
    "C55_text_is_number",
    "C55_value_kept"
   ],
   "note": ""
  },
  {
   "property": "C56",
   "status": "proved",
   "theorems": [
    "C56_mortality",
    "C56_mortality_only_reported",
    "C56_relative_cumulative_emissions",
    "C56_relative_mitigation_costs",
    "C56_unit_costs",
    "C56_unit_costs_nonpositive_costs_refuted"
   ],
   "note": ""
  },
  {
   "property": "C57",
   "status": "proved",
   "theorems": [
    "C57_bundled_constructs"
   ],
   "note": ""
  },
  {
   "property": "C58",
   "status": "proved",
   "theorems": [
    "C58_bundled_signs"
   ],
   "note": ""
  },
  {
   "property": "C59",
   "status": "proved",
   "theorems": [
    "C59_file_global_values_imposed",
    "C59_file_values_imposed",
    "C59_given_global_values_imposed",
    "C59_given_values_imposed",
    "C59_mode_off",
    "C59_rounded_file_refuted",
    "C59_saved_file_accepted",
    "C59_saved_run_reproduced"
   ],
   "note": ""
  },
  {
   "property": "C60",
   "status": "proved",
   "theorems": [
    "C60_configuration_reaches_model",
    "C60_inputs_reach_model",
    "C60_loadable"
   ],
   "note": ""
  },
  {
   "property": "C61",
   "status": "proved",
   "theorems": [
    "C61_builds_iff_usable",
    "C61_decade_baselines",
    "C61_whole_decades"
   ],
   "note": ""
  },
  {
   "property": "C62",
   "status": "proved",
   "theorems": [
    "C62_caller_unchanged",
    "C62_shared_reference_refuted"
   ],
   "note": ""
  },
  {
   "property": "C63",
   "status": "proved",
   "theorems": [
    "C63_cut_off",
    "C63_cut_off_any",
    "C63_longer_run_no_better",
    "C63_same_numbers",
    "C63_shorter_horizon"
   ],
   "note": ""
  },
  {
   "property": "C64",
   "status": "proved",
   "theorems": [
    "C64_left_out",
    "C64_listing_order",
    "C64_listing_order_any",
    "C64_region_order",
    "C64_region_order_optimal"
   ],
   "note": ""
  },
  {
   "property": "C65",
   "status": "proved",
   "theorems": [
    "C65_damages_and_trade",
    "C65_economy",
    "C65_emissions",
    "C65_indicators",
    "C65_readable",
    "C65_welfare"
   ],
   "note": ""
  },
  {
   "property": "C66",
   "status": "proved",
   "theorems": [
    "C66_instance_determines",
    "C66_reproducible",
    "C66_same_constraints",
    "C66_shipped_known"
   ],
   "note": ""
  },
  {
   "property": "C67",
   "status": "proved",
   "theorems": [
    "C67_optimum_exists",
    "C67_optimum_exists_endogenous",
    "C67_optimum_exists_harm",
    "C67_shipped_baseline",
    "C67_shipped_optimum_exists"
   ],
   "note": ""
  },
  {
   "property": "C68",
   "status": "proved",
   "theorems": [
    "C68_lower_costs_more_consumption",
    "C68_no_costs_is_optimal",
    "C68_not_abating_is_optimal",
    "C68_shipped_baseline_is_optimal",
    "C68_simulated_baseline"
   ],
   "note": ""
  },
  {
   "property": "C69",
   "status": "proved",
   "theorems": [
    "C69_GDP_ceiling",
    "C69_GDP_floor",
    "C69_no_policy_run_exists",
    "C69_run_without_policy",
    "C69_shipped_no_policy"
   ],
   "note": ""
  },
  {
   "property": "C70",
   "status": "proved",
   "theorems": [
    "C70_last_step_prices",
    "C70_price_order",
    "C70_uniform_carbon_price",
    "C70_weighted_price_order",
    "C70_weighted_prices_equal"
   ],
   "note": ""
  },
  {
   "property": "C71",
   "status": "proved",
   "theorems": [
    "C71_discounted_price_never_rises",
    "C71_discounted_price_order",
    "C71_hotelling_rule"
   ],
   "note": ""
  },
  {
   "property": "C72",
   "status": "proved",
   "theorems": [
    "C72_costs_convex_in_policy",
    "C72_local_optimum_is_optimal",
    "C72_plans_in_between",
    "C72_unique_abatement",
    "C72_unique_plan"
   ],
   "note": ""
  },
  {
   "property": "C73",
   "status": "proved",
   "theorems": [
    "C73_budget_is_target",
    "C73_same_optimal_plans",
    "C73_target_is_budget",
    "C73_tighter_goal_counts",
    "C73_unattainable_goal"
   ],
   "note": ""
  }
 ]
}