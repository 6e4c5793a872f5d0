(** mimosa/inputdata/config/config_default.yaml 1-572, transcribed by tools/gen_config.py.
    Simplification: [descr] entries (only used in messages) are omitted; decimal literals are
    exact rationals. *)
From Verif Require Import PyBase.
Open Scope Z_scope.

(** config_default.yaml: section time *)
Definition tpl_time : pyval :=
  VDict [
    (KStr "start", VDict [
      (KStr "type", VStr "int");
      (KStr "min", VInt (1900));
      (KStr "max", VInt (2100));
      (KStr "default", VInt (2020)) ]);
    (KStr "end", VDict [
      (KStr "type", VStr "int");
      (KStr "min", VInt (1901));
      (KStr "max", VInt (2300));
      (KStr "default", VInt (2150)) ]);
    (KStr "dt", VDict [
      (KStr "type", VStr "float");
      (KStr "min", VFloat (FFin (1 # 2)));
      (KStr "max", VInt (20));
      (KStr "default", VInt (5)) ]) ].

(** config_default.yaml: section SSP *)
Definition tpl_SSP : pyval :=
  VDict [
    (KStr "type", VStr "enum");
    (KStr "values", VList [
      VStr "SSP1";
      VStr "SSP2";
      VStr "SSP3";
      VStr "SSP4";
      VStr "SSP5" ]);
    (KStr "default", VStr "SSP2") ].

(** config_default.yaml: section economics *)
Definition tpl_economics : pyval :=
  VDict [
    (KStr "PRTP", VDict [
      (KStr "type", VStr "float");
      (KStr "min", VInt (0));
      (KStr "max", VFloat (FFin (1 # 5)));
      (KStr "default", VFloat (FFin (3 # 200))) ]);
    (KStr "elasmu", VDict [
      (KStr "type", VStr "float");
      (KStr "min", VFloat (FFin (1 # 10)));
      (KStr "max", VInt (10));
      (KStr "default", VFloat (FFin (1001 # 1000))) ]);
    (KStr "inequal_aversion", VDict [
      (KStr "type", VStr "float");
      (KStr "min", VFloat (FFin (0 # 1)));
      (KStr "max", VInt (3));
      (KStr "default", VFloat (FFin (1 # 2))) ]);
    (KStr "GDP", VDict [
      (KStr "alpha", VDict [
        (KStr "type", VStr "float");
        (KStr "min", VInt (0));
        (KStr "max", VInt (1));
        (KStr "default", VFloat (FFin (3 # 10))) ]);
      (KStr "depreciation of capital", VDict [
        (KStr "type", VStr "float");
        (KStr "min", VInt (0));
        (KStr "default", VFloat (FFin (1 # 20))) ]);
      (KStr "savings rate", VDict [
        (KStr "type", VStr "float");
        (KStr "min", VInt (0));
        (KStr "max", VInt (1));
        (KStr "default", VFloat (FFin (21 # 100))) ]) ]);
    (KStr "MAC", VDict [
      (KStr "beta", VDict [
        (KStr "type", VStr "float");
        (KStr "min", VFloat (FFin (1 # 100)));
        (KStr "max", VInt (10));
        (KStr "default", VInt (3)) ]);
      (KStr "gamma", VDict [
        (KStr "type", VStr "quantity");
        (KStr "unit", VStr "currency_unit/emissionsrate_unit");
        (KStr "default", VStr "2601 USD2005/tCO2") ]);
      (KStr "LBD_rate", VDict [
        (KStr "type", VStr "float");
        (KStr "min", VFloat (FFin (1 # 10)));
        (KStr "max", VInt (1));
        (KStr "default", VFloat (FFin (41 # 50))) ]);
      (KStr "LBD_scaling", VDict [
        (KStr "type", VStr "quantity");
        (KStr "unit", VStr "emissions_unit");
        (KStr "default", VStr "40 GtCO2") ]);
      (KStr "LOT_rate", VDict [
        (KStr "type", VStr "float");
        (KStr "min", VInt (0));
        (KStr "default", VInt (0)) ]);
      (KStr "regional calibration factor", VDict [
        (KStr "type", VStr "enum");
        (KStr "values", VList [
          VStr "kappa_carbonprice_200_2030";
          VStr "kappa_carbonprice_200_2050";
          VStr "kappa_carbonprice_200_2070";
          VStr "kappa_carbonprice_200_2100";
          VStr "kappa_carbonprice_300_2030";
          VStr "kappa_carbonprice_300_2050";
          VStr "kappa_carbonprice_300_2070";
          VStr "kappa_carbonprice_300_2100";
          VStr "kappa_carbonprice_500_2030";
          VStr "kappa_carbonprice_500_2050";
          VStr "kappa_carbonprice_500_2070";
          VStr "kappa_carbonprice_500_2100";
          VStr "kappa_carbonprice_1000_2030";
          VStr "kappa_carbonprice_1000_2050";
          VStr "kappa_carbonprice_1000_2070";
          VStr "kappa_carbonprice_1000_2100";
          VStr "kappa_rel_abatement_0.25_2030";
          VStr "kappa_rel_abatement_0.25_2050";
          VStr "kappa_rel_abatement_0.25_2070";
          VStr "kappa_rel_abatement_0.25_2100";
          VStr "kappa_rel_abatement_0.4_2030";
          VStr "kappa_rel_abatement_0.4_2050";
          VStr "kappa_rel_abatement_0.4_2070";
          VStr "kappa_rel_abatement_0.4_2100";
          VStr "kappa_rel_abatement_0.5_2050";
          VStr "kappa_rel_abatement_0.5_2070";
          VStr "kappa_rel_abatement_0.5_2100";
          VStr "kappa_rel_abatement_0.75_2050";
          VStr "kappa_rel_abatement_0.75_2070";
          VStr "kappa_rel_abatement_0.75_2100" ]);
        (KStr "default", VStr "kappa_rel_abatement_0.75_2050") ]);
      (KStr "rel_mitigation_costs_min_level", VDict [
        (KStr "type", VStr "float");
        (KStr "min", VInt (-2));
        (KStr "max", VInt (0));
        (KStr "default", VInt (0)) ]) ]);
    (KStr "emission trade", VDict [
      (KStr "min rel payment level", VDict [
        (KStr "type", VStr "float");
        (KStr "min", VInt (0));
        (KStr "max", VInt (1));
        (KStr "default", VBool false);
        (KStr "can_be_false", VBool true) ]);
      (KStr "max rel payment level", VDict [
        (KStr "type", VStr "float");
        (KStr "min", VInt (1));
        (KStr "default", VBool false);
        (KStr "can_be_false", VBool true) ]) ]);
    (KStr "damages", VDict [
      (KStr "percentage reversible", VDict [
        (KStr "type", VStr "float");
        (KStr "min", VInt (0));
        (KStr "max", VInt (1));
        (KStr "default", VInt (1)) ]);
      (KStr "scale factor", VDict [
        (KStr "type", VStr "float");
        (KStr "default", VInt (1)) ]);
      (KStr "ignore damages", VDict [
        (KStr "type", VStr "bool");
        (KStr "default", VBool false) ]);
      (KStr "quantile", VDict [
        (KStr "type", VStr "enum");
        (KStr "values", VList [
          VFloat (FFin (1 # 40));
          VFloat (FFin (1 # 20));
          VFloat (FFin (4 # 25));
          VFloat (FFin (1 # 4));
          VFloat (FFin (33 # 100));
          VFloat (FFin (1 # 2));
          VFloat (FFin (67 # 100));
          VFloat (FFin (3 # 4));
          VFloat (FFin (21 # 25));
          VFloat (FFin (19 # 20));
          VFloat (FFin (39 # 40)) ]);
        (KStr "default", VFloat (FFin (1 # 2))) ]);
      (KStr "coacch_slr_withadapt", VDict [
        (KStr "type", VStr "bool");
        (KStr "default", VBool true) ]);
      (KStr "coacch_combined_slr_nonslr_damages", VDict [
        (KStr "type", VStr "bool");
        (KStr "default", VBool false) ]) ]) ].

(** config_default.yaml: section emissions *)
Definition tpl_emissions : pyval :=
  VDict [
    (KStr "carbonbudget", VDict [
      (KStr "type", VStr "quantity");
      (KStr "unit", VStr "emissions_unit");
      (KStr "default", VBool false);
      (KStr "can_be_false", VBool true) ]);
    (KStr "global min level", VDict [
      (KStr "type", VStr "quantity");
      (KStr "unit", VStr "emissionsrate_unit");
      (KStr "default", VStr "-20 GtCO2/yr");
      (KStr "can_be_false", VBool true) ]);
    (KStr "regional min level", VDict [
      (KStr "type", VStr "quantity");
      (KStr "unit", VStr "emissionsrate_unit");
      (KStr "default", VStr "-10 GtCO2/yr");
      (KStr "can_be_false", VBool true) ]);
    (KStr "not positive after budget year", VDict [
      (KStr "type", VStr "bool");
      (KStr "default", VBool true) ]);
    (KStr "non increasing emissions after 2100", VDict [
      (KStr "type", VStr "bool");
      (KStr "default", VBool true) ]);
    (KStr "baseline carbon intensity", VDict [
      (KStr "type", VStr "bool");
      (KStr "default", VBool true) ]);
    (KStr "inertia", VDict [
      (KStr "global", VDict [
        (KStr "type", VStr "float");
        (KStr "max", VInt (0));
        (KStr "default", VBool false);
        (KStr "can_be_false", VBool true) ]);
      (KStr "regional", VDict [
        (KStr "type", VStr "float");
        (KStr "max", VInt (0));
        (KStr "default", VFloat (FFin (-1 # 20)));
        (KStr "can_be_false", VBool true) ]) ]);
    (KStr "cumulative_emissions_trapz", VDict [
      (KStr "type", VStr "bool");
      (KStr "default", VBool true) ]) ].

(** config_default.yaml: section effort sharing *)
Definition tpl_effort_sharing : pyval :=
  VDict [
    (KStr "regime", VDict [
      (KStr "type", VStr "enum");
      (KStr "values", VList [
        VStr "noregime";
        VStr "equal_mitigation_costs";
        VStr "equal_total_costs";
        VStr "per_cap_convergence" ]);
      (KStr "default", VStr "noregime") ]);
    (KStr "percapconv_year", VDict [
      (KStr "type", VStr "float");
      (KStr "min", VInt (2020));
      (KStr "max", VInt (2200));
      (KStr "default", VInt (2050));
      (KStr "can_be_false", VBool true) ]) ].

(** config_default.yaml: section temperature *)
Definition tpl_temperature : pyval :=
  VDict [
    (KStr "initial", VDict [
      (KStr "type", VStr "quantity");
      (KStr "unit", VStr "temperature_unit");
      (KStr "default", VStr "1.16 delta_degC") ]);
    (KStr "TCRE", VDict [
      (KStr "type", VStr "quantity");
      (KStr "unit", VStr "(temperature_unit)/(emissions_unit)");
      (KStr "default", VStr "0.62 delta_degC/(TtCO2)") ]);
    (KStr "target", VDict [
      (KStr "type", VStr "quantity");
      (KStr "unit", VStr "temperature_unit");
      (KStr "default", VBool false);
      (KStr "can_be_false", VBool true) ]) ].

(** config_default.yaml: section model *)
Definition tpl_model : pyval :=
  VDict [
    (KStr "damage module", VDict [
      (KStr "type", VStr "enum");
      (KStr "values", VList [
        VStr "COACCH";
        VStr "nodamage" ]);
      (KStr "default", VStr "COACCH") ]);
    (KStr "emissiontrade module", VDict [
      (KStr "type", VStr "enum");
      (KStr "values", VList [
        VStr "notrade";
        VStr "emissiontrade";
        VStr "globalcostpool" ]);
      (KStr "default", VStr "notrade") ]);
    (KStr "financialtransfer module", VDict [
      (KStr "type", VStr "enum");
      (KStr "values", VList [
        VStr "notransfer";
        VStr "globaldamagepool" ]);
      (KStr "default", VStr "notransfer") ]);
    (KStr "welfare module", VDict [
      (KStr "type", VStr "enum");
      (KStr "values", VList [
        VStr "welfare_loss_minimising";
        VStr "cost_minimising";
        VStr "inequal_aversion_general" ]);
      (KStr "default", VStr "welfare_loss_minimising") ]);
    (KStr "objective module", VDict [
      (KStr "type", VStr "enum");
      (KStr "values", VList [
        VStr "utility";
        VStr "globalcosts" ]);
      (KStr "default", VStr "utility") ]) ].

(** config_default.yaml: section regionstype *)
Definition tpl_regionstype : pyval :=
  VDict [
    (KStr "type", VStr "enum");
    (KStr "values", VList [
      VStr "IMAGE26";
      VStr "SSP5";
      VStr "World" ]);
    (KStr "default", VStr "IMAGE26") ].

(** config_default.yaml: section regionsmappings *)
Definition tpl_regionsmappings : pyval :=
  VDict [
    (KStr "type", VStr "list");
    (KStr "values", VDict [
      (KStr "type", VStr "dict") ]);
    (KStr "default", VList [
      VDict [
        (KStr "regionstype1", VStr "IMAGE26");
        (KStr "regionstype2", VStr "COACCH");
        (KStr "conversiontable", VStr "inputdata/regions/IMAGE26_COACCH.csv") ];
      VDict [
        (KStr "regionstype1", VStr "IMAGE26");
        (KStr "regionstype2", VStr "ADRICE2010");
        (KStr "conversiontable", VStr "inputdata/regions/IMAGE26_ADRICE2010.csv") ];
      VDict [
        (KStr "regionstype1", VStr "IMAGE26");
        (KStr "regionstype2", VStr "ADRICE2012");
        (KStr "conversiontable", VStr "inputdata/regions/IMAGE26_ADRICE2012.csv") ] ]) ].

(** config_default.yaml: section regional_parameter_files *)
Definition tpl_regional_parameter_files : pyval :=
  VDict [
    (KStr "type", VStr "dict");
    (KStr "keys", VDict [
      (KStr "type", VStr "str") ]);
    (KStr "values", VDict [
      (KStr "type", VStr "dict") ]);
    (KStr "default", VDict [
      (KStr "economics", VDict [
        (KStr "filename", VStr "inputdata/regionalparams/economics.csv");
        (KStr "regionstype", VStr "IMAGE26") ]);
      (KStr "MAC", VDict [
        (KStr "filename", VStr "inputdata/regionalparams/mac.csv");
        (KStr "regionstype", VStr "IMAGE26") ]);
      (KStr "COACCH", VDict [
        (KStr "filename", VStr "inputdata/regionalparams/COACCH.csv");
        (KStr "regionstype", VStr "COACCH") ]);
      (KStr "mortality", VDict [
        (KStr "filename", VStr "inputdata/regionalparams/mortality.csv");
        (KStr "regionstype", VStr "IMAGE26") ]) ]) ].

(** config_default.yaml: section regions *)
Definition tpl_regions : pyval :=
  VDict [
    (KStr "type", VStr "dict");
    (KStr "keys", VDict [
      (KStr "type", VStr "str") ]);
    (KStr "values", VDict [
      (KStr "type", VStr "dict") ]);
    (KStr "default", VDict [
      (KStr "CAN", VNone);
      (KStr "USA", VNone);
      (KStr "MEX", VNone);
      (KStr "RCAM", VNone);
      (KStr "BRA", VNone);
      (KStr "RSAM", VNone);
      (KStr "NAF", VNone);
      (KStr "WAF", VNone);
      (KStr "EAF", VNone);
      (KStr "SAF", VNone);
      (KStr "WEU", VNone);
      (KStr "CEU", VNone);
      (KStr "TUR", VNone);
      (KStr "UKR", VNone);
      (KStr "STAN", VNone);
      (KStr "RUS", VNone);
      (KStr "ME", VNone);
      (KStr "INDIA", VNone);
      (KStr "KOR", VNone);
      (KStr "CHN", VNone);
      (KStr "SEAS", VNone);
      (KStr "INDO", VNone);
      (KStr "JAP", VNone);
      (KStr "OCE", VNone);
      (KStr "RSAS", VNone);
      (KStr "RSAF", VNone) ]) ].

(** config_default.yaml: section input *)
Definition tpl_input : pyval :=
  VDict [
    (KStr "variables", VDict [
      (KStr "GDP", VDict [
        (KStr "type", VStr "datasource");
        (KStr "default", VDict [
          (KStr "variable", VStr "GDP|PPP");
          (KStr "unit", VStr "currency_unit");
          (KStr "scenario", VStr "{SSP}-Ref-SPA0-V17");
          (KStr "model", VStr "IMAGE");
          (KStr "file", VStr "inputdata/data/data_IMAGE_SSP.csv") ]) ]);
      (KStr "emissions", VDict [
        (KStr "type", VStr "datasource");
        (KStr "default", VDict [
          (KStr "variable", VStr "Emissions|CO2");
          (KStr "unit", VStr "emissionsrate_unit");
          (KStr "scenario", VStr "{SSP}-Ref-SPA0-V17");
          (KStr "model", VStr "IMAGE");
          (KStr "file", VStr "inputdata/data/data_IMAGE_SSP.csv") ]) ]);
      (KStr "population", VDict [
        (KStr "type", VStr "datasource");
        (KStr "default", VDict [
          (KStr "variable", VStr "Population");
          (KStr "unit", VStr "population_unit");
          (KStr "scenario", VStr "{SSP}-Ref-SPA0-V17");
          (KStr "model", VStr "IMAGE");
          (KStr "file", VStr "inputdata/data/data_IMAGE_SSP.csv") ]) ]) ]) ].

(** config_default.yaml: section simulation *)
Definition tpl_simulation : pyval :=
  VDict [
    (KStr "simulationmode", VDict [
      (KStr "type", VStr "bool");
      (KStr "default", VBool false) ]);
    (KStr "constraint_variables", VDict [
      (KStr "type", VStr "dict");
      (KStr "keys", VDict [
        (KStr "type", VStr "str") ]);
      (KStr "values", VDict [
        (KStr "type", VStr "str_or_plain_dict") ]);
      (KStr "default", VNone) ]);
    (KStr "deactivated_constraints", VDict [
      (KStr "type", VStr "list");
      (KStr "values", VDict [
        (KStr "type", VStr "str") ]);
      (KStr "default", VNone) ]);
    (KStr "custom_mapping", VDict [
      (KStr "type", VStr "dict");
      (KStr "default", VNone) ]) ].

Definition config_default : pyval :=
  VDict [
    (KStr "time", tpl_time);
    (KStr "SSP", tpl_SSP);
    (KStr "economics", tpl_economics);
    (KStr "emissions", tpl_emissions);
    (KStr "effort sharing", tpl_effort_sharing);
    (KStr "temperature", tpl_temperature);
    (KStr "model", tpl_model);
    (KStr "regionstype", tpl_regionstype);
    (KStr "regionsmappings", tpl_regionsmappings);
    (KStr "regional_parameter_files", tpl_regional_parameter_files);
    (KStr "regions", tpl_regions);
    (KStr "input", tpl_input);
    (KStr "simulation", tpl_simulation) ].
