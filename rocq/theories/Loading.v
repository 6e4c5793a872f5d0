(** mimosa.py 54-61: AbstractModel.create_instance(instance data).  Pyomo puts the values of the data
    dictionary into the Param and Set objects of the same names; the components then use these objects.
    [loads inst p] says that [p] are the numbers of the model created from the instance data [inst].

    Simplifications: pyomo's checks of the values are not modelled; a value that is not a number (nan of an
    empty cell) leaves the corresponding real of [p] open; parameters that the chosen modules do not declare
    are left open. *)
From Verif Require Import PyBase NestedDict Parsers Config ConfigSpec TimeGrid DataStore RegionalParams Instantiate.
From Verif Require Export Model.
From Coq Require Import Reals QArith Qreals.
Import ListNotations.
Open Scope string_scope.
Open Scope list_scope.
Open Scope R_scope.

(** The names of the modules in the configuration (abstract_model.py 91-160, effortsharing.py 56-110) *)
Definition damage_name (m : damage_module) : string := match m with COACCH => "COACCH" | nodamage => "nodamage" end.
Definition trade_name (m : trade_module) : string :=
  match m with notrade => "notrade" | globalcostpool => "globalcostpool" | emissiontrade => "emissiontrade" end.
Definition transfer_name (m : transfer_module) : string := match m with notransfer => "notransfer" | globaldamagepool => "globaldamagepool" end.
Definition welfare_name (m : welfare_module) : string :=
  match m with welfare_loss_minimising => "welfare_loss_minimising" | cost_minimising => "cost_minimising" | inequal_aversion_general => "inequal_aversion_general" end.
Definition objective_name (m : objective_module) : string := match m with utility => "utility" | globalcosts => "globalcosts" end.
Definition regime_name (m : regime) : string :=
  match m with noregime => "noregime" | equal_mitigation_costs => "equal_mitigation_costs" | per_cap_convergence => "per_cap_convergence" | equal_total_costs => "equal_total_costs" end.

Section Loads.
  Variable inst : instance.
  Definition data_of (name : string) : result pdata := assoc name (i_data inst).
  (** A scalar Param holding a number; one holding a number or False; one holding True or False; one holding a text *)
  Definition scalar_is (name : string) (x : R) : Prop := exists v, data_of name = Ok (Scalar v) /\ number v = Ok x.
  Definition limit_is (name : string) (x : option R) : Prop :=
    exists v, data_of name = Ok (Scalar v) /\ match x with Some y => number v = Ok y | None => v = VBool false end.
  Definition flag_is (name : string) (b : bool) : Prop := data_of name = Ok (Scalar (VBool b)).
  Definition text_is (name s : string) : Prop := data_of name = Ok (Scalar (VStr s)).
  (** Params indexed by regions, or by time and regions *)
  Definition regional_is (name : string) (f : region -> R) : Prop :=
    exists l, data_of name = Ok (ByRegion l) /\ forall r v x, In (r, v) l -> number v = Ok x -> f r = x.
  Definition texts_are (name : string) (f : region -> string) : Prop :=
    exists l, data_of name = Ok (ByRegion l) /\ forall r s, In (r, VStr s) l -> f r = s.
  Definition series_is (name : string) (f : nat -> region -> R) : Prop :=
    exists l, data_of name = Ok (ByTimeAndRegion l) /\ forall t r x, In ((t, r), x) l -> f t r = x.
  Definition triple_is (prefix : string) (f : region -> R * R * R) : Prop :=
    regional_is (prefix ++ "_a") (fun r => fst (fst (f r))) /\ regional_is (prefix ++ "_b") (fun r => snd (fst (f r))) /\
    regional_is (prefix ++ "_c") (fun r => snd (f r)).
  Definition damage_is (prefix : string) (d : dmg) : Prop :=
    texts_are (prefix ++ "_form") (d_form d) /\ regional_is (prefix ++ "_b1") (d_b1 d) /\ regional_is (prefix ++ "_b2") (d_b2 d) /\
    regional_is (prefix ++ "_b3") (d_b3 d) /\ regional_is (prefix ++ "_a") (d_a d).
  Definition module_is (which name : string) : Prop := lookup (i_params inst) ["model"; which] = Some (VStr name).

  Record loads (p : pars) : Prop := {
    (* abstract_model.py 48-85 *)
    ld_beginyear : scalar_is "beginyear" (beginyear p);
    ld_dt : scalar_is "dt" (dt p);
    ld_tf : data_of "tf" = Ok (Scalar (VInt (Z.of_nat (tf p))));
    ld_regions : data_of "regions" = Ok (Names (regions p));
    ld_population : series_is "population" (population p);
    ld_GDP : series_is "baseline_GDP" (baseline_GDP p);
    ld_emissions : series_is "baseline_emissions" (baseline_emissions p);
    (* emissions.py *)
    ld_intensity : flag_is "use_carbon_intensity_for_baseline" (use_carbon_intensity p);
    ld_trapz : flag_is "cumulative_emissions_trapz" (cum_trapz p);
    ld_T0 : scalar_is "T0" (T0 p);
    ld_TCRE : scalar_is "TCRE" (TCRE p);
    ld_target : limit_is "temperature_target" (temperature_target p);
    ld_reversible : scalar_is "perc_reversible_damages" (perc_reversible p);
    ld_budget : limit_is "budget" (budget p);
    ld_inertia_global : limit_is "inertia_global" (inertia_global p);
    ld_inertia_regional : limit_is "inertia_regional" (inertia_regional p);
    ld_global_min : limit_is "global_min_level" (global_min_level p);
    ld_regional_min : limit_is "regional_min_level" (regional_min_level p);
    ld_non_increasing : flag_is "non_increasing_emissions_after_2100" (non_increasing_after_2100 p);
    ld_no_pos : flag_is "no_pos_emissions_after_budget_year" (no_pos_after_budget_year p);
    (* abstract_model.py 91-160: the chosen modules *)
    ld_damage_module : module_is "damage module" (damage_name (dmg_module p));
    ld_trade_module : module_is "emissiontrade module" (trade_name (trade p));
    ld_transfer_module : module_is "financialtransfer module" (transfer_name (transfer p));
    ld_welfare_module : module_is "welfare module" (welfare_name (welfare p));
    ld_objective_module : module_is "objective module" (objective_name (objective p));
    (* coacch.py *)
    ld_scale : dmg_module p = COACCH -> scalar_is "damage_scale_factor" (damage_scale_factor p);
    ld_noslr : dmg_module p = COACCH -> damage_is "damage_noslr" (dmg_noslr p);
    ld_slr : dmg_module p = COACCH -> damage_is "damage_slr" (dmg_slr p);
    ld_oldest : dmg_module p = COACCH -> triple_is "mortality_param_oldest" (mort_oldest p);
    ld_older : dmg_module p = COACCH -> triple_is "mortality_param_older" (mort_older p);
    ld_young : dmg_module p = COACCH -> triple_is "mortality_param_young" (mort_young p);
    (* mitigation.py *)
    ld_gamma : scalar_is "MAC_gamma" (MAC_gamma p);
    ld_beta : scalar_is "MAC_beta" (MAC_beta p);
    ld_scaling : regional_is "MAC_scaling_factor" (MAC_scaling p);
    ld_min_costs : scalar_is "rel_mitigation_costs_min_level" (rel_mitigation_costs_min_level p);
    ld_LBD_rate : scalar_is "LBD_rate" (LBD_rate p);
    ld_LBD_scaling : scalar_is "LBD_scaling" (LBD_scaling p);
    ld_LOT : scalar_is "LOT_rate" (LOT_rate p);
    (* globalcostpool.py *)
    ld_min_payment : trade p = globalcostpool -> limit_is "min_rel_payment_level" (min_rel_payment_level p);
    ld_max_payment : trade p = globalcostpool -> limit_is "max_rel_payment_level" (max_rel_payment_level p);
    (* effortsharing.py *)
    ld_regime : text_is "effort_sharing_regime" (regime_name (effort_regime p));
    ld_percapconv : limit_is "percapconv_year" (percapconv_year p);
    (* cobbdouglas.py *)
    ld_capital : regional_is "init_capitalstock_factor" (init_capital_factor p);
    ld_alpha : scalar_is "alpha" (alpha p);
    ld_dk : scalar_is "dk" (dk p);
    ld_sr : scalar_is "sr" (sr p);
    ld_ignore : flag_is "ignore_damages" (ignore_damages p);
    (* welfare and objective modules *)
    ld_elasmu : scalar_is "elasmu" (elasmu p);
    ld_aversion : welfare p = inequal_aversion_general -> scalar_is "inequal_aversion" (inequal_aversion p);
    ld_PRTP : scalar_is "PRTP" (PRTP p)
  }.
End Loads.
