(** The equations of MIMOSA: every component of mimosa/components as lists of constraint objects.

    Numeric parameters are reals, [False]-able limits are [option R] ([None] = False).  Data
    (population, baseline GDP and emissions) and regional parameters are arbitrary functions.
    Not modelled: units, initial values of variables (starting point of the solver), doc strings. *)
From Verif Require Export Expr.

Inductive damage_module := COACCH | nodamage.
Inductive trade_module := notrade | globalcostpool | emissiontrade.
Inductive transfer_module := notransfer | globaldamagepool.
Inductive welfare_module := welfare_loss_minimising | cost_minimising | inequal_aversion_general.
Inductive objective_module := utility | globalcosts.
Inductive regime := noregime | equal_mitigation_costs | per_cap_convergence | equal_total_costs.

(** Parameters of the damage functional form (coacch.py 151-164, 241-267). *)
Record dmg := { d_form : region -> string; d_b1 : region -> R; d_b2 : region -> R;
                d_b3 : region -> R; d_a : region -> R }.

Record pars := {
  (* abstract_model.py 56-83; instantiate_params.py 113-120 *)
  beginyear : R; dt : R; tf : nat; regions : list region;
  population : nat -> region -> R;
  baseline_GDP : nat -> region -> R;
  baseline_emissions : nat -> region -> R;
  (* emissions.py 168-170, 185, 348-356, 381, 510-521 *)
  use_carbon_intensity : bool; cum_trapz : bool;
  T0 : R; TCRE : R; temperature_target : option R; perc_reversible : R;
  budget : option R; inertia_global : option R; inertia_regional : option R;
  global_min_level : option R; regional_min_level : option R;
  non_increasing_after_2100 : bool; no_pos_after_budget_year : bool;
  (* damages *)
  dmg_module : damage_module; damage_scale_factor : R; dmg_noslr : dmg; dmg_slr : dmg;
  mort_oldest : region -> R * R * R; mort_older : region -> R * R * R; mort_young : region -> R * R * R;
  (* mitigation.py 190-195, 232, 370-372, 388 *)
  MAC_gamma : R; MAC_beta : R; MAC_scaling : region -> R; rel_mitigation_costs_min_level : R;
  LBD_rate : R; LBD_scaling : R; LOT_rate : R;
  (* emission trade, transfers, effort sharing *)
  trade : trade_module; min_rel_payment_level : option R; max_rel_payment_level : option R;
  transfer : transfer_module;
  effort_regime : regime; percapconv_year : option R;
  (* cobbdouglas.py 88-120 *)
  init_capital_factor : region -> R; alpha : R; dk : R; sr : R; ignore_damages : bool;
  (* welfare, objective *)
  welfare : welfare_module; elasmu : R; inequal_aversion : R;
  objective : objective_module; PRTP : R
}.

(** numpy's pi is exact here. *)
(** pyomo_utils.py 41-42 *)
Definition scale_to_a (scale : R) : R := 25 / scale.
(** pyomo_utils.py 45-53 *)
Definition soft_switch (x : expr) (scale : R) : expr :=
  (EAtan (ENum (scale_to_a scale) * x) / ENum PI + ENum (1/2))%E.
(** pyomo_utils.py 56-68 *)
Definition soft_min (x : expr) (scale : R) : expr :=
  (soft_switch x scale * x + ENum 1 / ENum (scale_to_a scale * PI))%E.
(** pyomo_utils.py 76-77 *)
Definition soft_max (x maxval : expr) (scale : R) : expr :=
  (- soft_min (maxval - x) scale + maxval)%E.

Section Model.
  Variable p : pars.
  Let dtE := ENum (dt p).

  (** instantiate_params.py 66 *)
  Definition year (t : nat) : R := beginyear p + INR t * dt p.

  (** Booleans of comparisons on numbers evaluated while building the model. *)
  Definition Rleb (x y : R) : bool := if Rle_dec x y then true else false.
  Definition Rltb (x y : R) : bool := if Rlt_dec x y then true else false.
  Definition Reqb (x y : R) : bool := if Req_EM_T x y then true else false.

  Definition Rsum (f : region -> R) (l : list region) : R := fold_right (fun r a => f r + a) 0 l.

  (** ** emissions.py 53-81: derived baseline parameters *)
  (** emissions.py 56-60: np.trapz of the values at steps 0..t *)
  Fixpoint cumulative_baseline_emissions (t : nat) (r : region) : R :=
    match t with
    | O => 0
    | S s => cumulative_baseline_emissions s r
             + (year (S s) - year s) * (baseline_emissions p s r + baseline_emissions p (S s) r) / 2
    end.
  (** emissions.py 67-72 *)
  Definition cumulative_global_baseline_emissions (t : nat) : R :=
    Rsum (cumulative_baseline_emissions t) (regions p).
  (** emissions.py 75-80 *)
  Definition baseline_carbon_intensity (t : nat) (r : region) : R :=
    baseline_emissions p t r / baseline_GDP p t r.

  (** ** emissions.py 187-283 *)
  (** 191-201 *)
  Definition c_baseline_emissions (t : nat) (r : region) : rule_out :=
    if use_carbon_intensity p
    then (EV v_baseline t r == ENum (baseline_carbon_intensity t r) * EV v_GDP_net t r)%E
    else (EV v_baseline t r == ENum (baseline_emissions p t r))%E.
  (** 203-221 *)
  Definition c_regional_abatement (t : nat) (r : region) : rule_out :=
    if Nat.ltb 0 t
    then (EV v_regional_emissions t r == (ENum 1 - EV v_relative_abatement t r)
            * (if use_carbon_intensity p then EV v_baseline t r else ENum (baseline_emissions p t r)))%E
    else Skip.
  (** 222-224 *)
  Definition c_regional_emissions_init (r : region) : rule_out :=
    (EV v_regional_emissions 0 r == ENum (baseline_emissions p 0 r))%E.
  (** 225-229 *)
  Definition c_regional_emission_reduction (t : nat) (r : region) : rule_out :=
    (EV v_regional_emission_reduction t r == EV v_baseline t r - EV v_regional_emissions t r)%E.
  (** 231-239 *)
  Definition c_global_emissions (t : nat) : rule_out :=
    if Nat.ltb 0 t
    then (EG g_global_emissions t == esum (fun r => EV v_regional_emissions t r) (regions p))%E
    else Skip.
  (** 240-244 *)
  Definition c_global_emissions_init : rule_out :=
    (EG g_global_emissions 0 == esum (fun r => ENum (baseline_emissions p 0 r)) (regions p))%E.
  (** 246-259 *)
  Definition c_cumulative_emissions (t : nat) : rule_out :=
    if Nat.ltb 0 t
    then prev t (fun s => EG g_cumulative_emissions t == EG g_cumulative_emissions s
          + (if cum_trapz p
             then dtE * (EG g_global_emissions t + EG g_global_emissions s) / ENum 2
             else dtE * EG g_global_emissions t))%E
    else Skip.
  (** 260 *)
  Definition c_cumulative_emissions_init : rule_out := (EG g_cumulative_emissions 0 == ENum 0)%E.
  (** 267-278 *)
  Definition c_relative_cumulative_emissions (t : nat) : rule_out :=
    if Nat.ltb 0 t
    then (EG g_emission_relative_cumulative t
          == EG g_cumulative_emissions t / ENum (cumulative_global_baseline_emissions t))%E
    else Skip.
  (** 279 *)
  Definition c_relative_cumulative_emissions_init : rule_out :=
    (EG g_emission_relative_cumulative 0 == ENum 1)%E.

  (** ** emissions.py 360-379: temperature *)
  (** 362-366 *)
  Definition c_temperature (t : nat) : rule_out :=
    (EG g_temperature t == ENum (T0 p) + ENum (TCRE p) * EG g_cumulative_emissions t)%E.
  (** 367 *)
  Definition c_temperature_init : rule_out := (EG g_temperature 0 == ENum (T0 p))%E.
  (** 368-375 *)
  Definition c_temperature_target (t : nat) : rule_out :=
    match temperature_target p with
    | Some target => if Rleb 2100 (year t) then (EG g_temperature t <= ENum target)%E else Skip
    | None => Skip
    end.

  (** ** emissions.py 522-601: budget, inertia, levels *)
  (** 524-540.  [m.overshoot] is never declared (383-399 are commented out): with
      perc_reversible < 1 the attribute access raises. *)
  Definition c_carbon_budget (t : nat) : rule_out :=
    match budget p with
    | Some b =>
        if Rleb 2100 (year t)
        then if Rltb (perc_reversible p) 1 then Raise AttributeError
             else (EG g_cumulative_emissions t - (ENum b + ENum 0) <= ENum 0)%E
        else Skip
    | None => Skip
    end.
  (** 541 *)
  Definition c_cumulative_emissions_nonneg (t : nat) : rule_out :=
    (EG g_cumulative_emissions t >= ENum 0)%E.
  (** 543-553 *)
  Definition c_global_inertia (t : nat) : rule_out :=
    match inertia_global p with
    | Some i =>
        if Nat.ltb 0 t
        then prev t (fun s => EG g_global_emissions t - EG g_global_emissions s
              >= dtE * ENum i * esum (fun r => ENum (baseline_emissions p 0 r)) (regions p))%E
        else Skip
    | None => Skip
    end.
  (** 554-562 *)
  Definition c_regional_inertia (t : nat) (r : region) : rule_out :=
    match inertia_regional p with
    | Some i =>
        if Nat.ltb 0 t
        then prev t (fun s => EV v_regional_emissions t r - EV v_regional_emissions s r
              >= dtE * ENum i * ENum (baseline_emissions p 0 r))%E
        else Skip
    | None => Skip
    end.
  (** 563-570 *)
  Definition c_global_min_level (t : nat) : rule_out :=
    match global_min_level p with
    | Some l => (EG g_global_emissions t >= ENum l)%E
    | None => Skip
    end.
  (** 571-578 *)
  Definition c_regional_min_level (t : nat) (r : region) : rule_out :=
    match regional_min_level p with
    | Some l => (EV v_regional_emissions t r >= ENum l)%E
    | None => Skip
    end.
  (** 579-587: [m.year(t - 1)] is computed for t = 0 as well (the year before the first);
      index -1 of the variable would be a KeyError. *)
  Definition year_before (t : nat) : R := beginyear p + (INR t - 1) * dt p.
  Definition c_non_increasing (t : nat) (r : region) : rule_out :=
    if Rltb 2100 (year_before t) && non_increasing_after_2100 p
    then prev t (fun s => EV v_regional_emissions t r - EV v_regional_emissions s r <= ENum 0)%E
    else Skip.
  (** 588-599 *)
  Definition c_net_zero (t : nat) : rule_out :=
    match budget p with
    | Some _ =>
        if Rleb 2100 (year t) && no_pos_after_budget_year p
        then (EG g_global_emissions t <= ENum 0)%E else Skip
    | None => Skip
    end.

  (** emissions.py 24-50 *)
  Definition emissions_constraints : list constr :=
    [ RegionalC (Some "baseline_emissions") c_baseline_emissions;
      RegionalC (Some "regional_abatement") c_regional_abatement;
      RegionalInitC None c_regional_emissions_init;
      RegionalC (Some "regional_emission_reduction") c_regional_emission_reduction;
      GlobalC (Some "global_emissions") c_global_emissions;
      GlobalInitC (Some "global_emissions_init") c_global_emissions_init;
      GlobalC (Some "cumulative_emissions") c_cumulative_emissions;
      GlobalInitC None c_cumulative_emissions_init;
      GlobalC (Some "relative_cumulative_emissions") c_relative_cumulative_emissions;
      GlobalInitC None c_relative_cumulative_emissions_init;
      GlobalC (Some "temperature") c_temperature;
      GlobalInitC None c_temperature_init;
      GlobalC (Some "temperature_target") c_temperature_target;
      GlobalC (Some "carbon_budget") c_carbon_budget;
      GlobalC None c_cumulative_emissions_nonneg;
      GlobalC (Some "global_inertia") c_global_inertia;
      RegionalC (Some "regional_inertia") c_regional_inertia;
      GlobalC (Some "global_min_level") c_global_min_level;
      RegionalC (Some "regional_min_level") c_regional_min_level;
      RegionalC (Some "non_increasing_emissions_after_2100") c_non_increasing;
      GlobalC (Some "net_zero_after_2100") c_net_zero ].

  (** ** sealevelrise.py 103-241; decimal literals are exact *)
  Definition slr_thermal_equil : R := 1/2.                                  (* 104 *)
  Definition slr_thermal_init : R := 920666936642 / 10000000000000.         (* 105-107 *)
  Definition slr_thermal_adjust_rate : R := 24076141150722 / 1000000000000000. (* 108 *)
  Definition slr_gsic_melt_rate : R := 8 / 10000.                           (* 111 *)
  Definition slr_gsic_total_ice : R := 26 / 100.                            (* 112 *)
  Definition slr_gsic_equil_temp : R := -1.                                 (* 113 *)
  Definition slr_gis_melt_rate_above_thresh : R := 111860082 / 100000000.   (* 116-118 *)
  Definition slr_gis_init_melt_rate : R := 6 / 10.                          (* 119 *)
  Definition slr_gis_init_ice_vol : R := 73 / 10.                           (* 120 *)
  (** 171-179 *)
  Definition slr_thermal_expansion_init : R :=
    slr_thermal_init + slr_thermal_adjust_rate * (T0 p * slr_thermal_equil - slr_thermal_init).
  (** 182-196 *)
  Definition slr_thermal_expansion (slr temp : expr) : expr :=
    ((ENum 1 - ENum slr_thermal_adjust_rate) ** (dtE / ENum 10) * slr
     + ENum slr_thermal_adjust_rate * (dtE / ENum 10) * (temp * ENum slr_thermal_equil))%E.
  (** 199-217 *)
  Definition slr_gsic (cumgsic temp : expr) : expr :=
    (cumgsic + ENum slr_gsic_melt_rate / ENum slr_gsic_total_ice * dtE
       * (ENum slr_gsic_total_ice - cumgsic) * (temp - ENum slr_gsic_equil_temp))%E.
  (** 220-241 *)
  Definition slr_gis (cumgis temp : expr) : expr :=
    (cumgis + (dtE / ENum 10) * (ENum 1 / ENum 100)
       * (ENum slr_gis_melt_rate_above_thresh * temp + ENum slr_gis_init_melt_rate)
       * (ENum 1 - cumgis / ENum slr_gis_init_ice_vol))%E.
  (** 127-135 *)
  Definition c_SLR_thermal (t : nat) : rule_out :=
    if Nat.ltb 0 t
    then prev t (fun s => EG g_slr_thermal t == slr_thermal_expansion (EG g_slr_thermal s) (EG g_temperature s))%E
    else Skip.
  (** 136-138 *)
  Definition c_SLR_thermal_init : rule_out := (EG g_slr_thermal 0 == ENum slr_thermal_expansion_init)%E.
  (** 140-148 *)
  Definition c_SLR_GSIC (t : nat) : rule_out :=
    if Nat.ltb 0 t
    then prev t (fun s => EG g_slr_cumgsic t == slr_gsic (EG g_slr_cumgsic s) (EG g_temperature s))%E
    else Skip.
  (** 149 *)
  Definition c_SLR_GSIC_init : rule_out := (EG g_slr_cumgsic 0 == ENum (15/1000))%E.
  (** 151-158 *)
  Definition c_SLR_GIS (t : nat) : rule_out :=
    if Nat.ltb 0 t
    then prev t (fun s => EG g_slr_cumgis t == slr_gis (EG g_slr_cumgis s) (EG g_temperature s))%E
    else Skip.
  (** 159 *)
  Definition c_SLR_GIS_init : rule_out := (EG g_slr_cumgis 0 == ENum (6/1000))%E.
  (** 161-165 *)
  Definition c_total_SLR (t : nat) : rule_out :=
    (EG g_total_SLR t == EG g_slr_thermal t + EG g_slr_cumgsic t + EG g_slr_cumgis t)%E.
  (** 125-168 *)
  Definition slr_constraints : list constr :=
    [ GlobalC (Some "SLR_thermal") c_SLR_thermal;
      GlobalInitC None c_SLR_thermal_init;
      GlobalC (Some "SLR_GSIC") c_SLR_GSIC;
      GlobalInitC None c_SLR_GSIC_init;
      GlobalC (Some "SLR_GIS") c_SLR_GIS;
      GlobalInitC None c_SLR_GIS_init;
      GlobalC (Some "total_SLR") c_total_SLR ].

  (** ** damages/coacch.py *)
  (** 323-325 *)
  Definition logistic (x : expr) (b1 b2 b3 : R) : expr :=
    let exponent := soft_max (ENum (- b3) * x) (ENum 10) (1/10) in
    (ENum b1 / (ENum 1 + ENum b2 * EExp exponent) - ENum b1 / (ENum 1 + ENum b2))%E.
  (** 290-312 *)
  Definition functional_form (d : dmg) (x : expr) (r : region) : result expr :=
    let form := d_form d r in
    let a := ENum (d_a d r) in let b1 := ENum (d_b1 d r) in let b2 := ENum (d_b2 d r) in
    if str_contains "Linear" form then Ok (a * b1 * x / ENum 100)%E
    else if str_contains "Quadratic" form then Ok (a * (b1 * x + b2 * x ^ 2) / ENum 100)%E
    else if str_contains "Logistic" form
         then Ok (a * logistic x (d_b1 d r) (d_b2 d r) (d_b3 d r) / ENum 100)%E
    else Err NotImplementedError.
  (** 315-320 *)
  Definition damage_fct (d : dmg) (x x0 : expr) (r : region) : result expr :=
    do a <- functional_form d x r; do b <- functional_form d x0 r; Ok (a - b)%E.
  Definition con_result (lhs : expr) (rhs : result expr) : rule_out :=
    match rhs with Ok e => Con lhs REq e | Err x => Raise x end.

  (** 51-55 *)
  Definition c_damage_costs (t : nat) (r : region) : rule_out :=
    (EV v_damage_costs t r == EV v_damage_costs_non_slr t r + EV v_damage_costs_slr t r)%E.
  (** 169-174 *)
  Definition c_damage_costs_non_slr (t : nat) (r : region) : rule_out :=
    con_result (EV v_damage_costs_non_slr t r)
      (do d <- damage_fct (dmg_noslr p) (EG g_temperature t - ENum (6/10))%E (ENum (T0 p - 6/10)) r;
       Ok (ENum (damage_scale_factor p) * d)%E).
  (** 271-276 *)
  Definition c_damage_costs_slr (t : nat) (r : region) : rule_out :=
    con_result (EV v_damage_costs_slr t r)
      (do d <- damage_fct (dmg_slr p) (EG g_total_SLR t) (EG g_total_SLR 0) r;
       Ok (ENum (damage_scale_factor p) * d)%E).
  (** 80-88 *)
  Definition c_mortality (v : rvar) (q : region -> R * R * R) (t : nat) (r : region) : rule_out :=
    let '(a, b, c) := q r in
    (EV v t r == ENum a + ENum b * EG g_temperature t + ENum c * EG g_temperature t ^ 2)%E.
  (** 95, 98-100 *)
  Definition c_mortality_cost (t : nat) (r : region) : rule_out :=
    (EV v_mortality_cost_oldest t r
     == EV v_mortality_oldest t r * ENum (population p t r) * ENum 10000 * ENum (13/10))%E.
  (** 44-106 *)
  Definition coacch_constraints : list constr :=
    [ RegionalC (Some "damage_costs") c_damage_costs;
      RegionalC (Some "damage_costs_non_slr") c_damage_costs_non_slr;
      RegionalC (Some "damage_costs_slr") c_damage_costs_slr;
      RegionalC None (c_mortality v_mortality_oldest (mort_oldest p));
      RegionalC None (c_mortality v_mortality_older (mort_older p));
      RegionalC None (c_mortality v_mortality_young (mort_young p));
      RegionalC None c_mortality_cost ].
  (** damages/nodamage.py 30-32 *)
  Definition c_zero_damage (t : nat) (r : region) : rule_out := (EV v_damage_costs t r == ENum 0)%E.
  Definition nodamage_constraints : list constr := [ RegionalC (Some "zero_damage_costs") c_zero_damage ].
  (** abstract_model.py 96-101 *)
  Definition damage_constraints : list constr :=
    match dmg_module p with COACCH => coacch_constraints | nodamage => nodamage_constraints end.

  (** ** mitigation.py *)
  (** 412-414 *)
  Definition MAC (a : expr) (t : nat) (r : region) : expr :=
    let factor := (EG g_learning_factor t * ENum (MAC_scaling p r))%E in
    (factor * ENum (MAC_gamma p) * a ** ENum (MAC_beta p))%E.
  (** 417-419 *)
  Definition AC (a : expr) (t : nat) (r : region) : expr :=
    let factor := (EG g_learning_factor t * ENum (MAC_scaling p r))%E in
    (factor * ENum (MAC_gamma p) * a ** ENum (MAC_beta p + 1) / ENum (MAC_beta p + 1))%E.
  (** The trade balances are Params equal to 0 in notrade.py 28-33, variables otherwise. *)
  Definition cost_balance (t : nat) (r : region) : expr :=
    match trade p with notrade => ENum 0 | _ => EV v_import_export_mitigation_cost_balance t r end.
  (** 204-208 *)
  Definition c_carbonprice (t : nat) (r : region) : rule_out :=
    (EV v_carbonprice t r == MAC (EV v_relative_abatement t r) t r)%E.
  (** 209-211 *)
  Definition c_init_carbon_price (r : region) : rule_out := (EV v_carbonprice 0 r == ENum 0)%E.
  (** 237-242 *)
  Definition c_mitigation_costs (t : nat) (r : region) : rule_out :=
    (EV v_mitigation_costs t r
     == AC (EV v_relative_abatement t r) t r * EV v_baseline t r + cost_balance t r)%E.
  (** 245-249 *)
  Definition c_area_under_MAC (t : nat) (r : region) : rule_out :=
    (EV v_area_under_MAC t r == AC (EV v_relative_abatement t r) t r * EV v_baseline t r)%E.
  (** 250-255 *)
  Definition c_rel_mitigation_costs (t : nat) (r : region) : rule_out :=
    (EV v_rel_mitigation_costs t r == EV v_mitigation_costs t r / EV v_GDP_gross t r)%E.
  (** 256-260 *)
  Definition c_rel_mitigation_costs_non_negative (t : nat) (r : region) : rule_out :=
    (EV v_rel_mitigation_costs t r
     >= ENum (if Nat.ltb 0 t then rel_mitigation_costs_min_level p else 0))%E.
  (** 268-273 *)
  Definition c_global_rel_mitigation_costs (t : nat) : rule_out :=
    (EG g_global_rel_mitigation_costs t
     == esum (fun r => EV v_mitigation_costs t r) (regions p)
        / esum (fun r => EV v_GDP_gross t r) (regions p))%E.
  (** 288-297 *)
  Definition c_emission_reduction_per_cost_unit (t : nat) : rule_out :=
    if Nat.ltb 0 t
    then (EG g_global_emission_reduction_per_cost_unit t
          == esum (fun r => EV v_regional_emission_reduction t r) (regions p)
             / soft_min (esum (fun r => EV v_mitigation_costs t r) (regions p)) 1)%E
    else Skip.
  (** 298-309 *)
  Definition c_cost_per_emission_reduction_unit (t : nat) : rule_out :=
    if Nat.ltb 0 t
    then (EG g_global_cost_per_emission_reduction_unit t
          == esum (fun r => EV v_mitigation_costs t r) (regions p)
             / soft_min (esum (fun r => EV v_regional_emission_reduction t r) (regions p)) 1)%E
    else Skip.
  (** 371 *)
  Definition log_LBD_rate : R := ln (LBD_rate p) / ln 2.
  (** 375-384 *)
  Definition c_LBD (t : nat) : rule_out :=
    (EG g_LBD_factor t
     == soft_min ((ENum (cumulative_global_baseline_emissions t) - EG g_cumulative_emissions t)
                    / ENum (LBD_scaling p) + ENum 1) 1 ** ENum log_LBD_rate)%E.
  (** 393-395; the exponent is the step index t *)
  Definition c_LOT (t : nat) : rule_out :=
    (EG g_LOT_factor t == ENum 1 / (ENum 1 + ENum (LOT_rate p)) ^ t)%E.
  (** 396-400 *)
  Definition c_learning (t : nat) : rule_out :=
    (EG g_learning_factor t == EG g_LBD_factor t * EG g_LOT_factor t)%E.
  Definition mitigation_constraints : list constr :=
    [ RegionalC (Some "carbonprice") c_carbonprice;
      RegionalInitC (Some "init_carbon_price") c_init_carbon_price;
      RegionalC (Some "mitigation_costs") c_mitigation_costs;
      RegionalC (Some "area_under_MAC") c_area_under_MAC;
      RegionalC (Some "rel_mitigation_costs") c_rel_mitigation_costs;
      RegionalC (Some "rel_mitigation_costs_non_negative") c_rel_mitigation_costs_non_negative;
      GlobalC (Some "global_rel_mitigation_costs") c_global_rel_mitigation_costs;
      GlobalC (Some "global_emission_reduction_per_cost_unit") c_emission_reduction_per_cost_unit;
      GlobalC (Some "global_cost_per_emission_reduction_unit") c_cost_per_emission_reduction_unit;
      GlobalC (Some "LBD") c_LBD;
      GlobalC (Some "LOT") c_LOT;
      GlobalC (Some "learning") c_learning ].

  (** ** emissiontrade/emissiontrade.py *)
  (** 64-69 *)
  Definition c_global_carbonprice (t : nat) : rule_out :=
    (EG g_global_carbonprice t
     == esum (fun r => EV v_carbonprice t r * ENum (population p t r)) (regions p)
        / esum (fun r => ENum (population p t r)) (regions p))%E.
  (** 89-95 *)
  Definition c_sum_cost_balance (t : nat) : rule_out :=
    (esum (fun r => EV v_import_export_mitigation_cost_balance t r) (regions p) == ENum 0)%E.
  (** 97-106 *)
  Definition c_import_export_emission (t : nat) (r : region) : rule_out :=
    if Nat.ltb 0 t
    then (EV v_import_export_emission_reduction_balance t r
          == EV v_import_export_mitigation_cost_balance t r / soft_min (EG g_global_carbonprice t) 1)%E
    else Skip.
  (** 108-119 *)
  Definition c_paid_for (t : nat) (r : region) : rule_out :=
    if Nat.ltb 0 t
    then (EV v_paid_for_emission_reductions t r
          == EV v_regional_emission_reduction t r + EV v_import_export_emission_reduction_balance t r)%E
    else Skip.
  (** 121-128 *)
  Definition c_allowances (t : nat) (r : region) : rule_out :=
    if Nat.ltb 0 t
    then (EV v_regional_emission_allowances t r
          == EV v_baseline t r - EV v_paid_for_emission_reductions t r)%E
    else Skip.
  Definition emissiontrade_constraints : list constr :=
    [ GlobalC (Some "global_carbonprice") c_global_carbonprice;
      GlobalC (Some "sum_mitigation_equals_sum_area_under_mac") c_sum_cost_balance;
      RegionalC (Some "import_export_emission_reduction_balance") c_import_export_emission;
      RegionalC (Some "paid_for_emission_reductions") c_paid_for;
      RegionalC None c_allowances ].
  (** ** emissiontrade/globalcostpool.py *)
  (** 56-60 *)
  Definition c_sum_abatement (t : nat) : rule_out :=
    (esum (fun r => EV v_mitigation_costs t r) (regions p)
     == esum (fun r => EV v_area_under_MAC t r) (regions p))%E.
  (** 77-86 *)
  Definition c_pool_paid_for (t : nat) (r : region) : rule_out :=
    if Nat.ltb 0 t
    then (EV v_paid_for_emission_reductions t r
          == EV v_mitigation_costs t r * EG g_global_emission_reduction_per_cost_unit t)%E
    else Skip.
  (** 88-97 *)
  Definition c_pool_import_export_emission (t : nat) (r : region) : rule_out :=
    if Nat.ltb 0 t
    then (EV v_import_export_emission_reduction_balance t r
          == EV v_paid_for_emission_reductions t r - EV v_regional_emission_reduction t r)%E
    else Skip.
  (** 98-102 *)
  Definition c_pool_cost_balance (t : nat) (r : region) : rule_out :=
    (EV v_import_export_mitigation_cost_balance t r
     == EV v_mitigation_costs t r - EV v_area_under_MAC t r)%E.
  (** 51-55 is the same equation as mitigation.py 245-249 under the name "mitigation_costs" *)
  Definition globalcostpool_constraints : list constr :=
    [ RegionalC (Some "mitigation_costs") c_area_under_MAC;
      GlobalC (Some "sum_abatement_equals_sum_area_under_mac") c_sum_abatement;
      RegionalC (Some "paid_for_emission_reductions") c_pool_paid_for;
      RegionalC (Some "import_export_emission_reduction_balance") c_pool_import_export_emission;
      RegionalC (Some "import_export_mitigation_cost_balance") c_pool_cost_balance ].
  (** abstract_model.py 107-116; notrade.py 26 *)
  Definition trade_constraints : list constr :=
    match trade p with
    | notrade => []
    | globalcostpool => globalcostpool_constraints
    | emissiontrade => emissiontrade_constraints
    end.

  (** ** financialtransfer *)
  (** Params equal to 0 in notransfer.py 22-23 *)
  Definition financial_transfer (t : nat) (r : region) : expr :=
    match transfer p with notransfer => ENum 0 | globaldamagepool => EV v_financial_transfer t r end.
  Definition rel_financial_transfer (t : nat) (r : region) : expr :=
    match transfer p with notransfer => ENum 0 | globaldamagepool => EV v_rel_financial_transfer t r end.
  (** globaldamagepool.py 56-63 *)
  Definition c_zero_sum_transfer (t : nat) : rule_out :=
    if Nat.ltb 0 t
    then (esum (fun r => EV v_financial_transfer t r) (regions p) == ENum 0)%E else Skip.
  (** 64-67 *)
  Definition c_no_transfer_first (r : region) : rule_out := (EV v_financial_transfer 0 r == ENum 0)%E.
  (** 68-72 *)
  Definition c_transfer_max (t : nat) (r : region) : rule_out :=
    (EV v_financial_transfer t r >= - EV v_damage_costs t r * EV v_GDP_gross t r)%E.
  (** 73-77 *)
  Definition c_transfer_rel (t : nat) (r : region) : rule_out :=
    (EV v_rel_financial_transfer t r * EV v_GDP_gross t r == EV v_financial_transfer t r)%E.
  (** abstract_model.py 119-126 *)
  Definition transfer_constraints : list constr :=
    match transfer p with
    | notransfer => []
    | globaldamagepool =>
        [ GlobalC (Some "zero_sum_of_yearly_financial_transfer") c_zero_sum_transfer;
          RegionalInitC (Some "no_transfer_in_first_year") c_no_transfer_first;
          RegionalC (Some "received_financial_transfer_max_own_damages") c_transfer_max;
          RegionalC (Some "financial_transfer_rel_to_gdp") c_transfer_rel ]
    end.

  (** ** effortsharing.py *)
  (** 210-214 *)
  Definition percapconv_share_init (r : region) : R :=
    baseline_emissions p 0 r / Rsum (baseline_emissions p 0) (regions p).
  (** 216-221 *)
  Definition percapconv_share_pop (t : nat) (r : region) : R :=
    population p t r / Rsum (population p t) (regions p).
  (** 239-276.  [year_conv] is the Param object (262), so the test [year_conv is False] (264) never
      succeeds; False counts as 0 in the arithmetic that follows. *)
  Definition percapconv_share (t : nat) (r : region) : R :=
    let year_conv := match percapconv_year p with Some y => y | None => 0 end in
    if Reqb year_conv (year 0) then percapconv_share_pop t r
    else
      let lin := (year t - year 0) / (year_conv - year 0) in
      Rmin lin 1 * percapconv_share_pop t r + Rmax (1 - lin) 0 * percapconv_share_init r.
  Definition regime_eqb (a b : regime) : bool :=
    match a, b with
    | noregime, noregime | equal_mitigation_costs, equal_mitigation_costs
    | per_cap_convergence, per_cap_convergence | equal_total_costs, equal_total_costs => true
    | _, _ => false
    end.
  (** 98-107; default epsilon 0.005 (pyomo_utils.py 128) *)
  Definition equal_mitigation_constraint : constr :=
    RegionalSoftEqC "effort_sharing_regime_mitigation_costs"
      (fun t r => Ok (EV v_rel_mitigation_costs t r))
      (fun t r => Ok (EG g_effort_sharing_common_level t))
      (5/1000) None
      (fun t r => negb (regime_eqb (effort_regime p) equal_mitigation_costs)).
  (** 146-158 *)
  Definition equal_total_constraint : constr :=
    RegionalSoftEqC "effort_sharing_regime_total_costs"
      (fun t r => Ok (EV v_rel_mitigation_costs t r + EV v_damage_costs t r + rel_financial_transfer t r)%E)
      (fun t r => Ok (EG g_effort_sharing_common_level t))
      (5/1000) None
      (fun t r => negb (regime_eqb (effort_regime p) equal_total_costs) || Rltb 2100 (year t)).
  (** 225-236.  regional_emission_allowances is declared by emissiontrade.py only: with another trade
      module the attribute access raises (when the rule is evaluated, i.e. not ignored). *)
  Definition percapconv_constraint : constr :=
    RegionalSoftEqC "percapconv_rule"
      (fun t r => Ok (ENum (percapconv_share t r) * EG g_global_emissions t)%E)
      (fun t r => match trade p with
                  | emissiontrade => Ok (EV v_regional_emission_allowances t r)
                  | _ => Err AttributeError
                  end)
      0 (Some (1/1000))
      (fun t r => negb (regime_eqb (effort_regime p) per_cap_convergence) || Nat.eqb t 0).
  Definition effort_constraints : list constr :=
    [ equal_mitigation_constraint; equal_total_constraint; percapconv_constraint ].

  (** ** cobbdouglas.py and common/economics.py *)
  (** economics.py 34-38 *)
  Definition calc_dKdt (K : expr) (dk' : R) (I : expr) : expr :=
    (((ENum 1 - ENum dk') ** dtE - ENum 1) / dtE * K + I)%E.
  (** economics.py 41-48 *)
  Definition calc_GDP (TFP L : R) (K : expr) (al : R) : expr :=
    (ENum TFP * ENum L ** ENum (1 - al) * K ** ENum al)%E.
  (** the same functions on numbers *)
  Definition calc_dKdt_num (K dk' I : R) : R := (pypow (1 - dk') (dt p) - 1) / dt p * K + I.
  Definition calc_GDP_num (TFP L K al : R) : R := TFP * pypow L (1 - al) * pypow K al.
  (** economics.py 16-25: the calibration capital stock *)
  Fixpoint TFP_capital (t : nat) (r : region) : R :=
    match t with
    | O => init_capital_factor p r * baseline_GDP p 0 r
    | S s => calc_dKdt_num (TFP_capital s r) (dk p) (sr p * baseline_GDP p s r) * dt p + TFP_capital s r
    end.
  (** economics.py 8-31 *)
  Definition TFP (t : nat) (r : region) : R :=
    baseline_GDP p t r / calc_GDP_num 1 (population p t r) (TFP_capital t r) (alpha p).

  (** 127-140 *)
  Definition c_GDP_gross (t : nat) (r : region) : rule_out :=
    if Nat.ltb 0 t
    then (EV v_GDP_gross t r
          == calc_GDP (TFP t r) (population p t r) (soft_min (EV v_capital_stock t r) 10) (alpha p))%E
    else Skip.
  (** 141-143 *)
  Definition c_GDP_gross_init (r : region) : rule_out :=
    (EV v_GDP_gross 0 r == ENum (baseline_GDP p 0 r))%E.
  (** 144-151 *)
  Definition c_GDP_net (t : nat) (r : region) : rule_out :=
    (EV v_GDP_net t r
     == EV v_GDP_gross t r * (ENum 1 - (if ignore_damages p then ENum 0 else EV v_damage_costs t r))
        - EV v_mitigation_costs t r - financial_transfer t r)%E.
  (** 152-155 *)
  Definition c_investments (t : nat) (r : region) : rule_out :=
    (EV v_investments t r == ENum (sr p) * EV v_GDP_net t r)%E.
  (** 156-159 *)
  Definition c_consumption (t : nat) (r : region) : rule_out :=
    (EV v_consumption t r == (ENum 1 - ENum (sr p)) * EV v_GDP_net t r)%E.
  (** 160-174 *)
  Definition c_capital_stock (t : nat) (r : region) : rule_out :=
    if Nat.ltb 0 t
    then prev t (fun s => EV v_capital_stock t r == EV v_capital_stock s r
            + dtE * calc_dKdt (EV v_capital_stock t r) (dk p) (EV v_investments t r))%E
    else Skip.
  (** 175-178 *)
  Definition c_capital_stock_init (r : region) : rule_out :=
    (EV v_capital_stock 0 r == ENum (init_capital_factor p r * baseline_GDP p 0 r))%E.
  Definition cobbdouglas_constraints : list constr :=
    [ RegionalC (Some "GDP_gross") c_GDP_gross;
      RegionalInitC (Some "GDP_gross_init") c_GDP_gross_init;
      RegionalC (Some "GDP_net") c_GDP_net;
      RegionalC (Some "investments") c_investments;
      RegionalC (Some "consumption") c_consumption;
      RegionalC (Some "capital_stock") c_capital_stock;
      RegionalInitC None c_capital_stock_init ].

  (** ** welfare *)
  (** welfare/utility_fct.py 8-22 *)
  Definition calc_utility (consumption population : expr) : expr :=
    ((soft_min (consumption / population) 1 ** ENum (1 - elasmu p) - ENum 1) / ENum (1 - elasmu p))%E.
  Definition popE (t : nat) (r : region) : expr := ENum (population p t r).
  Definition pop_sumE (t : nat) : expr := esum (popE t) (regions p).
  (** welfare_loss_minimising.py 61-65 *)
  Definition c_wlm_utility (t : nat) (r : region) : rule_out :=
    (EV v_utility t r == calc_utility (EV v_consumption t r) (popE t r))%E.
  (** welfare_loss_minimising.py 66-70 *)
  Definition c_wlm_welfare (t : nat) : rule_out :=
    (EG g_yearly_welfare t == esum (fun r => popE t r * EV v_utility t r) (regions p))%E.
  (** cost_minimising.py 66-70 *)
  Definition c_cm_utility (t : nat) (r : region) : rule_out :=
    (EV v_utility t r == EV v_consumption t r / popE t r)%E.
  (** cost_minimising.py 71-80 *)
  Definition c_cm_welfare (t : nat) : rule_out :=
    (EG g_yearly_welfare t
     == pop_sumE t * calc_utility (esum (fun r => EV v_consumption t r) (regions p)) (pop_sumE t))%E.
  (** inequal_aversion_general.py 41-47, 65-66 *)
  Definition c_iag_utility (t : nat) (r : region) : rule_out :=
    (EV v_utility t r
     == popE t r * soft_min (EV v_consumption t r / popE t r) 1 ** ENum (1 - inequal_aversion p))%E.
  (** inequal_aversion_general.py 48-58, 69-74 *)
  Definition c_iag_welfare (t : nat) : rule_out :=
    (EG g_yearly_welfare t
     == pop_sumE t * (soft_min (esum (fun r => EV v_utility t r) (regions p) / pop_sumE t) 1
          ** (ENum (1 - elasmu p) / ENum (1 - inequal_aversion p)) / ENum (1 - elasmu p)))%E.
  (** abstract_model.py 134-142 *)
  Definition welfare_constraints : list constr :=
    match welfare p with
    | welfare_loss_minimising =>
        [ RegionalC (Some "utility") c_wlm_utility; GlobalC (Some "yearly_welfare") c_wlm_welfare ]
    | cost_minimising =>
        [ RegionalC (Some "utility") c_cm_utility; GlobalC (Some "yearly_welfare") c_cm_welfare ]
    | inequal_aversion_general =>
        [ RegionalC (Some "utility") c_iag_utility; GlobalC (Some "yearly_welfare") c_iag_welfare ]
    end.

  (** ** objective *)
  (** objective/utility.py 43-54 *)
  Definition c_NPV_utility (t : nat) : rule_out :=
    if Nat.ltb 0 t
    then prev t (fun s => EG g_NPV t == EG g_NPV s
            + dtE * EExp (ENum (- PRTP p) * (ENum (year t) - ENum (beginyear p))) * EG g_yearly_welfare t)%E
    else Skip.
  (** objective/globalcosts.py 44-60 *)
  Definition c_NPV_costs (t : nat) : rule_out :=
    if Nat.ltb 0 t
    then prev t (fun s => EG g_NPV t == EG g_NPV s
            + dtE * EExp (ENum (- PRTP p) * (ENum (year t) - ENum (beginyear p)))
              * (esum (fun r => EV v_mitigation_costs t r) (regions p)
                 + esum (fun r => EV v_damage_costs t r * EV v_GDP_gross t r) (regions p)))%E
    else Skip.
  (** utility.py 55, globalcosts.py 61 *)
  Definition c_NPV_init : rule_out := (EG g_NPV 0 == ENum 0)%E.
  (** abstract_model.py 145-152 *)
  Definition objective_constraints : list constr :=
    [ GlobalC (Some "NPV") (match objective p with utility => c_NPV_utility | globalcosts => c_NPV_costs end);
      GlobalInitC None c_NPV_init ].

  (** ** abstract_model.py 89-152: all constraint objects, in order *)
  Definition all_constraints : list constr :=
    emissions_constraints ++ slr_constraints ++ damage_constraints ++ mitigation_constraints
    ++ trade_constraints ++ transfer_constraints ++ effort_constraints ++ cobbdouglas_constraints
    ++ welfare_constraints ++ objective_constraints.

  (** Variable bounds: emissions.py 172-178 (relative_abatement), sealevelrise.py 103-122
      (NonNegativeReals), coacch.py 232-234, mitigation.py 196-201; globalcostpool.py 40-46 replaces
      area_under_MAC by a non-negative one. *)
  Definition var_bounds (v : point) : Prop :=
    forall t, (t <= tf p)%nat ->
      0 <= gval v g_slr_thermal t /\ 0 <= gval v g_slr_cumgsic t /\
      0 <= gval v g_slr_cumgis t /\ 0 <= gval v g_total_SLR t /\
      forall r, In r (regions p) ->
        0 <= rval v v_relative_abatement t r <= 25/10 /\
        0 <= rval v v_carbonprice t r <= 2 * MAC_gamma p /\
        (dmg_module p = COACCH -> -5/10 <= rval v v_damage_costs_slr t r <= 7/10) /\
        (trade p = globalcostpool -> 0 <= rval v v_area_under_MAC t r).

  (** A point the optimiser may return: every generated constraint and bound is satisfied. *)
  Definition feasible (v : point) : Prop :=
    (forall c nc, In c all_constraints -> In nc (to_pyomo c) -> con_holds (tf p) (regions p) v (snd nc)) /\
    var_bounds v.

  (** Objective: NPV at the last step, maximised (utility.py 68) or minimised (globalcosts.py 65) *)
  Definition objective_value (v : point) : R := gval v g_NPV (tf p).
  Definition maximise : bool := match objective p with utility => true | globalcosts => false end.
  Definition better (v w : point) : Prop :=
    if maximise then objective_value w <= objective_value v else objective_value v <= objective_value w.
End Model.
