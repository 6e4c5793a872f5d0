(** Forward simulation: a complete assignment of all variables for a given abatement path and cumulative
    emission path.  Used to show that the model has solutions (C52). *)
From Coq Require Import Lra Lia.
From Verif Require Import ModelFacts SoftFacts ModelSpec PowFacts Build VarFacts EconLemmas BuildFacts BuildLemmas DefinedFacts
  SolveFacts ClimateSpec WelfareSpec.
Set Bullet Behavior "Strict Subproofs".

Section Sim.
  Variable p : pars.
  Variable a : nat -> region -> R.
  Variable cum : nat -> R.
  Variable level : nat -> R. (* the common level of an effort-sharing regime *)
  Notation regs := (regions p).
  Notation be := (baseline_emissions p).
  Definition s_temp (t : nat) : R := T0 p + TCRE p * cum t.
  Fixpoint s_th (t : nat) : R :=
    match t with
    | O => slr_thermal_expansion_init p
    | S s => pypow (1 - slr_thermal_adjust_rate) (dt p / 10) * s_th s
             + slr_thermal_adjust_rate * (dt p / 10) * (s_temp s * slr_thermal_equil)
    end.
  Fixpoint s_gs (t : nat) : R :=
    match t with
    | O => 15/1000
    | S s => s_gs s + slr_gsic_melt_rate / slr_gsic_total_ice * dt p * (slr_gsic_total_ice - s_gs s)
             * (s_temp s - slr_gsic_equil_temp)
    end.
  Fixpoint s_gi (t : nat) : R :=
    match t with
    | O => 6/1000
    | S s => s_gi s + dt p / 10 * (1/100) * (slr_gis_melt_rate_above_thresh * s_temp s + slr_gis_init_melt_rate)
             * (1 - s_gi s / slr_gis_init_ice_vol)
    end.
  Definition s_slr (t : nat) : R := s_th t + s_gs t + s_gi t.
  Definition s_dn (t : nat) (r : region) : R :=
    damage_scale_factor p * (damage_curve (dmg_noslr p) r (s_temp t - 6/10) - damage_curve (dmg_noslr p) r (T0 p - 6/10)).
  Definition s_ds (t : nat) (r : region) : R :=
    damage_scale_factor p * (damage_curve (dmg_slr p) r (s_slr t) - damage_curve (dmg_slr p) r (s_slr 0)).
  Definition s_dam (t : nat) (r : region) : R :=
    match dmg_module p with COACCH => s_dn t r + s_ds t r | nodamage => 0 end.
  Definition s_lbd (t : nat) : R :=
    pypow (smin 1 ((cumulative_global_baseline_emissions p t - cum t) / LBD_scaling p + 1)) (log_LBD_rate p).
  Definition s_lot (t : nat) : R := 1 / (1 + LOT_rate p) ^ t.
  Definition s_learn (t : nat) : R := s_lbd t * s_lot t.
  Definition s_price (t : nat) (r : region) : R :=
    s_learn t * MAC_scaling p r * MAC_gamma p * pypow (a t r) (MAC_beta p).
  Definition s_unit (t : nat) (r : region) : R :=
    s_learn t * MAC_scaling p r * MAC_gamma p * pypow (a t r) (MAC_beta p + 1) / (MAC_beta p + 1).
  Definition s_keep (t : nat) (r : region) : R := 1 - (if ignore_damages p then 0 else s_dam t r).
  Definition s_prod (t : nat) (r : region) : R := TFP p t r * pypow (population p t r) (1 - alpha p).
  Fixpoint s_K (t : nat) (r : region) : R :=
    match t with
    | O => init_capital_factor p r * baseline_GDP p 0 r
    | S s =>
        if use_carbon_intensity p
        then solve (2 - survival p) (s_K s r)
               (dt p * sr p * (s_keep (S s) r / (1 + s_unit (S s) r * baseline_carbon_intensity p (S s) r)) * s_prod (S s) r) (alpha p)
        else solve (2 - survival p) (s_K s r - dt p * sr p * (s_unit (S s) r * be (S s) r))
               (dt p * sr p * s_keep (S s) r * s_prod (S s) r) (alpha p)
    end.
  Definition s_Y (t : nat) (r : region) : R :=
    match t with O => baseline_GDP p 0 r | S _ => s_prod t r * pypow (smin 10 (s_K t r)) (alpha p) end.
  Definition s_Yn (t : nat) (r : region) : R :=
    if use_carbon_intensity p
    then s_Y t r * (s_keep t r / (1 + s_unit t r * baseline_carbon_intensity p t r))
    else s_Y t r * s_keep t r - s_unit t r * be t r.
  Definition s_base (t : nat) (r : region) : R :=
    if use_carbon_intensity p then baseline_carbon_intensity p t r * s_Yn t r else be t r.
  Definition s_em (t : nat) (r : region) : R :=
    match t with O => be 0 r | S _ => (1 - a t r) * s_base t r end.
  Definition s_ge (t : nat) : R := Rsum (s_em t) regs.
  Definition s_M (t : nat) (r : region) : R := s_unit t r * s_base t r.
  Definition s_C (t : nat) (r : region) : R := (1 - sr p) * s_Yn t r.
  Definition s_util (t : nat) (r : region) : R :=
    match welfare p with
    | welfare_loss_minimising => (pypow (smin 1 (s_C t r / population p t r)) (1 - elasmu p) - 1) / (1 - elasmu p)
    | cost_minimising => s_C t r / population p t r
    | inequal_aversion_general =>
        population p t r * pypow (smin 1 (s_C t r / population p t r)) (1 - inequal_aversion p)
    end.
  Definition s_welf (t : nat) : R :=
    match welfare p with
    | welfare_loss_minimising => Rsum (fun r => population p t r * s_util t r) regs
    | cost_minimising =>
        Rsum (population p t) regs
        * ((pypow (smin 1 (Rsum (s_C t) regs / Rsum (population p t) regs)) (1 - elasmu p) - 1) / (1 - elasmu p))
    | inequal_aversion_general =>
        Rsum (population p t) regs
        * (pypow (smin 1 (Rsum (s_util t) regs / Rsum (population p t) regs))
             ((1 - elasmu p) / (1 - inequal_aversion p)) / (1 - elasmu p))
    end.
  Fixpoint s_npv (t : nat) : R :=
    match t with
    | O => 0
    | S s => s_npv s + dt p * exp (- PRTP p * (year p (S s) - beginyear p)) *
        match objective p with
        | utility => s_welf (S s)
        | globalcosts => Rsum (s_M (S s)) regs + Rsum (fun r => s_dam (S s) r * s_Y (S s) r) regs
        end
    end.
  Definition s_mort (q : region -> R * R * R) (t : nat) (r : region) : R :=
    let '(x, y, z) := q r in x + y * s_temp t + z * s_temp t ^ 2.
  Definition s_red (t : nat) (r : region) : R := s_base t r - s_em t r.

  Definition sim : point := {|
    gval g t := match g with
      | g_cumulative_emissions => cum t
      | g_global_emissions => s_ge t
      | g_emission_relative_cumulative =>
          match t with O => 1 | S _ => cum t / cumulative_global_baseline_emissions p t end
      | g_temperature => s_temp t
      | g_slr_thermal => s_th t | g_slr_cumgsic => s_gs t | g_slr_cumgis => s_gi t | g_total_SLR => s_slr t
      | g_global_rel_mitigation_costs => Rsum (s_M t) regs / Rsum (s_Y t) regs
      | g_global_emission_reduction_per_cost_unit => Rsum (s_red t) regs / smin 1 (Rsum (s_M t) regs)
      | g_global_cost_per_emission_reduction_unit => Rsum (s_M t) regs / smin 1 (Rsum (s_red t) regs)
      | g_LBD_factor => s_lbd t | g_LOT_factor => s_lot t | g_learning_factor => s_learn t
      | g_global_carbonprice => Rsum (fun r => s_price t r * population p t r) regs / Rsum (population p t) regs
      | g_effort_sharing_common_level => level t
      | g_yearly_welfare => s_welf t | g_NPV => s_npv t
      end;
    rval x t r := match x with
      | v_regional_emissions => s_em t r | v_baseline => s_base t r | v_relative_abatement => a t r
      | v_regional_emission_reduction => s_red t r
      | v_damage_costs => s_dam t r | v_damage_costs_non_slr => s_dn t r | v_damage_costs_slr => s_ds t r
      | v_mortality_oldest => s_mort (mort_oldest p) t r | v_mortality_older => s_mort (mort_older p) t r
      | v_mortality_young => s_mort (mort_young p) t r
      | v_mortality_cost_oldest => s_mort (mort_oldest p) t r * population p t r * 10000 * (13/10)
      | v_carbonprice => s_price t r | v_mitigation_costs => s_M t r | v_area_under_MAC => s_M t r
      | v_rel_mitigation_costs => s_M t r / s_Y t r
      | v_import_export_emission_reduction_balance => 0 | v_import_export_mitigation_cost_balance => 0
      | v_paid_for_emission_reductions => s_red t r
      | v_regional_emission_allowances => s_base t r - s_red t r
      | v_financial_transfer => 0 | v_rel_financial_transfer => 0
      | v_capital_stock => s_K t r | v_GDP_gross => s_Y t r | v_GDP_net => s_Yn t r
      | v_investments => sr p * s_Yn t r | v_consumption => s_C t r | v_utility => s_util t r
      end |}.
End Sim.

(** The common relative cost level of an effort-sharing regime. *)
Definition effort_level (v : point) := gval v g_effort_sharing_common_level.

(** The inequalities of the model: policy limits and variable bounds. *)
Definition within_limits (p : pars) (v : point) : Prop := forall t, model_step p t ->
  0 <= cumulative_emissions v t /\
  (forall T, temperature_target p = Some T -> 2100 <= year p t -> temperature v t <= T) /\
  (forall B, budget p = Some B -> 2100 <= year p t -> cumulative_emissions v t <= B) /\
  (forall B, budget p = Some B -> no_pos_after_budget_year p = true -> 2100 <= year p t -> global_emissions v t <= 0) /\
  (forall l, global_min_level p = Some l -> l <= global_emissions v t) /\
  (forall i s, inertia_global p = Some i -> t = S s ->
     dt p * i * total p (baseline_emissions p 0) <= global_emissions v t - global_emissions v s) /\
  0 <= thermal_SLR v t /\ 0 <= glacier_SLR v t /\ 0 <= icesheet_SLR v t /\
  forall r, In r (regions p) ->
    0 <= relative_abatement v t r <= 5/2 /\ 0 <= carbonprice v t r <= 2 * MAC_gamma p /\
    (dmg_module p = COACCH -> -5/10 <= sealevel_damages v t r <= 7/10) /\
    (forall l, regional_min_level p = Some l -> l <= regional_emissions v t r) /\
    (forall i s, inertia_regional p = Some i -> t = S s ->
       dt p * i * baseline_emissions p 0 r <= regional_emissions v t r - regional_emissions v s r) /\
    (forall s, non_increasing_after_2100 p = true -> t = S s -> 2100 < year p s ->
       regional_emissions v t r <= regional_emissions v s r) /\
    ((0 < t)%nat -> rel_mitigation_costs_min_level p <= rel_mitigation_costs v t r) /\
    (transfer p = globaldamagepool -> 0 <= damage_costs v t r * GDP_gross v t r) /\
    (effort_regime p = equal_mitigation_costs ->
       (1 - 5/1000) * effort_level v t <= rel_mitigation_costs v t r <= (1 + 5/1000) * effort_level v t) /\
    (effort_regime p = equal_total_costs -> year p t <= 2100 ->
       (1 - 5/1000) * effort_level v t <= rel_mitigation_costs v t r + damage_costs v t r + rel_transfer_paid p v t r
                                      <= (1 + 5/1000) * effort_level v t) /\
    (effort_regime p = per_cap_convergence -> (0 < t)%nat ->
       allowances v t r - 1/1000 <= percapconv_share p t r * global_emissions v t <= allowances v t r + 1/1000).
