(** The equations every feasible point satisfies, over the reals. *)
From Coq Require Import Lra Lia.
From Verif Require Import ModelFacts SoftFacts ModelSpec.

Section Eqs.
  Variables (p : pars) (v : point).
  Hypothesis F : feasible p v.
  Notation G := (gval v).
  Notation V := (rval v).
  Notation regs := (regions p).

  Ltac fgo c tac := let H := fresh in
    assert (H : In c (all_constraints p)) by tac; apply (feas_c p v c F) in H; cbn [holds_c] in H; revert H.

  Ltac simp H := hnf in H; cbn [sat deno defd con_result] in H; rewrite ?deno_esum in H; cbn [deno] in H.

  Lemma q_bounds t : (t <= tf p)%nat ->
    0 <= G g_slr_thermal t /\ 0 <= G g_slr_cumgsic t /\ 0 <= G g_slr_cumgis t /\ 0 <= G g_total_SLR t.
  Proof. destruct F as [_ B]. intros Ht. destruct (B t Ht) as (a & b & c & d & _). auto. Qed.
  Lemma q_bounds_r t r : (t <= tf p)%nat -> In r regs ->
    0 <= V v_relative_abatement t r <= 25/10 /\ 0 <= V v_carbonprice t r <= 2 * MAC_gamma p /\
    (dmg_module p = COACCH -> -5/10 <= V v_damage_costs_slr t r <= 7/10) /\
    (trade p = globalcostpool -> 0 <= V v_area_under_MAC t r).
  Proof. destruct F as [_ B]. intros Ht. destruct (B t Ht) as (a & b & c & d & e). auto. Qed.

  (** emissions *)
  Lemma q_baseline t r : (t <= tf p)%nat -> In r regs ->
    V v_baseline t r = if use_carbon_intensity p then baseline_carbon_intensity p t r * V v_GDP_net t r
                       else baseline_emissions p t r.
  Proof.
    fgo (RegionalC (Some "baseline_emissions") (c_baseline_emissions p)) in_emissions.
    intros H Ht Hr. specialize (H t r Ht Hr). unfold c_baseline_emissions in H.
    destruct (use_carbon_intensity p); simp H; tauto.
  Qed.
  Lemma q_abatement t r : (0 < t <= tf p)%nat -> In r regs ->
    V v_regional_emissions t r = (1 - V v_relative_abatement t r) * V v_baseline t r.
  Proof.
    fgo (RegionalC (Some "regional_abatement") (c_regional_abatement p)) in_emissions.
    intros H [H0 Ht] Hr. specialize (H t r Ht Hr). unfold c_regional_abatement in H.
    rewrite (proj2 (Nat.ltb_lt 0 t)) in H by auto.
    pose proof (q_baseline t r Ht Hr) as E.
    destruct (use_carbon_intensity p); simp H; [|rewrite E]; tauto.
  Qed.
  Lemma q_emissions0 r : In r regs -> V v_regional_emissions 0 r = baseline_emissions p 0 r.
  Proof.
    fgo (RegionalInitC None (c_regional_emissions_init p)) in_emissions.
    intros H Hr. specialize (H r Hr). unfold c_regional_emissions_init in H. simp H. tauto.
  Qed.
  Lemma q_reduction t r : (t <= tf p)%nat -> In r regs ->
    V v_regional_emission_reduction t r = V v_baseline t r - V v_regional_emissions t r.
  Proof.
    fgo (RegionalC (Some "regional_emission_reduction") c_regional_emission_reduction) in_emissions.
    intros H Ht Hr. specialize (H t r Ht Hr). simp H. tauto.
  Qed.
  Lemma q_global t : (t <= tf p)%nat -> G g_global_emissions t = Rsum (V v_regional_emissions t) regs.
  Proof.
    destruct t as [|t].
    - fgo (GlobalInitC (Some "global_emissions_init") (c_global_emissions_init p)) in_emissions.
      intros H _. simp H. rewrite (proj2 (proj2 H)). apply Rsum_ext. intros r Hr. symmetry. apply q_emissions0; auto.
    - fgo (GlobalC (Some "global_emissions") (c_global_emissions p)) in_emissions.
      intros H Ht. specialize (H _ Ht). unfold c_global_emissions in H. cbn [Nat.ltb Nat.leb prev] in H. simp H. tauto.
  Qed.
  Lemma q_cum0 : G g_cumulative_emissions 0 = 0.
  Proof.
    fgo (GlobalInitC None c_cumulative_emissions_init) in_emissions. intros H. simp H. tauto.
  Qed.
  Lemma q_cum t : (S t <= tf p)%nat ->
    G g_cumulative_emissions (S t) = G g_cumulative_emissions t +
      if cum_trapz p then dt p * (G g_global_emissions (S t) + G g_global_emissions t) / 2
      else dt p * G g_global_emissions (S t).
  Proof.
    fgo (GlobalC (Some "cumulative_emissions") (c_cumulative_emissions p)) in_emissions.
    intros H Ht. specialize (H _ Ht). unfold c_cumulative_emissions in H. cbn [Nat.ltb Nat.leb prev] in H.
   
    destruct (cum_trapz p); simp H; tauto.
  Qed.
  Lemma q_relcum t : (0 < t <= tf p)%nat ->
    G g_emission_relative_cumulative t = G g_cumulative_emissions t / cumulative_global_baseline_emissions p t
    /\ cumulative_global_baseline_emissions p t <> 0.
  Proof.
    fgo (GlobalC (Some "relative_cumulative_emissions") (c_relative_cumulative_emissions p)) in_emissions.
    intros H [H0 Ht]. specialize (H _ Ht). unfold c_relative_cumulative_emissions in H.
    rewrite (proj2 (Nat.ltb_lt 0 t)) in H by auto. simp H. tauto.
  Qed.
  Lemma q_temp t : (t <= tf p)%nat -> G g_temperature t = T0 p + TCRE p * G g_cumulative_emissions t.
  Proof.
    fgo (GlobalC (Some "temperature") (c_temperature p)) in_emissions.
    intros H Ht. specialize (H _ Ht). simp H. tauto.
  Qed.
  Lemma q_target t T : (t <= tf p)%nat -> temperature_target p = Some T -> 2100 <= year p t ->
    G g_temperature t <= T.
  Proof.
    fgo (GlobalC (Some "temperature_target") (c_temperature_target p)) in_emissions.
    intros H Ht E Y. specialize (H _ Ht). unfold c_temperature_target in H. rewrite E in H.
    apply Rleb_true in Y. rewrite Y in H. simp H. tauto.
  Qed.
  Lemma q_budget t B : (t <= tf p)%nat -> budget p = Some B -> 2100 <= year p t ->
    G g_cumulative_emissions t <= B /\ 1 <= perc_reversible p.
  Proof.
    fgo (GlobalC (Some "carbon_budget") (c_carbon_budget p)) in_emissions.
    intros H Ht E Y. specialize (H _ Ht). unfold c_carbon_budget in H. rewrite E in H.
    apply Rleb_true in Y. rewrite Y in H.
    destruct (Rltb (perc_reversible p) 1) eqn:R; simp H; [tauto|]. apply Rltb_false in R. lra.
  Qed.
  Lemma q_cum_nonneg t : (t <= tf p)%nat -> 0 <= G g_cumulative_emissions t.
  Proof.
    fgo (GlobalC None c_cumulative_emissions_nonneg) in_emissions.
    intros H Ht. specialize (H _ Ht). simp H. lra.
  Qed.
  Lemma q_inertia_g t i : (S t <= tf p)%nat -> inertia_global p = Some i ->
    G g_global_emissions (S t) - G g_global_emissions t >= dt p * i * Rsum (baseline_emissions p 0) regs.
  Proof.
    fgo (GlobalC (Some "global_inertia") (c_global_inertia p)) in_emissions.
    intros H Ht E. specialize (H _ Ht). unfold c_global_inertia in H. rewrite E in H.
    cbn [Nat.ltb Nat.leb prev] in H. simp H. apply H.
  Qed.
  Lemma q_inertia_r t r i : (S t <= tf p)%nat -> In r regs -> inertia_regional p = Some i ->
    V v_regional_emissions (S t) r - V v_regional_emissions t r >= dt p * i * baseline_emissions p 0 r.
  Proof.
    fgo (RegionalC (Some "regional_inertia") (c_regional_inertia p)) in_emissions.
    intros H Ht Hr E. specialize (H _ _ Ht Hr). unfold c_regional_inertia in H. rewrite E in H.
    cbn [Nat.ltb Nat.leb prev] in H. simp H. apply H.
  Qed.
  Lemma q_min_g t l : (t <= tf p)%nat -> global_min_level p = Some l -> l <= G g_global_emissions t.
  Proof.
    fgo (GlobalC (Some "global_min_level") (c_global_min_level p)) in_emissions.
    intros H Ht E. specialize (H _ Ht). unfold c_global_min_level in H. rewrite E in H. simp H. lra.
  Qed.
  Lemma q_min_r t r l : (t <= tf p)%nat -> In r regs -> regional_min_level p = Some l ->
    l <= V v_regional_emissions t r.
  Proof.
    fgo (RegionalC (Some "regional_min_level") (c_regional_min_level p)) in_emissions.
    intros H Ht Hr E. specialize (H _ _ Ht Hr). unfold c_regional_min_level in H. rewrite E in H. simp H. lra.
  Qed.
  Lemma year_before_S t : year_before p (S t) = year p t.
  Proof. unfold year_before, year. rewrite S_INR. f_equal. lra. Qed.
  Lemma q_non_incr t r : (S t <= tf p)%nat -> In r regs -> non_increasing_after_2100 p = true ->
    2100 < year p t -> V v_regional_emissions (S t) r <= V v_regional_emissions t r.
  Proof.
    fgo (RegionalC (Some "non_increasing_emissions_after_2100") (c_non_increasing p)) in_emissions.
    intros H Ht Hr E Y. specialize (H _ _ Ht Hr). unfold c_non_increasing in H.
    rewrite year_before_S, E in H. apply Rltb_true in Y. rewrite Y in H. cbn [andb prev] in H. simp H. lra.
  Qed.
  Lemma q_net_zero t B : (t <= tf p)%nat -> budget p = Some B -> no_pos_after_budget_year p = true ->
    2100 <= year p t -> G g_global_emissions t <= 0.
  Proof.
    fgo (GlobalC (Some "net_zero_after_2100") (c_net_zero p)) in_emissions.
    intros H Ht E E' Y. specialize (H _ Ht). unfold c_net_zero in H. rewrite E, E' in H.
    apply Rleb_true in Y. rewrite Y in H. cbn [andb] in H. simp H. lra.
  Qed.

  (** sea-level rise *)
  Lemma q_slr_total t : (t <= tf p)%nat ->
    G g_total_SLR t = G g_slr_thermal t + G g_slr_cumgsic t + G g_slr_cumgis t.
  Proof.
    fgo (GlobalC (Some "total_SLR") c_total_SLR) in_slr.
    intros H Ht. specialize (H _ Ht). simp H. tauto.
  Qed.
  Lemma q_slr0 : G g_slr_thermal 0 = slr_thermal_expansion_init p /\ G g_slr_cumgsic 0 = 15/1000
    /\ G g_slr_cumgis 0 = 6/1000.
  Proof.
    fgo (GlobalInitC None (c_SLR_thermal_init p)) in_slr. intros H.
    fgo (GlobalInitC None c_SLR_GSIC_init) in_slr. intros H1.
    fgo (GlobalInitC None c_SLR_GIS_init) in_slr. intros H2.
    simp H. simp H1. simp H2. tauto.
  Qed.
  Lemma q_slr_step t : (S t <= tf p)%nat ->
    G g_slr_thermal (S t) = pypow (1 - slr_thermal_adjust_rate) (dt p / 10) * G g_slr_thermal t
        + slr_thermal_adjust_rate * (dt p / 10) * (G g_temperature t * slr_thermal_equil) /\
    G g_slr_cumgsic (S t) = G g_slr_cumgsic t + slr_gsic_melt_rate / slr_gsic_total_ice * dt p
        * (slr_gsic_total_ice - G g_slr_cumgsic t) * (G g_temperature t - slr_gsic_equil_temp) /\
    G g_slr_cumgis (S t) = G g_slr_cumgis t + dt p / 10 * (1 / 100)
        * (slr_gis_melt_rate_above_thresh * G g_temperature t + slr_gis_init_melt_rate)
        * (1 - G g_slr_cumgis t / slr_gis_init_ice_vol).
  Proof.
    fgo (GlobalC (Some "SLR_thermal") (c_SLR_thermal p)) in_slr. intros H.
    fgo (GlobalC (Some "SLR_GSIC") (c_SLR_GSIC p)) in_slr. intros H1.
    fgo (GlobalC (Some "SLR_GIS") (c_SLR_GIS p)) in_slr. intros H2 Ht.
    specialize (H _ Ht). specialize (H1 _ Ht). specialize (H2 _ Ht).
    unfold c_SLR_thermal, c_SLR_GSIC, c_SLR_GIS in *. cbn [Nat.ltb Nat.leb prev] in *.
    unfold slr_thermal_expansion, slr_gsic, slr_gis in *.
    simp H. simp H1. simp H2. tauto.
  Qed.

  (** mitigation *)
  Lemma q_carbonprice t r : (t <= tf p)%nat -> In r regs ->
    V v_carbonprice t r = G g_learning_factor t * MAC_scaling p r * MAC_gamma p
                          * pypow (V v_relative_abatement t r) (MAC_beta p).
  Proof.
    fgo (RegionalC (Some "carbonprice") (c_carbonprice p)) in_mitigation.
    intros H Ht Hr. specialize (H _ _ Ht Hr). unfold c_carbonprice, MAC in H. simp H. tauto.
  Qed.
  Lemma q_carbonprice0 r : In r regs -> V v_carbonprice 0 r = 0.
  Proof.
    fgo (RegionalInitC (Some "init_carbon_price") c_init_carbon_price) in_mitigation.
    intros H Hr. specialize (H _ Hr). simp H. tauto.
  Qed.
  Lemma q_area t r : (t <= tf p)%nat -> In r regs ->
    V v_area_under_MAC t r = G g_learning_factor t * MAC_scaling p r * MAC_gamma p
       * pypow (V v_relative_abatement t r) (MAC_beta p + 1) / (MAC_beta p + 1) * V v_baseline t r.
  Proof.
    fgo (RegionalC (Some "area_under_MAC") (c_area_under_MAC p)) in_mitigation.
    intros H Ht Hr. specialize (H _ _ Ht Hr). unfold c_area_under_MAC, AC in H. simp H. tauto.
  Qed.
  Lemma q_mitigation t r : (t <= tf p)%nat -> In r regs ->
    V v_mitigation_costs t r = V v_area_under_MAC t r + deno v (cost_balance p t r).
  Proof.
    fgo (RegionalC (Some "mitigation_costs") (c_mitigation_costs p)) in_mitigation.
    intros H Ht Hr. rewrite q_area; auto.
    specialize (H _ _ Ht Hr). unfold c_mitigation_costs, AC in H. simp H. tauto.
  Qed.
  Lemma q_rel_mitigation t r : (t <= tf p)%nat -> In r regs ->
    V v_rel_mitigation_costs t r = V v_mitigation_costs t r / V v_GDP_gross t r /\ V v_GDP_gross t r <> 0.
  Proof.
    fgo (RegionalC (Some "rel_mitigation_costs") c_rel_mitigation_costs) in_mitigation.
    intros H Ht Hr. specialize (H _ _ Ht Hr). simp H. tauto.
  Qed.
  Lemma q_rel_mitigation_min t r : (t <= tf p)%nat -> In r regs ->
    V v_rel_mitigation_costs t r >= (if Nat.ltb 0 t then rel_mitigation_costs_min_level p else 0).
  Proof.
    fgo (RegionalC (Some "rel_mitigation_costs_non_negative") (c_rel_mitigation_costs_non_negative p)) in_mitigation.
    intros H Ht Hr. specialize (H _ _ Ht Hr). simp H. tauto.
  Qed.
  Lemma q_global_rel_mitigation t : (t <= tf p)%nat ->
    G g_global_rel_mitigation_costs t = Rsum (V v_mitigation_costs t) regs / Rsum (V v_GDP_gross t) regs
    /\ Rsum (V v_GDP_gross t) regs <> 0.
  Proof.
    fgo (GlobalC (Some "global_rel_mitigation_costs") (c_global_rel_mitigation_costs p)) in_mitigation.
    intros H Ht. specialize (H _ Ht). simp H. tauto.
  Qed.
  Lemma q_LBD t : (t <= tf p)%nat ->
    G g_LBD_factor t = pypow (smin 1 ((cumulative_global_baseline_emissions p t - G g_cumulative_emissions t)
                                       / LBD_scaling p + 1)) (log_LBD_rate p).
  Proof.
    fgo (GlobalC (Some "LBD") (c_LBD p)) in_mitigation.
    intros H Ht. specialize (H _ Ht). destruct H as (_ & _ & H). exact H.
  Qed.
  Lemma q_LOT t : (t <= tf p)%nat -> G g_LOT_factor t = 1 / (1 + LOT_rate p) ^ t.
  Proof.
    fgo (GlobalC (Some "LOT") (c_LOT p)) in_mitigation.
    intros H Ht. specialize (H _ Ht). simp H. tauto.
  Qed.
  Lemma q_learning t : (t <= tf p)%nat -> G g_learning_factor t = G g_LBD_factor t * G g_LOT_factor t.
  Proof.
    fgo (GlobalC (Some "learning") c_learning) in_mitigation.
    intros H Ht. specialize (H _ Ht). simp H. tauto.
  Qed.

  (** economics *)
  Lemma q_GDP_gross t r : (0 < t <= tf p)%nat -> In r regs ->
    V v_GDP_gross t r = TFP p t r * pypow (population p t r) (1 - alpha p)
                        * pypow (smin 10 (V v_capital_stock t r)) (alpha p).
  Proof.
    fgo (RegionalC (Some "GDP_gross") (c_GDP_gross p)) in_cobb.
    intros H [H0 Ht] Hr. specialize (H _ _ Ht Hr). unfold c_GDP_gross in H.
    rewrite (proj2 (Nat.ltb_lt 0 t)) in H by auto. destruct H as (_ & _ & H). exact H.
  Qed.
  Lemma q_GDP_gross0 r : In r regs -> V v_GDP_gross 0 r = baseline_GDP p 0 r.
  Proof.
    fgo (RegionalInitC (Some "GDP_gross_init") (c_GDP_gross_init p)) in_cobb.
    intros H Hr. specialize (H _ Hr). simp H. tauto.
  Qed.
  Lemma q_GDP_net t r : (t <= tf p)%nat -> In r regs ->
    V v_GDP_net t r = V v_GDP_gross t r * (1 - if ignore_damages p then 0 else V v_damage_costs t r)
                      - V v_mitigation_costs t r - deno v (financial_transfer p t r).
  Proof.
    fgo (RegionalC (Some "GDP_net") (c_GDP_net p)) in_cobb.
    intros H Ht Hr. specialize (H _ _ Ht Hr). unfold c_GDP_net in H.
    destruct (ignore_damages p); simp H; tauto.
  Qed.
  Lemma q_investments t r : (t <= tf p)%nat -> In r regs -> V v_investments t r = sr p * V v_GDP_net t r.
  Proof.
    fgo (RegionalC (Some "investments") (c_investments p)) in_cobb.
    intros H Ht Hr. specialize (H _ _ Ht Hr). simp H. tauto.
  Qed.
  Lemma q_consumption t r : (t <= tf p)%nat -> In r regs ->
    V v_consumption t r = (1 - sr p) * V v_GDP_net t r.
  Proof.
    fgo (RegionalC (Some "consumption") (c_consumption p)) in_cobb.
    intros H Ht Hr. specialize (H _ _ Ht Hr). simp H. tauto.
  Qed.
  Lemma q_capital t r : (S t <= tf p)%nat -> In r regs ->
    V v_capital_stock (S t) r = V v_capital_stock t r
      + dt p * ((pypow (1 - dk p) (dt p) - 1) / dt p * V v_capital_stock (S t) r + V v_investments (S t) r)
    /\ dt p <> 0.
  Proof.
    fgo (RegionalC (Some "capital_stock") (c_capital_stock p)) in_cobb.
    intros H Ht Hr. specialize (H _ _ Ht Hr). unfold c_capital_stock in H.
    cbn [Nat.ltb Nat.leb prev] in H.
    unfold calc_dKdt in H. simp H. tauto.
  Qed.
  Lemma q_capital0 r : In r regs -> V v_capital_stock 0 r = init_capital_factor p r * baseline_GDP p 0 r.
  Proof.
    fgo (RegionalInitC None (c_capital_stock_init p)) in_cobb.
    intros H Hr. specialize (H _ Hr). simp H. tauto.
  Qed.

  (** objective *)
  Lemma q_NPV0 : G g_NPV 0 = 0.
  Proof. fgo (GlobalInitC None c_NPV_init) in_objective. intros H. simp H. tauto. Qed.
  Lemma q_NPV t : (S t <= tf p)%nat ->
    G g_NPV (S t) = G g_NPV t + dt p * exp (- PRTP p * (year p (S t) - beginyear p)) *
      match objective p with
      | utility => G g_yearly_welfare (S t)
      | globalcosts => Rsum (V v_mitigation_costs (S t)) regs
                       + Rsum (fun r => V v_damage_costs (S t) r * V v_GDP_gross (S t) r) regs
      end.
  Proof.
    fgo (GlobalC (Some "NPV") (match objective p with utility => c_NPV_utility p | globalcosts => c_NPV_costs p end)) in_objective.
    intros H Ht. specialize (H _ Ht).
    destruct (objective p); [unfold c_NPV_utility in H|unfold c_NPV_costs in H];
      cbn [Nat.ltb Nat.leb prev] in H;
      destruct H as (_ & _ & H); cbn [deno] in H; rewrite ?deno_esum in H; exact H.
  Qed.
End Eqs.
