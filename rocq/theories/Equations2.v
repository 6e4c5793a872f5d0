(** Equations of the selectable modules. *)
From Coq Require Import Lra Lia.
From Verif Require Import ModelFacts SoftFacts ModelSpec Equations.

Section Eqs2.
  Variables (p : pars) (v : point).
  Hypothesis F : feasible p v.
  Notation G := (gval v).
  Notation V := (rval v).
  Notation regs := (regions p).

  Ltac fgo c tac := let H := fresh in
    assert (H : In c (all_constraints p)) by tac; apply (feas_c p v c F) in H; cbn [holds_c] in H; revert H.
  Ltac simp H := hnf in H; cbn [sat deno defd con_result] in H; rewrite ?deno_esum in H; cbn [deno] in H.
  Ltac ltb0 H := rewrite (proj2 (Nat.ltb_lt 0 _)) in H by assumption.

  (** emission trade *)
  Section ET.
    Hypothesis T : trade p = emissiontrade.
    Ltac in_et := in_trade; unfold trade_constraints; rewrite T; unfold emissiontrade_constraints; in_list.
    Lemma q_et_price t : (t <= tf p)%nat ->
      G g_global_carbonprice t = Rsum (fun r => V v_carbonprice t r * population p t r) regs
                                 / Rsum (population p t) regs.
    Proof.
      fgo (GlobalC (Some "global_carbonprice") (c_global_carbonprice p)) in_et.
      intros H Ht. specialize (H _ Ht). simp H. tauto.
    Qed.
    Lemma q_et_balance t : (t <= tf p)%nat ->
      Rsum (V v_import_export_mitigation_cost_balance t) regs = 0.
    Proof.
      fgo (GlobalC (Some "sum_mitigation_equals_sum_area_under_mac") (c_sum_cost_balance p)) in_et.
      intros H Ht. specialize (H _ Ht). simp H. tauto.
    Qed.
    Lemma q_et_emission t r : (0 < t <= tf p)%nat -> In r regs ->
      V v_import_export_emission_reduction_balance t r
      = V v_import_export_mitigation_cost_balance t r / smin 1 (G g_global_carbonprice t).
    Proof.
      fgo (RegionalC (Some "import_export_emission_reduction_balance") c_import_export_emission) in_et.
      intros H [H0 Ht] Hr. specialize (H _ _ Ht Hr). unfold c_import_export_emission in H. ltb0 H.
      destruct H as (_ & _ & H). exact H.
    Qed.
    Lemma q_et_paid t r : (0 < t <= tf p)%nat -> In r regs ->
      V v_paid_for_emission_reductions t r
      = V v_regional_emission_reduction t r + V v_import_export_emission_reduction_balance t r.
    Proof.
      fgo (RegionalC (Some "paid_for_emission_reductions") c_paid_for) in_et.
      intros H [H0 Ht] Hr. specialize (H _ _ Ht Hr). unfold c_paid_for in H. ltb0 H. simp H. tauto.
    Qed.
    Lemma q_et_allow t r : (0 < t <= tf p)%nat -> In r regs ->
      V v_regional_emission_allowances t r = V v_baseline t r - V v_paid_for_emission_reductions t r.
    Proof.
      fgo (RegionalC None c_allowances) in_et.
      intros H [H0 Ht] Hr. specialize (H _ _ Ht Hr). unfold c_allowances in H. ltb0 H. simp H. tauto.
    Qed.
  End ET.

  (** transfers *)
  Section TR.
    Hypothesis T : transfer p = globaldamagepool.
    Ltac in_tr := in_transfer; unfold transfer_constraints; rewrite T; in_list.
    Lemma q_tr_zero t : (0 < t <= tf p)%nat -> Rsum (V v_financial_transfer t) regs = 0.
    Proof.
      fgo (GlobalC (Some "zero_sum_of_yearly_financial_transfer") (c_zero_sum_transfer p)) in_tr.
      intros H [H0 Ht]. specialize (H _ Ht). unfold c_zero_sum_transfer in H. ltb0 H. simp H. tauto.
    Qed.
    Lemma q_tr_first r : In r regs -> V v_financial_transfer 0 r = 0.
    Proof.
      fgo (RegionalInitC (Some "no_transfer_in_first_year") c_no_transfer_first) in_tr.
      intros H Hr. specialize (H _ Hr). simp H. tauto.
    Qed.
    Lemma q_tr_max t r : (t <= tf p)%nat -> In r regs ->
      V v_financial_transfer t r >= - V v_damage_costs t r * V v_GDP_gross t r.
    Proof.
      fgo (RegionalC (Some "received_financial_transfer_max_own_damages") c_transfer_max) in_tr.
      intros H Ht Hr. specialize (H _ _ Ht Hr). simp H. tauto.
    Qed.
    Lemma q_tr_rel t r : (t <= tf p)%nat -> In r regs ->
      V v_rel_financial_transfer t r * V v_GDP_gross t r = V v_financial_transfer t r.
    Proof.
      fgo (RegionalC (Some "financial_transfer_rel_to_gdp") c_transfer_rel) in_tr.
      intros H Ht Hr. specialize (H _ _ Ht Hr). simp H. tauto.
    Qed.
  End TR.

  (** effort sharing *)
  Lemma q_eff_mitigation t r : effort_regime p = equal_mitigation_costs -> (t <= tf p)%nat -> In r regs ->
    V v_rel_mitigation_costs t r <= (1 + 1 * (5/1000)) * G g_effort_sharing_common_level t /\
    V v_rel_mitigation_costs t r >= (1 + -1 * (5/1000)) * G g_effort_sharing_common_level t.
  Proof.
    intros E. fgo (equal_mitigation_constraint p) in_effort.
    intros H Ht Hr. specialize (H _ _ Ht Hr). rewrite E in H. specialize (H eq_refl).
    destruct H as [H1 H2]. simp H1. simp H2. tauto.
  Qed.
  Lemma q_eff_total t r : effort_regime p = equal_total_costs -> (t <= tf p)%nat -> In r regs ->
    year p t <= 2100 ->
    let x := V v_rel_mitigation_costs t r + V v_damage_costs t r + deno v (rel_financial_transfer p t r) in
    x <= (1 + 1 * (5/1000)) * G g_effort_sharing_common_level t /\
    x >= (1 + -1 * (5/1000)) * G g_effort_sharing_common_level t.
  Proof.
    intros E. fgo (equal_total_constraint p) in_effort.
    intros H Ht Hr Y. specialize (H _ _ Ht Hr). rewrite E in H.
    apply Rltb_false in Y. rewrite Y in H. specialize (H eq_refl).
    destruct H as [H1 H2]. simp H1. simp H2. tauto.
  Qed.
  Lemma q_eff_percap t r : effort_regime p = per_cap_convergence -> (0 < t <= tf p)%nat -> In r regs ->
    trade p = emissiontrade /\
    percapconv_share p t r * G g_global_emissions t <= V v_regional_emission_allowances t r + 1 * (1/1000) /\
    percapconv_share p t r * G g_global_emissions t >= V v_regional_emission_allowances t r + -1 * (1/1000).
  Proof.
    intros E. fgo (percapconv_constraint p) in_effort.
    intros H [H0 Ht] Hr. specialize (H _ _ Ht Hr). rewrite E in H.
    rewrite (proj2 (Nat.eqb_neq t 0)) in H by lia. specialize (H eq_refl).
    destruct H as [H1 H2]. destruct (trade p); [destruct H1|destruct H1|].
    simp H1. simp H2. tauto.
  Qed.

  (** damages *)
  Section DM.
    Hypothesis D : dmg_module p = COACCH.
    Ltac in_dm := in_damage; unfold damage_constraints; rewrite D; unfold coacch_constraints; in_list.
    Lemma q_dm_total t r : (t <= tf p)%nat -> In r regs ->
      V v_damage_costs t r = V v_damage_costs_non_slr t r + V v_damage_costs_slr t r.
    Proof.
      fgo (RegionalC (Some "damage_costs") c_damage_costs) in_dm.
      intros H Ht Hr. specialize (H _ _ Ht Hr). simp H. tauto.
    Qed.
    Lemma q_dm_noslr t r : (t <= tf p)%nat -> In r regs ->
      exists e1 e2, functional_form (dmg_noslr p) (EG g_temperature t - ENum (6/10))%E r = Ok e1 /\
        functional_form (dmg_noslr p) (ENum (T0 p - 6/10)) r = Ok e2 /\
        V v_damage_costs_non_slr t r = damage_scale_factor p * (deno v e1 - deno v e2).
    Proof.
      fgo (RegionalC (Some "damage_costs_non_slr") (c_damage_costs_non_slr p)) in_dm.
      intros H Ht Hr. specialize (H _ _ Ht Hr). unfold c_damage_costs_non_slr, damage_fct in H.
      destruct (functional_form (dmg_noslr p) (EG g_temperature t - ENum (6/10))%E r) as [e1|]; cbn [bind] in H; [|destruct H].
      destruct (functional_form (dmg_noslr p) (ENum (T0 p - 6/10)) r) as [e2|]; cbn [bind] in H; [|destruct H].
      simp H. exists e1, e2. tauto.
    Qed.
    Lemma q_dm_slr t r : (t <= tf p)%nat -> In r regs ->
      exists e1 e2, functional_form (dmg_slr p) (EG g_total_SLR t) r = Ok e1 /\
        functional_form (dmg_slr p) (EG g_total_SLR 0) r = Ok e2 /\
        V v_damage_costs_slr t r = damage_scale_factor p * (deno v e1 - deno v e2).
    Proof.
      fgo (RegionalC (Some "damage_costs_slr") (c_damage_costs_slr p)) in_dm.
      intros H Ht Hr. specialize (H _ _ Ht Hr). unfold c_damage_costs_slr, damage_fct in H.
      destruct (functional_form (dmg_slr p) (EG g_total_SLR t) r) as [e1|]; cbn [bind] in H; [|destruct H].
      destruct (functional_form (dmg_slr p) (EG g_total_SLR 0) r) as [e2|]; cbn [bind] in H; [|destruct H].
      simp H. exists e1, e2. tauto.
    Qed.
    Lemma q_mortality t r : (t <= tf p)%nat -> In r regs ->
      (let '(a, b, c) := mort_oldest p r in V v_mortality_oldest t r = a + b * G g_temperature t + c * G g_temperature t ^ 2) /\
      (let '(a, b, c) := mort_older p r in V v_mortality_older t r = a + b * G g_temperature t + c * G g_temperature t ^ 2) /\
      (let '(a, b, c) := mort_young p r in V v_mortality_young t r = a + b * G g_temperature t + c * G g_temperature t ^ 2) /\
      V v_mortality_cost_oldest t r = V v_mortality_oldest t r * population p t r * 10000 * (13/10).
    Proof.
      fgo (RegionalC None (c_mortality v_mortality_oldest (mort_oldest p))) in_dm. intros H1.
      fgo (RegionalC None (c_mortality v_mortality_older (mort_older p))) in_dm. intros H2.
      fgo (RegionalC None (c_mortality v_mortality_young (mort_young p))) in_dm. intros H3.
      fgo (RegionalC None (c_mortality_cost p)) in_dm. intros H4 Ht Hr.
      specialize (H1 _ _ Ht Hr). specialize (H2 _ _ Ht Hr). specialize (H3 _ _ Ht Hr). specialize (H4 _ _ Ht Hr).
      unfold c_mortality in *.
      destruct (mort_oldest p r) as [[? ?] ?], (mort_older p r) as [[? ?] ?], (mort_young p r) as [[? ?] ?].
      simp H1. simp H2. simp H3. simp H4. tauto.
    Qed.
  End DM.
  Lemma q_nodamage t r : dmg_module p = nodamage -> (t <= tf p)%nat -> In r regs -> V v_damage_costs t r = 0.
  Proof.
    intros D.
    fgo (RegionalC (Some "zero_damage_costs") c_zero_damage)
      ltac:(in_damage; unfold damage_constraints; rewrite D; unfold nodamage_constraints; in_list).
    intros H Ht Hr. specialize (H _ _ Ht Hr). simp H. tauto.
  Qed.

  (** welfare *)
  Lemma q_wlm t : welfare p = welfare_loss_minimising -> (t <= tf p)%nat ->
    (forall r, In r regs -> V v_utility t r
       = (pypow (smin 1 (V v_consumption t r / population p t r)) (1 - elasmu p) - 1) / (1 - elasmu p)
       /\ 1 - elasmu p <> 0 /\ population p t r <> 0) /\
    G g_yearly_welfare t = Rsum (fun r => population p t r * V v_utility t r) regs.
  Proof.
    intros W.
    fgo (RegionalC (Some "utility") (c_wlm_utility p))
      ltac:(in_welfare; unfold welfare_constraints; rewrite W; in_list). intros H1.
    fgo (GlobalC (Some "yearly_welfare") (c_wlm_welfare p))
      ltac:(in_welfare; unfold welfare_constraints; rewrite W; in_list). intros H2 Ht.
    specialize (H2 _ Ht). split.
    - intros r Hr. specialize (H1 _ _ Ht Hr). destruct H1 as (_ & Dd & E). split; [exact E|].
      unfold calc_utility, soft_min, soft_switch in Dd. cbn in Dd. tauto.
    - destruct H2 as (_ & _ & E). unfold c_wlm_welfare in E. cbn [deno] in E. rewrite deno_esum in E. exact E.
  Qed.
  Lemma q_cm t : welfare p = cost_minimising -> (t <= tf p)%nat ->
    (forall r, In r regs -> V v_utility t r = V v_consumption t r / population p t r) /\
    G g_yearly_welfare t
    = Rsum (population p t) regs
      * ((pypow (smin 1 (Rsum (V v_consumption t) regs / Rsum (population p t) regs)) (1 - elasmu p) - 1)
         / (1 - elasmu p)) /\ 1 - elasmu p <> 0 /\ Rsum (population p t) regs <> 0.
  Proof.
    intros W.
    fgo (RegionalC (Some "utility") (c_cm_utility p))
      ltac:(in_welfare; unfold welfare_constraints; rewrite W; in_list). intros H1.
    fgo (GlobalC (Some "yearly_welfare") (c_cm_welfare p))
      ltac:(in_welfare; unfold welfare_constraints; rewrite W; in_list). intros H2 Ht.
    specialize (H2 _ Ht). split.
    - intros r Hr. specialize (H1 _ _ Ht Hr). simp H1. tauto.
    - destruct H2 as (_ & Dd & E). unfold c_cm_welfare, calc_utility, pop_sumE, popE in E, Dd.
      cbn [deno] in E. rewrite deno_soft_min in E. cbn [deno] in E. rewrite !deno_esum in E. cbn [deno] in E.
      split; [exact E|]. cbn [defd] in Dd. unfold soft_min, soft_switch in Dd. cbn [defd deno] in Dd.
      rewrite !deno_esum in Dd. cbn [deno] in Dd. tauto.
  Qed.
  Lemma q_iag t : welfare p = inequal_aversion_general -> (t <= tf p)%nat ->
    (forall r, In r regs -> V v_utility t r
       = population p t r * pypow (smin 1 (V v_consumption t r / population p t r)) (1 - inequal_aversion p)) /\
    G g_yearly_welfare t
    = Rsum (population p t) regs
      * (pypow (smin 1 (Rsum (V v_utility t) regs / Rsum (population p t) regs))
           ((1 - elasmu p) / (1 - inequal_aversion p)) / (1 - elasmu p))
    /\ 1 - elasmu p <> 0 /\ 1 - inequal_aversion p <> 0 /\ Rsum (population p t) regs <> 0.
  Proof.
    intros W.
    fgo (RegionalC (Some "utility") (c_iag_utility p))
      ltac:(in_welfare; unfold welfare_constraints; rewrite W; in_list). intros H1.
    fgo (GlobalC (Some "yearly_welfare") (c_iag_welfare p))
      ltac:(in_welfare; unfold welfare_constraints; rewrite W; in_list). intros H2 Ht.
    specialize (H2 _ Ht). split.
    - intros r Hr. specialize (H1 _ _ Ht Hr). destruct H1 as (_ & _ & E). exact E.
    - destruct H2 as (_ & Dd & E). unfold c_iag_welfare, pop_sumE, popE in E, Dd.
      cbn [deno] in E. rewrite deno_soft_min in E. cbn [deno] in E. rewrite !deno_esum in E. cbn [deno] in E.
      split; [exact E|]. cbn [defd] in Dd. unfold soft_min, soft_switch in Dd. cbn [defd deno] in Dd.
      rewrite !deno_esum in Dd. cbn [deno] in Dd. tauto.
  Qed.
End Eqs2.
