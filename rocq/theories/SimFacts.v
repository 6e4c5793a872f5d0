(** The simulated assignment satisfies every equation. *)
From Coq Require Import Lra Lia.
From Verif Require Import ModelFacts SoftFacts ModelSpec PowFacts Equations Equations2 Build VarFacts EconLemmas BuildFacts BuildLemmas DefinedFacts
  SolveFacts ClimateSpec ClimateLemmas WelfareSpec Simulate.
Set Bullet Behavior "Strict Subproofs".

(** The relation of a constraint, without definedness; inequalities only under a condition Q. *)
Definition dsat (Q : Prop) (v : point) (o : rule_out) : Prop :=
  match o with
  | Skip | Raise _ => True
  | Con x op y => match op with REq => deno v x = deno v y | RLe => Q -> deno v x <= deno v y | RGe => Q -> deno v x >= deno v y end
  end.
Lemma sat_split (Q : Prop) v o : Q -> all_defined v o -> dsat Q v o -> sat v o.
Proof. intros q. destruct o as [|x op y|e]; cbn; [auto| |auto]. intros [A B] C. destruct op; auto. Qed.
(** All equations of the model (its equality constraints) hold. *)
Definition equations_hold (p : pars) (v : point) : Prop :=
  forall c o, In c (all_constraints p) -> In o (outs p c) ->
    match o with Con x REq y => deno v x = deno v y | _ => True end.
Section SF.
  Variable p : pars.
  Variable a : nat -> region -> R.
  Variable cum : nat -> R.
  Variable level : nat -> R.
  Notation v := (sim p a cum level).
  Hypotheses (NR : numeric_ranges p) (SD : sound_data p) (U : usable_choices p) (SL : slr_logistic_ok p).
  Hypotheses (Al : 0 <= alpha p < 1) (NT : trade p <> globalcostpool).
  Hypotheses (A0 : forall r, In r (regions p) -> a 0%nat r = 0).
  Hypothesis UN : use_carbon_intensity p = true -> forall t r, model_step p t -> In r (regions p) ->
    1 + s_unit p a cum t r * baseline_carbon_intensity p t r <> 0.
  Hypothesis C0 : cum 0%nat = 0.
  Hypothesis CS : forall t, (S t <= tf p)%nat -> cum (S t) = cum t
    + (if cum_trapz p then dt p * (s_ge p a cum (S t) + s_ge p a cum t) / 2 else dt p * s_ge p a cum (S t)).
  Notation LIMITS := (within_limits p v).

  Ltac start := repeat (apply Forall_cons; [intros o Ho; revert o Ho; apply outs_cases;
      [exact I|intros t r o Ht Hr Ho; cbn [rule_at] in Ho]|]); try apply Forall_nil.
  Ltac dprev t := destruct t as [|?s]; cbn [prev Nat.ltb Nat.leb]; [try exact I|].
  Ltac dn := cbn [dsat deno]; repeat (rewrite deno_esum || rewrite deno_soft_min); cbn [deno gval rval sim].
  Notation all_d l := (Forall (fun c => forall o, In o (outs p c) -> dsat LIMITS v o) l).

  Lemma e_emissions : all_d (emissions_constraints p).
  Proof.
    unfold emissions_constraints. start; subst.
    - unfold c_baseline_emissions. destruct (use_carbon_intensity p) eqn:X; dn; unfold s_base; rewrite X; reflexivity.
    - unfold c_regional_abatement. dprev t. destruct (use_carbon_intensity p) eqn:X; dn; unfold s_em; auto. unfold s_base. rewrite X. reflexivity.
    - unfold c_regional_emissions_init. dn. reflexivity.
    - unfold c_regional_emission_reduction. dn. reflexivity.
    - unfold c_global_emissions. dprev t. dn. reflexivity.
    - unfold c_global_emissions_init. dn. reflexivity.
    - unfold c_cumulative_emissions. dprev t. pose proof (CS s Ht) as E; destruct (cum_trapz p) eqn:X; dn; exact E.
    - unfold c_cumulative_emissions_init. dn. exact C0.
    - unfold c_relative_cumulative_emissions. dprev t. dn. reflexivity.
    - unfold c_relative_cumulative_emissions_init. dn. reflexivity.
    - unfold c_temperature. dn. reflexivity.
    - unfold c_temperature_init. dn. unfold s_temp. rewrite C0. ring.
    - unfold c_temperature_target. destruct (temperature_target p) as [T|] eqn:X; [|exact I].
      destruct (Rleb 2100 (year p t)) eqn:Y; [|exact I]. apply Rleb_true in Y. intros LIM. destruct (LIM t Ht) as (_ & L & _). exact (L T X Y).
    - unfold c_carbon_budget. destruct (budget p) as [B|] eqn:X; [|exact I].
      destruct (Rleb 2100 (year p t)) eqn:Y; [|exact I]. apply Rleb_true in Y. destruct (Rltb (perc_reversible p) 1); [exact I|].
      intros LIM. destruct (LIM t Ht) as (_ & _ & L & _). specialize (L B X Y). dn. unfold cumulative_emissions in L. cbn [gval sim] in L. lra.
    - unfold c_cumulative_emissions_nonneg. dn. intros LIM. destruct (LIM t Ht) as (L & _). apply Rle_ge. exact L.
    - unfold c_global_inertia. destruct (inertia_global p) as [i|] eqn:X; [|exact I]. dprev t. dn.
      intros LIM. destruct (LIM (S s) Ht) as (_ & _ & _ & _ & _ & L & _). apply Rle_ge. exact (L i s X eq_refl).
    - unfold c_regional_inertia. destruct (inertia_regional p) as [i|] eqn:X; [|exact I]. dprev t. dn.
      intros LIM. destruct (LIM (S s) Ht) as (_ & _ & _ & _ & _ & _ & _ & _ & _ & L). destruct (L r Hr) as (_ & _ & _ & _ & Q & _).
      apply Rle_ge. exact (Q i s X eq_refl).
    - unfold c_global_min_level. destruct (global_min_level p) as [l|] eqn:X; [|exact I]. dn.
      intros LIM. destruct (LIM t Ht) as (_ & _ & _ & _ & L & _). apply Rle_ge. exact (L l X).
    - unfold c_regional_min_level. destruct (regional_min_level p) as [l|] eqn:X; [|exact I]. dn.
      intros LIM. destruct (LIM t Ht) as (_ & _ & _ & _ & _ & _ & _ & _ & _ & L). destruct (L r Hr) as (_ & _ & _ & Q & _).
      apply Rle_ge. exact (Q l X).
    - unfold c_non_increasing. destruct (Rltb 2100 (year_before p t)) eqn:Y; cbn [andb]; [|exact I].
      destruct (non_increasing_after_2100 p) eqn:X; [|exact I]. destruct t as [|s]; [exact I|]. cbn [prev].
      rewrite (year_before_S p) in Y. apply Rltb_true in Y.
      intros LIM. destruct (LIM (S s) Ht) as (_ & _ & _ & _ & _ & _ & _ & _ & _ & L). destruct (L r Hr) as (_ & _ & _ & _ & _ & Q & _).
      specialize (Q s X eq_refl Y). unfold regional_emissions in Q. dn. cbn [rval sim] in Q. lra.
    - unfold c_net_zero. destruct (budget p) as [B|] eqn:X; [|exact I].
      destruct (Rleb 2100 (year p t)) eqn:Y; cbn [andb]; [|exact I]. destruct (no_pos_after_budget_year p) eqn:Z; [|exact I].
      apply Rleb_true in Y. intros LIM. destruct (LIM t Ht) as (_ & _ & _ & L & _). exact (L B X Z Y).
  Qed.
  Lemma e_slr : all_d (slr_constraints p).
  Proof.
    unfold slr_constraints. start; subst.
    - unfold c_SLR_thermal. dprev t. unfold slr_thermal_expansion. dn. reflexivity.
    - unfold c_SLR_thermal_init. dn. reflexivity.
    - unfold c_SLR_GSIC. dprev t. unfold slr_gsic. dn. reflexivity.
    - unfold c_SLR_GSIC_init. dn. reflexivity.
    - unfold c_SLR_GIS. dprev t. unfold slr_gis. dn. reflexivity.
    - unfold c_SLR_GIS_init. dn. reflexivity.
    - unfold c_total_SLR. dn. reflexivity.
  Qed.
  Lemma e_form d x x0 r lhs k : deno v lhs = k * (damage_curve d r (deno v x) - damage_curve d r (deno v x0)) ->
    dsat LIMITS v (con_result lhs (do e <- damage_fct d x x0 r; Ok (ENum k * e)%E)).
  Proof.
    intros H. unfold damage_fct. destruct (functional_form d x r) as [e1|] eqn:E1; cbn [bind con_result]; [|exact I].
    destruct (functional_form d x0 r) as [e2|] eqn:E2; cbn [bind con_result]; [|exact I].
    cbn [dsat deno]. rewrite (form_curve v _ _ _ _ E1), (form_curve v _ _ _ _ E2). exact H.
  Qed.
  Lemma e_damages : all_d (damage_constraints p).
  Proof.
    unfold damage_constraints. destruct (dmg_module p) eqn:D; [unfold coacch_constraints|unfold nodamage_constraints]; start; subst.
    - unfold c_damage_costs. dn. unfold s_dam. rewrite D. reflexivity.
    - apply e_form. dn. reflexivity.
    - apply e_form. dn. reflexivity.
    - unfold c_mortality. destruct (mort_oldest p r) as [[x y] z] eqn:Q. dn. unfold s_mort. rewrite Q. reflexivity.
    - unfold c_mortality. destruct (mort_older p r) as [[x y] z] eqn:Q. dn. unfold s_mort. rewrite Q. reflexivity.
    - unfold c_mortality. destruct (mort_young p r) as [[x y] z] eqn:Q. dn. unfold s_mort. rewrite Q. reflexivity.
    - unfold c_mortality_cost. dn. reflexivity.
    - unfold c_zero_damage. dn. unfold s_dam. rewrite D. reflexivity.
  Qed.
  Lemma pow0 b : 0 < b -> pypow 0 b = 0.
  Proof. intros H. rewrite pypow_apow by lra. apply apow_0. lra. Qed.
  Lemma beta_pos : 0 < MAC_beta p. Proof. apply NR. Qed.
  Lemma M0 r : In r (regions p) -> s_M p a cum 0 r = 0.
  Proof. intros Hr. unfold s_M, s_unit. rewrite A0, pow0 by (auto; pose proof beta_pos; lra). unfold Rdiv. ring. Qed.
  Lemma e_mitigation : all_d (mitigation_constraints p).
  Proof.
    unfold mitigation_constraints. start; subst.
    - unfold c_carbonprice, MAC. dn. reflexivity.
    - unfold c_init_carbon_price. dn. unfold s_price. rewrite A0, pow0 by (auto; apply beta_pos). ring.
    - unfold c_mitigation_costs, AC, cost_balance. destruct (trade p); dn; unfold s_M, s_unit; ring.
    - unfold c_area_under_MAC, AC. dn. reflexivity.
    - unfold c_rel_mitigation_costs. dn. reflexivity.
    - unfold c_rel_mitigation_costs_non_negative. dn. intros LIM. apply Rle_ge. destruct t as [|t]; cbn [Nat.ltb Nat.leb].
      + rewrite M0 by auto. unfold Rdiv. lra.
      + destruct (LIM (S t) Ht) as (_ & _ & _ & _ & _ & _ & _ & _ & _ & L). destruct (L r Hr) as (_ & _ & _ & _ & _ & _ & Q & _).
        apply Q. lia.
    - unfold c_global_rel_mitigation_costs. dn. reflexivity.
    - unfold c_emission_reduction_per_cost_unit. dprev t. dn. reflexivity.
    - unfold c_cost_per_emission_reduction_unit. dprev t. dn. reflexivity.
    - unfold c_LBD. dn. reflexivity.
    - unfold c_LOT. dn. reflexivity.
    - unfold c_learning. dn. reflexivity.
  Qed.
  Lemma e_trade : all_d (trade_constraints p).
  Proof.
    unfold trade_constraints. destruct (trade p) eqn:T; [constructor|contradiction|]. unfold emissiontrade_constraints. start; subst.
    - unfold c_global_carbonprice. dn. reflexivity.
    - unfold c_sum_cost_balance. dn. apply Rsum_const0.
    - unfold c_import_export_emission. dprev t. dn. unfold Rdiv. ring.
    - unfold c_paid_for. dprev t. dn. ring.
    - unfold c_allowances. dprev t. dn. reflexivity.
  Qed.
  Lemma e_transfer : all_d (transfer_constraints p).
  Proof.
    unfold transfer_constraints. destruct (transfer p) eqn:T; [constructor|]. start; subst.
    - unfold c_zero_sum_transfer. dprev t. dn. apply Rsum_const0.
    - unfold c_no_transfer_first. dn. reflexivity.
    - unfold c_transfer_max. dn.
      intros LIM. destruct (LIM t Ht) as (_ & _ & _ & _ & _ & _ & _ & _ & _ & L). destruct (L r Hr) as (_ & _ & _ & _ & _ & _ & _ & Q & _).
      specialize (Q T). unfold damage_costs, GDP_gross in Q. cbn [rval sim] in Q. lra.
    - unfold c_transfer_rel. dn. ring.
  Qed.
  Lemma e_effort : all_d (effort_constraints p).
  Proof.
    unfold effort_constraints, equal_mitigation_constraint, equal_total_constraint, percapconv_constraint. start.
    all: destruct Ho as [Hi [b ->]].
    - apply negb_false_iff in Hi. destruct (effort_regime p) eqn:E; try discriminate.
      unfold soft_con, rhs_eps. destruct b; cbn [dsat deno gval rval sim]; intros LIM;
        destruct (LIM t Ht) as (_ & _ & _ & _ & _ & _ & _ & _ & _ & L); destruct (L r Hr) as (_ & _ & _ & _ & _ & _ & _ & _ & Q & _);
        specialize (Q E); unfold effort_level, rel_mitigation_costs in Q; cbn [gval rval sim] in Q; lra.
    - apply orb_false_iff in Hi as [Hi Hy]. apply negb_false_iff in Hi. destruct (effort_regime p) eqn:E; try discriminate.
      apply Rltb_false in Hy.
      unfold soft_con, rhs_eps, rel_financial_transfer. destruct (transfer p) eqn:T, b; cbn [dsat deno gval rval sim]; intros LIM;
        destruct (LIM t Ht) as (_ & _ & _ & _ & _ & _ & _ & _ & _ & L); destruct (L r Hr) as (_ & _ & _ & _ & _ & _ & _ & _ & _ & Q & _);
        specialize (Q E Hy); unfold effort_level, rel_mitigation_costs, damage_costs, rel_transfer_paid in Q; rewrite T in Q; cbn [gval rval sim] in Q; lra.
    - apply orb_false_iff in Hi as [Hi Hy]. apply negb_false_iff in Hi. destruct (effort_regime p) eqn:E; try discriminate.
      apply Nat.eqb_neq in Hy.
      destruct (trade p) eqn:T; [exact I|exact I|].
      unfold soft_con, rhs_eps. destruct b; cbn [dsat deno gval rval sim]; intros LIM;
        destruct (LIM t Ht) as (_ & _ & _ & _ & _ & _ & _ & _ & _ & L); destruct (L r Hr) as (_ & _ & _ & _ & _ & _ & _ & _ & _ & _ & Q);
        specialize (Q E ltac:(lia)); unfold allowances, global_emissions in Q; cbn [gval rval sim] in Q; lra.
  Qed.
  Lemma keep_net t r : model_step p t -> In r (regions p) ->
    s_Yn p a cum t r = s_Y p a cum t r * s_keep p cum t r - s_M p a cum t r.
  Proof.
    intros Ht Hr. unfold s_M, s_base, s_Yn. destruct (use_carbon_intensity p) eqn:X; [|reflexivity].
    field. apply UN; auto.
  Qed.
  Lemma cap_eq t r : (S t <= tf p)%nat -> In r (regions p) ->
    (2 - survival p) * s_K p a cum (S t) r = s_K p a cum t r + dt p * (sr p * s_Yn p a cum (S t) r).
  Proof.
    intros Ht Hr. destruct NR as (Hdt & Hk & _). destruct (surv_range p Hdt Hk) as [_ SR].
    unfold s_Yn, s_Y. cbn [s_K]. destruct (use_carbon_intensity p) eqn:X.
    - set (k := solve _ _ _ _). unfold k at 1. rewrite solve_eq by lra. fold k.
      rewrite (pypow_pos (smin 10 k)) by (apply smin_pos; lra). ring.
    - set (k := solve _ _ _ _). unfold k at 1. rewrite solve_eq by lra. fold k.
      rewrite (pypow_pos (smin 10 k)) by (apply smin_pos; lra). ring.
  Qed.
  Lemma e_cobb : all_d (cobbdouglas_constraints p).
  Proof.
    unfold cobbdouglas_constraints. start; subst.
    - unfold c_GDP_gross, calc_GDP. dprev t. cbn [dsat deno]. rewrite deno_soft_min. cbn [deno rval sim]. unfold s_Y, s_prod. reflexivity.
    - unfold c_GDP_gross_init. dn. reflexivity.
    - unfold c_GDP_net, financial_transfer. destruct (transfer p), (ignore_damages p) eqn:G; dn; rewrite keep_net by auto; unfold s_keep; rewrite G; ring.
    - unfold c_investments. dn. reflexivity.
    - unfold c_consumption. dn. reflexivity.
    - unfold c_capital_stock. dprev t. unfold calc_dKdt. dn.
      destruct NR as (Hdt & Hk & _). destruct (surv_range p Hdt Hk) as [-> _]. pose proof (cap_eq s r Ht Hr) as E.
      set (K' := s_K p a cum (S s) r) in *. set (I := sr p * s_Yn p a cum (S s) r) in *.
      replace (dt p * ((survival p - 1) / dt p * K' + I)) with ((survival p - 1) * K' + dt p * I) by (field; lra). lra.
    - unfold c_capital_stock_init. dn. reflexivity.
  Qed.
  Lemma e_welfare : all_d (welfare_constraints p).
  Proof.
    unfold welfare_constraints. destruct (welfare p) eqn:W; start; subst.
    - unfold c_wlm_utility, calc_utility, popE. cbn [dsat deno]. rewrite deno_soft_min. cbn [deno rval sim]. unfold s_util. rewrite W. reflexivity.
    - unfold c_wlm_welfare, popE. dn. unfold s_welf. rewrite W. reflexivity.
    - unfold c_cm_utility, popE. dn. unfold s_util. rewrite W. reflexivity.
    - unfold c_cm_welfare, calc_utility, pop_sumE, popE. cbn [dsat deno]. rewrite deno_soft_min. cbn [deno]. rewrite !deno_esum. cbn [deno gval rval sim].
      unfold s_welf. rewrite W. reflexivity.
    - unfold c_iag_utility, popE. cbn [dsat deno]. rewrite deno_soft_min. cbn [deno rval sim]. unfold s_util. rewrite W. reflexivity.
    - unfold c_iag_welfare, pop_sumE, popE. cbn [dsat deno]. rewrite deno_soft_min. cbn [deno]. rewrite !deno_esum. cbn [deno gval rval sim].
      unfold s_welf. rewrite W. reflexivity.
  Qed.
  Lemma e_objective : all_d (objective_constraints p).
  Proof.
    unfold objective_constraints. start; subst.
    - destruct (objective p) eqn:O; [unfold c_NPV_utility|unfold c_NPV_costs]; dprev t; dn; cbn [s_npv]; rewrite O; reflexivity.
    - unfold c_NPV_init. dn. reflexivity.
  Qed.
  Lemma sim_gross t r : model_step p t -> In r (regions p) -> 0 < s_Y p a cum t r.
  Proof.
    intros Ht Hr. destruct NR as (Hdt & Hk & Hs & _). destruct SD as (_ & PD & _). destruct (PD r Hr) as [_ D]. destruct (D t Ht) as [P G].
    destruct t as [|t]; [exact G|]. unfold s_Y, s_prod. apply Rmult_lt_0_compat; [apply Rmult_lt_0_compat|].
    - apply TFP_pos; auto.
    - apply pypow_pos_pos; auto.
    - apply pypow_pos_pos. apply smin_pos. lra.
  Qed.
  Lemma sim_all c o : In c (all_constraints p) -> In o (outs p c) -> dsat LIMITS v o.
  Proof.
    revert c o. apply (Forall_outs (dsat LIMITS v) p). unfold all_constraints. rewrite !Forall_app.
    repeat split; [apply e_emissions|apply e_slr|apply e_damages|apply e_mitigation|apply e_trade
      |apply e_transfer|apply e_effort|apply e_cobb|apply e_welfare|apply e_objective].
  Qed.
  Lemma sim_equations : equations_hold p v.
  Proof. intros c o Hc Ho. pose proof (sim_all c o Hc Ho) as H. destruct o as [|x [| |] y|e]; auto. Qed.
  Hypothesis LIM : LIMITS.
  Lemma sim_sensible : sensible_point p v.
  Proof.
    intros t Ht. destruct (LIM t Ht) as (_ & _ & _ & _ & _ & _ & L1 & L2 & L3 & L). split.
    - unfold thermal_SLR, glacier_SLR, icesheet_SLR in *. cbn [gval sim] in *. unfold s_slr. lra.
    - intros r Hr. destruct (L r Hr) as (Q & _). split; [apply Q|]. apply sim_gross; auto.
  Qed.
  Lemma sim_feasible : feasible p v.
  Proof.
    split.
    - intros c nc Hc Hnc o Ho. assert (Ho' : In o (outs p c)) by (unfold outs; apply in_flat_map; eauto).
      apply (sat_split LIMITS); [exact LIM|apply (d_all p v NR SD U SL sim_sensible c o Hc Ho')|apply (sim_all c o Hc Ho')].
    - intros t Ht. destruct (LIM t Ht) as (_ & _ & _ & _ & _ & _ & L1 & L2 & L3 & L).
      unfold thermal_SLR, glacier_SLR, icesheet_SLR in *. cbn [gval sim] in *.
      repeat split; auto. { unfold s_slr; lra. }
      all: destruct (L r H) as (Q1 & Q2 & Q3 & _); unfold relative_abatement, carbonprice in *; cbn [rval sim] in *; try lra.
      all: try (specialize (Q3 H0); unfold sealevel_damages in Q3; cbn [rval sim] in Q3; lra).
      contradiction.
  Qed.
End SF.
