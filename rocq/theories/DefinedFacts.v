(** C31: no undefined operation at any point within the bounds. *)
From Coq Require Import Lra Lia.
From Verif Require Import ModelFacts SoftFacts ModelSpec PowFacts Build VarFacts EconLemmas BuildFacts BuildLemmas.
Set Bullet Behavior "Strict Subproofs".

(** All operations of a constraint are defined at [v] and the rule does not raise. *)
Definition all_defined (v : point) (o : rule_out) : Prop :=
  match o with Skip => True | Con a _ b => defd v a /\ defd v b | Raise _ => False end.
(** Logistic sea-level damages away from their pole (true of the shipped COACCH coefficients). *)
Definition slr_logistic_ok (p : pars) : Prop :=
  dmg_module p = COACCH -> forall r, In r (regions p) -> str_contains "Logistic" (d_form (dmg_slr p) r) = true ->
    0 <= d_b2 (dmg_slr p) r \/ (d_b2 (dmg_slr p) r <= -11/10 /\ d_b3 (dmg_slr p) r <= 0).
(** The part of the variable bounds needed, and a positive gross GDP. *)
Definition sensible_point (p : pars) (v : point) : Prop :=
  forall t, model_step p t -> 0 <= gval v g_total_SLR t /\
    forall r, In r (regions p) -> 0 <= relative_abatement v t r /\ 0 < GDP_gross v t r.

Lemma pow_defd_pos x y : 0 < x -> pow_defd x y. Proof. left; auto. Qed.
Lemma pow_defd_nn x y : 0 <= x -> 0 <= y -> pow_defd x y.
Proof. intros [H| <-] Hy; [left; auto|right; left; auto]. Qed.

Ltac fgo2 :=
  repeat match goal with
  | |- all_defined _ (Con _ _ _) => split
  | |- all_defined _ Skip => exact I
  | |- _ /\ _ => split
  | |- True => exact I
  | |- defd _ (esum _ _) => apply defd_esum; intros ? ?
  | |- defd _ (soft_min _ _) => apply defd_soft_min; [lra|]
  | |- defd _ (soft_max _ _ _) => apply defd_soft_max; [lra|]
  | |- defd _ (EAdd _ _) => split | |- defd _ (ESub _ _) => split | |- defd _ (EMul _ _) => split
  | |- defd _ (EDiv _ _) => split; [|split]
  | |- defd _ (EPow _ _) => split; [|split]
  | |- defd _ (ENum _) => exact I | |- defd _ (EG _ _) => exact I | |- defd _ (EV _ _ _) => exact I
  | |- defd _ (ENeg ?a) => change (defd _ (ENeg a)) with (defd _ a)
  | |- defd ?v (ENeg ?a) => change (defd v a)
  | |- defd ?v (EPowN ?a _) => change (defd v a)
  | |- defd ?v (EExp ?a) => change (defd v a)
  | |- defd ?v (EAtan ?a) => change (defd v a)
  | |- deno _ (ENum _) <> 0 => cbn [deno]; try lra
  end.


(** the logistic denominators *)
Lemma logistic_den_pos b2 y : 0 <= b2 -> 0 < 1 + b2 * exp y.
Proof. intros H. pose proof (exp_pos y). assert (0 <= b2 * exp y) by (apply Rmult_le_pos; lra). lra. Qed.
Lemma logistic_den_neg b2 z : b2 <= -11/10 -> 0 <= z -> 1 + b2 * exp (smax (1/10) z 10) < 0.
Proof.
  intros Hb Hz. assert (S := smax_gap (1/10) ltac:(lra) z 10).
  assert (P : 3 < PI) by (pose proof PI2_3_2; pose proof PI_RGT_0; unfold PI2 in *; lra).
  assert (E : 1 + smax (1/10) z 10 <= exp (smax (1/10) z 10)).
  { destruct (Req_dec (smax (1/10) z 10) 0) as [->|N]; [rewrite exp_0; lra|]. left. apply exp_ineq1; auto. }
  assert (M : 0 <= Rmin z 10) by (apply Rmin_glb; lra).
  assert (G : 1 / (25 / (1 / 10) * PI) <= 1/750).
  { unfold Rdiv. rewrite !Rmult_1_l. apply Rinv_le_contravar; lra. }
  assert (999/1000 - 1/1000 <= exp (smax (1/10) z 10)) by lra.
  assert (b2 * exp (smax (1/10) z 10) <= -11/10 * exp (smax (1/10) z 10)) by (apply Rmult_le_compat_r; lra). lra.
Qed.

Section Def.
  Variable p : pars.
  Variable v : point.
  Hypothesis NR : numeric_ranges p.
  Hypothesis SD : sound_data p.
  Hypothesis U : usable_choices p.
  Hypothesis SL : slr_logistic_ok p.
  Hypothesis SP : sensible_point p v.

  Ltac start := repeat (apply Forall_cons; [intros o Ho; revert o Ho; apply outs_cases;
      [exact I|intros t r o Ht Hr Ho; cbn [rule_at] in Ho]|]); try apply Forall_nil.
  Ltac dprev t := destruct t as [|?s]; cbn [prev]; [discriminate|].
  Notation all_def l := (Forall (fun c => forall o, In o (outs p c) -> all_defined v o) l).

  Lemma d_emissions : all_def (emissions_constraints p).
  Proof.
    pose proof U as (U1 & U2 & U3 & U4 & _). pose proof NR as (Hdt & _). pose proof SD as (Hne & PD & HE & HC & _ & _).
    unfold emissions_constraints. start; subst.
    - unfold c_baseline_emissions. destruct (use_carbon_intensity p); fgo2.
    - unfold c_regional_abatement. destruct (Nat.ltb 0 t), (use_carbon_intensity p); fgo2.
    - unfold c_regional_emissions_init; fgo2.
    - unfold c_regional_emission_reduction; fgo2.
    - unfold c_global_emissions. destruct (Nat.ltb 0 t); fgo2.
    - unfold c_global_emissions_init; fgo2.
    - unfold c_cumulative_emissions. destruct (Nat.ltb 0 t) eqn:L; [|exact I]. dprev t. destruct (cum_trapz p); fgo2.
    - unfold c_cumulative_emissions_init; fgo2.
    - unfold c_relative_cumulative_emissions. destruct (Nat.ltb 0 t) eqn:L; fgo2.
      apply Nat.ltb_lt in L. assert (0 < cumulative_global_baseline_emissions p t) by (apply HC; lia). lra.
    - unfold c_relative_cumulative_emissions_init; fgo2.
    - unfold c_temperature; fgo2.
    - unfold c_temperature_init; fgo2.
    - unfold c_temperature_target. destruct (temperature_target p), (Rleb 2100 (year p t)); fgo2.
    - unfold c_carbon_budget. destruct (budget p); [|fgo2]. destruct (Rleb 2100 (year p t)) eqn:Y; [|fgo2].
      destruct (Rltb (perc_reversible p) 1) eqn:Q; [|fgo2]. exfalso.
      apply Rleb_true in Y. apply Rltb_true in Q.
      assert (1 <= perc_reversible p); [|lra]. apply U3; [discriminate|].
      apply Rle_trans with (1 := Y). unfold year. apply le_INR in Ht.
      apply Rplus_le_compat_l. apply Rmult_le_compat_r; lra.
    - unfold c_cumulative_emissions_nonneg; fgo2.
    - unfold c_global_inertia. destruct (inertia_global p), (Nat.ltb 0 t) eqn:L; try exact I. dprev t. fgo2.
    - unfold c_regional_inertia. destruct (inertia_regional p), (Nat.ltb 0 t) eqn:L; try exact I. dprev t. fgo2.
    - unfold c_global_min_level. destruct (global_min_level p); fgo2.
    - unfold c_regional_min_level. destruct (regional_min_level p); fgo2.
    - unfold c_non_increasing. destruct (Rltb 2100 (year_before p t)) eqn:Y; [|exact I].
      destruct (non_increasing_after_2100 p) eqn:N; cbn [andb]; [|fgo2].
      destruct t as [|s]; cbn [prev]; [|fgo2]. exfalso. apply Rltb_true in Y. specialize (U4 eq_refl).
      unfold year_before in Y. cbn in Y. lra.
    - unfold c_net_zero. destruct (budget p), (Rleb 2100 (year p t) && no_pos_after_budget_year p); fgo2.
  Qed.
  Lemma d_slr : all_def (slr_constraints p).
  Proof.
    unfold slr_constraints. start; subst.
    - unfold c_SLR_thermal. destruct (Nat.ltb 0 t) eqn:L; [|exact I]. dprev t. unfold slr_thermal_expansion. fgo2.
      apply pow_defd_pos. cbn [deno]. unfold slr_thermal_adjust_rate. lra.
    - unfold c_SLR_thermal_init; fgo2.
    - unfold c_SLR_GSIC. destruct (Nat.ltb 0 t) eqn:L; [|exact I]. dprev t. unfold slr_gsic, slr_gsic_total_ice. fgo2.
    - unfold c_SLR_GSIC_init; fgo2.
    - unfold c_SLR_GIS. destruct (Nat.ltb 0 t) eqn:L; [|exact I]. dprev t. unfold slr_gis, slr_gis_init_ice_vol. fgo2.
    - unfold c_SLR_GIS_init; fgo2.
    - unfold c_total_SLR; fgo2.
  Qed.
  Lemma d_form' d x r : known_form (d_form d r) -> defd v x ->
    (str_contains "Logistic" (d_form d r) = true ->
       0 <= d_b2 d r \/ (d_b2 d r <= -11/10 /\ d_b3 d r <= 0 /\ 0 <= deno v x)) ->
    exists e, functional_form d x r = Ok e /\ defd v e.
  Proof.
    intros K Hx Hl. unfold functional_form.
    destruct (str_contains "Linear" (d_form d r)) eqn:A; [eexists; split; [reflexivity|fgo2; auto]|].
    destruct (str_contains "Quadratic" (d_form d r)) eqn:B; [eexists; split; [reflexivity|fgo2; auto]|].
    destruct (str_contains "Logistic" (d_form d r)) eqn:C.
    2:{ unfold known_form in K. rewrite A, B, C in K. destruct K as [K|[K|K]]; discriminate. }
    specialize (Hl eq_refl).
    eexists; split; [reflexivity|]. unfold logistic. fgo2; auto.
    - cbn [deno]. rewrite deno_soft_max. cbn [deno]. destruct Hl as [Hl|(H1 & H2 & H3)].
      + pose proof (logistic_den_pos (d_b2 d r) (smax (1/10) (- d_b3 d r * deno v x) 10) Hl). lra.
      + assert (0 <= - d_b3 d r * deno v x) by (apply Rmult_le_pos; lra).
        pose proof (logistic_den_neg (d_b2 d r) _ H1 H). lra.
    - cbn [deno]. destruct Hl as [Hl|(H1 & H2 & H3)]; lra.
  Qed.
  Lemma d_damage_con d x x0 r lhs k : known_form (d_form d r) -> defd v x -> defd v x0 -> defd v lhs ->
    (str_contains "Logistic" (d_form d r) = true ->
       0 <= d_b2 d r \/ (d_b2 d r <= -11/10 /\ d_b3 d r <= 0 /\ 0 <= deno v x /\ 0 <= deno v x0)) ->
    all_defined v (con_result lhs (do e <- damage_fct d x x0 r; Ok (ENum k * e)%E)).
  Proof.
    intros K Hx Hx0 Hl L. unfold damage_fct.
    destruct (d_form' d x r K Hx) as [a [-> A]]; [tauto|]. destruct (d_form' d x0 r K Hx0) as [b [-> B]]; [tauto|].
    cbn [bind con_result]. fgo2; auto.
  Qed.
  Lemma d_damages : all_def (damage_constraints p).
  Proof.
    pose proof U as (_ & _ & _ & _ & _ & _ & _ & U8). pose proof SD as (_ & _ & _ & _ & LN & LS). pose proof SL as SL'. unfold slr_logistic_ok in SL'.
    unfold damage_constraints. destruct (dmg_module p) eqn:D.
    - specialize (U8 eq_refl). specialize (LN eq_refl). specialize (SL' eq_refl). unfold coacch_constraints. start; subst.
      + unfold c_damage_costs. fgo2.
      + apply d_damage_con; [apply U8; auto|fgo2|fgo2|fgo2|]. intros L. left. apply LN; auto.
      + apply d_damage_con; [apply U8; auto|fgo2|fgo2|fgo2|]. intros L. destruct (SL' r Hr L) as [?|[? ?]]; auto.
        right. repeat split; auto; cbn [deno]; apply SP; unfold model_step; lia.
      + unfold c_mortality. destruct (mort_oldest p r) as [[a b] c]. fgo2.
      + unfold c_mortality. destruct (mort_older p r) as [[a b] c]. fgo2.
      + unfold c_mortality. destruct (mort_young p r) as [[a b] c]. fgo2.
      + unfold c_mortality_cost. fgo2.
    - unfold nodamage_constraints. start; subst. unfold c_zero_damage. fgo2.
  Qed.
  Lemma d_mitigation : all_def (mitigation_constraints p).
  Proof.
    pose proof U as (_ & _ & _ & _ & UL & _). pose proof SD as (Hne & _). pose proof NR as (_ & _ & _ & Hb & Hl).
    assert (AB : forall t r, (t <= tf p)%nat -> In r (regions p) -> 0 <= rval v v_relative_abatement t r)
      by (intros t r Ht Hr; apply (SP t Ht); auto).
    assert (GP : forall t r, (t <= tf p)%nat -> In r (regions p) -> 0 < rval v v_GDP_gross t r)
      by (intros t r Ht Hr; apply (SP t Ht); auto).
    unfold mitigation_constraints. start; subst.
    - unfold c_carbonprice, MAC; fgo2. apply pow_defd_nn; cbn [deno]; [apply AB; auto|lra].
    - unfold c_init_carbon_price; fgo2.
    - unfold c_mitigation_costs, AC, cost_balance; fgo2; [apply pow_defd_nn; cbn [deno]; [apply AB; auto|lra]|].
      destruct (trade p); fgo2.
    - unfold c_area_under_MAC, AC; fgo2. apply pow_defd_nn; cbn [deno]; [apply AB; auto|lra].
    - unfold c_rel_mitigation_costs; fgo2. cbn [deno]. specialize (GP t r Ht Hr). lra.
    - unfold c_rel_mitigation_costs_non_negative; fgo2.
    - unfold c_global_rel_mitigation_costs; fgo2. rewrite deno_esum. cbn [deno].
      assert (0 < Rsum (fun r0 => rval v v_GDP_gross t r0) (regions p)) by (apply Rsum_pos; auto). lra.
    - unfold c_emission_reduction_per_cost_unit. destruct (Nat.ltb 0 t); fgo2.
      rewrite deno_soft_min. apply Rgt_not_eq, smin_pos; lra.
    - unfold c_cost_per_emission_reduction_unit. destruct (Nat.ltb 0 t); fgo2.
      rewrite deno_soft_min. apply Rgt_not_eq, smin_pos; lra.
    - unfold c_LBD; fgo2; auto. apply pow_defd_pos. rewrite deno_soft_min. apply smin_pos; lra.
    - unfold c_LOT; fgo2. cbn [deno]. apply pow_nonzero. lra.
    - unfold c_learning; fgo2.
  Qed.
  Lemma d_trade : all_def (trade_constraints p).
  Proof.
    pose proof U as (U1 & _). unfold trade_constraints. destruct (trade p) eqn:T; [constructor|congruence|].
    unfold emissiontrade_constraints. start; subst.
    - unfold c_global_carbonprice; fgo2. rewrite deno_esum. cbn [deno].
      pose proof (pop_pos p SD t Ht). change (fun r0 => population p t r0) with (population p t). lra.
    - unfold c_sum_cost_balance; fgo2.
    - unfold c_import_export_emission. destruct (Nat.ltb 0 t); fgo2. rewrite deno_soft_min. apply Rgt_not_eq, smin_pos; lra.
    - unfold c_paid_for. destruct (Nat.ltb 0 t); fgo2.
    - unfold c_allowances. destruct (Nat.ltb 0 t); fgo2.
  Qed.
  Lemma d_transfer : all_def (transfer_constraints p).
  Proof.
    unfold transfer_constraints. destruct (transfer p) eqn:T; [constructor|]. start; subst.
    - unfold c_zero_sum_transfer. destruct (Nat.ltb 0 t); fgo2.
    - unfold c_no_transfer_first; fgo2.
    - unfold c_transfer_max; fgo2.
    - unfold c_transfer_rel; fgo2.
  Qed.
  Lemma d_effort : all_def (effort_constraints p).
  Proof.
    pose proof U as (_ & U2 & _).
    unfold effort_constraints, equal_mitigation_constraint, equal_total_constraint, percapconv_constraint.
    start; destruct Ho as [Hi [b ->]]; cbn [soft_con].
    - unfold rhs_eps. fgo2.
    - unfold rhs_eps, rel_financial_transfer. destruct (transfer p) eqn:T; fgo2.
    - apply orb_false_iff in Hi as [H1 H2]. apply Nat.eqb_neq in H2. apply negb_false_iff in H1.
      rewrite U2; [unfold rhs_eps; fgo2| |lia]. destruct (effort_regime p); try discriminate; auto.
  Qed.
  Lemma d_cobb : all_def (cobbdouglas_constraints p).
  Proof.
    pose proof NR as (Hdt & Hdk & _). pose proof SD as (_ & PD & _). unfold cobbdouglas_constraints. start; subst.
    - unfold c_GDP_gross, calc_GDP. destruct (Nat.ltb 0 t); fgo2.
      + apply pow_defd_pos. cbn [deno]. apply (PD r Hr). exact Ht.
      + apply pow_defd_pos. rewrite deno_soft_min. apply smin_pos; lra.
    - unfold c_GDP_gross_init; fgo2.
    - unfold c_GDP_net, financial_transfer. destruct (ignore_damages p), (transfer p); fgo2.
    - unfold c_investments; fgo2.
    - unfold c_consumption; fgo2.
    - unfold c_capital_stock, calc_dKdt. destruct (Nat.ltb 0 t) eqn:L; [|exact I]. dprev t. fgo2.
      apply pow_defd_pos. cbn [deno]. lra.
    - unfold c_capital_stock_init; fgo2.
  Qed.
  Lemma d_welfare : all_def (welfare_constraints p).
  Proof.
    pose proof U as (_ & _ & _ & _ & _ & U6 & U7 & _). pose proof SD as (Hne & PD & _).
    assert (PP : forall t r, (t <= tf p)%nat -> In r (regions p) -> population p t r <> 0).
    { intros t r Ht Hr. assert (0 < population p t r) by (apply (PD r Hr); exact Ht). lra. }
    assert (PS : forall t, (t <= tf p)%nat -> deno v (pop_sumE p t) <> 0).
    { intros t Ht. unfold pop_sumE. rewrite deno_esum. cbn [popE deno].
      pose proof (pop_pos p SD t Ht). change (fun r => population p t r) with (population p t). lra. }
    assert (DS : forall t, defd v (pop_sumE p t)) by (intros t; unfold pop_sumE, popE; fgo2).
    unfold welfare_constraints. destruct (welfare p) eqn:W; start; subst.
    - unfold c_wlm_utility, calc_utility, popE. fgo2; auto. apply pow_defd_pos. rewrite deno_soft_min. apply smin_pos; lra.
    - unfold c_wlm_welfare, popE. fgo2.
    - unfold c_cm_utility, popE. fgo2; auto.
    - unfold c_cm_welfare, calc_utility. fgo2; auto. apply pow_defd_pos. rewrite deno_soft_min. apply smin_pos; lra.
    - unfold c_iag_utility, popE. fgo2; auto. apply pow_defd_pos. rewrite deno_soft_min. apply smin_pos; lra.
    - specialize (U7 eq_refl). unfold c_iag_welfare. fgo2; auto. apply pow_defd_pos. rewrite deno_soft_min. apply smin_pos; lra.
  Qed.
  Lemma d_objective : all_def (objective_constraints p).
  Proof.
    unfold objective_constraints. start; subst.
    - destruct (objective p); [unfold c_NPV_utility|unfold c_NPV_costs];
      (destruct (Nat.ltb 0 t) eqn:L; [|exact I]); dprev t; fgo2.
    - unfold c_NPV_init; fgo2.
  Qed.
  Lemma d_all c o : In c (all_constraints p) -> In o (outs p c) -> all_defined v o.
  Proof.
    revert c o. apply (Forall_outs (all_defined v) p). unfold all_constraints. rewrite !Forall_app.
    repeat split; [apply d_emissions|apply d_slr|apply d_damages|apply d_mitigation|apply d_trade
      |apply d_transfer|apply d_effort|apply d_cobb|apply d_welfare|apply d_objective].
  Qed.
End Def.

(** Whatever values the solver tries (within the bounds, gross GDP positive), no equation divides by zero
    or takes a power of a non-positive number. *)
Lemma C31_all_operations_defined_pf : forall p v c nc o, numeric_ranges p -> sound_data p -> usable_choices p ->
  slr_logistic_ok p -> sensible_point p v ->
  In c (all_constraints p) -> In nc (to_pyomo c) -> In o (outputs (tf p) (regions p) (snd nc)) -> all_defined v o.
Proof.
  intros p v c nc o NR SD U SL SP Hc Hnc Ho. apply (d_all p v NR SD U SL SP c o Hc).
  unfold outs. apply in_flat_map. eauto.
Qed.
