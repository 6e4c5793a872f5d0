(** C17 (constraint names) and C18 (which configurations build a model). *)
From Coq Require Import Lra Lia.
From Verif Require Import ModelFacts SoftFacts ModelSpec PowFacts Build VarFacts EconLemmas BuildFacts.
Set Bullet Behavior "Strict Subproofs".

Lemma C17_no_constraint_replaced_pf : forall extra n p comps,
  create_abstract_model extra n p = Ok comps ->
  NoDup (map fst comps) /\
  Forall2 (fun added wanted => snd added = snd wanted /\
             match fst wanted with Some s => fst added = ("constraint_" ++ s)%string | None => True end)
          comps (flat_map to_pyomo (all_constraints p)).
Proof.
  intros extra n p comps H. apply add_all_sound in H as (A & _ & C). auto.
Qed.
Lemma C17_names_never_clash_pf : forall extra n p, trade p <> globalcostpool ->
  exists comps, create_abstract_model extra n p = Ok comps.
Proof.
  intros extra n p T. destruct (names_ok p T) as [A B]. apply add_all_complete; auto.
  intros s [].
Qed.
Lemma C17_globalcostpool_clashes_refuted_pf : forall extra n p, trade p = globalcostpool ->
  create_abstract_model extra n p = Err RuntimeError.
Proof.
  intros extra n p T. unfold create_abstract_model, pyomo_components, all_constraints.
  replace (trade_constraints p) with (globalcostpool_constraints p) by (unfold trade_constraints; rewrite T; reflexivity).
  set (pre := (emissions_constraints p ++ slr_constraints p ++ damage_constraints p ++ mitigation_constraints p)%list).
  assert (E : exists c rest, flat_map to_pyomo (emissions_constraints p ++ slr_constraints p ++ damage_constraints p
     ++ mitigation_constraints p ++ globalcostpool_constraints p ++ transfer_constraints p ++ effort_constraints p
     ++ cobbdouglas_constraints p ++ welfare_constraints p ++ objective_constraints p)%list
     = (flat_map to_pyomo pre ++ (Some "mitigation_costs", c) :: rest)%list).
  { eexists. eexists. unfold pre. rewrite !flat_map_app, <- !app_assoc.
    apply app_cong; [reflexivity|]. apply app_cong; [reflexivity|]. apply app_cong; [reflexivity|]. apply app_cong; [reflexivity|].
    cbn [globalcostpool_constraints flat_map to_pyomo app]. reflexivity. }
  destruct E as [c [rest ->]].
  assert (L : exists l, named (flat_map to_pyomo pre) = l /\ nodupb l = true /\ forallb alphab l = true
     /\ existsb (String.eqb "mitigation_costs") l = true).
  { rewrite named_cnames. unfold pre. rewrite !flat_map_app. unfold damage_constraints.
    destruct (dmg_module p); cbn [flat_map app emissions_constraints slr_constraints coacch_constraints
      nodamage_constraints mitigation_constraints cnames onames];
      (eexists; split; [reflexivity|]; split; [vm_compute; reflexivity|split; vm_compute; reflexivity]). }
  destruct L as (l & L & A & B & C). apply nodupb_ok in A. apply alphab_ok in B.
  apply existsb_exists in C as [x [C X]]. apply String.eqb_eq in X. subst x.
  apply add_all_dup; [left; rewrite L; exact C|].
  apply add_all_complete; rewrite ?L; auto. intros s [].
Qed.

(** ** C18 *)
Definition known_form (s : string) : Prop :=
  str_contains "Linear" s = true \/ str_contains "Quadratic" s = true \/ str_contains "Logistic" s = true.

(** Ranges guaranteed by the configuration's min/max (C03), except dk < 1 (no maximum in the template). *)
Definition numeric_ranges (p : pars) : Prop :=
  0 < dt p /\ 0 <= dk p < 1 /\ 0 <= sr p /\ 0 < MAC_beta p /\ 0 <= LOT_rate p.
(** Input data: at least one region, positive population, GDP, capital factors and baseline emissions;
    logistic damage coefficients away from the pole. *)
Definition sound_data (p : pars) : Prop :=
  regions p <> [] /\ positive_data p /\
  (forall r, In r (regions p) -> 0 < baseline_emissions p 0 r) /\
  (forall t, (0 < t <= tf p)%nat -> 0 < cumulative_global_baseline_emissions p t) /\
  (dmg_module p = COACCH -> forall r, In r (regions p) -> str_contains "Logistic" (d_form (dmg_noslr p) r) = true -> 0 <= d_b2 (dmg_noslr p) r) /\
  (dmg_module p = COACCH -> forall r, In r (regions p) -> str_contains "Logistic" (d_form (dmg_slr p) r) = true -> d_b2 (dmg_slr p) r <> -1).

(** The choices a user must get right, although the configuration check accepts the others as well. *)
Definition usable_choices (p : pars) : Prop :=
  trade p <> globalcostpool /\
  (effort_regime p = per_cap_convergence -> (0 < tf p)%nat -> trade p = emissiontrade) /\
  (budget p <> None -> 2100 <= year p (tf p) -> 1 <= perc_reversible p) /\
  (non_increasing_after_2100 p = true -> beginyear p - dt p <= 2100) /\
  LBD_scaling p <> 0 /\ elasmu p <> 1 /\
  (welfare p = inequal_aversion_general -> inequal_aversion p <> 1) /\
  (dmg_module p = COACCH -> forall r, In r (regions p) ->
     known_form (d_form (dmg_noslr p) r) /\ known_form (d_form (dmg_slr p) r)).

Lemma dvok_num x : x <> 0 -> dvok (ENum x).
Proof. intros; apply dvok_nz; auto. Qed.
Lemma dvok_mono x : dvok (ENum x) -> x <> 0.
Proof. unfold dvok. cbn. intros H. apply negb_true_iff in H. apply Reqb_false in H. auto. Qed.

Ltac dgo :=
  repeat match goal with
  | |- _ /\ _ => split
  | |- cok (Con _ _ _) => apply cok_con
  | |- cok Skip => exact cok_skip
  | |- dok (ENum _) => exact (dok_num _)
  | |- dok (EG _ _) => exact (dok_EG _ _)
  | |- dok (EV _ _ _) => exact (dok_EV _ _ _)
  | |- dok (EAdd _ _) => apply dok_add
  | |- dok (ESub _ _) => apply dok_sub
  | |- dok (EMul _ _) => apply dok_mul
  | |- dok (EPow _ _) => apply dok_pow
  | |- dok (EDiv _ _) => apply dok_div
  | |- dok (ENeg _) => apply dok_neg
  | |- dok (EPowN _ _) => apply dok_pown
  | |- dok (EExp _) => apply dok_exp
  | |- dok (EAtan _) => apply dok_atan
  | |- dok (esum _ _) => apply dok_esum; intros ? ?
  | |- dok (soft_min _ _) => apply dok_soft_min; [lra|]
  | |- dok (soft_max _ _ _) => apply dok_soft_max; [lra|]
  | |- dvok (ENum _) => apply dvok_num; try lra
  end.

Section C18.
  Variable p : pars.
  Hypothesis NR : numeric_ranges p.
  Hypothesis SD : sound_data p.

  Lemma params_ok : check_params_div p = Ok tt.
  Proof.
    destruct NR as (Hdt & Hdk & Hsr & Hb & Hl). destruct SD as (Hne & PD & HE & HC & _ & _).
    unfold check_params_div. replace (forallb _ (param_divisors p)) with true; auto. symmetry.
    apply forallb_forall. intros x Hx. apply negb_true_iff. apply Reqb_false.
    enough (0 < x) by lra. unfold param_divisors in Hx. rewrite !in_app_iff in Hx.
    destruct Hx as [Hx|[Hx|[Hx|Hx]]].
    - apply in_flat_map in Hx as [t [Ht Hx]]. apply in_map_iff in Hx as [r [<- Hr]]. apply in_seq in Ht.
      apply (PD r Hr). unfold model_step. lia.
    - destruct Hx as [<-|[]]. apply Rsum_pos; auto.
    - apply in_map_iff in Hx as [t [<- Ht]]. apply in_seq in Ht. apply Rsum_pos; auto.
      intros r Hr. apply (PD r Hr). unfold model_step. lia.
    - apply in_flat_map in Hx as [t [Ht Hx]]. apply in_map_iff in Hx as [r [<- Hr]]. apply in_seq in Ht.
      assert (model_step p t) by (unfold model_step; lia).
      unfold calc_GDP_num. rewrite Rmult_1_l. apply Rmult_lt_0_compat; apply pypow_pos_pos.
      + apply (PD r Hr); auto.
      + apply TFP_capital_pos; auto.
  Qed.

  Ltac start := repeat (apply Forall_cons; [intros o Ho; revert o Ho; apply outs_cases;
      [exact cok_skip|intros t r o Ht Hr Ho; cbn [rule_at] in Ho]|]); try apply Forall_nil.
  Ltac dprev t := destruct t as [|?s]; cbn [prev]; [discriminate|].
  Notation all_ok l := (Forall (fun c => forall o, In o (outs p c) -> cok o) l).

  Lemma b_emissions : usable_choices p -> all_ok (emissions_constraints p).
  Proof.
    intros (U1 & U2 & U3 & U4 & _). destruct NR as (Hdt & _). destruct SD as (Hne & PD & HE & HC & _ & _).
    unfold emissions_constraints. start; subst.
    - unfold c_baseline_emissions. destruct (use_carbon_intensity p); dgo.
    - unfold c_regional_abatement. destruct (Nat.ltb 0 t), (use_carbon_intensity p); dgo.
    - unfold c_regional_emissions_init; dgo.
    - unfold c_regional_emission_reduction; dgo.
    - unfold c_global_emissions. destruct (Nat.ltb 0 t); dgo.
    - unfold c_global_emissions_init; dgo.
    - unfold c_cumulative_emissions. destruct (Nat.ltb 0 t) eqn:L; [|exact cok_skip]. dprev t. destruct (cum_trapz p); dgo.
    - unfold c_cumulative_emissions_init; dgo.
    - unfold c_relative_cumulative_emissions. destruct (Nat.ltb 0 t) eqn:L; dgo.
      apply Nat.ltb_lt in L. assert (0 < cumulative_global_baseline_emissions p t) by (apply HC; lia). lra.
    - unfold c_relative_cumulative_emissions_init; dgo.
    - unfold c_temperature; dgo.
    - unfold c_temperature_init; dgo.
    - unfold c_temperature_target. destruct (temperature_target p), (Rleb 2100 (year p t)); dgo.
    - unfold c_carbon_budget. destruct (budget p); [|dgo]. destruct (Rleb 2100 (year p t)) eqn:Y; [|dgo].
      destruct (Rltb (perc_reversible p) 1) eqn:Q; [|dgo]. exfalso.
      apply Rleb_true in Y. apply Rltb_true in Q.
      assert (1 <= perc_reversible p); [|lra]. apply U3; [discriminate|].
      apply Rle_trans with (1 := Y). unfold year. apply le_INR in Ht.
      apply Rplus_le_compat_l. apply Rmult_le_compat_r; lra.
    - unfold c_cumulative_emissions_nonneg; dgo.
    - unfold c_global_inertia. destruct (inertia_global p), (Nat.ltb 0 t) eqn:L; try exact cok_skip. dprev t. dgo.
    - unfold c_regional_inertia. destruct (inertia_regional p), (Nat.ltb 0 t) eqn:L; try exact cok_skip. dprev t. dgo.
    - unfold c_global_min_level. destruct (global_min_level p); dgo.
    - unfold c_regional_min_level. destruct (regional_min_level p); dgo.
    - unfold c_non_increasing. destruct (Rltb 2100 (year_before p t)) eqn:Y; [|exact cok_skip].
      destruct (non_increasing_after_2100 p) eqn:N; cbn [andb]; [|dgo].
      destruct t as [|s]; cbn [prev]; [|dgo]. exfalso. apply Rltb_true in Y. specialize (U4 eq_refl).
      unfold year_before in Y. cbn in Y. lra.
    - unfold c_net_zero. destruct (budget p), (Rleb 2100 (year p t) && no_pos_after_budget_year p); dgo.
  Qed.
  Lemma b_slr : all_ok (slr_constraints p).
  Proof.
    destruct NR as (Hdt & _).
    unfold slr_constraints. start; subst.
    - unfold c_SLR_thermal. destruct (Nat.ltb 0 t) eqn:L; [|exact cok_skip]. dprev t. unfold slr_thermal_expansion. dgo.
    - unfold c_SLR_thermal_init; dgo.
    - unfold c_SLR_GSIC. destruct (Nat.ltb 0 t) eqn:L; [|exact cok_skip]. dprev t. unfold slr_gsic, slr_gsic_total_ice. dgo.
    - unfold c_SLR_GSIC_init; dgo.
    - unfold c_SLR_GIS. destruct (Nat.ltb 0 t) eqn:L; [|exact cok_skip]. dprev t. unfold slr_gis, slr_gis_init_ice_vol. dgo.
    - unfold c_SLR_GIS_init; dgo.
    - unfold c_total_SLR; dgo.
  Qed.
  (** damage functions *)
  Lemma b_form d x r : known_form (d_form d r) -> dok x ->
    (str_contains "Logistic" (d_form d r) = true -> d_b2 d r <> -1 /\ (is_const x = true -> 0 <= d_b2 d r)) ->
    exists e, functional_form d x r = Ok e /\ dok e.
  Proof.
    intros K Hx Hl. unfold functional_form.
    destruct (str_contains "Linear" (d_form d r)) eqn:A; [eexists; split; [reflexivity|dgo; auto]|].
    destruct (str_contains "Quadratic" (d_form d r)) eqn:B; [eexists; split; [reflexivity|dgo; auto]|].
    destruct (str_contains "Logistic" (d_form d r)) eqn:C.
    2:{ unfold known_form in K. rewrite A, B, C in K. destruct K as [K|[K|K]]; discriminate. }
    destruct (Hl eq_refl) as [L1 L2].
    eexists; split; [reflexivity|]. unfold logistic. dgo; auto.
    - destruct (is_const x) eqn:X.
      + apply dvok_nz. cbn [deno]. set (y := exp _). assert (0 < y) by apply exp_pos.
        assert (0 <= d_b2 d r * y) by (apply Rmult_le_pos; [apply L2; auto|lra]). lra.
      + apply dvok_var. cbn [is_const]. rewrite const_soft_max. cbn [is_const]. rewrite X. reflexivity.
    - apply dvok_nz. cbn [deno]. lra.
  Qed.
  Lemma b_damage_con d x x0 r lhs k : known_form (d_form d r) -> dok x -> dok x0 -> dok lhs ->
    (str_contains "Logistic" (d_form d r) = true -> d_b2 d r <> -1 /\ (is_const x = true -> 0 <= d_b2 d r)) ->
    (str_contains "Logistic" (d_form d r) = true -> d_b2 d r <> -1 /\ (is_const x0 = true -> 0 <= d_b2 d r)) ->
    cok (con_result lhs (do e <- damage_fct d x x0 r; Ok (ENum k * e)%E)).
  Proof.
    intros K Hx Hx0 Hl L1 L2. unfold damage_fct.
    destruct (b_form d x r K Hx L1) as [a [-> A]]. destruct (b_form d x0 r K Hx0 L2) as [b [-> B]].
    cbn [bind con_result]. dgo; auto.
  Qed.
  Lemma b_damages : usable_choices p -> all_ok (damage_constraints p).
  Proof.
    intros (_ & _ & _ & _ & _ & _ & _ & U). destruct SD as (_ & _ & _ & _ & LN & LS).
    unfold damage_constraints. destruct (dmg_module p) eqn:D.
    - specialize (U eq_refl). specialize (LN eq_refl). specialize (LS eq_refl). unfold coacch_constraints. start; subst.
      + unfold c_damage_costs. dgo.
      + apply b_damage_con; [apply U; auto|dgo|dgo|dgo| |]; intros L;
          (split; [|intros _; apply LN; auto]); specialize (LN r Hr L); lra.
      + apply b_damage_con; [apply U; auto|dgo|dgo|dgo| |]; intros L;
          (split; [apply LS; auto|discriminate]).
      + unfold c_mortality. destruct (mort_oldest p r) as [[a b] c]. dgo.
      + unfold c_mortality. destruct (mort_older p r) as [[a b] c]. dgo.
      + unfold c_mortality. destruct (mort_young p r) as [[a b] c]. dgo.
      + unfold c_mortality_cost. dgo.
    - unfold nodamage_constraints. start; subst. unfold c_zero_damage. dgo.
  Qed.
  Lemma b_mitigation : usable_choices p -> all_ok (mitigation_constraints p).
  Proof.
    intros (_ & _ & _ & _ & U & _). destruct SD as (Hne & _). destruct NR as (_ & _ & _ & Hb & Hl).
    unfold mitigation_constraints. start; subst.
    - unfold c_carbonprice, MAC; dgo.
    - unfold c_init_carbon_price; dgo.
    - unfold c_mitigation_costs, AC, cost_balance; dgo. destruct (trade p); dgo.
    - unfold c_area_under_MAC, AC; dgo.
    - unfold c_rel_mitigation_costs; dgo. apply dvok_var; reflexivity.
    - unfold c_rel_mitigation_costs_non_negative; dgo.
    - unfold c_global_rel_mitigation_costs; dgo. apply dvok_var. apply const_esum_var; auto.
    - unfold c_emission_reduction_per_cost_unit. destruct (Nat.ltb 0 t); dgo.
      apply dvok_var. rewrite const_soft_min. apply const_esum_var; auto.
    - unfold c_cost_per_emission_reduction_unit. destruct (Nat.ltb 0 t); dgo.
      apply dvok_var. rewrite const_soft_min. apply const_esum_var; auto.
    - unfold c_LBD; dgo.
    - unfold c_LOT; dgo. apply dvok_nz. cbn [deno]. apply pow_nonzero. lra.
    - unfold c_learning; dgo.
  Qed.
  Lemma pop_pos t : (t <= tf p)%nat -> 0 < Rsum (population p t) (regions p).
  Proof. destruct SD as (Hne & PD & _). intros Ht. apply Rsum_pos; auto. intros r Hr. apply (PD r Hr). exact Ht. Qed.
  Lemma b_trade : usable_choices p -> all_ok (trade_constraints p).
  Proof.
    intros (U & _). unfold trade_constraints. destruct (trade p) eqn:T; [constructor|congruence|].
    unfold emissiontrade_constraints. start; subst.
    - unfold c_global_carbonprice; dgo. apply dvok_nz. rewrite deno_esum. cbn [deno].
      pose proof (pop_pos t Ht). change (fun r0 => population p t r0) with (population p t). lra.
    - unfold c_sum_cost_balance; dgo.
    - unfold c_import_export_emission. destruct (Nat.ltb 0 t); dgo. apply dvok_var. rewrite const_soft_min. reflexivity.
    - unfold c_paid_for. destruct (Nat.ltb 0 t); dgo.
    - unfold c_allowances. destruct (Nat.ltb 0 t); dgo.
  Qed.
  Lemma b_transfer : all_ok (transfer_constraints p).
  Proof.
    unfold transfer_constraints. destruct (transfer p) eqn:T; [constructor|]. start; subst.
    - unfold c_zero_sum_transfer. destruct (Nat.ltb 0 t); dgo.
    - unfold c_no_transfer_first; dgo.
    - unfold c_transfer_max; dgo.
    - unfold c_transfer_rel; dgo.
  Qed.
  Lemma b_effort : usable_choices p -> all_ok (effort_constraints p).
  Proof.
    intros (_ & U & _).
    unfold effort_constraints, equal_mitigation_constraint, equal_total_constraint, percapconv_constraint.
    start; destruct Ho as [Hi [b ->]]; cbn [soft_con].
    - unfold rhs_eps. dgo.
    - unfold rhs_eps, rel_financial_transfer. destruct (transfer p) eqn:T; dgo.
    - apply orb_false_iff in Hi as [H1 H2]. apply Nat.eqb_neq in H2. apply negb_false_iff in H1.
      rewrite U; [unfold rhs_eps; dgo| |lia]. destruct (effort_regime p); try discriminate; auto.
  Qed.
  Lemma b_cobb : all_ok (cobbdouglas_constraints p).
  Proof.
    destruct NR as (Hdt & _). unfold cobbdouglas_constraints. start; subst.
    - unfold c_GDP_gross, calc_GDP. destruct (Nat.ltb 0 t); dgo.
    - unfold c_GDP_gross_init; dgo.
    - unfold c_GDP_net, financial_transfer. destruct (ignore_damages p), (transfer p); dgo.
    - unfold c_investments; dgo.
    - unfold c_consumption; dgo.
    - unfold c_capital_stock, calc_dKdt. destruct (Nat.ltb 0 t) eqn:L; [|exact cok_skip]. dprev t. dgo.
    - unfold c_capital_stock_init; dgo.
  Qed.
  Lemma b_welfare : usable_choices p -> all_ok (welfare_constraints p).
  Proof.
    intros (_ & _ & _ & _ & _ & U6 & U7 & _). destruct SD as (Hne & PD & _).
    assert (PP : forall t r, (t <= tf p)%nat -> In r (regions p) -> population p t r <> 0).
    { intros t r Ht Hr. assert (0 < population p t r) by (apply (PD r Hr); exact Ht). lra. }
    assert (PS : forall t, (t <= tf p)%nat -> dvok (pop_sumE p t)).
    { intros t Ht. apply dvok_nz. unfold pop_sumE. rewrite deno_esum. cbn [popE deno].
      pose proof (pop_pos t Ht). change (fun r => population p t r) with (population p t). lra. }
    unfold welfare_constraints. destruct (welfare p) eqn:W; start; subst.
    - unfold c_wlm_utility, calc_utility, popE. dgo; auto.
    - unfold c_wlm_welfare, popE. dgo.
    - unfold c_cm_utility, popE. dgo; auto.
    - unfold c_cm_welfare, calc_utility. dgo; auto; unfold pop_sumE, popE; dgo.
    - unfold c_iag_utility, popE. dgo; auto.
    - specialize (U7 eq_refl). unfold c_iag_welfare. dgo; auto; unfold pop_sumE, popE; dgo.
  Qed.
  Lemma b_objective : all_ok (objective_constraints p).
  Proof.
    unfold objective_constraints. start; subst.
    - destruct (objective p); [unfold c_NPV_utility|unfold c_NPV_costs];
      (destruct (Nat.ltb 0 t) eqn:L; [|exact cok_skip]); dprev t; dgo.
    - unfold c_NPV_init; dgo.
  Qed.
  Lemma b_all c o : usable_choices p -> In c (all_constraints p) -> In o (outs p c) -> cok o.
  Proof.
    intros U. revert c o. apply (Forall_outs cok p). unfold all_constraints. rewrite !Forall_app.
    repeat split; [apply b_emissions; auto|apply b_slr|apply b_damages; auto|apply b_mitigation; auto|apply b_trade; auto
      |apply b_transfer|apply b_effort; auto|apply b_cobb|apply b_welfare; auto|apply b_objective].
  Qed.

  (** the converse: which output raises *)
  Definition allc := forall c o, In c (all_constraints p) -> In o (outs p c) -> cok o.
  Lemma outs_t n f t : (t <= tf p)%nat -> In (f t) (outs p (GlobalC n f)).
  Proof. intros Ht. unfold outs. cbn [to_pyomo flat_map snd app]. rewrite app_nil_r. cbn [outputs]. apply in_map, in_seq. lia. Qed.
  Lemma outs_tr n f t r : (t <= tf p)%nat -> In r (regions p) -> In (f t r) (outs p (RegionalC n f)).
  Proof.
    intros Ht Hr. unfold outs. cbn [to_pyomo flat_map snd app]. rewrite app_nil_r. cbn [outputs].
    apply in_flat_map. exists t. split; [apply in_seq; lia|]. apply in_map; auto.
  Qed.
  Lemma some_region : exists r, In r (regions p).
  Proof. destruct SD as (Hne & _). destruct (regions p) as [|r l]; [congruence|]. exists r. left; auto. Qed.

  Lemma b_conv : allc -> trade p <> globalcostpool -> usable_choices p.
  Proof.
    intros A T. destruct some_region as [r0 Hr0]. destruct NR as (Hdt & _).
    unfold usable_choices. split; [auto|]. split; [|split; [|split; [|split; [|split; [|split]]]]].
    - intros R Ht. destruct (trade p) eqn:E; auto; try congruence. exfalso.
      assert (K : In (soft_con 0 (Some (1/1000)) (Ok (ENum (percapconv_share p 1 r0) * EG g_global_emissions 1)%E)
                        (Err AttributeError) true) (outs p (percapconv_constraint p))).
      { unfold outs, percapconv_constraint. cbn [to_pyomo flat_map snd]. apply in_or_app. left. cbn [outputs].
        apply in_flat_map. exists 1%nat. split; [apply in_seq; lia|]. apply in_map_iff. exists r0. split; auto.
        rewrite R, E. reflexivity. }
      apply (A _ _) in K; [|in_effort]. discriminate.
    - intros B Y. destruct (Rle_dec 1 (perc_reversible p)) as [|N]; auto. exfalso.
      pose proof (outs_t (Some "carbon_budget") (c_carbon_budget p) (tf p) (le_n _)) as K.
      apply A in K; [|in_emissions]. unfold c_carbon_budget in K. destruct (budget p); [|congruence].
      rewrite (proj2 (Rleb_true 2100 (year p (tf p))) Y) in K.
      rewrite (proj2 (Rltb_true (perc_reversible p) 1) ltac:(lra)) in K. discriminate.
    - intros N. destruct (Rle_dec (beginyear p - dt p) 2100) as [|Y]; auto. exfalso.
      pose proof (outs_tr (Some "non_increasing_emissions_after_2100") (c_non_increasing p) 0 r0 (Nat.le_0_l _) Hr0) as K.
      apply A in K; [|in_emissions]. unfold c_non_increasing in K. rewrite N in K.
      rewrite (proj2 (Rltb_true 2100 (year_before p 0)) ltac:(unfold year_before; cbn; lra)) in K. discriminate.
    - pose proof (outs_t (Some "LBD") (c_LBD p) 0 (Nat.le_0_l _)) as K. apply A in K; [|in_mitigation].
      unfold c_LBD in K. apply cok_con in K as [_ K]. apply dok_pow in K as [K _]. apply dok_soft_min in K; [|lra].
      apply dok_add in K as [K _]. apply dok_div in K as [_ K]. apply dvok_mono in K. auto.
    - destruct (welfare p) eqn:W.
      + assert (K : In (c_wlm_utility p 0 r0) (outs p (RegionalC (Some "utility") (c_wlm_utility p)))) by (apply outs_tr; auto; lia).
        apply A in K; [|in_welfare; unfold welfare_constraints; rewrite W; in_list].
        apply cok_con in K as [_ K]. apply dok_div in K as [_ K]. apply dvok_mono in K. intros E. apply K. lra.
      + assert (K : In (c_cm_welfare p 0) (outs p (GlobalC (Some "yearly_welfare") (c_cm_welfare p)))) by (apply outs_t; lia).
        apply A in K; [|in_welfare; unfold welfare_constraints; rewrite W; in_list].
        apply cok_con in K as [_ K]. apply dok_mul in K as [_ K]. apply dok_div in K as [_ K]. apply dvok_mono in K. intros E. apply K. lra.
      + assert (K : In (c_iag_welfare p 0) (outs p (GlobalC (Some "yearly_welfare") (c_iag_welfare p)))) by (apply outs_t; lia).
        apply A in K; [|in_welfare; unfold welfare_constraints; rewrite W; in_list].
        apply cok_con in K as [_ K]. apply dok_mul in K as [_ K]. apply dok_div in K as [_ K]. apply dvok_mono in K. intros E. apply K. lra.
    - intros W. assert (K : In (c_iag_welfare p 0) (outs p (GlobalC (Some "yearly_welfare") (c_iag_welfare p)))) by (apply outs_t; lia).
      apply A in K; [|in_welfare; unfold welfare_constraints; rewrite W; in_list].
      apply cok_con in K as [_ K]. apply dok_mul in K as [_ K]. apply dok_div in K as [[K _] _]. apply dok_pow in K as [_ K].
      apply dok_div in K as [_ K]. apply dvok_mono in K. intros E. apply K. lra.
    - intros D r Hr.
      assert (KF : forall d x, functional_form d x r = Err NotImplementedError \/ known_form (d_form d r)).
      { intros d x. unfold functional_form, known_form.
        destruct (str_contains "Linear" (d_form d r)); auto. destruct (str_contains "Quadratic" (d_form d r)); auto.
        destruct (str_contains "Logistic" (d_form d r)); auto. }
      split.
      + assert (K : In (c_damage_costs_non_slr p 0 r) (outs p (RegionalC (Some "damage_costs_non_slr") (c_damage_costs_non_slr p)))) by (apply outs_tr; auto; lia).
        apply A in K; [|in_damage; unfold damage_constraints; rewrite D; unfold coacch_constraints; in_list].
        unfold c_damage_costs_non_slr, damage_fct in K.
        destruct (KF (dmg_noslr p) (EG g_temperature 0 - ENum (6/10))%E) as [E|E]; auto. rewrite E in K. discriminate.
      + assert (K : In (c_damage_costs_slr p 0 r) (outs p (RegionalC (Some "damage_costs_slr") (c_damage_costs_slr p)))) by (apply outs_tr; auto; lia).
        apply A in K; [|in_damage; unfold damage_constraints; rewrite D; unfold coacch_constraints; in_list].
        unfold c_damage_costs_slr, damage_fct in K.
        destruct (KF (dmg_slr p) (EG g_total_SLR 0)) as [E|E]; auto. rewrite E in K. discriminate.
  Qed.
End C18.

(** A configuration with numbers in range builds exactly when the listed choices are made. *)
Lemma C18_builds_iff_usable_pf : forall extra n p, numeric_ranges p -> sound_data p ->
  ((exists comps, build extra n p = Ok comps) <-> usable_choices p).
Proof.
  intros extra n p NR SD. rewrite build_iff. split.
  - intros ([comps C] & _ & A). apply b_conv; auto. intros T.
    rewrite C17_globalcostpool_clashes_refuted_pf in C by auto. discriminate.
  - intros U. split; [apply C17_names_never_clash_pf, U|]. split; [apply params_ok; auto|].
    intros c o. apply b_all; auto.
Qed.
(** Data with a zero where the code divides by it never builds: every step and every region is covered. *)
Lemma C18_zero_data_rejected_pf : forall extra n p comps, build extra n p = Ok comps ->
  Rsum (baseline_emissions p 0) (regions p) <> 0 /\
  forall t, model_step p t -> Rsum (population p t) (regions p) <> 0 /\
    forall r, In r (regions p) -> baseline_GDP p t r <> 0 /\
      calc_GDP_num 1 (population p t r) (TFP_capital p t r) (alpha p) <> 0.
Proof.
  intros extra n p comps B. assert (X : exists comps, build extra n p = Ok comps) by eauto.
  apply build_iff in X. destruct X as (_ & D & _). unfold check_params_div in D.
  destruct (forallb _ (param_divisors p)) eqn:A; [|discriminate]. rewrite forallb_forall in A.
  assert (NZ : forall x, In x (param_divisors p) -> x <> 0) by (intros x I ->; specialize (A _ I); rewrite (proj2 (Reqb_true 0 0) eq_refl) in A; discriminate).
  assert (SQ : forall t, model_step p t -> In t (seq 0 (S (tf p)))) by (unfold model_step; intros t L; apply in_seq; lia).
  unfold param_divisors in NZ. split; [|intros t T; split; [|intros r R; split]]; apply NZ; rewrite !in_app_iff.
  - right. left. left. reflexivity.
  - right. right. left. apply in_map_iff. exists t. auto.
  - left. apply in_flat_map. exists t. split; [auto|]. apply in_map_iff. exists r. auto.
  - right. right. right. apply in_flat_map. exists t. split; [auto|]. apply in_map_iff. exists r. auto.
Qed.
(** Accepted choices that never build a model. *)
Lemma C18_globalcostpool_refuted_pf : forall extra n p, trade p = globalcostpool ->
  build extra n p = Err RuntimeError.
Proof.
  intros extra n p T. unfold build. rewrite C17_globalcostpool_clashes_refuted_pf by auto. reflexivity.
Qed.
