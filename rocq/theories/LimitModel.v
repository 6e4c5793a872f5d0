(** C67: the limit of a sequence of feasible plans whose decisions and net incomes converge is a feasible plan. *)
From Coq Require Import Lra Lia.
From Coquelicot Require Import Coquelicot.
From Verif Require Import ModelFacts SoftFacts ModelSpec PowFacts Equations Equations2 Build VarFacts EconLemmas BuildFacts BuildLemmas DefinedFacts Limits.
Open Scope R_scope.
Set Bullet Behavior "Strict Subproofs".

Create HintDb lims.
#[export] Hint Extern 1 (_ <= _)%nat => lia : lims.
#[export] Hint Extern 1 (_ < _)%nat => lia : lims.

Ltac ng :=
  repeat match goal with
  | |- nice_out _ (Con _ _ _) => split
  | |- nice_out _ Skip => exact I
  | |- nice_out _ (Raise _) => exact I
  | |- nice _ (esum _ _) => apply nice_esum; intros ? ?
  | |- nice _ (soft_min _ _) => apply nice_soft_min
  | |- nice _ (soft_max _ _ _) => apply nice_soft_max
  | |- nice _ (ENum _) => exact I
  | |- nice _ (EAdd _ _) => split | |- nice _ (ESub _ _) => split | |- nice _ (EMul _ _) => split | |- nice _ (EDiv _ _) => split
  | |- nice _ (EPow _ _) => split; [|split]
  | |- nice ?u (ENeg ?a) => change (nice u a)
  | |- nice ?u (EPowN ?a _) => change (nice u a)
  | |- nice ?u (EExp ?a) => change (nice u a)
  | |- nice ?u (EAtan ?a) => change (nice u a)
  | |- nice ?u (EG ?g ?t) => change (lim u (EG g t))
  | |- nice ?u (EV ?x ?t ?r) => change (lim u (EV x t r))
  | |- lim _ _ => solve [auto with lims]
  end.

(** The steps at which the common effort level is part of a constraint. *)
Definition shared_level (p : pars) (t : nat) : Prop :=
  effort_regime p = equal_mitigation_costs \/ (effort_regime p = equal_total_costs /\ year p t <= 2100).

Section Model.
  Variable p : pars.
  Variable u : nat -> point.
  Notation w := (limit_point u).
  Notation regs := (regions p).
  Hypothesis NR : numeric_ranges p.
  Hypothesis SD : sound_data p.
  Hypothesis U : usable_choices p.
  Hypothesis SL : slr_logistic_ok p.
  Hypothesis F : forall k, feasible p (u k).
  Hypothesis CA : forall t r, (t <= tf p)%nat -> In r regs -> ex_finite_lim_seq (fun k => rval (u k) v_relative_abatement t r).
  Hypothesis CN : forall t r, (t <= tf p)%nat -> In r regs -> ex_finite_lim_seq (fun k => rval (u k) v_GDP_net t r).
  Hypothesis CT : transfer p = globaldamagepool -> forall t r, (t <= tf p)%nat -> In r regs -> ex_finite_lim_seq (fun k => rval (u k) v_financial_transfer t r).
  Hypothesis CL : forall t, (t <= tf p)%nat -> shared_level p t -> ex_finite_lim_seq (fun k => gval (u k) g_effort_sharing_common_level t).

  Lemma sat_rr n f t r : In (RegionalC n f) (all_constraints p) -> (t <= tf p)%nat -> In r regs -> forall k, sat (u k) (f t r).
  Proof. intros H T R k. exact (feas_c p (u k) _ (F k) H t r T R). Qed.
  Lemma sat_gg n f t : In (GlobalC n f) (all_constraints p) -> (t <= tf p)%nat -> forall k, sat (u k) (f t).
  Proof. intros H T k. exact (feas_c p (u k) _ (F k) H t T). Qed.
  Lemma sat_ri n f r : In (RegionalInitC n f) (all_constraints p) -> In r regs -> forall k, sat (u k) (f r).
  Proof. intros H R k. exact (feas_c p (u k) _ (F k) H r R). Qed.
  Lemma sat_gi n f : In (GlobalInitC n f) (all_constraints p) -> forall k, sat (u k) f.
  Proof. intros H k. exact (feas_c p (u k) _ (F k) H). Qed.

  Lemma l_ab t r : (t <= tf p)%nat -> In r regs -> lim u (EV v_relative_abatement t r).
  Proof. intros T R. apply lim_r, CA; assumption. Qed.
  Lemma l_net t r : (t <= tf p)%nat -> In r regs -> lim u (EV v_GDP_net t r).
  Proof. intros T R. apply lim_r, CN; assumption. Qed.
  Lemma l_tr t r : transfer p = globaldamagepool -> (t <= tf p)%nat -> In r regs -> lim u (EV v_financial_transfer t r).
  Proof. intros P T R. apply lim_r, CT; assumption. Qed.
  Lemma l_level t : (t <= tf p)%nat -> shared_level p t -> lim u (EG g_effort_sharing_common_level t).
  Proof. intros T S. apply lim_g, CL; assumption. Qed.
  #[local] Hint Resolve l_ab l_net : lims.

  Lemma l_base t r : (t <= tf p)%nat -> In r regs -> lim u (EV v_baseline t r).
  Proof.
    intros T R. pose proof (sat_rr _ _ t r (ltac:(in_emissions) : In (RegionalC (Some "baseline_emissions") (c_baseline_emissions p)) _) T R) as H.
    unfold c_baseline_emissions in H. destruct (use_carbon_intensity p); (eapply con_lim_r; [exact H|ng|fgo2]).
  Qed.
  #[local] Hint Resolve l_base : lims.
  Lemma l_em t r : (t <= tf p)%nat -> In r regs -> lim u (EV v_regional_emissions t r).
  Proof.
    intros T R. destruct t as [|t].
    - pose proof (sat_ri _ _ r (ltac:(in_emissions) : In (RegionalInitC None (c_regional_emissions_init p)) _) R) as H.
      eapply con_lim_r; [exact H|ng|fgo2].
    - pose proof (sat_rr _ _ (S t) r (ltac:(in_emissions) : In (RegionalC (Some "regional_abatement") (c_regional_abatement p)) _) T R) as H.
      unfold c_regional_abatement in H. cbn [Nat.ltb Nat.leb] in H. destruct (use_carbon_intensity p); (eapply con_lim_r; [exact H|ng|fgo2]).
  Qed.
  #[local] Hint Resolve l_em : lims.
  Lemma l_red t r : (t <= tf p)%nat -> In r regs -> lim u (EV v_regional_emission_reduction t r).
  Proof.
    intros T R. pose proof (sat_rr _ _ t r (ltac:(in_emissions) : In (RegionalC (Some "regional_emission_reduction") c_regional_emission_reduction) _) T R) as H.
    eapply con_lim_r; [exact H|ng|fgo2].
  Qed.
  Lemma l_ge t : (t <= tf p)%nat -> lim u (EG g_global_emissions t).
  Proof.
    intros T. destruct t as [|t].
    - pose proof (sat_gi _ _ (ltac:(in_emissions) : In (GlobalInitC (Some "global_emissions_init") (c_global_emissions_init p)) _)) as H.
      eapply con_lim_g; [exact H|ng|fgo2].
    - pose proof (sat_gg _ _ (S t) (ltac:(in_emissions) : In (GlobalC (Some "global_emissions") (c_global_emissions p)) _) T) as H.
      eapply con_lim_g; [exact H|ng|fgo2].
  Qed.
  #[local] Hint Resolve l_red l_ge : lims.
  Lemma l_cum t : (t <= tf p)%nat -> lim u (EG g_cumulative_emissions t).
  Proof.
    induction t as [|t IH]; intros T.
    - pose proof (sat_gi _ _ (ltac:(in_emissions) : In (GlobalInitC None c_cumulative_emissions_init) _)) as H.
      eapply con_lim_g; [exact H|ng|fgo2].
    - pose proof (sat_gg _ _ (S t) (ltac:(in_emissions) : In (GlobalC (Some "cumulative_emissions") (c_cumulative_emissions p)) _) T) as H.
      assert (I := IH ltac:(lia)). unfold c_cumulative_emissions in H. cbn [Nat.ltb Nat.leb prev] in H.
      destruct (cum_trapz p); (eapply con_lim_g; [exact H|ng|fgo2]).
  Qed.
  #[local] Hint Resolve l_cum : lims.
  Lemma l_temp t : (t <= tf p)%nat -> lim u (EG g_temperature t).
  Proof.
    intros T. pose proof (sat_gg _ _ t (ltac:(in_emissions) : In (GlobalC (Some "temperature") (c_temperature p)) _) T) as H.
    eapply con_lim_g; [exact H|ng|fgo2].
  Qed.
  #[local] Hint Resolve l_temp : lims.
  Lemma l_thermal t : (t <= tf p)%nat -> lim u (EG g_slr_thermal t).
  Proof.
    induction t as [|t IH]; intros T.
    - pose proof (sat_gi _ _ (ltac:(in_slr) : In (GlobalInitC None (c_SLR_thermal_init p)) _)) as H.
      eapply con_lim_g; [exact H|ng|fgo2].
    - pose proof (sat_gg _ _ (S t) (ltac:(in_slr) : In (GlobalC (Some "SLR_thermal") (c_SLR_thermal p)) _) T) as H.
      assert (I := IH ltac:(lia)). unfold c_SLR_thermal, slr_thermal_expansion in H. cbn [Nat.ltb Nat.leb prev] in H.
      eapply con_lim_g; [exact H|ng|fgo2].
      + left. cbn [deno]. unfold slr_thermal_adjust_rate. lra.
      + apply pow_defd_pos. cbn [deno]. unfold slr_thermal_adjust_rate. lra.
  Qed.
  Lemma l_gsic t : (t <= tf p)%nat -> lim u (EG g_slr_cumgsic t).
  Proof.
    induction t as [|t IH]; intros T.
    - pose proof (sat_gi _ _ (ltac:(in_slr) : In (GlobalInitC None c_SLR_GSIC_init) _)) as H.
      eapply con_lim_g; [exact H|ng|fgo2].
    - pose proof (sat_gg _ _ (S t) (ltac:(in_slr) : In (GlobalC (Some "SLR_GSIC") (c_SLR_GSIC p)) _) T) as H.
      assert (I := IH ltac:(lia)). unfold c_SLR_GSIC, slr_gsic in H. cbn [Nat.ltb Nat.leb prev] in H.
      eapply con_lim_g; [exact H|ng|fgo2]. unfold slr_gsic_total_ice. lra.
  Qed.
  Lemma l_gis t : (t <= tf p)%nat -> lim u (EG g_slr_cumgis t).
  Proof.
    induction t as [|t IH]; intros T.
    - pose proof (sat_gi _ _ (ltac:(in_slr) : In (GlobalInitC None c_SLR_GIS_init) _)) as H.
      eapply con_lim_g; [exact H|ng|fgo2].
    - pose proof (sat_gg _ _ (S t) (ltac:(in_slr) : In (GlobalC (Some "SLR_GIS") (c_SLR_GIS p)) _) T) as H.
      assert (I := IH ltac:(lia)). unfold c_SLR_GIS, slr_gis in H. cbn [Nat.ltb Nat.leb prev] in H.
      eapply con_lim_g; [exact H|ng|fgo2]. unfold slr_gis_init_ice_vol. lra.
  Qed.
  #[local] Hint Resolve l_thermal l_gsic l_gis : lims.
  Lemma l_slr t : (t <= tf p)%nat -> lim u (EG g_total_SLR t).
  Proof.
    intros T. pose proof (sat_gg _ _ t (ltac:(in_slr) : In (GlobalC (Some "total_SLR") c_total_SLR) _) T) as H.
    eapply con_lim_g; [exact H|ng|fgo2].
  Qed.
  Lemma l_inv t r : (t <= tf p)%nat -> In r regs -> lim u (EV v_investments t r).
  Proof.
    intros T R. pose proof (sat_rr _ _ t r (ltac:(in_cobb) : In (RegionalC (Some "investments") (c_investments p)) _) T R) as H.
    eapply con_lim_r; [exact H|ng|fgo2].
  Qed.
  Lemma l_cons t r : (t <= tf p)%nat -> In r regs -> lim u (EV v_consumption t r).
  Proof.
    intros T R. pose proof (sat_rr _ _ t r (ltac:(in_cobb) : In (RegionalC (Some "consumption") (c_consumption p)) _) T R) as H.
    eapply con_lim_r; [exact H|ng|fgo2].
  Qed.
  #[local] Hint Resolve l_slr l_inv l_cons : lims.
  Lemma l_K t r : (t <= tf p)%nat -> In r regs -> lim u (EV v_capital_stock t r).
  Proof.
    intros T R. pose proof NR as (Hdt & Hdk & _). destruct (surv_range p Hdt Hdk) as [_ SV].
    induction t as [|t IH].
    - pose proof (sat_ri _ _ r (ltac:(in_cobb) : In (RegionalInitC None (c_capital_stock_init p)) _) R) as H.
      eapply con_lim_r; [exact H|ng|fgo2].
    - assert (I := IH ltac:(lia)).
      apply (lim_val_r u _ _ _ ((EV v_capital_stock t r + ENum (dt p) * EV v_investments (S t) r) / ENum (2 - survival p))%E).
      + intros k. pose proof (capital_closed p (u k) t r (F k) T R Hdt Hdk) as E. unfold capital_stock, investments in E. cbn [deno]. rewrite <- E. field. lra.
      + apply nice_lim; [ng|fgo2].
  Qed.
  #[local] Hint Resolve l_K : lims.
  Lemma l_gross t r : (t <= tf p)%nat -> In r regs -> lim u (EV v_GDP_gross t r).
  Proof.
    intros T R. pose proof SD as (_ & PD & _). destruct t as [|t].
    - pose proof (sat_ri _ _ r (ltac:(in_cobb) : In (RegionalInitC (Some "GDP_gross_init") (c_GDP_gross_init p)) _) R) as H.
      eapply con_lim_r; [exact H|ng|fgo2].
    - pose proof (sat_rr _ _ (S t) r (ltac:(in_cobb) : In (RegionalC (Some "GDP_gross") (c_GDP_gross p)) _) T R) as H.
      unfold c_GDP_gross, calc_GDP in H. cbn [Nat.ltb Nat.leb] in H.
      eapply con_lim_r; [exact H|ng|fgo2].
      + left. cbn [deno]. apply (PD r R). exact T.
      + left. rewrite deno_soft_min. apply smin_pos. lra.
      + apply pow_defd_pos. cbn [deno]. apply (PD r R). exact T.
      + apply pow_defd_pos. rewrite deno_soft_min. apply smin_pos. lra.
  Qed.
  #[local] Hint Resolve l_gross : lims.

  Lemma lim_ge (f : nat -> R) (l c : R) : is_lim_seq f l -> (forall k, c <= f k) -> c <= l.
  Proof. intros L H. change (Rbar_le (Finite c) (Finite l)). exact (is_lim_seq_le (fun _ => c) f c l H (is_lim_seq_const c) L). Qed.
  Lemma lim_le (f : nat -> R) (l c : R) : is_lim_seq f l -> (forall k, f k <= c) -> l <= c.
  Proof. intros L H. change (Rbar_le (Finite l) (Finite c)). exact (is_lim_seq_le f (fun _ => c) l c H L (is_lim_seq_const c)). Qed.

  Lemma sensible_limit : sensible_point p w.
  Proof.
    intros t T. unfold model_step in T. split.
    - apply (lim_ge (fun k => gval (u k) g_total_SLR t)); [exact (l_slr t T)|]. intros k. apply (q_bounds p (u k) (F k) t T).
    - intros r R. unfold relative_abatement. split.
      + apply (lim_ge (fun k => rval (u k) v_relative_abatement t r)); [exact (l_ab t r T R)|]. intros k. apply (q_bounds_r p (u k) (F k) t r T R).
      + pose proof SD as (_ & PD & _). pose proof NR as (Hdt & Hdk & Hs & _). destruct t as [|t].
        * pose proof (sat_ri _ _ r (ltac:(in_cobb) : In (RegionalInitC (Some "GDP_gross_init") (c_GDP_gross_init p)) _) R) as H.
          apply sat_limit in H; [|unfold c_GDP_gross_init; ng|unfold c_GDP_gross_init; fgo2]. destruct H as (_ & _ & E). cbn [deno] in E.
          unfold GDP_gross. rewrite E. apply (PD r R). unfold model_step. lia.
        * pose proof (sat_rr _ _ (S t) r (ltac:(in_cobb) : In (RegionalC (Some "GDP_gross") (c_GDP_gross p)) _) T R) as H.
          assert (PP : 0 < population p (S t) r) by (apply (PD r R); exact T).
          unfold c_GDP_gross, calc_GDP in H. cbn [Nat.ltb Nat.leb] in H.
          apply sat_limit in H; [destruct H as (_ & _ & E)|ng|fgo2].
          -- unfold GDP_gross. cbn [deno] in E. rewrite E. rewrite deno_soft_min. apply Rmult_lt_0_compat; [apply Rmult_lt_0_compat|].
             ++ apply TFP_pos; auto.
             ++ apply pypow_pos_pos. exact PP.
             ++ apply pypow_pos_pos, smin_pos. lra.
          -- left. exact PP.
          -- left. rewrite deno_soft_min. apply smin_pos. lra.
          -- apply pow_defd_pos. exact PP.
          -- apply pow_defd_pos. rewrite deno_soft_min. apply smin_pos. lra.
  Qed.
  Lemma def_out c o : In c (all_constraints p) -> In o (outs p c) -> all_defined w o.
  Proof. exact (d_all p w NR SD U SL sensible_limit c o). Qed.
  Lemma def_rr n f t r : In (RegionalC n f) (all_constraints p) -> (t <= tf p)%nat -> In r regs -> all_defined w (f t r).
  Proof.
    intros H T R. apply (def_out _ _ H). unfold outs. cbn [to_pyomo flat_map snd outputs]. rewrite app_nil_r. apply in_flat_map.
    exists t. split; [apply in_seq; lia|]. apply in_map. exact R.
  Qed.
  Lemma def_gg n f t : In (GlobalC n f) (all_constraints p) -> (t <= tf p)%nat -> all_defined w (f t).
  Proof. intros H T. apply (def_out _ _ H). unfold outs. cbn [to_pyomo flat_map snd outputs]. rewrite app_nil_r. apply in_map, in_seq. lia. Qed.
  Lemma gross_w t r : (t <= tf p)%nat -> In r regs -> 0 < rval w v_GDP_gross t r.
  Proof. intros T R. exact (proj2 (proj2 (sensible_limit t T) r R)). Qed.

  Lemma nice_form d x r e : functional_form d x r = Ok e -> nice u x -> nice u e.
  Proof.
    unfold functional_form. destruct (str_contains "Linear" (d_form d r)); [intros H N; injection H as <-; ng; exact N|].
    destruct (str_contains "Quadratic" (d_form d r)); [intros H N; injection H as <-; ng; exact N|].
    destruct (str_contains "Logistic" (d_form d r)); [|discriminate]. intros H N. injection H as <-. unfold logistic. ng. exact N.
  Qed.
  Lemma nice_dmg d x x0 r k y t : nice u x -> nice u x0 -> lim u (EV y t r) ->
    nice_out u (con_result (EV y t r) (do e <- damage_fct d x x0 r; Ok (ENum k * e)%E)).
  Proof.
    intros N N0 L. unfold damage_fct. destruct (functional_form d x r) as [a|] eqn:A; [|exact I]. cbn [bind].
    destruct (functional_form d x0 r) as [b|] eqn:B; [|exact I]. cbn [bind con_result]. ng; [exact (nice_form _ _ _ _ A N)|exact (nice_form _ _ _ _ B N0)].
  Qed.
  Lemma lim_dmg d x x0 r k y t : nice u x -> nice u x0 ->
    (forall j, sat (u j) (con_result (EV y t r) (do e <- damage_fct d x x0 r; Ok (ENum k * e)%E))) ->
    all_defined w (con_result (EV y t r) (do e <- damage_fct d x x0 r; Ok (ENum k * e)%E)) -> lim u (EV y t r).
  Proof.
    intros N N0 H D. unfold damage_fct in H, D. destruct (functional_form d x r) as [a|] eqn:A; cbn [bind con_result] in H, D; [|contradiction].
    destruct (functional_form d x0 r) as [b|] eqn:B; cbn [bind con_result] in H, D; [|contradiction].
    eapply con_lim_r; [exact H|ng|exact (proj2 D)]; [exact (nice_form _ _ _ _ A N)|exact (nice_form _ _ _ _ B N0)].
  Qed.
  Ltac in_dm D := in_damage; unfold damage_constraints; rewrite D; unfold coacch_constraints, nodamage_constraints; in_list.
  Lemma l_dns t r : dmg_module p = COACCH -> (t <= tf p)%nat -> In r regs -> lim u (EV v_damage_costs_non_slr t r).
  Proof.
    intros D T R. assert (M : In (RegionalC (Some "damage_costs_non_slr") (c_damage_costs_non_slr p)) (all_constraints p)) by in_dm D.
    eapply lim_dmg; [| |exact (sat_rr _ _ t r M T R)|exact (def_rr _ _ t r M T R)]; ng.
  Qed.
  Lemma l_ds t r : dmg_module p = COACCH -> (t <= tf p)%nat -> In r regs -> lim u (EV v_damage_costs_slr t r).
  Proof.
    intros D T R. assert (M : In (RegionalC (Some "damage_costs_slr") (c_damage_costs_slr p)) (all_constraints p)) by in_dm D.
    eapply lim_dmg; [| |exact (sat_rr _ _ t r M T R)|exact (def_rr _ _ t r M T R)]; ng.
  Qed.
  #[local] Hint Resolve l_dns l_ds : lims.
  Lemma l_d t r : (t <= tf p)%nat -> In r regs -> lim u (EV v_damage_costs t r).
  Proof.
    intros T R. destruct (dmg_module p) eqn:D.
    - assert (M : In (RegionalC (Some "damage_costs") c_damage_costs) (all_constraints p)) by in_dm D.
      eapply con_lim_r; [exact (sat_rr _ _ t r M T R)|ng|fgo2].
    - assert (M : In (RegionalC (Some "zero_damage_costs") c_zero_damage) (all_constraints p)) by in_dm D.
      eapply con_lim_r; [exact (sat_rr _ _ t r M T R)|ng|fgo2].
  Qed.
  #[local] Hint Resolve l_d l_tr : lims.
  Lemma l_mort y q t r : In (RegionalC None (c_mortality y q)) (all_constraints p) -> (t <= tf p)%nat -> In r regs -> lim u (EV y t r).
  Proof.
    intros M T R. pose proof (sat_rr _ _ t r M T R) as H. pose proof (def_rr _ _ t r M T R) as D. unfold c_mortality in H, D.
    destruct (q r) as [[a b] c]. eapply con_lim_r; [exact H|ng|exact (proj2 D)].
  Qed.
  Lemma l_mit t r : (t <= tf p)%nat -> In r regs -> lim u (EV v_mitigation_costs t r).
  Proof.
    intros T R. pose proof (fun P => l_tr t r P T R) as LT. pose proof (l_d t r T R) as LD. pose proof (l_net t r T R) as LN. pose proof (l_gross t r T R) as LG.
    apply (lim_val_r u _ _ _ (EV v_GDP_gross t r * (ENum 1 - (if ignore_damages p then ENum 0 else EV v_damage_costs t r)) - EV v_GDP_net t r - financial_transfer p t r)%E).
    - intros k. pose proof (q_GDP_net p (u k) (F k) t r T R) as E. cbn [deno]. destruct (ignore_damages p); cbn [deno] in *; rewrite E; ring.
    - unfold financial_transfer. apply nice_lim; destruct (ignore_damages p), (transfer p); cbn [nice defd]; tauto.
  Qed.
  Lemma l_LBD t : (t <= tf p)%nat -> lim u (EG g_LBD_factor t).
  Proof.
    intros T. assert (M : In (GlobalC (Some "LBD") (c_LBD p)) (all_constraints p)) by in_mitigation.
    eapply con_lim_g; [exact (sat_gg _ _ t M T)|ng|exact (proj2 (def_gg _ _ t M T))]. left. rewrite deno_soft_min. apply smin_pos. lra.
  Qed.
  Lemma l_LOT t : (t <= tf p)%nat -> lim u (EG g_LOT_factor t).
  Proof.
    intros T. assert (M : In (GlobalC (Some "LOT") (c_LOT p)) (all_constraints p)) by in_mitigation.
    eapply con_lim_g; [exact (sat_gg _ _ t M T)|ng|exact (proj2 (def_gg _ _ t M T))].
  Qed.
  #[local] Hint Resolve l_mit l_LBD l_LOT : lims.
  Lemma l_learn t : (t <= tf p)%nat -> lim u (EG g_learning_factor t).
  Proof.
    intros T. assert (M : In (GlobalC (Some "learning") c_learning) (all_constraints p)) by in_mitigation.
    eapply con_lim_g; [exact (sat_gg _ _ t M T)|ng|exact (proj2 (def_gg _ _ t M T))].
  Qed.
  #[local] Hint Resolve l_learn : lims.
  Lemma nice_MAC t r : (t <= tf p)%nat -> In r regs -> nice u (MAC p (EV v_relative_abatement t r) t r).
  Proof.
    intros T R. pose proof NR as (_ & _ & _ & Hb & _). unfold MAC. ng. right. eexists. split; [reflexivity|]. split; [exact Hb|].
    intros k. apply (q_bounds_r p (u k) (F k) t r T R).
  Qed.
  Lemma nice_AC t r : (t <= tf p)%nat -> In r regs -> nice u (AC p (EV v_relative_abatement t r) t r).
  Proof.
    intros T R. pose proof NR as (_ & _ & _ & Hb & _). unfold AC. ng. right. eexists. split; [reflexivity|]. split; [lra|].
    intros k. apply (q_bounds_r p (u k) (F k) t r T R).
  Qed.
  Lemma l_price t r : (t <= tf p)%nat -> In r regs -> lim u (EV v_carbonprice t r).
  Proof.
    intros T R. assert (M : In (RegionalC (Some "carbonprice") (c_carbonprice p)) (all_constraints p)) by in_mitigation.
    eapply con_lim_r; [exact (sat_rr _ _ t r M T R)|apply nice_MAC; assumption|exact (proj2 (def_rr _ _ t r M T R))].
  Qed.
  Lemma area_con : In (RegionalC (Some "area_under_MAC") (c_area_under_MAC p)) (all_constraints p).
  Proof. in_mitigation. Qed.
  Lemma l_area t r : (t <= tf p)%nat -> In r regs -> lim u (EV v_area_under_MAC t r).
  Proof.
    intros T R. eapply con_lim_r; [exact (sat_rr _ _ t r area_con T R)|split; [apply nice_AC; assumption|ng]|exact (proj2 (def_rr _ _ t r area_con T R))].
  Qed.
  #[local] Hint Resolve l_price l_area : lims.
  Lemma l_bal t r : trade p = emissiontrade -> (t <= tf p)%nat -> In r regs -> lim u (EV v_import_export_mitigation_cost_balance t r).
  Proof.
    intros E T R. apply (lim_val_r u _ _ _ (EV v_mitigation_costs t r - EV v_area_under_MAC t r)%E).
    - intros k. pose proof (q_mitigation p (u k) (F k) t r T R) as Q. unfold cost_balance in Q. rewrite E in Q. cbn [deno] in *. rewrite Q. ring.
    - apply nice_lim; [ng|fgo2].
  Qed.
  #[local] Hint Resolve l_bal : lims.
  Lemma l_relmit t r : (t <= tf p)%nat -> In r regs -> lim u (EV v_rel_mitigation_costs t r).
  Proof.
    intros T R. assert (M : In (RegionalC (Some "rel_mitigation_costs") c_rel_mitigation_costs) (all_constraints p)) by in_mitigation.
    eapply con_lim_r; [exact (sat_rr _ _ t r M T R)|ng|exact (proj2 (def_rr _ _ t r M T R))].
  Qed.
  Lemma l_reltr t r : transfer p = globaldamagepool -> (t <= tf p)%nat -> In r regs -> lim u (EV v_rel_financial_transfer t r).
  Proof.
    intros E T R. pose proof NR as (Hdt & Hdk & Hs & _). pose proof SD as (_ & PD & _).
    apply (lim_val_r u _ _ _ (EV v_financial_transfer t r / EV v_GDP_gross t r)%E).
    - intros k. pose proof (q_tr_rel p (u k) (F k) E t r T R) as Q. cbn [deno]. rewrite <- Q.
      assert (0 < GDP_gross (u k) t r) by (apply (C31_GDP_positive_pf p); auto). unfold GDP_gross in H. field. lra.
    - apply nice_lim; [ng|fgo2]. cbn [deno]. pose proof (gross_w t r T R). lra.
  Qed.
  #[local] Hint Resolve l_relmit l_reltr : lims.

  Ltac glob n f t T tac := let M := fresh "M" in assert (M : In (GlobalC (Some n) f) (all_constraints p)) by tac;
    eapply con_lim_g; [exact (sat_gg _ _ t M T)| |exact (proj2 (def_gg _ _ t M T))].
  Lemma l_relcum t : (t <= tf p)%nat -> lim u (EG g_emission_relative_cumulative t).
  Proof.
    intros T. destruct t as [|t].
    - pose proof (sat_gi _ _ (ltac:(in_emissions) : In (GlobalInitC None c_relative_cumulative_emissions_init) _)) as H. eapply con_lim_g; [exact H|ng|fgo2].
    - glob "relative_cumulative_emissions" (c_relative_cumulative_emissions p) (S t) T in_emissions. ng.
  Qed.
  Lemma l_grel t : (t <= tf p)%nat -> lim u (EG g_global_rel_mitigation_costs t).
  Proof. intros T. glob "global_rel_mitigation_costs" (c_global_rel_mitigation_costs p) t T in_mitigation. ng. Qed.
  Lemma l_unit1 t : (t < tf p)%nat -> lim u (EG g_global_emission_reduction_per_cost_unit (S t)).
  Proof. intros T. assert (T' : (S t <= tf p)%nat) by lia. glob "global_emission_reduction_per_cost_unit" (c_emission_reduction_per_cost_unit p) (S t) T' in_mitigation. ng. Qed.
  Lemma l_unit2 t : (t < tf p)%nat -> lim u (EG g_global_cost_per_emission_reduction_unit (S t)).
  Proof. intros T. assert (T' : (S t <= tf p)%nat) by lia. glob "global_cost_per_emission_reduction_unit" (c_cost_per_emission_reduction_unit p) (S t) T' in_mitigation. ng. Qed.
  #[local] Hint Resolve l_relcum l_grel l_unit1 l_unit2 : lims.
  Ltac in_et E := in_trade; unfold trade_constraints; rewrite E; unfold emissiontrade_constraints; in_list.
  Lemma l_gprice t : trade p = emissiontrade -> (t <= tf p)%nat -> lim u (EG g_global_carbonprice t).
  Proof. intros E T. glob "global_carbonprice" (c_global_carbonprice p) t T ltac:(in_et E). ng. Qed.
  #[local] Hint Resolve l_gprice : lims.
  Lemma l_imp t r : trade p = emissiontrade -> (t < tf p)%nat -> In r regs -> lim u (EV v_import_export_emission_reduction_balance (S t) r).
  Proof.
    intros E T R. assert (T' : (S t <= tf p)%nat) by lia.
    assert (M : In (RegionalC (Some "import_export_emission_reduction_balance") c_import_export_emission) (all_constraints p)) by in_et E.
    eapply con_lim_r; [exact (sat_rr _ _ _ r M T' R)|ng|exact (proj2 (def_rr _ _ _ r M T' R))].
  Qed.
  #[local] Hint Resolve l_imp : lims.
  Lemma l_paid t r : trade p = emissiontrade -> (t < tf p)%nat -> In r regs -> lim u (EV v_paid_for_emission_reductions (S t) r).
  Proof.
    intros E T R. assert (T' : (S t <= tf p)%nat) by lia.
    assert (M : In (RegionalC (Some "paid_for_emission_reductions") c_paid_for) (all_constraints p)) by in_et E.
    eapply con_lim_r; [exact (sat_rr _ _ _ r M T' R)|ng|exact (proj2 (def_rr _ _ _ r M T' R))].
  Qed.
  #[local] Hint Resolve l_paid : lims.
  Lemma l_allow t r : trade p = emissiontrade -> (t < tf p)%nat -> In r regs -> lim u (EV v_regional_emission_allowances (S t) r).
  Proof.
    intros E T R. assert (T' : (S t <= tf p)%nat) by lia.
    assert (M : In (RegionalC None c_allowances) (all_constraints p)) by in_et E.
    eapply con_lim_r; [exact (sat_rr _ _ _ r M T' R)|ng|exact (proj2 (def_rr _ _ _ r M T' R))].
  Qed.
  #[local] Hint Resolve l_allow : lims.
  Ltac in_wf W := in_welfare; unfold welfare_constraints; rewrite W; in_list.
  Ltac spos := left; rewrite deno_soft_min; apply smin_pos; lra.
  Lemma l_util t r : (t <= tf p)%nat -> In r regs -> lim u (EV v_utility t r).
  Proof.
    intros T R. destruct (welfare p) eqn:W.
    - assert (M : In (RegionalC (Some "utility") (c_wlm_utility p)) (all_constraints p)) by in_wf W.
      eapply con_lim_r; [exact (sat_rr _ _ _ r M T R)| |exact (proj2 (def_rr _ _ _ r M T R))]. unfold calc_utility, popE. ng. spos.
    - assert (M : In (RegionalC (Some "utility") (c_cm_utility p)) (all_constraints p)) by in_wf W.
      eapply con_lim_r; [exact (sat_rr _ _ _ r M T R)| |exact (proj2 (def_rr _ _ _ r M T R))]. unfold popE. ng.
    - assert (M : In (RegionalC (Some "utility") (c_iag_utility p)) (all_constraints p)) by in_wf W.
      eapply con_lim_r; [exact (sat_rr _ _ _ r M T R)| |exact (proj2 (def_rr _ _ _ r M T R))]. unfold popE. ng. spos.
  Qed.
  #[local] Hint Resolve l_util : lims.
  Lemma l_wel t : (t <= tf p)%nat -> lim u (EG g_yearly_welfare t).
  Proof.
    intros T. destruct (welfare p) eqn:W.
    - glob "yearly_welfare" (c_wlm_welfare p) t T ltac:(in_wf W). unfold popE. ng.
    - glob "yearly_welfare" (c_cm_welfare p) t T ltac:(in_wf W). unfold calc_utility, pop_sumE, popE. ng. spos.
    - glob "yearly_welfare" (c_iag_welfare p) t T ltac:(in_wf W). unfold pop_sumE, popE. ng. spos.
  Qed.
  #[local] Hint Resolve l_wel : lims.
  Lemma NPV_con : In (GlobalC (Some "NPV") (match objective p with utility => c_NPV_utility p | globalcosts => c_NPV_costs p end)) (all_constraints p).
  Proof. in_objective. Qed.
  Lemma l_NPV t : (t <= tf p)%nat -> lim u (EG g_NPV t).
  Proof.
    induction t as [|t IH]; intros T.
    - pose proof (sat_gi _ _ (ltac:(in_objective) : In (GlobalInitC None c_NPV_init) _)) as H. eapply con_lim_g; [exact H|ng|fgo2].
    - assert (I := IH ltac:(lia)). pose proof (sat_gg _ _ _ NPV_con T) as H. pose proof (def_gg _ _ _ NPV_con T) as D.
      destruct (objective p); (eapply con_lim_g; [exact H|ng|exact (proj2 D)]).
  Qed.
  #[local] Hint Resolve l_NPV : lims.

  (** Every constraint consists of converging parts. *)
  Ltac start := repeat (apply Forall_cons; [intros o Ho; revert o Ho; apply outs_cases;
      [exact I|intros t r o Ht Hr Ho; cbn [rule_at] in Ho]|]); try apply Forall_nil.
  Ltac dprev t := destruct t as [|?s]; cbn [prev]; [discriminate|].
  Notation all_nice l := (Forall (fun c => forall o, In o (outs p c) -> nice_out u o) l).
  Lemma n_emissions : all_nice (emissions_constraints p).
  Proof.
    unfold emissions_constraints. start; subst.
    - unfold c_baseline_emissions. destruct (use_carbon_intensity p); ng.
    - unfold c_regional_abatement. destruct (Nat.ltb 0 t), (use_carbon_intensity p); ng.
    - unfold c_regional_emissions_init; ng.
    - unfold c_regional_emission_reduction; ng.
    - unfold c_global_emissions. destruct (Nat.ltb 0 t); ng.
    - unfold c_global_emissions_init; ng.
    - unfold c_cumulative_emissions. destruct (Nat.ltb 0 t) eqn:L; [|exact I]. dprev t. destruct (cum_trapz p); ng.
    - unfold c_cumulative_emissions_init; ng.
    - unfold c_relative_cumulative_emissions. destruct (Nat.ltb 0 t) eqn:L; ng.
    - unfold c_relative_cumulative_emissions_init; ng.
    - unfold c_temperature; ng.
    - unfold c_temperature_init; ng.
    - unfold c_temperature_target. destruct (temperature_target p), (Rleb 2100 (year p t)); ng.
    - unfold c_carbon_budget. destruct (budget p); [|ng]. destruct (Rleb 2100 (year p t)) eqn:Y; [|ng].
      destruct (Rltb (perc_reversible p) 1) eqn:Q; ng.
    - unfold c_cumulative_emissions_nonneg; ng.
    - unfold c_global_inertia. destruct (inertia_global p), (Nat.ltb 0 t) eqn:L; try exact I. dprev t. ng.
    - unfold c_regional_inertia. destruct (inertia_regional p), (Nat.ltb 0 t) eqn:L; try exact I. dprev t. ng.
    - unfold c_global_min_level. destruct (global_min_level p); ng.
    - unfold c_regional_min_level. destruct (regional_min_level p); ng.
    - unfold c_non_increasing. destruct (Rltb 2100 (year_before p t) && non_increasing_after_2100 p); [|exact I].
      destruct t as [|s]; cbn [prev]; ng.
    - unfold c_net_zero. destruct (budget p), (Rleb 2100 (year p t) && no_pos_after_budget_year p); ng.
  Qed.
  Lemma n_slr : all_nice (slr_constraints p).
  Proof.
    unfold slr_constraints. start; subst.
    - unfold c_SLR_thermal. destruct (Nat.ltb 0 t) eqn:L; [|exact I]. dprev t. unfold slr_thermal_expansion. ng.
      left. cbn [deno]. unfold slr_thermal_adjust_rate. lra.
    - unfold c_SLR_thermal_init; ng.
    - unfold c_SLR_GSIC. destruct (Nat.ltb 0 t) eqn:L; [|exact I]. dprev t. unfold slr_gsic. ng.
    - unfold c_SLR_GSIC_init; ng.
    - unfold c_SLR_GIS. destruct (Nat.ltb 0 t) eqn:L; [|exact I]. dprev t. unfold slr_gis. ng.
    - unfold c_SLR_GIS_init; ng.
    - unfold c_total_SLR; ng.
  Qed.
  Lemma n_damages : all_nice (damage_constraints p).
  Proof.
    destruct (dmg_module p) eqn:D; unfold damage_constraints; rewrite D.
    - assert (MO : forall t r, (t <= tf p)%nat -> In r regs -> lim u (EV v_mortality_oldest t r)) by (intros t r; apply l_mort with (q := mort_oldest p); in_dm D).
      assert (MR : forall t r, (t <= tf p)%nat -> In r regs -> lim u (EV v_mortality_older t r)) by (intros t r; apply l_mort with (q := mort_older p); in_dm D).
      assert (MY : forall t r, (t <= tf p)%nat -> In r regs -> lim u (EV v_mortality_young t r)) by (intros t r; apply l_mort with (q := mort_young p); in_dm D).
      assert (MC : forall t r, (t <= tf p)%nat -> In r regs -> lim u (EV v_mortality_cost_oldest t r)).
      { intros t r T R. assert (M : In (RegionalC None (c_mortality_cost p)) (all_constraints p)) by in_dm D.
        eapply con_lim_r; [exact (sat_rr _ _ _ r M T R)|ng|exact (proj2 (def_rr _ _ _ r M T R))]. }
      unfold coacch_constraints. start; subst.
      + unfold c_damage_costs. ng.
      + apply nice_dmg; ng.
      + apply nice_dmg; ng.
      + unfold c_mortality. destruct (mort_oldest p r) as [[a b] c]. ng.
      + unfold c_mortality. destruct (mort_older p r) as [[a b] c]. ng.
      + unfold c_mortality. destruct (mort_young p r) as [[a b] c]. ng.
      + unfold c_mortality_cost. ng.
    - unfold nodamage_constraints. start; subst. unfold c_zero_damage. ng.
  Qed.
  Lemma n_mitigation : all_nice (mitigation_constraints p).
  Proof.
    unfold mitigation_constraints. start; subst.
    - split; [ng|apply nice_MAC; assumption].
    - unfold c_init_carbon_price; ng.
    - split; [ng|]. split; [split; [apply nice_AC; assumption|ng]|]. unfold cost_balance. pose proof (fun E => l_bal t r E Ht Hr) as B.
      destruct U as (U1 & _). destruct (trade p); [exact I|congruence|apply B; reflexivity].
    - split; [ng|]. split; [apply nice_AC; assumption|ng].
    - unfold c_rel_mitigation_costs; ng.
    - unfold c_rel_mitigation_costs_non_negative; ng.
    - unfold c_global_rel_mitigation_costs; ng.
    - unfold c_emission_reduction_per_cost_unit. destruct t as [|t]; cbn [Nat.ltb Nat.leb]; ng.
    - unfold c_cost_per_emission_reduction_unit. destruct t as [|t]; cbn [Nat.ltb Nat.leb]; ng.
    - unfold c_LBD; ng. spos.
    - unfold c_LOT; ng.
    - unfold c_learning; ng.
  Qed.
  Lemma n_trade : all_nice (trade_constraints p).
  Proof.
    assert (E : trade p = notrade \/ trade p = emissiontrade) by (destruct U as (U1 & _); destruct (trade p); auto; congruence).
    destruct E as [E|E]; unfold trade_constraints; rewrite E; [constructor|].
    unfold emissiontrade_constraints. start; subst.
    - unfold c_global_carbonprice; ng.
    - unfold c_sum_cost_balance; ng.
    - unfold c_import_export_emission. destruct t as [|t]; cbn [Nat.ltb Nat.leb]; ng.
    - unfold c_paid_for. destruct t as [|t]; cbn [Nat.ltb Nat.leb]; ng.
    - unfold c_allowances. destruct t as [|t]; cbn [Nat.ltb Nat.leb]; ng.
  Qed.
  Lemma n_transfer : all_nice (transfer_constraints p).
  Proof.
    assert (E : transfer p = notransfer \/ transfer p = globaldamagepool) by (destruct (transfer p); auto).
    destruct E as [E|E]; unfold transfer_constraints; rewrite E; [constructor|]. start; subst.
    - unfold c_zero_sum_transfer. destruct (Nat.ltb 0 t); ng.
    - unfold c_no_transfer_first; ng.
    - unfold c_transfer_max; ng.
    - unfold c_transfer_rel; ng.
  Qed.
  Lemma n_effort : all_nice (effort_constraints p).
  Proof.
    pose proof U as (_ & U2 & _). pose proof l_reltr as LR. pose proof l_allow as LA.
    unfold effort_constraints, equal_mitigation_constraint, equal_total_constraint, percapconv_constraint.
    start; destruct Ho as [Hi [b ->]]; cbn [soft_con].
    - apply negb_false_iff in Hi. assert (lim u (EG g_effort_sharing_common_level t)).
      { apply l_level; [exact Ht|]. left. destruct (effort_regime p); try discriminate; reflexivity. }
      unfold rhs_eps. ng.
    - apply orb_false_iff in Hi as [Hi Hy]. apply negb_false_iff in Hi. apply Rltb_false in Hy. assert (lim u (EG g_effort_sharing_common_level t)).
      { apply l_level; [exact Ht|]. right. split; [|exact Hy]. destruct (effort_regime p); try discriminate; reflexivity. }
      pose proof (l_relmit t r Ht Hr) as L1. pose proof (l_d t r Ht Hr) as L2.
      unfold rhs_eps, rel_financial_transfer. destruct (transfer p) eqn:T; cbn [nice_out nice]; auto 10.
    - apply orb_false_iff in Hi as [H1 H2]. apply Nat.eqb_neq in H2. apply negb_false_iff in H1.
      rewrite U2; [|destruct (effort_regime p); try discriminate; auto|lia].
      destruct t as [|t]; [congruence|]. unfold rhs_eps. ng. apply LA; [apply U2; [destruct (effort_regime p); try discriminate; auto|lia]|lia|exact Hr].
  Qed.
  Lemma n_cobb : all_nice (cobbdouglas_constraints p).
  Proof.
    pose proof NR as (Hdt & Hdk & _). pose proof SD as (_ & PD & _). pose proof l_tr as LT. unfold cobbdouglas_constraints. start; subst.
    - unfold c_GDP_gross, calc_GDP. destruct (Nat.ltb 0 t); ng.
      + left. cbn [deno]. apply (PD r Hr). exact Ht.
      + spos.
    - unfold c_GDP_gross_init; ng.
    - pose proof (l_d t r Ht Hr). pose proof (l_net t r Ht Hr). pose proof (l_gross t r Ht Hr). pose proof (l_mit t r Ht Hr). pose proof (fun E => LT t r E Ht Hr) as LT'. clear LT.
      unfold c_GDP_net, financial_transfer. destruct (ignore_damages p), (transfer p); cbn [nice_out nice]; tauto.
    - unfold c_investments; ng.
    - unfold c_consumption; ng.
    - unfold c_capital_stock, calc_dKdt. destruct (Nat.ltb 0 t) eqn:L; [|exact I]. dprev t. ng. left. cbn [deno]. lra.
    - unfold c_capital_stock_init; ng.
  Qed.
  Lemma n_welfare : all_nice (welfare_constraints p).
  Proof.
    unfold welfare_constraints. destruct (welfare p) eqn:W; start; subst.
    - unfold c_wlm_utility, calc_utility, popE. ng. spos.
    - unfold c_wlm_welfare, popE. ng.
    - unfold c_cm_utility, popE. ng.
    - unfold c_cm_welfare, calc_utility, pop_sumE, popE. ng. spos.
    - unfold c_iag_utility, popE. ng. spos.
    - unfold c_iag_welfare, pop_sumE, popE. ng. spos.
  Qed.
  Lemma n_objective : all_nice (objective_constraints p).
  Proof.
    unfold objective_constraints. start; subst.
    - destruct (objective p); [unfold c_NPV_utility|unfold c_NPV_costs]; (destruct (Nat.ltb 0 t) eqn:L; [|exact I]); dprev t; ng.
    - unfold c_NPV_init; ng.
  Qed.
  Lemma n_all c o : In c (all_constraints p) -> In o (outs p c) -> nice_out u o.
  Proof.
    revert c o. apply (Forall_outs (nice_out u) p). unfold all_constraints. rewrite !Forall_app.
    repeat split; [apply n_emissions|apply n_slr|apply n_damages|apply n_mitigation|apply n_trade
      |apply n_transfer|apply n_effort|apply n_cobb|apply n_welfare|apply n_objective].
  Qed.
  Lemma limit_feasible : feasible p w.
  Proof.
    split.
    - intros c nc C N o O. assert (OO : In o (outs p c)) by (unfold outs; apply in_flat_map; eauto).
      apply sat_limit; [|exact (n_all c o C OO)|exact (def_out c o C OO)]. intros k. exact (proj1 (F k) c nc C N o O).
    - intros t T. pose proof (fun k => proj2 (F k) t T) as B.
      split; [apply (lim_ge _ _ _ (l_thermal t T)); intros k; apply (B k)|]. split; [apply (lim_ge _ _ _ (l_gsic t T)); intros k; apply (B k)|].
      split; [apply (lim_ge _ _ _ (l_gis t T)); intros k; apply (B k)|]. split; [apply (lim_ge _ _ _ (l_slr t T)); intros k; apply (B k)|].
      intros r R. assert (BR := fun k => proj2 (proj2 (proj2 (proj2 (B k)))) r R). cbn beta in BR.
      split; [split; [apply (lim_ge _ _ _ (l_ab t r T R))|apply (lim_le _ _ _ (l_ab t r T R))]; intros k; apply (BR k)|].
      split; [split; [apply (lim_ge _ _ _ (l_price t r T R))|apply (lim_le _ _ _ (l_price t r T R))]; intros k; apply (BR k)|].
      split; [intros D; split; [apply (lim_ge _ _ _ (l_ds t r D T R))|apply (lim_le _ _ _ (l_ds t r D T R))]; intros k; apply (BR k), D|].
      intros E. destruct (proj1 U E).
  Qed.
End Model.
