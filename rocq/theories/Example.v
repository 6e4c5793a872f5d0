(** Concrete parameter sets meeting the hypotheses of the theorems: two regions, 2020-2120 in steps of five
    years, realistic magnitudes (GtCO2/yr, trillion USD, degrees).  Every option of the model is a parameter. *)
From Coq Require Import Lra Lia String List.
From Verif Require Import ModelFacts SoftFacts ModelSpec PowFacts Equations Equations2 Build VarFacts EconLemmas BuildFacts BuildLemmas DefinedFacts
  SolveFacts ClimateSpec ClimateLemmas WelfareSpec PolicySpec Simulate SimFacts ExistSpec ExistFacts ExistLemmas.
Import ListNotations.
Set Bullet Behavior "Strict Subproofs".
Open Scope R_scope.

Definition isA (r : region) : bool := String.eqb r "A".
Definition ex_GDP (r : region) : R := if isA r then 40 else 80.
Definition ex_noslr : dmg := {|
  d_form := fun _ => "Robust-Quadratic"%string; d_b1 := fun r => if isA r then 0 else 1/2; d_b2 := fun r => if isA r then 1 else 2/10;
  d_b3 := fun _ => 0; d_a := fun _ => 1 |}.
Definition ex_slr (tn : transfer_module) : dmg := {|
  d_form := fun r => if isA r then "Robust-Linear"%string else "OLS-Logistic"%string;
  d_b1 := fun r => if isA r then 1 else 2; d_b2 := fun _ => 234/10; d_b3 := fun _ => 843/100;
  d_a := fun _ => match tn with notransfer => 1 | globaldamagepool => 0 end |}.
Definition no_policy : policy := {| pol_budget := None; pol_temperature := None; pol_inertia_global := None;
  pol_inertia_regional := None; pol_min_global := None; pol_min_regional := None; pol_non_increasing := false; pol_net_zero := false |}.
Definition ex (ci trapz : bool) (dm : damage_module) (tr : trade_module) (tn : transfer_module) (er : regime)
   (we : welfare_module) (ob : objective_module) (q : policy) : pars := {|
  beginyear := 2020; dt := 5; tf := 20; regions := ["A"; "B"]%string;
  population := fun _ r => 4; baseline_GDP := fun _ r => ex_GDP r; baseline_emissions := fun _ _ => 20;
  use_carbon_intensity := ci; cum_trapz := trapz; T0 := 12/10; TCRE := 62/100000;
  temperature_target := pol_temperature q; perc_reversible := 1; budget := pol_budget q;
  inertia_global := pol_inertia_global q; inertia_regional := pol_inertia_regional q;
  global_min_level := pol_min_global q; regional_min_level := pol_min_regional q;
  non_increasing_after_2100 := pol_non_increasing q; no_pos_after_budget_year := pol_net_zero q;
  dmg_module := dm; damage_scale_factor := 1; dmg_noslr := ex_noslr; dmg_slr := ex_slr tn;
  mort_oldest := fun _ => (1, 2, 3); mort_older := fun _ => (1, 2, 3); mort_young := fun _ => (1, 2, 3);
  MAC_gamma := 2; MAC_beta := 3; MAC_scaling := fun r => if isA r then 1 else 3/4; rel_mitigation_costs_min_level := -1/2;
  LBD_rate := 82/100; LBD_scaling := 40; LOT_rate := 0;
  trade := tr; min_rel_payment_level := None; max_rel_payment_level := None; transfer := tn; effort_regime := er;
  percapconv_year := Some 2050; init_capital_factor := fun _ => 3; alpha := 3/10; dk := 5/100; sr := 21/100;
  ignore_damages := false; welfare := we; elasmu := 1001/1000; inequal_aversion := 1/2; objective := ob; PRTP := 15/1000 |}.

Section Ex.
  Variables (ci trapz : bool) (dm : damage_module) (tr : trade_module) (tn : transfer_module) (er : regime)
    (we : welfare_module) (ob : objective_module) (q : policy).
  Notation p := (ex ci trapz dm tr tn er we ob q).
  Lemma ex_reg r : In r (regions p) -> r = "A"%string \/ r = "B"%string.
  Proof. cbn. intros [<-|[<-|[]]]; auto. Qed.
  Lemma ex_sum f : Rsum f (regions p) = f "A"%string + f "B"%string.
  Proof. cbn. ring. Qed.
  Lemma ex_GDP_pos r : 0 < ex_GDP r. Proof. unfold ex_GDP. destruct (isA r); lra. Qed.
  Lemma ex_ranges : numeric_ranges p.
  Proof. unfold numeric_ranges, ex. cbn. lra. Qed.
  Lemma ex_cumbase t r : cumulative_baseline_emissions p t r = 100 * INR t.
  Proof. induction t as [|t IH]; [cbn; ring|]. rewrite S_INR. cbn [cumulative_baseline_emissions]. rewrite IH. unfold year. rewrite S_INR. cbn [baseline_emissions dt beginyear ex]. lra. Qed.
  Lemma ex_cumbase_g t : cumulative_global_baseline_emissions p t = 200 * INR t.
  Proof. unfold cumulative_global_baseline_emissions. rewrite ex_sum, !ex_cumbase. ring. Qed.
  Lemma ex_data : sound_data p.
  Proof.
    split; [cbn; discriminate|]. split; [|split; [|split; [|split]]].
    - intros r Hr. cbn [init_capital_factor population baseline_GDP ex]. split; [lra|]. intros. split; [lra|apply ex_GDP_pos].
    - intros r Hr. cbn. lra.
    - intros t [Ht _]. rewrite ex_cumbase_g. assert (0 < INR t) by (apply lt_0_INR; auto). lra.
    - intros _ r Hr _. cbn [dmg_noslr ex ex_noslr d_b2]. destruct (isA r); lra.
    - intros _ r Hr _. cbn [dmg_slr ex ex_slr d_b2]. lra.
  Qed.
  Lemma ex_choices : tr <> globalcostpool -> (er = per_cap_convergence -> tr = emissiontrade) -> usable_choices p.
  Proof.
    intros H1 H2. unfold usable_choices. cbn [trade effort_regime budget non_increasing_after_2100 LBD_scaling elasmu welfare inequal_aversion dmg_module perc_reversible beginyear dt ex].
    repeat split; auto; try lra; intros; try lra.
    - right; left. vm_compute. reflexivity.
    - apply ex_reg in H0 as [-> | ->]; [left|right; right]; vm_compute; reflexivity.
  Qed.
  Lemma ex_logistic : slr_logistic_ok p.
  Proof. intros _ r Hr _. left. cbn [dmg_slr ex ex_slr d_b2]. lra. Qed.

  (** ** the envelope *)
  Definition ex_Kb (t : nat) (r : region) : R := 10 * ex_GDP r.
  Definition ex_Cb (t : nat) : R := 385 * INR t.
  Lemma ex_survival : survival p = 95/100 * (95/100) * (95/100) * (95/100) * (95/100).
  Proof.
    unfold survival. cbn [dt dk ex]. replace (5 * ln (1 - 5/100)) with (ln (1 - 5/100) + ln (1 - 5/100) + ln (1 - 5/100) + ln (1 - 5/100) + ln (1 - 5/100)) by ring.
    rewrite !exp_plus, exp_ln by lra. lra.
  Qed.
  Lemma ex_Kcal t r : 3 * ex_GDP r <= TFP_capital p t r.
  Proof.
    induction t as [|t IH]; [cbn; lra|]. cbn [TFP_capital]. unfold calc_dKdt_num.
    destruct (surv_range p) as [-> _]; [cbn; lra|cbn; lra|]. rewrite ex_survival. cbn [dt sr baseline_GDP ex].
    pose proof (ex_GDP_pos r). lra.
  Qed.
  Lemma root_bound x y : 0 < y -> 0 < x -> x / y <= (183/100) * (183/100) -> 1 <= x / y -> Rpower x (3/10) <= 183/100 * Rpower y (3/10).
  Proof.
    intros Hy Hx H1 H2. replace x with (x / y * y) by (field; lra).
    assert (P : 0 < x / y) by (apply Rdiv_lt_0_compat; auto).
    rewrite <- Rpower_mult_distr by auto. apply Rmult_le_compat_r; [apply Rlt_le, exp_pos|].
    apply Rle_trans with (Rpower (183/100 * (183/100)) (3/10)); [apply Rpower_le_base; lra|].
    rewrite <- Rpower_mult_distr by lra. rewrite <- Rpower_plus.
    rewrite <- (Rpower_1 (183/100)) at 2 by lra. apply Rle_Rpower; lra.
  Qed.
  Lemma ex_output t r : In r (regions p) -> 0 < output_scale p t r * Rpower (smin 10 (ex_Kb t r)) (alpha p) <= 183/100 * ex_GDP r.
  Proof.
    intros Hr. unfold output_scale, TFP, calc_GDP_num. cbn [baseline_GDP population alpha ex].
    pose proof (ex_GDP_pos r) as G. pose proof (ex_Kcal t r) as K. assert (K0 : 0 < TFP_capital p t r) by lra.
    rewrite !pypow_pos by lra. set (Kc := TFP_capital p t r) in *.
    assert (P1 : 0 < Rpower 4 (1 - 3/10)) by apply exp_pos. assert (P2 : 0 < Rpower Kc (3/10)) by apply exp_pos.
    replace (ex_GDP r / (1 * Rpower 4 (1 - 3 / 10) * Rpower Kc (3 / 10)) * Rpower 4 (1 - 3 / 10) * Rpower (smin 10 (ex_Kb t r)) (3 / 10))
      with (ex_GDP r * (Rpower (smin 10 (ex_Kb t r)) (3/10) / Rpower Kc (3/10))) by (field; lra).
    assert (S0 : 0 < smin 10 (ex_Kb t r)) by (apply smin_pos; lra).
    assert (P3 : 0 < Rpower (smin 10 (ex_Kb t r)) (3/10)) by apply exp_pos.
    split; [apply Rmult_lt_0_compat; auto; apply Rdiv_lt_0_compat; auto|].
    rewrite (Rmult_comm (183/100)). apply Rmult_le_compat_l; [lra|].
    apply Rmult_le_reg_r with (Rpower Kc (3/10)); auto. unfold Rdiv at 1. rewrite Rmult_assoc, Rinv_l, Rmult_1_r by lra.
    apply Rle_trans with (183/100 * Rpower (3 * ex_GDP r) (3/10)).
    - pose proof (smin10_gap (ex_Kb t r)) as SG. unfold ex_Kb in *. rewrite Rmax_left in SG by lra.
      assert (G40 : 40 <= ex_GDP r) by (unfold ex_GDP; destruct (isA r); lra).
      apply root_bound; try lra.
      + apply Rmult_le_reg_r with (3 * ex_GDP r); [lra|]. unfold Rdiv at 1. rewrite Rmult_assoc, Rinv_l by lra. lra.
      + apply Rmult_le_reg_r with (3 * ex_GDP r); [lra|]. unfold Rdiv. rewrite Rmult_assoc, Rinv_l by lra. lra.
    - apply Rmult_le_compat_l; [lra|]. apply Rpower_le_base; lra.
  Qed.
  Lemma ex_envelope : envelope p (105/100) ex_Kb ex_Cb.
  Proof.
    split; [intros r Hr; cbn [init_capital_factor baseline_GDP ex]; unfold ex_Kb; pose proof (ex_GDP_pos r); lra|].
    split; [unfold ex_Cb; cbn; lra|]. intros t Ht. split.
    - intros r Hr. destruct (ex_output (S t) r Hr) as [O1 O2]. rewrite ex_survival. set (Y := output_scale p (S t) r * _) in *.
      cbn [dt sr ex]. unfold ex_Kb in *. pose proof (ex_GDP_pos r). lra.
    - unfold ex_Cb. rewrite S_INR. cbn [dt cum_trapz ex].
      assert (E : forall s, (0 < s)%nat -> total p (fun r => baseline_carbon_intensity p s r * (105/100 * (output_scale p s r * Rpower (smin 10 (ex_Kb s r)) (alpha p)))) <= 77).
      { intros s Hs. unfold total. rewrite ex_sum. unfold baseline_carbon_intensity. cbn [baseline_emissions baseline_GDP ex].
        destruct (ex_output s "A" ltac:(cbn; auto)) as [_ O1]. destruct (ex_output s "B" ltac:(cbn; auto)) as [_ O2].
        change (ex_GDP "A") with 40 in *. change (ex_GDP "B") with 80 in *. lra. }
      pose proof (E (S t) ltac:(lia)) as E1. cbv zeta.
      assert (E0 : (match t with O => total p (baseline_emissions p 0) | S _ => total p (fun r => baseline_carbon_intensity p t r * (105/100 * (output_scale p t r * Rpower (smin 10 (ex_Kb t r)) (alpha p)))) end) <= 77).
      { destruct t as [|t]; [unfold total; rewrite ex_sum; cbn; lra|apply E; lia]. }
      destruct trapz; lra.
  Qed.
  Lemma ex_Tmax t : model_step p t -> T0 p + TCRE p * ex_Cb t <= 6.
  Proof.
    intros Ht. unfold model_step in Ht. cbn [tf ex] in Ht. cbn [T0 TCRE ex]. unfold ex_Cb. assert (INR t <= INR 20) by (apply le_INR; auto).
    cbn in H. lra.
  Qed.
  Lemma ex_curve_noslr r x : 6/10 <= x <= 54/10 ->
    let f := damage_curve ex_noslr r in 0 <= f x - f (6/10) <= 1/2.
  Proof.
    intros Hx. unfold damage_curve. cbn [d_form ex_noslr]. replace (str_contains "Linear" "Robust-Quadratic") with false by (vm_compute; reflexivity).
    replace (str_contains "Quadratic" "Robust-Quadratic") with true by (vm_compute; reflexivity). cbn [d_a d_b1 d_b2 ex_noslr].
    assert (6/10 * (6/10) <= x * x <= 54/10 * (54/10)) by (split; apply Rmult_le_compat; lra).
    destruct (isA r); cbn [pow]; lra.
  Qed.
  Lemma ex_curve_slr r x y : In r (regions p) -> 0 <= x <= 5/2 -> 0 <= y <= 5/2 ->
    Rabs (damage_curve (ex_slr tn) r x - damage_curve (ex_slr tn) r y) <= 4/100.
  Proof.
    intros Hr Hx Hy. apply ex_reg in Hr as [-> | ->].
    - unfold damage_curve. cbn [d_form ex_slr]. change (isA "A") with true. cbv iota.
      replace (str_contains "Linear" "Robust-Linear") with true by (vm_compute; reflexivity). cbn [d_a d_b1 ex_slr]. change (isA "A") with true.
      destruct tn; apply Rabs_le; lra.
    - assert (L : is_logistic (ex_slr tn) "B") by (split; vm_compute; reflexivity).
      pose proof (C40_logistic_bounded_pf (ex_slr tn) "B" x L ltac:(cbn; lra)) as A.
      pose proof (C40_logistic_bounded_pf (ex_slr tn) "B" y L ltac:(cbn; lra)) as B.
      assert (Q : Rabs (d_a (ex_slr tn) "B" * d_b1 (ex_slr tn) "B") / 100 <= 2/100).
      { cbn [d_a d_b1 ex_slr]. change (isA "B") with false. destruct tn; [rewrite Rabs_right by lra; lra|rewrite Rmult_0_l, Rabs_R0; lra]. }
      pose proof (Rabs_triang (damage_curve (ex_slr tn) "B" x) (- damage_curve (ex_slr tn) "B" y)) as T. rewrite Rabs_Ropp in T. unfold Rminus. lra.
  Qed.
  Lemma ex_damages r x y : In r (regions p) -> T0 p <= x <= 6 -> 0 <= y <= sea_level_ceiling p 6 ->
     1 - 105/100 <= damages_at p r x y <= 1 /\ -5/10 <= damages_at p r (T0 p) y <= 7/10 /\
     (transfer p = globaldamagepool -> 0 <= damages_at p r x y).
  Proof.
    intros Hr Hx Hy. unfold sea_level_ceiling in Hy. cbn [T0 tf dt ex] in *. replace (INR 20) with 20 in Hy by (cbn; lra).
    assert (Y0 : 0 <= slr_thermal_expansion_init p + 15/1000 + 6/1000 <= 5/2).
    { unfold slr_thermal_expansion_init, slr_thermal_init, slr_thermal_adjust_rate, slr_thermal_equil. cbn [T0 ex]. lra. }
    set (y0 := slr_thermal_expansion_init p + 15/1000 + 6/1000) in *.
    pose proof (ex_curve_slr r y y0 Hr ltac:(lra) Y0) as S. assert (S1 : -(4/100) <= damage_curve (ex_slr tn) r y - damage_curve (ex_slr tn) r y0 <= 4/100) by (revert S; unfold Rabs; destruct Rcase_abs; lra). clear S.
    pose proof (ex_curve_noslr r (x - 6/10) ltac:(lra)) as N. cbv zeta in N.
    unfold damages_at. fold y0. cbn [damage_scale_factor dmg_noslr dmg_slr T0 transfer ex].
    replace (12/10 - 6/10) with (6/10) by lra. split; [lra|]. split; [lra|].
    intros TN. assert (Z : damage_curve (ex_slr tn) r y - damage_curve (ex_slr tn) r y0 = 0).
    { unfold damage_curve. cbn [d_a ex_slr]. rewrite TN. cbv zeta iota. repeat match goal with |- context[str_contains ?a ?b] => destruct (str_contains a b) end; unfold Rdiv; rewrite !Rmult_0_l; ring. }
    lra.
  Qed.
End Ex.

(** Zero abatement, no policy limits: a solution for every combination of options, with the default
    (endogenous) baseline. *)
Lemma ex_default_solution trapz dm tr tn we ob : tr <> globalcostpool ->
  exists v, feasible (ex true trapz dm tr tn noregime we ob no_policy) v.
Proof.
  intros HT. set (p := ex true trapz dm tr tn noregime we ob no_policy).
  destruct (C52_no_policy_run_exists_pf p (105/100) 6 ex_Kb ex_Cb) as [v [F _]]; eauto.
  - apply ex_ranges.
  - apply ex_data.
  - apply ex_choices; auto. discriminate.
  - apply ex_logistic.
  - cbn; lra.
  - unfold no_limits, p; cbn. repeat split; try (intros; discriminate); lra.
  - intros; cbn; lra.
  - intros r Hr; cbn. destruct (isA r); lra.
  - cbn; lra.
  - cbn; lra.
  - cbn; lra.
  - lra.
  - apply ex_envelope.
  - apply ex_Tmax.
  - cbn; lra.
  - intros _ r x y R X Y. assert (D : 1 - 105/100 <= damages_at p r x y <= 1 /\ -5/10 <= damages_at p r (T0 p) y <= 7/10 /\ (transfer p = globaldamagepool -> 0 <= damages_at p r x y)) by (apply ex_damages; assumption). tauto.
Qed.

(** ** prescribed baseline: explicit cumulative emissions *)
Section Exo.
  Variables (trapz : bool) (dm : damage_module) (tr : trade_module) (tn : transfer_module) (er : regime)
    (we : welfare_module) (ob : objective_module) (q : policy).
  Notation p := (ex false trapz dm tr tn er we ob q).
  Variable a : nat -> region -> R.
  Variable cum : nat -> R.
  Variable level : nat -> R.
  Hypothesis HA : forall t r, model_step p t -> In r (regions p) -> 0 <= a t r <= 1.
  Hypothesis HC : forall t, model_step p t -> 0 <= cum t <= 200 * INR t.
  Lemma ex_cb t : (t <= 20)%nat -> 0 <= cum t <= ex_Cb t.
  Proof. intros Ht. destruct (HC t Ht). unfold ex_Cb. pose proof (pos_INR t). lra. Qed.
  Lemma exo_slr t : model_step p t -> 0 <= s_th p cum t /\ 0 <= s_gs p cum t /\ 0 <= s_gi p cum t /\ 0 <= s_slr p cum t <= sea_level_ceiling p 6.
  Proof.
    intros Ht.
    assert (Q1 : 0 <= T0 p) by (cbn; lra). assert (Q2 : 0 <= TCRE p) by (cbn; lra). assert (Q3 : dt p * (6 + 1) < 325) by (cbn; lra).
    assert (CBt : forall s, (s < t)%nat -> 0 <= cum s <= ex_Cb s).
    { intros s Hs. apply ex_cb. unfold model_step in Ht. cbn [tf ex] in Ht. lia. }
    destruct (slr_range p 6 ex_Cb (ex_ranges _ _ _ _ _ _ _ _ _) Q1 Q2 (ex_Tmax _ _ _ _ _ _ _ _ _) Q3 cum t Ht CBt) as (A & B & C & _).
    pose proof (slr_ceiling p (105/100) 6 ex_Kb ex_Cb (ex_ranges _ _ _ _ _ _ _ _ _) Q1 Q2 (ex_envelope _ _ _ _ _ _ _ _ _) (ex_Tmax _ _ _ _ _ _ _ _ _) Q3 cum t Ht CBt).
    lra.
  Qed.
  Lemma exo_temp t : model_step p t -> T0 p <= s_temp p cum t <= 6.
  Proof.
    intros Ht. destruct (HC t Ht) as [C0 C1]. pose proof (ex_Tmax false trapz dm tr tn er we ob q t Ht). unfold s_temp, ex_Cb in *. cbn [T0 TCRE ex] in *. pose proof (pos_INR t). lra.
  Qed.
  Lemma exo_dam t r : model_step p t -> In r (regions p) ->
    -5/10 <= s_ds p cum t r <= 7/10 /\ (tn = globaldamagepool -> 0 <= s_dam p cum t r).
  Proof.
    intros Ht Hr. destruct (exo_slr t Ht) as (_ & _ & _ & SC). pose proof (exo_temp t Ht) as TT.
    destruct (ex_damages false trapz dm tr tn er we ob q r _ _ Hr TT SC) as (_ & A & B).
    split.
    - unfold damages_at in A. unfold s_ds. change (s_slr p cum 0) with (slr_thermal_expansion_init p + 15/1000 + 6/1000). lra.
    - intros T. specialize (B T).
      assert (E : s_dn p cum t r + s_ds p cum t r = damages_at p r (s_temp p cum t) (s_slr p cum t)) by reflexivity.
      unfold s_dam. change (dmg_module p) with dm. destruct dm; [|lra]. rewrite E. exact B.
  Qed.
  Lemma exo_lbd t : model_step p t -> 0 < s_lbd p cum t <= 1.
  Proof.
    intros Ht. unfold s_lbd. rewrite ex_cumbase_g. cbn [LBD_scaling ex]. destruct (HC t Ht) as [C0 C1].
    assert (X : 0 <= (200 * INR t - cum t) / 40) by lra. set (x := (200 * INR t - cum t) / 40) in *.
    pose proof (smin_gap 1 ltac:(lra) (x + 1)) as G. rewrite Rmax_left in G by lra.
    rewrite pypow_pos by lra. split; [apply exp_pos|]. unfold log_LBD_rate. cbn [LBD_rate ex].
    assert (L1 : ln (82/100) < 0) by (rewrite <- ln_1; apply ln_increasing; lra). assert (L2 : 0 < ln 2) by (rewrite <- ln_1; apply ln_increasing; lra).
    assert (L : ln (82/100) / ln 2 <= 0). { apply Rlt_le. unfold Rdiv. assert (0 < / ln 2) by (apply Rinv_0_lt_compat; auto). nra. }
    assert (M : Rpower (smin 1 (x + 1)) (ln (82/100) / ln 2) <= Rpower 1 (ln (82/100) / ln 2)) by (apply Rpower_anti_base; lra).
    apply Rle_trans with (1 := M). unfold Rpower. rewrite ln_1, Rmult_0_r, exp_0. lra.
  Qed.
  Lemma exo_lot t : s_lot p t = 1.
  Proof. unfold s_lot. cbn [LOT_rate ex]. replace (1 + 0) with 1 by ring. rewrite pow1. field. Qed.
  Lemma exo_price t r : model_step p t -> In r (regions p) -> 0 <= s_price p a cum t r <= 4.
  Proof.
    intros Ht Hr. unfold s_price, s_learn. rewrite exo_lot, Rmult_1_r. cbn [MAC_scaling MAC_gamma MAC_beta ex].
    destruct (exo_lbd t Ht) as [L0 L1]. destruct (HA t r Ht Hr) as [A0 A1].
    rewrite pypow_apow by lra. pose proof (apow_nonneg (a t r) 3) as P0.
    assert (P1 : apow (a t r) 3 <= 1). { apply Rle_trans with (apow 1 3); [apply apow_le; lra|]. rewrite apow_pos by lra. unfold Rpower. rewrite ln_1, Rmult_0_r, exp_0. lra. }
    set (P := apow (a t r) 3) in *. set (L := s_lbd p cum t) in *.
    assert (0 <= L * P) by (apply Rmult_le_pos; lra). assert (L * P <= 1 * 1) by (apply Rmult_le_compat; lra).
    destruct (isA r); lra.
  Qed.
  Lemma exo_costs t r : model_step p t -> In r (regions p) -> 0 <= s_M p a cum t r.
  Proof.
    intros Ht Hr. unfold s_M. unfold s_base. cbn [use_carbon_intensity baseline_emissions ex].
    assert (0 <= s_unit p a cum t r); [|lra].
    apply unit_nn; auto; [apply ex_ranges|intros s Hs; cbn; destruct (isA s); lra|cbn; lra].
  Qed.
  Lemma exo_gross t r : model_step p t -> In r (regions p) -> 0 < s_Y p a cum t r.
  Proof. intros Ht Hr. apply sim_gross; auto; [apply ex_ranges|apply ex_data]. Qed.
  Hypothesis HT : tr <> globalcostpool.
  Hypothesis HR : er = per_cap_convergence -> tr = emissiontrade.
  Hypothesis A0 : forall r, In r (regions p) -> a 0%nat r = 0.
  Hypothesis CS : cum 0%nat = 0 /\ forall t, (S t <= 20)%nat -> cum (S t) = cum t +
    (if trapz then 5 * (s_ge p a cum (S t) + s_ge p a cum t) / 2 else 5 * s_ge p a cum (S t)).
  Lemma exo_solution :
    (forall t, model_step p t ->
      (forall T, pol_temperature q = Some T -> 2100 <= year p t -> s_temp p cum t <= T) /\
      (forall B, pol_budget q = Some B -> 2100 <= year p t -> cum t <= B) /\
      (forall B, pol_budget q = Some B -> pol_net_zero q = true -> 2100 <= year p t -> s_ge p a cum t <= 0) /\
      (forall l, pol_min_global q = Some l -> l <= s_ge p a cum t) /\
      (forall i s, pol_inertia_global q = Some i -> t = S s -> 5 * i * 40 <= s_ge p a cum t - s_ge p a cum s) /\
      forall r, In r (regions p) ->
        (forall l, pol_min_regional q = Some l -> l <= s_em p a cum t r) /\
        (forall i s, pol_inertia_regional q = Some i -> t = S s -> 5 * i * 20 <= s_em p a cum t r - s_em p a cum s r) /\
        (forall s, pol_non_increasing q = true -> t = S s -> 2100 < year p s -> s_em p a cum t r <= s_em p a cum s r) /\
        (er = equal_mitigation_costs -> 995/1000 * level t <= s_M p a cum t r / s_Y p a cum t r <= 1005/1000 * level t) /\
        (er = equal_total_costs -> 995/1000 * level t <= s_M p a cum t r / s_Y p a cum t r + s_dam p cum t r <= 1005/1000 * level t) /\
        (er = per_cap_convergence -> (0 < t)%nat ->
           s_em p a cum t r - 1/1000 <= percapconv_share p t r * s_ge p a cum t <= s_em p a cum t r + 1/1000)) ->
    feasible p (sim p a cum level).
  Proof.
    intros H. apply sim_feasible; auto; try (cbn; lra).
    - apply ex_ranges.
    - apply ex_data.
    - apply ex_choices; auto.
    - apply ex_logistic.
    - intros t Ht. apply (proj2 CS t Ht).
    - intros t Ht. destruct (H t Ht) as (H1 & H2 & H3 & H4 & H5 & H6). destruct (exo_slr t Ht) as (S1 & S2 & S3 & _). destruct (HC t Ht) as [C0 _].
      unfold cumulative_emissions, temperature, global_emissions, thermal_SLR, glacier_SLR, icesheet_SLR. cbn [gval sim].
      split; [auto|]. split; [exact H1|]. split; [exact H2|]. split; [exact H3|]. split; [exact H4|].
      split. { intros i s X Y. specialize (H5 i s X Y). unfold total. rewrite ex_sum. cbn [dt baseline_emissions ex]. lra. }
      do 3 (split; [auto|]). intros r Hr. destruct (H6 r Hr) as (G1 & G2 & G3 & G4 & G5 & G6). destruct (exo_dam t r Ht Hr) as [D1 D2].
      pose proof (exo_gross t r Ht Hr) as Y0. pose proof (exo_costs t r Ht Hr) as M0.
      unfold relative_abatement, carbonprice, sealevel_damages, regional_emissions, rel_mitigation_costs, damage_costs, GDP_gross, effort_level, allowances. cbn [rval gval sim].
      split; [destruct (HA t r Ht Hr); lra|]. split; [pose proof (exo_price t r Ht Hr); cbn [MAC_gamma ex]; lra|].
      split; [intros _; exact D1|]. split; [exact G1|]. split; [exact G2|]. split; [exact G3|].
      split. { intros _. cbn [rel_mitigation_costs_min_level ex]. assert (0 <= s_M p a cum t r / s_Y p a cum t r); [|lra].
        unfold Rdiv. apply Rmult_le_pos; [auto|apply Rlt_le, Rinv_0_lt_compat; auto]. }
      split. { intros T. apply Rmult_le_pos; [apply D2; exact T|lra]. }
      split. { intros E. specialize (G4 E). lra. }
      split. { intros E _. specialize (G5 E). unfold rel_transfer_paid. destruct (transfer p); cbn [rval sim]; lra. }
      intros E P. specialize (G6 E P). unfold s_red. lra.
  Qed.
End Exo.

Section ExShare.
    Variables (trapz : bool) (dm : damage_module) (tr : trade_module) (tn : transfer_module) (er : regime) (we : welfare_module) (ob : objective_module) (q : policy).
    Notation p := (ex false trapz dm tr tn er we ob q).
    Lemma ex_share t r : percapconv_share p t r = 1/2.
    Proof.
      unfold percapconv_share, percapconv_share_init, percapconv_share_pop. rewrite !ex_sum. cbn [percapconv_year population baseline_emissions ex].
      unfold Reqb. destruct (Req_EM_T _ _) as [E|E]; [lra|].
      set (l := (year p t - year p 0) / (2050 - year p 0)). unfold Rmin, Rmax.
      destruct (Rle_dec l 1); destruct (Rle_dec (1 - l) 0); try lra.
    Qed.
End ExShare.

(** ** A climate policy: half the emissions abated from 2025, all of them from 2100.  It meets a 1600 GtCO2
    budget, a 2.2 degree target, net zero after the budget year, speed limits of 10%/yr, non-negative
    emissions and non-increasing emissions after 2100, all at once. *)
Definition ex_policy : policy := {| pol_budget := Some 1600; pol_temperature := Some (22/10); pol_inertia_global := Some (-1/10);
  pol_inertia_regional := Some (-1/10); pol_min_global := Some 0; pol_min_regional := Some 0; pol_non_increasing := true; pol_net_zero := true |}.
Definition ex_path (t : nat) (r : region) : R := match t with O => 0 | S s => if (t <=? 15)%nat then 1/2 else 1 end.
Definition ex_cum (t : nat) : R := match t with O => 0 | S s => if (t <=? 15)%nat then 50 + 100 * INR t else 1600 end.
Section ExPolicy.
  Variables (dm : damage_module) (tr : trade_module) (tn : transfer_module) (we : welfare_module) (ob : objective_module).
  Lemma ex_path_range t r : 0 <= ex_path t r <= 1.
  Proof. unfold ex_path. destruct t; [lra|]. destruct (_ <=? _)%nat; lra. Qed.
  Lemma ex_cum_range t : 0 <= ex_cum t <= 200 * INR t.
  Proof.
    unfold ex_cum. destruct t as [|t]; [cbn; lra|]. assert (1 <= INR (S t)) by (rewrite S_INR; pose proof (pos_INR t); lra).
    destruct (S t <=? 15)%nat eqn:E; [lra|]. apply Nat.leb_gt in E. apply le_INR in E. replace (INR 16) with 16 in E by (cbn; lra). lra.
  Qed.
  Definition ex_em (t : nat) : R := match t with O => 20 | S s => if (t <=? 15)%nat then 10 else 0 end.
  Section P.
    Variables (er : regime) (q : policy) (level : nat -> R).
    Notation p := (ex false true dm tr tn er we ob q).
    Lemma ex_s_em t r : s_em p ex_path ex_cum t r = ex_em t.
    Proof. unfold s_em, ex_em, s_base. cbn [use_carbon_intensity baseline_emissions ex]. destruct t; [reflexivity|]. unfold ex_path. destruct (_ <=? _)%nat; lra. Qed.
    Lemma ex_s_ge t : s_ge p ex_path ex_cum t = 2 * ex_em t.
    Proof. unfold s_ge. rewrite ex_sum, !ex_s_em. ring. Qed.
    Lemma ex_steps t : (S t <= 20)%nat -> ex_cum (S t) = ex_cum t + 5 * (2 * ex_em (S t) + 2 * ex_em t) / 2.
    Proof.
      intros Ht. unfold ex_cum, ex_em. destruct t as [|t]; [cbn; lra|].
      destruct (S (S t) <=? 15)%nat eqn:E1; destruct (S t <=? 15)%nat eqn:E2.
      - rewrite (S_INR (S t)). lra.
      - apply Nat.leb_le in E1. apply Nat.leb_gt in E2. lia.
      - apply Nat.leb_gt in E1. apply Nat.leb_le in E2. replace (S t) with 15%nat by lia. replace (INR 15) with 15 by (cbn; lra). lra.
      - lra.
    Qed.
    Lemma ex_2100 t : 2100 <= year p t -> (16 <= t)%nat.
    Proof. unfold year. cbn [beginyear dt ex]. intros H. apply INR_le. replace (INR 16) with 16 by (cbn; lra). lra. Qed.
    Lemma ex_em_range t : 0 <= ex_em t <= 20.
    Proof. unfold ex_em. destruct t; [lra|]. destruct (_ <=? _)%nat; lra. Qed.
    Lemma ex_em_16 t : (16 <= t)%nat -> ex_em t = 0.
    Proof. intros H. unfold ex_em. destruct t; [lia|]. destruct (S t <=? 15)%nat eqn:E; [apply Nat.leb_le in E; lia|reflexivity]. Qed.
    Lemma ex_cum_1600 t : ex_cum t <= 1600.
    Proof. unfold ex_cum. destruct t; [lra|]. destruct (S t <=? 15)%nat eqn:E; [|lra]. apply Nat.leb_le in E. apply le_INR in E. replace (INR 15) with 15 in E by (cbn; lra). lra. Qed.
    Lemma ex_em_drop s : -10 <= ex_em (S s) - ex_em s.
    Proof.
      unfold ex_em. destruct s as [|s]; [cbn; lra|].
      destruct (S (S s) <=? 15)%nat eqn:E1; destruct (S s <=? 15)%nat eqn:E2; try lra.
    Qed.
    Lemma ex_em_mono s : ex_em (S s) <= ex_em s.
    Proof.
      unfold ex_em. destruct s as [|s]; [cbn; lra|].
      destruct (S (S s) <=? 15)%nat eqn:E1; destruct (S s <=? 15)%nat eqn:E2; try lra.
      apply Nat.leb_le in E1. apply Nat.leb_gt in E2. lia.
    Qed.
  End P.
  Lemma ex_policy_solution er level : tr <> globalcostpool -> er = noregime \/ (er = per_cap_convergence /\ tr = emissiontrade) ->
    feasible (ex false true dm tr tn er we ob ex_policy) (sim (ex false true dm tr tn er we ob ex_policy) ex_path ex_cum level).
  Proof.
    intros HT HE.
    apply exo_solution; auto.
    - intros. apply ex_path_range.
    - intros. apply ex_cum_range.
    - intros E. destruct HE as [HE|[_ HE]]; [congruence|exact HE].
    - split; [reflexivity|]. intros t Ht. rewrite !ex_s_ge. apply ex_steps; auto.
    - intros t Ht. rewrite !ex_s_ge. pose proof (ex_em_range t) as Q. pose proof (ex_cum_1600 t) as Q2.
      split. { intros T X _. injection X as <-. unfold s_temp. cbn [T0 TCRE ex]. lra. }
      split. { intros T X _. injection X as <-. exact Q2. }
      split. { intros B _ _ Y. rewrite ex_em_16; [lra|]. eapply ex_2100; exact Y. }
      split. { intros l X. injection X as <-. lra. }
      split. { intros i s X ->. injection X as <-. rewrite ex_s_ge. pose proof (ex_em_drop s). lra. }
      intros r Hr. rewrite ex_s_em.
      split. { intros l X. injection X as <-. lra. }
      split. { intros i s X ->. injection X as <-. rewrite ex_s_em. pose proof (ex_em_drop s). lra. }
      split. { intros s _ -> _. rewrite ex_s_em. apply ex_em_mono. }
      split. { intros ->. destruct HE as [?|[? _]]; congruence. }
      split. { intros ->. destruct HE as [?|[? _]]; congruence. }
      intros _ _. rewrite ex_share. lra.
  Qed.
End ExPolicy.

(** ** No abatement at all: the equal-effort regimes are met with a common level of zero. *)
Section ExZero.
  Variables (trapz : bool) (dm : damage_module) (tr : trade_module) (tn : transfer_module) (we : welfare_module) (ob : objective_module).
  Lemma ex_zero_solution er : tr <> globalcostpool -> (er = per_cap_convergence -> tr = emissiontrade) ->
    (er = equal_total_costs -> dm = nodamage) ->
    feasible (ex false trapz dm tr tn er we ob no_policy) (sim (ex false trapz dm tr tn er we ob no_policy) (fun _ _ => 0) (fun t => 200 * INR t) (fun _ => 0)).
  Proof.
    intros HT HE HD.
    set (p := ex false trapz dm tr tn er we ob no_policy).
    assert (EM : forall t r, s_em p (fun _ _ => 0) (fun t => 200 * INR t) t r = 20).
    { intros t r. unfold s_em, s_base, p. cbn [use_carbon_intensity baseline_emissions ex]. destruct t; lra. }
    assert (GE : forall t, s_ge p (fun _ _ => 0) (fun t => 200 * INR t) t = 40).
    { intros t. unfold s_ge. change (regions p) with ["A"; "B"]%string. cbn [Rsum]. unfold Rsum. cbn. rewrite !EM. lra. }
    assert (M : forall t r, s_M p (fun _ _ => 0) (fun t => 200 * INR t) t r = 0).
    { intros t r. unfold s_M, s_unit. replace (pypow 0 (MAC_beta p + 1)) with 0; [unfold Rdiv; ring|]. unfold p; cbn [MAC_beta ex].
      rewrite pypow_apow by lra. unfold apow. destruct (Rlt_dec 0 0); lra. }
    apply exo_solution; auto.
    - intros; lra.
    - intros t _. pose proof (pos_INR t). lra.
    - split; [cbn; lra|]. intros t Ht. fold p. rewrite !GE. rewrite S_INR. destruct trapz; lra.
    - intros t Ht. fold p. rewrite GE.
      split. { intros T X; discriminate X. }
      split. { intros T X; discriminate X. }
      split. { intros T X; discriminate X. }
      split. { intros T X; discriminate X. }
      split. { intros T s X; discriminate X. }
      intros r Hr. rewrite EM, M.
      split. { intros T X; discriminate X. }
      split. { intros T s X; discriminate X. }
      split. { intros s X; discriminate X. }
      split. { intros _. unfold Rdiv. lra. }
      split. { intros E. unfold s_dam. change (dmg_module p) with dm. rewrite (HD E). unfold Rdiv. lra. }
      intros _ _. unfold p. rewrite ex_share. lra.
  Qed.
End ExZero.
