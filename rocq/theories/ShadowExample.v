(** Non-vacuity of the welfare version of C70: an optimal plan in which the carbon prices of two regions with room differ. *)
From Coq Require Import Reals List String Lra Lia.
From Verif Require Import ModelFacts SoftFacts ModelSpec PowFacts Equations Equations2 Build VarFacts EconLemmas BuildFacts BuildLemmas DefinedFacts
  SolveFacts ClimateSpec ClimateLemmas WelfareSpec WelfareLemmas MitigationLemmas TradeLemmas PolicySpec PolicyLemmas Simulate SimFacts ExistSpec ExistFacts ExistLemmas OptimumLemmas
  DominanceSpec DominanceLemmas DriftSpec DriftLemmas ReallocateSpec Reallocate Exchange PriceLemmas ShadowSpec RightDeriv ShadowLemmas ShadowPrice Example PriceExample.
Import ListNotations.
Open Scope R_scope.
Set Bullet Behavior "Strict Subproofs".

Notation welfare_decade := (decade_with utility).
Notation shareA v := (relative_abatement v 1 "A"%string).
Notation shareB v := (relative_abatement v 1 "B"%string).
Lemma wd_exists : exists v, optimal welfare_decade v.
Proof.
  apply C67_optimum_exists_pf.
  - apply de_ranges.
  - apply de_data.
  - apply de_choices.
  - unfold slr_logistic_ok. discriminate.
  - cbn; lra.
  - reflexivity.
  - exists (decade_point utility (1/4) (1/4)). apply de_feasible; lra.
Qed.
Lemma wd_regions : In "A"%string (regions welfare_decade) /\ In "B"%string (regions welfare_decade) /\ NoDup (regions welfare_decade).
Proof.
  split; [left; reflexivity|]. split; [right; left; reflexivity|].
  cbn. constructor; [intros [Q|[]]; discriminate Q|constructor; [intros []|constructor]].
Qed.
Lemma wd_m1 : model_step welfare_decade 1. Proof. unfold model_step; cbn; lia. Qed.
Lemma wd_own v r : feasible welfare_decade v -> In r (regions welfare_decade) ->
  mitigation_costs v 1 r = (if isA r then 20 else 15) * (relative_abatement v 1 r * relative_abatement v 1 r).
Proof.
  intros F Hr. rewrite (proj1 (C35_notrade_own_costs_pf welfare_decade v 1 r F eq_refl wd_m1 Hr)). apply (de_price utility v 1 r F wd_m1 Hr).
Qed.
Lemma wd_ab v r : feasible welfare_decade v -> In r (regions welfare_decade) -> 0 <= relative_abatement v 1 r.
Proof. intros F Hr. apply (q_bounds_r welfare_decade v F 1 r wd_m1 Hr). Qed.
Lemma wd_costs0 v r : feasible welfare_decade v -> In r (regions welfare_decade) -> mitigation_costs v 0 r = 0.
Proof.
  intros F Hr. assert (M : model_step welfare_decade 0) by (unfold model_step; cbn; lia).
  apply (no_abatement_no_costs welfare_decade v 0 r F M Hr eq_refl); [cbn; lra|].
  refine (proj1 (proj2 (C28_initial_year_pf welfare_decade v r F Hr _ _ _ _))); cbn [MAC_beta LOT_rate MAC_scaling MAC_gamma decade_with]; [lra|lra|destruct (isA r); lra|lra].
Qed.
Lemma wd_share v t r : feasible welfare_decade v -> model_step welfare_decade t -> In r (regions welfare_decade) -> damage_share welfare_decade v t r = 0.
Proof. intros F Ht Hr. apply share_zero; auto. Qed.
Lemma wd_capital0 v r : feasible welfare_decade v -> In r (regions welfare_decade) -> capital_stock v 0 r = if isA r then 40 else 720.
Proof.
  intros F Hr. unfold capital_stock. rewrite (q_capital0 welfare_decade v F r Hr). cbn [init_capital_factor baseline_GDP decade_with]. unfold ex_GDP. destruct (isA r); lra.
Qed.

(** An optimal plan abates no more than the budget asks for. *)
Lemma wd_tight v : optimal welfare_decade v -> shareA v + shareB v = 1/2.
Proof.
  intros [F OPT]. destruct wd_regions as (RA & RB & ND). pose proof (de_reduction utility v F) as L.
  destruct (Rle_lt_dec (shareA v + shareB v) (1/2)) as [G|G]; [lra|exfalso].
  pose proof (wd_ab v _ F RA) as A0. pose proof (wd_ab v _ F RB) as B0. set (a := shareA v) in *. set (b := shareB v) in *.
  set (k := / (2 * (a + b))). assert (K0 : 0 < k < 1).
  { unfold k. split; [apply Rinv_0_lt_compat; lra|]. rewrite <- Rinv_1. apply Rinv_lt_contravar; lra. }
  assert (KE : k * a + k * b = 1/2) by (unfold k; field; lra).
  assert (KA : 0 <= k * a) by nra. assert (KB : 0 <= k * b) by nra.
  pose proof (de_feasible utility (k * a) (k * b) KA KB KE) as Fw. set (w := decade_point utility (k * a) (k * b)) in *.
  assert (WA : shareA w = k * a) by reflexivity. assert (WB : shareB w = k * b) by reflexivity.
  assert (LE : forall x, 0 <= x -> k * x * (k * x) <= x * x) by (intros x Hx; apply Rmult_le_compat; try (apply Rmult_le_pos; lra); rewrite <- (Rmult_1_l x) at 2; apply Rmult_le_compat_r; lra).
  assert (LT : forall x, 0 < x -> k * x * (k * x) < x * x).
  { intros x Hx. assert (k * x < x) by (rewrite <- (Rmult_1_l x) at 2; apply Rmult_lt_compat_r; lra). assert (0 < k * x) by (apply Rmult_lt_0_compat; lra).
    apply Rmult_le_0_lt_compat; lra. }
  assert (MA : mitigation_costs w 1 "A"%string <= mitigation_costs v 1 "A"%string).
  { rewrite (wd_own w _ Fw RA), (wd_own v _ F RA), WA. cbn [isA String.eqb Ascii.eqb Bool.eqb]. specialize (LE a A0). fold a. lra. }
  assert (MB : mitigation_costs w 1 "B"%string <= mitigation_costs v 1 "B"%string).
  { rewrite (wd_own w _ Fw RB), (wd_own v _ F RB), WB. cbn [isA String.eqb Ascii.eqb Bool.eqb]. specialize (LE b B0). fold b. lra. }
  assert (PD : positive_data welfare_decade) by apply de_data.
  assert (C : forall r, In r (regions welfare_decade) -> consumption v 1 r <= consumption w 1 r /\
    (mitigation_costs w 1 r < mitigation_costs v 1 r -> consumption v 1 r < consumption w 1 r)).
  { intros r Hr. destruct (C68_lower_costs_more_consumption_pf welfare_decade v w r F Fw Hr eq_refl) with (t := 1%nat) as (_ & _ & _ & Q1 & Q2); try (cbn; lra); auto.
    - intros t Ht. rewrite !wd_share by auto. split; [|lra]. destruct (de_step utility t Ht) as [->| ->].
      + rewrite (wd_costs0 w r Fw Hr), (wd_costs0 v r F Hr). lra.
      + destruct (de_reg utility r Hr) as [->| ->]; assumption.
    - intros t Ht. assert (t = 0%nat) as -> by (cbn [tf decade_with] in Ht; lia). rewrite (wd_capital0 w r Fw Hr), (wd_own w r Fw Hr).
      assert (relative_abatement w 1 r <= 1/2) by (destruct (de_reg utility r Hr) as [->| ->]; [rewrite WA|rewrite WB]; lra).
      pose proof (wd_ab w r Fw Hr). cbn [dt sr decade_with]. destruct (isA r); nra.
    - exact wd_m1.
    - split; [exact Q1|]. intros X. apply Q2; [cbn; lra|exact X]. }
  assert (W1 : yearly_welfare v 1 < yearly_welfare w 1).
  { assert (PP : forall r, In r (regions welfare_decade) -> 0 < population welfare_decade 1 r) by (intros; cbn; lra).
    destruct (Rle_lt_dec a 0) as [Z|Z].
    - apply (C43_welfare_monotone_pf welfare_decade v w 1 "B"%string F Fw wd_m1 PP); [intros; apply C; auto|exact RB|].
      apply C; [exact RB|]. rewrite (wd_own w _ Fw RB), (wd_own v _ F RB), WB. cbn [isA String.eqb Ascii.eqb Bool.eqb]. fold b. specialize (LT b ltac:(lra)). lra.
    - apply (C43_welfare_monotone_pf welfare_decade v w 1 "A"%string F Fw wd_m1 PP); [intros; apply C; auto|exact RA|].
      apply C; [exact RA|]. rewrite (wd_own w _ Fw RA), (wd_own v _ F RA), WA. cbn [isA String.eqb Ascii.eqb Bool.eqb]. fold a. specialize (LT a Z). lra. }
  pose proof (proj1 (proj1 (C44_objective_direction_pf welfare_decade v w F Fw) eq_refl) (OPT w Fw)) as X.
  unfold discounted in X. cbn [tf decade_with steps_sum] in X. rewrite !Rplus_0_l in X.
  apply Rmult_le_reg_l in X; [lra|]. apply Rmult_lt_0_compat; [cbn; lra|apply exp_pos].
Qed.
Lemma wd_price v r : feasible welfare_decade v -> In r (regions welfare_decade) -> carbonprice v 1 r = (if isA r then 2 else 3/2) * relative_abatement v 1 r.
Proof.
  intros F Hr. unfold carbonprice. rewrite (q_carbonprice welfare_decade v F 1 r wd_m1 Hr).
  rewrite (q_learning welfare_decade v F 1 wd_m1), (q_LBD welfare_decade v F 1 wd_m1), (q_LOT welfare_decade v F 1 wd_m1), de_log, de_power.
  fold (relative_abatement v 1 r). cbn [LOT_rate MAC_scaling MAC_gamma MAC_beta decade_with]. rewrite Rplus_0_r, pow1. rewrite pypow_apow by (try apply (wd_ab v r F Hr); lra). rewrite de_line by apply (wd_ab v r F Hr).
  destruct (isA r); field.
Qed.
Lemma wd_more v r : optimal welfare_decade v -> In r (regions welfare_decade) -> can_abate_more welfare_decade v 1 r.
Proof.
  intros O Hr. pose proof (wd_tight v O) as T. destruct wd_regions as (RA & RB & _). pose proof (wd_ab v _ (proj1 O) RA). pose proof (wd_ab v _ (proj1 O) RB).
  assert (relative_abatement v 1 r <= 1/2) by (destruct (de_reg utility r Hr) as [->| ->]; lra).
  unfold can_abate_more. rewrite (wd_price v r (proj1 O) Hr). cbn [MAC_gamma regional_min_level inertia_regional non_increasing_after_2100 tf decade_with].
  split; [lra|]. split; [destruct (isA r); lra|]. split; [discriminate|]. split; [discriminate|]. intros _ X. exfalso. lia.
Qed.
Lemma wd_less v r : 0 < relative_abatement v 1 r -> can_abate_less welfare_decade v 1 r.
Proof.
  intros H. unfold can_abate_less. cbn [inertia_regional non_increasing_after_2100 tf decade_with]. split; [exact H|]. split; [discriminate|].
  intros u _ E Y. exfalso. injection E as <-. unfold year in Y. cbn in Y. lra.
Qed.

(** Both regions abate: where a region does not abate, costs cost nothing. *)
Lemma wd_bound v q : optimal welfare_decade v -> In q (regions welfare_decade) -> 0 <= mitigation_costs v 1 q <= 5.
Proof.
  intros O Hq. pose proof (wd_tight v O) as T. destruct wd_regions as (RA & RB & _). pose proof (wd_ab v _ (proj1 O) RA). pose proof (wd_ab v _ (proj1 O) RB).
  rewrite (wd_own v q (proj1 O) Hq). pose proof (wd_ab v q (proj1 O) Hq) as N.
  assert (relative_abatement v 1 q <= 1/2) by (destruct (de_reg utility q Hq) as [->| ->]; lra).
  set (x := relative_abatement v 1 q) in *. assert (0 <= x * x <= 1/2 * (1/2)) by (split; [apply Rmult_le_pos; lra|apply Rmult_le_compat; lra]).
  destruct (isA q); lra.
Qed.
Lemma wd_afford v : optimal welfare_decade v -> forall u q, (S u <= tf welfare_decade)%nat -> In q (regions welfare_decade) ->
  dt welfare_decade * sr welfare_decade * mitigation_costs v (S u) q < capital_stock v u q.
Proof.
  intros O u q Hu Hq. cbn [tf decade_with] in Hu. assert (u = 0%nat) as -> by lia. rewrite (wd_capital0 v q (proj1 O) Hq).
  pose proof (wd_bound v q O Hq). cbn [dt sr decade_with]. destruct (isA q); lra.
Qed.
Lemma wd_shares v : feasible welfare_decade v -> forall u q, (1 <= u <= tf welfare_decade)%nat -> In q (regions welfare_decade) -> damage_share welfare_decade v u q = 0.
Proof. intros F u q Hu Hq. apply wd_share; auto. unfold model_step. lia. Qed.
Lemma wd_population : 0 < total welfare_decade (population welfare_decade 1).
Proof. unfold total. rewrite de_sum. cbn. lra. Qed.
Lemma wd_prices v mp : optimal welfare_decade v -> marginal_product welfare_decade v mp ->
  let D q := 2 - survival welfare_decade - dt welfare_decade * sr welfare_decade * ((1 - damage_share welfare_decade v 1 q) * mp 1%nat q) in
  (forall q, In q (regions welfare_decade) -> 0 < D q) /\
  forall r s, In r (regions welfare_decade) -> In s (regions welfare_decade) -> can_abate_less welfare_decade v 1 s ->
    carbonprice v 1 s * D r <= carbonprice v 1 r * D s.
Proof.
  intros O MP D. pose proof wd_regions as (_ & _ & ND). pose proof (proj1 O) as F.
  assert (DS : forall u q, (1 <= u <= tf welfare_decade)%nat -> In q (regions welfare_decade) -> damage_share welfare_decade v u q <= 1) by (intros; rewrite wd_shares; auto; lra).
  assert (Al : 0 <= alpha welfare_decade < 1) by (cbn; lra).
  assert (FR : forall q, In q (regions welfare_decade) -> 0 < D q).
  { intros q Hq. apply (factor_range welfare_decade v mp F (de_ranges utility) (proj1 (proj2 (de_data utility))) eq_refl Al (wd_afford v O) DS MP 0 q); [cbn; lia|exact Hq]. }
  split; [exact FR|]. intros r s Hr Hs L.
  assert (Ne : elasmu welfare_decade <> 1) by (cbn; lra). destruct (marginal_welfare_exists welfare_decade v Ne ND) as [mu MW].
  assert (E : carbonprice v 1 s * value_of_costs welfare_decade v mu mp 1 s <= carbonprice v 1 r * value_of_costs welfare_decade v mu mp 1 r).
  { apply (C70_weighted_price_order_pf welfare_decade v 1 r s mu mp O); auto; try reflexivity.
    - apply de_ranges.
    - apply de_data.
    - apply de_choices.
    - unfold slr_logistic_ok; discriminate.
    - cbn; lra.
    - intros q _. cbn. destruct (isA q); lra.
    - cbn; lra.
    - cbn; lra.
    - intros; cbn; lra.
    - apply wd_afford, O.
    - cbn; lra.
    - cbn; lra.
    - apply wd_more; auto. }
  pose proof (value_last welfare_decade v mu mp r ltac:(cbn; lia) (FR r Hr)) as Vr. pose proof (value_last welfare_decade v mu mp s ltac:(cbn; lia) (FR s Hs)) as Vs.
  change (tf welfare_decade) with 1%nat in Vr, Vs. rewrite Vr, Vs in E. clear Vr Vs.
  change (2 - survival welfare_decade - dt welfare_decade * sr welfare_decade * net_product welfare_decade v mp r 1) with (D r) in E.
  change (2 - survival welfare_decade - dt welfare_decade * sr welfare_decade * net_product welfare_decade v mp s 1) with (D s) in E.
  destruct (equal_weights welfare_decade v mu 1 r s eq_refl Ne ND wd_population MW ltac:(cbn; lia) Hr Hs) as [EW PW]. rewrite <- EW in E.
  destruct (surv_range welfare_decade ltac:(cbn; lra) ltac:(cbn; lra)) as [_ [_ S1]].
  pose proof (FR r Hr) as D1. pose proof (FR s Hs) as D2.
  set (k := dt welfare_decade * exp (- PRTP welfare_decade * (year welfare_decade 1 - beginyear welfare_decade)) * mu 1%nat r) in *.
  assert (Pk : 0 < k) by (apply Rmult_lt_0_compat; [apply Rmult_lt_0_compat; [cbn; lra|apply exp_pos]|exact PW]).
  set (z := 2 - survival welfare_decade) in *. assert (0 < z) by (unfold z; lra).
  apply (Rmult_le_reg_l (k * z / (D r * D s))); [apply Rdiv_lt_0_compat; apply Rmult_lt_0_compat; assumption|].
  apply Rle_trans with (carbonprice v 1 s * (k * (z / D s))); [right; field; lra|]. apply Rle_trans with (1 := E). right. field. lra.
Qed.
Lemma wd_positive v r : optimal welfare_decade v -> In r (regions welfare_decade) -> 0 < relative_abatement v 1 r.
Proof.
  intros O Hr. pose proof (wd_tight v O) as T. destruct wd_regions as (RA & RB & _). pose proof (proj1 O) as F.
  destruct (marginal_product_exists welfare_decade v) as [mp MP]. destruct (wd_prices v mp O MP) as [FR PO].
  assert (X : forall q s, In q (regions welfare_decade) -> In s (regions welfare_decade) -> relative_abatement v 1 s = 1/2 - relative_abatement v 1 q -> 0 < relative_abatement v 1 q).
  { intros q s Hq Hs E. destruct (Rle_lt_or_eq_dec _ _ (wd_ab v q F Hq)) as [L|L]; [exact L|exfalso].
    assert (Ps : relative_abatement v 1 s = 1/2) by lra. specialize (PO q s Hq Hs (wd_less v s ltac:(lra))).
    rewrite !wd_price in PO by auto. rewrite <- L, Ps, Rmult_0_r, Rmult_0_l in PO. pose proof (FR q Hq) as D.
    assert (0 < (if isA s then 2 else 3/2) * (1/2)) by (destruct (isA s); lra). pose proof (Rmult_lt_0_compat _ _ H D). cbv zeta in *. lra. }
  destruct (de_reg utility r Hr) as [->| ->]; [apply (X "A"%string "B"%string)|apply (X "B"%string "A"%string)]; auto; lra.
Qed.
Lemma wd_room v r : optimal welfare_decade v -> In r (regions welfare_decade) -> has_room welfare_decade v 1 r.
Proof. intros O Hr. split; [apply wd_more; auto|apply wd_less, wd_positive; auto]. Qed.

(** Capital is scarcer in "A". *)
Lemma wd_survival : 59/100 < survival welfare_decade < 60/100.
Proof.
  unfold survival. cbn [dt dk decade_with]. change (exp (10 * ln (1 - 5/100))) with (Rpower (1 - 5/100) 10).
  replace 10 with (INR 10) by (cbn; ring). rewrite Rpower_pow by lra. cbn [pow]. lra.
Qed.
Section Region.
  Variables (v : point) (q : region).
  Hypotheses (O : optimal welfare_decade v) (Hq : In q (regions welfare_decade)).
  Notation K := (capital_stock v 1 q).
  Notation s := (smin 10 K).
  Notation Kc := (calibration_capital welfare_decade 1 q).
  Notation G := (ex_GDP q).
  Lemma wd_pd : positive_data welfare_decade. Proof. apply de_data. Qed.
  Lemma wd_Kc : 0 < Kc.
  Proof. apply Kc_pos; try (cbn; lra); [exact Hq|exact wd_pd|exact wd_m1]. Qed.
  Lemma wd_production : production welfare_decade 1 q K = G * Rpower (s / Kc) (3/10).
  Proof.
    rewrite production_power. pose proof (C32_calibration_pf welfare_decade 1 q ltac:(cbn; lra) ltac:(cbn; lra) ltac:(cbn; lra) wd_pd Hq wd_m1) as C.
    rewrite calibration_is in C by (cbn; lra). cbn [baseline_GDP alpha decade_with population] in C |- *. rewrite <- C.
    pose proof wd_Kc as KP. pose proof (smin_pos 10 ltac:(lra) K) as SP. rewrite pypow_pos by lra.
    replace (smin 10 K) with (smin 10 K / Kc * Kc) at 1 by (field; lra). rewrite <- Rpower_mult_distr by (try apply Rdiv_lt_0_compat; lra). ring.
  Qed.
  Lemma wd_equation : (2 - survival welfare_decade) * K = (if isA q then 40 else 720) - 21/10 * mitigation_costs v 1 q + 21/10 * (G * Rpower (s / Kc) (3/10)).
  Proof.
    pose proof (capital_eq welfare_decade v 0 q (proj1 O) ltac:(cbn; lia) Hq eq_refl ltac:(cbn; lra) ltac:(cbn; lra)) as E.
    rewrite (wd_share v 1 q (proj1 O) wd_m1 Hq), wd_production, (wd_capital0 v q (proj1 O) Hq) in E. rewrite E. cbn [dt sr decade_with]. lra.
  Qed.
  Lemma wd_product mp : marginal_product welfare_decade v mp -> mp 1%nat q = 3/10 * G * Rpower (s / Kc) (3/10) / s * dsmin 10 K.
  Proof.
    intros MP. pose proof wd_Kc as KP. pose proof (smin_pos 10 ltac:(lra) K) as SP.
    apply (uniqueness_limite (production welfare_decade 1 q) K); [apply MP; [cbn; lia|exact Hq]|].
    set (A := TFP welfare_decade 1 q * pypow (population welfare_decade 1 q) (1 - alpha welfare_decade)).
    pose proof wd_production as PR. rewrite production_power in PR. fold A in PR. change (alpha welfare_decade) with (3/10) in *.
    replace (3/10 * G * Rpower (s / Kc) (3/10) / s * dsmin 10 K) with (A * (3/10 * Rpower s (3/10 - 1) * dsmin 10 K)).
    - apply (derivable_pt_lim_ext (fun x => A * Rpower (smin 10 x) (3/10))); [intros; rewrite production_power; reflexivity|].
      apply (derivable_pt_lim_scal (fun x => Rpower (smin 10 x) (3/10))).
      apply (derivable_pt_lim_comp (smin 10) (fun y => Rpower y (3/10))); [apply smin_deriv; lra|apply derivable_pt_lim_power, smin_pos; lra].
    - replace (3/10 * G * Rpower (s / Kc) (3/10)) with (3/10 * (G * Rpower (s / Kc) (3/10))) by ring. rewrite <- PR.
      unfold Rminus. rewrite Rpower_plus, Rpower_Ropp, Rpower_1 by exact SP. unfold Rdiv. ring.
  Qed.
  Lemma wd_capital_pos : 0 < K.
  Proof.
    pose proof wd_equation as E. pose proof wd_survival. pose proof (wd_bound v q O Hq).
    assert (0 < G * Rpower (s / Kc) (3/10)) by (apply Rmult_lt_0_compat; [apply ex_GDP_pos|apply exp_pos]).
    apply (Rmult_lt_reg_l (2 - survival welfare_decade)); [lra|]. rewrite Rmult_0_r, E. destruct (isA q); lra.
  Qed.
  Lemma wd_smin : K < s <= K + 1.
  Proof. pose proof (smin10_gap K) as G. pose proof wd_capital_pos. rewrite Rmax_left in G by lra. lra. Qed.
  Lemma wd_ratio_low : s <= Kc -> s / Kc <= Rpower (s / Kc) (3/10).
  Proof.
    intros L. pose proof wd_Kc. pose proof wd_smin. pose proof wd_capital_pos. assert (0 < s / Kc <= 1).
    { split; [apply Rdiv_lt_0_compat; lra|]. apply (Rmult_le_reg_r Kc); [lra|]. unfold Rdiv. rewrite Rmult_assoc, Rinv_l by lra. lra. }
    apply power_below; lra.
  Qed.
  Lemma wd_ratio_small : s <= Kc -> Rpower (s / Kc) (3/10) <= 1.
  Proof.
    intros L. pose proof wd_Kc. pose proof wd_smin. pose proof wd_capital_pos. assert (0 < s / Kc <= 1).
    { split; [apply Rdiv_lt_0_compat; lra|]. apply (Rmult_le_reg_r Kc); [lra|]. unfold Rdiv. rewrite Rmult_assoc, Rinv_l by lra. lra. }
    apply Rpower_le1; lra.
  Qed.
  Lemma wd_ratio_high : Kc <= s -> Rpower (s / Kc) (3/10) <= s / Kc.
  Proof.
    intros L. pose proof wd_Kc. apply power_above; [|lra]. apply (Rmult_le_reg_r Kc); [lra|]. unfold Rdiv. rewrite Rmult_assoc, Rinv_l by lra. lra.
  Qed.
End Region.

Lemma wd_scarcer v mp : optimal welfare_decade v -> marginal_product welfare_decade v mp -> mp 1%nat "B"%string < mp 1%nat "A"%string.
Proof.
  intros O MP. pose proof wd_survival as SV. set (S := survival welfare_decade) in *.
  destruct wd_regions as (RA & RB & _).
  assert (KA : calibration_capital welfare_decade 1 "A"%string = S * 40 + 84) by (cbn [calibration_capital]; unfold S; cbn [init_capital_factor baseline_GDP dt sr decade_with]; unfold ex_GDP; cbn [isA String.eqb Ascii.eqb Bool.eqb]; lra).
  assert (KB : calibration_capital welfare_decade 1 "B"%string = S * 720 + 168) by (cbn [calibration_capital]; unfold S; cbn [init_capital_factor baseline_GDP dt sr decade_with]; unfold ex_GDP; cbn [isA String.eqb Ascii.eqb Bool.eqb]; lra).
  apply Rlt_trans with (1/20).
  - rewrite (wd_product v "B"%string RB mp MP). pose proof (wd_smin v "B"%string O RB) as SM. pose proof (wd_capital_pos v "B"%string O RB) as KP.
    pose proof (wd_equation v "B"%string O RB) as E. pose proof (wd_ratio_small v "B"%string O RB) as RS. pose proof (wd_ratio_high v "B"%string RB) as RH.
    rewrite KB in *. unfold ex_GDP in *. cbn [isA String.eqb Ascii.eqb Bool.eqb] in *. fold S in E. pose proof (wd_bound v _ O RB) as MB.
    pose proof (smin_elastic 10 _ ltac:(lra) KP) as EL. set (K := capital_stock v 1 "B"%string) in *. set (s := smin 10 K) in *.
    set (P := Rpower (s / (S * 720 + 168)) (3/10)) in *. assert (PP : 0 < P) by apply exp_pos. set (d := dsmin 10 K) in *.
    assert (K5 : 500 < K) by (apply (Rmult_lt_reg_l (2 - S)); [lra|]; rewrite E; lra).
    assert (D : d / s < / K).
    { apply (Rmult_lt_reg_l (K * s)); [apply Rmult_lt_0_compat; lra|]. replace (K * s * (d / s)) with (K * d) by (field; lra). replace (K * s * / K) with s by (field; lra). exact EL. }
    apply Rlt_le_trans with (24 * P * / K).
    { replace (3/10 * 80 * P / s * d) with (24 * P * (d / s)) by (field; lra). apply Rmult_lt_compat_l; lra. }
    apply (Rmult_le_reg_r K); [lra|]. rewrite Rmult_assoc, Rinv_l, Rmult_1_r by lra.
    destruct (Rle_lt_dec s (S * 720 + 168)) as [L|L]; [specialize (RS L); lra|].
    specialize (RH ltac:(lra)). assert (s / (S * 720 + 168) <= (K + 1) / 592) by (apply Rmult_le_compat; try lra; [left; apply Rinv_0_lt_compat; lra|apply Rinv_le_contravar; lra]). lra.
  - rewrite (wd_product v "A"%string RA mp MP). pose proof (wd_smin v "A"%string O RA) as SM. pose proof (wd_capital_pos v "A"%string O RA) as KP.
    pose proof (wd_equation v "A"%string O RA) as E. pose proof (wd_ratio_low v "A"%string O RA) as RL. pose proof (wd_ratio_high v "A"%string RA) as RH.
    rewrite KA in *. unfold ex_GDP in *. cbn [isA String.eqb Ascii.eqb Bool.eqb] in *. fold S in E. pose proof (wd_bound v _ O RA) as MB.
    assert (DH : 1/2 < dsmin 10 (capital_stock v 1 "A"%string)).
    { unfold dsmin. pose proof (sw_incr 10 ltac:(lra) 0 _ KP) as W. rewrite sw_0 in W by lra. set (K := capital_stock v 1 "A"%string) in *.
      assert (0 < 25/10 * K / (PI * (1 + 25/10 * K * (25/10 * K)))); [|lra]. apply Rdiv_lt_0_compat; [lra|]. apply Rmult_lt_0_compat; [apply PI_pos|]. pose proof (Rle_0_sqr (25/10*K)) as Q. unfold Rsqr in Q. lra. }
    set (K := capital_stock v 1 "A"%string) in *. set (s := smin 10 K) in *.
    set (c := S * 40 + 84) in *. assert (Hc : 1076/10 < c < 108) by (unfold c; lra).
    set (P := Rpower (s / c) (3/10)) in *. assert (PP : 0 < P) by apply exp_pos. set (d := dsmin 10 K) in *.
    assert (L : s <= c).
    { destruct (Rle_lt_dec s c) as [L|L]; [exact L|exfalso]. specialize (RH ltac:(lra)).
      assert (s / c <= (K + 1) / 107) by (apply Rmult_le_compat; try lra; [left; apply Rinv_0_lt_compat; lra|apply Rinv_le_contravar; lra]).
      assert (14/10 * K <= (2 - S) * K) by (apply Rmult_le_compat_r; lra). lra. }
    specialize (RL L). apply Rlt_le_trans with (12 * / c * (1/2)).
    { assert (/ 108 < / c) by (apply Rinv_lt_contravar; [apply Rmult_lt_0_compat; lra|lra]). lra. }
    apply Rmult_le_compat; try lra; [left; apply Rmult_lt_0_compat; [lra|apply Rinv_0_lt_compat; lra]|].
    replace (3/10 * 40 * P / s) with (12 * (P / s)) by (field; lra). apply Rmult_le_compat_l; [lra|].
    apply (Rmult_le_reg_r s); [lra|]. unfold Rdiv in *. rewrite Rmult_assoc, Rinv_l by lra. rewrite Rmult_comm. lra.
Qed.
(** In the welfare-optimal plan, which exists, both regions have room and yet their carbon prices differ: lower in "A", where a dollar of costs takes more. *)
Example C70_ex_not_uniform : (exists v, optimal welfare_decade v) /\
  forall v, optimal welfare_decade v -> (forall r, In r (regions welfare_decade) -> has_room welfare_decade v 1 r) /\
    carbonprice v 1 "A"%string < carbonprice v 1 "B"%string.
Proof.
  split; [exact wd_exists|]. intros v O. split; [intros r Hr; apply wd_room; auto|].
  destruct (marginal_product_exists welfare_decade v) as [mp MP]. pose proof (wd_scarcer v mp O MP) as SC. destruct wd_regions as (RA & RB & ND). pose proof (proj1 O) as F.
  assert (PA : 0 < carbonprice v 1 "A"%string) by (rewrite (wd_price v _ F RA); pose proof (wd_positive v _ O RA); cbn [isA String.eqb Ascii.eqb Bool.eqb]; lra).
  pose proof (C70_last_step_prices_pf welfare_decade v "A"%string "B"%string mp O eq_refl eq_refl eq_refl eq_refl eq_refl eq_refl (de_ranges utility) (de_data utility) (de_choices utility)) as Q.
  destruct Q as (_ & _ & Q); auto; try (cbn; lra).
  - unfold slr_logistic_ok; discriminate.
  - intros q _. cbn. destruct (isA q); lra.
  - intros; cbn; lra.
  - apply wd_afford, O.
  - intros u q Hu Hq. rewrite wd_shares; auto; lra.
  - apply wd_room; auto.
  - apply wd_room; auto.
  - change (tf welfare_decade) with 1%nat in Q. apply Q; [cbn; lra|exact PA|]. rewrite !wd_share by (auto; exact wd_m1). lra.
Qed.
