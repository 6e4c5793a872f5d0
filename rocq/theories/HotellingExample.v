(** Non-vacuity of C71: an optimal plan of two regions over three decades. *)
From Coq Require Import Reals List String Lra Lia.
From Verif Require Import ModelFacts SoftFacts ModelSpec PowFacts Equations Equations2 Build VarFacts EconLemmas BuildFacts BuildLemmas DefinedFacts
  SolveFacts ClimateSpec ClimateLemmas WelfareSpec WelfareLemmas MitigationLemmas TradeLemmas PolicySpec PolicyLemmas Simulate SimFacts ExistSpec ExistFacts ExistLemmas
  ReallocateSpec Reallocate Exchange PriceLemmas HotellingSpec Reschedule HotellingLemmas Example PriceExample.
Import ListNotations.
Open Scope R_scope.
Set Bullet Behavior "Strict Subproofs".

(** The factor by which the carbon price rises in ten years at a time preference of 1.5% a year *)
Definition decade_growth : R := exp (15/100).
Definition start (t : nat) : R := 1/10 * decade_growth ^ (Nat.pred t).
(** Two regions emit 20 GtCO2/yr each; the budget up to 2100 is 1200 GtCO2 less what the plan below abates.  Marginal costs are linear. *)
Definition three_decades : pars := {|
  beginyear := 2070; dt := 10; tf := 3; regions := ["A"; "B"]%string;
  population := fun _ r => 4; baseline_GDP := fun _ r => ex_GDP r; baseline_emissions := fun _ _ => 20;
  use_carbon_intensity := false; cum_trapz := false; T0 := 12/10; TCRE := 62/100000;
  temperature_target := None; perc_reversible := 1; budget := Some (1200 - 1400/3 * (start 1 + start 2 + start 3));
  inertia_global := Some (-1/10); inertia_regional := Some (-1/10); global_min_level := Some (-20); regional_min_level := Some (-10);
  non_increasing_after_2100 := true; no_pos_after_budget_year := false;
  dmg_module := nodamage; damage_scale_factor := 1; dmg_noslr := ex_noslr; dmg_slr := ex_slr notransfer;
  mort_oldest := fun _ => (1, 2, 3); mort_older := fun _ => (1, 2, 3); mort_young := fun _ => (1, 2, 3);
  MAC_gamma := 2; MAC_beta := 1; MAC_scaling := fun r => if isA r then 1 else 3/4; rel_mitigation_costs_min_level := 0;
  LBD_rate := 1; LBD_scaling := 40; LOT_rate := 0;
  trade := notrade; min_rel_payment_level := None; max_rel_payment_level := None; transfer := notransfer; effort_regime := noregime;
  percapconv_year := Some 2050; init_capital_factor := fun r => if isA r then 1 else 9; alpha := 3/10; dk := 5/100; sr := 21/100;
  ignore_damages := false; welfare := cost_minimising; elasmu := 1001/1000; inequal_aversion := 1/2; objective := globalcosts; PRTP := 15/1000 |}.
Lemma td_growth : 1 < decade_growth <= 115/100 + 5/100.
Proof.
  unfold decade_growth. split.
  - rewrite <- exp_0. apply exp_increasing. lra.
  - (* (exp 0.15)(exp -0.15) = 1 and exp(-0.15) >= 0.85 *)
    pose proof (exp_ineq1 (- (15/100)) ltac:(lra)) as H. pose proof (exp_pos (15/100)) as P.
    assert (E : exp (15/100) * exp (- (15/100)) = 1) by (rewrite <- exp_plus; replace (15/100 + - (15/100)) with 0 by ring; apply exp_0).
    assert (exp (15/100) * (85/100) <= 1) by (rewrite <- E; apply Rmult_le_compat_l; lra). lra.
Qed.
Lemma td_start t : (1 <= t <= 3)%nat -> 1/10 <= start t <= 144/1000.
Proof.
  intros Ht. pose proof td_growth as [G1 G2]. assert (Q : start 1 = 1/10 /\ start 2 = 1/10 * decade_growth /\ start 3 = 1/10 * (decade_growth * decade_growth)) by (unfold start; cbn; repeat split; ring).
  assert (GG : 1 <= decade_growth * decade_growth <= 144/100).
  { split; [rewrite <- (Rmult_1_r 1) at 1|replace (144/100) with (12/10 * (12/10)) by lra]; apply Rmult_le_compat; lra. }
  destruct Q as (Q1 & Q2 & Q3). destruct t as [|[|[|[|t]]]]; try lia; rewrite ?Q1, ?Q2, ?Q3; lra.
Qed.
Lemma td_reg r : In r (regions three_decades) -> r = "A"%string \/ r = "B"%string.
Proof. cbn. intros [<-|[<-|[]]]; auto. Qed.
Lemma td_sum f : Rsum f (regions three_decades) = f "A"%string + f "B"%string.
Proof. cbn. ring. Qed.
Lemma td_ranges : numeric_ranges three_decades.
Proof. unfold numeric_ranges, three_decades. cbn. lra. Qed.
Lemma td_choices : usable_choices three_decades.
Proof. repeat split; intros; try discriminate; reflexivity || (cbn; lra). Qed.
Lemma td_steps t : model_step three_decades t -> t = 0%nat \/ (1 <= t <= 3)%nat.
Proof. unfold model_step. cbn [tf three_decades]. lia. Qed.
Lemma td_data : sound_data three_decades.
Proof.
  split; [cbn; discriminate|]. split; [|split; [|split; [|split]]].
  - intros r Hr. cbn [init_capital_factor population baseline_GDP three_decades]. split; [destruct (isA r); lra|]. intros. split; [lra|apply ex_GDP_pos].
  - intros r Hr. cbn. lra.
  - intros t [Ht L]. unfold cumulative_global_baseline_emissions. rewrite td_sum. cbn [tf three_decades] in L.
    destruct t as [|[|[|[|t]]]]; try lia; cbn [cumulative_baseline_emissions]; unfold year; cbn; lra.
  - intros X; discriminate X.
  - intros X; discriminate X.
Qed.
Definition td_plan (t : nat) (r : region) : R := match t with O => 0 | S _ => if isA r then start t else 4/3 * start t end.
Definition td_cum (t : nat) : R :=
  match t with O => 0 | S O => 400 - 1400/3 * start 1 | S (S O) => 800 - 1400/3 * (start 1 + start 2) | _ => 1200 - 1400/3 * (start 1 + start 2 + start 3) end.
Definition three_decades_plan : point := sim three_decades td_plan td_cum (fun _ => 0).
Lemma td_log : log_LBD_rate three_decades = 0.
Proof. unfold log_LBD_rate. cbn [LBD_rate three_decades]. rewrite ln_1. unfold Rdiv. ring. Qed.
Lemma td_learn_sim t : s_learn three_decades td_cum t = 1.
Proof. unfold s_learn, s_lbd, s_lot. rewrite td_log, de_power. cbn [LOT_rate three_decades]. rewrite Rplus_0_r, pow1. unfold Rdiv. rewrite Rinv_1. ring. Qed.
Lemma td_plan_range t r : model_step three_decades t -> 0 <= td_plan t r <= 192/1000.
Proof. intros Ht. destruct (td_steps t Ht) as [->|H]; [cbn; lra|]. pose proof (td_start t H). unfold td_plan. destruct t; [lra|]. destruct (isA r); lra. Qed.
Lemma td_em t r : s_em three_decades td_plan td_cum t r = (1 - td_plan t r) * 20.
Proof. destruct t; cbn [s_em baseline_emissions three_decades]; [cbn; ring|]. unfold s_base. cbn [use_carbon_intensity baseline_emissions three_decades]. ring. Qed.
Lemma td_ge t : s_ge three_decades td_plan td_cum t = match t with O => 40 | S _ => 40 - 140/3 * start t end.
Proof. unfold s_ge. rewrite td_sum, !td_em. destruct t; cbn [td_plan isA String.eqb Ascii.eqb Bool.eqb]; lra. Qed.
Lemma td_ge_range t : model_step three_decades t -> 33 <= s_ge three_decades td_plan td_cum t <= 40.
Proof. intros Ht. rewrite td_ge. destruct (td_steps t Ht) as [->|H]; [lra|]. pose proof (td_start t H). destruct t; lra. Qed.
Lemma td_cum_range t : model_step three_decades t -> 0 <= td_cum t <= 1200 /\ ((1 <= t)%nat -> 300 <= td_cum t).
Proof.
  intros Ht. pose proof (td_start 1 ltac:(lia)). pose proof (td_start 2 ltac:(lia)). pose proof (td_start 3 ltac:(lia)).
  destruct t as [|[|[|t]]]; cbn [td_cum]; split; intros; try lia; lra.
Qed.
Lemma td_temp t : model_step three_decades t -> 12/10 <= s_temp three_decades td_cum t <= 2.
Proof. intros Ht. destruct (td_cum_range t Ht) as [C _]. unfold s_temp. cbn [T0 TCRE three_decades]. lra. Qed.
Lemma td_seas t : model_step three_decades t -> 0 < s_th three_decades td_cum t /\ 0 < s_gs three_decades td_cum t <= 15/1000 + INR t * (3/100) /\ 0 < s_gi three_decades td_cum t <= 6/1000 + INR t * (3/100).
Proof.
  induction t as [|t IH]; intros Ht.
  - cbn [s_th s_gs s_gi INR]. unfold slr_thermal_expansion_init, slr_thermal_init, slr_thermal_adjust_rate, slr_thermal_equil. cbn [T0 three_decades]. lra.
  - assert (M : model_step three_decades t) by (unfold model_step in *; lia). specialize (IH M). destruct IH as (I1 & I2 & I3). pose proof (td_temp t M) as T.
    assert (IN : 0 <= INR t <= 2). { split; [apply pos_INR|]. replace 2 with (INR 2) by (cbn; ring). apply le_INR. unfold model_step in Ht. cbn [tf three_decades] in Ht. lia. }
    rewrite S_INR. cbn [s_th s_gs s_gi]. set (x := s_temp three_decades td_cum t) in *. set (g := s_gs three_decades td_cum t) in *. set (i := s_gi three_decades td_cum t) in *.
    unfold slr_thermal_adjust_rate, slr_thermal_equil, slr_gsic_melt_rate, slr_gsic_total_ice, slr_gsic_equil_temp, slr_gis_melt_rate_above_thresh, slr_gis_init_melt_rate, slr_gis_init_ice_vol. cbn [dt three_decades].
    split; [|split].
    + apply Rplus_lt_0_compat; [apply Rmult_lt_0_compat; [|exact I1]; rewrite pypow_pos by lra; apply exp_pos|]. lra.
    + assert (P : 0 <= (26/100 - g) * (x - -1) <= 26/100 * 3).
      { assert (0 <= 26/100 - g <= 26/100) by lra. split; [apply Rmult_le_pos; lra|apply Rmult_le_compat; lra]. }
      replace (g + 8 / 10000 / (26 / 100) * 10 * (26 / 100 - g) * (x - -1)) with (g + 8/10000/(26/100)*10 * ((26/100 - g) * (x - -1))) by ring. lra.
    + assert (P : 0 <= (111860082/100000000 * x + 6/10) * (1 - i / (73/10)) <= 3 * 1).
      { split; [apply Rmult_le_pos; lra|apply Rmult_le_compat; lra]. }
      replace (i + 10/10 * (1/100) * (111860082/100000000 * x + 6/10) * (1 - i / (73/10))) with (i + 10/10*(1/100) * ((111860082/100000000 * x + 6/10) * (1 - i / (73/10)))) by ring. lra.
Qed.
Lemma td_price_sim t r : model_step three_decades t -> s_price three_decades td_plan td_cum t r = 2 * (if isA r then 1 else 3/4) * td_plan t r.
Proof.
  intros Ht. unfold s_price. rewrite td_learn_sim. cbn [MAC_scaling MAC_gamma MAC_beta three_decades]. pose proof (td_plan_range t r Ht). rewrite pypow_apow, de_line by lra. ring.
Qed.
Lemma td_feasible : feasible three_decades three_decades_plan.
Proof.
  apply sim_feasible; auto; try (cbn; lra).
  - apply td_ranges.
  - apply td_data.
  - apply td_choices.
  - unfold slr_logistic_ok. discriminate.
  - discriminate.
  - intros t Ht. rewrite !td_ge. unfold model_step in Ht. cbn [tf three_decades] in Ht. destruct t as [|[|[|t]]]; try lia; cbn [td_cum cum_trapz dt three_decades]; lra.
  - intros t Ht. unfold cumulative_emissions, temperature, global_emissions, thermal_SLR, glacier_SLR, icesheet_SLR. cbn [gval sim].
    cbn [temperature_target budget no_pos_after_budget_year global_min_level inertia_global three_decades].
    split; [apply (td_cum_range t Ht)|]. split; [discriminate|].
    split. { intros B E Y. injection E as <-. destruct (td_steps t Ht) as [->|H]; [unfold year in Y; cbn in Y; lra|]. destruct t as [|[|[|t]]]; try lia; unfold year in Y; cbn [beginyear dt three_decades INR] in Y; try lra. cbn [td_cum]. lra. }
    split; [intros; discriminate|].
    split; [intros l E; injection E as <-; pose proof (td_ge_range t Ht); lra|].
    split. { intros i s E ->. injection E as <-. pose proof (td_ge_range (S s) Ht). pose proof (td_ge_range s ltac:(unfold model_step in *; lia)). unfold total. rewrite td_sum. cbn [dt baseline_emissions three_decades]. lra. }
    destruct (td_seas t Ht) as (P1 & P2 & P3). do 3 (split; [lra|]).
    intros r Hr. unfold relative_abatement, carbonprice, regional_emissions, rel_mitigation_costs. cbn [rval sim].
    cbn [dmg_module regional_min_level inertia_regional transfer effort_regime three_decades].
    pose proof (td_plan_range t r Ht) as A. pose proof (sim_gross three_decades td_plan td_cum td_ranges td_data t r Ht Hr) as YP.
    split; [lra|]. split; [rewrite td_price_sim by exact Ht; cbn [MAC_gamma three_decades]; destruct (isA r); lra|].
    split; [discriminate|]. split; [intros l E; injection E as <-; rewrite td_em; lra|].
    split. { intros i s E ->. injection E as <-. rewrite !td_em. pose proof (td_plan_range s r ltac:(unfold model_step in *; lia)). cbn [dt baseline_emissions three_decades]. lra. }
    split. { intros s _ -> Y. exfalso. unfold model_step in Ht. cbn [tf three_decades] in Ht. destruct s as [|[|[|s]]]; try lia; unfold year in Y; cbn in Y; lra. }
    split. { intros _. cbn [rel_mitigation_costs_min_level three_decades]. unfold Rdiv. apply Rmult_le_pos; [|apply Rlt_le, Rinv_0_lt_compat; exact YP].
      unfold s_M, s_base, s_unit. rewrite td_learn_sim. cbn [use_carbon_intensity baseline_emissions MAC_scaling MAC_gamma MAC_beta three_decades].
      rewrite pypow_apow by lra. pose proof (apow_nonneg (td_plan t r) (1 + 1)). destruct (isA r); lra. }
    repeat split; intros; discriminate.
Qed.

(** *** Nobody can do with less: the plan is optimal. *)
Lemma td_cost v t r : feasible three_decades v -> model_step three_decades t -> In r (regions three_decades) ->
  area_under_MAC v t r = (if isA r then 20 else 15) * (relative_abatement v t r * relative_abatement v t r).
Proof.
  intros F Ht Hr. rewrite (cost_v three_decades v F td_ranges eq_refl t r Ht Hr). unfold ac, mac_scale.
  assert (L : learning_factor v t = 1).
  { unfold learning_factor. rewrite (q_learning three_decades v F t Ht), (q_LBD three_decades v F t Ht), (q_LOT three_decades v F t Ht), td_log, de_power.
    cbn [LOT_rate three_decades]. rewrite Rplus_0_r, pow1. unfold Rdiv. rewrite Rinv_1. ring. }
  rewrite L. destruct (q_bounds_r three_decades v F t r Ht Hr) as ((A & _) & _). fold (relative_abatement v t r) in A. cbn [MAC_scaling MAC_gamma MAC_beta baseline_emissions three_decades].
  replace (1 + 1) with 2 by ring. rewrite de_square by exact A. destruct (isA r); field.
Qed.
Lemma td_costs v t : feasible three_decades v -> model_step three_decades t -> total three_decades (mitigation_costs v t) =
  20 * (relative_abatement v t "A"%string * relative_abatement v t "A"%string) + 15 * (relative_abatement v t "B"%string * relative_abatement v t "B"%string).
Proof.
  intros F M. unfold total. rewrite td_sum.
  rewrite (proj1 (C35_notrade_own_costs_pf three_decades v t "A"%string F eq_refl M ltac:(cbn; auto))), (proj1 (C35_notrade_own_costs_pf three_decades v t "B"%string F eq_refl M ltac:(cbn; auto))).
  rewrite !(td_cost v t) by (cbn; auto). reflexivity.
Qed.
Definition both (v : point) (t : nat) : R := relative_abatement v t "A"%string + relative_abatement v t "B"%string.
Lemma td_step_cum v t : feasible three_decades v -> model_step three_decades (S t) -> cumulative_emissions v (S t) = cumulative_emissions v t + 10 * (40 - 20 * both v (S t)).
Proof.
  intros F M. unfold cumulative_emissions. rewrite (q_cum three_decades v F t M). cbn [cum_trapz dt three_decades].
  rewrite (q_global three_decades v F (S t) M), td_sum. 
  assert (L : (0 < S t <= tf three_decades)%nat) by (unfold model_step in M; lia). assert (IA : In "A"%string (regions three_decades)) by (cbn; auto). assert (IB : In "B"%string (regions three_decades)) by (cbn; auto).
  rewrite !(q_abatement three_decades v F (S t)) by (assumption || lia).
  rewrite !(q_baseline three_decades v F (S t)) by (assumption || lia). cbn [use_carbon_intensity baseline_emissions three_decades]. unfold both, relative_abatement. lra.
Qed.
Lemma td_reduction v : feasible three_decades v -> 7/3 * (start 1 + start 2 + start 3) <= both v 1 + both v 2 + both v 3.
Proof.
  intros F. assert (M : forall t, (t <= 3)%nat -> model_step three_decades t) by (intros; unfold model_step; cbn [tf three_decades]; lia).
  pose proof (q_budget three_decades v F 3 _ (M 3%nat ltac:(lia)) eq_refl ltac:(unfold year; cbn; lra)) as [B _]. fold (cumulative_emissions v 3) in B.
  rewrite (td_step_cum v 2 F), (td_step_cum v 1 F), (td_step_cum v 0 F) in B by (apply M; lia). unfold cumulative_emissions in B. rewrite (q_cum0 three_decades v F) in B. lra.
Qed.
Definition weight (t : nat) : R := exp (- PRTP three_decades * (year three_decades t - beginyear three_decades)).
Lemma td_weight t : (1 <= t <= 3)%nat -> 0 < weight t /\ weight t * start t = weight 1 * (1/10).
Proof.
  intros Ht. split; [apply exp_pos|].
  assert (E : forall u, weight (S u) = weight u * exp (- (15/100))).
  { intros u. unfold weight, year. rewrite <- exp_plus, S_INR. cbn [PRTP beginyear dt three_decades]. f_equal. lra. }
  assert (I : exp (- (15/100)) * decade_growth = 1) by (unfold decade_growth; rewrite <- exp_plus; replace (- (15/100) + 15/100) with 0 by ring; apply exp_0).
  rewrite (E 0%nat). unfold start. destruct t as [|[|[|[|t]]]]; try lia; cbn [Nat.pred pow].
  - rewrite (E 0%nat). ring.
  - rewrite (E 1%nat), (E 0%nat). set (x := exp (- (15/100))) in *. replace (weight 0 * x * x * (1/10 * (decade_growth * 1))) with (weight 0 * x * (1/10) * (x * decade_growth)) by ring. rewrite I. ring.
  - rewrite (E 2%nat), (E 1%nat), (E 0%nat). set (x := exp (- (15/100))) in *.
    replace (weight 0 * x * x * x * (1/10 * (decade_growth * (decade_growth * 1)))) with (weight 0 * x * (1/10) * (x * decade_growth) * (x * decade_growth)) by ring. rewrite I. ring.
Qed.
(** The costs of a step lie above their tangent. *)
Lemma td_tangent v t : feasible three_decades v -> (1 <= t <= 3)%nat ->
  weight t * total three_decades (mitigation_costs three_decades_plan t) + 4 * weight 1 * (both v t - 7/3 * start t) <= weight t * total three_decades (mitigation_costs v t).
Proof.
  intros F Ht. assert (M : model_step three_decades t) by (unfold model_step; cbn [tf three_decades]; lia).
  destruct (td_weight t Ht) as [W WS]. rewrite (td_costs _ t td_feasible M), (td_costs v t F M).
  assert (PA : relative_abatement three_decades_plan t "A"%string = start t) by (unfold relative_abatement, three_decades_plan; cbn [rval sim]; destruct t; [lia|reflexivity]).
  assert (PB : relative_abatement three_decades_plan t "B"%string = 4/3 * start t) by (unfold relative_abatement, three_decades_plan; cbn [rval sim]; destruct t; [lia|reflexivity]).
  rewrite PA, PB. unfold both.
  set (x := relative_abatement v t "A"%string). set (y := relative_abatement v t "B"%string). set (s := start t) in *. set (k := weight t) in *. set (k1 := weight 1) in *.
  assert (WQ : 4 * k1 * (x + y - 7/3 * s) = 40 * (k * s) * (x + y - 7/3 * s)) by (rewrite WS; field). rewrite WQ.
  assert (Q : 0 <= k * (20 * ((x - s) * (x - s)) + 15 * ((y - 4/3 * s) * (y - 4/3 * s)))).
  { apply Rmult_le_pos; [lra|]. pose proof (Rle_0_sqr (x - s)) as Q1. pose proof (Rle_0_sqr (y - 4/3 * s)) as Q2. unfold Rsqr in Q1, Q2. lra. }
  lra.
Qed.
Lemma td_optimal : optimal three_decades three_decades_plan.
Proof.
  pose proof td_feasible as F0. split; [exact F0|]. intros w Fw.
  apply (proj2 (C44_objective_direction_pf three_decades three_decades_plan w F0 Fw) eq_refl). unfold discounted. cbn [tf three_decades]. cbn [steps_sum].
  assert (M : forall t, (t <= 3)%nat -> model_step three_decades t) by (intros; unfold model_step; cbn [tf three_decades]; lia).
  assert (Z : forall x t, feasible three_decades x -> (t <= 3)%nat -> total three_decades (fun q => damage_costs x t q * GDP_gross x t q) = 0).
  { intros x t Fx Ht. unfold total. rewrite (Rsum_ext _ (fun _ => 0)); [apply Rsum_const0|]. intros q Hq. unfold damage_costs. rewrite (q_nodamage three_decades x Fx t q eq_refl (M t Ht) Hq). ring. }
  rewrite !(Z _ _ F0), !(Z _ _ Fw) by lia. fold (weight 1) (weight 2) (weight 3).
  pose proof (td_tangent w 1 Fw ltac:(lia)). pose proof (td_tangent w 2 Fw ltac:(lia)). pose proof (td_tangent w 3 Fw ltac:(lia)).
  pose proof (td_reduction w Fw) as R. assert (W : 0 < weight 1) by apply exp_pos.
  assert (RR : 0 <= 4 * weight 1 * (both w 1 + both w 2 + both w 3 - 7/3 * (start 1 + start 2 + start 3))) by (apply Rmult_le_pos; lra).
  cbn [dt three_decades]. lra.
Qed.

(** *** The theorem applies: between 2080 and 2090 the price rises by the factor exp(0.15). *)
Lemma td_can_more t r : (1 <= t <= 2)%nat -> can_abate_more three_decades three_decades_plan t r.
Proof.
  intros Ht. assert (M : forall s, (s <= 3)%nat -> model_step three_decades s) by (intros; unfold model_step; cbn [tf three_decades]; lia).
  pose proof (td_plan_range t r (M t ltac:(lia))) as A. unfold can_abate_more, relative_abatement, carbonprice, regional_emissions, three_decades_plan. cbn [rval sim].
  rewrite td_price_sim, !td_em by (apply M; lia). cbn [MAC_gamma regional_min_level inertia_regional tf dt baseline_emissions three_decades].
  split; [lra|]. split; [destruct (isA r); lra|]. split; [intros l E; injection E as <-; lra|]. split.
  - intros i u E ->. injection E as <-. rewrite td_em. pose proof (td_plan_range u r (M u ltac:(lia))). lra.
  - intros _ _ Y. exfalso. destruct t as [|[|[|t]]]; try lia; unfold year in Y; cbn in Y; lra.
Qed.
Lemma td_can_less t r : (1 <= t <= 2)%nat -> can_abate_less three_decades three_decades_plan t r.
Proof.
  intros Ht. assert (M : forall s, (s <= 3)%nat -> model_step three_decades s) by (intros; unfold model_step; cbn [tf three_decades]; lia).
  pose proof (td_plan_range t r (M t ltac:(lia))) as A. unfold can_abate_less, relative_abatement, regional_emissions, three_decades_plan. cbn [rval sim].
  rewrite !td_em. cbn [inertia_regional tf dt baseline_emissions three_decades]. split; [|split].
  - pose proof (td_start t ltac:(lia)). unfold td_plan. destruct t; [lia|]. destruct (isA r); lra.
  - intros i E _. injection E as <-. pose proof (td_plan_range (S t) r (M (S t) ltac:(lia))). lra.
  - intros u _ -> Y. exfalso. destruct u as [|[|u]]; try lia; unfold year in Y; cbn in Y; lra.
Qed.
Lemma td_world t : (1 <= t <= 2)%nat -> world_can_emit_less three_decades three_decades_plan t /\ world_can_emit_more three_decades three_decades_plan t.
Proof.
  intros Ht. assert (M : forall s, (s <= 3)%nat -> model_step three_decades s) by (intros; unfold model_step; cbn [tf three_decades]; lia).
  unfold world_can_emit_less, world_can_emit_more, global_emissions, three_decades_plan. cbn [gval sim global_min_level inertia_global tf dt three_decades].
  pose proof (td_ge_range t (M t ltac:(lia))) as G. split; [split|].
  - intros l E. injection E as <-. lra.
  - intros i u E ->. injection E as <-. unfold total. rewrite td_sum. cbn [baseline_emissions three_decades]. pose proof (td_ge_range u (M u ltac:(lia))). lra.
  - intros i E _. injection E as <-. unfold total. rewrite td_sum. cbn [baseline_emissions three_decades]. pose proof (td_ge_range (S t) (M (S t) ltac:(lia))). lra.
Qed.
Lemma td_climate : climate_positive three_decades three_decades_plan.
Proof.
  intros t Ht. assert (M : model_step three_decades t) by (unfold model_step; lia).
  destruct (td_seas t M) as (P1 & P2 & P3). destruct (td_cum_range t M) as [_ C]. specialize (C ltac:(lia)).
  unfold cumulative_emissions, thermal_SLR, glacier_SLR, icesheet_SLR, three_decades_plan. cbn [gval sim]. lra.
Qed.
Lemma td_least : least_cost_plan three_decades three_decades_plan.
Proof. split; [exact td_optimal|]. do 5 (split; [reflexivity|]). cbn. lra. Qed.
Lemma td_sensible : sensible_data three_decades.
Proof.
  split; [apply td_ranges|]. split; [apply td_data|]. split; [apply td_choices|]. split; [cbn; lra|].
  split; [cbn; constructor; [intros [Q|[]]; discriminate Q|constructor; [intros []|constructor]]|]. split; [cbn; lra|].
  split; [intros r _; cbn; destruct (isA r); lra|intros; cbn; lra].
Qed.
Example C71_ex_hotelling : least_cost_plan three_decades three_decades_plan /\ sensible_data three_decades /\ climate_positive three_decades three_decades_plan /\
  (forall t r, (1 <= t <= 2)%nat -> In r (regions three_decades) -> early_step three_decades t r /\ has_room three_decades three_decades_plan t r /\
     world_can_emit_less three_decades three_decades_plan t /\ world_can_emit_more three_decades three_decades_plan t) /\
  carbonprice three_decades_plan 1 "A"%string = 2/10 /\ carbonprice three_decades_plan 2 "B"%string = 2/10 * exp (15/100).
Proof.
  split; [exact td_least|]. split; [exact td_sensible|]. split; [exact td_climate|]. split.
  - intros t r Ht Hr. split; [|split; [split; [apply td_can_more|apply td_can_less]; exact Ht|apply td_world; exact Ht]].
    split; [cbn [tf three_decades]; lia|]. split; [|split; [exact Hr|cbn; lra]]. destruct t as [|[|[|t]]]; try lia; unfold year; cbn; lra.
  - unfold carbonprice, three_decades_plan. cbn [rval sim]. rewrite !td_price_sim by (unfold model_step; cbn [tf three_decades]; lia).
    cbn [isA String.eqb Ascii.eqb Bool.eqb td_plan]. unfold start, decade_growth. cbn [Nat.pred pow]. lra.
Qed.
Example C71_ex_applies : carbonprice three_decades_plan 2 "B"%string = exp (PRTP three_decades * (year three_decades 2 - year three_decades 1)) * carbonprice three_decades_plan 1 "A"%string.
Proof.
  destruct C71_ex_hotelling as (L & S & C & H & _).
  destruct (H 1%nat "A"%string ltac:(lia) ltac:(cbn; auto)) as (E1 & R1 & W1 & X1). destruct (H 2%nat "B"%string ltac:(lia) ltac:(cbn; auto)) as (E2 & R2 & W2 & X2).
  apply (C71_hotelling_rule_pf three_decades three_decades_plan 1 2 "A"%string "B"%string L S C); auto.
Qed.
