(** Non-vacuity of C70: an optimal plan of two regions that meets a carbon budget in one step of ten years. *)
From Coq Require Import Reals List String Lra Lia.
From Verif Require Import ModelFacts SoftFacts ModelSpec PowFacts Equations Equations2 Build VarFacts EconLemmas BuildFacts BuildLemmas DefinedFacts
  SolveFacts ClimateSpec ClimateLemmas WelfareSpec WelfareLemmas MitigationLemmas TradeLemmas PolicySpec PolicyLemmas Simulate SimFacts ExistSpec ExistFacts ExistLemmas ReallocateSpec Reallocate Exchange PriceLemmas Example.
Import ListNotations.
Open Scope R_scope.
Set Bullet Behavior "Strict Subproofs".

Definition budget_of (B : R) : policy := {| pol_budget := Some B; pol_temperature := None; pol_inertia_global := None;
  pol_inertia_regional := None; pol_min_global := None; pol_min_regional := None; pol_non_increasing := true; pol_net_zero := false |}.
(** Two regions emit 20 GtCO2/yr each; at most 300 GtCO2 may be emitted in the decade up to 2100.  Marginal costs are linear. *)
Definition decade_with (ob : objective_module) : pars := {|
  beginyear := 2090; dt := 10; tf := 1; regions := ["A"; "B"]%string;
  population := fun _ r => 4; baseline_GDP := fun _ r => ex_GDP r; baseline_emissions := fun _ _ => 20;
  use_carbon_intensity := false; cum_trapz := false; T0 := 12/10; TCRE := 62/100000;
  temperature_target := None; perc_reversible := 1; budget := Some 300;
  inertia_global := None; inertia_regional := None; global_min_level := None; regional_min_level := None;
  non_increasing_after_2100 := true; no_pos_after_budget_year := false;
  dmg_module := nodamage; damage_scale_factor := 1; dmg_noslr := ex_noslr; dmg_slr := ex_slr notransfer;
  mort_oldest := fun _ => (1, 2, 3); mort_older := fun _ => (1, 2, 3); mort_young := fun _ => (1, 2, 3);
  MAC_gamma := 2; MAC_beta := 1; MAC_scaling := fun r => if isA r then 1 else 3/4; rel_mitigation_costs_min_level := 0;
  LBD_rate := 1; LBD_scaling := 40; LOT_rate := 0;
  trade := notrade; min_rel_payment_level := None; max_rel_payment_level := None; transfer := notransfer; effort_regime := noregime;
  percapconv_year := Some 2050; init_capital_factor := fun r => if isA r then 1 else 9; alpha := 3/10; dk := 5/100; sr := 21/100;
  ignore_damages := false; welfare := cost_minimising; elasmu := 1001/1000; inequal_aversion := 1/2; objective := ob; PRTP := 15/1000 |}.
Section De.
Variable ob : objective_module.
Notation decade := (decade_with ob).
Lemma de_reg r : In r (regions decade) -> r = "A"%string \/ r = "B"%string.
Proof. cbn. intros [<-|[<-|[]]]; auto. Qed.
Lemma de_sum f : Rsum f (regions decade) = f "A"%string + f "B"%string.
Proof. cbn. ring. Qed.
Lemma de_ranges : numeric_ranges decade.
Proof. unfold numeric_ranges, decade_with. cbn. lra. Qed.
Lemma de_choices : usable_choices decade.
Proof. repeat split; intros; try discriminate; reflexivity || (cbn; lra). Qed.
Lemma de_data : sound_data decade.
Proof.
  split; [cbn; discriminate|]. split; [|split; [|split; [|split]]].
  - intros r Hr. cbn [init_capital_factor population baseline_GDP decade_with]. split; [destruct (isA r); lra|]. intros. split; [lra|apply ex_GDP_pos].
  - intros r Hr. cbn. lra.
  - intros t [Ht L]. unfold cumulative_global_baseline_emissions. rewrite de_sum. cbn [tf decade_with] in L. assert (t = 1%nat) as -> by lia.
    cbn [cumulative_baseline_emissions]. unfold year. cbn. lra.
  - intros X; discriminate X.
  - intros X; discriminate X.
Qed.
(** A plan that abates [aA] and [aB], together 1/2. *)
Variables aA aB : R.
Hypotheses (HaA : 0 <= aA) (HaB : 0 <= aB) (Hab : aA + aB = 1/2).
Definition decade_plan (t : nat) (r : region) : R := match t with O => 0 | S _ => if isA r then aA else aB end.
Definition decade_cum (t : nat) : R := match t with O => 0 | S _ => 300 end.
Definition decade_point : point := sim decade decade_plan decade_cum (fun _ => 0).
Lemma de_step t : model_step decade t -> t = 0%nat \/ t = 1%nat.
Proof. unfold model_step. cbn [tf decade_with]. lia. Qed.
Lemma de_log : log_LBD_rate decade = 0.
Proof. unfold log_LBD_rate. cbn [LBD_rate decade_with]. rewrite ln_1. unfold Rdiv. ring. Qed.
Lemma de_power x : pypow (smin 1 x) 0 = 1.
Proof. rewrite pypow_pos by (apply smin_pos; lra). apply Rpower_O, smin_pos. lra. Qed.
Lemma de_square a : 0 <= a -> apow a 2 = a * a.
Proof.
  intros H. destruct (Req_dec a 0) as [->|N]; [rewrite apow_0 by lra; ring|]. rewrite apow_pos by lra.
  replace 2 with (1 + 1) by ring. rewrite Rpower_plus, Rpower_1 by lra. reflexivity.
Qed.
Lemma de_line a : 0 <= a -> apow a 1 = a.
Proof. intros H. destruct (Req_dec a 0) as [->|N]; [apply apow_0; lra|]. rewrite apow_pos, Rpower_1 by lra. reflexivity. Qed.
Lemma de_learn_sim t : s_learn decade decade_cum t = 1.
Proof. unfold s_learn, s_lbd, s_lot. rewrite de_log, de_power. cbn [LOT_rate decade_with]. rewrite Rplus_0_r, pow1. unfold Rdiv. rewrite Rinv_1. ring. Qed.
Lemma de_plan_range t r : 0 <= decade_plan t r <= 1/2.
Proof. unfold decade_plan. destruct t; [lra|]. destruct (isA r); lra. Qed.
Lemma de_ge t : s_ge decade decade_plan decade_cum t = match t with O => 40 | S _ => 30 end.
Proof.
  unfold s_ge. rewrite de_sum. destruct t; cbn [s_em baseline_emissions decade_with]; [lra|]. unfold s_base. cbn. lra.
Qed.
Lemma de_feasible : feasible decade decade_point.
Proof.
  apply sim_feasible; auto; try (cbn; lra).
  - apply de_ranges.
  - apply de_data.
  - apply de_choices.
  - unfold slr_logistic_ok. discriminate.
  - discriminate.
  - intros t Ht. rewrite !de_ge. unfold model_step in Ht. destruct t; cbn; [lra|exfalso; cbn [tf decade_with] in Ht; lia].
  - intros t Ht. unfold cumulative_emissions, temperature, global_emissions, thermal_SLR, glacier_SLR, icesheet_SLR. cbn [gval sim].
    cbn [temperature_target budget no_pos_after_budget_year global_min_level inertia_global decade_with].
    split; [destruct t; cbn; lra|]. split; [discriminate|]. split; [intros B E _; injection E as <-; destruct t; cbn; lra|].
    do 3 (split; [intros; discriminate|]).
    split; [|split; [|split]].
    + destruct (de_step t Ht) as [-> | ->]; cbn [s_th]; unfold slr_thermal_expansion_init, s_temp; cbn [T0 TCRE dt decade_with decade_cum]; [unfold slr_thermal_init, slr_thermal_adjust_rate, slr_thermal_equil; lra|].
      apply Rplus_le_le_0_compat; [apply Rmult_le_pos|]; unfold slr_thermal_init, slr_thermal_equil, slr_thermal_adjust_rate; cbn [T0 decade_with]; try lra.
      rewrite pypow_pos by lra. left. apply exp_pos.
    + destruct (de_step t Ht) as [-> | ->]; cbn [s_gs]; unfold s_temp, slr_gsic_melt_rate, slr_gsic_total_ice, slr_gsic_equil_temp; cbn [T0 TCRE dt decade_with decade_cum]; lra.
    + destruct (de_step t Ht) as [-> | ->]; cbn [s_gi]; unfold s_temp, slr_gis_melt_rate_above_thresh, slr_gis_init_melt_rate, slr_gis_init_ice_vol; cbn [T0 TCRE dt decade_with decade_cum]; lra.
    + intros r Hr. unfold relative_abatement, carbonprice, regional_emissions, rel_mitigation_costs. cbn [rval sim].
      cbn [dmg_module regional_min_level inertia_regional transfer effort_regime decade_with].
      pose proof (de_plan_range t r) as A. pose proof (sim_gross decade decade_plan decade_cum de_ranges de_data t r Ht Hr) as YP.
      split; [lra|]. split.
      { unfold s_price. rewrite de_learn_sim. cbn [MAC_scaling MAC_gamma MAC_beta decade_with]. rewrite pypow_apow by lra. rewrite de_line by lra. destruct (isA r); lra. }
      split; [discriminate|]. do 2 (split; [intros; discriminate|]).
      split. { intros s _ -> Y. exfalso. destruct (de_step _ Ht) as [Q|Q]; [discriminate Q|]. injection Q as ->. unfold year in Y. cbn in Y. lra. }
      split. { intros _. cbn [rel_mitigation_costs_min_level decade_with]. unfold Rdiv. apply Rmult_le_pos; [|apply Rlt_le, Rinv_0_lt_compat; exact YP].
        unfold s_M, s_base, s_unit. rewrite de_learn_sim. cbn [use_carbon_intensity baseline_emissions MAC_scaling MAC_gamma MAC_beta decade_with].
        rewrite pypow_apow by lra. pose proof (apow_nonneg (decade_plan t r) (1 + 1)). destruct (isA r); lra. }
      repeat split; intros; discriminate.
Qed.

(** Nobody can do with less: the plan is optimal. *)
Lemma de_price v t r : feasible decade v -> model_step decade t -> In r (regions decade) ->
  area_under_MAC v t r = (if isA r then 20 else 15) * (relative_abatement v t r * relative_abatement v t r).
Proof.
  intros F Ht Hr. rewrite (cost_v decade v F de_ranges eq_refl t r Ht Hr). unfold ac, mac_scale.
  assert (L : learning_factor v t = 1).
  { unfold learning_factor. rewrite (q_learning decade v F t Ht), (q_LBD decade v F t Ht), (q_LOT decade v F t Ht), de_log, de_power.
    cbn [LOT_rate decade_with]. rewrite Rplus_0_r, pow1. unfold Rdiv. rewrite Rinv_1. ring. }
  rewrite L. destruct (q_bounds_r decade v F t r Ht Hr) as ((A & _) & _). fold (relative_abatement v t r) in A. cbn [MAC_scaling MAC_gamma MAC_beta baseline_emissions decade_with].
  replace (1 + 1) with 2 by ring. rewrite de_square by exact A. destruct (isA r); field.
Qed.
Lemma de_costs v : feasible decade v -> total decade (mitigation_costs v 1) =
  20 * (relative_abatement v 1 "A"%string * relative_abatement v 1 "A"%string) + 15 * (relative_abatement v 1 "B"%string * relative_abatement v 1 "B"%string).
Proof.
  intros F. assert (M : model_step decade 1) by (unfold model_step; cbn; lia). unfold total. rewrite de_sum.
  rewrite (proj1 (C35_notrade_own_costs_pf decade v 1 "A"%string F eq_refl M ltac:(cbn; auto))), (proj1 (C35_notrade_own_costs_pf decade v 1 "B"%string F eq_refl M ltac:(cbn; auto))).
  rewrite !(de_price v 1) by (cbn; auto). reflexivity.
Qed.
Lemma de_reduction v : feasible decade v -> 1/2 <= relative_abatement v 1 "A"%string + relative_abatement v 1 "B"%string.
Proof.
  intros F. assert (M : model_step decade 1) by (unfold model_step; cbn; lia).
  pose proof (q_budget decade v F 1 300 M eq_refl ltac:(unfold year; cbn; lra)) as [B _].
  rewrite (q_cum decade v F 0 M), (q_cum0 decade v F) in B. cbn [cum_trapz dt decade_with] in B.
  rewrite (q_global decade v F 1 M), de_sum in B.
  rewrite !(q_abatement decade v F 1) in B by (cbn; auto; lia).
  rewrite !(q_baseline decade v F 1) in B by (auto; cbn; auto). cbn [use_carbon_intensity baseline_emissions decade_with] in B.
  unfold relative_abatement. lra.
Qed.
End De.

(** The objective of least cost *)
Notation decade := (decade_with globalcosts).
Notation least_cost := (decade_point globalcosts (3/14) (4/14)).
Lemma least_cost_feasible : feasible decade least_cost.
Proof. apply de_feasible; lra. Qed.
(** Nobody can do with less: the plan is optimal. *)
Lemma de_optimal : optimal decade least_cost.
Proof.
  pose proof least_cost_feasible as F0.
  split; [exact F0|]. intros w Fw.
  apply (proj2 (C44_objective_direction_pf decade least_cost w F0 Fw) eq_refl). unfold discounted. cbn [tf decade_with steps_sum].
  assert (M : model_step decade 1) by (unfold model_step; cbn; lia).
  assert (Z : forall x, feasible decade x -> total decade (fun q => damage_costs x 1 q * GDP_gross x 1 q) = 0).
  { intros x Fx. unfold total. rewrite (Rsum_ext _ (fun _ => 0)); [apply Rsum_const0|]. intros q Hq. unfold damage_costs. rewrite (q_nodamage decade x Fx 1 q eq_refl M Hq). ring. }
  rewrite (Z _ F0), (Z _ Fw), (de_costs _ _ F0), (de_costs _ _ Fw). pose proof (de_reduction _ w Fw) as R.
  unfold decade_point at 1 2 3 4. unfold relative_abatement at 1 2 3 4. cbn [rval sim decade_plan isA String.eqb Ascii.eqb Bool.eqb].
  set (x := relative_abatement w 1 "A"%string) in *. set (y := relative_abatement w 1 "B"%string) in *.
  rewrite !Rplus_0_l, !Rplus_0_r. apply Rmult_le_compat_l; [left; apply Rmult_lt_0_compat; [cbn; lra|apply exp_pos]|].
  pose proof (Rle_0_sqr (x - 3/14)). pose proof (Rle_0_sqr (y - 4/14)). unfold Rsqr in *. lra.
Qed.

(** Both regions have room in the last step, and both carbon prices are 3/7 (before the conversion of units). *)
Example C70_ex_uniform : optimal decade least_cost /\ (forall r, In r (regions decade) -> has_room decade least_cost 1 r /\ carbonprice least_cost 1 r = 3/7) /\
  relative_abatement least_cost 1 "A"%string < relative_abatement least_cost 1 "B"%string.
Proof.
  split; [exact de_optimal|]. assert (P : forall r, In r (regions decade) -> carbonprice least_cost 1 r = 3/7).
  { intros r Hr. unfold carbonprice, decade_point. cbn [rval sim]. unfold s_price. rewrite de_learn_sim. cbn [MAC_scaling MAC_gamma MAC_beta decade_with decade_plan].
    destruct (isA r); rewrite pypow_pos, Rpower_1 by lra; lra. }
  split.
  - intros r Hr. split; [|auto]. unfold has_room, can_abate_more, can_abate_less. rewrite (P r Hr). unfold relative_abatement, decade_point. cbn [rval sim decade_plan].
    cbn [MAC_gamma regional_min_level inertia_regional non_increasing_after_2100 tf decade_with].
    repeat split; intros; try discriminate; try lia; destruct (isA r); try lra; exfalso.
    all: match goal with H : 1%nat = S ?u |- _ => injection H as <- end; unfold year in *; cbn in *; lra.
  - unfold relative_abatement, decade_point. cbn. lra.
Qed.
(** The theorem applies to it. *)
Example C70_ex_applies : carbonprice least_cost 1 "A"%string = carbonprice least_cost 1 "B"%string.
Proof.
  destruct C70_ex_uniform as (O & H & _).
  apply (C70_uniform_carbon_price_pf decade least_cost 1); auto; try reflexivity; try discriminate.
  - apply de_ranges.
  - apply de_data.
  - apply de_choices.
  - cbn; lra.
  - cbn. constructor; [intros [Q|[]]; discriminate Q|constructor; [intros []|constructor]].
  - intros q _. cbn. destruct (isA q); lra.
  - cbn; lra.
  - cbn; lra.
  - intros; cbn; lra.
  - cbn; left; reflexivity.
  - cbn; right; left; reflexivity.
  - cbn; lra.
  - cbn; lra.
  - apply H. cbn. auto.
  - apply H. cbn. auto.
Qed.
