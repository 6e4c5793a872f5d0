(** C45, C46. *)
From Coq Require Import Lra Lia.
From Verif Require Import ModelFacts SoftFacts ModelSpec Equations Equations2 PowFacts Transfer PolicySpec EconLemmas WelfareLemmas ClimateLemmas SolveFacts.
Set Bullet Behavior "Strict Subproofs".

Lemma C45_stricter_policy_fewer_solutions_pf : forall p q q' v, 0 <= dt p ->
  (forall r, In r (regions p) -> 0 <= baseline_emissions p 0 r) ->
  stricter q q' -> feasible (with_policy q p) v -> feasible (with_policy q' p) v.
Proof.
  intros p q q' v D E (S1 & S2 & S3 & S4 & S5 & S6 & S7 & S8) H.
  assert (ET : 0 <= Rsum (baseline_emissions p 0) (regions p)) by (apply Rsum_nonneg; auto).
  assert (Y : forall x t, year (with_policy x p) t = year p t) by reflexivity.
  assert (YB : forall x t, year_before (with_policy x p) t = year_before p t) by reflexivity.
  transfer H;
    match goal with K : holds_c _ _ _ (?C ?n _) |- holds_c _ _ _ (?C ?n _) => rename K into K0 end.
  - intros t Hq. specialize (K0 t Hq). unfold c_temperature_target in *.
    change (temperature_target (with_policy q p)) with (pol_temperature q) in K0.
    change (temperature_target (with_policy q' p)) with (pol_temperature q').
    unfold stricter_upper in S2. destruct (pol_temperature q') as [y|]; [|exact I]. destruct (pol_temperature q) as [x|]; [|destruct S2].
    rewrite Y in *. destruct (Rleb 2100 (year p t)); [|exact I]. cbn [sat deno defd] in *. repeat split. lra.
  - intros t Hq. specialize (K0 t Hq). unfold c_carbon_budget in *.
    change (budget (with_policy q p)) with (pol_budget q) in K0.
    change (budget (with_policy q' p)) with (pol_budget q').
    change (perc_reversible (with_policy q p)) with (perc_reversible p) in K0.
    change (perc_reversible (with_policy q' p)) with (perc_reversible p).
    unfold stricter_upper in S1. destruct (pol_budget q') as [y|]; [|exact I]. destruct (pol_budget q) as [x|]; [|destruct S1].
    rewrite Y in *. destruct (Rleb 2100 (year p t)); [|exact I]. destruct (Rltb (perc_reversible p) 1); [exact K0|].
    cbn [sat deno defd] in *. repeat split. lra.
  - intros t Hq. specialize (K0 t Hq). unfold c_global_inertia in *.
    change (inertia_global (with_policy q p)) with (pol_inertia_global q) in K0.
    change (inertia_global (with_policy q' p)) with (pol_inertia_global q').
    unfold stricter_lower in S3. destruct (pol_inertia_global q') as [y|]; [|exact I]. destruct (pol_inertia_global q) as [x|]; [|destruct S3].
    destruct t as [|t]; [exact I|]. cbn [Nat.ltb Nat.leb prev] in *. cbn [sat deno defd] in *. rewrite !deno_esum in *. cbn [deno] in *.
    split; [tauto|]. split. { rewrite defd_esum. repeat split. }
    change (Rsum (fun r => baseline_emissions (with_policy q p) 0 r) (regions (with_policy q p))) with (Rsum (baseline_emissions p 0) (regions p)) in K0.
    change (Rsum (fun r => baseline_emissions (with_policy q' p) 0 r) (regions (with_policy q' p))) with (Rsum (baseline_emissions p 0) (regions p)).
    change (dt (with_policy q p)) with (dt p) in K0. change (dt (with_policy q' p)) with (dt p).
    destruct K0 as (_ & _ & K0). apply Rge_le in K0. apply Rle_ge. eapply Rle_trans; [|exact K0].
    apply Rmult_le_compat_r; auto. apply Rmult_le_compat_l; auto.
  - intros t r Hq Hr. specialize (K0 t r Hq Hr). unfold c_regional_inertia in *.
    change (inertia_regional (with_policy q p)) with (pol_inertia_regional q) in K0.
    change (inertia_regional (with_policy q' p)) with (pol_inertia_regional q').
    unfold stricter_lower in S4. destruct (pol_inertia_regional q') as [y|]; [|exact I]. destruct (pol_inertia_regional q) as [x|]; [|destruct S4].
    destruct t as [|t]; [exact I|]. cbn [Nat.ltb Nat.leb prev] in *. cbn [sat deno defd] in *.
    split; [tauto|]. split; [tauto|].
    change (baseline_emissions (with_policy q p)) with (baseline_emissions p) in K0.
    change (baseline_emissions (with_policy q' p)) with (baseline_emissions p).
    change (dt (with_policy q p)) with (dt p) in K0. change (dt (with_policy q' p)) with (dt p).
    destruct K0 as (_ & _ & K0). apply Rge_le in K0. apply Rle_ge. eapply Rle_trans; [|exact K0].
    apply Rmult_le_compat_r; auto. apply Rmult_le_compat_l; auto.
  - intros t Hq. specialize (K0 t Hq). unfold c_global_min_level in *.
    change (global_min_level (with_policy q p)) with (pol_min_global q) in K0.
    change (global_min_level (with_policy q' p)) with (pol_min_global q').
    unfold stricter_lower in S5. destruct (pol_min_global q') as [y|]; [|exact I]. destruct (pol_min_global q) as [x|]; [|destruct S5].
    cbn [sat deno defd] in *. repeat split. lra.
  - intros t r Hq Hr. specialize (K0 t r Hq Hr). unfold c_regional_min_level in *.
    change (regional_min_level (with_policy q p)) with (pol_min_regional q) in K0.
    change (regional_min_level (with_policy q' p)) with (pol_min_regional q').
    unfold stricter_lower in S6. destruct (pol_min_regional q') as [y|]; [|exact I]. destruct (pol_min_regional q) as [x|]; [|destruct S6].
    cbn [sat deno defd] in *. repeat split. lra.
  - intros t r Hq Hr. specialize (K0 t r Hq Hr). unfold c_non_increasing in *. rewrite YB in *.
    change (non_increasing_after_2100 (with_policy q p)) with (pol_non_increasing q) in K0.
    change (non_increasing_after_2100 (with_policy q' p)) with (pol_non_increasing q').
    destruct (pol_non_increasing q'); [rewrite S7 in K0 by auto; exact K0|]. rewrite andb_false_r. exact I.
  - intros t Hq. specialize (K0 t Hq). unfold c_net_zero in *. rewrite Y in *.
    change (no_pos_after_budget_year (with_policy q p)) with (pol_net_zero q) in K0.
    change (no_pos_after_budget_year (with_policy q' p)) with (pol_net_zero q').
    change (budget (with_policy q p)) with (pol_budget q) in K0.
    change (budget (with_policy q' p)) with (pol_budget q').
    unfold stricter_upper in S1. destruct (pol_budget q') as [y|]; [|exact I]. destruct (pol_budget q) as [x|]; [|destruct S1].
    destruct (pol_net_zero q'); [rewrite S8 in K0 by auto; exact K0|]. rewrite andb_false_r. exact I.
Qed.

(** Hence a stricter policy never has a better optimum. *)
Lemma C45_stricter_policy_not_better_pf : forall p q q' v w, 0 <= dt p ->
  (forall r, In r (regions p) -> 0 <= baseline_emissions p 0 r) ->
  stricter q q' -> feasible (with_policy q p) v -> optimal (with_policy q' p) w ->
  (objective p = utility -> objective_value p v <= objective_value p w) /\
  (objective p = globalcosts -> objective_value p w <= objective_value p v).
Proof.
  intros p q q' v w D E S F [_ O].
  specialize (O v (C45_stricter_policy_fewer_solutions_pf p q q' v D E S F)).
  unfold better, maximise in O. change (objective (with_policy q' p)) with (objective p) in O.
  split; intros X; rewrite X in O; exact O.
Qed.

(** ** C46 *)
Section Determinism.
  Variables (p : pars) (v w : point).
  Hypotheses (Fv : feasible p v) (Fw : feasible p w) (X : use_carbon_intensity p = false).
  Hypothesis A : forall t r, (1 <= t <= tf p)%nat -> In r (regions p) -> relative_abatement v t r = relative_abatement w t r.

  Lemma det_emissions t r : model_step p t -> In r (regions p) -> regional_emissions v t r = regional_emissions w t r.
  Proof.
    intros Ht Hr. unfold regional_emissions. destruct t as [|t].
    - rewrite (q_emissions0 p v Fv r Hr), (q_emissions0 p w Fw r Hr). reflexivity.
    - rewrite (q_abatement p v Fv (S t) r), (q_abatement p w Fw (S t) r) by (auto; unfold model_step in Ht; lia).
      rewrite (q_baseline p v Fv (S t) r Ht Hr), (q_baseline p w Fw (S t) r Ht Hr), X. specialize (A (S t) r ltac:(unfold model_step in Ht; lia) Hr). unfold relative_abatement in A. rewrite A. reflexivity.
  Qed.
  Lemma det_global t : model_step p t -> global_emissions v t = global_emissions w t.
  Proof.
    intros Ht. unfold global_emissions. rewrite (q_global p v Fv t Ht), (q_global p w Fw t Ht).
    apply Rsum_ext. intros r Hr. apply det_emissions; auto.
  Qed.
  Lemma det_cum t : model_step p t -> cumulative_emissions v t = cumulative_emissions w t.
  Proof.
    unfold cumulative_emissions. induction t as [|t IH]; intros Ht.
    - rewrite (q_cum0 p v Fv), (q_cum0 p w Fw). reflexivity.
    - rewrite (q_cum p v Fv t Ht), (q_cum p w Fw t Ht).
      pose proof (det_global (S t) Ht) as G1. assert (Ht' : model_step p t) by (unfold model_step in *; lia).
      pose proof (det_global t Ht') as G0. unfold global_emissions in *. rewrite G1, G0, (IH Ht'). reflexivity.
  Qed.
  Lemma det_temp t : model_step p t -> temperature v t = temperature w t.
  Proof.
    intros Ht. unfold temperature. rewrite (q_temp p v Fv t Ht), (q_temp p w Fw t Ht).
    pose proof (det_cum t Ht) as C. unfold cumulative_emissions in C. rewrite C. reflexivity.
  Qed.
  Lemma det_slr t : model_step p t ->
    thermal_SLR v t = thermal_SLR w t /\ glacier_SLR v t = glacier_SLR w t /\ icesheet_SLR v t = icesheet_SLR w t.
  Proof.
    unfold thermal_SLR, glacier_SLR, icesheet_SLR. induction t as [|t IH]; intros Ht.
    - destruct (q_slr0 p v Fv) as (-> & -> & ->). destruct (q_slr0 p w Fw) as (-> & -> & ->). auto.
    - assert (Ht' : model_step p t) by (unfold model_step in *; lia). destruct (IH Ht') as (I1 & I2 & I3).
      destruct (q_slr_step p v Fv t Ht) as (-> & -> & ->). destruct (q_slr_step p w Fw t Ht) as (-> & -> & ->).
      pose proof (det_temp t Ht') as T. unfold temperature in T. rewrite T, I1, I2, I3. auto.
  Qed.
  Lemma det_total_slr t : model_step p t -> total_SLR v t = total_SLR w t.
  Proof.
    intros Ht. destruct (det_slr t Ht) as (A1 & A2 & A3). unfold total_SLR, thermal_SLR, glacier_SLR, icesheet_SLR in *.
    rewrite (q_slr_total p v Fv t Ht), (q_slr_total p w Fw t Ht), A1, A2, A3. reflexivity.
  Qed.
  Lemma det_damage t r : model_step p t -> In r (regions p) -> damage_costs v t r = damage_costs w t r.
  Proof.
    intros Ht Hr. destruct (dmg_module p) eqn:D.
    - destruct (C39_damages_follow_curve_pf p v t r Fv D Ht Hr) as (-> & -> & -> & _).
      destruct (C39_damages_follow_curve_pf p w t r Fw D Ht Hr) as (-> & -> & -> & _).
      rewrite (det_temp t Ht), (det_total_slr t Ht), (det_total_slr 0) by (unfold model_step; lia). reflexivity.
    - unfold damage_costs. rewrite (q_nodamage p v Fv t r D Ht Hr), (q_nodamage p w Fw t r D Ht Hr). reflexivity.
  Qed.
  Lemma det_learning t : model_step p t -> learning_factor v t = learning_factor w t.
  Proof.
    intros Ht. unfold learning_factor. rewrite (q_learning p v Fv t Ht), (q_learning p w Fw t Ht).
    rewrite (q_LBD p v Fv t Ht), (q_LBD p w Fw t Ht), (q_LOT p v Fv t Ht), (q_LOT p w Fw t Ht).
    pose proof (det_cum t Ht) as C. unfold cumulative_emissions in C. rewrite C. reflexivity.
  Qed.
  Lemma det_baseline t r : model_step p t -> In r (regions p) -> baseline v t r = baseline w t r.
  Proof.
    intros Ht Hr. unfold baseline. rewrite (q_baseline p v Fv t r Ht Hr), (q_baseline p w Fw t r Ht Hr), X. reflexivity.
  Qed.
  Lemma det_mac t r : (1 <= t <= tf p)%nat -> In r (regions p) ->
    carbonprice v t r = carbonprice w t r /\ area_under_MAC v t r = area_under_MAC w t r.
  Proof.
    intros Ht Hr. assert (Ht' : model_step p t) by (unfold model_step; lia).
    unfold carbonprice, area_under_MAC.
    rewrite (q_carbonprice p v Fv t r Ht' Hr), (q_carbonprice p w Fw t r Ht' Hr), (q_area p v Fv t r Ht' Hr), (q_area p w Fw t r Ht' Hr).
    pose proof (A t r Ht Hr) as A'. pose proof (det_learning t Ht') as L. pose proof (det_baseline t r Ht' Hr) as B.
    unfold relative_abatement, learning_factor, baseline in *. rewrite A', L, B. auto.
  Qed.
End Determinism.

(** With an exogenous baseline the abatement path determines emissions, climate, damages (as a share of GDP)
    and the technical mitigation costs. *)
Lemma C46_abatement_determines_climate_pf : forall p v w, feasible p v -> feasible p w -> use_carbon_intensity p = false ->
  (forall t r, (1 <= t <= tf p)%nat -> In r (regions p) -> relative_abatement v t r = relative_abatement w t r) ->
  forall t, model_step p t ->
  global_emissions v t = global_emissions w t /\ cumulative_emissions v t = cumulative_emissions w t /\
  temperature v t = temperature w t /\ total_SLR v t = total_SLR w t /\ learning_factor v t = learning_factor w t /\
  forall r, In r (regions p) ->
    regional_emissions v t r = regional_emissions w t r /\ damage_costs v t r = damage_costs w t r /\
    ((1 <= t)%nat -> carbonprice v t r = carbonprice w t r /\ area_under_MAC v t r = area_under_MAC w t r).
Proof.
  intros p v w Fv Fw X A t Ht.
  split; [eapply det_global; eauto|]. split; [eapply det_cum; eauto|]. split; [eapply det_temp; eauto|].
  split; [eapply det_total_slr; eauto|]. split; [eapply det_learning; eauto|].
  intros r Hr. split; [eapply det_emissions; eauto|]. split; [eapply det_damage; eauto|].
  intros Ht1. eapply det_mac; eauto.
Qed.

Lemma steps_sum_ext f g t : (forall s, (1 <= s <= t)%nat -> f s = g s) -> steps_sum f t = steps_sum g t.
Proof. induction t as [|t IH]; intros H; cbn [steps_sum]; auto. rewrite IH by (intros; apply H; lia). rewrite H by lia. reflexivity. Qed.
Lemma initial_area p v r : feasible p v -> 0 < MAC_beta p -> In r (regions p) -> area_under_MAC v 0 r = 0.
Proof.
  intros F Hb Hr. unfold area_under_MAC. rewrite (q_area p v F 0 r) by (auto; lia).
  pose proof (q_carbonprice p v F 0 r ltac:(lia) Hr) as C. rewrite (q_carbonprice0 p v F r Hr) in C.
  destruct (q_bounds_r p v F 0 r ltac:(lia) Hr) as (B & _).
  set (a := rval v v_relative_abatement 0 r) in *. rewrite (pypow_apow a) in C by lra. rewrite (pypow_apow a) by lra.
  set (k := gval v g_learning_factor 0 * MAC_scaling p r * MAC_gamma p) in *.
  symmetry in C. apply Rmult_integral in C. destruct C as [->|C]; [unfold Rdiv; ring|].
  apply apow_eq0 in C; [|lra]. rewrite C. rewrite apow_0 by lra. unfold Rdiv; ring.
Qed.

(** Without trade and transfers it also determines the economy, as long as the investments forgone because of
    mitigation do not exceed the capital stock. *)
Lemma C46_abatement_determines_economy_pf : forall p v w, feasible p v -> feasible p w -> use_carbon_intensity p = false ->
  trade p = notrade -> transfer p = notransfer ->
  0 < dt p -> 0 <= dk p < 1 -> 0 <= sr p -> 0 <= alpha p <= 1 -> 0 < MAC_beta p -> positive_data p ->
  (forall t r, (1 <= t <= tf p)%nat -> In r (regions p) -> relative_abatement v t r = relative_abatement w t r) ->
  (forall t r, (S t <= tf p)%nat -> In r (regions p) -> dt p * sr p * mitigation_costs v (S t) r <= capital_stock v t r) ->
  objective_value p v = objective_value p w /\
  forall t, model_step p t -> yearly_welfare v t = yearly_welfare w t /\
  forall r, In r (regions p) -> capital_stock v t r = capital_stock w t r /\ GDP_gross v t r = GDP_gross w t r /\
    mitigation_costs v t r = mitigation_costs w t r /\
    GDP_net v t r = GDP_net w t r /\ consumption v t r = consumption w t r.
Proof.
  intros p v w Fv Fw X Tr Tf Hdt Hk Hs Ha Hb PD A Small.
  assert (M : forall t r, model_step p t -> In r (regions p) -> mitigation_costs v t r = mitigation_costs w t r).
  { intros t r Ht Hr. unfold mitigation_costs. rewrite (q_mitigation p v Fv t r Ht Hr), (q_mitigation p w Fw t r Ht Hr).
    unfold cost_balance. rewrite Tr. cbn [deno]. f_equal. destruct t as [|t].
    - pose proof (initial_area p v r Fv Hb Hr). pose proof (initial_area p w r Fw Hb Hr). unfold area_under_MAC in *. lra.
    - apply (det_mac p v w Fv Fw X A (S t) r); auto. unfold model_step in Ht. lia. }
  assert (Dm : forall t r, model_step p t -> In r (regions p) -> damage_costs v t r = damage_costs w t r)
    by (intros; eapply det_damage; eauto).
  set (Y := fun t r K => TFP p t r * pypow (population p t r) (1 - alpha p) * pypow (smin 10 K) (alpha p)).
  assert (EqK : forall x t r, feasible p x -> (S t <= tf p)%nat -> In r (regions p) ->
    capf (2 - survival p) (capital_stock x t r - dt p * sr p * mitigation_costs x (S t) r)
      (dt p * sr p * (1 - if ignore_damages p then 0 else damage_costs x (S t) r) * (TFP p (S t) r * pypow (population p (S t) r) (1 - alpha p)))
      (alpha p) (capital_stock x (S t) r) = 0).
  { intros x t r Fx Ht Hr. pose proof (capital_closed p x t r Fx Ht Hr Hdt Hk) as E.
    unfold investments in E. rewrite (q_investments p x Fx (S t) r Ht Hr), (q_GDP_net p x Fx (S t) r Ht Hr) in E.
    rewrite (q_GDP_gross p x Fx (S t) r) in E by (auto; lia). unfold financial_transfer in E. rewrite Tf in E. cbn [deno] in E.
    unfold capf, capital_stock, mitigation_costs, damage_costs in *.
    rewrite (pypow_pos (smin 10 _)) in E by (apply smin_pos; lra).
    set (d := 1 - (if ignore_damages p then 0 else rval x v_damage_costs (S t) r)) in *.
    set (P := TFP p (S t) r * pypow (population p (S t) r) (1 - alpha p)) in *. lra. }
  assert (K : forall t r, model_step p t -> In r (regions p) -> capital_stock v t r = capital_stock w t r).
  { intros t r. induction t as [|t IH]; intros Ht Hr.
    - unfold capital_stock. rewrite (q_capital0 p v Fv r Hr), (q_capital0 p w Fw r Hr). reflexivity.
    - assert (Ht' : model_step p t) by (unfold model_step in *; lia).
      pose proof (EqK v t r Fv Ht Hr) as Ev. pose proof (EqK w t r Fw Ht Hr) as Ew.
      rewrite <- (IH Ht' Hr), <- (M (S t) r Ht Hr), <- (Dm (S t) r Ht Hr) in Ew.
      destruct (surv_range p Hdt Hk) as [_ SR].
      eapply cap_unique; [| | | |exact Ev|exact Ew]; try lra.
      left. pose proof (Small t r Ht Hr). lra. }
  assert (YG : forall t r, model_step p t -> In r (regions p) -> GDP_gross v t r = GDP_gross w t r).
  { intros t r Ht Hr. unfold GDP_gross. destruct t as [|t].
    - rewrite (q_GDP_gross0 p v Fv r Hr), (q_GDP_gross0 p w Fw r Hr). reflexivity.
    - rewrite (q_GDP_gross p v Fv (S t) r), (q_GDP_gross p w Fw (S t) r) by (auto; unfold model_step in Ht; lia).
      pose proof (K (S t) r Ht Hr) as E. unfold capital_stock in E. rewrite E. reflexivity. }
  assert (YN : forall t r, model_step p t -> In r (regions p) -> GDP_net v t r = GDP_net w t r).
  { intros t r Ht Hr. unfold GDP_net. rewrite (q_GDP_net p v Fv t r Ht Hr), (q_GDP_net p w Fw t r Ht Hr).
    pose proof (YG t r Ht Hr) as E1. pose proof (M t r Ht Hr) as E2. pose proof (Dm t r Ht Hr) as E3.
    unfold GDP_gross, mitigation_costs, damage_costs in *. unfold financial_transfer. rewrite Tf, E1, E2, E3. reflexivity. }
  assert (CO : forall t r, model_step p t -> In r (regions p) -> consumption v t r = consumption w t r).
  { intros t r Ht Hr. unfold consumption. rewrite (q_consumption p v Fv t r Ht Hr), (q_consumption p w Fw t r Ht Hr).
    pose proof (YN t r Ht Hr) as E. unfold GDP_net in E. rewrite E. reflexivity. }
  assert (WE : forall t, model_step p t -> yearly_welfare v t = yearly_welfare w t).
  { intros t Ht. apply welfare_same with p; auto. intros r Hr. destruct (PD r Hr) as [_ Q]. apply Q; auto. }
  split.
  - pose proof (C44_NPV_is_discounted_sum_pf p v (tf p) Fv (le_n _)) as N1.
    pose proof (C44_NPV_is_discounted_sum_pf p w (tf p) Fw (le_n _)) as N2.
    unfold objective_value. unfold NPV in *. rewrite N1, N2. unfold discounted. apply steps_sum_ext. intros s Hs'.
    assert (Hq : model_step p s) by (unfold model_step; lia). f_equal.
    destruct (objective p); [apply WE; auto|]. f_equal.
    + apply Rsum_ext. intros; apply M; auto.
    + apply Rsum_ext. intros r Hr. rewrite (Dm s r Hq Hr), (YG s r Hq Hr). reflexivity.
  - intros t Ht. split; [auto|]. intros r Hr. repeat split; auto.
Qed.
