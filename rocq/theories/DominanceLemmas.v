(** C68: abating costs consumption, so without damages to avoid the run without abatement is the optimum. *)
From Coq Require Import Reals Lra Lia List.
From Verif Require Import ModelFacts SoftFacts ModelSpec Equations Equations2 PowFacts EconLemmas MitigationLemmas SolveFacts WelfareSpec WelfareLemmas DominanceSpec
  Build VarFacts BuildFacts BuildLemmas Simulate SimFacts ExistSpec ExistFacts ExistLemmas ExistExo.
Import ListNotations.
Set Bullet Behavior "Strict Subproofs".
Open Scope R_scope.


Lemma gross_mono p v w t r : feasible p v -> feasible p w -> (0 < t <= tf p)%nat -> In r (regions p) ->
  0 < dt p -> 0 <= dk p < 1 -> 0 <= sr p -> 0 <= alpha p -> positive_data p ->
  capital_stock v t r <= capital_stock w t r -> GDP_gross v t r <= GDP_gross w t r.
Proof.
  intros F F' Ht Hr Hdt Hk Hs Al PD L. unfold GDP_gross. rewrite (q_GDP_gross p v F), (q_GDP_gross p w F') by auto.
  destruct (PD r Hr) as [_ D]. destruct (D t ltac:(unfold model_step; lia)) as [P _].
  apply Rmult_le_compat_l.
  - apply Rlt_le, Rmult_lt_0_compat; [apply TFP_pos; auto; unfold model_step; lia|apply pypow_pos_pos; auto].
  - rewrite !pypow_pos by (apply smin_pos; lra). apply Rpower_le_base; [auto|apply smin_pos; lra|].
    apply smin_le; [lra|exact L].
Qed.

(** The economy is monotone: costs and damages no higher in any year and region leave no less capital, output and consumption. *)
Lemma economy_monotone p v w r :
  feasible p v -> feasible p w -> In r (regions p) -> transfer p = notransfer ->
  0 < dt p -> 0 <= dk p < 1 -> 0 <= sr p -> 0 <= alpha p <= 1 -> positive_data p ->
  (forall t, model_step p t -> mitigation_costs w t r <= mitigation_costs v t r /\
     damage_share p w t r <= damage_share p v t r /\ damage_share p w t r <= 1) ->
  (forall t, (S t <= tf p)%nat -> dt p * sr p * mitigation_costs w (S t) r <= capital_stock w t r) ->
  forall t, model_step p t -> capital_stock v t r <= capital_stock w t r.
Proof.
  intros F F' Hr NT Hdt Hk Hs Al PD C AF. induction t as [|t IH]; intros Ht.
  - unfold capital_stock. rewrite (q_capital0 p v F), (q_capital0 p w F') by auto. lra.
  - unfold model_step in *. specialize (IH ltac:(lia)).
    destruct (surv_range p Hdt Hk) as [_ [S0 S1]].
    pose proof (capital_closed p v t r F Ht Hr Hdt Hk) as Ev. pose proof (capital_closed p w t r F' Ht Hr Hdt Hk) as Ew.
    unfold investments in Ev, Ew. rewrite (q_investments p v F) in Ev by auto. rewrite (q_investments p w F') in Ew by auto.
    rewrite (q_GDP_net p v F) in Ev by auto. rewrite (q_GDP_net p w F') in Ew by auto.
    rewrite transfer_deno in Ev, Ew. unfold transfer_paid in Ev, Ew. rewrite NT in Ev, Ew.
    change (if ignore_damages p then 0 else rval v v_damage_costs (S t) r) with (damage_share p v (S t) r) in Ev.
    change (if ignore_damages p then 0 else rval w v_damage_costs (S t) r) with (damage_share p w (S t) r) in Ew.
    change (rval v v_mitigation_costs (S t) r) with (mitigation_costs v (S t) r) in Ev.
    change (rval w v_mitigation_costs (S t) r) with (mitigation_costs w (S t) r) in Ew.
    rewrite (q_GDP_gross p v F) in Ev by (auto; lia). rewrite (q_GDP_gross p w F') in Ew by (auto; lia).
    change (rval v v_capital_stock (S t) r) with (capital_stock v (S t) r) in Ev.
    change (rval w v_capital_stock (S t) r) with (capital_stock w (S t) r) in Ew.
    destruct (PD r Hr) as [_ D]. destruct (D (S t) ltac:(unfold model_step; lia)) as [P _].
    set (A := TFP p (S t) r * pypow (population p (S t) r) (1 - alpha p)) in *.
    assert (HA : 0 < A).
    { apply Rmult_lt_0_compat; [apply TFP_pos; auto|apply pypow_pos_pos; auto]. }
    rewrite pypow_pos in Ev, Ew by (apply smin_pos; lra).
    destruct (C (S t) Ht) as (M & DD & D1). specialize (AF t Ht).
    set (Kv := capital_stock v (S t) r) in *. set (Kw := capital_stock w (S t) r) in *.
    set (mv := mitigation_costs v (S t) r) in *. set (mw := mitigation_costs w (S t) r) in *.
    set (dv := damage_share p v (S t) r) in *. set (dw := damage_share p w (S t) r) in *.
    set (kv := capital_stock v t r) in *. set (kw := capital_stock w t r) in *.
    set (m := kw - dt p * sr p * mw). set (B := dt p * sr p * A * (1 - dw)).
    assert (DS : 0 <= dt p * sr p) by (apply Rmult_le_pos; lra).
    assert (Hm : 0 <= m) by (unfold m; lra).
    assert (HB : 0 <= B) by (unfold B; apply Rmult_le_pos; [apply Rmult_le_pos; lra|lra]).
    assert (PV : 0 < Rpower (smin 10 Kv) (alpha p)) by apply exp_pos.
    assert (PW : 0 < Rpower (smin 10 Kw) (alpha p)) by apply exp_pos.
    assert (Zw : capf (2 - survival p) m B (alpha p) Kw = 0).
    { unfold capf, m, B. rewrite (Rmult_comm (2 - survival p) Kw), Ew. ring. }
    assert (Lv : capf (2 - survival p) m B (alpha p) Kv <= 0).
    { unfold capf, m, B. rewrite (Rmult_comm (2 - survival p) Kv), Ev.
      assert (dt p * sr p * mw <= dt p * sr p * mv) by (apply Rmult_le_compat_l; auto).
      assert (X : dt p * sr p * A * (1 - dv) * Rpower (smin 10 Kv) (alpha p) <= dt p * sr p * A * (1 - dw) * Rpower (smin 10 Kv) (alpha p)).
      { apply Rmult_le_compat_r; [lra|]. apply Rmult_le_compat_l; [apply Rmult_le_pos; lra|lra]. }
      nra. }
    destruct (Rle_lt_dec Kv Kw) as [L|L]; [exact L|exfalso].
    destruct (Rle_lt_dec (m + B) 0) as [Z|Z].
    + assert (m = 0) by lra. assert (B = 0) by lra. unfold capf in Zw, Lv. rewrite H0, H in Zw, Lv. nra.
    + destruct (capf_sign_pos (2 - survival p) m B (alpha p) Kv Kw ltac:(lra) (proj1 Al) (proj2 Al) Hm HB Z Zw) as (_ & Q & _). specialize (Q L). lra.
Qed.
Lemma net_mono p v w t r : feasible p v -> feasible p w -> model_step p t -> In r (regions p) -> transfer p = notransfer ->
  0 < dt p -> 0 <= dk p < 1 -> 0 <= sr p -> 0 <= alpha p <= 1 -> positive_data p ->
  capital_stock v t r <= capital_stock w t r ->
  damage_share p w t r <= damage_share p v t r -> damage_share p w t r <= 1 ->
  GDP_gross v t r <= GDP_gross w t r /\
  GDP_net v t r - GDP_net w t r <= mitigation_costs w t r - mitigation_costs v t r.
Proof.
  intros F F' Ht Hr NT Hdt Hk Hs Al PD K DD D1.
  assert (G : GDP_gross v t r <= GDP_gross w t r).
  { destruct t as [|t].
    - unfold GDP_gross. rewrite (q_GDP_gross0 p v F), (q_GDP_gross0 p w F') by auto. lra.
    - apply (gross_mono p); auto; [unfold model_step in Ht; lia|apply Al]. }
  split; [exact G|].
  unfold GDP_net. rewrite (q_GDP_net p v F), (q_GDP_net p w F') by auto.
  rewrite !transfer_deno. unfold transfer_paid. rewrite NT.
  change (if ignore_damages p then 0 else rval v v_damage_costs t r) with (damage_share p v t r).
  change (if ignore_damages p then 0 else rval w v_damage_costs t r) with (damage_share p w t r).
  pose proof (C31_GDP_positive_pf p v t r F Ht Hr Hdt Hk Hs PD) as Y.
  unfold GDP_gross, mitigation_costs in *.
  assert (rval v v_GDP_gross t r * (1 - damage_share p v t r) <= rval v v_GDP_gross t r * (1 - damage_share p w t r)) by (apply Rmult_le_compat_l; lra).
  assert (rval v v_GDP_gross t r * (1 - damage_share p w t r) <= rval w v_GDP_gross t r * (1 - damage_share p w t r)) by (apply Rmult_le_compat_r; lra).
  lra.
Qed.

(** Mitigation costs and damages no higher in any year, and affordable: no less capital, output and consumption in any year. *)
Lemma C68_lower_costs_more_consumption_pf : forall p v w r,
  feasible p v -> feasible p w -> In r (regions p) -> transfer p = notransfer ->
  0 < dt p -> 0 <= dk p < 1 -> 0 <= sr p <= 1 -> 0 <= alpha p <= 1 -> positive_data p ->
  (forall t, model_step p t -> mitigation_costs w t r <= mitigation_costs v t r /\
     damage_share p w t r <= damage_share p v t r /\ damage_share p w t r <= 1) ->
  (forall t, (S t <= tf p)%nat -> dt p * sr p * mitigation_costs w (S t) r <= capital_stock w t r) ->
  forall t, model_step p t ->
    capital_stock v t r <= capital_stock w t r /\ GDP_gross v t r <= GDP_gross w t r /\
    GDP_net v t r <= GDP_net w t r /\ consumption v t r <= consumption w t r /\
    (sr p < 1 -> mitigation_costs w t r < mitigation_costs v t r -> consumption v t r < consumption w t r).
Proof.
  intros p v w r F F' Hr NT Hdt Hk Hs Al PD C AF t Ht.
  pose proof (economy_monotone p v w r F F' Hr NT Hdt Hk (proj1 Hs) Al PD C AF t Ht) as K.
  destruct (C t Ht) as (M & DD & D1).
  destruct (net_mono p v w t r F F' Ht Hr NT Hdt Hk (proj1 Hs) Al PD K DD D1) as [G N].
  split; [exact K|]. split; [exact G|]. split; [lra|].
  unfold consumption. rewrite (q_consumption p v F), (q_consumption p w F') by auto. unfold GDP_net in N.
  split.
  - apply Rmult_le_compat_l; lra.
  - intros S1 L. apply Rmult_lt_compat_l; lra.
Qed.


Lemma share_zero p v t r : feasible p v -> model_step p t -> In r (regions p) -> dmg_module p = nodamage \/ ignore_damages p = true ->
  damage_share p v t r = 0.
Proof.
  intros F Ht Hr [D|D]; unfold damage_share; [|rewrite D; auto].
  unfold damage_costs. rewrite (q_nodamage p v F) by auto. destruct (ignore_damages p); auto.
Qed.
(** The costs of a region are never negative when the model's lower limit on relative costs is 0 (the default). *)
Lemma costs_nonneg p v t r : feasible p v -> model_step p t -> In r (regions p) ->
  0 < dt p -> 0 <= dk p < 1 -> 0 <= sr p -> positive_data p -> 0 <= rel_mitigation_costs_min_level p -> 0 <= mitigation_costs v t r.
Proof.
  intros F Ht Hr Hdt Hk Hs PD ML.
  pose proof (C31_GDP_positive_pf p v t r F Ht Hr Hdt Hk Hs PD) as Y.
  destruct (q_rel_mitigation p v F t r Ht Hr) as [E _]. pose proof (q_rel_mitigation_min p v F t r Ht Hr) as L.
  unfold GDP_gross, mitigation_costs in *. rewrite E in L.
  assert (0 <= rval v v_mitigation_costs t r / rval v v_GDP_gross t r) by (destruct (Nat.ltb 0 t); lra).
  apply (Rmult_le_compat_r (rval v v_GDP_gross t r)) in H; [|lra]. unfold Rdiv in H.
  rewrite Rmult_assoc, Rinv_l, Rmult_1_r, Rmult_0_l in H by lra. exact H.
Qed.

Lemma Rsum_zeros l : Rsum (fun _ : region => 0) l = 0.
Proof. induction l as [|a l IH]; [reflexivity|]. unfold Rsum in *. cbn [fold_right]. rewrite IH. lra. Qed.

(** Without trade, transfers or damages a region only has its own abatement costs, which are never negative. *)
Lemma own_costs_nonneg p v t r : feasible p v -> model_step p t -> In r (regions p) -> numeric_ranges p -> positive_data p ->
  (forall t r, model_step p t -> In r (regions p) -> 0 <= baseline_emissions p t r) -> (forall r, In r (regions p) -> 0 <= MAC_scaling p r) -> 0 <= MAC_gamma p ->
  dmg_module p = nodamage \/ ignore_damages p = true -> transfer p = notransfer -> trade p = notrade -> 0 <= mitigation_costs v t r.
Proof.
  intros F Ht Hr NR PD BN MN GN ND NT TR. destruct NR as (Hdt & Hk & Hs & Hb & HL).
  pose proof (q_mitigation p v F t r Ht Hr) as M. rewrite cost_balance_deno in M. unfold imported_costs in M. rewrite TR, Rplus_0_r in M.
  rewrite (q_area p v F) in M by auto. unfold mitigation_costs. rewrite M.
  destruct (q_bounds_r p v F t r Ht Hr) as [[Q1 _] _].
  assert (L : 0 < gval v g_learning_factor t) by (apply (learning_pos p v t F Ht); lra).
  assert (P : 0 <= pypow (rval v v_relative_abatement t r) (MAC_beta p + 1)).
  { destruct Q1 as [Q1|<-]; [apply Rlt_le, pypow_pos_pos; auto|rewrite pow0 by lra; lra]. }
  set (A := gval v g_learning_factor t * MAC_scaling p r * MAC_gamma p * pypow (rval v v_relative_abatement t r) (MAC_beta p + 1) / (MAC_beta p + 1)) in *.
  assert (HA : 0 <= A).
  { unfold A, Rdiv. apply Rmult_le_pos; [|apply Rlt_le, Rinv_0_lt_compat; lra]. apply Rmult_le_pos; auto. apply Rmult_le_pos; auto. apply Rmult_le_pos; auto; lra. }
  apply Rmult_le_pos; [exact HA|].
  pose proof (q_baseline p v F t r Ht Hr) as B. destruct (use_carbon_intensity p); rewrite B; [|apply BN; auto].
  pose proof (q_GDP_net p v F t r Ht Hr) as N. rewrite transfer_deno in N. unfold transfer_paid in N. rewrite NT in N.
  change (if ignore_damages p then 0 else rval v v_damage_costs t r) with (damage_share p v t r) in N.
  rewrite (share_zero p v t r F Ht Hr ND) in N. rewrite M, B in N.
  destruct (PD r Hr) as [_ D]. destruct (D t Ht) as [_ G].
  assert (CI : 0 <= baseline_carbon_intensity p t r).
  { unfold baseline_carbon_intensity, Rdiv. apply Rmult_le_pos; [apply BN; auto|apply Rlt_le, Rinv_0_lt_compat; auto]. }
  apply Rmult_le_pos; [exact CI|].
  pose proof (C31_GDP_positive_pf p v t r F Ht Hr Hdt Hk Hs PD) as Y. unfold GDP_gross in Y.
  assert (X : rval v v_GDP_net t r * (1 + A * baseline_carbon_intensity p t r) = rval v v_GDP_gross t r) by lra.
  assert (1 <= 1 + A * baseline_carbon_intensity p t r) by (pose proof (Rmult_le_pos _ _ HA CI); lra). nra.
Qed.

Section Opt.
  Variables (p : pars) (w : point).
  Hypotheses (F' : feasible p w).
  Hypotheses (Hdt : 0 < dt p) (Hk : 0 <= dk p < 1) (Hs : 0 <= sr p < 1) (Al : 0 <= alpha p <= 1) (PD : positive_data p).
  Hypothesis CN : forall v t r, feasible p v -> model_step p t -> In r (regions p) -> 0 <= mitigation_costs v t r.
  Hypothesis ND : no_damages_counted p.
  Hypothesis NT : transfer p = notransfer.
  Hypothesis Z : forall t r, model_step p t -> In r (regions p) -> mitigation_costs w t r = 0.
  Lemma nd_or : dmg_module p = nodamage \/ ignore_damages p = true.
  Proof. destruct ND as [|[? _]]; auto. Qed.
  Lemma zero_dominates v t r : feasible p v -> model_step p t -> In r (regions p) ->
    consumption v t r <= consumption w t r /\ (0 < mitigation_costs v t r -> consumption v t r < consumption w t r).
  Proof.
    intros F Ht Hr.
    pose proof (C68_lower_costs_more_consumption_pf p v w r F F' Hr NT Hdt Hk ltac:(lra) Al PD) as X.
    edestruct X as (_ & _ & _ & C & S).
    - intros s Hs'. rewrite (share_zero p v s r F Hs' Hr nd_or), (share_zero p w s r F' Hs' Hr nd_or), Z by auto.
      split; [apply CN; auto|lra].
    - intros s Hs'. rewrite Z by auto. rewrite Rmult_0_r. apply Rlt_le.
      apply (C31_capital_positive_pf p w s r F' ltac:(unfold model_step; lia) Hr Hdt Hk).
      + apply PD; auto.
      + apply PD; auto. unfold model_step; lia.
      + intros u Hu. assert (Hu' : model_step p u) by (unfold model_step; lia). unfold investments. rewrite (q_investments p w F') by auto.
        apply Rmult_le_pos; [lra|]. rewrite (q_GDP_net p w F') by auto. rewrite transfer_deno. unfold transfer_paid. rewrite NT.
        change (if ignore_damages p then 0 else rval w v_damage_costs u r) with (damage_share p w u r).
        rewrite (share_zero p w u r F' Hu' Hr nd_or).
        pose proof (C31_GDP_positive_pf p w u r F' Hu' Hr Hdt Hk (proj1 Hs) PD) as Y.
        pose proof (Z u r Hu' Hr) as Zu. unfold GDP_gross, mitigation_costs in *. lra.
    - exact Ht.
    - split; [exact C|]. intros L. apply S; [lra|]. rewrite Z by auto. exact L.
  Qed.
  Lemma gc_zero_damage x t r : objective p = globalcosts -> feasible p x -> model_step p t -> In r (regions p) -> damage_costs x t r = 0.
  Proof. intros O F Ht Hr. destruct ND as [D|[_ D]]; [|congruence]. apply (q_nodamage p x F); auto. Qed.
  Lemma zero_optimal : optimal p w.
  Proof.
    split; [exact F'|]. intros v F. destruct (C44_objective_direction_pf p w v F' F) as [U C].
    destruct (objective p) eqn:O.
    - apply (proj2 (U eq_refl)). apply discounted_le; [lra|]. intros s Hs'.
      assert (Ms : model_step p s) by (unfold model_step; lia).
      assert (P : forall r, In r (regions p) -> 0 < population p s r) by (intros r Hr; destruct (PD r Hr) as [_ D]; apply D; auto).
      destruct (Classical_Prop.classic (exists r, In r (regions p) /\ consumption v s r < consumption w s r)) as [[r [Hr Lr]]|N].
      + left. apply C43_welfare_monotone_pf with p r; auto. intros r' Hr'. apply zero_dominates; auto.
      + right. apply welfare_same with p; auto. intros r Hr. destruct (proj1 (zero_dominates v s r F Ms Hr)); auto. exfalso. eauto.
    - apply (proj2 (C eq_refl)). cbn zeta. apply discounted_le; [lra|]. intros s Hs'.
      assert (Ms : model_step p s) by (unfold model_step; lia).
      assert (E : forall x, feasible p x -> total p (fun r => damage_costs x s r * GDP_gross x s r) = 0).
      { intros x Fx. unfold total. rewrite (Rsum_ext _ (fun _ => 0)).
        - apply Rsum_zeros.
        - intros r Hr. rewrite (gc_zero_damage x s r) by auto. lra. }
      rewrite !E by auto. apply Rplus_le_compat_r. apply Rsum_le. intros r Hr. rewrite Z by auto. apply CN; auto.
  Qed.
  Lemma optimum_costs v t r : optimal p v -> (1 <= t <= tf p)%nat -> In r (regions p) -> mitigation_costs v t r = 0.
  Proof.
    intros [F O] Ht Hr. assert (Mt : model_step p t) by (unfold model_step; lia).
    pose proof (CN v t r F Mt Hr) as [L|L]; [exfalso|auto].
    specialize (O w F'). unfold better, maximise in O. destruct (objective p) eqn:Ob.
    - pose proof (C44_more_consumption_is_better_pf p v w t r F F' Ob Hdt) as Q.
      assert (objective_value p v < objective_value p w); [|lra]. apply Q; auto.
      + intros s q Ms Hq. destruct (PD q Hq) as [_ D]. apply D; auto.
      + intros s q Ms Hq. apply zero_dominates; auto. unfold model_step; lia.
      + apply zero_dominates; auto.
    - pose proof (C44_NPV_is_discounted_sum_pf p v (tf p) F (le_n _)) as A.
      pose proof (C44_NPV_is_discounted_sum_pf p w (tf p) F' (le_n _)) as B.
      unfold objective_value, NPV in *. rewrite A, B, Ob in O.
      assert (discounted p (fun s => total p (mitigation_costs w s) + total p (fun r => damage_costs w s r * GDP_gross w s r)) (tf p)
        < discounted p (fun s => total p (mitigation_costs v s) + total p (fun r => damage_costs v s r * GDP_gross v s r)) (tf p)); [|lra].
      assert (E : forall x s, feasible p x -> model_step p s -> total p (fun r => damage_costs x s r * GDP_gross x s r) = 0).
      { intros x s Fx Ms. unfold total. rewrite (Rsum_ext _ (fun _ => 0)).
        - apply Rsum_zeros.
        - intros q Hq. rewrite (gc_zero_damage x s q) by auto. lra. }
      apply discounted_lt with t; auto.
      + intros s Hs'. assert (Ms : model_step p s) by (unfold model_step; lia). rewrite !E by auto.
        apply Rplus_le_compat_r. apply Rsum_le. intros q Hq. rewrite Z by auto. apply CN; auto.
      + rewrite !E by auto. apply Rplus_lt_compat_r. apply Rsum_lt with r; auto.
        * intros q Hq. rewrite Z by auto. apply CN; auto.
        * rewrite Z by auto. exact L.
  Qed.
End Opt.

(** A plan without abatement has no mitigation costs (no emission trade). *)
Lemma no_abatement_no_costs p w t r : feasible p w -> model_step p t -> In r (regions p) -> trade p = notrade -> 0 < MAC_beta p ->
  relative_abatement w t r = 0 -> mitigation_costs w t r = 0.
Proof.
  intros F Ht Hr T B A. unfold mitigation_costs. rewrite (q_mitigation p w F) by auto. rewrite cost_balance_deno. unfold imported_costs. rewrite T.
  rewrite (q_area p w F) by auto. unfold relative_abatement in A. rewrite A, pow0 by lra. unfold Rdiv. ring.
Qed.

(** A feasible plan whose mitigation costs are zero everywhere is optimal, and every optimal plan has zero mitigation costs. *)
Lemma C68_no_costs_is_optimal_pf : forall p w,
  0 < dt p -> 0 <= dk p < 1 -> 0 <= sr p < 1 -> 0 <= alpha p <= 1 -> positive_data p ->
  0 <= rel_mitigation_costs_min_level p -> no_damages_counted p -> transfer p = notransfer ->
  feasible p w -> (forall t r, model_step p t -> In r (regions p) -> mitigation_costs w t r = 0) ->
  optimal p w /\
  forall v, optimal p v -> forall t r, (1 <= t <= tf p)%nat -> In r (regions p) -> mitigation_costs v t r = 0.
Proof.
  intros p w Hdt Hk Hs Al PD ML ND NT F Z.
  assert (CN : forall v t r, feasible p v -> model_step p t -> In r (regions p) -> 0 <= mitigation_costs v t r) by (intros; apply (costs_nonneg p); auto; lra).
  split; [apply zero_optimal; auto|].
  intros v O t r Ht Hr. apply optimum_costs with p w; auto.
Qed.

(** Without damages to avoid, not abating is optimal, and it is the only optimal abatement path. *)
Lemma C68_not_abating_is_optimal_pf : forall p w,
  numeric_ranges p -> 0 <= sr p < 1 -> 0 <= alpha p <= 1 -> positive_data p ->
  (forall t r, model_step p t -> In r (regions p) -> 0 <= baseline_emissions p t r) ->
  (forall r, In r (regions p) -> 0 <= MAC_scaling p r) -> 0 <= MAC_gamma p ->
  no_damages_counted p -> transfer p = notransfer -> trade p = notrade ->
  feasible p w -> (forall t r, model_step p t -> In r (regions p) -> relative_abatement w t r = 0) ->
  optimal p w /\
  forall v, optimal p v -> 0 < MAC_gamma p ->
    forall t r, model_step p t -> In r (regions p) -> 0 < MAC_scaling p r -> 0 < baseline_emissions p t r ->
    relative_abatement v t r = 0 /\ mitigation_costs v t r = 0 /\ carbonprice v t r = 0 /\
    ((1 <= t)%nat -> regional_emissions v t r = baseline v t r) /\
    consumption v t r = (1 - sr p) * GDP_gross v t r.
Proof.
  intros p w NR Hs Al PD BN MN GN0 ND NT TR F A.
  assert (CN : forall v t r, feasible p v -> model_step p t -> In r (regions p) -> 0 <= mitigation_costs v t r).
  { intros v t r Fv Ht Hr. apply (own_costs_nonneg p); auto. apply nd_or, ND. }
  pose proof (proj1 NR) as Hdt. pose proof (proj1 (proj2 NR)) as Hk. pose proof (proj1 (proj2 (proj2 (proj2 NR)))) as Hb.
  assert (HL : 0 <= LOT_rate p) by apply NR.
  assert (Z : forall t r, model_step p t -> In r (regions p) -> mitigation_costs w t r = 0) by (intros; apply (no_abatement_no_costs p); auto).
  split; [apply zero_optimal; auto|]. intros v O MG t r Ht Hr MS BE.
  pose proof (proj1 O) as Fv. destruct (C28_initial_year_pf p v r Fv Hr Hb HL MS MG) as (_ & A0 & AC0 & PZ).
  assert (M : mitigation_costs v t r = 0).
  { destruct t as [|t].
    - unfold mitigation_costs. rewrite (q_mitigation p v Fv) by auto. rewrite cost_balance_deno. unfold imported_costs. rewrite TR.
      unfold area_under_MAC in AC0. rewrite AC0. lra.
    - apply optimum_costs with p w; auto. unfold model_step in Ht. lia. }
  assert (GN : GDP_net v t r = GDP_gross v t r).
  { unfold GDP_net, GDP_gross. rewrite (q_GDP_net p v Fv) by auto. rewrite transfer_deno. unfold transfer_paid. rewrite NT.
    change (if ignore_damages p then 0 else rval v v_damage_costs t r) with (damage_share p v t r).
    rewrite (share_zero p v t r Fv Ht Hr (nd_or p ND)). unfold mitigation_costs in M. rewrite M. lra. }
  assert (BP : 0 < baseline v t r).
  { unfold baseline. rewrite (q_baseline p v Fv) by auto. destruct (use_carbon_intensity p); [|exact BE].
    unfold baseline_carbon_intensity. destruct (PD r Hr) as [_ D]. destruct (D t Ht) as [_ G]. apply Rmult_lt_0_compat; [apply Rdiv_lt_0_compat; auto|].
    unfold GDP_net in GN. rewrite GN. apply (C31_GDP_positive_pf p v t r); auto; lra. }
  assert (AB : relative_abatement v t r = 0).
  { unfold mitigation_costs in M. rewrite (q_mitigation p v Fv) in M by auto. rewrite cost_balance_deno in M. unfold imported_costs in M. rewrite TR, Rplus_0_r in M.
    rewrite (q_area p v Fv) in M by auto. pose proof (mac_scale_pos p v t r Fv Ht ltac:(lra) MS MG) as SP.
    destruct (q_bounds_r p v Fv t r Ht Hr) as [[Q1 Q2] _].
    destruct Q1 as [Q1|Q1]; [exfalso|unfold relative_abatement; auto].
    pose proof (pypow_pos_pos _ (MAC_beta p + 1) Q1) as PP. unfold mac_scale, learning_factor in SP. unfold baseline in BP.
    assert (0 < gval v g_learning_factor t * MAC_scaling p r * MAC_gamma p * pypow (rval v v_relative_abatement t r) (MAC_beta p + 1) / (MAC_beta p + 1) * rval v v_baseline t r); [|lra].
    apply Rmult_lt_0_compat; [|exact BP]. apply Rdiv_lt_0_compat; [|lra]. apply Rmult_lt_0_compat; auto. }
  split; [exact AB|]. split; [exact M|]. split; [apply PZ; auto|]. split.
  - intros T1. unfold regional_emissions, baseline. rewrite (q_abatement p v Fv) by (auto; unfold model_step in Ht; lia).
    unfold relative_abatement in AB. rewrite AB. ring.
  - unfold consumption. rewrite (q_consumption p v Fv) by auto. unfold GDP_net in GN. rewrite GN. reflexivity.
Qed.
